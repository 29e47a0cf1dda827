# Formal model of rwl/sparsetools in Rocq (Coq 8.16.1)

`properties.jsonl` holds the properties in words, `MANIFEST.json` the theorem names for each, `seeded/LOG.jsonl` the
attempts to break the theorems with wrong programs. The Coq development is in `rocq/theories`.

## Layers

| files | content |
|---|---|
| `Rust.v` | result monad (`Ok`/`Err`/`Panic`/`NoFuel`), vectors with bounds checks, index types, arithmetic with and without overflow checks (`Build`), loops |
| `Debug.v` | makes the build with overflow checks the one meant by a statement that names no build |
| `Scalar.v` | scalar operations as a class without laws; law classes; instances (Z, binary64, Gaussian integers, wrapping 64-bit) |
| `Model_kernels.v`, `Model_matrix.v`, `Model_graph.v`, `Model_dok.v`, `Model_text.v`, `Model_eigen.v`, `Model_checked.v` | the code, function by function, each definition citing file and lines in /repo |
| `Spec.v`, `SpecGraph.v`, `SpecPipe.v`, `SpecText.v`, `SpecEigen.v`, `SpecMore.v`, `SpecHom.v`, `SpecBoundary.v`, `SpecChecked.v`, `SpecProgram.v`, `SpecBuild.v` | the independent specification: what is stored at (i,j), well-formedness, canonicity, reachability, call histories and what they mean on plain tables, expected texts, ARPACK's documented contract, maps of values |
| `Wp.v`, `Rep.v`, `*Proofs.v` | proof rules and lemmas |
| `Check.v` | decision procedures for the examples |
| `Main_*.v` | the last proof step of each property theorem, under its name in lower case |
| `Props_*.v` | the property theorems only, each closed by `exact`, with `Example`s meeting their hypotheses and `Print Assumptions` at the end |

## Conventions of the model

* `usize` is `nat`. Index values of type `I` are `Z` restricted to the range of one of the 12 primitive types (`ity`);
  `I::from(n).unwrap()` panics outside the range in every build. `+` and `-` on `I` depend on the build, an implicit
  argument `BD` of the model: with overflow checks (`Debug`) they panic outside the range, without (`Release`) they wrap
  round. A statement that names no build is about `Debug`. C84 carries every such result and error over to `Release`.
* `to_usize().unwrap()` panics on negative values. This is exact for the ten index types of at most 64 bits; for u128
  and i128 the additional panic on values above `usize::MAX` is not modelled (no array has such an index; what is left
  out is that a call which only compares such a value panics). `usize` additions are unbounded (no vector of 2^64
  elements exists) except where the operands are the caller's: the step of `csr_row_slice`, the dimensions of
  stacks, and the length test of `CSR::new` and `CSC::new`, which panic on overflow, or wrap in `Release`. Products
  (`n_vecs * i`, `n_col * i`) are exact: one beyond `usize` is out of bounds, so it panics with overflow checks as in the
  model; that it would wrap in `Release` is left out. So is `isize::MIN` as the diagonal asked for
  in `Release`. `usize` subtractions panic on underflow, or wrap at 64 bits in `Release`.
* Slices and vectors are lists; indexing out of bounds is `Panic`. A function that mutates through `&mut` returns the
  new value. Capacities (`with_capacity`, `reserve`) have no observable effect and are left out, and no
  allocation fails (`Coo::upper` asks for room for as many entries as there are columns; `csr_sort_indices` in
  `Release` for as many as a decreasing pointer wraps to).
* `Result::Err` is `Err e` with a tag per message; `.unwrap()` turns it into `Panic`.
* `while` loops take explicit fuel; running out is `NoFuel`, a value different from every other result. Theorems
  conclude `Ok`, `Err` or `Panic`, which excludes it: termination is part of each of them.
* Scalars: `+ - *` are total functions with no assumed law, so that floats and wrapping integers are instances; `/` may
  panic. Theorems that need laws take a law class as hypothesis (`ZeroAddNZ`: 0+x=x for x not equal to zero; `ZeroAdd`;
  `ExactRing`: a commutative ring with decidable equality). Overflow panics of *scalar* integer arithmetic in
  builds with overflow checks are modelled in `Model_checked.v`, a second version of the functions that compute with
  scalars; C89 relates the two versions, so the other theorems describe what such a build returns when it does not panic.
* `HashMap` is an association list with unique keys; its iteration order is universally quantified. `sort_by` is a
  stable sort.
* The by-value and by-reference versions generated by `opimps` are one definition.
* ARPACK (`dnaupd_c`, `dneupd_c`) is a pair of arbitrary functions on the buffers handed to it; the global lock is left
  out. TabWriter's alignment is an arbitrary function on text; the formatting of scalars is an arbitrary function.

Central notion for the proofs: `crep I c p j x R` says that the pointer, index and value arrays `p`, `j`, `x` represent
the list of rows `R` (lists of column/value pairs), with possibly unused capacity behind. CSC matrices are handled as
the CSR arrays of the transposed matrix. Kernels are verified once against `R` with loop invariants (`wp` rules).

## What is modelled

All of `src/row.rs`, `src/col.rs`, `src/coord.rs`, `src/util.rs`, `src/graph.rs`, `src/dok/dok.rs`,
`src/coo/{coo,ccoo,std_ops}.rs`, `src/csr/{csr,ccsr,std_ops,table}.rs`, `src/csc/{csc,ccsc,std_ops}.rs`,
`src/eigen/real.rs`, and the printing traits of `src/traits.rs`, with these exceptions:

* `Coo::random` and `csr_hstack` are commented out in the source;
* plain accessors (`rows`, `cols`, `shape`, `values`, ...), `Clone` and `Deref`-like conversions are the record fields;
  `values_mut` is the update of a record field;
* `src/test.rs` and the `*_test.rs` files are tests;
* everything listed under the conventions above as a simplification.

Not expressible here: allocation failure, running time, memory use, the numerical accuracy of ARPACK.

## How each property is proved

* **C01-C05, C07** (conversions): counting sort refined against rows; conversions shown to preserve the list of values
  stored at each position. **C06** holds without unused capacity and is refuted with a witness otherwise.
* **C08-C10, C49** functional. **C11-C14**: loop invariants; the stable sort is specified by sortedness plus unchanged
  value list per index.
* **C15-C18, C60**: law-free statement (in-order sums), then the ring statement as corollary. The products use the
  invariant of the column-linking workspace (`LinkProofs.v`).
* **C19, C20, C46, C47, C54**: linking invariant for the general algorithm, merge invariant for the canonical one; C54
  adds partial-correctness rules (`pc`) for the panicking cases. The exact panic conditions of sums and products come from
  rules for "a value with Q, or a panic and then P" (`pw`, `BinopExact.v`, `MatmatExact.v`).
  `PanicProofs.v` relates runs of a kernel under a panicking operation and under a total one (C46 for division).
* **C21, C22, C48, C51, C54, C55, C56, C58, C64-C69**: the property one would expect is false; the theorems describe
  what happens instead, for all inputs wherever possible, else with a witness.
* **C23-C32, C39-C45**: functional lemmas and loop invariants. **C31** covers lists of indices in any order with
  repetition, and the exact error conditions.
* **C33**: induction over histories against a plain table. **C34**: for every permutation of the map.
* **C35-C38**: ghost-state invariants of the graph algorithms against the reflexive transitive closure of the edge
  relation; termination from a measure on unvisited nodes and unprocessed entries.
* **C50, C62**: a language of programs with a register file of matrices (`SpecPipe.v`); induction over programs, with
  the invariant "well-formed" (C50) and the simulation by plain tables (C62). The language has every public method that
  makes or changes a matrix, except `values_mut`, the complex parts, and the CSC operators `-` and `* scalar`, which do
  not compute what their names say (C21, C22); it also has the readings `to_dense`, `mat_vec`, `diagonal`, `get`.
* **C52**: functional. **C53**: corollaries over a ring, and law-free for the transposed product. **C59, C61**:
  uniqueness of canonical arrays.
* **C57, C63, C64**: the text is a string; the table is compared with a specification that knows nothing of the loop;
  C63 is injectivity of the printed form.
* **C58, C65-C69**: for all behaviours of the ARPACK oracle.
* **C70 and later**: laws relating several operations; they follow from the value-list characterisations above and from
  the uniqueness of canonical arrays. C77 needs one more clause in the invariant of the strong-component loop (every arc
  out of a finished node leads to a label at most its own); C78 and C79 combine C35-C38, with the uniqueness of a
  numbering by first occurrence. C80 is proved by simulation: the run on the longer arrays follows the run on the shorter
  ones step by step, with the tails appended. C81's part on `cs_graph_components` relates two runs on different flags.
* **C82**: the number of entries counted over the grid of positions. **C83**: a predicate transformer for "does not run
  out of fuel" without any hypothesis on the state; each while loop has a measure that decreases in every state (for the
  searches: the number of unvisited nodes plus the depth of the stack, with a ghost bound on repeated pushes). For strong
  components on rows with repeated columns no such measure is known, since labels can return to "unvisited"; that case
  is left out of the statement.
* **C84**: a simulation of the two builds: every function of the model is shown, by structural rules for binds and loops,
  to give the same without overflow checks unless it panics with them (`ReleaseProofs.v`, `ReleaseAll.v`). **C85**:
  direct descriptions of the wrapped runs, with the loop rules of the other proofs. **C86**: the loops are shown equal to
  "fold if every cell read exists, else panic", which needs no hypothesis on the arrays; the conversions of coordinate
  matrices with columns outside the matrix reduce to C01 with a larger width.
* **C87**: a relational (parametricity) argument: one commutation lemma per function of the model (`HomAll.v`), by rules
  for binds, loops and vector accesses (`HomProofs.v`); the laws `h` has to satisfy are the ones these lemmas use. The
  programs follow by induction over the calls. Conjugation of complex floats satisfies the laws only up to the sign of
  zeros and is not an instance; Gaussian integers are. **C88**: through C62, the plain tables of the two programs being
  related by `h`.
* **C89**: one lemma per function, by structural rules (`CheckedProofs.v`): the version with checked operations panics or
  does what the other does. The rules are parametrised by a proposition that a panic requires: `True` for integers,
  `False` for operations that never panic. **C90**: the loops are verified again with a rule that allows a panic only if
  the stated condition holds, and a result only if it does not (`CheckedExact.v`). **C91**: likewise (`CheckedDup.v`,
  `CheckedBinop.v`, `CheckedProduct.v`). The kernel for canonical operands is not verified again: it is run with an
  operation that records a panic as a value, and the exact result of C46 says where that value would be stored. **C92**: as C90,
  for kernels that start from the caller's arrays (`CheckedBuffers.v`).
* **C93**: `SpecProgram.v` runs the programs of C62 with the functions of `Model_checked.v`. Exact or panic: C89 call by
  call. Values stay in the type: the checked functions commute with the inclusion of the type into Z (`HomChecked.v`, as
  for C87), so a run on Z given values of the type is a run on the type. Unsigned: the exact conditions of C90 and C91,
  all sums on the way being at most the final element (`ProgramFits.v`).
* **C94**: `SpecBuild.v` is the program semantics of `SpecPipe.v` with the build as a parameter. Each call agrees between the
  builds (C84), then induction over the program; C50, C62 and C88 carry over.
* **C95**: `SpecRound.v` says what rounded arithmetic is (`Rounded`) and states the bounds. `Main_float.v` proves that addition,
  subtraction and multiplication of the standard library's `SpecFloat` (IEEE 754, round to nearest even) are of this kind, by
  following the shifts of the rounding function; no library of floating-point proofs is used. `Main_round.v` bounds in-order
  sums by induction and applies the bound to the sums that C01, C02, C09, C14-C20 and C24 name. That Rust's `f64` and `f32`
  operations are those of `SpecFloat` is assumed, as is usual (no fused multiply-add, no extended precision).
* **C96**: `SpecExact.v` says when arithmetic does not round (`ExactBelow`). For `SpecFloat` this follows from the same analysis of
  the rounding function: the shift it makes divides the mantissa (`round_aux_exact`). Every partial sum is bounded by the sum of
  the absolute values, so induction over the sums of C95 gives the rest. `Props_cexact.v`: the same part by part for complex numbers.
* **C97**: `SpecRange.v` says up to which number arithmetic stays finite (`Ranged`). `Main_float.v` proves that the results of
  `SpecFloat` operations are floats of the format again and are infinite only if the exact result exceeds the largest float;
  `Main_range.v` carries this through in-order sums, using the bounds of C95 for the partial sums. `Props_crange.v`: the same part by part for complex numbers.
* **C98**: `SpecBits.v` names the two laws used, which IEEE arithmetic has: zero may be added first or last (false for single
  additions of a negative zero, but a sum that starts from zero never becomes one), and products commute. From C01-C04,
  C06, C07, C09, C13-C20 both sides are the same in-order sums. NaNs are one value in the model (no payloads). `Props_cbits.v`:
  complex numbers have both laws too, as addition of their parts commutes.
* **C99**: `SpecComplex.v` gives complex numbers over any scalars, with the formulas of `num_complex`; that crate is not in /repo, so
  the formulas are assumed. Each part is a sum of pairs of products; `Main_complex.v` bounds a pair and adds up as for C95. Sums
  without products are part by part, so the theorems of C95 apply to each part.
* **Complex numbers over a ring** (`SpecCring.v`, `Props_cring.v`, under C53, C76, C87, C88): complex numbers over an exact ring form an
  exact ring, and maps of the parts carry over, so the theorems on rings apply to them.
* **Index types** (`SpecIndex.v`, `Props_index.v`, under C51 and C84): that the limits, conversions and additions of the model are
  those of integers with 8 to 128 bits is proved against a description of the types as strings of bits, two's complement if signed.

Statuses in `MANIFEST.json`: "proved" means that the statement of `properties.jsonl` is proved as it stands, including
its negative half where it has one (such theorems are named `..._refuted`, or describe the behaviour).

## Findings in the code

Each is a theorem of the property given.

1. CSC operator `-` passes the arrays in the wrong order and panics (C21). `csc/std_ops.rs:65`.
2. CSC operator `* scalar` the same (C22). `csc/std_ops.rs`.
3. CSR `to_coo` lists unused capacity as entries of row 0 (C06); sums and products leave such capacity (C55).
4. `has_sorted_indexes` panics on an empty first row or column (C12).
5. CSR `+`/`-` and CSC `+` accept operands of different dimensions (C54).
6. `csr_count_diagonals` panics for every matrix with an entry below the diagonal (C48).
7. Element-wise `eq`, `le`, `ge` and `/` miss cells that are empty in both operands; on integers `/` panics whenever the
   second operand stores nothing where the first does (C46).
8. Strong components panic on the empty matrix; a row that stores a column twice can make them panic or return wrong
   labels (C36: two witnesses); `depth_first_order` panics on a start node out of range (C37); the flag variant refuses a matrix without entries (C38).
9. `Coo::extend` accepts slices of different lengths (C56).
10. `csr_row_slice` with step 0 and start > stop does not terminate (C40).
11. Index types: `DoK::set`, `select` and the conversions panic when a dimension or the entry count exceeds the index
    type (C33, C31, C51); `to_csr`, `has_canonical_format` and
    `sum_duplicates` panic on some matrices whose entry count equals the maximum, exactly which is stated (C11, C14, C51);
    the condition under which `+`, `-` and the element-wise kernels panic is exact as well (C19, C20, C46: `csr_sum_fails`, SpecBoundary.v), and so are those
    of the products (C17, C18, C60: `product_kept`, the number of entries of the product) and of the conversions between
    the compressed formats (C03, C04: the numbers of rows or columns with entries), which the undirected graph algorithms inherit (C35, C37).
12. Complex values with negative imaginary part print two signs (C64).
13. `eigs`: imaginary parts are copies of the real parts (C58); real Ritz vectors are constant (C65); the vector buffer
    is too short for `dneupd`, and so is its work array, `2 * ncv` instead of `3 * ncv` (C66); requests with `ido = -1` are
    not served (C68); `nev = 0` is accepted and
    from `nev = 13377` on the size passed for the work array is the wrong 32-bit number (C67); a product request outside the last third of the work
    array panics (C68); the empty matrix panics (C69).
14. Without overflow checks (release builds) the stacks and `upper` give wrong matrices in silence when an index leaves its
    type, products and sums of non-canonical operands lose entries when the count does, and `has_sorted_indexes` on an
    empty first row reads across the rows; a row slice with a "negative" step walks down. Findings 6 and the empty matrix of 8 give right answers there (C85).
15. The constructors check lengths only. `Coo::to_csr` keeps columns outside the matrix (`to_csc` rows), and `CSR::to_csc`
    of overlapping rows can return a different matrix without an error (C86).

## Trusted base

Coq's kernel (checked again by `coqchk`), and the faithfulness of the model, which was established by reading. No
axiom: `Print Assumptions` says "Closed under the global context" for every property theorem (the commands are at the
end of each `Props_*.v`). `coqchk` lists seven library constants of `Coq.ssr.ssrunder`, loaded with the standard
library's `ring`/`lia`; no theorem uses them.
