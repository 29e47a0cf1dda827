(** Model of the matrix types: /repo/src/coo/{coo,std_ops,ccoo}.rs,
    /repo/src/csr/{csr,std_ops,ccsr}.rs, /repo/src/csc/{csc,std_ops,ccsc}.rs.

    A method taking [&mut self] returns the new matrix.  The by-value and by-reference
    versions of an operator (macro opimps) are one definition.  [Clone] and the plain
    accessors rows()/cols()/values()... are the record fields.  Capacities
    ([Vec::with_capacity]) have no observable effect and are left out. *)
From Verif Require Import Rust Scalar Model_kernels.

(** coo.rs:11-17 [Coo] *)
Record Coo (T : Type) := mkCoo {
  coo_rows : nat; coo_cols : nat;
  coo_rowidx : list Z; coo_colidx : list Z; coo_values : list T }.
(** csr.rs:16-22 [CSR] *)
Record CSR (T : Type) := mkCSR {
  csr_rows : nat; csr_cols : nat;
  csr_rowptr : list Z; csr_colidx : list Z; csr_values : list T }.
(** csc.rs:14-20 [CSC] *)
Record CSC (T : Type) := mkCSC {
  csc_rows : nat; csc_cols : nat;
  csc_rowidx : list Z; csc_colptr : list Z; csc_values : list T }.
Arguments mkCoo {T}. Arguments coo_rows {T}. Arguments coo_cols {T}.
Arguments coo_rowidx {T}. Arguments coo_colidx {T}. Arguments coo_values {T}.
Arguments mkCSR {T}. Arguments csr_rows {T}. Arguments csr_cols {T}.
Arguments csr_rowptr {T}. Arguments csr_colidx {T}. Arguments csr_values {T}.
Arguments mkCSC {T}. Arguments csc_rows {T}. Arguments csc_cols {T}.
Arguments csc_rowidx {T}. Arguments csc_colptr {T}. Arguments csc_values {T}.

(** ** Constructors *)
Section New.
Context {BD : Build}.
Context {T : Type}.

(** coo.rs:22-42 [Coo::new] *)
Definition Coo_new (rows cols : nat) (rowidx colidx : list Z) (values : list T) : res (Coo T) :=
  let nnz := length values in
  if negb (nnz =? length rowidx) || negb (nnz =? length colidx) then Err ELength
  else Ok (mkCoo rows cols rowidx colidx values).

(** csr.rs:34-36, csc.rs:32-34: what becomes of a pointer array of length [len] that is not [n + 1].  [n] is the
    caller's to choose, and for [usize::MAX] the sum overflows: panic, or zero in the release build, where an empty
    array then passes the test and is read out of bounds. *)
Definition bad_length {A} (len n : nat) : res A :=
  if (Z.of_nat n =? imax Usize)%Z then
    match BD with Debug => Panic | Release => if len =? 0 then Panic else Err ELength end
  else Err ELength.

(** coo.rs:44-62 [Coo::with_size], [Coo::with_capacity] *)
Definition Coo_with_size (rows cols : nat) : Coo T := mkCoo rows cols [] [] [].

(** csr.rs:27-51 [CSR::new] *)
Definition CSR_new (rows cols : nat) (rowptr colidx : list Z) (values : list T) : res (CSR T) :=
  if negb (length rowptr =? rows + 1) then bad_length (length rowptr) rows else
  let* l := usub (length rowptr) 1 in
  let* nnz := pget rowptr l in
  if length colidx <? nnz then Err ELength else
  if length values <? nnz then Err ELength else
  Ok (mkCSR rows cols rowptr colidx values).

(** csr.rs:53-61 [CSR::with_size] *)
Definition CSR_with_size (rows cols : nat) : CSR T := mkCSR rows cols (repeat 0%Z (rows + 1)) [] [].

(** csc.rs:25-49 [CSC::new] *)
Definition CSC_new (rows cols : nat) (rowidx colptr : list Z) (values : list T) : res (CSC T) :=
  if negb (length colptr =? cols + 1) then bad_length (length colptr) cols else
  let* l := usub (length colptr) 1 in
  let* nnz := pget colptr l in
  if length rowidx <? nnz then Err ELength else
  if length values <? nnz then Err ELength else
  Ok (mkCSC rows cols rowidx colptr values).

(** coo.rs:213-215 [Coo::nnz] *)
Definition Coo_nnz (m : Coo T) : nat := length (coo_values m).
(** csr.rs:150-156 [CSR::nnz] *)
Definition CSR_nnz (m : CSR T) : res nat :=
  if length (csr_rowptr m) =? 0 then Ok 0 else
  let* l := usub (length (csr_rowptr m)) 1 in pget (csr_rowptr m) l.
(** csc.rs:138-144 [CSC::nnz] *)
Definition CSC_nnz (m : CSC T) : res nat :=
  if length (csc_colptr m) =? 0 then Ok 0 else
  let* l := usub (length (csc_colptr m)) 1 in pget (csc_colptr m) l.

(** coo.rs:217-221 [Coo::push] *)
Definition Coo_push (m : Coo T) (row col : Z) (v : T) : Coo T :=
  mkCoo (coo_rows m) (coo_cols m) (coo_rowidx m ++ [row]) (coo_colidx m ++ [col]) (coo_values m ++ [v]).
(** coo.rs:223-227 [Coo::extend] *)
Definition Coo_extend (m : Coo T) (row col : list Z) (v : list T) : Coo T :=
  mkCoo (coo_rows m) (coo_cols m) (coo_rowidx m ++ row) (coo_colidx m ++ col) (coo_values m ++ v).

(** coo.rs:247-267 [Coo::transpose], [Coo::t] *)
Definition Coo_t (m : Coo T) : Coo T :=
  mkCoo (coo_cols m) (coo_rows m) (coo_colidx m) (coo_rowidx m) (coo_values m).
(** csr.rs:160-175 [CSR::transpose], [CSR::t] *)
Definition CSR_t (m : CSR T) : res (CSC T) :=
  unwrap (CSC_new (csr_cols m) (csr_rows m) (csr_colidx m) (csr_rowptr m) (csr_values m)).
(** csc.rs:167-181 [CSC::transpose], [CSC::t] *)
Definition CSC_t (m : CSC T) : res (CSR T) :=
  unwrap (CSR_new (csc_cols m) (csc_rows m) (csc_colptr m) (csc_rowidx m) (csc_values m)).
End New.

Section Matrix.
Context {BD : Build}.
Context {T : Type} {SC : Scalar T}.
Variable I : ity.

(** ** Canonical form *)

(** csr.rs:178-180 [CSR::has_canonical_format] *)
Definition CSR_has_canonical_format (m : CSR T) : res bool :=
  let* n := usub (length (csr_rowptr m)) 1 in
  csr_has_canonical_format I n (csr_rowptr m) (csr_colidx m).
(** csr.rs:184-186 [CSR::has_sorted_indexes] *)
Definition CSR_has_sorted_indexes (m : CSR T) : res bool :=
  let* n := usub (length (csr_rowptr m)) 1 in
  csr_has_sorted_indices I n (csr_rowptr m) (csr_colidx m).
(** csr.rs:189-196 [CSR::sort_indexes] *)
Definition CSR_sort_indexes (m : CSR T) : res (CSR T) :=
  let* n := usub (length (csr_rowptr m)) 1 in
  let* '(j, x) := csr_sort_indices n (csr_rowptr m) (csr_colidx m) (csr_values m) in
  Ok (mkCSR (csr_rows m) (csr_cols m) (csr_rowptr m) j x).
(** csr.rs:217-235 [CSR::prune] *)
Definition CSR_prune (m : CSR T) : res (CSR T) :=
  if negb (length (csr_rowptr m) =? csr_rows m + 1) then Err ELength else
  let* nnz := CSR_nnz m in
  if length (csr_colidx m) <? nnz then Err ELength else
  if length (csr_values m) <? nnz then Err ELength else
  Ok (mkCSR (csr_rows m) (csr_cols m) (csr_rowptr m)
        (vresize (csr_colidx m) nnz 0%Z) (vresize (csr_values m) nnz s0)).
(** csr.rs:199-214 [CSR::sum_duplicates] *)
Definition CSR_sum_duplicates (m : CSR T) : res (CSR T) :=
  let* c := CSR_has_canonical_format m in
  if c then Ok m else
  let* m := CSR_sort_indexes m in
  let* '(p, j, x) := csr_sum_duplicates I (csr_rows m) (csr_cols m)
                       (csr_rowptr m) (csr_colidx m) (csr_values m) in
  CSR_prune (mkCSR (csr_rows m) (csr_cols m) p j x).

(** csc.rs:184-186 [CSC::has_canonical_format] *)
Definition CSC_has_canonical_format (m : CSC T) : res bool :=
  let* n := usub (length (csc_colptr m)) 1 in
  csr_has_canonical_format I n (csc_colptr m) (csc_rowidx m).
(** csc.rs:189-191 [CSC::has_sorted_indexes] *)
Definition CSC_has_sorted_indexes (m : CSC T) : res bool :=
  let* n := usub (length (csc_colptr m)) 1 in
  csr_has_sorted_indices I n (csc_colptr m) (csc_rowidx m).
(** csc.rs:194-201 [CSC::sort_indexes] *)
Definition CSC_sort_indexes (m : CSC T) : res (CSC T) :=
  let* n := usub (length (csc_colptr m)) 1 in
  let* '(j, x) := csr_sort_indices n (csc_colptr m) (csc_rowidx m) (csc_values m) in
  Ok (mkCSC (csc_rows m) (csc_cols m) j (csc_colptr m) x).
(** csc.rs:222-237 [CSC::prune] *)
Definition CSC_prune (m : CSC T) : res (CSC T) :=
  if negb (length (csc_colptr m) =? csc_cols m + 1) then Err ELength else
  let* nnz := CSC_nnz m in
  if length (csc_rowidx m) <? nnz then Err ELength else
  if length (csc_values m) <? nnz then Err ELength else
  let* values := vslice (csc_values m) 0 nnz in
  let* rowidx := vslice (csc_rowidx m) 0 nnz in
  Ok (mkCSC (csc_rows m) (csc_cols m) rowidx (csc_colptr m) values).
(** csc.rs:204-219 [CSC::sum_duplicates] *)
Definition CSC_sum_duplicates (m : CSC T) : res (CSC T) :=
  let* c := CSC_has_canonical_format m in
  if c then Ok m else
  let* m := CSC_sort_indexes m in
  let* '(p, j, x) := csr_sum_duplicates I (csc_cols m) (csc_rows m)
                       (csc_colptr m) (csc_rowidx m) (csc_values m) in
  unwrap (CSC_prune (mkCSC (csc_rows m) (csc_cols m) j p x)).

(** ** Conversions *)

(** coo.rs:271-292 [Coo::to_csc] *)
Definition Coo_to_csc (m : Coo T) : res (CSC T) :=
  let nnz := Coo_nnz m in
  let rowidx := repeat 0%Z nnz in
  let colptr := repeat 0%Z (coo_cols m + 1) in
  let values := repeat s0 nnz in
  let* '(colptr, rowidx, values) :=
    coo_tocsr I (coo_cols m) (coo_rows m) (Coo_nnz m) (coo_colidx m) (coo_rowidx m) (coo_values m)
      colptr rowidx values in
  let* a_mat := unwrap (CSC_new (coo_rows m) (coo_cols m) rowidx colptr values) in
  CSC_sum_duplicates a_mat.

(** coo.rs:296-317 [Coo::to_csr] *)
Definition Coo_to_csr (m : Coo T) : res (CSR T) :=
  let nnz := Coo_nnz m in
  let rowptr := repeat 0%Z (coo_rows m + 1) in
  let colidx := repeat 0%Z nnz in
  let values := repeat s0 nnz in
  let* '(rowptr, colidx, values) :=
    coo_tocsr I (coo_rows m) (coo_cols m) (Coo_nnz m) (coo_rowidx m) (coo_colidx m) (coo_values m)
      rowptr colidx values in
  let* a_mat := unwrap (CSR_new (coo_rows m) (coo_cols m) rowptr colidx values) in
  unwrap (CSR_sum_duplicates a_mat).

(** coo.rs:320-333 [Coo::to_dense] *)
Definition Coo_to_dense (m : Coo T) : res (list (list T)) :=
  let dense := repeat (repeat s0 (coo_cols m)) (coo_rows m) in
  for_range 0 (Coo_nnz m) (fun n dense =>
    let* i := pget (coo_rowidx m) n in
    let* j := pget (coo_colidx m) n in
    let* di := vget dense i in
    let* d := vget di j in
    let* x := vget (coo_values m) n in
    let* di' := vset di j (sadd d x) in
    vset dense i di') dense.

(** csr.rs:364-378 [CSR::to_coo] *)
Definition CSR_to_coo (m : CSR T) : res (Coo T) :=
  let rowidx := repeat 0%Z (length (csr_colidx m)) in
  let* rowidx := expandptr I (csr_rows m) (csr_rowptr m) rowidx in
  unwrap (Coo_new (csr_rows m) (csr_cols m) rowidx (csr_colidx m) (csr_values m)).

(** csr.rs:381-398 [CSR::to_csc] *)
Definition CSR_to_csc (m : CSR T) : res (CSC T) :=
  let* nnz := CSR_nnz m in
  let colptr := repeat 0%Z (csr_cols m + 1) in
  let rowidx := repeat 0%Z nnz in
  let values := repeat s0 nnz in
  let* '(colptr, rowidx, values) :=
    csr_tocsc I (csr_rows m) (csr_cols m) (csr_rowptr m) (csr_colidx m) (csr_values m)
      colptr rowidx values in
  unwrap (CSC_new (csr_rows m) (csr_cols m) rowidx colptr values).

(** csr.rs:401-416 [CSR::to_dense] *)
Definition CSR_to_dense (m : CSR T) : res (list (list T)) :=
  csr_todense (csr_rows m) (csr_cols m) (csr_rowptr m) (csr_colidx m) (csr_values m)
    (repeat (repeat s0 (csr_cols m)) (csr_rows m)).

(** csc.rs:463-491 [CSC::to_csr] *)
Definition CSC_to_csr (m : CSC T) : res (CSR T) :=
  let* nnz := CSC_nnz m in
  let rowptr := repeat 0%Z (csc_rows m + 1) in
  let colidx := repeat 0%Z nnz in
  let values := repeat s0 nnz in
  let* '(rowptr, colidx, values) :=
    csr_tocsc I (csc_cols m) (csc_rows m) (csc_colptr m) (csc_rowidx m) (csc_values m)
      rowptr colidx values in
  unwrap (CSR_new (csc_rows m) (csc_cols m) rowptr colidx values).

(** csc.rs:494-512 [CSC::to_coo] *)
Definition CSC_to_coo (m : CSC T) : res (Coo T) :=
  let* nnz := CSC_nnz m in
  let rowidx := repeat 0%Z nnz in
  let colidx := repeat 0%Z nnz in
  let values := repeat s0 nnz in
  let* '(colidx, rowidx, values) :=
    csr_tocoo I (csc_cols m) (csc_rows m) (csc_colptr m) (csc_rowidx m) (csc_values m)
      colidx rowidx values in
  unwrap (Coo_new (csc_rows m) (csc_cols m) rowidx colidx values).

(** csc.rs:515-517 [CSC::to_dense] *)
Definition CSC_to_dense (m : CSC T) : res (list (list T)) :=
  let* r := CSC_to_csr m in CSR_to_dense r.

(** ** From dense, diagonal, identity *)

(** coo.rs:65-92 [Coo::from_dense] *)
Definition Coo_from_dense (a : list (list T)) : res (Coo T) :=
  let m := length a in
  let* n := if 0 <? m then (let* r := vget a 0 in Ok (length r)) else Ok 0 in
  let* '(rowidx, colidx, values) := for_enum 0 a (fun i r st =>
    for_enum 0 r (fun j v '(rowidx, colidx, values) =>
      if negb (seqb v s0) then
        let* zi := ifrom I i in
        let* zj := ifrom I j in
        Ok (rowidx ++ [zi], colidx ++ [zj], values ++ [v])
      else Ok (rowidx, colidx, values)) st) ([], [], []) in
  Ok (mkCoo m n rowidx colidx values).

(** csr.rs:63-92 [CSR::from_dense] *)
Definition CSR_from_dense (a : list (list T)) : res (CSR T) :=
  let rows := length a in
  let* a0 := vget a 0 in
  let cols := length a0 in
  let* '(rowptr, colidx, values, idxptr) := for_range 0 rows
    (fun i '(rowptr, colidx, values, idxptr) =>
      let* zp := ifrom I idxptr in
      let rowptr := rowptr ++ [zp] in
      let* '(colidx, values, idxptr) := for_range 0 cols (fun j '(colidx, values, idxptr) =>
        let* ai := vget a i in
        let* v := vget ai j in
        if negb (seqb v s0) then
          let* zj := ifrom I j in
          Ok (colidx ++ [zj], values ++ [v], idxptr + 1)
        else Ok (colidx, values, idxptr)) (colidx, values, idxptr) in
      Ok (rowptr, colidx, values, idxptr)) ([], [], [], 0) in
  let* zp := ifrom I idxptr in
  let rowptr := rowptr ++ [zp] in
  unwrap (CSR_prune (mkCSR rows cols rowptr colidx values)).

(** csc.rs:51-80 [CSC::from_dense] *)
Definition CSC_from_dense (a : list (list T)) : res (CSC T) :=
  let rows := length a in
  let* a0 := vget a 0 in
  let cols := length a0 in
  let* '(colptr, rowidx, values, idxptr) := for_range 0 cols
    (fun i '(colptr, rowidx, values, idxptr) =>
      let* zp := ifrom I idxptr in
      let colptr := colptr ++ [zp] in
      let* '(rowidx, values, idxptr) := for_range 0 rows (fun j '(rowidx, values, idxptr) =>
        let* aj := vget a j in
        let* v := vget aj i in
        if negb (seqb v s0) then
          let* zj := ifrom I j in
          Ok (rowidx ++ [zj], values ++ [v], idxptr + 1)
        else Ok (rowidx, values, idxptr)) (rowidx, values, idxptr) in
      Ok (colptr, rowidx, values, idxptr)) ([], [], [], 0) in
  let* zp := ifrom I idxptr in
  let colptr := colptr ++ [zp] in
  unwrap (CSC_prune (mkCSC rows cols rowidx colptr values)).

(** The loop [for i in 0..n { v[i] = I::from(i).unwrap() }], e.g. csr.rs:99-101 *)
Definition fill_iota (v : list Z) (n : nat) : res (list Z) :=
  for_range 0 n (fun i v => let* zi := ifrom I i in vset v i zi) v.

(** coo.rs:95-112 [Coo::with_diagonal] *)
Definition Coo_with_diagonal (diag : list T) : res (Coo T) :=
  let n := length diag in
  let* '(rowidx, colidx, values) := for_range 0 n (fun i '(rowidx, colidx, values) =>
    let* zi := ifrom I i in
    let* rowidx := vset rowidx i zi in
    let* colidx := vset colidx i zi in
    let* d := vget diag i in
    let* values := vset values i d in
    Ok (rowidx, colidx, values)) (repeat 0%Z n, repeat 0%Z n, repeat s0 n) in
  Ok (mkCoo n n rowidx colidx values).
(** coo.rs:164-180 [Coo::identity] *)
Definition Coo_identity (n : nat) : res (Coo T) :=
  let* '(rowidx, colidx, values) := for_range 0 n (fun i '(rowidx, colidx, values) =>
    let* zi := ifrom I i in
    let* rowidx := vset rowidx i zi in
    let* colidx := vset colidx i zi in
    let* values := vset values i s1 in
    Ok (rowidx, colidx, values)) (repeat 0%Z n, repeat 0%Z n, repeat s0 n) in
  Ok (mkCoo n n rowidx colidx values).
(** csr.rs:96-113 [CSR::with_diagonal] *)
Definition CSR_with_diagonal (values : list T) : res (CSR T) :=
  let n := length values in
  let* rowptr := fill_iota (repeat 0%Z (n + 1)) (n + 1) in
  let* colidx := fill_iota (repeat 0%Z n) n in
  Ok (mkCSR n n rowptr colidx values).
(** csc.rs:84-101 [CSC::with_diagonal] *)
Definition CSC_with_diagonal (values : list T) : res (CSC T) :=
  let n := length values in
  let* rowidx := fill_iota (repeat 0%Z n) n in
  let* colptr := fill_iota (repeat 0%Z (n + 1)) (n + 1) in
  Ok (mkCSC n n rowidx colptr values).

(** coo.rs:337-358 [Coo::upper].  The capacity [nnz / 2 + cols] asked for is left out: with an enormous number of
    columns that allocation fails. *)
Definition Coo_upper (m : Coo T) (k : Z) : res (Coo T) :=
  let* '(rowidx, colidx, values) := for_range 0 (Coo_nnz m) (fun i '(rowidx, colidx, values) =>
    let* r := vget (coo_rowidx m) i in
    let* rk := iadd I r k in
    let* c := vget (coo_colidx m) i in
    if (rk <=? c)%Z then
      let* v := vget (coo_values m) i in
      Ok (rowidx ++ [r], colidx ++ [c], values ++ [v])
    else Ok (rowidx, colidx, values)) ([], [], []) in
  Ok (mkCoo (coo_rows m) (coo_cols m) rowidx colidx values).

(** coo.rs:361-372 [Coo::diagonal] *)
Definition Coo_diagonal (m : Coo T) : res (list T) :=
  let n := Nat.min (coo_rows m) (coo_cols m) in
  for_range 0 (length (coo_values m)) (fun i d =>
    let* r := vget (coo_rowidx m) i in
    let* c := vget (coo_colidx m) i in
    if (r =? c)%Z then
      let* j := to_usize r in
      let* x := vget (coo_values m) i in
      vaddto d j x
    else Ok d) (repeat s0 n).
(** csr.rs:419-432 [CSR::diagonal] *)
Definition CSR_diagonal (m : CSR T) : res (list T) :=
  csr_diagonal 0 (csr_rows m) (csr_cols m) (csr_rowptr m) (csr_colidx m) (csr_values m)
    (repeat s0 (Nat.min (csr_rows m) (csr_cols m))).
(** csc.rs:520-533 [CSC::diagonal] *)
Definition CSC_diagonal (m : CSC T) : res (list T) :=
  csr_diagonal 0 (csc_cols m) (csc_rows m) (csc_colptr m) (csc_rowidx m) (csc_values m)
    (repeat s0 (Nat.min (csc_rows m) (csc_cols m))).

(** ** Stacking *)

(** coo.rs:391-434 [Coo::v_stack] *)
Definition Coo_v_stack (a b : Coo T) : res (Coo T) :=
  if negb (coo_cols a =? coo_cols b) then Err EDim else
  let* rows := uadd (coo_rows a) (coo_rows b) in
  let cols := coo_cols a in
  let* shifted := mapM (fun r => let* s := ifrom I (coo_rows a) in iadd I r s) (coo_rowidx b) in
  Ok (mkCoo rows cols (coo_rowidx a ++ shifted) (coo_colidx a ++ coo_colidx b)
        (coo_values a ++ coo_values b)).
(** coo.rs:439-456 [Coo::v_stack3] *)
Definition Coo_v_stack3 (a b c : Coo T) : res (Coo T) :=
  if negb (coo_cols a =? coo_cols b) then Err EDim else
  if negb (coo_cols a =? coo_cols c) then Err EDim else
  let* ab := Coo_v_stack a b in
  Coo_v_stack ab c.
(** coo.rs:461-498 [Coo::h_stack] *)
Definition Coo_h_stack (a b : Coo T) : res (Coo T) :=
  if negb (coo_rows a =? coo_rows b) then Err EDim else
  let rows := coo_rows a in
  let* cols := uadd (coo_cols a) (coo_cols b) in
  let* shifted := mapM (fun c => let* s := ifrom I (coo_cols a) in iadd I c s) (coo_colidx b) in
  Coo_new rows cols (coo_rowidx a ++ coo_rowidx b) (coo_colidx a ++ shifted)
    (coo_values a ++ coo_values b).
(** coo.rs:503-520 [Coo::h_stack3] *)
Definition Coo_h_stack3 (a b c : Coo T) : res (Coo T) :=
  if negb (coo_rows a =? coo_rows b) then Err EDim else
  if negb (coo_rows a =? coo_rows c) then Err EDim else
  let* ab := Coo_h_stack a b in
  Coo_h_stack ab c.
(** coo.rs:533-537 [Coo::compose] *)
Definition Coo_compose (j00 j01 j10 j11 : Coo T) : res (Coo T) :=
  let* j1x := Coo_h_stack j00 j01 in
  let* j2x := Coo_h_stack j10 j11 in
  Coo_v_stack j1x j2x.
(** coo.rs:552-557 [Coo::compose3] *)
Definition Coo_compose3 (j00 j01 j02 j10 j11 j12 j20 j21 j22 : Coo T) : res (Coo T) :=
  let* j1x := Coo_h_stack3 j00 j01 j02 in
  let* j2x := Coo_h_stack3 j10 j11 j12 in
  let* j3x := Coo_h_stack3 j20 j21 j22 in
  Coo_v_stack3 j1x j2x j3x.
(** csr.rs:115-117 [CSR::h_stack] *)
Definition CSR_h_stack (a b : CSR T) : res (CSR T) :=
  let* ca := CSR_to_coo a in
  let* cb := CSR_to_coo b in
  let* c := Coo_h_stack ca cb in
  Coo_to_csr c.
(** csc.rs:560-577 [CSC::compose] *)
Definition CSC_compose (j11 j12 j21 j22 : CSC T) : res (CSC T) :=
  let* j11coo := CSC_to_coo j11 in
  let* j12coo := CSC_to_coo j12 in
  let* j21coo := CSC_to_coo j21 in
  let* j22coo := CSC_to_coo j22 in
  let* j1x := Coo_h_stack j11coo j12coo in
  let* j2x := Coo_h_stack j21coo j22coo in
  let* j := Coo_v_stack j1x j2x in
  Coo_to_csc j.

(** ** Products *)

(** csr.rs:239-258 [CSR::mat_vec]; csr/std_ops.rs:97-104 [*] is its [unwrap] *)
Definition CSR_mat_vec (m : CSR T) (x : list T) : res (list T) :=
  if negb (length x =? csr_cols m) then Err EDim else
  csr_matvec (csr_rows m) (csr_cols m) (csr_rowptr m) (csr_colidx m) (csr_values m) x
    (repeat s0 (csr_rows m)).
(** csc.rs:241-260 [CSC::mat_vec]; csc/std_ops.rs:103-110 [*] is its [unwrap] *)
Definition CSC_mat_vec (m : CSC T) (x : list T) : res (list T) :=
  if negb (length x =? csc_cols m) then Err EDim else
  csc_matvec (csc_rows m) (csc_cols m) (csc_colptr m) (csc_rowidx m) (csc_values m) x
    (repeat s0 (csc_rows m)).
(** csr.rs:262-295 [CSR::mat_mat] *)
Definition CSR_mat_mat (m x : CSR T) : res (CSR T) :=
  if negb (csr_cols m =? csr_rows x) then Err EDim else
  let rows := csr_rows m in
  let cols := csr_cols x in
  let rowptr := repeat 0%Z (rows + 1) in
  let* nnz := csr_matmat_maxnnz rows cols (csr_rowptr m) (csr_colidx m) (csr_rowptr x) (csr_colidx x) in
  let colidx := repeat 0%Z nnz in
  let values := repeat s0 nnz in
  let* '(rowptr, colidx, values) :=
    csr_matmat I rows cols (csr_rowptr m) (csr_colidx m) (csr_values m)
      (csr_rowptr x) (csr_colidx x) (csr_values x) rowptr colidx values in
  CSR_new rows cols rowptr colidx values.
(** csc.rs:264-300 [CSC::mat_mat] *)
Definition CSC_mat_mat (m x : CSC T) : res (CSC T) :=
  if negb (csc_rows x =? csc_cols m) then Err EDim else
  let rows := csc_rows m in
  let cols := csc_cols x in
  let* nnz := csc_matmat_maxnnz rows cols (csc_colptr m) (csc_rowidx m) (csc_colptr x) (csc_rowidx x) in
  let colptr := repeat 0%Z (cols + 1) in
  let rowidx := repeat 0%Z nnz in
  let values := repeat s0 nnz in
  let* '(colptr, rowidx, values) :=
    csc_matmat I rows cols (csc_colptr m) (csc_rowidx m) (csc_values m)
      (csc_colptr x) (csc_rowidx x) (csc_values x) colptr rowidx values in
  CSC_new rows cols rowidx colptr values.

(** ** Selection and access *)

(** csr.rs:306-322 and its copies csr.rs:325-341, csc.rs:310-326, 329-345: default or validated
    index list *)
Definition select_indices (n : nat) (idx : option (list Z)) : res (list Z) :=
  match idx with
  | None => fill_iota (vresize [] n 0%Z) n
  | Some idx =>
      let* _ := for_each idx (fun ri (_ : unit) =>
        if (ri <? 0)%Z then Err ERange else
        let* zn := ifrom I n in
        if (zn <=? ri)%Z then Err ERange else Ok tt) tt in
      Ok idx
  end.
(** csr.rs:299-361 [CSR::select] *)
Definition CSR_select (m : CSR T) (rowidx colidx : option (list Z)) : res (CSR T) :=
  let* c := CSR_has_canonical_format m in
  if negb c then Err ECanonical else
  let* rowidx := select_indices (csr_rows m) rowidx in
  let* colidx := select_indices (csr_cols m) colidx in
  let* '(b_p, b_j, b_x) :=
    csr_select I (csr_rows m) (csr_cols m) (csr_rowptr m) (csr_colidx m) (csr_values m)
      rowidx colidx [] [] [] in
  CSR_new (length rowidx) (length colidx) b_p b_j b_x.
(** csc.rs:303-371 [CSC::select] *)
Definition CSC_select (m : CSC T) (rowidx colidx : option (list Z)) : res (CSC T) :=
  let* c := CSC_has_canonical_format m in
  if negb c then Err ECanonical else
  let* rowidx := select_indices (csc_rows m) rowidx in
  let* colidx := select_indices (csc_cols m) colidx in
  let* '(b_p, b_j, b_x) :=
    csr_select I (csc_cols m) (csc_rows m) (csc_colptr m) (csc_rowidx m) (csc_values m)
      colidx rowidx [] [] [] in
  Ok (mkCSC (length rowidx) (length colidx) b_j b_p b_x).
(** csr.rs:492-506 [CSR::get] *)
Definition CSR_get (m : CSR T) (i j : Z) : res T :=
  let* i := to_usize i in
  let* j := to_usize j in
  let* start := pget (csr_rowptr m) i in
  let* end_ := pget (csr_rowptr m) (i + 1) in
  let* c := for_range_exit start end_ (fun k (_ : unit) =>
    let* c := pget (csr_colidx m) k in
    if c =? j then (let* v := vget (csr_values m) k in Ok (Stop v)) else Ok (Cont tt)) tt in
  match c with Stop v => Ok v | Cont _ => Ok s0 end.

(** ** Addition, subtraction *)

(** csr/std_ops.rs:19-41 [CSR + CSR] *)
Definition CSR_add (a b : CSR T) : res (CSR T) :=
  let* na := CSR_nnz a in
  let* nb := CSR_nnz b in
  let nnz := na + nb in
  let* '(rowptr, colidx, values) :=
    csr_add_csr I (csr_rows a) (csr_cols a) (csr_rowptr a) (csr_colidx a) (csr_values a)
      (csr_rowptr b) (csr_colidx b) (csr_values b)
      (repeat 0%Z (csr_rows a + 1)) (repeat 0%Z nnz) (repeat s0 nnz) in
  unwrap (CSR_new (csr_rows a) (csr_cols a) rowptr colidx values).
(** csr/std_ops.rs:43-65 [CSR - CSR] *)
Definition CSR_sub (a b : CSR T) : res (CSR T) :=
  let* na := CSR_nnz a in
  let* nb := CSR_nnz b in
  let nnz := na + nb in
  let* '(rowptr, colidx, values) :=
    csr_sub_csr I (csr_rows a) (csr_cols a) (csr_rowptr a) (csr_colidx a) (csr_values a)
      (csr_rowptr b) (csr_colidx b) (csr_values b)
      (repeat 0%Z (csr_rows a + 1)) (repeat 0%Z nnz) (repeat s0 nnz) in
  unwrap (CSR_new (csr_rows a) (csr_cols a) rowptr colidx values).
(** csr/std_ops.rs:67-70 [CSR * CSR] *)
Definition CSR_mul (a b : CSR T) : res (CSR T) := unwrap (CSR_mat_mat a b).
(** csc.rs:374-415 [CSC::add] *)
Definition CSC_add (a x : CSC T) : res (CSC T) :=
  if negb (csc_rows x =? csc_rows a) || negb (csc_cols x =? csc_cols a) then Err EDim else
  let* na := CSC_nnz a in
  let* nx := CSC_nnz x in
  let maxnnz := na + nx in
  let* '(colptr, rowidx, values) :=
    csr_add_csr I (csc_cols a) (csc_rows a) (csc_colptr a) (csc_rowidx a) (csc_values a)
      (csc_colptr x) (csc_rowidx x) (csc_values x)
      (repeat 0%Z (length (csc_colptr a))) (repeat 0%Z maxnnz) (repeat s0 maxnnz) in
  let* newnnz := pget colptr (csc_cols a) in
  let* rowidx := vslice rowidx 0 newnnz in
  let* values := vslice values 0 newnnz in
  CSC_new (csc_rows a) (csc_cols a) rowidx colptr values.
(** csc.rs:419-460 [CSC::subtract] *)
Definition CSC_subtract (a x : CSC T) : res (CSC T) :=
  if negb (csc_rows x =? csc_rows a) || negb (csc_cols x =? csc_cols a) then Err EDim else
  let* na := CSC_nnz a in
  let* nx := CSC_nnz x in
  let maxnnz := na + nx in
  let* '(colptr, rowidx, values) :=
    csr_sub_csr I (csc_cols a) (csc_rows a) (csc_colptr a) (csc_rowidx a) (csc_values a)
      (csc_colptr x) (csc_rowidx x) (csc_values x)
      (repeat 0%Z (length (csc_colptr a))) (repeat 0%Z maxnnz) (repeat s0 maxnnz) in
  let* newnnz := pget colptr (csc_cols a) in
  let* rowidx := vslice rowidx 0 newnnz in
  let* values := vslice values 0 newnnz in
  CSC_new (csc_rows a) (csc_cols a) rowidx colptr values.
(** csc/std_ops.rs:20-42 [CSC + CSC] *)
Definition CSC_op_add (a b : CSC T) : res (CSC T) :=
  let* na := CSC_nnz a in
  let* nb := CSC_nnz b in
  let nnz := na + nb in
  let* '(colptr, rowidx, values) :=
    csr_add_csr I (csc_cols a) (csc_rows a) (csc_colptr a) (csc_rowidx a) (csc_values a)
      (csc_colptr b) (csc_rowidx b) (csc_values b)
      (repeat 0%Z (csc_cols a + 1)) (repeat 0%Z nnz) (repeat s0 nnz) in
  unwrap (CSC_new (csc_rows a) (csc_cols a) rowidx colptr values).
(** csc/std_ops.rs:44-66 [CSC - CSC]; line 65 passes [colptr, rowidx] in swapped order *)
Definition CSC_op_sub (a b : CSC T) : res (CSC T) :=
  let* na := CSC_nnz a in
  let* nb := CSC_nnz b in
  let nnz := na + nb in
  let* '(colptr, rowidx, values) :=
    csr_sub_csr I (csc_cols a) (csc_rows a) (csc_colptr a) (csc_rowidx a) (csc_values a)
      (csc_colptr b) (csc_rowidx b) (csc_values b)
      (repeat 0%Z (csc_cols a + 1)) (repeat 0%Z nnz) (repeat s0 nnz) in
  unwrap (CSC_new (csc_rows a) (csc_cols a) colptr rowidx values).
(** csc/std_ops.rs:68-71 [CSC * CSC] *)
Definition CSC_mul (a b : CSC T) : res (CSC T) := unwrap (CSC_mat_mat a b).
(** csc/std_ops.rs:73-76 [CSC * CSR] *)
Definition CSC_mul_csr (a : CSC T) (b : CSR T) : res (CSC T) :=
  let* bc := CSR_to_csc b in unwrap (CSC_mat_mat a bc).
(** coo/std_ops.rs:6-28 [Coo + Coo] *)
Definition Coo_add (a b : Coo T) : res (CSR T) :=
  if negb (coo_rows a =? coo_rows b) then Panic else
  if negb (coo_cols a =? coo_cols b) then Panic else
  let* a_mat := unwrap (Coo_new (coo_rows a) (coo_cols a) (coo_rowidx a ++ coo_rowidx b)
                          (coo_colidx a ++ coo_colidx b) (coo_values a ++ coo_values b)) in
  Coo_to_csr a_mat.

(** csr/std_ops.rs:72-82 [CSR * scalar] *)
Definition CSR_mul_scalar (m : CSR T) (rhs : T) : res (CSR T) :=
  unwrap (CSR_new (csr_rows m) (csr_cols m) (csr_rowptr m) (csr_colidx m)
            (map (fun v => smul v rhs) (csr_values m))).
(** csr/std_ops.rs:83-96 [Complex64 * CSR] *)
Definition CSR_scalar_mul (lhs : T) (m : CSR T) : res (CSR T) :=
  unwrap (CSR_new (csr_rows m) (csr_cols m) (csr_rowptr m) (csr_colidx m)
            (map (fun v => smul lhs v) (csr_values m))).
(** csc/std_ops.rs:78-88 [CSC * scalar]; passes [colptr, rowidx] in swapped order *)
Definition CSC_mul_scalar (m : CSC T) (rhs : T) : res (CSC T) :=
  unwrap (CSC_new (csc_rows m) (csc_cols m) (csc_colptr m) (csc_rowidx m)
            (map (fun v => smul v rhs) (csc_values m))).
(** csc/std_ops.rs:89-102 [Complex64 * CSC]; same swap *)
Definition CSC_scalar_mul (lhs : T) (m : CSC T) : res (CSC T) :=
  unwrap (CSC_new (csc_rows m) (csc_cols m) (csc_colptr m) (csc_rowidx m)
            (map (fun v => smul lhs v) (csc_values m))).

Section Neg.
Context {SN : ScalarNeg T}.
(** coo/std_ops.rs:30-40 [-Coo] *)
Definition Coo_neg (m : Coo T) : res (Coo T) :=
  unwrap (Coo_new (coo_rows m) (coo_cols m) (coo_rowidx m) (coo_colidx m) (map sneg (coo_values m))).
(** csr/std_ops.rs:7-17 [-CSR] *)
Definition CSR_neg (m : CSR T) : res (CSR T) :=
  unwrap (CSR_new (csr_rows m) (csr_cols m) (csr_rowptr m) (csr_colidx m) (map sneg (csr_values m))).
(** csc/std_ops.rs:8-18 [-CSC] *)
Definition CSC_neg (m : CSC T) : res (CSC T) :=
  unwrap (CSC_new (csc_rows m) (csc_cols m) (csc_rowidx m) (csc_colptr m) (map sneg (csc_values m))).
End Neg.
End Matrix.

(** ** Complex matrices *)
Section Complex.
Context {BD : Build}.
Context {F C : Type} {SF : Scalar F} {CO : ComplexOps F C}.

(** coo/ccoo.rs:18-27 [conj] *)
Definition Coo_conj (m : Coo C) : res (Coo C) :=
  unwrap (Coo_new (coo_rows m) (coo_cols m) (coo_rowidx m) (coo_colidx m)
            (map (cconj (F := F)) (coo_values m))).
(** coo/ccoo.rs:29-38 [real] *)
Definition Coo_real (m : Coo C) : res (Coo F) :=
  unwrap (Coo_new (coo_rows m) (coo_cols m) (coo_rowidx m) (coo_colidx m) (map cre (coo_values m))).
(** coo/ccoo.rs:40-49 [imag] *)
Definition Coo_imag (m : Coo C) : res (Coo F) :=
  unwrap (Coo_new (coo_rows m) (coo_cols m) (coo_rowidx m) (coo_colidx m) (map cim (coo_values m))).
(** coo/ccoo.rs:51-53 [h] *)
Definition Coo_h (m : Coo C) : res (Coo C) := let* c := Coo_conj m in Ok (Coo_t c).

(** csr/ccsr.rs:21-30 [with_real] *)
Definition CSR_with_real (re : CSR F) : res (CSR C) :=
  unwrap (CSR_new (csr_rows re) (csr_cols re) (csr_rowptr re) (csr_colidx re)
            (map (fun v => cnew v s0) (csr_values re))).
(** csr/ccsr.rs:32-41 [with_imag] *)
Definition CSR_with_imag (im : CSR F) : res (CSR C) :=
  unwrap (CSR_new (csr_rows im) (csr_cols im) (csr_rowptr im) (csr_colidx im)
            (map (fun v => cnew s0 v) (csr_values im))).
(** csr/ccsr.rs:43-52 [conj] *)
Definition CSR_conj (m : CSR C) : res (CSR C) :=
  unwrap (CSR_new (csr_rows m) (csr_cols m) (csr_rowptr m) (csr_colidx m)
            (map (cconj (F := F)) (csr_values m))).
(** csr/ccsr.rs:54-63 [real] *)
Definition CSR_real (m : CSR C) : res (CSR F) :=
  unwrap (CSR_new (csr_rows m) (csr_cols m) (csr_rowptr m) (csr_colidx m) (map cre (csr_values m))).
(** csr/ccsr.rs:65-74 [imag] *)
Definition CSR_imag (m : CSR C) : res (CSR F) :=
  unwrap (CSR_new (csr_rows m) (csr_cols m) (csr_rowptr m) (csr_colidx m) (map cim (csr_values m))).
(** csr/ccsr.rs:76-78 [h] *)
Definition CSR_h (m : CSR C) : res (CSC C) := let* c := CSR_conj m in CSR_t c.

(** csc/ccsc.rs:19-28 [conj] *)
Definition CSC_conj (m : CSC C) : res (CSC C) :=
  unwrap (CSC_new (csc_rows m) (csc_cols m) (csc_rowidx m) (csc_colptr m)
            (map (cconj (F := F)) (csc_values m))).
(** csc/ccsc.rs:30-39 [real] *)
Definition CSC_real (m : CSC C) : res (CSC F) :=
  unwrap (CSC_new (csc_rows m) (csc_cols m) (csc_rowidx m) (csc_colptr m) (map cre (csc_values m))).
(** csc/ccsc.rs:41-50 [imag] *)
Definition CSC_imag (m : CSC C) : res (CSC F) :=
  unwrap (CSC_new (csc_rows m) (csc_cols m) (csc_rowidx m) (csc_colptr m) (map cim (csc_values m))).
(** csc/ccsc.rs:52-54 [h] *)
Definition CSC_h (m : CSC C) : res (CSR C) := let* c := CSC_conj m in CSC_t c.
End Complex.
