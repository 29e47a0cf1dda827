(** The functions whose results depend on arithmetic on scalars, once more, with operations that may panic: what a build with
    overflow checks does if the scalars are machine integers.  Each is the definition of the same name, without [_ck], in
    Model_kernels.v, Model_matrix.v or Model_dok.v, with [cadd], [csub], [cmul], [cdiv], [cneg] in place of [sadd], ...; the
    functions without scalar arithmetic are taken from there. *)
From Verif Require Import Rust Scalar Model_kernels Model_matrix Model_dok.

(** [+ - * /] and unary [-] of /repo/src/traits.rs:73-92, which panic on overflow in a build with overflow checks *)
Class Checked (T : Type) := { cadd : T -> T -> res T; csub : T -> T -> res T; cmul : T -> T -> res T; cdiv : T -> T -> res T }.
Class CheckedNeg (T : Type) := { cneg : T -> res T }.

Section Kernels.
Context {BD : Build}.
Context {T : Type} {SC : Scalar T} {CK : Checked T}.
Variable I : ity.
Local Notation csr_has_canonical_format := (Model_kernels.csr_has_canonical_format I).

(** [v[i] += x] for a scalar vector, row.rs:150, 457, 540 and others *)
Definition vaddto_ck (v : list T) (i : nat) (x : T) : res (list T) :=
  let* t := vget v i in
  let* s := cadd t x in
  vset v i s.
(** util.rs:9-13 [axpy]: y += a*x over the first n elements.
    Simplification: [x]/[y] are given as base vector and offset instead of as
    sub-slices; the bounds check of taking the sub-slice is done by the callers. *)
Definition axpy_ck (n : nat) (a : T) (x : list T) (xo : nat) (y : list T) (yo : nat) : res (list T) :=
  for_range 0 n (fun i y =>
    let* xi := vget x (xo + i) in
    let* p := cmul a xi in
    vaddto_ck y (yo + i) p) y.

(** row.rs:30-58 [csr_diagonal] *)
Definition csr_diagonal_ck (k : Z) (n_row n_col : nat) (a_p a_j : list Z) (a_x y_x : list T)
  : res (list T) :=
  let first_row := if (0 <=? k)%Z then 0 else Z.to_nat (-1 * k) in
  let first_col := if (0 <=? k)%Z then Z.to_nat k else 0 in
  let* nr := usub n_row first_row in
  let* nc := usub n_col first_col in
  let n := Nat.min nr nc in
  for_range 0 n (fun i y_x =>
    let row := first_row + i in
    let col := first_col + i in
    let* row_begin := pget a_p row in
    let* row_end := pget a_p (row + 1) in
    let* diag := for_range row_begin row_end (fun j diag =>
      let* c := pget a_j j in
      if c =? col then (let* x := vget a_x j in cadd diag x) else Ok diag) s0 in
    vset y_x i diag) y_x.

(** row.rs:90-105 [csr_scale_rows] *)
Definition csr_scale_rows_ck (n_row _n_col : nat) (a_p _a_j : list Z) (a_x x_x : list T)
  : res (list T) :=
  for_range 0 n_row (fun i a_x =>
    let* start := pget a_p i in
    let* end_ := pget a_p (i + 1) in
    for_range start end_ (fun jj a_x =>
      let* v := vget a_x jj in
      let* x := vget x_x i in
      let* p := cmul v x in
      vset a_x jj p) a_x) a_x.

(** row.rs:111-123 [csr_scale_columns] *)
Definition csr_scale_columns_ck (n_row _n_col : nat) (a_p a_j : list Z) (a_x x_x : list T)
  : res (list T) :=
  let* nnz := pget a_p n_row in
  for_range 0 nnz (fun i a_x =>
    let* v := vget a_x i in
    let* j := pget a_j i in
    let* x := vget x_x j in
    let* p := cmul v x in
    vset a_x i p) a_x.

(** row.rs:136-153 [csr_todense] *)
Definition csr_todense_ck (n_row _n_col : nat) (a_p a_j : list Z) (a_x : list T)
  (b_x : list (list T)) : res (list (list T)) :=
  for_range 0 n_row (fun i b_x =>
    let* row_start := pget a_p i in
    let* row_end := pget a_p (i + 1) in
    for_range row_start row_end (fun jj b_x =>
      let* j := pget a_j jj in
      let* x := vget a_x jj in
      let* bi := vget b_x i in
      let* bi' := vaddto_ck bi j x in
      vset b_x i bi') b_x) b_x.

(** row.rs:420-483 [csr_matmat].  [head as usize] is [Z.to_nat] guarded by
    [to_usize] (a negative head, cast to a huge usize, would panic on indexing). *)
Definition csr_matmat_ck (n_row n_col : nat) (a_p a_j : list Z) (a_x : list T)
  (b_p b_j : list Z) (b_x : list T) (c_p c_j : list Z) (c_x : list T)
  : res (list Z * list Z * list T) :=
  let next := repeat (-1)%Z n_col in
  let sums := repeat s0 n_col in
  let* c_p := vset c_p 0 0%Z in
  let* '(_, _, _, c_p, c_j, c_x) := for_range 0 n_row (fun i '(next, sums, nnz, c_p, c_j, c_x) =>
    let* jj_start := pget a_p i in
    let* jj_end := pget a_p (i + 1) in
    let* '(next, sums, head, length) := for_range jj_start jj_end (fun jj st =>
      let* j := pget a_j jj in
      let* v := vget a_x jj in
      let* kk_start := pget b_p j in
      let* kk_end := pget b_p (j + 1) in
      for_range kk_start kk_end (fun kk '(next, sums, head, length) =>
        let* k := pget b_j kk in
        let* bx := vget b_x kk in
        let* p := cmul v bx in
        let* sums := vaddto_ck sums k p in
        let* nk := vget next k in
        if (nk =? -1)%Z then
          let* next := vset next k head in
          let* length := iadd I length 1 in
          Ok (next, sums, Z.of_nat k, length)
        else Ok (next, sums, head, length)) st) (next, sums, (-2)%Z, 0%Z) in
    let* ulength := to_usize length in
    let* '(next, sums, _, nnz, c_j, c_x) := for_range 0 ulength
      (fun _ '(next, sums, head, nnz, c_j, c_x) =>
        let* h := to_usize head in
        let* s := vget sums h in
        let* '(nnz, c_j, c_x) :=
          if negb (seqb s s0) then
            let* unnz := to_usize nnz in
            let* zh := icheck I head in
            let* c_j := vset c_j unnz zh in
            let* c_x := vset c_x unnz s in
            let* nnz := iadd I nnz 1 in
            Ok (nnz, c_j, c_x)
          else Ok (nnz, c_j, c_x) in
        let temp := h in
        let* head := vget next h in
        let* next := vset next temp (-1)%Z in
        let* sums := vset sums temp s0 in
        Ok (next, sums, head, nnz, c_j, c_x)) (next, sums, head, nnz, c_j, c_x) in
    let* c_p := vset c_p (i + 1) nnz in
    Ok (next, sums, nnz, c_p, c_j, c_x)) (next, sums, 0%Z, c_p, c_j, c_x) in
  Ok (c_p, c_j, c_x).

Section Binop.
Context {T2 : Type} {NZ : Nonzero T2}.
(** row.rs:6 [Binop] *)
Variable op : T -> T -> res T2.
Local Notation csr_binop_csr_canonical := (Model_kernels.csr_binop_csr_canonical I op).
(** row.rs:537-547 and 552-562: scan one row, accumulate and link columns *)
Definition binop_scan_ck (start end_ : nat) (x_j : list Z) (x_x : list T)
  (st : list Z * list T * Z * Z) : res (list Z * list T * Z * Z) :=
  for_range start end_ (fun jj '(next, acc, head, length) =>
    let* j := pget x_j jj in
    let* x := vget x_x jj in
    let* acc := vaddto_ck acc j x in
    let* nj := vget next j in
    if (nj =? -1)%Z then
      let* next := vset next j head in
      let* length := iadd I length 1 in
      Ok (next, acc, Z.of_nat j, length)
    else Ok (next, acc, head, length)) st.

(** row.rs:504-585 [csr_binop_csr_general] *)
Definition csr_binop_csr_general_ck (n_row n_col : nat) (a_p a_j : list Z) (a_x : list T)
  (b_p b_j : list Z) (b_x : list T) (c_p c_j : list Z) (c_x : list T2)
  : res (list Z * list Z * list T2) :=
  let next := repeat (-1)%Z n_col in
  let a_row := repeat s0 n_col in
  let b_row := repeat s0 n_col in
  let* c_p := vset c_p 0 0%Z in
  let* '(_, _, _, _, c_p, c_j, c_x) := for_range 0 n_row
    (fun i '(next, a_row, b_row, nnz, c_p, c_j, c_x) =>
    let* i_start := pget a_p i in
    let* i_end := pget a_p (i + 1) in
    let* '(next, a_row, head, length) :=
      binop_scan_ck i_start i_end a_j a_x (next, a_row, (-2)%Z, 0%Z) in
    let* i_start := pget b_p i in
    let* i_end := pget b_p (i + 1) in
    let* '(next, b_row, head, length) :=
      binop_scan_ck i_start i_end b_j b_x (next, b_row, head, length) in
    let* ulength := to_usize length in
    let* '(next, a_row, b_row, _, nnz, c_j, c_x) := for_range 0 ulength
      (fun _ '(next, a_row, b_row, head, nnz, c_j, c_x) =>
        let* h := to_usize head in
        let* va := vget a_row h in
        let* vb := vget b_row h in
        let* result := op va vb in
        let* '(nnz, c_j, c_x) :=
          if nonzero result then
            let* unnz := to_usize nnz in
            let* zh := icheck I head in
            let* c_j := vset c_j unnz zh in
            let* c_x := vset c_x unnz result in
            let* nnz := iadd I nnz 1 in
            Ok (nnz, c_j, c_x)
          else Ok (nnz, c_j, c_x) in
        let temp := h in
        let* head := vget next h in
        let* next := vset next temp (-1)%Z in
        let* a_row := vset a_row temp s0 in
        let* b_row := vset b_row temp s0 in
        Ok (next, a_row, b_row, head, nnz, c_j, c_x)) (next, a_row, b_row, head, nnz, c_j, c_x) in
    let* c_p := vset c_p (i + 1) nnz in
    Ok (next, a_row, b_row, nnz, c_p, c_j, c_x)) (next, a_row, b_row, 0%Z, c_p, c_j, c_x) in
  Ok (c_p, c_j, c_x).

(** row.rs:716-739 [csr_binop_csr] *)
Definition csr_binop_csr_ck (n_row n_col : nat) (a_p a_j : list Z) (a_x : list T)
  (b_p b_j : list Z) (b_x : list T) (c_p c_j : list Z) (c_x : list T2)
  : res (list Z * list Z * list T2) :=
  let* ca := csr_has_canonical_format n_row a_p a_j in
  let* cc := if ca then csr_has_canonical_format n_row b_p b_j else Ok false in
  if cc then csr_binop_csr_canonical n_row n_col a_p a_j a_x b_p b_j b_x c_p c_j c_x
  else csr_binop_csr_general_ck n_row n_col a_p a_j a_x b_p b_j b_x c_p c_j c_x.

End Binop.
(** row.rs:743-799 [csr_ne_csr], [csr_eq_csr] *)
Definition csr_ne_csr_ck := csr_binop_csr_ck (fun a b => Ok (negb (seqb a b))).
Definition csr_eq_csr_ck := csr_binop_csr_ck (fun a b => Ok (seqb a b)).
(** row.rs:917-1031 [csr_mul_csr], [csr_div_csr], [csr_add_csr], [csr_sub_csr] *)
Definition csr_mul_csr_ck := csr_binop_csr_ck (fun a b => cmul a b).
Definition csr_div_csr_ck := csr_binop_csr_ck (fun a b => cdiv a b).
Definition csr_add_csr_ck := csr_binop_csr_ck (fun a b => cadd a b).
Definition csr_sub_csr_ck := csr_binop_csr_ck (fun a b => csub a b).
Section Ord.
Context {SO : ScalarOrd T}.
(** row.rs:801-915 [csr_lt_csr], [csr_le_csr], [csr_gt_csr], [csr_ge_csr];
    [a > b] is [b < a] for all primitive types *)
Definition csr_lt_csr_ck := csr_binop_csr_ck (fun a b => Ok (sltb a b)).
Definition csr_le_csr_ck := csr_binop_csr_ck (fun a b => Ok (sleb a b)).
Definition csr_gt_csr_ck := csr_binop_csr_ck (fun a b => Ok (sltb b a)).
Definition csr_ge_csr_ck := csr_binop_csr_ck (fun a b => Ok (sleb b a)).
(** row.rs:1033-1100 [csr_max_csr], [csr_min_csr] *)
Definition csr_max_csr_ck := csr_binop_csr_ck (fun a b => Ok (if sltb b a then a else b)).
Definition csr_min_csr_ck := csr_binop_csr_ck (fun a b => Ok (if sltb a b then a else b)).
End Ord.
(** row.rs:1117-1143 [csr_sum_duplicates]; fuel from the end of the row *)
Definition csr_sum_duplicates_ck (n_row _n_col : nat) (a_p a_j : list Z) (a_x : list T)
  : res (list Z * list Z * list T) :=
  let* '(a_p, a_j, a_x, _, _) := for_range 0 n_row (fun i '(a_p, a_j, a_x, nnz, row_end) =>
    let jj := row_end in
    let* row_end := pget a_p (i + 1) in
    let* '(_, a_j, a_x, nnz) := while (S (row_end - jj)) (fun '(jj, _, _, _) => Ok (jj <? row_end))
      (fun '(jj, a_j, a_x, nnz) =>
        let* j := vget a_j jj in
        let* x := vget a_x jj in
        let jj := jj + 1 in
        let* '(jj, x) := while (S (row_end - jj))
          (fun '(jj, _) =>
            if jj <? row_end then (let* j' := vget a_j jj in Ok (j' =? j)%Z) else Ok false)
          (fun '(jj, x) =>
            let* x' := vget a_x jj in
            let* x := cadd x x' in
            Ok (jj + 1, x)) (jj, x) in
        let* a_j := vset a_j nnz j in
        let* a_x := vset a_x nnz x in
        Ok (jj, a_j, a_x, nnz + 1)) (jj, a_j, a_x, nnz) in
    let* znnz := ifrom I nnz in
    let* a_p := vset a_p (i + 1) znnz in
    Ok (a_p, a_j, a_x, nnz, row_end)) (a_p, a_j, a_x, 0, 0) in
  Ok (a_p, a_j, a_x).

(** row.rs:1201-1219 [csr_matvec] *)
Definition csr_matvec_ck (n_row _n_col : nat) (a_p a_j : list Z) (a_x x_x y_x : list T)
  : res (list T) :=
  for_range 0 n_row (fun i y_x =>
    let* sum := vget y_x i in
    let* start := pget a_p i in
    let* end_ := pget a_p (i + 1) in
    let* sum := for_range start end_ (fun jj sum =>
      let* v := vget a_x jj in
      let* j := pget a_j jj in
      let* x := vget x_x j in
      let* p := cmul v x in
      cadd sum p) sum in
    vset y_x i sum) y_x.

(** row.rs:1238-1260 [csr_matvecs] *)
Definition csr_matvecs_ck (n_row _n_col n_vecs : nat) (a_p a_j : list Z) (a_x x_x y_x : list T)
  : res (list T) :=
  for_range 0 n_row (fun i y_x =>
    (* let y = &mut y_x[n_vecs * i..]; *)
    if length y_x <? n_vecs * i then Panic else
    let* start := pget a_p i in
    let* end_ := pget a_p (i + 1) in
    for_range start end_ (fun jj y_x =>
      let* j := pget a_j jj in
      let* a := vget a_x jj in
      (* let x = &x_x[n_vecs * j..]; *)
      if length x_x <? n_vecs * j then Panic else
      axpy_ck n_vecs a x_x (n_vecs * j) y_x (n_vecs * i)) y_x) y_x.

(** coord.rs:92-113 [coo_todense] *)
Definition coo_todense_ck (n_row n_col nnz : nat) (a_i a_j : list Z) (a_x b_x : list T)
  (fortran : bool) : res (list T) :=
  if negb fortran then
    for_range 0 nnz (fun n b_x =>
      let* ai := pget a_i n in
      let* aj := pget a_j n in
      let i := n_col * ai + aj in
      let* x := vget a_x n in
      vaddto_ck b_x i x) b_x
  else
    for_range 0 nnz (fun n b_x =>
      let* aj := pget a_j n in
      let* ai := pget a_i n in
      let i := n_row * aj + ai in
      let* x := vget a_x n in
      vaddto_ck b_x i x) b_x.

(** coord.rs:135-148 [coo_matvec] *)
Definition coo_matvec_ck (nnz : nat) (a_i a_j : list Z) (a_x x_x y_x : list T) : res (list T) :=
  for_range 0 nnz (fun n y_x =>
    let* i := pget a_i n in
    let* j := pget a_j n in
    let* v := vget a_x n in
    let* x := vget x_x j in
    let* p := cmul v x in
    vaddto_ck y_x i p) y_x.

(** col.rs:26-44 [csc_matvec] *)
Definition csc_matvec_ck (_n_row n_col : nat) (a_p a_i : list Z) (a_x x_x y_x : list T)
  : res (list T) :=
  for_range 0 n_col (fun j y_x =>
    let* col_start := pget a_p j in
    let* col_end := pget a_p (j + 1) in
    for_range col_start col_end (fun ii y_x =>
      let* i := pget a_i ii in
      let* v := vget a_x ii in
      let* x := vget x_x j in
      let* p := cmul v x in
    vaddto_ck y_x i p) y_x) y_x.

(** col.rs:66-91 [csc_matvecs] *)
Definition csc_matvecs_ck (_n_row n_col n_vecs : nat) (a_p a_i : list Z) (a_x x_x y_x : list T)
  : res (list T) :=
  for_range 0 n_col (fun j y_x =>
    let* start := pget a_p j in
    let* end_ := pget a_p (j + 1) in
    for_range start end_ (fun ii y_x =>
      let* i := pget a_i ii in
      let* v := vget a_x ii in
      (* &x_x[n_vecs * j..], &mut y_x[n_vecs * i..] *)
      if length x_x <? n_vecs * j then Panic else
      if length y_x <? n_vecs * i then Panic else
      axpy_ck n_vecs v x_x (n_vecs * j) y_x (n_vecs * i)) y_x) y_x.

(** col.rs:95-105 [csc_diagonal] *)
Definition csc_diagonal_ck (k : Z) (n_row n_col : nat) (a_p a_j : list Z) (a_x y_x : list T) :=
  csr_diagonal_ck (- k) n_col n_row a_p a_j a_x y_x.
(** col.rs:132-146 [csc_matmat] *)
Definition csc_matmat_ck (n_row n_col : nat) (a_p a_i : list Z) (a_x : list T)
  (b_p b_i : list Z) (b_x : list T) (c_p c_i : list Z) (c_x : list T) :=
  csr_matmat_ck n_col n_row b_p b_i b_x a_p a_i a_x c_p c_i c_x.
End Kernels.

Section Matrix.
Context {BD : Build}.
Context {T : Type} {SC : Scalar T} {CK : Checked T}.
Variable I : ity.
Local Notation CSR_has_canonical_format := (Model_matrix.CSR_has_canonical_format I).
Local Notation CSC_has_canonical_format := (Model_matrix.CSC_has_canonical_format I).
Local Notation CSC_to_csr := (Model_matrix.CSC_to_csr I).
Local Notation CSR_to_coo := (Model_matrix.CSR_to_coo I).
Local Notation Coo_h_stack := (Model_matrix.Coo_h_stack I).
Local Notation CSC_to_coo := (Model_matrix.CSC_to_coo I).
Local Notation Coo_v_stack := (Model_matrix.Coo_v_stack I).
Local Notation CSR_to_csc := (Model_matrix.CSR_to_csc I).

(** csr.rs:199-214 [CSR::sum_duplicates] *)
Definition CSR_sum_duplicates_ck (m : CSR T) : res (CSR T) :=
  let* c := CSR_has_canonical_format m in
  if c then Ok m else
  let* m := CSR_sort_indexes m in
  let* '(p, j, x) := csr_sum_duplicates_ck I (csr_rows m) (csr_cols m)
                       (csr_rowptr m) (csr_colidx m) (csr_values m) in
  CSR_prune (mkCSR (csr_rows m) (csr_cols m) p j x).

(** csc.rs:204-219 [CSC::sum_duplicates] *)
Definition CSC_sum_duplicates_ck (m : CSC T) : res (CSC T) :=
  let* c := CSC_has_canonical_format m in
  if c then Ok m else
  let* m := CSC_sort_indexes m in
  let* '(p, j, x) := csr_sum_duplicates_ck I (csc_cols m) (csc_rows m)
                       (csc_colptr m) (csc_rowidx m) (csc_values m) in
  unwrap (CSC_prune (mkCSC (csc_rows m) (csc_cols m) j p x)).

(** coo.rs:271-292 [Coo::to_csc] *)
Definition Coo_to_csc_ck (m : Coo T) : res (CSC T) :=
  let nnz := Coo_nnz m in
  let rowidx := repeat 0%Z nnz in
  let colptr := repeat 0%Z (coo_cols m + 1) in
  let values := repeat s0 nnz in
  let* '(colptr, rowidx, values) :=
    coo_tocsr I (coo_cols m) (coo_rows m) (Coo_nnz m) (coo_colidx m) (coo_rowidx m) (coo_values m)
      colptr rowidx values in
  let* a_mat := unwrap (CSC_new (coo_rows m) (coo_cols m) rowidx colptr values) in
  CSC_sum_duplicates_ck a_mat.

(** coo.rs:296-317 [Coo::to_csr] *)
Definition Coo_to_csr_ck (m : Coo T) : res (CSR T) :=
  let nnz := Coo_nnz m in
  let rowptr := repeat 0%Z (coo_rows m + 1) in
  let colidx := repeat 0%Z nnz in
  let values := repeat s0 nnz in
  let* '(rowptr, colidx, values) :=
    coo_tocsr I (coo_rows m) (coo_cols m) (Coo_nnz m) (coo_rowidx m) (coo_colidx m) (coo_values m)
      rowptr colidx values in
  let* a_mat := unwrap (CSR_new (coo_rows m) (coo_cols m) rowptr colidx values) in
  unwrap (CSR_sum_duplicates_ck a_mat).

(** coo.rs:320-333 [Coo::to_dense] *)
Definition Coo_to_dense_ck (m : Coo T) : res (list (list T)) :=
  let dense := repeat (repeat s0 (coo_cols m)) (coo_rows m) in
  for_range 0 (Coo_nnz m) (fun n dense =>
    let* i := pget (coo_rowidx m) n in
    let* j := pget (coo_colidx m) n in
    let* di := vget dense i in
    let* d := vget di j in
    let* x := vget (coo_values m) n in
    let* s := cadd d x in
    let* di' := vset di j s in
    vset dense i di') dense.

(** csr.rs:401-416 [CSR::to_dense] *)
Definition CSR_to_dense_ck (m : CSR T) : res (list (list T)) :=
  csr_todense_ck (csr_rows m) (csr_cols m) (csr_rowptr m) (csr_colidx m) (csr_values m)
    (repeat (repeat s0 (csr_cols m)) (csr_rows m)).
(** csc.rs:515-517 [CSC::to_dense] *)
Definition CSC_to_dense_ck (m : CSC T) : res (list (list T)) :=
  let* r := CSC_to_csr m in CSR_to_dense_ck r.
(** coo.rs:361-372 [Coo::diagonal] *)
Definition Coo_diagonal_ck (m : Coo T) : res (list T) :=
  let n := Nat.min (coo_rows m) (coo_cols m) in
  for_range 0 (length (coo_values m)) (fun i d =>
    let* r := vget (coo_rowidx m) i in
    let* c := vget (coo_colidx m) i in
    if (r =? c)%Z then
      let* j := to_usize r in
      let* x := vget (coo_values m) i in
      vaddto_ck d j x
    else Ok d) (repeat s0 n).

(** csr.rs:419-432 [CSR::diagonal] *)
Definition CSR_diagonal_ck (m : CSR T) : res (list T) :=
  csr_diagonal_ck 0 (csr_rows m) (csr_cols m) (csr_rowptr m) (csr_colidx m) (csr_values m)
    (repeat s0 (Nat.min (csr_rows m) (csr_cols m))).
(** csc.rs:520-533 [CSC::diagonal] *)
Definition CSC_diagonal_ck (m : CSC T) : res (list T) :=
  csr_diagonal_ck 0 (csc_cols m) (csc_rows m) (csc_colptr m) (csc_rowidx m) (csc_values m)
    (repeat s0 (Nat.min (csc_rows m) (csc_cols m))).
(** csr.rs:115-117 [CSR::h_stack] *)
Definition CSR_h_stack_ck (a b : CSR T) : res (CSR T) :=
  let* ca := CSR_to_coo a in
  let* cb := CSR_to_coo b in
  let* c := Coo_h_stack ca cb in
  Coo_to_csr_ck c.
(** csc.rs:560-577 [CSC::compose] *)
Definition CSC_compose_ck (j11 j12 j21 j22 : CSC T) : res (CSC T) :=
  let* j11coo := CSC_to_coo j11 in
  let* j12coo := CSC_to_coo j12 in
  let* j21coo := CSC_to_coo j21 in
  let* j22coo := CSC_to_coo j22 in
  let* j1x := Coo_h_stack j11coo j12coo in
  let* j2x := Coo_h_stack j21coo j22coo in
  let* j := Coo_v_stack j1x j2x in
  Coo_to_csc_ck j.

(** csr.rs:239-258 [CSR::mat_vec]; csr/std_ops.rs:97-104 [*] is its [unwrap] *)
Definition CSR_mat_vec_ck (m : CSR T) (x : list T) : res (list T) :=
  if negb (length x =? csr_cols m) then Err EDim else
  csr_matvec_ck (csr_rows m) (csr_cols m) (csr_rowptr m) (csr_colidx m) (csr_values m) x
    (repeat s0 (csr_rows m)).
(** csc.rs:241-260 [CSC::mat_vec]; csc/std_ops.rs:103-110 [*] is its [unwrap] *)
Definition CSC_mat_vec_ck (m : CSC T) (x : list T) : res (list T) :=
  if negb (length x =? csc_cols m) then Err EDim else
  csc_matvec_ck (csc_rows m) (csc_cols m) (csc_colptr m) (csc_rowidx m) (csc_values m) x
    (repeat s0 (csc_rows m)).
(** csr.rs:262-295 [CSR::mat_mat] *)
Definition CSR_mat_mat_ck (m x : CSR T) : res (CSR T) :=
  if negb (csr_cols m =? csr_rows x) then Err EDim else
  let rows := csr_rows m in
  let cols := csr_cols x in
  let rowptr := repeat 0%Z (rows + 1) in
  let* nnz := csr_matmat_maxnnz rows cols (csr_rowptr m) (csr_colidx m) (csr_rowptr x) (csr_colidx x) in
  let colidx := repeat 0%Z nnz in
  let values := repeat s0 nnz in
  let* '(rowptr, colidx, values) :=
    csr_matmat_ck I rows cols (csr_rowptr m) (csr_colidx m) (csr_values m)
      (csr_rowptr x) (csr_colidx x) (csr_values x) rowptr colidx values in
  CSR_new rows cols rowptr colidx values.

(** csc.rs:264-300 [CSC::mat_mat] *)
Definition CSC_mat_mat_ck (m x : CSC T) : res (CSC T) :=
  if negb (csc_rows x =? csc_cols m) then Err EDim else
  let rows := csc_rows m in
  let cols := csc_cols x in
  let* nnz := csc_matmat_maxnnz rows cols (csc_colptr m) (csc_rowidx m) (csc_colptr x) (csc_rowidx x) in
  let colptr := repeat 0%Z (cols + 1) in
  let rowidx := repeat 0%Z nnz in
  let values := repeat s0 nnz in
  let* '(colptr, rowidx, values) :=
    csc_matmat_ck I rows cols (csc_colptr m) (csc_rowidx m) (csc_values m)
      (csc_colptr x) (csc_rowidx x) (csc_values x) colptr rowidx values in
  CSC_new rows cols rowidx colptr values.

(** csr/std_ops.rs:19-41 [CSR + CSR] *)
Definition CSR_add_ck (a b : CSR T) : res (CSR T) :=
  let* na := CSR_nnz a in
  let* nb := CSR_nnz b in
  let nnz := na + nb in
  let* '(rowptr, colidx, values) :=
    csr_add_csr_ck I (csr_rows a) (csr_cols a) (csr_rowptr a) (csr_colidx a) (csr_values a)
      (csr_rowptr b) (csr_colidx b) (csr_values b)
      (repeat 0%Z (csr_rows a + 1)) (repeat 0%Z nnz) (repeat s0 nnz) in
  unwrap (CSR_new (csr_rows a) (csr_cols a) rowptr colidx values).

(** csr/std_ops.rs:43-65 [CSR - CSR] *)
Definition CSR_sub_ck (a b : CSR T) : res (CSR T) :=
  let* na := CSR_nnz a in
  let* nb := CSR_nnz b in
  let nnz := na + nb in
  let* '(rowptr, colidx, values) :=
    csr_sub_csr_ck I (csr_rows a) (csr_cols a) (csr_rowptr a) (csr_colidx a) (csr_values a)
      (csr_rowptr b) (csr_colidx b) (csr_values b)
      (repeat 0%Z (csr_rows a + 1)) (repeat 0%Z nnz) (repeat s0 nnz) in
  unwrap (CSR_new (csr_rows a) (csr_cols a) rowptr colidx values).

(** csr/std_ops.rs:67-70 [CSR * CSR] *)
Definition CSR_mul_ck (a b : CSR T) : res (CSR T) := unwrap (CSR_mat_mat_ck a b).
(** csc.rs:374-415 [CSC::add] *)
Definition CSC_add_ck (a x : CSC T) : res (CSC T) :=
  if negb (csc_rows x =? csc_rows a) || negb (csc_cols x =? csc_cols a) then Err EDim else
  let* na := CSC_nnz a in
  let* nx := CSC_nnz x in
  let maxnnz := na + nx in
  let* '(colptr, rowidx, values) :=
    csr_add_csr_ck I (csc_cols a) (csc_rows a) (csc_colptr a) (csc_rowidx a) (csc_values a)
      (csc_colptr x) (csc_rowidx x) (csc_values x)
      (repeat 0%Z (length (csc_colptr a))) (repeat 0%Z maxnnz) (repeat s0 maxnnz) in
  let* newnnz := pget colptr (csc_cols a) in
  let* rowidx := vslice rowidx 0 newnnz in
  let* values := vslice values 0 newnnz in
  CSC_new (csc_rows a) (csc_cols a) rowidx colptr values.

(** csc.rs:419-460 [CSC::subtract] *)
Definition CSC_subtract_ck (a x : CSC T) : res (CSC T) :=
  if negb (csc_rows x =? csc_rows a) || negb (csc_cols x =? csc_cols a) then Err EDim else
  let* na := CSC_nnz a in
  let* nx := CSC_nnz x in
  let maxnnz := na + nx in
  let* '(colptr, rowidx, values) :=
    csr_sub_csr_ck I (csc_cols a) (csc_rows a) (csc_colptr a) (csc_rowidx a) (csc_values a)
      (csc_colptr x) (csc_rowidx x) (csc_values x)
      (repeat 0%Z (length (csc_colptr a))) (repeat 0%Z maxnnz) (repeat s0 maxnnz) in
  let* newnnz := pget colptr (csc_cols a) in
  let* rowidx := vslice rowidx 0 newnnz in
  let* values := vslice values 0 newnnz in
  CSC_new (csc_rows a) (csc_cols a) rowidx colptr values.

(** csc/std_ops.rs:20-42 [CSC + CSC] *)
Definition CSC_op_add_ck (a b : CSC T) : res (CSC T) :=
  let* na := CSC_nnz a in
  let* nb := CSC_nnz b in
  let nnz := na + nb in
  let* '(colptr, rowidx, values) :=
    csr_add_csr_ck I (csc_cols a) (csc_rows a) (csc_colptr a) (csc_rowidx a) (csc_values a)
      (csc_colptr b) (csc_rowidx b) (csc_values b)
      (repeat 0%Z (csc_cols a + 1)) (repeat 0%Z nnz) (repeat s0 nnz) in
  unwrap (CSC_new (csc_rows a) (csc_cols a) rowidx colptr values).

(** csc/std_ops.rs:44-66 [CSC - CSC]; line 65 passes [colptr, rowidx] in swapped order *)
Definition CSC_op_sub_ck (a b : CSC T) : res (CSC T) :=
  let* na := CSC_nnz a in
  let* nb := CSC_nnz b in
  let nnz := na + nb in
  let* '(colptr, rowidx, values) :=
    csr_sub_csr_ck I (csc_cols a) (csc_rows a) (csc_colptr a) (csc_rowidx a) (csc_values a)
      (csc_colptr b) (csc_rowidx b) (csc_values b)
      (repeat 0%Z (csc_cols a + 1)) (repeat 0%Z nnz) (repeat s0 nnz) in
  unwrap (CSC_new (csc_rows a) (csc_cols a) colptr rowidx values).

(** csc/std_ops.rs:68-71 [CSC * CSC] *)
Definition CSC_mul_ck (a b : CSC T) : res (CSC T) := unwrap (CSC_mat_mat_ck a b).
(** csc/std_ops.rs:73-76 [CSC * CSR] *)
Definition CSC_mul_csr_ck (a : CSC T) (b : CSR T) : res (CSC T) :=
  let* bc := CSR_to_csc b in unwrap (CSC_mat_mat_ck a bc).
(** coo/std_ops.rs:6-28 [Coo + Coo] *)
Definition Coo_add_ck (a b : Coo T) : res (CSR T) :=
  if negb (coo_rows a =? coo_rows b) then Panic else
  if negb (coo_cols a =? coo_cols b) then Panic else
  let* a_mat := unwrap (Coo_new (coo_rows a) (coo_cols a) (coo_rowidx a ++ coo_rowidx b)
                          (coo_colidx a ++ coo_colidx b) (coo_values a ++ coo_values b)) in
  Coo_to_csr_ck a_mat.
(** csr/std_ops.rs:72-82 [CSR * scalar] *)
Definition CSR_mul_scalar_ck (m : CSR T) (rhs : T) : res (CSR T) :=
  let* x := mapM (fun v => cmul v rhs) (csr_values m) in
  unwrap (CSR_new (csr_rows m) (csr_cols m) (csr_rowptr m) (csr_colidx m)
            x).
(** csr/std_ops.rs:83-96 [Complex64 * CSR] *)
Definition CSR_scalar_mul_ck (lhs : T) (m : CSR T) : res (CSR T) :=
  let* x := mapM (fun v => cmul lhs v) (csr_values m) in
  unwrap (CSR_new (csr_rows m) (csr_cols m) (csr_rowptr m) (csr_colidx m)
            x).
(** csc/std_ops.rs:78-88 [CSC * scalar]; passes [colptr, rowidx] in swapped order *)
Definition CSC_mul_scalar_ck (m : CSC T) (rhs : T) : res (CSC T) :=
  let* x := mapM (fun v => cmul v rhs) (csc_values m) in
  unwrap (CSC_new (csc_rows m) (csc_cols m) (csc_colptr m) (csc_rowidx m)
            x).
(** csc/std_ops.rs:89-102 [Complex64 * CSC]; same swap *)
Definition CSC_scalar_mul_ck (lhs : T) (m : CSC T) : res (CSC T) :=
  let* x := mapM (fun v => cmul lhs v) (csc_values m) in
  unwrap (CSC_new (csc_rows m) (csc_cols m) (csc_colptr m) (csc_rowidx m)
            x).
Section Neg.
Context {CN : CheckedNeg T}.
(** coo/std_ops.rs:30-40 [-Coo] *)
Definition Coo_neg_ck (m : Coo T) : res (Coo T) :=
  let* x := mapM cneg (coo_values m) in
  unwrap (Coo_new (coo_rows m) (coo_cols m) (coo_rowidx m) (coo_colidx m) x).
(** csr/std_ops.rs:7-17 [-CSR] *)
Definition CSR_neg_ck (m : CSR T) : res (CSR T) :=
  let* x := mapM cneg (csr_values m) in
  unwrap (CSR_new (csr_rows m) (csr_cols m) (csr_rowptr m) (csr_colidx m) x).
(** csc/std_ops.rs:8-18 [-CSC] *)
Definition CSC_neg_ck (m : CSC T) : res (CSC T) :=
  let* x := mapM cneg (csc_values m) in
  unwrap (CSC_new (csc_rows m) (csc_cols m) (csc_rowidx m) (csc_colptr m) x).
End Neg.
End Matrix.

Section DoK.
Context {BD : Build}.
Context {T : Type} {SC : Scalar T} {CK : Checked T}.
Variable I : ity.
Local Notation DoK_set := (Model_dok.DoK_set I).

(** dok.rs:87-89 [DoK::add] *)
Definition DoK_add_ck (d : DoK T) (i j : Z) (v : T) : res (DoK T) :=
  let* s := cadd (DoK_get d i j) v in
  DoK_set d i j s.
(** dok.rs:91-93 [DoK::sub] *)
Definition DoK_sub_ck (d : DoK T) (i j : Z) (v : T) : res (DoK T) :=
  let* s := csub (DoK_get d i j) v in
  DoK_set d i j s.
(** dok.rs:119-121 [DoK::to_csc] *)
Definition DoK_to_csc_ck (d : DoK T) (order : list ((Z * Z) * T)) : res (CSC T) :=
  let* c := DoK_to_coo d order in Coo_to_csc_ck I c.
(** dok.rs:123-125 [DoK::to_csr] *)
Definition DoK_to_csr_ck (d : DoK T) (order : list ((Z * Z) * T)) : res (CSR T) :=
  let* c := DoK_to_coo d order in Coo_to_csr_ck I c.
End DoK.

