(** Model of /repo/src/row.rs, /repo/src/coord.rs, /repo/src/col.rs and
    /repo/src/util.rs: the free functions on raw index/value arrays.

    A function that writes through [&mut] slices takes their initial contents
    and returns their final contents.  Unused parameters ([_n_col], ...) are kept.
    [isize] variables are unbounded [Z]; the [as isize] casts of row/column numbers
    are taken to be exact (they are below 2^63 since a vector of that length exists). *)
From Verif Require Import Rust Scalar.

Section Kernels.
Context {BD : Build}.
Context {T : Type} {SC : Scalar T}.
Variable I : ity.

(** [v[i] += z] for an index vector; row.rs:294, 316, coord.rs:47, 67 and others. *)
Definition vinc (v : list Z) (i : nat) (z : Z) : res (list Z) :=
  let* t := vget v i in
  let* t' := iadd I t z in
  vset v i t'.

(** [v[i] += x] for a scalar vector, row.rs:150, 457, 540 and others *)
Definition vaddto (v : list T) (i : nat) (x : T) : res (list T) :=
  let* t := vget v i in
  vset v i (sadd t x).

(** [a_p[i].to_usize().unwrap()], row.rs:46 and others *)
Definition pget (a_p : list Z) (i : nat) : res nat :=
  let* z := vget a_p i in to_usize z.

(** util.rs:9-13 [axpy]: y += a*x over the first n elements.
    Simplification: [x]/[y] are given as base vector and offset instead of as
    sub-slices; the bounds check of taking the sub-slice is done by the callers. *)
Definition axpy (n : nat) (a : T) (x : list T) (xo : nat) (y : list T) (yo : nat) : res (list T) :=
  for_range 0 n (fun i y =>
    let* xi := vget x (xo + i) in
    vaddto y (yo + i) (smul a xi)) y.

(** row.rs:30-58 [csr_diagonal].  Simplification: [-1 * k] is exact also for [isize::MIN], where a checking build panics;
    the subtraction of 2^63 rows then panics instead. *)
Definition csr_diagonal (k : Z) (n_row n_col : nat) (a_p a_j : list Z) (a_x y_x : list T)
  : res (list T) :=
  let first_row := if (0 <=? k)%Z then 0 else Z.to_nat (-1 * k) in
  let first_col := if (0 <=? k)%Z then Z.to_nat k else 0 in
  let* nr := usub n_row first_row in
  let* nc := usub n_col first_col in
  let n := Nat.min nr nc in
  for_range 0 n (fun i y_x =>
    let row := first_row + i in
    let col := first_col + i in
    let* row_begin := pget a_p row in
    let* row_end := pget a_p (row + 1) in
    let* diag := for_range row_begin row_end (fun j diag =>
      let* c := pget a_j j in
      if c =? col then (let* x := vget a_x j in Ok (sadd diag x)) else Ok diag) s0 in
    vset y_x i diag) y_x.

(** row.rs:76-84 [expandptr] *)
Definition expandptr (n_row : nat) (a_p b_i : list Z) : res (list Z) :=
  for_range 0 n_row (fun i b_i =>
    let* start := pget a_p i in
    let* end_ := pget a_p (i + 1) in
    for_range start end_ (fun jj b_i =>
      let* zi := ifrom I i in
      vset b_i jj zi) b_i) b_i.

(** row.rs:90-105 [csr_scale_rows] *)
Definition csr_scale_rows (n_row _n_col : nat) (a_p _a_j : list Z) (a_x x_x : list T)
  : res (list T) :=
  for_range 0 n_row (fun i a_x =>
    let* start := pget a_p i in
    let* end_ := pget a_p (i + 1) in
    for_range start end_ (fun jj a_x =>
      let* v := vget a_x jj in
      let* x := vget x_x i in
      vset a_x jj (smul v x)) a_x) a_x.

(** row.rs:111-123 [csr_scale_columns] *)
Definition csr_scale_columns (n_row _n_col : nat) (a_p a_j : list Z) (a_x x_x : list T)
  : res (list T) :=
  let* nnz := pget a_p n_row in
  for_range 0 nnz (fun i a_x =>
    let* v := vget a_x i in
    let* j := pget a_j i in
    let* x := vget x_x j in
    vset a_x i (smul v x)) a_x.

(** row.rs:136-153 [csr_todense] *)
Definition csr_todense (n_row _n_col : nat) (a_p a_j : list Z) (a_x : list T)
  (b_x : list (list T)) : res (list (list T)) :=
  for_range 0 n_row (fun i b_x =>
    let* row_start := pget a_p i in
    let* row_end := pget a_p (i + 1) in
    for_range row_start row_end (fun jj b_x =>
      let* j := pget a_j jj in
      let* x := vget a_x jj in
      let* bi := vget b_x i in
      let* bi' := vaddto bi j x in
      vset b_x i bi') b_x) b_x.

(** row.rs:163-174 [csr_has_sorted_indices] *)
Definition csr_has_sorted_indices (n_row : nat) (a_p a_j : list Z) : res bool :=
  let* c := for_range_exit 0 n_row (fun i (_ : unit) =>
    let* start := pget a_p i in
    let* p1 := vget a_p (i + 1) in
    let* p1' := isub I p1 1 in
    let* end_ := to_usize p1' in
    for_range_exit start end_ (fun jj (_ : unit) =>
      let* x := vget a_j jj in
      let* y := vget a_j (jj + 1) in
      if (y <? x)%Z then Ok (Stop false) else Ok (Cont tt)) tt) tt in
  match c with Stop b => Ok b | Cont _ => Ok true end.

(** row.rs:187-204 [csr_has_canonical_format] *)
Definition csr_has_canonical_format (n_row : nat) (a_p a_j : list Z) : res bool :=
  let* c := for_range_exit 0 n_row (fun i (_ : unit) =>
    let* start := pget a_p i in
    let* end_ := pget a_p (i + 1) in
    if end_ <? start then Ok (Stop false) else
    let* p0 := vget a_p i in
    let* p0' := iadd I p0 1 in
    let* start := to_usize p0' in
    let* end_ := pget a_p (i + 1) in
    for_range_exit start end_ (fun jj (_ : unit) =>
      let* jm := usub jj 1 in
      let* x := vget a_j jm in
      let* y := vget a_j jj in
      if negb (x <? y)%Z then Ok (Stop false) else Ok (Cont tt)) tt) tt in
  match c with Stop b => Ok b | Cont _ => Ok true end.

(** Stable sort by index, the specification of [slice::sort_by] (std) with the
    comparison of row.rs:235; insertion sort is used as a stable sort. *)
Fixpoint insert_by (x : Z * T) (l : list (Z * T)) : list (Z * T) :=
  match l with
  | [] => [x]
  | y :: l' => if (fst x <=? fst y)%Z then x :: y :: l' else y :: insert_by x l'
  end.
Fixpoint sort_by (l : list (Z * T)) : list (Z * T) :=
  match l with [] => [] | x :: l' => insert_by x (sort_by l') end.

(** row.rs:215-244 [csr_sort_indices].  In a release build decreasing pointers wrap the length given to [resize]; that such
    an allocation fails is not modelled. *)
Definition csr_sort_indices (n_row : nat) (a_p a_j : list Z) (a_x : list T)
  : res (list Z * list T) :=
  let* '(_, a_j, a_x) := for_range 0 n_row (fun i '(temp, a_j, a_x) =>
    let* row_start := pget a_p i in
    let* row_end := pget a_p (i + 1) in
    let* len := usub row_end row_start in
    let temp := vresize temp len (0%Z, s0) in
    let* '(temp, _) := for_range row_start row_end (fun jj '(temp, n) =>
      let* j := vget a_j jj in
      let* x := vget a_x jj in
      let* temp := vset temp n (j, x) in
      Ok (temp, n + 1)) (temp, 0) in
    let temp := sort_by temp in
    let* '(a_j, a_x, _) := for_range row_start row_end (fun jj '(a_j, a_x, n) =>
      let* t := vget temp n in
      let* a_j := vset a_j jj (fst t) in
      let* a_x := vset a_x jj (snd t) in
      Ok (a_j, a_x, n + 1)) (a_j, a_x, 0) in
    Ok (temp, a_j, a_x)) ([], a_j, a_x) in
  Ok (a_j, a_x).

(** row.rs:277-326 [csr_tocsc] *)
Definition csr_tocsc (n_row n_col : nat) (a_p a_j : list Z) (a_x : list T)
  (b_p b_i : list Z) (b_x : list T) : res (list Z * list Z * list T) :=
  let* nnz := vget a_p n_row in
  let b_p := vfill b_p 0%Z in
  let* unnz := to_usize nnz in
  let* b_p := for_range 0 unnz (fun n b_p =>
    let* j := pget a_j n in
    vinc b_p j 1) b_p in
  let* '(b_p, _) := for_range 0 n_col (fun col '(b_p, cumsum) =>
    let* temp := vget b_p col in
    let* b_p := vset b_p col cumsum in
    let* cumsum := iadd I cumsum temp in
    Ok (b_p, cumsum)) (b_p, 0%Z) in
  let* b_p := vset b_p n_col nnz in
  let* '(b_p, b_i, b_x) := for_range 0 n_row (fun row '(b_p, b_i, b_x) =>
    let* start := pget a_p row in
    let* end_ := pget a_p (row + 1) in
    for_range start end_ (fun jj '(b_p, b_i, b_x) =>
      let* col := pget a_j jj in
      let* dest := pget b_p col in
      let* zrow := ifrom I row in
      let* b_i := vset b_i dest zrow in
      let* x := vget a_x jj in
      let* b_x := vset b_x dest x in
      let* b_p := vinc b_p col 1 in
      Ok (b_p, b_i, b_x)) (b_p, b_i, b_x)) (b_p, b_i, b_x) in
  let* '(b_p, _) := for_range 0 (n_col + 1) (fun col '(b_p, last) =>
    let* temp := vget b_p col in
    let* b_p := vset b_p col last in
    Ok (b_p, temp)) (b_p, 0%Z) in
  Ok (b_p, b_i, b_x).

(** row.rs:373-417 [csr_matmat_maxnnz].  The overflow panic at line 408 needs
    more than [usize::MAX] entries and is not modelled ([usize] is unbounded). *)
Definition csr_matmat_maxnnz (n_row n_col : nat) (a_p a_j b_p b_j : list Z) : res nat :=
  let mask := repeat (-1)%Z n_col in
  let* '(_, nnz) := for_range 0 n_row (fun i '(mask, nnz) =>
    let* start := pget a_p i in
    let* end_ := pget a_p (i + 1) in
    let* '(mask, row_nnz) := for_range start end_ (fun jj '(mask, row_nnz) =>
      let* j := pget a_j jj in
      let* b_start := pget b_p j in
      let* b_end := pget b_p (j + 1) in
      for_range b_start b_end (fun kk '(mask, row_nnz) =>
        let* k := pget b_j kk in
        let* mk := vget mask k in
        if negb (mk =? Z.of_nat i)%Z then
          let* mask := vset mask k (Z.of_nat i) in
          Ok (mask, row_nnz + 1)
        else Ok (mask, row_nnz)) (mask, row_nnz)) (mask, 0) in
    Ok (mask, nnz + row_nnz)) (mask, 0) in
  Ok nnz.

(** row.rs:420-483 [csr_matmat].  [head as usize] is [Z.to_nat] guarded by
    [to_usize] (a negative head, cast to a huge usize, would panic on indexing). *)
Definition csr_matmat (n_row n_col : nat) (a_p a_j : list Z) (a_x : list T)
  (b_p b_j : list Z) (b_x : list T) (c_p c_j : list Z) (c_x : list T)
  : res (list Z * list Z * list T) :=
  let next := repeat (-1)%Z n_col in
  let sums := repeat s0 n_col in
  let* c_p := vset c_p 0 0%Z in
  let* '(_, _, _, c_p, c_j, c_x) := for_range 0 n_row (fun i '(next, sums, nnz, c_p, c_j, c_x) =>
    let* jj_start := pget a_p i in
    let* jj_end := pget a_p (i + 1) in
    let* '(next, sums, head, length) := for_range jj_start jj_end (fun jj st =>
      let* j := pget a_j jj in
      let* v := vget a_x jj in
      let* kk_start := pget b_p j in
      let* kk_end := pget b_p (j + 1) in
      for_range kk_start kk_end (fun kk '(next, sums, head, length) =>
        let* k := pget b_j kk in
        let* bx := vget b_x kk in
        let* sums := vaddto sums k (smul v bx) in
        let* nk := vget next k in
        if (nk =? -1)%Z then
          let* next := vset next k head in
          let* length := iadd I length 1 in
          Ok (next, sums, Z.of_nat k, length)
        else Ok (next, sums, head, length)) st) (next, sums, (-2)%Z, 0%Z) in
    let* ulength := to_usize length in
    let* '(next, sums, _, nnz, c_j, c_x) := for_range 0 ulength
      (fun _ '(next, sums, head, nnz, c_j, c_x) =>
        let* h := to_usize head in
        let* s := vget sums h in
        let* '(nnz, c_j, c_x) :=
          if negb (seqb s s0) then
            let* unnz := to_usize nnz in
            let* zh := icheck I head in
            let* c_j := vset c_j unnz zh in
            let* c_x := vset c_x unnz s in
            let* nnz := iadd I nnz 1 in
            Ok (nnz, c_j, c_x)
          else Ok (nnz, c_j, c_x) in
        let temp := h in
        let* head := vget next h in
        let* next := vset next temp (-1)%Z in
        let* sums := vset sums temp s0 in
        Ok (next, sums, head, nnz, c_j, c_x)) (next, sums, head, nnz, c_j, c_x) in
    let* c_p := vset c_p (i + 1) nnz in
    Ok (next, sums, nnz, c_p, c_j, c_x)) (next, sums, 0%Z, c_p, c_j, c_x) in
  Ok (c_p, c_j, c_x).

Section Binop.
Context {T2 : Type} {NZ : Nonzero T2}.
(** row.rs:6 [Binop]; may panic (integer division). *)
Variable op : T -> T -> res T2.

(** row.rs:537-547 and 552-562: scan one row, accumulate and link columns *)
Definition binop_scan (start end_ : nat) (x_j : list Z) (x_x : list T)
  (st : list Z * list T * Z * Z) : res (list Z * list T * Z * Z) :=
  for_range start end_ (fun jj '(next, acc, head, length) =>
    let* j := pget x_j jj in
    let* x := vget x_x jj in
    let* acc := vaddto acc j x in
    let* nj := vget next j in
    if (nj =? -1)%Z then
      let* next := vset next j head in
      let* length := iadd I length 1 in
      Ok (next, acc, Z.of_nat j, length)
    else Ok (next, acc, head, length)) st.

(** row.rs:504-585 [csr_binop_csr_general] *)
Definition csr_binop_csr_general (n_row n_col : nat) (a_p a_j : list Z) (a_x : list T)
  (b_p b_j : list Z) (b_x : list T) (c_p c_j : list Z) (c_x : list T2)
  : res (list Z * list Z * list T2) :=
  let next := repeat (-1)%Z n_col in
  let a_row := repeat s0 n_col in
  let b_row := repeat s0 n_col in
  let* c_p := vset c_p 0 0%Z in
  let* '(_, _, _, _, c_p, c_j, c_x) := for_range 0 n_row
    (fun i '(next, a_row, b_row, nnz, c_p, c_j, c_x) =>
    let* i_start := pget a_p i in
    let* i_end := pget a_p (i + 1) in
    let* '(next, a_row, head, length) :=
      binop_scan i_start i_end a_j a_x (next, a_row, (-2)%Z, 0%Z) in
    let* i_start := pget b_p i in
    let* i_end := pget b_p (i + 1) in
    let* '(next, b_row, head, length) :=
      binop_scan i_start i_end b_j b_x (next, b_row, head, length) in
    let* ulength := to_usize length in
    let* '(next, a_row, b_row, _, nnz, c_j, c_x) := for_range 0 ulength
      (fun _ '(next, a_row, b_row, head, nnz, c_j, c_x) =>
        let* h := to_usize head in
        let* va := vget a_row h in
        let* vb := vget b_row h in
        let* result := op va vb in
        let* '(nnz, c_j, c_x) :=
          if nonzero result then
            let* unnz := to_usize nnz in
            let* zh := icheck I head in
            let* c_j := vset c_j unnz zh in
            let* c_x := vset c_x unnz result in
            let* nnz := iadd I nnz 1 in
            Ok (nnz, c_j, c_x)
          else Ok (nnz, c_j, c_x) in
        let temp := h in
        let* head := vget next h in
        let* next := vset next temp (-1)%Z in
        let* a_row := vset a_row temp s0 in
        let* b_row := vset b_row temp s0 in
        Ok (next, a_row, b_row, head, nnz, c_j, c_x)) (next, a_row, b_row, head, nnz, c_j, c_x) in
    let* c_p := vset c_p (i + 1) nnz in
    Ok (next, a_row, b_row, nnz, c_p, c_j, c_x)) (next, a_row, b_row, 0%Z, c_p, c_j, c_x) in
  Ok (c_p, c_j, c_x).

(** row.rs:631-636 and its copies: store [result] under column [j] if nonzero *)
Definition binop_emit (j : Z) (result : T2) (st : list Z * list T2 * nat)
  : res (list Z * list T2 * nat) :=
  let '(c_j, c_x, nnz) := st in
  if nonzero result then
    let* c_j := vset c_j nnz j in
    let* c_x := vset c_x nnz result in
    Ok (c_j, c_x, nnz + 1)
  else Ok (c_j, c_x, nnz).

(** row.rs:600-681 [csr_binop_csr_canonical].  The three [while] loops get
    fuel from the row lengths. *)
Definition csr_binop_csr_canonical (n_row _n_col : nat) (a_p a_j : list Z) (a_x : list T)
  (b_p b_j : list Z) (b_x : list T) (c_p c_j : list Z) (c_x : list T2)
  : res (list Z * list Z * list T2) :=
  let* c_p := vset c_p 0 0%Z in
  let* '(c_p, c_j, c_x, _) := for_range 0 n_row (fun i '(c_p, c_j, c_x, nnz) =>
    let* a_pos := pget a_p i in
    let* b_pos := pget b_p i in
    let* a_end := pget a_p (i + 1) in
    let* b_end := pget b_p (i + 1) in
    (* while a_pos < a_end && b_pos < b_end *)
    let* '(a_pos, b_pos, out) :=
      while (S ((a_end - a_pos) + (b_end - b_pos)))
        (fun '(a_pos, b_pos, _) => Ok ((a_pos <? a_end) && (b_pos <? b_end)))
        (fun '(a_pos, b_pos, out) =>
          let* aj := vget a_j a_pos in
          let* bj := vget b_j b_pos in
          if (aj =? bj)%Z then
            let* xa := vget a_x a_pos in
            let* xb := vget b_x b_pos in
            let* result := op xa xb in
            let* out := binop_emit aj result out in
            Ok (a_pos + 1, b_pos + 1, out)
          else if (aj <? bj)%Z then
            let* xa := vget a_x a_pos in
            let* result := op xa s0 in
            let* out := binop_emit aj result out in
            Ok (a_pos + 1, b_pos, out)
          else
            let* xb := vget b_x b_pos in
            let* result := op s0 xb in
            let* out := binop_emit bj result out in
            Ok (a_pos, b_pos + 1, out))
        (a_pos, b_pos, (c_j, c_x, nnz)) in
    (* tail: while a_pos < a_end *)
    let* '(_, out) :=
      while (S (a_end - a_pos)) (fun '(a_pos, _) => Ok (a_pos <? a_end))
        (fun '(a_pos, out) =>
          let* xa := vget a_x a_pos in
          let* result := op xa s0 in
          let* aj := vget a_j a_pos in
          let* out := binop_emit aj result out in
          Ok (a_pos + 1, out)) (a_pos, out) in
    (* while b_pos < b_end *)
    let* '(_, out) :=
      while (S (b_end - b_pos)) (fun '(b_pos, _) => Ok (b_pos <? b_end))
        (fun '(b_pos, out) =>
          let* xb := vget b_x b_pos in
          let* result := op s0 xb in
          let* bj := vget b_j b_pos in
          let* out := binop_emit bj result out in
          Ok (b_pos + 1, out)) (b_pos, out) in
    let '(c_j, c_x, nnz) := out in
    let* znnz := ifrom I nnz in
    let* c_p := vset c_p (i + 1) znnz in
    Ok (c_p, c_j, c_x, nnz)) (c_p, c_j, c_x, 0) in
  Ok (c_p, c_j, c_x).

(** row.rs:716-739 [csr_binop_csr] *)
Definition csr_binop_csr (n_row n_col : nat) (a_p a_j : list Z) (a_x : list T)
  (b_p b_j : list Z) (b_x : list T) (c_p c_j : list Z) (c_x : list T2)
  : res (list Z * list Z * list T2) :=
  let* ca := csr_has_canonical_format n_row a_p a_j in
  let* cc := if ca then csr_has_canonical_format n_row b_p b_j else Ok false in
  if cc then csr_binop_csr_canonical n_row n_col a_p a_j a_x b_p b_j b_x c_p c_j c_x
  else csr_binop_csr_general n_row n_col a_p a_j a_x b_p b_j b_x c_p c_j c_x.
End Binop.

(** row.rs:743-799 [csr_ne_csr], [csr_eq_csr] *)
Definition csr_ne_csr := csr_binop_csr (fun a b => Ok (negb (seqb a b))).
Definition csr_eq_csr := csr_binop_csr (fun a b => Ok (seqb a b)).
(** row.rs:917-1031 [csr_mul_csr], [csr_div_csr], [csr_add_csr], [csr_sub_csr] *)
Definition csr_mul_csr := csr_binop_csr (fun a b => Ok (smul a b)).
Definition csr_div_csr := csr_binop_csr (fun a b => sdiv a b).
Definition csr_add_csr := csr_binop_csr (fun a b => Ok (sadd a b)).
Definition csr_sub_csr := csr_binop_csr (fun a b => Ok (ssub a b)).

Section Ord.
Context {SO : ScalarOrd T}.
(** row.rs:801-915 [csr_lt_csr], [csr_le_csr], [csr_gt_csr], [csr_ge_csr];
    [a > b] is [b < a] for all primitive types *)
Definition csr_lt_csr := csr_binop_csr (fun a b => Ok (sltb a b)).
Definition csr_le_csr := csr_binop_csr (fun a b => Ok (sleb a b)).
Definition csr_gt_csr := csr_binop_csr (fun a b => Ok (sltb b a)).
Definition csr_ge_csr := csr_binop_csr (fun a b => Ok (sleb b a)).
(** row.rs:1033-1100 [csr_max_csr], [csr_min_csr] *)
Definition csr_max_csr := csr_binop_csr (fun a b => Ok (if sltb b a then a else b)).
Definition csr_min_csr := csr_binop_csr (fun a b => Ok (if sltb a b then a else b)).
End Ord.

(** row.rs:1117-1143 [csr_sum_duplicates]; fuel from the end of the row *)
Definition csr_sum_duplicates (n_row _n_col : nat) (a_p a_j : list Z) (a_x : list T)
  : res (list Z * list Z * list T) :=
  let* '(a_p, a_j, a_x, _, _) := for_range 0 n_row (fun i '(a_p, a_j, a_x, nnz, row_end) =>
    let jj := row_end in
    let* row_end := pget a_p (i + 1) in
    let* '(_, a_j, a_x, nnz) := while (S (row_end - jj)) (fun '(jj, _, _, _) => Ok (jj <? row_end))
      (fun '(jj, a_j, a_x, nnz) =>
        let* j := vget a_j jj in
        let* x := vget a_x jj in
        let jj := jj + 1 in
        let* '(jj, x) := while (S (row_end - jj))
          (fun '(jj, _) =>
            if jj <? row_end then (let* j' := vget a_j jj in Ok (j' =? j)%Z) else Ok false)
          (fun '(jj, x) =>
            let* x' := vget a_x jj in
            Ok (jj + 1, sadd x x')) (jj, x) in
        let* a_j := vset a_j nnz j in
        let* a_x := vset a_x nnz x in
        Ok (jj, a_j, a_x, nnz + 1)) (jj, a_j, a_x, nnz) in
    let* znnz := ifrom I nnz in
    let* a_p := vset a_p (i + 1) znnz in
    Ok (a_p, a_j, a_x, nnz, row_end)) (a_p, a_j, a_x, 0, 0) in
  Ok (a_p, a_j, a_x).

(** row.rs:1155-1179 [csr_eliminate_zeros] *)
Definition csr_eliminate_zeros (n_row _n_col : nat) (a_p a_j : list Z) (a_x : list T)
  : res (list Z * list Z * list T) :=
  let* '(a_p, a_j, a_x, _, _) := for_range 0 n_row (fun i '(a_p, a_j, a_x, nnz, row_end) =>
    let jj := row_end in
    let* row_end := pget a_p (i + 1) in
    let* '(_, a_j, a_x, nnz) := while (S (row_end - jj)) (fun '(jj, _, _, _) => Ok (jj <? row_end))
      (fun '(jj, a_j, a_x, nnz) =>
        let* j := vget a_j jj in
        let* x := vget a_x jj in
        if negb (seqb x s0) then
          let* a_j := vset a_j nnz j in
          let* a_x := vset a_x nnz x in
          Ok (jj + 1, a_j, a_x, nnz + 1)
        else Ok (jj + 1, a_j, a_x, nnz)) (jj, a_j, a_x, nnz) in
    let* znnz := ifrom I nnz in
    let* a_p := vset a_p (i + 1) znnz in
    Ok (a_p, a_j, a_x, nnz, row_end)) (a_p, a_j, a_x, 0, 0) in
  Ok (a_p, a_j, a_x).

(** row.rs:1201-1219 [csr_matvec] *)
Definition csr_matvec (n_row _n_col : nat) (a_p a_j : list Z) (a_x x_x y_x : list T)
  : res (list T) :=
  for_range 0 n_row (fun i y_x =>
    let* sum := vget y_x i in
    let* start := pget a_p i in
    let* end_ := pget a_p (i + 1) in
    let* sum := for_range start end_ (fun jj sum =>
      let* v := vget a_x jj in
      let* j := pget a_j jj in
      let* x := vget x_x j in
      Ok (sadd sum (smul v x))) sum in
    vset y_x i sum) y_x.

(** row.rs:1238-1260 [csr_matvecs].  Simplification: the products [n_vecs * i] and [n_vecs * j] are exact.  One
    beyond [usize] is past the end of the slice, so a checking build panics either way; a release build would wrap it. *)
Definition csr_matvecs (n_row _n_col n_vecs : nat) (a_p a_j : list Z) (a_x x_x y_x : list T)
  : res (list T) :=
  for_range 0 n_row (fun i y_x =>
    (* let y = &mut y_x[n_vecs * i..]; *)
    if length y_x <? n_vecs * i then Panic else
    let* start := pget a_p i in
    let* end_ := pget a_p (i + 1) in
    for_range start end_ (fun jj y_x =>
      let* j := pget a_j jj in
      let* a := vget a_x jj in
      (* let x = &x_x[n_vecs * j..]; *)
      if length x_x <? n_vecs * j then Panic else
      axpy n_vecs a x_x (n_vecs * j) y_x (n_vecs * i)) y_x) y_x.

(** [HashMap<usize, usize>] of row.rs:1308-1311: built by inserting
    (column, position) in order; [get] returns the last insertion. *)
Fixpoint map_get (m : list (nat * nat)) (k : nat) : option nat :=
  match m with
  | [] => None
  | (k', v) :: m' => if k' =? k then Some v else map_get m' k
  end.

(** row.rs:1308-1311 / 1283-1287: the map (set) of the columns of one row,
    most recent insertion first *)
Definition row_colptrs (a_j : list Z) (start end_ : nat) : res (list (nat * nat)) :=
  for_range start end_ (fun jj m =>
    let* c := pget a_j jj in Ok ((c, jj) :: m)) [].

(** row.rs:1262-1322 [csr_select] *)
Definition csr_select (_n_row _n_col : nat) (a_p a_j : list Z) (a_x : list T)
  (rowidx colidx : list Z) (b_p b_j : list Z) (b_x : list T)
  : res (list Z * list Z * list T) :=
  let new_n_row := length rowidx in
  let* new_nnz := for_each rowidx (fun row new_nnz =>
    let* urow := to_usize row in
    let* row_start := pget a_p urow in
    let* row_end := pget a_p (urow + 1) in
    let* colptrs := row_colptrs a_j row_start row_end in
    for_each colidx (fun col new_nnz =>
      let* ucol := to_usize col in
      match map_get colptrs ucol with
      | Some _ => Ok (new_nnz + 1)
      | None => Ok new_nnz
      end) new_nnz) 0 in
  let b_p := vresize b_p (new_n_row + 1) 0%Z in
  let b_j := vresize b_j new_nnz 0%Z in
  let b_x := vresize b_x new_nnz s0 in
  let* b_p := vset b_p 0 0%Z in
  let* '(b_p, b_j, b_x, _) := for_enum 0 rowidx (fun r row '(b_p, b_j, b_x, kk) =>
    let* urow := to_usize row in
    let* start := pget a_p urow in
    let* end_ := pget a_p (urow + 1) in
    let* colptrs := row_colptrs a_j start end_ in
    let* '(b_j, b_x, kk) := for_enum 0 colidx (fun c col '(b_j, b_x, kk) =>
      let* ucol := to_usize col in
      match map_get colptrs ucol with
      | Some jj =>
          let* zc := ifrom I c in
          let* b_j := vset b_j kk zc in
          let* x := vget a_x jj in
          let* b_x := vset b_x kk x in
          Ok (b_j, b_x, kk + 1)
      | None => Ok (b_j, b_x, kk)
      end) (b_j, b_x, kk) in
    let* zkk := ifrom I kk in
    let* b_p := vset b_p (r + 1) zkk in
    Ok (b_p, b_j, b_x, kk)) (b_p, b_j, b_x, 0) in
  Ok (b_p, b_j, b_x).

(** row.rs:1324-1381 [get_csr_submatrix] *)
Definition get_csr_submatrix (_n_row _n_col : nat) (a_p a_j : list Z) (a_x : list T)
  (ir0 ir1 ic0 ic1 : Z) (b_p b_j : list Z) (b_x : list T)
  : res (list Z * list Z * list T) :=
  let* uir0 := to_usize ir0 in
  let* d := isub I ir1 ir0 in
  let* new_n_row := to_usize d in
  let* new_nnz := for_range 0 new_n_row (fun i new_nnz =>
    let* row_start := pget a_p (uir0 + i) in
    let* row_end := pget a_p (uir0 + i + 1) in
    for_range row_start row_end (fun jj new_nnz =>
      let* j := vget a_j jj in
      if ((ic0 <=? j) && (j <? ic1))%Z then Ok (new_nnz + 1) else Ok new_nnz) new_nnz) 0 in
  let b_p := vresize b_p (new_n_row + 1) 0%Z in
  let b_j := vresize b_j new_nnz 0%Z in
  let b_x := vresize b_x new_nnz s0 in
  let* b_p := vset b_p 0 0%Z in
  let* '(b_p, b_j, b_x, _) := for_range 0 new_n_row (fun i '(b_p, b_j, b_x, kk) =>
    let* row_start := pget a_p (uir0 + i) in
    let* row_end := pget a_p (uir0 + i + 1) in
    let* '(b_j, b_x, kk) := for_range row_start row_end (fun jj '(b_j, b_x, kk) =>
      let* j := vget a_j jj in
      if ((ic0 <=? j) && (j <? ic1))%Z then
        let* dj := isub I j ic0 in
        let* b_j := vset b_j kk dj in
        let* x := vget a_x jj in
        let* b_x := vset b_x kk x in
        Ok (b_j, b_x, kk + 1)
      else Ok (b_j, b_x, kk)) (b_j, b_x, kk) in
    let* zkk := ifrom I kk in
    let* b_p := vset b_p (i + 1) zkk in
    Ok (b_p, b_j, b_x, kk)) (b_p, b_j, b_x, 0) in
  Ok (b_p, b_j, b_x).

(** row.rs:1398-1418 [csr_row_index] *)
Definition csr_row_index (n_row_idx : nat) (rows : list nat) (a_p a_j : list Z) (a_x : list T)
  (b_j : list Z) (b_x : list T) : res (list Z * list T) :=
  for_range 0 n_row_idx (fun i '(b_j, b_x) =>
    let* row := vget rows i in
    let* row_start := pget a_p row in
    let* row_end := pget a_p (row + 1) in
    let* sj := vslice a_j row_start row_end in
    let* sx := vslice a_x row_start row_end in
    Ok (b_j ++ sj, b_x ++ sx)) (b_j, b_x).

(** row.rs:1436-1473 [csr_row_slice]; [fuel] bounds the number of iterations *)
Definition csr_row_slice (fuel : nat) (start stop step : nat) (a_p a_j : list Z) (a_x : list T)
  (b_j : list Z) (b_x : list T) : res (list Z * list T) :=
  let body := fun '(row, b_j, b_x) =>
    let* row_start := pget a_p row in
    let* row_end := pget a_p (row + 1) in
    let* sj := vslice a_j row_start row_end in
    let* sx := vslice a_x row_start row_end in
    let* row := uadd row step in
    Ok (row, b_j ++ sj, b_x ++ sx) in
  let* '(_, b_j, b_x) :=
    if 0 <? step then
      while fuel (fun '(row, _, _) => Ok (row <? stop)) body (start, b_j, b_x)
    else
      while fuel (fun '(row, _, _) => Ok (stop <? row)) body (start, b_j, b_x) in
  Ok (b_j, b_x).

(** row.rs:1492-1525 [csr_column_index1] *)
Definition csr_column_index1 (n_idx : nat) (col_idxs : list nat) (n_row n_col : nat)
  (a_p a_j col_offsets b_p : list Z) : res (list Z * list Z) :=
  let* col_offsets := for_range 0 n_idx (fun jj col_offsets =>
    let* j := vget col_idxs jj in
    vinc col_offsets j 1) col_offsets in
  let* b_p := vset b_p 0 0%Z in
  let* '(b_p, _) := for_range 0 n_row (fun i '(b_p, new_nnz) =>
    let* start := pget a_p i in
    let* end_ := pget a_p (i + 1) in
    let* new_nnz := for_range start end_ (fun jj new_nnz =>
      let* j := pget a_j jj in
      let* o := vget col_offsets j in
      iadd I new_nnz o) new_nnz in
    let* b_p := vset b_p (i + 1) new_nnz in
    Ok (b_p, new_nnz)) (b_p, 0%Z) in
  let* col_offsets := for_range 1 n_col (fun j col_offsets =>
    let* o := vget col_offsets (j - 1) in
    vinc col_offsets j o) col_offsets in
  Ok (col_offsets, b_p).

(** row.rs:1544-1571 [csr_column_index2] *)
Definition csr_column_index2 (col_order col_offsets : list Z) (nnz : nat) (a_j : list Z)
  (a_x : list T) (b_j : list Z) (b_x : list T) : res (list Z * list T) :=
  let* '(b_j, b_x, _) := for_range 0 nnz (fun jj '(b_j, b_x, n) =>
    let* j := pget a_j jj in
    let* offset := pget col_offsets j in
    let* prev_offset := if j =? 0 then Ok 0 else pget col_offsets (j - 1) in
    if negb (offset =? prev_offset) then
      let* v := vget a_x jj in
      for_range prev_offset offset (fun k '(b_j, b_x, n) =>
        let* o := vget col_order k in
        let* b_j := vset b_j n o in
        let* b_x := vset b_x n v in
        Ok (b_j, b_x, n + 1)) (b_j, b_x, n)
    else Ok (b_j, b_x, n)) (b_j, b_x, 0) in
  Ok (b_j, b_x).

(** [HashSet::insert] of row.rs:1587 as a duplicate-free list *)
Definition set_insert (x : nat) (l : list nat) : list nat :=
  if existsb (Nat.eqb x) l then l else x :: l.

(** row.rs:1579-1591 [csr_count_diagonals] *)
Definition csr_count_diagonals (n_row : nat) (a_p a_j : list Z) : res nat :=
  let* diagonals := for_range 0 n_row (fun i diagonals =>
    let* start := pget a_p i in
    let* end_ := pget a_p (i + 1) in
    for_range start end_ (fun jj diagonals =>
      let* j := pget a_j jj in
      let* d := usub j i in
      Ok (set_insert d diagonals)) diagonals) [] in
  Ok (length diagonals).

(** row.rs:1671-1692 [csr_tocoo] *)
Definition csr_tocoo (n_row _n_col : nat) (a_p a_j : list Z) (a_x : list T)
  (a_i b_j : list Z) (b_x : list T) : res (list Z * list Z * list T) :=
  let* '(a_i, b_j, b_x, _) := for_range 0 n_row (fun i st =>
    let* start := pget a_p i in
    let* end_ := pget a_p (i + 1) in
    for_range start end_ (fun jj '(a_i, b_j, b_x, k) =>
      let* zi := ifrom I i in
      let* a_i := vset a_i k zi in
      let* j := vget a_j jj in
      let* b_j := vset b_j k j in
      let* x := vget a_x jj in
      let* b_x := vset b_x k x in
      Ok (a_i, b_j, b_x, k + 1)) st) (a_i, b_j, b_x, 0) in
  Ok (a_i, b_j, b_x).

(** coord.rs:30-78 [coo_tocsr] *)
Definition coo_tocsr (n_row _n_col nnz : nat) (a_i a_j : list Z) (a_x : list T)
  (b_p b_j : list Z) (b_x : list T) : res (list Z * list Z * list T) :=
  let b_p := vfill b_p 0%Z in
  let* b_p := for_range 0 nnz (fun n b_p =>
    let* i := pget a_i n in
    vinc b_p i 1) b_p in
  let* '(b_p, _) := for_range 0 n_row (fun i '(b_p, cumsum) =>
    let* temp := vget b_p i in
    let* b_p := vset b_p i cumsum in
    let* cumsum := iadd I cumsum temp in
    Ok (b_p, cumsum)) (b_p, 0%Z) in
  let* znnz := ifrom I nnz in
  let* b_p := vset b_p n_row znnz in
  let* '(b_p, b_j, b_x) := for_range 0 nnz (fun n '(b_p, b_j, b_x) =>
    let* row := pget a_i n in
    let* dest := pget b_p row in
    let* j := vget a_j n in
    let* b_j := vset b_j dest j in
    let* x := vget a_x n in
    let* b_x := vset b_x dest x in
    let* b_p := vinc b_p row 1 in
    Ok (b_p, b_j, b_x)) (b_p, b_j, b_x) in
  let* '(b_p, _) := for_range 0 (n_row + 1) (fun i '(b_p, last) =>
    let* temp := vget b_p i in
    let* b_p := vset b_p i last in
    Ok (b_p, temp)) (b_p, 0%Z) in
  Ok (b_p, b_j, b_x).

(** coord.rs:92-113 [coo_todense].  The position is computed exactly, see [csr_matvecs]. *)
Definition coo_todense (n_row n_col nnz : nat) (a_i a_j : list Z) (a_x b_x : list T)
  (fortran : bool) : res (list T) :=
  if negb fortran then
    for_range 0 nnz (fun n b_x =>
      let* ai := pget a_i n in
      let* aj := pget a_j n in
      let i := n_col * ai + aj in
      let* x := vget a_x n in
      vaddto b_x i x) b_x
  else
    for_range 0 nnz (fun n b_x =>
      let* aj := pget a_j n in
      let* ai := pget a_i n in
      let i := n_row * aj + ai in
      let* x := vget a_x n in
      vaddto b_x i x) b_x.

(** coord.rs:135-148 [coo_matvec] *)
Definition coo_matvec (nnz : nat) (a_i a_j : list Z) (a_x x_x y_x : list T) : res (list T) :=
  for_range 0 nnz (fun n y_x =>
    let* i := pget a_i n in
    let* j := pget a_j n in
    let* v := vget a_x n in
    let* x := vget x_x j in
    vaddto y_x i (smul v x)) y_x.

(** col.rs:26-44 [csc_matvec] *)
Definition csc_matvec (_n_row n_col : nat) (a_p a_i : list Z) (a_x x_x y_x : list T)
  : res (list T) :=
  for_range 0 n_col (fun j y_x =>
    let* col_start := pget a_p j in
    let* col_end := pget a_p (j + 1) in
    for_range col_start col_end (fun ii y_x =>
      let* i := pget a_i ii in
      let* v := vget a_x ii in
      let* x := vget x_x j in
      vaddto y_x i (smul v x)) y_x) y_x.

(** col.rs:66-91 [csc_matvecs].  The positions are computed exactly, see [csr_matvecs]. *)
Definition csc_matvecs (_n_row n_col n_vecs : nat) (a_p a_i : list Z) (a_x x_x y_x : list T)
  : res (list T) :=
  for_range 0 n_col (fun j y_x =>
    let* start := pget a_p j in
    let* end_ := pget a_p (j + 1) in
    for_range start end_ (fun ii y_x =>
      let* i := pget a_i ii in
      let* v := vget a_x ii in
      (* &x_x[n_vecs * j..], &mut y_x[n_vecs * i..] *)
      if length x_x <? n_vecs * j then Panic else
      if length y_x <? n_vecs * i then Panic else
      axpy n_vecs v x_x (n_vecs * j) y_x (n_vecs * i)) y_x) y_x.

(** col.rs:95-105 [csc_diagonal].  As in [csr_diagonal], [-k] is exact also for [isize::MIN]. *)
Definition csc_diagonal (k : Z) (n_row n_col : nat) (a_p a_j : list Z) (a_x y_x : list T) :=
  csr_diagonal (- k) n_col n_row a_p a_j a_x y_x.

(** col.rs:107-118 [csc_tocsr] *)
Definition csc_tocsr (n_row n_col : nat) (a_p a_i : list Z) (a_x : list T)
  (b_p b_j : list Z) (b_x : list T) :=
  csr_tocsc n_col n_row a_p a_i a_x b_p b_j b_x.

(** col.rs:120-130 [csc_matmat_maxnnz] *)
Definition csc_matmat_maxnnz (n_row n_col : nat) (a_p a_i b_p b_i : list Z) :=
  csr_matmat_maxnnz n_col n_row b_p b_i a_p a_i.

(** col.rs:132-146 [csc_matmat] *)
Definition csc_matmat (n_row n_col : nat) (a_p a_i : list Z) (a_x : list T)
  (b_p b_i : list Z) (b_x : list T) (c_p c_i : list Z) (c_x : list T) :=
  csr_matmat n_col n_row b_p b_i b_x a_p a_i a_x c_p c_i c_x.

End Kernels.
