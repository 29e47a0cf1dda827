(** Specification vocabulary: what a matrix stores at each position.
    Independent of the model's functions; only the record types are used. *)
From Coq Require Export Sorted Permutation.
From Verif Require Import Rust Scalar Model_kernels Model_matrix Model_dok.
From Verif Require Export Debug.

(** elements s, s+1, ..., e-1 of a list *)
Definition part {A} (s e : nat) (l : list A) : list A := firstn (e - s) (skipn s l).

(** i-th pointer as a position *)
Definition ptr (p : list Z) (i : nat) : nat := Z.to_nat (nth i p 0%Z).

Section Stored.
Context {T : Type}.

(** entries (minor index, value) of the i-th row/column of compressed arrays, in storage order *)
Definition crow (p j : list Z) (x : list T) (i : nat) : list (nat * T) :=
  combine (map Z.to_nat (part (ptr p i) (ptr p (S i)) j)) (part (ptr p i) (ptr p (S i)) x).

(** values found under index [k] in a row, in order *)
Definition at_ (k : nat) (r : list (nat * T)) : list T :=
  map snd (filter (fun e => fst e =? k) r).

(** row [i] of a CSR matrix, column [j] of a CSC matrix, entries of a coordinate matrix *)
Definition csr_row (m : CSR T) (i : nat) := crow (csr_rowptr m) (csr_colidx m) (csr_values m) i.
Definition csc_col (m : CSC T) (j : nat) := crow (csc_colptr m) (csc_rowidx m) (csc_values m) j.
Definition coo_entries (m : Coo T) : list (nat * nat * T) :=
  combine (combine (map Z.to_nat (coo_rowidx m)) (map Z.to_nat (coo_colidx m))) (coo_values m).

(** the values stored at position (i, j), in storage order *)
Definition csr_at (m : CSR T) (i j : nat) : list T := at_ j (csr_row m i).
Definition csc_at (m : CSC T) (i j : nat) : list T := at_ i (csc_col m j).
Definition coo_at (m : Coo T) (i j : nat) : list T :=
  map snd (filter (fun e => (fst (fst e) =? i) && (snd (fst e) =? j)) (coo_entries m)).

(** all stored entries as (row, column, value): by rows for CSR, by columns for CSC *)
Definition csr_entries (m : CSR T) : list (nat * nat * T) :=
  flat_map (fun i => map (fun e => ((i, fst e), snd e)) (csr_row m i)) (seq 0 (csr_rows m)).
Definition csc_entries (m : CSC T) : list (nat * nat * T) :=
  flat_map (fun j => map (fun e => ((fst e, j), snd e)) (csc_col m j)) (seq 0 (csc_cols m)).

(** number of stored entries *)
Definition csr_count (m : CSR T) : nat := ptr (csr_rowptr m) (csr_rows m).
Definition csc_count (m : CSC T) : nat := ptr (csc_colptr m) (csc_cols m).

(** ** Well-formedness *)

(** compressed arrays with [n] rows of [c] columns: pointers start at 0 and do not decrease,
    the index and value arrays hold (at least) the entries pointed to, every index is below [c],
    and everything fits the index type *)
Record wf_arrays (I : ity) (n c : nat) (p j : list Z) (x : list T) : Prop := {
  wf_len : length p = n + 1;
  wf_start : nth 0 p 0%Z = 0%Z;
  wf_mono : forall i, i < n -> (nth i p 0 <= nth (S i) p 0)%Z;
  wf_jlen : ptr p n <= length j;
  wf_xlen : ptr p n <= length x;
  wf_idx : forall k, k < ptr p n -> (0 <= nth k j 0 < Z.of_nat c /\ nth k j 0 <= imax I)%Z;
  wf_fit : (Z.of_nat (ptr p n) <= imax I)%Z }.

Definition wf_csr (I : ity) (m : CSR T) : Prop :=
  wf_arrays I (csr_rows m) (csr_cols m) (csr_rowptr m) (csr_colidx m) (csr_values m).
Definition wf_csc (I : ity) (m : CSC T) : Prop :=
  wf_arrays I (csc_cols m) (csc_rows m) (csc_colptr m) (csc_rowidx m) (csc_values m).

(** coordinate matrix: three vectors of the same length, indices inside the dimensions *)
Record wf_coo (I : ity) (m : Coo T) : Prop := {
  wfc_rlen : length (coo_rowidx m) = length (coo_values m);
  wfc_clen : length (coo_colidx m) = length (coo_values m);
  wfc_row : Forall (fun z => 0 <= z < Z.of_nat (coo_rows m) /\ z <= imax I)%Z (coo_rowidx m);
  wfc_col : Forall (fun z => 0 <= z < Z.of_nat (coo_cols m) /\ z <= imax I)%Z (coo_colidx m) }.

(** the index of every row (column) that stores something fits the index type *)
Definition csr_rows_fit (I : ity) (m : CSR T) : Prop :=
  forall i, i < csr_rows m -> csr_row m i <> [] -> (Z.of_nat i <= imax I)%Z.
Definition csc_cols_fit (I : ity) (m : CSC T) : Prop :=
  forall j, j < csc_cols m -> csc_col m j <> [] -> (Z.of_nat j <= imax I)%Z.

(** no unused capacity behind the last entry *)
Definition csr_tight (m : CSR T) : Prop :=
  length (csr_colidx m) = csr_count m /\ length (csr_values m) = csr_count m.
Definition csc_tight (m : CSC T) : Prop :=
  length (csc_rowidx m) = csc_count m /\ length (csc_values m) = csc_count m.

(** indices of a row non-decreasing / strictly increasing / pairwise different *)
Definition sorted_row (r : list (nat * T)) : Prop := StronglySorted le (map fst r).
Definition canonical_row (r : list (nat * T)) : Prop := StronglySorted lt (map fst r).
Definition nodup_row (r : list (nat * T)) : Prop := NoDup (map fst r).

Definition csr_sorted (m : CSR T) : Prop := forall i, i < csr_rows m -> sorted_row (csr_row m i).
Definition csc_sorted (m : CSC T) : Prop := forall j, j < csc_cols m -> sorted_row (csc_col m j).
Definition csr_canonical (m : CSR T) : Prop := forall i, i < csr_rows m -> canonical_row (csr_row m i).
Definition csc_canonical (m : CSC T) : Prop := forall j, j < csc_cols m -> canonical_row (csc_col m j).
Definition csr_nodup (m : CSR T) : Prop := forall i, i < csr_rows m -> nodup_row (csr_row m i).
Definition csc_nodup (m : CSC T) : Prop := forall j, j < csc_cols m -> nodup_row (csc_col m j).
End Stored.

Section Sums.
Context {T : Type} {SC : Scalar T}.

(** zero plus the values, added from left to right *)
Definition sum0 (l : list T) : T := fold_left sadd l s0.

(** f 0 + ... + f (n-1), from left to right *)
Definition rsum (n : nat) (f : nat -> T) : T := sum0 (map f (seq 0 n)).

(** the values at one position after duplicates have been summed, in order *)
Definition dup_sum (l : list T) : list T :=
  match l with [] => [] | v :: l' => [fold_left sadd l' v] end.

(** element (i, j) as a scalar *)
Definition csr_val (m : CSR T) (i j : nat) : T := sum0 (csr_at m i j).
Definition csc_val (m : CSC T) (i j : nat) : T := sum0 (csc_at m i j).
Definition coo_val (m : Coo T) (i j : nat) : T := sum0 (coo_at m i j).

(** every stored value differs from zero *)
Definition csr_nonzero (m : CSR T) : Prop :=
  forall i v, i < csr_rows m -> In v (map snd (csr_row m i)) -> seqb v s0 = false.
Definition csc_nonzero (m : CSC T) : Prop :=
  forall j v, j < csc_cols m -> In v (map snd (csc_col m j)) -> seqb v s0 = false.

(** a dense table of [r] rows of [c] elements given by a function *)
Definition is_table (d : list (list T)) (r c : nat) (f : nat -> nat -> T) : Prop :=
  length d = r /\
  forall i, i < r -> length (nth i d []) = c /\
    forall j, j < c -> nth j (nth i d []) s0 = f i j.
End Sums.

(** what a sparse result holds for a cell: nothing if the operands hold nothing there ([occ]) or if
    the computed value [v] is zero, else [v] *)
Definition keep {T T2} `{Nonzero T2} (occ : list T) (v : T2) : list T2 :=
  match occ with [] => [] | _ => if nonzero v then [v] else [] end.

(** position (i, k) of a product is met by some pair of stored entries (i, j) of [a] and (j, k) of [b] *)
Definition meets {T} (a b : CSR T) (i k : nat) : bool :=
  existsb (fun e => existsb (fun f => fst f =? k) (csr_row b (fst e))) (csr_row a i).
Definition csc_meets {T} (a b : CSC T) (i k : nat) : bool :=
  existsb (fun e => existsb (fun f => fst f =? i) (csc_col a (fst e))) (csc_col b k).
(** the number of positions met *)
Definition product_count {T} (a b : CSR T) : nat :=
  list_sum (map (fun i => length (filter (meets a b i) (seq 0 (csr_cols b)))) (seq 0 (csr_rows a))).
Definition csc_product_count {T} (a b : CSC T) : nat :=
  list_sum (map (fun k => length (filter (fun i => csc_meets a b i k) (seq 0 (csc_rows a)))) (seq 0 (csc_cols b))).

(** the same for a CSC matrix times a CSR matrix *)
Definition mixed_meets {T} (a : CSC T) (b : CSR T) (i k : nat) : bool :=
  existsb (fun j => (0 <? length (csc_at a i j)) && (0 <? length (csr_at b j k))) (seq 0 (csr_rows b)).
Definition mixed_count {T} (a : CSC T) (b : CSR T) : nat :=
  list_sum (map (fun k => length (filter (fun i => mixed_meets a b i k) (seq 0 (csc_rows a)))) (seq 0 (csr_cols b))).

(** [r] holds, at every position where [a] or [b] holds something, f x y (unless it is zero) and nothing
    elsewhere; [read] says how the values stored at a position are read as one scalar *)
Definition csr_entrywise {T T2} `{Nonzero T2} (read : list T -> T) (f : T -> T -> T2) (a b : CSR T) (r : CSR T2) : Prop :=
  forall i j, i < csr_rows a ->
    csr_at r i j = keep (csr_at a i j ++ csr_at b i j) (f (read (csr_at a i j)) (read (csr_at b i j))).
Definition csc_entrywise {T T2} `{Nonzero T2} (read : list T -> T) (f : T -> T -> T2) (a b : CSC T) (r : CSC T2) : Prop :=
  forall i j, j < csc_cols a ->
    csc_at r i j = keep (csc_at a i j ++ csc_at b i j) (f (read (csc_at a i j)) (read (csc_at b i j))).

(** the products a(i,j) * b(j,k) of stored entries, in the order of row [i] of [a];
    for CSC the products b(j,k) * a(i,j), in the order of column [k] of [b] *)
Definition csr_products {T} `{Scalar T} (a b : CSR T) (i k : nat) : list T :=
  flat_map (fun e => map (fun v => smul (snd e) v) (csr_at b (fst e) k)) (csr_row a i).
Definition csc_products {T} `{Scalar T} (a b : CSC T) (i k : nat) : list T :=
  flat_map (fun e => map (fun v => smul (snd e) v) (csc_at a i (fst e))) (csc_col b k).

(** the entries of a block moved down by [dr] rows and right by [dc] columns *)
Definition placed {T} (dr dc : nat) (L : list (nat * nat * T)) : list (nat * nat * T) :=
  map (fun e => ((dr + fst (fst e), dc + snd (fst e)), snd e)) L.

(** ** Dense tables *)
Section Tables.
Context {T : Type} {SC : Scalar T}.
Implicit Type a : list (list T).
Definition rectangular (c : nat) a : Prop := Forall (fun l => length l = c) a.
Definition tcell a (i j : nat) : T := nth j (nth i a []) s0.
(** what a sparse matrix holds for an element *)
Definition nz (v : T) : list T := if seqb v s0 then [] else [v].
Definition nz_count a : nat := length (flat_map nz (concat a)).
(** the elements not equal to zero, row by row *)
Definition table_entries (r c : nat) a : list (nat * nat * T) :=
  flat_map (fun i => flat_map (fun j => map (fun v => ((i, j), v)) (nz (tcell a i j))) (seq 0 c)) (seq 0 r).
(** the row (column) numbers of the elements not equal to zero fit the index type *)
Definition nz_rows_fit (I : ity) (c : nat) a : Prop :=
  forall i j, i < length a -> j < c -> seqb (tcell a i j) s0 = false -> (Z.of_nat i <= imax I)%Z.
Definition nz_cols_fit (I : ity) (c : nat) a : Prop :=
  forall i j, i < length a -> j < c -> seqb (tcell a i j) s0 = false -> (Z.of_nat j <= imax I)%Z.
End Tables.

(** ** Lengths the constructors ask for, and results that keep the structure *)
Section Shape.
Context {T U : Type}.
Definition coo_sized (m : Coo T) : Prop :=
  length (coo_rowidx m) = length (coo_values m) /\ length (coo_colidx m) = length (coo_values m).
(** rows + 1 pointers, the last one a count not larger than either of the two other lengths *)
Definition csr_sized (m : CSR T) : Prop :=
  length (csr_rowptr m) = csr_rows m + 1 /\ (0 <= nth (csr_rows m) (csr_rowptr m) 0)%Z /\
  csr_count m <= length (csr_colidx m) /\ csr_count m <= length (csr_values m).
Definition csc_sized (m : CSC T) : Prop :=
  length (csc_colptr m) = csc_cols m + 1 /\ (0 <= nth (csc_cols m) (csc_colptr m) 0)%Z /\
  csc_count m <= length (csc_rowidx m) /\ csc_count m <= length (csc_values m).
(** [r] is [m] with [f] applied to every value *)
Definition coo_mapped (f : T -> U) (m : Coo T) (r : Coo U) : Prop :=
  coo_rows r = coo_rows m /\ coo_cols r = coo_cols m /\ coo_rowidx r = coo_rowidx m /\ coo_colidx r = coo_colidx m /\
  coo_values r = map f (coo_values m) /\ forall i j, coo_at r i j = map f (coo_at m i j).
Definition csr_mapped (f : T -> U) (m : CSR T) (r : CSR U) : Prop :=
  csr_rows r = csr_rows m /\ csr_cols r = csr_cols m /\ csr_rowptr r = csr_rowptr m /\ csr_colidx r = csr_colidx m /\
  csr_values r = map f (csr_values m) /\ forall i j, csr_at r i j = map f (csr_at m i j).
Definition csc_mapped (f : T -> U) (m : CSC T) (r : CSC U) : Prop :=
  csc_rows r = csc_rows m /\ csc_cols r = csc_cols m /\ csc_rowidx r = csc_rowidx m /\ csc_colptr r = csc_colptr m /\
  csc_values r = map f (csc_values m) /\ forall i j, csc_at r i j = map f (csc_at m i j).
End Shape.

(** one call that adds entries to a coordinate matrix, and the entries it adds *)
Inductive coo_call (T : Type) := CPush (row col : Z) (v : T) | CExtend (row col : list Z) (v : list T).
Arguments CPush {T}. Arguments CExtend {T}.
Definition call_apply {T} (m : Coo T) (c : coo_call T) : Coo T :=
  match c with CPush i j v => Coo_push m i j v | CExtend i j v => Coo_extend m i j v end.
Definition call_entries {T} (c : coo_call T) : list (Z * Z * T) :=
  match c with CPush i j v => [((i, j), v)] | CExtend i j v => combine (combine i j) v end.
Definition call_equal {T} (c : coo_call T) : Prop :=
  match c with CPush _ _ _ => True | CExtend i j v => length i = length v /\ length j = length v end.

(** ** Selections *)

(** every index of the list is one of 0, ..., n-1 *)
Definition in_range (n : nat) (l : list Z) : Prop := Forall (fun z => 0 <= z < Z.of_nat n)%Z l.
(** the indices an optional index list stands for; without a list, all *)
Definition picked (n : nat) (idx : option (list Z)) : list nat := match idx with None => seq 0 n | Some l => map Z.to_nat l end.
Definition picked_ok (n : nat) (idx : option (list Z)) : Prop := match idx with None => True | Some l => in_range n l end.
(** the entries of a row with index in [a, b), their index reduced by [a] *)
Definition cut {T} (a b : nat) (r : list (nat * T)) : list (nat * T) :=
  map (fun e => (fst e - a, snd e)) (filter (fun e => (a <=? fst e) && (fst e <? b)) r).
(** start, start + step, start + 2 step, ... below stop *)
Definition stepped (start stop step : nat) : list nat := filter (fun i => (i - start) mod step =? 0) (seq start (stop - start)).
(** the positions of a list, ordered by the value found there *)
Definition argsort (l o : list nat) : Prop :=
  Permutation o (seq 0 (length l)) /\ StronglySorted (fun a b => nth a l 0 <= nth b l 0) o.

(** ** Dictionary of keys *)
Section Dictionary.
Context {T : Type} {SC : Scalar T}.
(** each key once, inside the dimensions, no stored zero *)
Definition wf_dok (I : ity) (d : DoK T) : Prop :=
  NoDup (map fst (dok_values d)) /\
  Forall (fun e => (0 <= fst (fst e) < Z.of_nat (dok_rows d) /\ fst (fst e) <= imax I) /\
                   (0 <= snd (fst e) < Z.of_nat (dok_cols d) /\ snd (fst e) <= imax I) /\
                   seqb (snd e) s0 = false)%Z (dok_values d).

(** calls that change a dictionary *)
Inductive dok_op : Type := OpSet (i j : Z) (v : T) | OpAdd (i j : Z) (v : T) | OpSub (i j : Z) (v : T).
Definition dok_apply (I : ity) (d : DoK T) (o : dok_op) : res (DoK T) :=
  match o with
  | OpSet i j v => DoK_set I d i j v
  | OpAdd i j v => DoK_add I d i j v
  | OpSub i j v => DoK_sub I d i j v
  end.
(** a sequence of calls; a refused call leaves the dictionary as it was. Also which calls succeeded. *)
Fixpoint dok_history (I : ity) (d : DoK T) (ops : list dok_op) : res (DoK T * list bool) :=
  match ops with
  | [] => Ok (d, [])
  | o :: ops' =>
      match dok_apply I d o with
      | Ok d' => let* '(r, fs) := dok_history I d' ops' in Ok (r, true :: fs)
      | Err _ => let* '(r, fs) := dok_history I d ops' in Ok (r, false :: fs)
      | Panic => Panic
      | NoFuel => NoFuel
      end
  end.

(** the same calls on a plain table of [rows] x [cols] elements *)
Definition in_bounds (rows cols : nat) (i j : Z) : bool :=
  ((0 <=? i) && (i <? Z.of_nat rows) && (0 <=? j) && (j <? Z.of_nat cols))%Z.
Definition clean (v : T) : T := if seqb v s0 then s0 else v.
Definition put (f : Z -> Z -> T) (i j : Z) (v : T) : Z -> Z -> T :=
  fun i' j' => if ((i' =? i) && (j' =? j))%Z then clean v else f i' j'.
Definition table_apply (rows cols : nat) (f : Z -> Z -> T) (o : dok_op) : (Z -> Z -> T) * bool :=
  let '(i, j, v) := match o with
                    | OpSet i j v => (i, j, v)
                    | OpAdd i j v => (i, j, sadd (f i j) v)
                    | OpSub i j v => (i, j, ssub (f i j) v)
                    end in
  if in_bounds rows cols i j then (put f i j v, true) else (f, false).
Fixpoint table_history (rows cols : nat) (f : Z -> Z -> T) (ops : list dok_op) : (Z -> Z -> T) * list bool :=
  match ops with
  | [] => (f, [])
  | o :: ops' => let '(f', b) := table_apply rows cols f o in
                 let '(g, bs) := table_history rows cols f' ops' in (g, b :: bs)
  end.
(** what a sparse matrix holds for cell (i, j) of the dictionary *)
Definition dok_cell (d : DoK T) (i j : nat) : list T := nz (DoK_get d (Z.of_nat i) (Z.of_nat j)).
End Dictionary.
Arguments dok_op : clear implicits.

(** ** Operands of different dimensions *)

Section Mismatch.
Context {T : Type}.
(** the first rows of [b], as many as [a] has, are canonical, and so is [a]; the same for columns *)
Definition csr_both_canonical (a b : CSR T) : Prop :=
  csr_canonical a /\ forall i, i < csr_rows a -> canonical_row (csr_row b i).
Definition csc_both_canonical (a b : CSC T) : Prop :=
  csc_canonical a /\ forall j, j < csc_cols a -> canonical_row (csc_col b j).
(** in the rows that [a] has, [b] stores something in a column that [a] does not have; the same transposed *)
Definition csr_sticks_out (a b : CSR T) : Prop :=
  exists i j, i < csr_rows a /\ csr_cols a <= j /\ csr_at b i j <> [].
Definition csc_sticks_out (a b : CSC T) : Prop :=
  exists i j, j < csc_cols a /\ csc_rows a <= i /\ csc_at b i j <> [].
End Mismatch.
