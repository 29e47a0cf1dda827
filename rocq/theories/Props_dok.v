(** Dictionary of keys: C33, C34 and the DoK part of C10; canonical arrays are unique: C59. *)
From Verif Require Import Rust Scalar Model_kernels Model_matrix Model_dok Spec Wp DokProofs Check Main_dok.

Section Props.
Context {T : Type} {SC : Scalar T}.
Variable I : ity.

(** C33: a new dictionary followed by any sequence of set/add/sub calls behaves as a table of zeros under
    the same writes: the same calls succeed, every element reads the same; writes out of range change nothing. *)
Theorem C33_history : forall rows cols (ops : list (dok_op T)),
  (Z.of_nat rows <= imax I)%Z -> (Z.of_nat cols <= imax I)%Z ->
  exists d, dok_history I (DoK_new rows cols) ops = Ok (d, snd (table_history rows cols (fun _ _ => s0) ops)) /\
    wf_dok I d /\ dok_rows d = rows /\ dok_cols d = cols /\
    forall i j, DoK_get d i j = fst (table_history rows cols (fun _ _ => s0) ops) i j.
Proof. exact (c33_history I). Qed.
(** the same from any well-formed dictionary *)
Theorem C33_history_from : forall (d : DoK T) (ops : list (dok_op T)), wf_dok I d ->
  (Z.of_nat (dok_rows d) <= imax I)%Z -> (Z.of_nat (dok_cols d) <= imax I)%Z ->
  exists d', dok_history I d ops = Ok (d', snd (table_history (dok_rows d) (dok_cols d) (DoK_get d) ops)) /\
    wf_dok I d' /\ dok_rows d' = dok_rows d /\ dok_cols d' = dok_cols d /\
    forall i j, DoK_get d' i j = fst (table_history (dok_rows d) (dok_cols d) (DoK_get d) ops) i j.
Proof. exact (c33_history_from I). Qed.
(** nnz is the number of cells whose element is not zero *)
Theorem C33_nnz : forall d : DoK T, wf_dok I d -> seqb (T := T) s0 s0 = true ->
  DoK_nnz d = length (filter (fun p => negb (seqb (DoK_get d (Z.of_nat (fst p)) (Z.of_nat (snd p))) s0)) (list_prod (seq 0 (dok_rows d)) (seq 0 (dok_cols d)))).
Proof. exact (c33_nnz I). Qed.

(** C34: every iteration order gives the dense table of the elements ... *)
Theorem C34_to_dense : forall (d : DoK T) order, wf_dok I d -> Permutation order (dok_values d) ->
  exists t, DoK_to_dense d order = Ok t /\ is_table t (dok_rows d) (dok_cols d) (fun i j => DoK_get d (Z.of_nat i) (Z.of_nat j)).
Proof. exact (c34_to_dense I). Qed.
(** ... a coordinate matrix with one entry per nonzero cell ... *)
Theorem C34_to_coo : forall (d : DoK T) order, wf_dok I d -> Permutation order (dok_values d) -> seqb (T := T) s0 s0 = true ->
  exists r, DoK_to_coo d order = Ok r /\ wf_coo I r /\ coo_rows r = dok_rows d /\ coo_cols r = dok_cols d /\ length (coo_values r) = DoK_nnz d /\
    forall i j, coo_at r i j = dok_cell d i j.
Proof. exact (c34_to_coo I). Qed.
(** ... and the canonical compressed matrices, the same arrays for every order. *)
Theorem C34_to_csr : forall (d : DoK T), wf_dok I d -> seqb (T := T) s0 s0 = true -> (Z.of_nat (DoK_nnz d) < imax I)%Z ->
  exists r, (forall order, Permutation order (dok_values d) -> DoK_to_csr I d order = Ok r) /\
    wf_csr I r /\ csr_tight r /\ csr_canonical r /\ csr_rows r = dok_rows d /\ csr_cols r = dok_cols d /\
    forall i j, i < dok_rows d -> csr_at r i j = dok_cell d i j.
Proof. exact (c34_to_csr I). Qed.
Theorem C34_to_csc : forall (d : DoK T), wf_dok I d -> seqb (T := T) s0 s0 = true -> (Z.of_nat (DoK_nnz d) < imax I)%Z ->
  exists r, (forall order, Permutation order (dok_values d) -> DoK_to_csc I d order = Ok r) /\
    wf_csc I r /\ csc_tight r /\ csc_canonical r /\ csc_rows r = dok_rows d /\ csc_cols r = dok_cols d /\
    forall i j, j < dok_cols d -> csc_at r i j = dok_cell d i j.
Proof. exact (c34_to_csc I). Qed.

(** C10 for DoK: from_dense stores the nonzero elements, and to_dense, in any iteration order, gives the table
    back with zeros for the elements equal to zero. *)
Theorem C10_dok_from_dense : forall (a : list (list T)) c, a <> [] -> rectangular c a -> (Z.of_nat (length a) <= imax I)%Z -> (Z.of_nat c <= imax I)%Z ->
  exists d, DoK_from_dense I a = Ok d /\ wf_dok I d /\ dok_rows d = length a /\ dok_cols d = c /\
    (forall i j, i < length a -> j < c -> DoK_get d (Z.of_nat i) (Z.of_nat j) = clean (tcell a i j)) /\
    forall order, Permutation order (dok_values d) -> exists t, DoK_to_dense d order = Ok t /\ is_table t (length a) c (fun i j => clean (tcell a i j)).
Proof. exact (c10_dok_from_dense I). Qed.

(** C59: a canonical matrix without unused capacity is determined by its size and what it stores at each cell ... *)
Theorem C59_csr_unique : forall m1 m2 : CSR T, wf_csr I m1 -> wf_csr I m2 -> csr_canonical m1 -> csr_canonical m2 -> csr_tight m1 -> csr_tight m2 ->
  csr_rows m1 = csr_rows m2 -> csr_cols m1 = csr_cols m2 -> (forall i j, i < csr_rows m1 -> j < csr_cols m1 -> csr_at m1 i j = csr_at m2 i j) -> m1 = m2.
Proof. exact (c59_csr_unique I). Qed.
Theorem C59_csc_unique : forall m1 m2 : CSC T, wf_csc I m1 -> wf_csc I m2 -> csc_canonical m1 -> csc_canonical m2 -> csc_tight m1 -> csc_tight m2 ->
  csc_rows m1 = csc_rows m2 -> csc_cols m1 = csc_cols m2 -> (forall i j, i < csc_rows m1 -> j < csc_cols m1 -> csc_at m1 i j = csc_at m2 i j) -> m1 = m2.
Proof. exact (c59_csc_unique I). Qed.
(** ... so two coordinate matrices that hold the same values at each cell, in the same order cell by cell,
    convert to the same arrays, however the cells are interleaved. *)
Theorem C59_to_csr_order : forall m1 m2 : Coo T, wf_coo I m1 -> wf_coo I m2 -> coo_rows m1 = coo_rows m2 -> coo_cols m1 = coo_cols m2 ->
  (Z.of_nat (length (coo_values m1)) < imax I)%Z -> (Z.of_nat (length (coo_values m2)) < imax I)%Z ->
  (forall i j, coo_at m1 i j = coo_at m2 i j) -> Coo_to_csr I m1 = Coo_to_csr I m2 /\ Coo_to_csc I m1 = Coo_to_csc I m2.
Proof. exact (c59_to_csr_order I). Qed.
(** C33: when a dimension does not fit the index type, every write in range panics. *)
Theorem C33_dims : forall (d : DoK T) i j v, in_bounds (dok_rows d) (dok_cols d) i j = true ->
  (imax I < Z.of_nat (dok_rows d) \/ imax I < Z.of_nat (dok_cols d))%Z ->
  DoK_set I d i j v = Panic /\ DoK_add I d i j v = Panic /\ DoK_sub I d i j v = Panic.
Proof. exact (c33_dims I). Qed.
End Props.

Example C33_dims_ex : wf_dok U8 (DoK_new 256 1 : DoK Z) /\ in_bounds 256 1 0 0 = true /\ DoK_set U8 (DoK_new 256 1) 0 0 7%Z = Panic.
Proof. split; [apply DoK_new_wf|]. split; reflexivity. Qed.

Definition ex_ops : list (dok_op Z) := [OpSet 0 1 5; OpAdd 0 1 2; OpSet 3 0 9; OpSet 1 0 4; OpSub 1 0 4; OpSet 1 1 (-3)]%Z.
Definition ex_dok : DoK Z := mkDoK 2 2 [((1, 1), -3); ((0, 1), 7)]%Z.
Example C33_ex : dok_history U8 (DoK_new 2 2) ex_ops = Ok (ex_dok, [true; true; false; true; true; true]) /\ wf_dok U8 ex_dok /\ DoK_nnz ex_dok = 2.
Proof.
  split; [vm_compute; reflexivity|]. split; [|reflexivity]. split; [cbn; repeat constructor; cbn; intuition congruence|]. repeat constructor; cbn; try lia.
Qed.
Example C34_ex : DoK_to_csr U8 ex_dok (dok_values ex_dok) = Ok (mkCSR 2 2 [0; 1; 2] [1; 1] [7; -3])%Z /\
  DoK_to_csr U8 ex_dok (rev (dok_values ex_dok)) = Ok (mkCSR 2 2 [0; 1; 2] [1; 1] [7; -3])%Z /\ DoK_to_dense ex_dok (dok_values ex_dok) = Ok [[0; 7]; [0; -3]]%Z /\
  Permutation (rev (dok_values ex_dok)) (dok_values ex_dok).
Proof. repeat split; try (vm_compute; reflexivity). symmetry. apply Permutation_rev. Qed.
Example C10_dok_ex : DoK_from_dense U8 [[0; 7]; [0; -3]]%Z = Ok ex_dok.
Proof. vm_compute. reflexivity. Qed.
Example C59_ex : let m1 := mkCoo 2 2 [0; 1; 0]%Z [1; 0; 1]%Z [5; 4; 7]%Z in let m2 := mkCoo 2 2 [1; 0; 0]%Z [0; 1; 1]%Z [4; 5; 7]%Z in
  wf_coo U8 m1 /\ wf_coo U8 m2 /\ Coo_to_csr U8 m1 = Coo_to_csr U8 m2 /\ Coo_to_csr U8 m1 = Ok (mkCSR 2 2 [0; 1; 2] [1; 0] [12; 4])%Z.
Proof. repeat split; try check; vm_compute; reflexivity. Qed.

Print Assumptions C33_history.
Print Assumptions C33_history_from.
Print Assumptions C33_nnz.
Print Assumptions C34_to_dense.
Print Assumptions C34_to_coo.
Print Assumptions C34_to_csr.
Print Assumptions C34_to_csc.
Print Assumptions C10_dok_from_dense.
Print Assumptions C59_csr_unique.
Print Assumptions C59_csc_unique.
Print Assumptions C59_to_csr_order.
Print Assumptions C33_dims.
