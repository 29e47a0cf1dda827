(** Proofs of the theorems of Props_dok.v, under the same names in lower case. *)
From Verif Require Import Rust Scalar Model_kernels Model_matrix Model_dok Spec Wp Rep ScatterProofs CanonProofs ConvProofs
  RingProofs DokProofs Check Main_convert.

Section Props.
Context {T : Type} {SC : Scalar T}.
Variable I : ity.

Lemma c33_history : forall rows cols (ops : list (dok_op T)),
  (Z.of_nat rows <= imax I)%Z -> (Z.of_nat cols <= imax I)%Z ->
  exists d, dok_history I (DoK_new rows cols) ops = Ok (d, snd (table_history rows cols (fun _ _ => s0) ops)) /\
    wf_dok I d /\ dok_rows d = rows /\ dok_cols d = cols /\
    forall i j, DoK_get d i j = fst (table_history rows cols (fun _ _ => s0) ops) i j.
Proof. intros rows cols ops Hr Hc. apply (dok_history_ok I ops (DoK_new rows cols)); [apply DoK_new_wf|exact Hr|exact Hc|reflexivity]. Qed.
Lemma c33_history_from : forall (d : DoK T) (ops : list (dok_op T)), wf_dok I d ->
  (Z.of_nat (dok_rows d) <= imax I)%Z -> (Z.of_nat (dok_cols d) <= imax I)%Z ->
  exists d', dok_history I d ops = Ok (d', snd (table_history (dok_rows d) (dok_cols d) (DoK_get d) ops)) /\
    wf_dok I d' /\ dok_rows d' = dok_rows d /\ dok_cols d' = dok_cols d /\
    forall i j, DoK_get d' i j = fst (table_history (dok_rows d) (dok_cols d) (DoK_get d) ops) i j.
Proof. intros d ops W Hr Hc. apply dok_history_ok; try assumption. reflexivity. Qed.
Lemma c33_nnz : forall d : DoK T, wf_dok I d -> seqb (T := T) s0 s0 = true ->
  DoK_nnz d = length (filter (fun p => negb (seqb (DoK_get d (Z.of_nat (fst p)) (Z.of_nat (snd p))) s0)) (list_prod (seq 0 (dok_rows d)) (seq 0 (dok_cols d)))).
Proof. apply dok_nnz_count. Qed.

Lemma c34_to_dense : forall (d : DoK T) order, wf_dok I d -> Permutation order (dok_values d) ->
  exists t, DoK_to_dense d order = Ok t /\ is_table t (dok_rows d) (dok_cols d) (fun i j => DoK_get d (Z.of_nat i) (Z.of_nat j)).
Proof. apply DoK_to_dense_spec. Qed.
Lemma c34_to_coo : forall (d : DoK T) order, wf_dok I d -> Permutation order (dok_values d) -> seqb (T := T) s0 s0 = true ->
  exists r, DoK_to_coo d order = Ok r /\ wf_coo I r /\ coo_rows r = dok_rows d /\ coo_cols r = dok_cols d /\ length (coo_values r) = DoK_nnz d /\
    forall i j, coo_at r i j = dok_cell d i j.
Proof.
  intros d order W P Z0. destruct (DoK_to_coo_spec I d order W P) as (r & E & H & E1 & E2 & _ & E3 & A). exists r. sp; try assumption. apply A, Z0.
Qed.
Lemma dup_sum_nz (v : T) : dup_sum (nz v) = nz v.
Proof. unfold nz. destruct (seqb v s0); reflexivity. Qed.
Lemma c34_to_csr : forall (d : DoK T), wf_dok I d -> seqb (T := T) s0 s0 = true -> (Z.of_nat (DoK_nnz d) < imax I)%Z ->
  exists r, (forall order, Permutation order (dok_values d) -> DoK_to_csr I d order = Ok r) /\
    wf_csr I r /\ csr_tight r /\ csr_canonical r /\ csr_rows r = dok_rows d /\ csr_cols r = dok_cols d /\
    forall i j, i < dok_rows d -> csr_at r i j = dok_cell d i j.
Proof.
  intros d W Z0 Hf.
  assert (K : forall order, Permutation order (dok_values d) -> exists r, DoK_to_csr I d order = Ok r /\
    wf_csr I r /\ csr_tight r /\ csr_canonical r /\ csr_rows r = dok_rows d /\ csr_cols r = dok_cols d /\
    forall i j, i < dok_rows d -> csr_at r i j = dok_cell d i j).
  { intros order P. destruct (c34_to_coo d order W P Z0) as (c & E & H & E1 & E2 & E3 & A). destruct (c01_coo_to_csr I c H) as (r & F & H2 & F1 & F2 & F3 & F4 & F5); [rewrite E3; exact Hf|].
    exists r. unfold DoK_to_csr. rewrite E. cbn [bind]. sp; try assumption; try congruence. intros i j Hi. rewrite F5 by (rewrite E1; exact Hi). rewrite A. apply dup_sum_nz. }
  destruct (K (dok_values d) (Permutation_refl _)) as (r & E & H & F1 & F2 & F3 & F4 & F5). exists r. sp; try assumption.
  intros order P. destruct (K order P) as (r' & E' & H' & G1 & G2 & G3 & G4 & G5). rewrite E'. f_equal. apply (csr_canonical_unique I); try assumption; try congruence. intros i j Hi _. rewrite G5, F5 by congruence. reflexivity.
Qed.
Lemma c34_to_csc : forall (d : DoK T), wf_dok I d -> seqb (T := T) s0 s0 = true -> (Z.of_nat (DoK_nnz d) < imax I)%Z ->
  exists r, (forall order, Permutation order (dok_values d) -> DoK_to_csc I d order = Ok r) /\
    wf_csc I r /\ csc_tight r /\ csc_canonical r /\ csc_rows r = dok_rows d /\ csc_cols r = dok_cols d /\
    forall i j, j < dok_cols d -> csc_at r i j = dok_cell d i j.
Proof.
  intros d W Z0 Hf.
  assert (K : forall order, Permutation order (dok_values d) -> exists r, DoK_to_csc I d order = Ok r /\
    wf_csc I r /\ csc_tight r /\ csc_canonical r /\ csc_rows r = dok_rows d /\ csc_cols r = dok_cols d /\
    forall i j, j < dok_cols d -> csc_at r i j = dok_cell d i j).
  { intros order P. destruct (c34_to_coo d order W P Z0) as (c & E & H & E1 & E2 & E3 & A). destruct (c02_coo_to_csc I c H) as (r & F & H2 & F1 & F2 & F3 & F4 & F5); [rewrite E3; exact Hf|].
    exists r. unfold DoK_to_csc. rewrite E. cbn [bind]. sp; try assumption; try congruence. intros i j Hi. rewrite F5 by (rewrite E2; exact Hi). rewrite A. apply dup_sum_nz. }
  destruct (K (dok_values d) (Permutation_refl _)) as (r & E & H & F1 & F2 & F3 & F4 & F5). exists r. sp; try assumption.
  intros order P. destruct (K order P) as (r' & E' & H' & G1 & G2 & G3 & G4 & G5). rewrite E'. f_equal. apply (csc_canonical_unique I); try assumption; try congruence. intros i j _ Hj. rewrite G5, F5 by congruence. reflexivity.
Qed.

Lemma c10_dok_from_dense : forall (a : list (list T)) c, a <> [] -> rectangular c a -> (Z.of_nat (length a) <= imax I)%Z -> (Z.of_nat c <= imax I)%Z ->
  exists d, DoK_from_dense I a = Ok d /\ wf_dok I d /\ dok_rows d = length a /\ dok_cols d = c /\
    (forall i j, i < length a -> j < c -> DoK_get d (Z.of_nat i) (Z.of_nat j) = clean (tcell a i j)) /\
    forall order, Permutation order (dok_values d) -> exists t, DoK_to_dense d order = Ok t /\ is_table t (length a) c (fun i j => clean (tcell a i j)).
Proof.
  intros a c Ne H Hr Hc. destruct (DoK_from_dense_spec I c a Ne H Hr Hc) as (d & E & W & E1 & E2 & G). exists d. sp; try assumption.
  intros order P. destruct (DoK_to_dense_spec I d order W P) as (t & Et & D). exists t. split; [exact Et|]. rewrite E1, E2 in D. destruct D as [L D]. split; [exact L|]. intros i Hi. destruct (D i Hi) as [L1 D1]. split; [exact L1|]. intros j Hj. rewrite D1 by exact Hj. apply G; assumption.
Qed.

Lemma c59_csr_unique : forall m1 m2 : CSR T, wf_csr I m1 -> wf_csr I m2 -> csr_canonical m1 -> csr_canonical m2 -> csr_tight m1 -> csr_tight m2 ->
  csr_rows m1 = csr_rows m2 -> csr_cols m1 = csr_cols m2 -> (forall i j, i < csr_rows m1 -> j < csr_cols m1 -> csr_at m1 i j = csr_at m2 i j) -> m1 = m2.
Proof. apply csr_canonical_unique. Qed.
Lemma c59_csc_unique : forall m1 m2 : CSC T, wf_csc I m1 -> wf_csc I m2 -> csc_canonical m1 -> csc_canonical m2 -> csc_tight m1 -> csc_tight m2 ->
  csc_rows m1 = csc_rows m2 -> csc_cols m1 = csc_cols m2 -> (forall i j, i < csc_rows m1 -> j < csc_cols m1 -> csc_at m1 i j = csc_at m2 i j) -> m1 = m2.
Proof. apply csc_canonical_unique. Qed.
Lemma c59_to_csr_order : forall m1 m2 : Coo T, wf_coo I m1 -> wf_coo I m2 -> coo_rows m1 = coo_rows m2 -> coo_cols m1 = coo_cols m2 ->
  (Z.of_nat (length (coo_values m1)) < imax I)%Z -> (Z.of_nat (length (coo_values m2)) < imax I)%Z ->
  (forall i j, coo_at m1 i j = coo_at m2 i j) -> Coo_to_csr I m1 = Coo_to_csr I m2 /\ Coo_to_csc I m1 = Coo_to_csc I m2.
Proof.
  intros m1 m2 W1 W2 Er Ec F1 F2 A. split.
  - destruct (c01_coo_to_csr I m1 W1 F1) as (r1 & -> & V1 & T1 & R1 & C1 & N1 & A1). destruct (c01_coo_to_csr I m2 W2 F2) as (r2 & -> & V2 & T2 & R2 & C2 & N2 & A2). f_equal. apply (csr_canonical_unique I); try assumption; try congruence. intros i j Hi _. rewrite A1, A2, A by congruence. reflexivity.
  - destruct (c02_coo_to_csc I m1 W1 F1) as (r1 & -> & V1 & T1 & R1 & C1 & N1 & A1). destruct (c02_coo_to_csc I m2 W2 F2) as (r2 & -> & V2 & T2 & R2 & C2 & N2 & A2). f_equal. apply (csc_canonical_unique I); try assumption; try congruence. intros i j _ Hj. rewrite A1, A2, A by congruence. reflexivity.
Qed.
Lemma c33_dims : forall (d : DoK T) i j v, in_bounds (dok_rows d) (dok_cols d) i j = true ->
  (imax I < Z.of_nat (dok_rows d) \/ imax I < Z.of_nat (dok_cols d))%Z ->
  DoK_set I d i j v = Panic /\ DoK_add I d i j v = Panic /\ DoK_sub I d i j v = Panic.
Proof.
  intros d i j v HB HD. apply andb_prop in HB as [HB B4]. apply andb_prop in HB as [HB B3]. apply andb_prop in HB as [B1 B2].
  enough (G : forall w, DoK_set I d i j w = Panic) by (unfold DoK_add, DoK_sub; auto). intros w. unfold DoK_set.
  destruct (Z.ltb_spec i 0); [lia|]. destruct (Z.lt_ge_cases (imax I) (Z.of_nat (dok_rows d))) as [L|L].
  - rewrite (ifrom_panic _ _ L). reflexivity.
  - rewrite (ifrom_ok _ _ L). cbn [bind]. destruct (Z.leb_spec (Z.of_nat (dok_rows d)) i); [lia|]. destruct (Z.ltb_spec j 0); [lia|].
    rewrite (ifrom_panic I (dok_cols d)) by lia. reflexivity.
Qed.
End Props.
