(** Proofs of the theorems of Props_arith.v, under the same names in lower case. *)
From Verif Require Import Rust Scalar Model_kernels Model_matrix Spec SpecMore Wp Rep CanonProofs ConvProofs RingProofs
  LinProofs Lin2Proofs LinkProofs BinopProofs MatmatProofs ArithProofs MismatchProofs PanicProofs Check Main_convert.

Section Props.
Context {T : Type} {SC : Scalar T}.
Variable I : ity.

Lemma c17_csr_mat_mat_error : forall a b : CSR T,
  csr_cols a <> csr_rows b -> CSR_mat_mat I a b = Err EDim.
Proof. intros a b H. unfold CSR_mat_mat. destruct (Nat.eqb_spec (csr_cols a) (csr_rows b)); [contradiction|reflexivity]. Qed.
Lemma c17_csr_mat_mat : forall a b : CSR T,
  wf_csr I a -> wf_csr I b -> csr_cols a = csr_rows b -> (Z.of_nat (product_count a b) <= imax I)%Z ->
  exists r, CSR_mat_mat I a b = Ok r /\ CSR_mul I a b = Ok r /\
    wf_csr I r /\ csr_rows r = csr_rows a /\ csr_cols r = csr_cols b /\ csr_nodup r /\ csr_nonzero r /\
    forall i k, i < csr_rows a -> csr_at r i k = keep (csr_products a b i k) (sum0 (csr_products a b i k)).
Proof.
  intros a b HA HB E Hf. destruct (wf_csr_rep _ _ HA) as [RA RPA], (wf_csr_rep _ _ HB) as [RB RPB].
  destruct (CSR_mat_mat_rep I a b RA RB RPA RPB E Hf) as (r & Er & E1 & E2 & _ & _ & R & HR & Hrow).
  exists r. unfold CSR_mul. rewrite Er. sp; try assumption.
  - apply (csr_rep_wf _ _ _ HR).
  - intros i Hi. rewrite (csr_rep_row _ _ _ _ HR). rewrite E1 in Hi. apply (matrow_nodup _ _ _ (Hrow i Hi)).
  - apply (nonzero_rows I _ _ HR). intros i Hi. rewrite E1 in Hi. apply (matrow_nonzero _ _ _ (Hrow i Hi)).
  - intros i k Hi. rewrite (csr_rep_at _ _ _ _ _ HR), (matrow_keep _ _ _ _ (Hrow i Hi)), at_prodrow.
    unfold csr_products. rewrite (csr_rep_row _ _ _ _ RPA).
    rewrite (flat_map_ext (fun e => map (fun v => smul (snd e) v) (csr_at b (fst e) k)) (fun e => map (fun v => smul (snd e) v) (at_ k (nth (fst e) RB []))));
      [reflexivity|]. intros e. rewrite (csr_rep_at _ _ _ _ _ RPB). reflexivity.
Qed.

Lemma c18_csc_mat_mat_error : forall a b : CSC T,
  csc_cols a <> csc_rows b -> CSC_mat_mat I a b = Err EDim.
Proof. intros a b H. unfold CSC_mat_mat. destruct (Nat.eqb_spec (csc_rows b) (csc_cols a)); [congruence|reflexivity]. Qed.
Lemma c18_csc_mat_mat : forall a b : CSC T,
  wf_csc I a -> wf_csc I b -> csc_cols a = csc_rows b -> (Z.of_nat (csc_product_count a b) <= imax I)%Z ->
  exists r, CSC_mat_mat I a b = Ok r /\ CSC_mul I a b = Ok r /\
    wf_csc I r /\ csc_rows r = csc_rows a /\ csc_cols r = csc_cols b /\ csc_nodup r /\ csc_nonzero r /\
    forall i k, k < csc_cols b -> csc_at r i k = keep (csc_products a b i k) (sum0 (csc_products a b i k)).
Proof.
  intros a b HA HB E Hf. destruct (wf_csc_rep _ _ HA) as [RA RPA], (wf_csc_rep _ _ HB) as [RB RPB].
  destruct (CSC_mat_mat_rep I a b RA RB RPA RPB E Hf) as (r & Er & E1 & E2 & _ & _ & R & HR & Hrow).
  exists r. unfold CSC_mul. rewrite Er. sp; try assumption.
  - apply (csc_rep_wf _ _ _ HR).
  - intros i Hi. rewrite (csc_rep_col _ _ _ _ HR). rewrite E2 in Hi. apply (matrow_nodup _ _ _ (Hrow i Hi)).
  - apply (nonzero_cols I _ _ HR). intros i Hi. rewrite E2 in Hi. apply (matrow_nonzero _ _ _ (Hrow i Hi)).
  - intros i k Hi. rewrite (csc_rep_at _ _ _ _ _ HR), (matrow_keep _ _ _ _ (Hrow k Hi)), at_prodrow.
    unfold csc_products. rewrite (csc_rep_col _ _ _ _ RPB).
    rewrite (flat_map_ext (fun e => map (fun v => smul (snd e) v) (csc_at a i (fst e))) (fun e => map (fun v => smul (snd e) v) (at_ i (nth (fst e) RA []))));
      [reflexivity|]. intros e. rewrite (csc_rep_at _ _ _ _ _ RPA). reflexivity.
Qed.

Lemma c19_csr_add : forall a b : CSR T,
  wf_csr I a -> wf_csr I b -> csr_rows b = csr_rows a -> csr_cols b = csr_cols a ->
  (Z.of_nat (csr_count a + csr_count b) < imax I)%Z ->
  exists r, CSR_add I a b = Ok r /\
    wf_csr I r /\ csr_rows r = csr_rows a /\ csr_cols r = csr_cols a /\ csr_nodup r /\ csr_nonzero r /\
    (csr_canonical a /\ csr_canonical b -> csr_canonical r) /\
    (~ (csr_canonical a /\ csr_canonical b) -> csr_entrywise sum0 sadd a b r) /\
    (csr_canonical a /\ csr_canonical b -> csr_entrywise (hd s0) sadd a b r).
Proof.
  intros a b HA HB E1 E2 Hf. destruct (wf_csr_rep _ _ HA) as [RA RPA], (wf_csr_rep _ _ HB) as [RB RPB].
  destruct (CSR_add_rep I a b RA RB RPA RPB E1 E2 Hf) as (r & Er & P). exists r. split; [exact Er|].
  apply (sum_post_result I sadd a b RA RB r RPA RPB P).
Qed.
Lemma c19_csr_sub : forall a b : CSR T,
  wf_csr I a -> wf_csr I b -> csr_rows b = csr_rows a -> csr_cols b = csr_cols a ->
  (Z.of_nat (csr_count a + csr_count b) < imax I)%Z ->
  exists r, CSR_sub I a b = Ok r /\
    wf_csr I r /\ csr_rows r = csr_rows a /\ csr_cols r = csr_cols a /\ csr_nodup r /\ csr_nonzero r /\
    (csr_canonical a /\ csr_canonical b -> csr_canonical r) /\
    (~ (csr_canonical a /\ csr_canonical b) -> csr_entrywise sum0 ssub a b r) /\
    (csr_canonical a /\ csr_canonical b -> csr_entrywise (hd s0) ssub a b r).
Proof.
  intros a b HA HB E1 E2 Hf. destruct (wf_csr_rep _ _ HA) as [RA RPA], (wf_csr_rep _ _ HB) as [RB RPB].
  destruct (CSR_sub_rep I a b RA RB RPA RPB E1 E2 Hf) as (r & Er & P). exists r. split; [exact Er|].
  apply (sum_post_result I ssub a b RA RB r RPA RPB P).
Qed.

Lemma c20_csc_error : forall a b : CSC T,
  csc_rows b <> csc_rows a \/ csc_cols b <> csc_cols a ->
  CSC_add I a b = Err EDim /\ CSC_subtract I a b = Err EDim.
Proof.
  intros a b H. unfold CSC_add, CSC_subtract.
  destruct (Nat.eqb_spec (csc_rows b) (csc_rows a)), (Nat.eqb_spec (csc_cols b) (csc_cols a)); cbn [negb orb]; tauto.
Qed.
Lemma c20_csc_add : forall a b : CSC T,
  wf_csc I a -> wf_csc I b -> csc_rows b = csc_rows a -> csc_cols b = csc_cols a ->
  (Z.of_nat (csc_count a + csc_count b) < imax I)%Z ->
  exists r, CSC_add I a b = Ok r /\ csc_tight r /\
    wf_csc I r /\ csc_rows r = csc_rows a /\ csc_cols r = csc_cols a /\ csc_nodup r /\ csc_nonzero r /\
    (csc_canonical a /\ csc_canonical b -> csc_canonical r) /\
    (~ (csc_canonical a /\ csc_canonical b) -> csc_entrywise sum0 sadd a b r) /\
    (csc_canonical a /\ csc_canonical b -> csc_entrywise (hd s0) sadd a b r).
Proof.
  intros a b HA HB E1 E2 Hf. destruct (wf_csc_rep _ _ HA) as [RA RPA], (wf_csc_rep _ _ HB) as [RB RPB].
  destruct (CSC_add_rep I a b RA RB RPA RPB E1 E2 Hf) as (r & Er & D1 & D2 & R & HR & L1 & L2 & Hrow & Hcan). exists r. split; [exact Er|].
  split; [split; rewrite (csc_rep_count _ _ _ HR); assumption|].
  apply (csc_sum_post_result I sadd a b r RA RB R); assumption.
Qed.
Lemma c20_csc_subtract : forall a b : CSC T,
  wf_csc I a -> wf_csc I b -> csc_rows b = csc_rows a -> csc_cols b = csc_cols a ->
  (Z.of_nat (csc_count a + csc_count b) < imax I)%Z ->
  exists r, CSC_subtract I a b = Ok r /\ csc_tight r /\
    wf_csc I r /\ csc_rows r = csc_rows a /\ csc_cols r = csc_cols a /\ csc_nodup r /\ csc_nonzero r /\
    (csc_canonical a /\ csc_canonical b -> csc_canonical r) /\
    (~ (csc_canonical a /\ csc_canonical b) -> csc_entrywise sum0 ssub a b r) /\
    (csc_canonical a /\ csc_canonical b -> csc_entrywise (hd s0) ssub a b r).
Proof.
  intros a b HA HB E1 E2 Hf. destruct (wf_csc_rep _ _ HA) as [RA RPA], (wf_csc_rep _ _ HB) as [RB RPB].
  destruct (CSC_subtract_rep I a b RA RB RPA RPB E1 E2 Hf) as (r & Er & D1 & D2 & R & HR & L1 & L2 & Hrow & Hcan). exists r. split; [exact Er|].
  split; [split; rewrite (csc_rep_count _ _ _ HR); assumption|].
  apply (csc_sum_post_result I ssub a b r RA RB R); assumption.
Qed.
Lemma c20_csc_op_add : forall a b : CSC T,
  wf_csc I a -> wf_csc I b -> csc_rows b = csc_rows a -> csc_cols b = csc_cols a ->
  (Z.of_nat (csc_count a + csc_count b) < imax I)%Z ->
  exists r, CSC_op_add I a b = Ok r /\
    wf_csc I r /\ csc_rows r = csc_rows a /\ csc_cols r = csc_cols a /\ csc_nodup r /\ csc_nonzero r /\
    (csc_canonical a /\ csc_canonical b -> csc_canonical r) /\
    (~ (csc_canonical a /\ csc_canonical b) -> csc_entrywise sum0 sadd a b r) /\
    (csc_canonical a /\ csc_canonical b -> csc_entrywise (hd s0) sadd a b r).
Proof.
  intros a b HA HB E1 E2 Hf. destruct (wf_csc_rep _ _ HA) as [RA RPA], (wf_csc_rep _ _ HB) as [RB RPB].
  destruct (CSC_op_add_rep I a b RA RB RPA RPB E1 E2 Hf) as (r & Er & D1 & D2 & L1 & L2 & R & HR & Hrow & Hcan). exists r. split; [exact Er|].
  apply (csc_sum_post_result I sadd a b r RA RB R); assumption.
Qed.

Lemma c21_csc_op_sub_refuted : forall a b : CSC T,
  wf_csc I a -> wf_csc I b -> csc_rows b = csc_rows a -> csc_cols b = csc_cols a ->
  (Z.of_nat (csc_count a + csc_count b) < imax I)%Z -> csc_count a + csc_count b <> csc_cols a + 1 ->
  CSC_op_sub I a b = Panic.
Proof.
  intros a b HA HB E1 E2 Hf Hn. destruct (wf_csc_rep _ _ HA) as [RA RPA], (wf_csc_rep _ _ HB) as [RB RPB].
  apply (CSC_op_sub_panic I a b RA RB); assumption.
Qed.

Lemma c21_csc_op_sub_exchanged : forall a b : CSC T,
  wf_csc I a -> wf_csc I b -> csc_rows b = csc_rows a -> csc_cols b = csc_cols a ->
  (Z.of_nat (csc_count a + csc_count b) < imax I)%Z ->
  CSC_op_sub I a b = Panic \/
  exists r d, CSC_op_sub I a b = Ok r /\ CSC_subtract I a b = Ok d /\ csc_rows r = csc_rows a /\ csc_cols r = csc_cols a /\
    csc_rowidx r = csc_colptr d /\ firstn (csc_count d) (csc_colptr r) = csc_rowidx d /\ firstn (csc_count d) (csc_values r) = csc_values d /\
    length (csc_colptr r) = csc_cols a + 1 /\ length (csc_values r) = csc_cols a + 1.
Proof.
  intros a b HA HB E1 E2 Hf. destruct (wf_csc_rep _ _ HA) as [RA RPA], (wf_csc_rep _ _ HB) as [RB RPB].
  apply (CSC_op_sub_swap I a b RA RB); assumption.
Qed.

(** C46: the element-wise kernel for any (possibly failing) operation, writing into the caller's arrays. *)
Section Binop.
Context {T2 : Type} {NZ : Nonzero T2}.
Lemma c46_csr_binop_csr : forall (op : T -> T -> res T2) (g : nat -> nat -> T2) (a b : CSR T) c_p c_j (c_x : list T2),
  wf_csr I a -> wf_csr I b -> csr_rows b = csr_rows a -> csr_cols b = csr_cols a ->
  (Z.of_nat (csr_count a + csr_count b) < imax I)%Z ->
  length c_p = csr_rows a + 1 -> csr_count a + csr_count b <= length c_j -> csr_count a + csr_count b <= length c_x ->
  let read := fun rd => forall i j, i < csr_rows a -> csr_at a i j ++ csr_at b i j <> [] ->
    op (rd (csr_at a i j)) (rd (csr_at b i j)) = Ok (g i j) in
  (~ (csr_canonical a /\ csr_canonical b) -> read sum0) ->
  (csr_canonical a /\ csr_canonical b -> read (hd s0)) ->
  exists p j x, csr_binop_csr I op (csr_rows a) (csr_cols a) (csr_rowptr a) (csr_colidx a) (csr_values a)
      (csr_rowptr b) (csr_colidx b) (csr_values b) c_p c_j c_x = Ok (p, j, x) /\
    let r := mkCSR (csr_rows a) (csr_cols a) p j x in
    wf_csr I r /\ csr_nodup r /\ (csr_canonical a /\ csr_canonical b -> csr_canonical r) /\
    forall i j, i < csr_rows a -> csr_at r i j = keep (csr_at a i j ++ csr_at b i j) (g i j).
Proof.
  intros op g a b c_p c_j c_x HA HB E1 E2 Hf LP LJ LX read H1 H2.
  destruct (wf_csr_rep _ _ HA) as [RA RPA], (wf_csr_rep _ _ HB) as [RB RPB].
  rewrite <- (both_csr I a b RA RB RPA RPB) in *.
  rewrite (csr_rep_count _ _ _ RPA), (csr_rep_count _ _ _ RPB) in *.
  assert (Occ : forall i j, In j (map fst (nth i RA [])) \/ In j (map fst (nth i RB [])) -> csr_at a i j ++ csr_at b i j <> []).
  { intros i j. rewrite <- !at_occ, (csr_rep_at _ _ _ _ _ RPA), (csr_rep_at _ _ _ _ _ RPB). intros H E. apply app_eq_nil in E. tauto. }
  destruct (RPA) as [LA CA], (RPB) as [LB CB]. rewrite E1 in LB. rewrite E2 in CB.
  destruct (binop_spec I op _ _ _ _ _ _ _ _ RA RB g CA CB LA LB ltac:(lia) c_p c_j c_x) as ([[p j] x] & E & Lj & Lx & R & LR & HR & Hrow & Hcan);
    [lia..| | |].
  - intros HC i k Hi Hk. specialize (H1 HC i k Hi (Occ i k Hk)). rewrite (csr_rep_at _ _ _ _ _ RPA), (csr_rep_at _ _ _ _ _ RPB) in H1. exact H1.
  - intros HC i k Hi Hk. specialize (H2 HC i k Hi (Occ i k Hk)). rewrite (csr_rep_at _ _ _ _ _ RPA), (csr_rep_at _ _ _ _ _ RPB) in H2. exact H2.
  - exists p, j, x. split; [exact E|]. cbv zeta. pose proof (crep_rect I _ _ _ _ _ _ HR LR) as RR. sp.
    + apply (csr_rep_wf _ _ _ RR).
    + intros i Hi. rewrite (csr_rep_row _ _ _ _ RR). apply (binrow_nodup _ _ _ _ (Hrow i Hi)).
    + intros HC. apply (both_csr I a b RA RB RPA RPB) in HC. exact (proj2 (csr_rep_rows canonical_row _ _ _ RR) (Hcan HC)).
    + intros i k Hi. rewrite (csr_rep_at _ _ _ _ _ RPA), (csr_rep_at _ _ _ _ _ RPB), (csr_rep_at _ _ _ _ _ RR). apply (binrow_keep _ _ _ _ _ (Hrow i Hi)).
Qed.
End Binop.

Lemma c47_csr_matmat_maxnnz : forall a b : CSR T,
  wf_csr I a -> wf_csr I b -> csr_cols a = csr_rows b ->
  csr_matmat_maxnnz (csr_rows a) (csr_cols b) (csr_rowptr a) (csr_colidx a) (csr_rowptr b) (csr_colidx b) = Ok (product_count a b).
Proof.
  intros a b HA HB E. destruct (wf_csr_rep _ _ HA) as [RA RPA], (wf_csr_rep _ _ HB) as [RB RPB].
  rewrite (product_count_rep I _ _ _ _ RPA RPB). destruct RPA as [LA CA], RPB as [LB CB]. rewrite E in CA.
  apply (maxnnz_spec I _ _ _ _ _ _ _ _ _ _ _ CA CB LA LB).
Qed.
Lemma c47_csc_matmat_maxnnz : forall a b : CSC T,
  wf_csc I a -> wf_csc I b -> csc_cols a = csc_rows b ->
  csc_matmat_maxnnz (csc_rows a) (csc_cols b) (csc_colptr a) (csc_rowidx a) (csc_colptr b) (csc_rowidx b) = Ok (csc_product_count a b).
Proof.
  intros a b HA HB E. destruct (wf_csc_rep _ _ HA) as [RA RPA], (wf_csc_rep _ _ HB) as [RB RPB].
  rewrite (csc_product_count_rep I _ _ _ _ RPA RPB). destruct RPA as [LA CA], RPB as [LB CB]. rewrite <- E in CB.
  apply (maxnnz_spec I _ _ _ _ _ _ _ _ _ _ _ CB CA LB LA).
Qed.

Lemma c55_csr_add_capacity : forall a b : CSR T,
  wf_csr I a -> wf_csr I b -> csr_rows b = csr_rows a -> csr_cols b = csr_cols a ->
  (Z.of_nat (csr_count a + csr_count b) < imax I)%Z ->
  (forall r, CSR_add I a b = Ok r -> length (csr_colidx r) = csr_count a + csr_count b /\ length (csr_values r) = csr_count a + csr_count b) /\
  (forall r, CSR_sub I a b = Ok r -> length (csr_colidx r) = csr_count a + csr_count b /\ length (csr_values r) = csr_count a + csr_count b).
Proof.
  intros a b HA HB E1 E2 Hf. destruct (wf_csr_rep _ _ HA) as [RA RPA], (wf_csr_rep _ _ HB) as [RB RPB]. split; intros r Er.
  - destruct (CSR_add_rep I a b RA RB RPA RPB E1 E2 Hf) as (r' & Er' & _ & _ & L1 & L2 & _). rewrite Er in Er'. injection Er' as <-. auto.
  - destruct (CSR_sub_rep I a b RA RB RPA RPB E1 E2 Hf) as (r' & Er' & _ & _ & L1 & L2 & _). rewrite Er in Er'. injection Er' as <-. auto.
Qed.
Lemma c55_csr_mat_mat_capacity : forall a b : CSR T,
  wf_csr I a -> wf_csr I b -> csr_cols a = csr_rows b -> (Z.of_nat (product_count a b) <= imax I)%Z ->
  forall r, CSR_mat_mat I a b = Ok r -> length (csr_colidx r) = product_count a b /\ length (csr_values r) = product_count a b.
Proof.
  intros a b HA HB E Hf r Er. destruct (wf_csr_rep _ _ HA) as [RA RPA], (wf_csr_rep _ _ HB) as [RB RPB].
  destruct (CSR_mat_mat_rep I a b RA RB RPA RPB E Hf) as (r' & Er' & _ & _ & L1 & L2 & _). rewrite Er in Er'. injection Er' as <-. auto.
Qed.
End Props.

(** C46 for the kernels the crate offers, if zero is neutral (then both ways of reading a cell agree). *)
Section Kernels.
Context {T : Type} {SC : Scalar T} {ZA : ZeroAdd T}.
Variable I : ity.

Lemma c46_total : forall {T2} {NZ : Nonzero T2} (f : T -> T -> T2) (a b : CSR T) c_p c_j (c_x : list T2),
  wf_csr I a -> wf_csr I b -> csr_rows b = csr_rows a -> csr_cols b = csr_cols a ->
  (Z.of_nat (csr_count a + csr_count b) < imax I)%Z ->
  length c_p = csr_rows a + 1 -> csr_count a + csr_count b <= length c_j -> csr_count a + csr_count b <= length c_x ->
  exists p j x, csr_binop_csr I (fun u v => Ok (f u v)) (csr_rows a) (csr_cols a) (csr_rowptr a) (csr_colidx a) (csr_values a)
      (csr_rowptr b) (csr_colidx b) (csr_values b) c_p c_j c_x = Ok (p, j, x) /\
    let r := mkCSR (csr_rows a) (csr_cols a) p j x in wf_csr I r /\ csr_nodup r /\ csr_entrywise sum0 f a b r.
Proof.
  intros T2 NZ f a b c_p c_j c_x HA HB E1 E2 Hf LP LJ LX.
  destruct (c46_csr_binop_csr I (fun u v => Ok (f u v)) (fun i j => f (csr_val a i j) (csr_val b i j)) a b c_p c_j c_x) as (p & j & x & E & W & N & _ & A); try assumption.
  - intros _ i j Hi _. reflexivity.
  - intros [CA CB] i j Hi _. unfold csr_val, csr_at. rewrite !canonical_at_read; [reflexivity|apply CB; lia|apply CA, Hi].
  - exists p, j, x. cbv zeta. split; [exact E|]. split; [exact W|]. split; [exact N|]. exact A.
Qed.
Lemma c46_algorithms_agree : forall {T2} {NZ : Nonzero T2} (f : T -> T -> T2) (a b : CSR T) c_p c_j (c_x : list T2),
  wf_csr I a -> wf_csr I b -> csr_canonical a -> csr_canonical b -> csr_rows b = csr_rows a -> csr_cols b = csr_cols a ->
  (Z.of_nat (csr_count a + csr_count b) <= imax I)%Z ->
  length c_p = csr_rows a + 1 -> csr_count a + csr_count b <= length c_j -> csr_count a + csr_count b <= length c_x ->
  exists p j x p' j' x',
    csr_binop_csr_canonical I (fun u v => Ok (f u v)) (csr_rows a) (csr_cols a) (csr_rowptr a) (csr_colidx a) (csr_values a)
      (csr_rowptr b) (csr_colidx b) (csr_values b) c_p c_j c_x = Ok (p, j, x) /\
    csr_binop_csr_general I (fun u v => Ok (f u v)) (csr_rows a) (csr_cols a) (csr_rowptr a) (csr_colidx a) (csr_values a)
      (csr_rowptr b) (csr_colidx b) (csr_values b) c_p c_j c_x = Ok (p', j', x') /\
    forall i k, i < csr_rows a -> at_ k (crow p j x i) = at_ k (crow p' j' x' i).
Proof.
  intros T2 NZ f a b c_p c_j c_x HA HB KA KB E1 E2 Hf LP LJ LX.
  destruct (wf_csr_rep _ _ HA) as [RA RPA], (wf_csr_rep _ _ HB) as [RB RPB].
  rewrite (csr_rep_count _ _ _ RPA), (csr_rep_count _ _ _ RPB) in *.
  assert (KA' : forall i, i < csr_rows a -> canonical_row (nth i RA [])) by (intros i Hi; rewrite <- (csr_rep_row _ _ _ _ RPA); apply KA, Hi).
  assert (KB' : forall i, i < csr_rows a -> canonical_row (nth i RB [])) by (intros i Hi; rewrite <- (csr_rep_row _ _ _ _ RPB); apply KB; lia).
  destruct (RPA) as [LA CA], (RPB) as [LB CB]. rewrite E1 in LB. rewrite E2 in CB.
  pose (g := fun i k => f (sum0 (at_ k (nth i RA []))) (sum0 (at_ k (nth i RB [])))).
  destruct (binop_canonical_spec I (fun u v => Ok (f u v)) _ _ _ _ _ _ _ _ RA RB g CA CB LA LB Hf KA' KB') with (c_p := c_p) (c_j := c_j) (c_x := c_x)
    as ([[p j] x] & E & _ & _ & R & LR & HR & Hrow); [|lia..|].
  { intros i k Hi _. unfold g. rewrite !canonical_at_read by auto. reflexivity. }
  destruct (binop_general_spec I (fun u v => Ok (f u v)) _ _ _ _ _ _ _ _ RA RB g CA CB LA LB Hf) with (c_p := c_p) (c_j := c_j) (c_x := c_x)
    as ([[p' j'] x'] & E' & _ & _ & R' & LR' & HR' & Hrow'); [|lia..|].
  { intros i k Hi _. reflexivity. }
  exists p, j, x, p', j', x'. split; [exact E|]. split; [exact E'|]. intros i k Hi.
  change (crow p j x i) with (csr_row (mkCSR (csr_rows a) (csr_cols a) p j x) i).
  change (crow p' j' x' i) with (csr_row (mkCSR (csr_rows a) (csr_cols a) p' j' x') i).
  rewrite (csr_rep_row I _ R i) by (split; assumption). rewrite (csr_rep_row I _ R' i) by (split; assumption).
  rewrite (binrow_keep _ _ _ _ _ (mrow_binrow _ _ _ _ (Hrow i Hi))), (binrow_keep _ _ _ _ _ (Hrow' i Hi)). reflexivity.
Qed.

Lemma c46_kernels : forall (SO : ScalarOrd T),
  kernel_computes I (csr_ne_csr I) (fun u v => negb (seqb u v)) /\
  kernel_computes I (csr_eq_csr I) seqb /\
  kernel_computes I (csr_lt_csr I) sltb /\ kernel_computes I (csr_gt_csr I) (fun u v => sltb v u) /\
  kernel_computes I (csr_le_csr I) sleb /\ kernel_computes I (csr_ge_csr I) (fun u v => sleb v u) /\
  kernel_computes I (csr_add_csr I) sadd /\ kernel_computes I (csr_sub_csr I) ssub /\
  kernel_computes I (csr_mul_csr I) smul /\
  kernel_computes I (csr_max_csr I) (fun u v => if sltb v u then u else v) /\
  kernel_computes I (csr_min_csr I) (fun u v => if sltb u v then u else v).
Proof. intros SO. repeat split; unfold kernel_computes; intros; apply c46_total; assumption. Qed.
Lemma c46_div : forall (a b : CSR T) c_p c_j c_x,
  wf_csr I a -> wf_csr I b -> csr_rows b = csr_rows a -> csr_cols b = csr_cols a ->
  (Z.of_nat (csr_count a + csr_count b) < imax I)%Z ->
  length c_p = csr_rows a + 1 -> csr_count a + csr_count b <= length c_j -> csr_count a + csr_count b <= length c_x ->
  seqb s0 s0 = true -> seqb s1 s0 = false -> (forall u v, sdiv u v = Panic \/ exists q, sdiv u v = Ok q) ->
  let occupied i k := i < csr_rows a /\ csr_at a i k ++ csr_at b i k <> [] in
  let run := csr_div_csr I (csr_rows a) (csr_cols a) (csr_rowptr a) (csr_colidx a) (csr_values a)
      (csr_rowptr b) (csr_colidx b) (csr_values b) c_p c_j c_x in
  ((exists i k, occupied i k /\ sdiv (csr_val a i k) (csr_val b i k) = Panic) -> run = Panic) /\
  (forall g, (forall i k, occupied i k -> sdiv (csr_val a i k) (csr_val b i k) = Ok (g i k)) ->
   exists p j x, run = Ok (p, j, x) /\
    let r := mkCSR (csr_rows a) (csr_cols a) p j x in wf_csr I r /\ csr_nodup r /\
    forall i k, i < csr_rows a -> csr_at r i k = keep (csr_at a i k ++ csr_at b i k) (g i k)).
Proof.
  intros a b c_p c_j c_x HA HB E1 E2 Hf LP LJ LX Z0 Z1 HD occ run. split.
  - intros (i & k & [Hi Ho] & Hp).
    set (f d u v := match sdiv u v with Ok q => q | _ => d end).
    assert (M : forall d, may run (csr_binop_csr I (fun u v => Ok (f d u v)) (csr_rows a) (csr_cols a) (csr_rowptr a) (csr_colidx a) (csr_values a)
      (csr_rowptr b) (csr_colidx b) (csr_values b) c_p c_j c_x)).
    { intros d. apply may_binop. intros u v. unfold f. destruct (HD u v) as [-> | [q ->]]; [left; reflexivity|right; reflexivity]. }
    destruct (M s0) as [E|E]; [exact E|]. destruct (M s1) as [E'|E']; [exact E'|]. exfalso.
    destruct (c46_total (f s0) a b c_p c_j c_x HA HB E1 E2 Hf LP LJ LX) as (p & j & x & F & _ & _ & A).
    destruct (c46_total (f s1) a b c_p c_j c_x HA HB E1 E2 Hf LP LJ LX) as (p' & j' & x' & F' & _ & _ & A').
    rewrite F in E. rewrite F' in E'. rewrite E in E'. injection E' as -> -> ->.
    pose proof (A i k Hi) as B. pose proof (A' i k Hi) as B'. rewrite B' in B. unfold f, keep in B.
    fold (csr_val a i k) in B. fold (csr_val b i k) in B. rewrite Hp in B.
    destruct (csr_at a i k ++ csr_at b i k); [contradiction|]. cbn [nonzero nonzero_scalar] in B. rewrite Z0, Z1 in B. discriminate B.
  - intros g Hg. destruct (c46_csr_binop_csr I (fun u v => sdiv u v) g a b c_p c_j c_x) as (p & j & x & E & W & N & _ & A); try assumption.
    + intros _ i k Hi Ho. apply (Hg i k). split; assumption.
    + intros [CA CB] i k Hi Ho. specialize (Hg i k (conj Hi Ho)). unfold csr_val, csr_at in Hg. unfold csr_at. rewrite !canonical_at_read; [exact Hg|apply CB; lia|apply CA, Hi].
    + exists p, j, x. split; [exact E|]. cbv zeta. split; [exact W|]. split; [exact N|]. exact A.
Qed.
Lemma c46_comparison_complete : forall K (f : T -> T -> bool) (a b : CSR T) c_p c_j c_x p j x,
  kernel_computes I K f -> f s0 s0 = false ->
  wf_csr I a -> wf_csr I b -> csr_rows b = csr_rows a -> csr_cols b = csr_cols a ->
  (Z.of_nat (csr_count a + csr_count b) < imax I)%Z ->
  length c_p = csr_rows a + 1 -> csr_count a + csr_count b <= length c_j -> csr_count a + csr_count b <= length c_x ->
  K (csr_rows a) (csr_cols a) (csr_rowptr a) (csr_colidx a) (csr_values a)
      (csr_rowptr b) (csr_colidx b) (csr_values b) c_p c_j c_x = Ok (p, j, x) ->
  forall i k, i < csr_rows a ->
    at_ k (crow p j x i) = if f (csr_val a i k) (csr_val b i k) then [true] else [].
Proof.
  intros K f a b c_p c_j c_x p j x HK Hz HA HB E1 E2 Hf LP LJ LX E i k Hi.
  destruct (HK a b c_p c_j c_x HA HB E1 E2 Hf LP LJ LX) as (p' & j' & x' & E' & _ & _ & A). rewrite E in E'. injection E' as <- <- <-.
  specialize (A i k Hi). unfold csr_at at 1, csr_row at 1 in A. cbn [csr_rowptr csr_colidx csr_values] in A. rewrite A.
  unfold keep. destruct (csr_at a i k ++ csr_at b i k) eqn:EA.
  - apply app_eq_nil in EA as [EA EB]. unfold csr_val. rewrite EA, EB. change (sum0 []) with (s0 : T). rewrite Hz. reflexivity.
  - cbn [nonzero nonzero_bool]. destruct (f (csr_val a i k) (csr_val b i k)); reflexivity.
Qed.
End Kernels.
Lemma c46_eq_le_ge_refuted : exists (a b : CSR Z), wf_csr I32 a /\ wf_csr I32 b /\ csr_rows a = csr_rows b /\ csr_cols a = csr_cols b /\
  csr_val a 0 0 = csr_val b 0 0 /\
  (exists p j x, csr_eq_csr I32 1 1 (csr_rowptr a) (csr_colidx a) (csr_values a) (csr_rowptr b) (csr_colidx b) (csr_values b) [0; 0]%Z [] [] = Ok (p, j, x) /\ at_ 0 (crow p j x 0) = []) /\
  (exists p j x, csr_le_csr I32 1 1 (csr_rowptr a) (csr_colidx a) (csr_values a) (csr_rowptr b) (csr_colidx b) (csr_values b) [0; 0]%Z [] [] = Ok (p, j, x) /\ at_ 0 (crow p j x 0) = []) /\
  (exists p j x, csr_ge_csr I32 1 1 (csr_rowptr a) (csr_colidx a) (csr_values a) (csr_rowptr b) (csr_colidx b) (csr_values b) [0; 0]%Z [] [] = Ok (p, j, x) /\ at_ 0 (crow p j x 0) = []).
Proof.
  exists (mkCSR 1 1 [0; 0]%Z [] []), (mkCSR 1 1 [0; 0]%Z [] []). split; [check|]. split; [check|].
  repeat (split; [reflexivity|]). split; [|split]; eexists _, _, _; split; reflexivity.
Qed.
Lemma c46_div_refuted : exists (a b : CSR Z), wf_csr I32 a /\ wf_csr I32 b /\ csr_rows a = csr_rows b /\ csr_cols a = csr_cols b /\
  csr_div_csr I32 1 1 (csr_rowptr a) (csr_colidx a) (csr_values a) (csr_rowptr b) (csr_colidx b) (csr_values b) [0; 0]%Z [0]%Z [0]%Z = Panic.
Proof. exists (mkCSR 1 1 [0; 1]%Z [0]%Z [7]%Z), (mkCSR 1 1 [0; 0]%Z [] []). split; [check|]. split; [check|]. repeat split. Qed.

Lemma c46_div_integer : forall (I : ity) (a b : CSR Z) c_p c_j c_x i k,
  wf_csr I a -> wf_csr I b -> csr_rows b = csr_rows a -> csr_cols b = csr_cols a ->
  (Z.of_nat (csr_count a + csr_count b) < imax I)%Z ->
  length c_p = csr_rows a + 1 -> csr_count a + csr_count b <= length c_j -> csr_count a + csr_count b <= length c_x ->
  i < csr_rows a -> csr_at a i k <> [] -> csr_at b i k = [] ->
  csr_div_csr I (csr_rows a) (csr_cols a) (csr_rowptr a) (csr_colidx a) (csr_values a)
      (csr_rowptr b) (csr_colidx b) (csr_values b) c_p c_j c_x = Panic.
Proof.
  intros I a b c_p c_j c_x i k HA HB E1 E2 Hf LP LJ LX Hi Ha Hb.
  apply (c46_div I a b c_p c_j c_x HA HB E1 E2 Hf LP LJ LX); [reflexivity..| |].
  - intros u v. cbn. destruct (v =? 0)%Z; [left; reflexivity|right; eexists; reflexivity].
  - exists i, k. split; [split; [exact Hi|]|].
    + intros E. apply app_eq_nil in E. apply Ha, E.
    + unfold csr_val at 2. rewrite Hb. reflexivity.
Qed.
Lemma c46_div_w64 : forall (I : ity) (a b : CSR w64) c_p c_j c_x i k,
  wf_csr I a -> wf_csr I b -> csr_rows b = csr_rows a -> csr_cols b = csr_cols a ->
  (Z.of_nat (csr_count a + csr_count b) < imax I)%Z ->
  length c_p = csr_rows a + 1 -> csr_count a + csr_count b <= length c_j -> csr_count a + csr_count b <= length c_x ->
  i < csr_rows a -> csr_at a i k <> [] -> csr_at b i k = [] ->
  csr_div_csr I (csr_rows a) (csr_cols a) (csr_rowptr a) (csr_colidx a) (csr_values a)
      (csr_rowptr b) (csr_colidx b) (csr_values b) c_p c_j c_x = Panic.
Proof.
  intros I a b c_p c_j c_x i k HA HB E1 E2 Hf LP LJ LX Hi Ha Hb.
  apply (c46_div I a b c_p c_j c_x HA HB E1 E2 Hf LP LJ LX); [reflexivity..| |].
  - intros u v. cbn. destruct (wval v =? 0)%Z; [left; reflexivity|right; eexists; reflexivity].
  - exists i, k. split; [split; [exact Hi|]|].
    + intros E. apply app_eq_nil in E. apply Ha, E.
    + unfold csr_val at 2. rewrite Hb. reflexivity.
Qed.

(** C19, C20 if zero is neutral: one statement for canonical and other operands. *)
Section Neutral.
Context {T : Type} {SC : Scalar T} {ZA : ZeroAdd T}.
Variable I : ity.
Lemma c19_csr_entrywise : forall a b : CSR T,
  wf_csr I a -> wf_csr I b -> csr_rows b = csr_rows a -> csr_cols b = csr_cols a ->
  (Z.of_nat (csr_count a + csr_count b) < imax I)%Z ->
  exists s d, CSR_add I a b = Ok s /\ CSR_sub I a b = Ok d /\ csr_entrywise sum0 sadd a b s /\ csr_entrywise sum0 ssub a b d.
Proof.
  intros a b HA HB E1 E2 Hf.
  destruct (c19_csr_add I a b HA HB E1 E2 Hf) as (s & Es & _ & _ & _ & _ & _ & _ & S1 & S2).
  destruct (c19_csr_sub I a b HA HB E1 E2 Hf) as (d & Ed & _ & _ & _ & _ & _ & _ & D1 & D2).
  exists s, d. split; [exact Es|]. split; [exact Ed|].
  destruct (wf_csr_rep _ _ HA) as [RA RPA], (wf_csr_rep _ _ HB) as [RB RPB].
  destruct (both_dec RA RB) as [B|B]; rewrite (both_csr I a b RA RB RPA RPB) in B.
  - specialize (S2 B). specialize (D2 B). destruct B as [CA CB]. split; intros i j Hi.
    + rewrite (S2 i j Hi). unfold csr_at. rewrite !canonical_at_read; [reflexivity|apply CB; lia|apply CA, Hi].
    + rewrite (D2 i j Hi). unfold csr_at. rewrite !canonical_at_read; [reflexivity|apply CB; lia|apply CA, Hi].
  - auto.
Qed.
Lemma c20_csc_entrywise : forall a b : CSC T,
  wf_csc I a -> wf_csc I b -> csc_rows b = csc_rows a -> csc_cols b = csc_cols a ->
  (Z.of_nat (csc_count a + csc_count b) < imax I)%Z ->
  exists s d, CSC_add I a b = Ok s /\ CSC_subtract I a b = Ok d /\ csc_entrywise sum0 sadd a b s /\ csc_entrywise sum0 ssub a b d.
Proof.
  intros a b HA HB E1 E2 Hf.
  destruct (c20_csc_add I a b HA HB E1 E2 Hf) as (s & Es & _ & _ & _ & _ & _ & _ & _ & S1 & S2).
  destruct (c20_csc_subtract I a b HA HB E1 E2 Hf) as (d & Ed & _ & _ & _ & _ & _ & _ & _ & D1 & D2).
  exists s, d. split; [exact Es|]. split; [exact Ed|].
  destruct (wf_csc_rep _ _ HA) as [RA RPA], (wf_csc_rep _ _ HB) as [RB RPB].
  destruct (both_dec RA RB) as [B|B]; rewrite (both_csc I a b RA RB RPA RPB) in B.
  - specialize (S2 B). specialize (D2 B). destruct B as [CA CB]. split; intros i j Hj.
    + rewrite (S2 i j Hj). unfold csc_at. rewrite !canonical_at_read; [reflexivity|apply CB; lia|apply CA, Hj].
    + rewrite (D2 i j Hj). unfold csc_at. rewrite !canonical_at_read; [reflexivity|apply CB; lia|apply CA, Hj].
  - auto.
Qed.
End Neutral.

(** C17-C20 over an exact commutative ring: the mathematical sum, difference and product. *)
Section Ring.
Context {T : Type} {SC : Scalar T} {SN : ScalarNeg T} {ER : ExactRing T}.
Variable I : ity.
Add Ring TR : (er_ring (T := T)).

Lemma c17_csr_product : forall (a b r : CSR T),
  wf_csr I a -> wf_csr I b -> csr_cols a = csr_rows b -> (Z.of_nat (product_count a b) <= imax I)%Z ->
  CSR_mat_mat I a b = Ok r ->
  forall i k, i < csr_rows a -> csr_val r i k = rsum (csr_cols a) (fun j => smul (csr_val a i j) (csr_val b j k)).
Proof.
  intros a b r HA HB E Hf Er i k Hi. destruct (c17_csr_mat_mat I a b HA HB E Hf) as (r' & Er' & _ & _ & _ & _ & _ & _ & A).
  rewrite Er in Er'. injection Er' as <-. unfold csr_val at 1. rewrite (A i k Hi), keep_sum by (intros ->; reflexivity).
  unfold csr_products. rewrite sum0_flat_map.
  transitivity (sum0 (map (fun e => smul (snd e) (csr_val b (fst e) k)) (csr_row a i))).
  - f_equal. apply map_ext. intros e. apply (sum0_map_mul_l (csr_at b (fst e) k) (snd e)).
  - apply (row_sum (csr_cols a) (csr_row a i) (fun j => csr_val b j k)).
    destruct (wf_csr_rep _ _ HA) as [RA RPA]. rewrite (csr_rep_row _ _ _ _ RPA). apply Forall_forall. intros e He.
    destruct RPA as [LA CA]. pose proof (cr_idx _ _ _ _ _ _ CA) as F. rewrite Forall_forall in F. apply F, in_concat.
    exists (nth i RA []). split; [apply nth_In; lia|exact He].
Qed.
Lemma c18_csc_product : forall (a b r : CSC T),
  wf_csc I a -> wf_csc I b -> csc_cols a = csc_rows b -> (Z.of_nat (csc_product_count a b) <= imax I)%Z ->
  CSC_mat_mat I a b = Ok r ->
  forall i k, k < csc_cols b -> csc_val r i k = rsum (csc_cols a) (fun j => smul (csc_val a i j) (csc_val b j k)).
Proof.
  intros a b r HA HB E Hf Er i k Hk. destruct (c18_csc_mat_mat I a b HA HB E Hf) as (r' & Er' & _ & _ & _ & _ & _ & _ & A).
  rewrite Er in Er'. injection Er' as <-. unfold csc_val at 1. rewrite (A i k Hk), keep_sum by (intros ->; reflexivity).
  unfold csc_products. rewrite sum0_flat_map.
  transitivity (sum0 (map (fun e => smul (snd e) (csc_val a i (fst e))) (csc_col b k))).
  - f_equal. apply map_ext. intros e. apply (sum0_map_mul_l (csc_at a i (fst e)) (snd e)).
  - rewrite (row_sum (csc_cols a) (csc_col b k) (fun j => csc_val a i j)).
    + apply rsum_ext. intros j Hj. change (smul (csc_val b j k) (csc_val a i j) = smul (csc_val a i j) (csc_val b j k)). ring.
    + destruct (wf_csc_rep _ _ HB) as [RB RPB]. rewrite (csc_rep_col _ _ _ _ RPB). apply Forall_forall. intros e He.
      destruct RPB as [LB CB]. rewrite E. pose proof (cr_idx _ _ _ _ _ _ CB) as F. rewrite Forall_forall in F. apply F, in_concat.
      exists (nth k RB []). split; [apply nth_In; lia|exact He].
Qed.
Lemma c19_csr_sum : forall a b : CSR T,
  wf_csr I a -> wf_csr I b -> csr_rows b = csr_rows a -> csr_cols b = csr_cols a ->
  (Z.of_nat (csr_count a + csr_count b) < imax I)%Z ->
  exists s d, CSR_add I a b = Ok s /\ CSR_sub I a b = Ok d /\ forall i j, i < csr_rows a ->
    csr_val s i j = sadd (csr_val a i j) (csr_val b i j) /\ csr_val d i j = ssub (csr_val a i j) (csr_val b i j).
Proof.
  intros a b HA HB E1 E2 Hf. destruct (c19_csr_entrywise I a b HA HB E1 E2 Hf) as (s & d & Es & Ed & S & D).
  exists s, d. split; [exact Es|]. split; [exact Ed|]. intros i j Hi. unfold csr_val. rewrite (S i j Hi), (D i j Hi), !keep_sum; [split; reflexivity| |];
    intros E; apply app_eq_nil in E as [-> ->]; rewrite sum0_nil; ring.
Qed.
Lemma c20_csc_sum : forall a b : CSC T,
  wf_csc I a -> wf_csc I b -> csc_rows b = csc_rows a -> csc_cols b = csc_cols a ->
  (Z.of_nat (csc_count a + csc_count b) < imax I)%Z ->
  exists s d, CSC_add I a b = Ok s /\ CSC_subtract I a b = Ok d /\ forall i j, j < csc_cols a ->
    csc_val s i j = sadd (csc_val a i j) (csc_val b i j) /\ csc_val d i j = ssub (csc_val a i j) (csc_val b i j).
Proof.
  intros a b HA HB E1 E2 Hf. destruct (c20_csc_entrywise I a b HA HB E1 E2 Hf) as (s & d & Es & Ed & S & D).
  exists s, d. split; [exact Es|]. split; [exact Ed|]. intros i j Hj. unfold csc_val. rewrite (S i j Hj), (D i j Hj), !keep_sum; [split; reflexivity| |];
    intros E; apply app_eq_nil in E as [-> ->]; rewrite sum0_nil; ring.
Qed.
End Ring.

(** C54: + and - on CSR matrices, and + on CSC matrices, do not compare dimensions.  A right operand with
    fewer rows makes them panic.  Otherwise its further rows are ignored, and every cell of the rows of the
    left operand, also in columns that the left operand does not have, is computed as for equal dimensions,
    or the call panics: it panics exactly if the right operand stores something in such a column and the
    operands are not canonical.  The result is well-formed exactly if nothing is left in such a column.
    (For CSC: exchange rows and columns.) *)
Section Mismatch.
Context {T : Type} {SC : Scalar T}.
Variable I : ity.
Lemma c54_csr_add_few : forall a b : CSR T,
  wf_csr I a -> wf_csr I b -> (Z.of_nat (csr_count a + csr_count b) < imax I)%Z -> csr_rows b < csr_rows a -> CSR_add I a b = Panic.
Proof. intros a b HA HB Hf. apply (csr_op_rows I sadd a b HA HB Hf). Qed.
Lemma c54_csr_add_sticks_out : forall a b : CSR T,
  wf_csr I a -> wf_csr I b -> (Z.of_nat (csr_count a + csr_count b) < imax I)%Z -> csr_rows a <= csr_rows b ->
  ~ csr_both_canonical a b -> csr_sticks_out a b -> CSR_add I a b = Panic.
Proof. intros a b HA HB Hf. apply (csr_op_cols I sadd a b HA HB Hf). Qed.
Lemma c54_csr_add : forall a b : CSR T,
  wf_csr I a -> wf_csr I b -> (Z.of_nat (csr_count a + csr_count b) < imax I)%Z -> csr_rows a <= csr_rows b ->
  csr_both_canonical a b \/ ~ csr_sticks_out a b ->
  exists r, CSR_add I a b = Ok r /\ csr_rows r = csr_rows a /\ csr_cols r = csr_cols a /\ csr_nodup r /\ csr_nonzero r /\
    (csr_both_canonical a b -> csr_canonical r) /\
    (~ csr_both_canonical a b -> csr_entrywise sum0 sadd a b r) /\
    (csr_both_canonical a b -> csr_entrywise (hd s0) sadd a b r) /\
    (wf_csr I r <-> ~ csr_sticks_out a r).
Proof.
  intros a b HA HB Hf L HC. destruct (csr_op_ok I sadd a b HA HB Hf L HC) as (r & E & H1 & H2 & H). exists r. auto.
Qed.
Lemma c54_csr_sub_few : forall a b : CSR T,
  wf_csr I a -> wf_csr I b -> (Z.of_nat (csr_count a + csr_count b) < imax I)%Z -> csr_rows b < csr_rows a -> CSR_sub I a b = Panic.
Proof. intros a b HA HB Hf. apply (csr_op_rows I ssub a b HA HB Hf). Qed.
Lemma c54_csr_sub_sticks_out : forall a b : CSR T,
  wf_csr I a -> wf_csr I b -> (Z.of_nat (csr_count a + csr_count b) < imax I)%Z -> csr_rows a <= csr_rows b ->
  ~ csr_both_canonical a b -> csr_sticks_out a b -> CSR_sub I a b = Panic.
Proof. intros a b HA HB Hf. apply (csr_op_cols I ssub a b HA HB Hf). Qed.
Lemma c54_csr_sub : forall a b : CSR T,
  wf_csr I a -> wf_csr I b -> (Z.of_nat (csr_count a + csr_count b) < imax I)%Z -> csr_rows a <= csr_rows b ->
  csr_both_canonical a b \/ ~ csr_sticks_out a b ->
  exists r, CSR_sub I a b = Ok r /\ csr_rows r = csr_rows a /\ csr_cols r = csr_cols a /\ csr_nodup r /\ csr_nonzero r /\
    (csr_both_canonical a b -> csr_canonical r) /\
    (~ csr_both_canonical a b -> csr_entrywise sum0 ssub a b r) /\
    (csr_both_canonical a b -> csr_entrywise (hd s0) ssub a b r) /\
    (wf_csr I r <-> ~ csr_sticks_out a r).
Proof.
  intros a b HA HB Hf L HC. destruct (csr_op_ok I ssub a b HA HB Hf L HC) as (r & E & H1 & H2 & H). exists r. auto.
Qed.
Lemma c54_csc_op_add_few : forall a b : CSC T,
  wf_csc I a -> wf_csc I b -> (Z.of_nat (csc_count a + csc_count b) < imax I)%Z -> csc_cols b < csc_cols a -> CSC_op_add I a b = Panic.
Proof. intros a b HA HB Hf. apply (csc_op_rows I sadd a b HA HB Hf). Qed.
Lemma c54_csc_op_add_sticks_out : forall a b : CSC T,
  wf_csc I a -> wf_csc I b -> (Z.of_nat (csc_count a + csc_count b) < imax I)%Z -> csc_cols a <= csc_cols b ->
  ~ csc_both_canonical a b -> csc_sticks_out a b -> CSC_op_add I a b = Panic.
Proof. intros a b HA HB Hf. apply (csc_op_cols I sadd a b HA HB Hf). Qed.
Lemma c54_csc_op_add : forall a b : CSC T,
  wf_csc I a -> wf_csc I b -> (Z.of_nat (csc_count a + csc_count b) < imax I)%Z -> csc_cols a <= csc_cols b ->
  csc_both_canonical a b \/ ~ csc_sticks_out a b ->
  exists r, CSC_op_add I a b = Ok r /\ csc_rows r = csc_rows a /\ csc_cols r = csc_cols a /\ csc_nodup r /\ csc_nonzero r /\
    (csc_both_canonical a b -> csc_canonical r) /\
    (~ csc_both_canonical a b -> csc_entrywise sum0 sadd a b r) /\
    (csc_both_canonical a b -> csc_entrywise (hd s0) sadd a b r) /\
    (wf_csc I r <-> ~ csc_sticks_out a r).
Proof.
  intros a b HA HB Hf L HC. destruct (csc_op_ok I sadd a b HA HB Hf L HC) as (r & E & H1 & H2 & H). exists r. auto.
Qed.
End Mismatch.
Lemma c55_csr_add_refuted : exists a b r : CSR Z,
  wf_csr I32 a /\ wf_csr I32 b /\ CSR_add I32 a b = Ok r /\ CSR_nnz r = Ok 1 /\ length (csr_colidx r) = 2 /\ length (csr_values r) = 2.
Proof.
  exists (mkCSR 1 2 [0; 1]%Z [1]%Z [1]%Z), (mkCSR 1 2 [0; 1]%Z [1]%Z [4]%Z), (mkCSR 1 2 [0; 1]%Z [1; 0]%Z [5; 0]%Z).
  split; [check|]. split; [check|]. repeat (split; [reflexivity|]); reflexivity.
Qed.
Lemma c55_csr_mat_mat_refuted : exists a b r : CSR Z,
  wf_csr I32 a /\ wf_csr I32 b /\ CSR_mat_mat I32 a b = Ok r /\ CSR_nnz r = Ok 0 /\ length (csr_colidx r) = 1 /\ length (csr_values r) = 1.
Proof.
  exists (mkCSR 1 2 [0; 2]%Z [0; 1]%Z [1; 1]%Z), (mkCSR 2 1 [0; 1; 2]%Z [0; 0]%Z [4; -4]%Z), (mkCSR 1 1 [0; 0]%Z [0]%Z [0]%Z).
  split; [check|]. split; [check|]. repeat (split; [reflexivity|]); reflexivity.
Qed.
