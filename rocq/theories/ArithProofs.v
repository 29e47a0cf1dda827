(** Sums, differences and products of matrices. *)
From Verif Require Import Rust Scalar Model_kernels Model_matrix Spec Wp Rep CanonProofs ConvProofs RingProofs LinProofs Lin2Proofs
  LinkProofs BinopProofs MatmatProofs.

Lemma existsb_ext {A} (f g : A -> bool) l : (forall a, f a = g a) -> existsb f l = existsb g l.
Proof. intros H. induction l; cbn; [reflexivity|]. rewrite H, IHl. reflexivity. Qed.

Section Rows.
Context {T T2 : Type} {SC : Scalar T} {NZ : Nonzero T2}.

Lemma at_occ k (r : list (nat * T)) : at_ k r <> [] <-> In k (map fst r).
Proof. rewrite at_nil_iff. destruct (in_dec Nat.eq_dec k (map fst r)); tauto. Qed.
Lemma binrow_keep (g : nat -> T2) (ra rb : list (nat * T)) row k : binrow g ra rb row ->
  at_ k row = keep (at_ k ra ++ at_ k rb) (g k).
Proof.
  intros H. unfold keep. destruct (at_ k ra ++ at_ k rb) as [|v l] eqn:E.
  - apply app_eq_nil in E as [E1 E2]. apply (binrow_at_none _ _ _ _ _ H E1 E2).
  - apply (binrow_at _ _ _ _ _ H). destruct (at_ k ra); [|left; discriminate]. right. intros E2. rewrite E2 in E. discriminate.
Qed.
Lemma binrow_nodup (g : nat -> T2) (ra rb : list (nat * T)) row : binrow g ra rb row -> nodup_row row.
Proof. intros (M & H & _ & ->). apply emit_nodup, H. Qed.
Lemma emit_nonzero (g : nat -> T2) M : Forall (fun e => nonzero (snd e) = true) (emit g M).
Proof. apply Forall_forall. intros e He. apply emit_in in He. apply He. Qed.
End Rows.

Section Mat.
Context {T : Type} {SC : Scalar T}.
Variable I : ity.
Implicit Types R : list (list (nat * T)).

Lemma canonical_row_dec (r : list (nat * T)) : {canonical_row r} + {~ canonical_row r}.
Proof.
  unfold canonical_row. induction (map fst r) as [|a l IH]; [left; constructor|]. destruct IH as [IH|IH].
  - destruct (Forall_dec (lt a) (fun x => lt_dec a x) l) as [F|F]; [left; constructor; assumption|right].
    intros H. apply StronglySorted_inv in H as [_ H]. contradiction.
  - right. intros H. apply StronglySorted_inv in H as [H _]. contradiction.
Defined.
Lemma both_dec (RA RB : list (list (nat * T))) : {both_canonical RA RB} + {~ both_canonical RA RB}.
Proof.
  unfold both_canonical.
  destruct (Forall_dec canonical_row canonical_row_dec RA); [|right; tauto].
  destruct (Forall_dec canonical_row canonical_row_dec RB); [left; auto|right; tauto].
Defined.
(** how the kernel reads a cell *)
Definition rd (RA RB : list (list (nat * T))) (l : list T) : T := if both_dec RA RB then hd s0 l else sum0 l.

Lemma binrow_nonzero g (ra rb : list (nat * T)) (row : list (nat * T)) : binrow g ra rb row -> Forall (fun e => seqb (snd e) s0 = false) row.
Proof.
  intros (M & H & _ & ->). eapply Forall_impl; [|apply emit_nonzero]. intros e He. cbn in He. apply negb_true_iff in He. exact He.
Qed.
(** any total operation on two matrices of the same shape *)
Lemma binop_total {T2} {NZ : Nonzero T2} (f : T -> T -> T2) n c a_p a_j a_x b_p b_j b_x RA RB c_p c_j (c_x : list T2) :
  crep I c a_p a_j a_x RA -> crep I c b_p b_j b_x RB -> length RA = n -> length RB = n ->
  (Z.of_nat (length (concat RA) + length (concat RB)) < imax I)%Z ->
  length c_p = S n -> length (concat RA) + length (concat RB) <= length c_j -> length (concat RA) + length (concat RB) <= length c_x ->
  wp (csr_binop_csr I (fun x y => Ok (f x y)) n c a_p a_j a_x b_p b_j b_x c_p c_j c_x) (fun '(p, j, x) =>
    length j = length c_j /\ length x = length c_x /\
    exists R : list (list (nat * T2)), length R = n /\ crep I c p j x R /\
      (forall i, i < n -> binrow (fun k => f (rd RA RB (at_ k (nth i RA []))) (rd RA RB (at_ k (nth i RB [])))) (nth i RA []) (nth i RB []) (nth i R [])) /\
      (both_canonical RA RB -> Forall canonical_row R)).
Proof.
  intros HA HB LA LB Hf LP LJ LX.
  apply (binop_spec I (fun x y => Ok (f x y)) c n _ _ _ _ _ _ RA RB
    (fun i k => f (rd RA RB (at_ k (nth i RA []))) (rd RA RB (at_ k (nth i RB [])))) HA HB LA LB ltac:(lia) _ _ _ LP LJ LX); [lia|lia| |].
  - intros HN i k _ _. unfold rd. destruct (both_dec RA RB); [contradiction|reflexivity].
  - intros HN i k _ _. unfold rd. destruct (both_dec RA RB); [reflexivity|contradiction].
Qed.

Lemma crep_rect c p j (x : list T) R r : crep I c p j x R -> length R = r -> csr_rep I (mkCSR r c p j x) R.
Proof. intros H L. split; assumption. Qed.

Definition sum_post f (a b : CSR T) RA RB (r : CSR T) : Prop :=
  csr_rows r = csr_rows a /\ csr_cols r = csr_cols a /\
  length (csr_colidx r) = csr_count a + csr_count b /\ length (csr_values r) = csr_count a + csr_count b /\
  exists R, csr_rep I r R /\
    (forall i, i < csr_rows a -> binrow (fun k => f (rd RA RB (at_ k (nth i RA []))) (rd RA RB (at_ k (nth i RB [])))) (nth i RA []) (nth i RB []) (nth i R [])) /\
    (both_canonical RA RB -> Forall canonical_row R).

Lemma CSR_add_rep (a b : CSR T) RA RB : csr_rep I a RA -> csr_rep I b RB -> csr_rows b = csr_rows a -> csr_cols b = csr_cols a ->
  (Z.of_nat (csr_count a + csr_count b) < imax I)%Z -> wp (CSR_add I a b) (sum_post sadd a b RA RB).
Proof.
  intros HA HB Er Ec Hf. unfold CSR_add. rewrite (CSR_nnz_rep _ _ _ HA), (CSR_nnz_rep _ _ _ HB). cbn [bind].
  rewrite (csr_rep_count _ _ _ HA), (csr_rep_count _ _ _ HB) in Hf.
  destruct HA as [LA HA], HB as [LB HB]. rewrite Ec in HB. rewrite Er in LB.
  unfold csr_add_csr. apply wp_bind. eapply wp_mono; [apply (binop_total sadd _ _ _ _ _ _ _ _ _ _ _ _ _ HA HB LA LB Hf); rewrite ?repeat_length; lia|].
  intros [[p j] x] (Lj & Lx & R & LR & HR & Hrow & Hcan). rewrite repeat_length in Lj, Lx.
  rewrite (CSR_new_rep _ _ _ _ _ _ _ HR LR). cbn [unwrap]. apply wp_ok. unfold sum_post. cbn [csr_rows csr_cols csr_colidx csr_values].
  rewrite (csr_rep_count I a RA (conj LA HA)), (csr_rep_count I b RB) by (split; [lia|rewrite Ec; assumption]).
  sp; try assumption. exists R. sp; try assumption; split; assumption.
Qed.
Lemma CSR_sub_rep (a b : CSR T) RA RB : csr_rep I a RA -> csr_rep I b RB -> csr_rows b = csr_rows a -> csr_cols b = csr_cols a ->
  (Z.of_nat (csr_count a + csr_count b) < imax I)%Z -> wp (CSR_sub I a b) (sum_post ssub a b RA RB).
Proof.
  intros HA HB Er Ec Hf. unfold CSR_sub. rewrite (CSR_nnz_rep _ _ _ HA), (CSR_nnz_rep _ _ _ HB). cbn [bind].
  rewrite (csr_rep_count _ _ _ HA), (csr_rep_count _ _ _ HB) in Hf.
  destruct HA as [LA HA], HB as [LB HB]. rewrite Ec in HB. rewrite Er in LB.
  unfold csr_sub_csr. apply wp_bind. eapply wp_mono; [apply (binop_total ssub _ _ _ _ _ _ _ _ _ _ _ _ _ HA HB LA LB Hf); rewrite ?repeat_length; lia|].
  intros [[p j] x] (Lj & Lx & R & LR & HR & Hrow & Hcan). rewrite repeat_length in Lj, Lx.
  rewrite (CSR_new_rep _ _ _ _ _ _ _ HR LR). cbn [unwrap]. apply wp_ok. unfold sum_post. cbn [csr_rows csr_cols csr_colidx csr_values].
  rewrite (csr_rep_count I a RA (conj LA HA)), (csr_rep_count I b RB) by (split; [lia|rewrite Ec; assumption]).
  sp; try assumption. exists R. sp; try assumption; split; assumption.
Qed.

Definition csc_sum_post f (a b : CSC T) RA RB (r : CSC T) : Prop :=
  csc_rows r = csc_rows a /\ csc_cols r = csc_cols a /\
  exists R, csc_rep I r R /\ length (csc_rowidx r) = length (concat R) /\ length (csc_values r) = length (concat R) /\
    (forall i, i < csc_cols a -> binrow (fun k => f (rd RA RB (at_ k (nth i RA []))) (rd RA RB (at_ k (nth i RB [])))) (nth i RA []) (nth i RB []) (nth i R [])) /\
    (both_canonical RA RB -> Forall canonical_row R).
Lemma CSC_add_rep (a b : CSC T) RA RB : csc_rep I a RA -> csc_rep I b RB -> csc_rows b = csc_rows a -> csc_cols b = csc_cols a ->
  (Z.of_nat (csc_count a + csc_count b) < imax I)%Z -> wp (CSC_add I a b) (csc_sum_post sadd a b RA RB).
Proof.
  intros HA HB Er Ec Hf. unfold CSC_add. rewrite Er, Ec, !Nat.eqb_refl. cbn [negb orb].
  rewrite (CSC_nnz_rep _ _ _ HA), (CSC_nnz_rep _ _ _ HB). cbn [bind].
  rewrite (csc_rep_count _ _ _ HA), (csc_rep_count _ _ _ HB) in Hf.
  destruct HA as [LA HA], HB as [LB HB]. rewrite Er in HB. rewrite Ec in LB.
  unfold csr_add_csr. apply wp_bind. eapply wp_mono; [apply (binop_total sadd _ _ _ _ _ _ _ _ _ _ _ _ _ HA HB LA LB Hf); rewrite ?repeat_length, ?(cr_len _ _ _ _ _ _ HA); lia|].
  intros [[p j] x] (Lj & Lx & R & LR & HR & Hrow & Hcan). rewrite repeat_length in Lj, Lx.
  pose proof (bptr_start p R R [] (cr_ptr _ _ _ _ _ _ HR) (eq_sym (app_nil_r R))) as GP. rewrite LR in GP. rewrite GP. cbn [bind].
  pose proof (crep_len_j _ _ _ _ _ _ HR). pose proof (crep_len_x _ _ _ _ _ _ HR).
  rewrite !vslice_ok by lia. cbn [bind skipn]. rewrite Nat.sub_0_r.
  rewrite (CSC_new_rep _ _ _ _ _ _ _ (crep_resize _ _ _ _ _ _ HR) LR). apply wp_ok. unfold csc_sum_post. cbn [csc_rows csc_cols csc_rowidx csc_values].
  sp. exists R. rewrite !firstn_length. sp; try assumption; try lia. split; [exact LR|apply (crep_resize _ _ _ _ _ _ HR)].
Qed.
Lemma CSC_subtract_rep (a b : CSC T) RA RB : csc_rep I a RA -> csc_rep I b RB -> csc_rows b = csc_rows a -> csc_cols b = csc_cols a ->
  (Z.of_nat (csc_count a + csc_count b) < imax I)%Z -> wp (CSC_subtract I a b) (csc_sum_post ssub a b RA RB).
Proof.
  intros HA HB Er Ec Hf. unfold CSC_subtract. rewrite Er, Ec, !Nat.eqb_refl. cbn [negb orb].
  rewrite (CSC_nnz_rep _ _ _ HA), (CSC_nnz_rep _ _ _ HB). cbn [bind].
  rewrite (csc_rep_count _ _ _ HA), (csc_rep_count _ _ _ HB) in Hf.
  destruct HA as [LA HA], HB as [LB HB]. rewrite Er in HB. rewrite Ec in LB.
  unfold csr_sub_csr. apply wp_bind. eapply wp_mono; [apply (binop_total ssub _ _ _ _ _ _ _ _ _ _ _ _ _ HA HB LA LB Hf); rewrite ?repeat_length, ?(cr_len _ _ _ _ _ _ HA); lia|].
  intros [[p j] x] (Lj & Lx & R & LR & HR & Hrow & Hcan). rewrite repeat_length in Lj, Lx.
  pose proof (bptr_start p R R [] (cr_ptr _ _ _ _ _ _ HR) (eq_sym (app_nil_r R))) as GP. rewrite LR in GP. rewrite GP. cbn [bind].
  pose proof (crep_len_j _ _ _ _ _ _ HR). pose proof (crep_len_x _ _ _ _ _ _ HR).
  rewrite !vslice_ok by lia. cbn [bind skipn]. rewrite Nat.sub_0_r.
  rewrite (CSC_new_rep _ _ _ _ _ _ _ (crep_resize _ _ _ _ _ _ HR) LR). apply wp_ok. unfold csc_sum_post. cbn [csc_rows csc_cols csc_rowidx csc_values].
  sp. exists R. rewrite !firstn_length. sp; try assumption; try lia. split; [exact LR|apply (crep_resize _ _ _ _ _ _ HR)].
Qed.
Lemma CSC_op_add_rep (a b : CSC T) RA RB : csc_rep I a RA -> csc_rep I b RB -> csc_rows b = csc_rows a -> csc_cols b = csc_cols a ->
  (Z.of_nat (csc_count a + csc_count b) < imax I)%Z -> wp (CSC_op_add I a b) (fun r =>
  csc_rows r = csc_rows a /\ csc_cols r = csc_cols a /\
  length (csc_rowidx r) = csc_count a + csc_count b /\ length (csc_values r) = csc_count a + csc_count b /\
  exists R, csc_rep I r R /\
    (forall i, i < csc_cols a -> binrow (fun k => sadd (rd RA RB (at_ k (nth i RA []))) (rd RA RB (at_ k (nth i RB [])))) (nth i RA []) (nth i RB []) (nth i R [])) /\
    (both_canonical RA RB -> Forall canonical_row R)).
Proof.
  intros HA HB Er Ec Hf. unfold CSC_op_add. rewrite (CSC_nnz_rep _ _ _ HA), (CSC_nnz_rep _ _ _ HB). cbn [bind].
  rewrite (csc_rep_count _ _ _ HA), (csc_rep_count _ _ _ HB) in *.
  destruct HA as [LA HA], HB as [LB HB]. rewrite Er in HB. rewrite Ec in LB.
  unfold csr_add_csr. apply wp_bind. eapply wp_mono; [apply (binop_total sadd _ _ _ _ _ _ _ _ _ _ _ _ _ HA HB LA LB Hf); rewrite ?repeat_length; lia|].
  intros [[p j] x] (Lj & Lx & R & LR & HR & Hrow & Hcan). rewrite repeat_length in Lj, Lx.
  rewrite (CSC_new_rep _ _ _ _ _ _ _ HR LR). cbn [unwrap]. apply wp_ok. cbn [csc_rows csc_cols csc_rowidx csc_values].
  sp; try assumption. exists R. sp; try assumption; split; assumption.
Qed.
Lemma CSC_op_sub_panic (a b : CSC T) RA RB : csc_rep I a RA -> csc_rep I b RB -> csc_rows b = csc_rows a -> csc_cols b = csc_cols a ->
  (Z.of_nat (csc_count a + csc_count b) < imax I)%Z -> csc_count a + csc_count b <> csc_cols a + 1 -> CSC_op_sub I a b = Panic.
Proof.
  intros HA HB Er Ec Hf Hne. unfold CSC_op_sub. rewrite (CSC_nnz_rep _ _ _ HA), (CSC_nnz_rep _ _ _ HB). cbn [bind].
  rewrite (csc_rep_count _ _ _ HA), (csc_rep_count _ _ _ HB) in *.
  destruct HA as [LA HA], HB as [LB HB]. rewrite Er in HB. rewrite Ec in LB.
  unfold csr_sub_csr.
  destruct (binop_total ssub _ _ _ _ _ _ _ _ _ _ (repeat 0%Z (csc_cols a + 1)) (repeat 0%Z (length (concat RA) + length (concat RB)))
    (repeat s0 (length (concat RA) + length (concat RB))) HA HB LA LB Hf) as ([[p j] x] & E & Lj & _); [rewrite ?repeat_length; lia..|].
  rewrite E. cbn [bind]. rewrite repeat_length in Lj. unfold CSC_new.
  destruct (Nat.eqb_spec (length j) (csc_cols a + 1)); [lia|]. unfold bad_length. cbn [negb]. destruct (Z.eqb _ _); reflexivity.
Qed.

Lemma CSC_op_sub_swap (a b : CSC T) RA RB : csc_rep I a RA -> csc_rep I b RB -> csc_rows b = csc_rows a -> csc_cols b = csc_cols a ->
  (Z.of_nat (csc_count a + csc_count b) < imax I)%Z ->
  CSC_op_sub I a b = Panic \/
  exists r d, CSC_op_sub I a b = Ok r /\ CSC_subtract I a b = Ok d /\ csc_rows r = csc_rows a /\ csc_cols r = csc_cols a /\
    csc_rowidx r = csc_colptr d /\ firstn (csc_count d) (csc_colptr r) = csc_rowidx d /\ firstn (csc_count d) (csc_values r) = csc_values d /\
    length (csc_colptr r) = csc_cols a + 1 /\ length (csc_values r) = csc_cols a + 1.
Proof.
  intros HA HB Er Ec Hf.
  destruct (Nat.eq_dec (csc_count a + csc_count b) (csc_cols a + 1)) as [Heq|Hne]; [|left; apply (CSC_op_sub_panic a b RA RB); assumption].
  unfold CSC_op_sub, CSC_subtract. rewrite Er, Ec, !Nat.eqb_refl. cbn [negb orb].
  rewrite (CSC_nnz_rep _ _ _ HA), (CSC_nnz_rep _ _ _ HB). cbn [bind].
  rewrite (csc_rep_count _ _ _ HA), (csc_rep_count _ _ _ HB) in *.
  destruct HA as [LA HA], HB as [LB HB]. rewrite Er in HB. rewrite Ec in LB.
  rewrite (cr_len _ _ _ _ _ _ HA), LA, <- (Nat.add_1_r (csc_cols a)). unfold csr_sub_csr.
  destruct (binop_total ssub _ _ _ _ _ _ _ _ _ _ (repeat 0%Z (csc_cols a + 1)) (repeat 0%Z (length (concat RA) + length (concat RB)))
    (repeat s0 (length (concat RA) + length (concat RB))) HA HB LA LB Hf) as ([[p j] x] & E & Lj & Lx & R & LR & HR & _); [rewrite ?repeat_length; lia..|].
  rewrite E. cbn [bind]. rewrite repeat_length in Lj, Lx.
  pose proof (bptr_start p R R [] (cr_ptr _ _ _ _ _ _ HR) (eq_sym (app_nil_r R))) as GP. rewrite LR in GP. rewrite GP. cbn [bind].
  pose proof (crep_len_j _ _ _ _ _ _ HR). pose proof (crep_len_x _ _ _ _ _ _ HR).
  rewrite !vslice_ok by lia. cbn [bind skipn]. rewrite Nat.sub_0_r.
  rewrite (CSC_new_rep _ _ _ _ _ _ _ (crep_resize _ _ _ _ _ _ HR) LR).
  unfold CSC_new. rewrite Lj, Heq, Nat.eqb_refl. cbn [negb]. unfold usub. destruct (Nat.leb_spec 1 (csc_cols a + 1)); [|lia]. cbn [bind].
  unfold pget, vget. destruct (nth_error j (csc_cols a + 1 - 1)) as [z|]; cbn [bind]; [|left; reflexivity].
  unfold to_usize. destruct (0 <=? z)%Z; cbn [bind]; [|left; reflexivity].
  destruct (length p <? Z.to_nat z); [left; reflexivity|]. destruct (length x <? Z.to_nat z); [left; reflexivity|]. right.
  eexists _, _. split; [reflexivity|]. split; [reflexivity|].
  rewrite (csc_rep_count I (mkCSC _ _ _ _ _) R) by (split; [exact LR|apply (crep_resize _ _ _ _ _ _ HR)]).
  cbn [csc_rows csc_cols csc_rowidx csc_colptr csc_values]. sp; try reflexivity; lia.
Qed.

(** the posts in the terms of the specification *)
Lemma both_csr (a b : CSR T) RA RB : csr_rep I a RA -> csr_rep I b RB -> both_canonical RA RB <-> csr_canonical a /\ csr_canonical b.
Proof. intros HA HB. unfold both_canonical, csr_canonical. rewrite <- (csr_rep_rows canonical_row _ _ _ HA), <- (csr_rep_rows canonical_row _ _ _ HB). reflexivity. Qed.
Lemma both_csc (a b : CSC T) RA RB : csc_rep I a RA -> csc_rep I b RB -> both_canonical RA RB <-> csc_canonical a /\ csc_canonical b.
Proof. intros HA HB. unfold both_canonical, csc_canonical. rewrite <- (csc_rep_cols canonical_row _ _ _ HA), <- (csc_rep_cols canonical_row _ _ _ HB). reflexivity. Qed.
Lemma rows_entrywise {T2} {NZ : Nonzero T2} (f : T -> T -> T2) (a b : CSR T) (r : CSR T2) RA RB (R : list (list (nat * T2))) :
  csr_rep I a RA -> csr_rep I b RB -> csr_rep I r R ->
  (forall i, i < csr_rows a -> binrow (fun k => f (rd RA RB (at_ k (nth i RA []))) (rd RA RB (at_ k (nth i RB [])))) (nth i RA []) (nth i RB []) (nth i R [])) ->
  (~ (csr_canonical a /\ csr_canonical b) -> csr_entrywise sum0 f a b r) /\
  (csr_canonical a /\ csr_canonical b -> csr_entrywise (hd s0) f a b r).
Proof.
  intros HA HB HR H. rewrite <- (both_csr _ _ _ _ HA HB).
  split; intros HC i j Hi; rewrite (csr_rep_at _ _ _ _ _ HA), (csr_rep_at _ _ _ _ _ HB), (csr_rep_at _ _ _ _ _ HR), (binrow_keep _ _ _ _ _ (H i Hi)); unfold rd; destruct (both_dec RA RB); tauto.
Qed.
Lemma cols_entrywise {T2} {NZ : Nonzero T2} (f : T -> T -> T2) (a b : CSC T) (r : CSC T2) RA RB (R : list (list (nat * T2))) :
  csc_rep I a RA -> csc_rep I b RB -> csc_rep I r R ->
  (forall i, i < csc_cols a -> binrow (fun k => f (rd RA RB (at_ k (nth i RA []))) (rd RA RB (at_ k (nth i RB [])))) (nth i RA []) (nth i RB []) (nth i R [])) ->
  (~ (csc_canonical a /\ csc_canonical b) -> csc_entrywise sum0 f a b r) /\
  (csc_canonical a /\ csc_canonical b -> csc_entrywise (hd s0) f a b r).
Proof.
  intros HA HB HR H. rewrite <- (both_csc _ _ _ _ HA HB).
  split; intros HC i j Hi; rewrite (csc_rep_at _ _ _ _ _ HA), (csc_rep_at _ _ _ _ _ HB), (csc_rep_at _ _ _ _ _ HR), (binrow_keep _ _ _ _ _ (H j Hi)); unfold rd; destruct (both_dec RA RB); tauto.
Qed.
Lemma nonzero_rows (r : CSR T) R : csr_rep I r R -> (forall i, i < csr_rows r -> Forall (fun e => seqb (snd e) s0 = false) (nth i R [])) -> csr_nonzero r.
Proof.
  intros HR H i v Hi Hv. rewrite (csr_rep_row _ _ _ _ HR) in Hv. specialize (H i Hi). rewrite Forall_forall in H.
  apply in_map_iff in Hv as (e & <- & He). apply H, He.
Qed.
Lemma nonzero_cols (r : CSC T) R : csc_rep I r R -> (forall i, i < csc_cols r -> Forall (fun e => seqb (snd e) s0 = false) (nth i R [])) -> csc_nonzero r.
Proof.
  intros HR H i v Hi Hv. rewrite (csc_rep_col _ _ _ _ HR) in Hv. specialize (H i Hi). rewrite Forall_forall in H.
  apply in_map_iff in Hv as (e & <- & He). apply H, He.
Qed.

(** ** Products *)
Lemma matrow_keep RB ra row k : matrow RB ra row -> at_ k row = keep (at_ k (prodrow RB ra)) (sum0 (at_ k (prodrow RB ra))).
Proof.
  intros (M & HN & HM & ->). rewrite (emit_at _ _ _ HN). unfold keep. destruct (in_dec Nat.eq_dec k M) as [Hi|Hi]; cbn [andb].
  - apply HM in Hi. rewrite <- prodrow_cols, <- at_occ in Hi. fold (gval RB ra k). unfold gval. destruct (at_ k (prodrow RB ra)); [contradiction|]. reflexivity.
  - rewrite at_not_in; [reflexivity|]. rewrite prodrow_cols. intros H. apply Hi, HM, H.
Qed.
Lemma count_touch RB (ra : list (nat * T)) c : (forall k, In k (pcols RB ra) -> k < c) ->
  rowcount RB ra = length (filter (fun k => existsb (fun e => existsb (fun f => fst f =? k) (nth (fst e) RB [])) ra) (seq 0 c)).
Proof.
  intros Hc. unfold rowcount. apply Nat.le_antisymm; apply NoDup_incl_length.
  - apply touches_nodup. constructor.
  - intros k Hk. apply in_touches in Hk as [[]|Hk]. apply filter_In. split; [apply in_seq; specialize (Hc _ Hk); lia|].
    unfold pcols in Hk. apply in_flat_map in Hk as (e & He & Hk). apply in_map_iff in Hk as (f & <- & Hf).
    apply existsb_exists. exists e. split; [exact He|]. apply existsb_exists. exists f. split; [exact Hf|apply Nat.eqb_refl].
  - apply NoDup_filter, seq_NoDup.
  - intros k Hk. apply filter_In in Hk as [_ Hk]. apply existsb_exists in Hk as (e & He & Hk). apply existsb_exists in Hk as (f & Hf & Ek).
    apply Nat.eqb_eq in Ek. apply in_touches. right. unfold pcols. apply in_flat_map. exists e. split; [exact He|]. apply in_map_iff. exists f. auto.
Qed.
Lemma total_count RA RB c p j (x : list T) g : crep I c p j x RB ->
  (forall i k, i < length RA -> g i k = existsb (fun e => existsb (fun f => fst f =? k) (nth (fst e) RB [])) (nth i RA [])) ->
  total RB RA = list_sum (map (fun i => length (filter (g i) (seq 0 c))) (seq 0 (length RA))).
Proof.
  intros HB Hg. unfold total. f_equal. transitivity (map (rowcount RB) (map (fun i => nth i RA []) (seq 0 (length RA)))).
  - f_equal. clear. induction RA as [|r R IH]; [reflexivity|]. cbn. f_equal. rewrite <- seq_shift, map_map. exact IH.
  - rewrite map_map. apply map_ext_in. intros i Hi. apply in_seq in Hi. rewrite (count_touch _ _ c).
    + f_equal. apply filter_ext_in. intros k _. symmetry. apply Hg. lia.
    + intros k Hk. unfold pcols in Hk. apply in_flat_map in Hk as (e & _ & Hk). apply in_map_iff in Hk as (f & <- & Hf).
      pose proof (cr_idx _ _ _ _ _ _ HB) as F. rewrite Forall_forall in F. apply F. apply in_concat. exists (nth (fst e) RB []). split; [|exact Hf].
      apply nth_In. destruct (Nat.lt_ge_cases (fst e) (length RB)) as [Hl|Hl]; [exact Hl|]. rewrite nth_overflow in Hf by exact Hl. destruct Hf.
Qed.
Lemma product_count_rep (a b : CSR T) RA RB : csr_rep I a RA -> csr_rep I b RB -> product_count a b = total RB RA.
Proof.
  intros HA HB. unfold product_count. destruct (HA) as [<- _]. symmetry. eapply total_count; [apply HB|].
  intros i k Hi. unfold meets. rewrite (csr_rep_row _ _ _ _ HA). apply existsb_ext. intros e. rewrite (csr_rep_row _ _ _ _ HB). reflexivity.
Qed.
Lemma csc_product_count_rep (a b : CSC T) RA RB : csc_rep I a RA -> csc_rep I b RB -> csc_product_count a b = total RA RB.
Proof.
  intros HA HB. unfold csc_product_count. destruct (HB) as [<- _]. symmetry.
  rewrite (total_count _ _ _ _ _ _ (fun k i => csc_meets a b i k) (proj2 HA)); [reflexivity|].
  intros i k Hi. unfold csc_meets. rewrite (csc_rep_col _ _ _ _ HB). apply existsb_ext. intros e. rewrite (csc_rep_col _ _ _ _ HA). reflexivity.
Qed.

Lemma CSR_mat_mat_rep (a b : CSR T) RA RB : csr_rep I a RA -> csr_rep I b RB -> csr_cols a = csr_rows b ->
  (Z.of_nat (product_count a b) <= imax I)%Z ->
  wp (CSR_mat_mat I a b) (fun r => csr_rows r = csr_rows a /\ csr_cols r = csr_cols b /\
    length (csr_colidx r) = product_count a b /\ length (csr_values r) = product_count a b /\
    exists R, csr_rep I r R /\ forall i, i < csr_rows a -> matrow RB (nth i RA []) (nth i R [])).
Proof.
  intros HA HB E Hf. rewrite (product_count_rep _ _ _ _ HA HB) in *. destruct HA as [LA HA], HB as [LB HB].
  unfold CSR_mat_mat. rewrite E, Nat.eqb_refl. cbn [negb]. rewrite E in HA.
  rewrite (maxnnz_spec I _ _ _ _ _ _ _ _ _ _ _ HA HB LA LB). cbn [bind]. apply wp_bind.
  eapply wp_mono; [apply (matmat_spec I _ _ _ _ _ _ _ _ _ _ _ HA HB LA LB Hf); rewrite ?repeat_length; lia|].
  intros [[p j] x] (Lj & Lx & R & LR & HR & Hrow). rewrite repeat_length in Lj, Lx.
  rewrite (CSR_new_rep _ _ _ _ _ _ _ HR LR). apply wp_ok. cbn [csr_rows csr_cols csr_colidx csr_values]. sp; try assumption.
  exists R. sp; try assumption; split; assumption.
Qed.
Lemma CSC_mat_mat_rep (a b : CSC T) RA RB : csc_rep I a RA -> csc_rep I b RB -> csc_cols a = csc_rows b ->
  (Z.of_nat (csc_product_count a b) <= imax I)%Z ->
  wp (CSC_mat_mat I a b) (fun r => csc_rows r = csc_rows a /\ csc_cols r = csc_cols b /\
    length (csc_rowidx r) = csc_product_count a b /\ length (csc_values r) = csc_product_count a b /\
    exists R, csc_rep I r R /\ forall k, k < csc_cols b -> matrow RA (nth k RB []) (nth k R [])).
Proof.
  intros HA HB E Hf. rewrite (csc_product_count_rep _ _ _ _ HA HB) in *. destruct HA as [LA HA], HB as [LB HB].
  unfold CSC_mat_mat. rewrite <- E, Nat.eqb_refl. cbn [negb]. rewrite <- E in HB.
  unfold csc_matmat_maxnnz, csc_matmat.
  rewrite (maxnnz_spec I _ _ _ _ _ _ _ _ _ _ _ HB HA LB LA). cbn [bind]. apply wp_bind.
  eapply wp_mono; [apply (matmat_spec I _ _ _ _ _ _ _ _ _ _ _ HB HA LB LA Hf); rewrite ?repeat_length; lia|].
  intros [[p j] x] (Lj & Lx & R & LR & HR & Hrow). rewrite repeat_length in Lj, Lx.
  rewrite (CSC_new_rep _ _ _ _ _ _ _ HR LR). apply wp_ok. cbn [csc_rows csc_cols csc_rowidx csc_values]. sp; try assumption.
  exists R. sp; try assumption; split; assumption.
Qed.
Lemma matrow_nodup RB ra row : matrow RB ra row -> nodup_row row.
Proof. intros (M & H & _ & ->). apply emit_nodup, H. Qed.
Lemma matrow_nonzero RB ra row : matrow RB ra row -> Forall (fun e => seqb (snd e) s0 = false) row.
Proof.
  intros (M & H & _ & ->). eapply Forall_impl; [|apply emit_nonzero]. intros e He. cbn in He. apply negb_true_iff in He. exact He.
Qed.
Definition sum_result f (a b r : CSR T) : Prop :=
  wf_csr I r /\ csr_rows r = csr_rows a /\ csr_cols r = csr_cols a /\ csr_nodup r /\ csr_nonzero r /\
  (csr_canonical a /\ csr_canonical b -> csr_canonical r) /\
  (~ (csr_canonical a /\ csr_canonical b) -> csr_entrywise sum0 f a b r) /\
  (csr_canonical a /\ csr_canonical b -> csr_entrywise (hd s0) f a b r).
Lemma sum_post_result f a b RA RB r : csr_rep I a RA -> csr_rep I b RB -> sum_post f a b RA RB r -> sum_result f a b r.
Proof.
  intros HA HB (Er & Ec & _ & _ & R & HR & Hrow & Hcan). unfold sum_result. sp; try assumption.
  - apply (csr_rep_wf _ _ _ HR).
  - intros i Hi. rewrite (csr_rep_row _ _ _ _ HR). rewrite Er in Hi. apply (binrow_nodup _ _ _ _ (Hrow i Hi)).
  - apply (nonzero_rows _ _ HR). intros i Hi. rewrite Er in Hi. apply (binrow_nonzero _ _ _ _ (Hrow i Hi)).
  - rewrite <- (both_csr _ _ _ _ HA HB). intros HC. exact (proj2 (csr_rep_rows canonical_row _ _ _ HR) (Hcan HC)).
  - apply (rows_entrywise f a b r RA RB R HA HB HR Hrow).
  - apply (rows_entrywise f a b r RA RB R HA HB HR Hrow).
Qed.
Definition csc_sum_result f (a b r : CSC T) : Prop :=
  wf_csc I r /\ csc_rows r = csc_rows a /\ csc_cols r = csc_cols a /\ csc_nodup r /\ csc_nonzero r /\
  (csc_canonical a /\ csc_canonical b -> csc_canonical r) /\
  (~ (csc_canonical a /\ csc_canonical b) -> csc_entrywise sum0 f a b r) /\
  (csc_canonical a /\ csc_canonical b -> csc_entrywise (hd s0) f a b r).
Lemma csc_sum_post_result f (a b r : CSC T) RA RB R : csc_rep I a RA -> csc_rep I b RB ->
  csc_rows r = csc_rows a -> csc_cols r = csc_cols a -> csc_rep I r R ->
    (forall i, i < csc_cols a -> binrow (fun k => f (rd RA RB (at_ k (nth i RA []))) (rd RA RB (at_ k (nth i RB [])))) (nth i RA []) (nth i RB []) (nth i R [])) ->
    (both_canonical RA RB -> Forall canonical_row R) -> csc_sum_result f a b r.
Proof.
  intros HA HB Er Ec HR Hrow Hcan. unfold csc_sum_result. sp; try assumption.
  - apply (csc_rep_wf _ _ _ HR).
  - intros i Hi. rewrite (csc_rep_col _ _ _ _ HR). rewrite Ec in Hi. apply (binrow_nodup _ _ _ _ (Hrow i Hi)).
  - apply (nonzero_cols _ _ HR). intros i Hi. rewrite Ec in Hi. apply (binrow_nonzero _ _ _ _ (Hrow i Hi)).
  - rewrite <- (both_csc _ _ _ _ HA HB). intros HC. exact (proj2 (csc_rep_cols canonical_row _ _ _ HR) (Hcan HC)).
  - apply (cols_entrywise f a b r RA RB R HA HB HR Hrow).
  - apply (cols_entrywise f a b r RA RB R HA HB HR Hrow).
Qed.
(** on canonical operands both readings agree if zero is neutral *)
Lemma canonical_at_read {ZA : ZeroAdd T} (r : list (nat * T)) k : canonical_row r -> hd s0 (at_ k r) = sum0 (at_ k r).
Proof.
  intros H. apply canonical_nodup in H. destruct (at_ k r) as [|v l] eqn:E; [reflexivity|].
  assert (Hi : In v (at_ k r)) by (rewrite E; left; reflexivity). apply in_map_iff in Hi as ([k' v'] & Ev & Hv). cbn in Ev. subst v'.
  apply filter_In in Hv as [Hv Ek]. apply Nat.eqb_eq in Ek. cbn in Ek. subst k'.
  rewrite (at_nodup _ _ _ H Hv) in E. injection E as <-. cbn [hd]. symmetry. apply sum0_one.
Qed.
End Mat.

Section Ring.
Context {T : Type} {SC : Scalar T} {SN : ScalarNeg T} {ER : ExactRing T}.
Lemma keep_sum {A} (occ : list A) (v : T) : (occ = [] -> v = s0) -> sum0 (keep occ v) = v.
Proof.
  intros H. unfold keep. destruct occ; [rewrite sum0_nil; symmetry; auto|]. cbn [nonzero nonzero_scalar].
  destruct (seqb v s0) eqn:E; cbn [negb].
  - apply er_eqb in E. rewrite E. apply sum0_nil.
  - rewrite sum0_cons, sum0_nil. pose proof (Radd_comm er_ring v s0) as G. cbn in G. rewrite G. apply (Radd_0_l er_ring).
Qed.
End Ring.
