(** Matrix level: constructors, canonical form, conversions. *)
From Verif Require Import Rust Scalar Model_kernels Model_matrix Spec Wp Rep ScatterProofs CanonProofs.

Lemma nth_Forall {A} (P : A -> Prop) (l : list A) d : Forall P l <-> forall i, i < length l -> P (nth i l d).
Proof.
  split.
  - intros H i Hi. rewrite Forall_forall in H. apply H, nth_In, Hi.
  - intros H. apply Forall_forall. intros a Ha. destruct (In_nth _ _ d Ha) as (i & Hi & <-). auto.
Qed.

Section RepLemmas.
Context {T : Type}.
Implicit Types R : list (list (nat * T)).

Lemma csr_rep_rows (P : list (nat * T) -> Prop) I m R : csr_rep I m R ->
  (forall i, i < csr_rows m -> P (csr_row m i)) <-> Forall P R.
Proof.
  intros H. rewrite (nth_Forall P R []). destruct (H) as [-> _].
  split; intros G i Hi; specialize (G i Hi); rewrite (csr_rep_row _ _ _ _ H) in *; exact G.
Qed.
Lemma csc_rep_cols (P : list (nat * T) -> Prop) I m R : csc_rep I m R ->
  (forall i, i < csc_cols m -> P (csc_col m i)) <-> Forall P R.
Proof.
  intros H. rewrite (nth_Forall P R []). destruct (H) as [-> _].
  split; intros G i Hi; specialize (G i Hi); rewrite (csc_rep_col _ _ _ _ H) in *; exact G.
Qed.

Lemma crep_nnz I c p j (x : list T) R : crep I c p j x R -> pget p (length R) = Ok (length (concat R)).
Proof. intros H. eapply bptr_start; [apply (cr_ptr _ _ _ _ _ _ H)|symmetry; apply app_nil_r]. Qed.
Lemma crep_nnz' I c p j (x : list T) R : crep I c p j x R ->
  pget p (length p - 1) = Ok (length (concat R)) /\ usub (length p) 1 = Ok (length R) /\ length p = S (length R).
Proof.
  intros H. pose proof (cr_len _ _ _ _ _ _ H) as L. rewrite L. rewrite usub_ok by lia.
  replace (S (length R) - 1) with (length R) by lia. split; [apply (crep_nnz _ _ _ _ _ _ H)|auto].
Qed.
Lemma crep_len_j I c p j (x : list T) R : crep I c p j x R -> length (concat R) <= length j.
Proof. intros H. apply (bdat_len_j _ _ _ (cr_dat _ _ _ _ _ _ H)). Qed.
Lemma crep_len_x I c p j (x : list T) R : crep I c p j x R -> length (concat R) <= length x.
Proof. intros H. apply (bdat_len_x _ _ _ (cr_dat _ _ _ _ _ _ H)). Qed.

(** two representations of the same arrays *)
Lemma csr_rep_unique I m R1 R2 : csr_rep I m R1 -> csr_rep I m R2 -> R1 = R2.
Proof.
  intros H1 H2. pose proof (proj1 H1) as L1. pose proof (proj1 H2) as L2.
  apply nth_ext with (d := []) (d' := []); [congruence|].
  intros i _. rewrite <- (csr_rep_row _ _ _ _ H1), <- (csr_rep_row _ _ _ _ H2). reflexivity.
Qed.

Lemma CSR_new_rep I r c p j (x : list T) R : crep I c p j x R -> length R = r ->
  CSR_new r c p j x = Ok (mkCSR r c p j x).
Proof.
  intros H <-. unfold CSR_new. destruct (crep_nnz' _ _ _ _ _ _ H) as (G1 & G2 & G3).
  rewrite G3, Nat.add_1_r, Nat.eqb_refl. cbn [negb]. rewrite <- G3, G2. cbn [bind].
  rewrite (crep_nnz _ _ _ _ _ _ H). cbn [bind].
  destruct (Nat.ltb_spec (length j) (length (concat R))). { pose proof (crep_len_j _ _ _ _ _ _ H); lia. }
  destruct (Nat.ltb_spec (length x) (length (concat R))). { pose proof (crep_len_x _ _ _ _ _ _ H); lia. }
  reflexivity.
Qed.
Lemma CSC_new_rep I r c p j (x : list T) R : crep I r p j x R -> length R = c ->
  CSC_new r c j p x = Ok (mkCSC r c j p x).
Proof.
  intros H <-. unfold CSC_new. destruct (crep_nnz' _ _ _ _ _ _ H) as (G1 & G2 & G3).
  rewrite G3, Nat.add_1_r, Nat.eqb_refl. cbn [negb]. rewrite <- G3, G2. cbn [bind].
  rewrite (crep_nnz _ _ _ _ _ _ H). cbn [bind].
  destruct (Nat.ltb_spec (length j) (length (concat R))). { pose proof (crep_len_j _ _ _ _ _ _ H); lia. }
  destruct (Nat.ltb_spec (length x) (length (concat R))). { pose proof (crep_len_x _ _ _ _ _ _ H); lia. }
  reflexivity.
Qed.
Lemma CSR_nnz_rep I m R : csr_rep I m R -> CSR_nnz m = Ok (length (concat R)).
Proof.
  intros [L H]. unfold CSR_nnz. destruct (crep_nnz' _ _ _ _ _ _ H) as (G1 & G2 & G3).
  rewrite G3. cbn [Nat.eqb]. rewrite <- G3, G2. cbn [bind]. apply (crep_nnz _ _ _ _ _ _ H).
Qed.
Lemma CSC_nnz_rep I m R : csc_rep I m R -> CSC_nnz m = Ok (length (concat R)).
Proof.
  intros [L H]. unfold CSC_nnz. destruct (crep_nnz' _ _ _ _ _ _ H) as (G1 & G2 & G3).
  rewrite G3. cbn [Nat.eqb]. rewrite <- G3, G2. cbn [bind]. apply (crep_nnz _ _ _ _ _ _ H).
Qed.

Lemma csr_t_rep I m R : csr_rep I m R -> CSR_t m = Ok (mkCSC (csr_cols m) (csr_rows m) (csr_colidx m) (csr_rowptr m) (csr_values m)).
Proof. intros [L H]. unfold CSR_t. rewrite (CSC_new_rep _ _ _ _ _ _ _ H L). reflexivity. Qed.
Lemma csc_t_rep I m R : csc_rep I m R -> CSC_t m = Ok (mkCSR (csc_cols m) (csc_rows m) (csc_colptr m) (csc_rowidx m) (csc_values m)).
Proof. intros [L H]. unfold CSC_t. rewrite (CSR_new_rep _ _ _ _ _ _ _ H L). reflexivity. Qed.

(** cutting unused capacity *)
Lemma crep_resize I c p j (x : list T) R : crep I c p j x R ->
  crep I c p (firstn (length (concat R)) j) (firstn (length (concat R)) x) R.
Proof.
  intros [H1 H2 [H3 H4] H5 H6]. constructor; auto.
  split; rewrite firstn_firstn, Nat.min_id; assumption.
Qed.
Lemma vresize_firstn {A} (l : list A) n a : n <= length l -> vresize l n a = firstn n l.
Proof. intros H. unfold vresize. replace (n - length l) with 0 by lia. cbn. apply app_nil_r. Qed.
Lemma vslice_firstn {A} (l : list A) n : n <= length l -> vslice l 0 n = Ok (firstn n l).
Proof. intros H. rewrite vslice_ok by lia. rewrite Nat.sub_0_r. reflexivity. Qed.

Lemma csr_tight_rep I m R : csr_rep I m R ->
  csr_tight m <-> length (csr_colidx m) = length (concat R) /\ length (csr_values m) = length (concat R).
Proof. intros H. unfold csr_tight. rewrite (csr_rep_count _ _ _ H). reflexivity. Qed.
Lemma csc_tight_rep I m R : csc_rep I m R ->
  csc_tight m <-> length (csc_rowidx m) = length (concat R) /\ length (csc_values m) = length (concat R).
Proof. intros H. unfold csc_tight. rewrite (csc_rep_count _ _ _ H). reflexivity. Qed.
End RepLemmas.

(** Tight arrays are determined by the rows *)
Lemma crep_tight_eq {T} I1 I2 c1 c2 p1 j1 (x1 : list T) p2 j2 x2 R :
  crep I1 c1 p1 j1 x1 R -> crep I2 c2 p2 j2 x2 R ->
  length j1 = length (concat R) -> length x1 = length (concat R) ->
  length j2 = length (concat R) -> length x2 = length (concat R) ->
  p1 = p2 /\ j1 = j2 /\ x1 = x2.
Proof.
  intros H1 H2 A1 A2 B1 B2.
  destruct (cr_dat _ _ _ _ _ _ H1) as [D1 D2]. destruct (cr_dat _ _ _ _ _ _ H2) as [D3 D4].
  rewrite <- A1, firstn_all in D1. rewrite <- A2, firstn_all in D2.
  rewrite <- B1, firstn_all in D3. rewrite <- B2, firstn_all in D4.
  split; [|split; congruence].
  pose proof (cr_len _ _ _ _ _ _ H1) as L1. pose proof (cr_len _ _ _ _ _ _ H2) as L2.
  apply nth_ext with (d := 0%Z) (d' := 0%Z); [congruence|].
  intros i Hi. rewrite L1 in Hi.
  pose proof (cr_ptr _ _ _ _ _ _ H1 (firstn i R) (skipn i R) (eq_sym (firstn_skipn _ _))) as G1.
  pose proof (cr_ptr _ _ _ _ _ _ H2 (firstn i R) (skipn i R) (eq_sym (firstn_skipn _ _))) as G2.
  assert (E : length (firstn i R) = i) by (rewrite firstn_length; lia). rewrite E in *.
  rewrite (nth_error_nth _ _ 0%Z G1), (nth_error_nth _ _ 0%Z G2). reflexivity.
Qed.

(** ** Canonical form *)
Section Canon.
Context {T : Type} {SC : Scalar T}.
Variable I : ity.
Implicit Types R : list (list (nat * T)).

Lemma CSR_has_canonical_exact m R : csr_rep I m R -> ~ stuck I R ->
  wp (CSR_has_canonical_format I m) (fun b => b = true <-> Forall canonical_row R).
Proof.
  intros [L H] Hf. unfold CSR_has_canonical_format. destruct (crep_nnz' _ _ _ _ _ _ H) as (_ & G2 & _).
  rewrite G2. cbn [bind]. eapply has_canonical_exact; eauto.
Qed.
Lemma CSR_has_canonical_rep m R : csr_rep I m R -> (Z.of_nat (length (concat R)) < imax I)%Z ->
  wp (CSR_has_canonical_format I m) (fun b => b = true <-> Forall canonical_row R).
Proof. intros H Hf. apply CSR_has_canonical_exact; [exact H|apply stuck_lt, Hf]. Qed.
Lemma CSC_has_canonical_exact m R : csc_rep I m R -> ~ stuck I R ->
  wp (CSC_has_canonical_format I m) (fun b => b = true <-> Forall canonical_row R).
Proof.
  intros [L H] Hf. unfold CSC_has_canonical_format. destruct (crep_nnz' _ _ _ _ _ _ H) as (_ & G2 & _).
  rewrite G2. cbn [bind]. eapply has_canonical_exact; eauto.
Qed.
Lemma CSC_has_canonical_rep m R : csc_rep I m R -> (Z.of_nat (length (concat R)) < imax I)%Z ->
  wp (CSC_has_canonical_format I m) (fun b => b = true <-> Forall canonical_row R).
Proof. intros H Hf. apply CSC_has_canonical_exact; [exact H|apply stuck_lt, Hf]. Qed.
Lemma CSR_has_sorted_rep m R : csr_rep I m R -> (match R with [] => True | r :: _ => r <> [] end) ->
  wp (CSR_has_sorted_indexes I m) (fun b => b = true <-> Forall sorted_row R).
Proof.
  intros [L H] Hf. unfold CSR_has_sorted_indexes. destruct (crep_nnz' _ _ _ _ _ _ H) as (_ & G2 & _).
  rewrite G2. cbn [bind]. eapply has_sorted_spec; eauto.
Qed.
Lemma CSC_has_sorted_rep m R : csc_rep I m R -> (match R with [] => True | r :: _ => r <> [] end) ->
  wp (CSC_has_sorted_indexes I m) (fun b => b = true <-> Forall sorted_row R).
Proof.
  intros [L H] Hf. unfold CSC_has_sorted_indexes. destruct (crep_nnz' _ _ _ _ _ _ H) as (_ & G2 & _).
  rewrite G2. cbn [bind]. eapply has_sorted_spec; eauto.
Qed.

Lemma CSR_sort_rep m R : csr_rep I m R ->
  wp (CSR_sort_indexes m) (fun m' => csr_rep I m' (map sortn R) /\ csr_rows m' = csr_rows m /\
     csr_cols m' = csr_cols m /\ csr_rowptr m' = csr_rowptr m /\
     length (csr_colidx m') = length (csr_colidx m) /\ length (csr_values m') = length (csr_values m)).
Proof.
  intros [L H]. unfold CSR_sort_indexes. destruct (crep_nnz' _ _ _ _ _ _ H) as (_ & G2 & _).
  rewrite G2. cbn [bind]. apply wp_bind. eapply wp_mono; [eapply sort_indices_spec; eauto|].
  intros [j x] (G & Lj & Lx). apply wp_ok. unfold csr_rep. cbn. rewrite map_length. auto 10.
Qed.
Lemma CSC_sort_rep m R : csc_rep I m R ->
  wp (CSC_sort_indexes m) (fun m' => csc_rep I m' (map sortn R) /\ csc_rows m' = csc_rows m /\
     csc_cols m' = csc_cols m /\ csc_colptr m' = csc_colptr m /\
     length (csc_rowidx m') = length (csc_rowidx m) /\ length (csc_values m') = length (csc_values m)).
Proof.
  intros [L H]. unfold CSC_sort_indexes. destruct (crep_nnz' _ _ _ _ _ _ H) as (_ & G2 & _).
  rewrite G2. cbn [bind]. apply wp_bind. eapply wp_mono; [eapply sort_indices_spec; eauto|].
  intros [j x] (G & Lj & Lx). apply wp_ok. unfold csc_rep. cbn. rewrite map_length. auto 10.
Qed.

Lemma CSR_prune_rep m R : csr_rep I m R ->
  CSR_prune m = Ok (mkCSR (csr_rows m) (csr_cols m) (csr_rowptr m)
      (firstn (length (concat R)) (csr_colidx m)) (firstn (length (concat R)) (csr_values m))).
Proof.
  intros H. unfold CSR_prune. rewrite (CSR_nnz_rep _ _ _ H). destruct H as [L H].
  rewrite (cr_len _ _ _ _ _ _ H), L, Nat.add_1_r, Nat.eqb_refl. cbn [negb bind].
  pose proof (crep_len_j _ _ _ _ _ _ H) as Lj. pose proof (crep_len_x _ _ _ _ _ _ H) as Lx.
  destruct (Nat.ltb_spec (length (csr_colidx m)) (length (concat R))); [lia|].
  destruct (Nat.ltb_spec (length (csr_values m)) (length (concat R))); [lia|].
  rewrite !vresize_firstn by assumption. reflexivity.
Qed.
Lemma CSC_prune_rep m R : csc_rep I m R ->
  CSC_prune m = Ok (mkCSC (csc_rows m) (csc_cols m)
      (firstn (length (concat R)) (csc_rowidx m)) (csc_colptr m) (firstn (length (concat R)) (csc_values m))).
Proof.
  intros H. unfold CSC_prune. rewrite (CSC_nnz_rep _ _ _ H). destruct H as [L H].
  rewrite (cr_len _ _ _ _ _ _ H), L, Nat.add_1_r, Nat.eqb_refl. cbn [negb bind].
  pose proof (crep_len_j _ _ _ _ _ _ H) as Lj. pose proof (crep_len_x _ _ _ _ _ _ H) as Lx.
  destruct (Nat.ltb_spec (length (csc_rowidx m)) (length (concat R))); [lia|].
  destruct (Nat.ltb_spec (length (csc_values m)) (length (concat R))); [lia|].
  rewrite !vslice_firstn by assumption. reflexivity.
Qed.

Lemma canon_nnz_le (R : list (list (nat * T))) : length (concat (map canon R)) <= length (concat R).
Proof.
  induction R as [|r R IH]; [reflexivity|]. cbn. rewrite !app_length. unfold canon at 1.
  pose proof (sum_adj_length (sortn r)). rewrite sortn_length in *. lia.
Qed.
Lemma map_canon_id R : Forall canonical_row R -> map canon R = R.
Proof.
  intros H. rewrite <- (map_id R) at 2. apply map_ext_in. intros r Hr.
  rewrite Forall_forall in H. apply canon_id, H, Hr.
Qed.

(** result of sum_duplicates: canonical rows; unchanged if canonical already; pruned otherwise *)
Lemma CSR_sum_duplicates_exact m R : csr_rep I m R -> ~ stuck I R ->
  wp (CSR_sum_duplicates I m) (fun m' => csr_rep I m' (map canon R) /\
    csr_rows m' = csr_rows m /\ csr_cols m' = csr_cols m /\
    (Forall canonical_row R -> m' = m) /\ (csr_tight m \/ ~ Forall canonical_row R -> csr_tight m')).
Proof.
  intros H Hf. unfold CSR_sum_duplicates. apply wp_bind.
  eapply wp_mono; [apply (CSR_has_canonical_exact _ _ H Hf)|]. intros [|] Hb.
  - assert (HR : Forall canonical_row R) by tauto. apply wp_ok. rewrite map_canon_id by exact HR. tauto.
  - assert (HR : ~ Forall canonical_row R) by (intros C; apply Hb in C; discriminate).
    apply wp_bind. eapply wp_mono; [apply (CSR_sort_rep _ _ H)|].
    intros m1 ([L1 H1] & E1 & E2 & E3 & E4 & E5).
    apply wp_bind. eapply wp_mono; [eapply sum_duplicates_spec; [exact H1|exact L1]|].
    intros [[p j] x] (G & Lj & Lx).
    assert (H2 : csr_rep I (mkCSR (csr_rows m1) (csr_cols m1) p j x) (map sum_adj (map sortn R))).
    { split; [rewrite map_length; exact L1|exact G]. }
    eapply wp_eq; [apply (CSR_prune_rep _ _ H2)|]. rewrite map_map in *. cbn.
    assert (H3 : csr_rep I (mkCSR (csr_rows m1) (csr_cols m1) p
         (firstn (length (concat (map canon R))) j) (firstn (length (concat (map canon R))) x)) (map canon R)).
    { split; [apply H2|]. apply crep_resize, H2. }
    sp; try assumption; try tauto. intros _.
    apply (csr_tight_rep _ _ _ H3). cbn. rewrite !firstn_length.
    pose proof (crep_len_j _ _ _ _ _ _ G). pose proof (crep_len_x _ _ _ _ _ _ G).
    unfold canon. lia.
Qed.
Lemma CSR_sum_duplicates_rep m R : csr_rep I m R -> (Z.of_nat (length (concat R)) < imax I)%Z ->
  wp (CSR_sum_duplicates I m) (fun m' => csr_rep I m' (map canon R) /\
    csr_rows m' = csr_rows m /\ csr_cols m' = csr_cols m /\
    (Forall canonical_row R -> m' = m) /\ (csr_tight m \/ ~ Forall canonical_row R -> csr_tight m')).
Proof. intros H Hf. apply CSR_sum_duplicates_exact; [exact H|apply stuck_lt, Hf]. Qed.
Lemma CSC_sum_duplicates_exact m R : csc_rep I m R -> ~ stuck I R ->
  wp (CSC_sum_duplicates I m) (fun m' => csc_rep I m' (map canon R) /\
    csc_rows m' = csc_rows m /\ csc_cols m' = csc_cols m /\
    (Forall canonical_row R -> m' = m) /\ (csc_tight m \/ ~ Forall canonical_row R -> csc_tight m')).
Proof.
  intros H Hf. unfold CSC_sum_duplicates. apply wp_bind.
  eapply wp_mono; [apply (CSC_has_canonical_exact _ _ H Hf)|]. intros [|] Hb.
  - assert (HR : Forall canonical_row R) by tauto. apply wp_ok. rewrite map_canon_id by exact HR. tauto.
  - assert (HR : ~ Forall canonical_row R) by (intros C; apply Hb in C; discriminate).
    apply wp_bind. eapply wp_mono; [apply (CSC_sort_rep _ _ H)|].
    intros m1 ([L1 H1] & E1 & E2 & E3 & E4 & E5).
    apply wp_bind. eapply wp_mono; [eapply sum_duplicates_spec; [exact H1|exact L1]|].
    intros [[p j] x] (G & Lj & Lx).
    assert (H2 : csc_rep I (mkCSC (csc_rows m1) (csc_cols m1) j p x) (map sum_adj (map sortn R))).
    { split; [rewrite map_length; exact L1|exact G]. }
    apply wp_unwrap.
    eapply wp_eq; [apply (CSC_prune_rep _ _ H2)|]. rewrite map_map in *. cbn.
    assert (H3 : csc_rep I (mkCSC (csc_rows m1) (csc_cols m1) 
         (firstn (length (concat (map canon R))) j) p (firstn (length (concat (map canon R))) x)) (map canon R)).
    { split; [apply H2|]. apply crep_resize, H2. }
    sp; try assumption; try tauto. intros _.
    apply (csc_tight_rep _ _ _ H3). cbn. rewrite !firstn_length.
    pose proof (crep_len_j _ _ _ _ _ _ G). pose proof (crep_len_x _ _ _ _ _ _ G).
    unfold canon. lia.
Qed.
Lemma CSC_sum_duplicates_rep m R : csc_rep I m R -> (Z.of_nat (length (concat R)) < imax I)%Z ->
  wp (CSC_sum_duplicates I m) (fun m' => csc_rep I m' (map canon R) /\
    csc_rows m' = csc_rows m /\ csc_cols m' = csc_cols m /\
    (Forall canonical_row R -> m' = m) /\ (csc_tight m \/ ~ Forall canonical_row R -> csc_tight m')).
Proof. intros H Hf. apply CSC_sum_duplicates_exact; [exact H|apply stuck_lt, Hf]. Qed.
End Canon.

(** ** Sorted rows are determined by what they store *)
Section Ext.
Context {T : Type}.
Implicit Types r : list (nat * T).

Lemma sorted_cons_inv e r : sorted_row (e :: r) -> sorted_row r /\ forall k, In k (map fst r) -> fst e <= k.
Proof.
  intros H. apply StronglySorted_inv in H as [H1 H2]. split; [exact H1|]. rewrite Forall_forall in H2. exact H2.
Qed.
Lemma sorted_at_ext r1 r2 : sorted_row r1 -> sorted_row r2 -> (forall k, at_ k r1 = at_ k r2) -> r1 = r2.
Proof.
  revert r2. induction r1 as [|e1 r1 IH]; intros r2 H1 H2 H.
  - destruct r2 as [|e2 r2]; [reflexivity|]. specialize (H (fst e2)). rewrite at_cons, Nat.eqb_refl in H. discriminate.
  - destruct r2 as [|e2 r2].
    { specialize (H (fst e1)). rewrite at_cons, Nat.eqb_refl in H. discriminate. }
    apply sorted_cons_inv in H1 as [S1 M1]. apply sorted_cons_inv in H2 as [S2 M2].
    assert (E : fst e1 = fst e2).
    { destruct (Nat.lt_trichotomy (fst e1) (fst e2)) as [L|[L|L]]; [|exact L|].
      - exfalso. specialize (H (fst e1)). rewrite at_cons, Nat.eqb_refl in H.
        assert (N : at_ (fst e1) (e2 :: r2) = []).
        { apply at_not_in. cbn. intros [C|C]; [lia|]. apply M2 in C. lia. }
        rewrite N in H. discriminate.
      - exfalso. specialize (H (fst e2)). rewrite (at_cons _ e2), Nat.eqb_refl in H.
        assert (N : at_ (fst e2) (e1 :: r1) = []).
        { apply at_not_in. cbn. intros [C|C]; [lia|]. apply M1 in C. lia. }
        rewrite N in H. discriminate. }
    assert (E2 : snd e1 = snd e2).
    { specialize (H (fst e1)). rewrite !at_cons, <- E, Nat.eqb_refl in H. cbn in H. congruence. }
    assert (e1 = e2) as -> by (destruct e1, e2; cbn in *; congruence).
    f_equal. apply IH; auto. intros k. specialize (H k). rewrite !at_cons in H. apply app_inv_head in H. exact H.
Qed.
End Ext.

(** ** Transposed rows *)
Section Transpose.
Context {T : Type}.
Implicit Types R : list (list (nat * T)).

Lemma bucket_row_entries s r k : bucket (row_entries (T := T) s r) k = map (fun v => (s, v)) (at_ k r).
Proof.
  induction r as [|e r IH]; [reflexivity|]. rewrite at_cons. unfold bucket, row_entries in *. cbn.
  destruct (fst e =? k); cbn; rewrite IH; reflexivity.
Qed.
Lemma at_const i s (l : list T) : at_ i (map (fun v => (s, v)) l) = if s =? i then l else [].
Proof.
  induction l as [|v l IH]; cbn [map]; [destruct (s =? i); reflexivity|]. rewrite at_cons, IH. cbn.
  destruct (s =? i); reflexivity.
Qed.
Lemma at_bucket_rows i k s R : at_ i (bucket (rows_entries s R) k) = if i <? s then [] else at_ k (nth (i - s) R []).
Proof.
  revert s. induction R as [|r R IH]; intros s; cbn [rows_entries].
  - destruct (i <? s); [reflexivity|]. destruct (i - s); reflexivity.
  - rewrite bucket_app, at_app, bucket_row_entries, at_const, IH.
    destruct (Nat.eqb_spec s i) as [->|D].
    + rewrite Nat.ltb_irrefl, Nat.sub_diag. destruct (Nat.ltb_spec i (S i)); [|lia]. rewrite app_nil_r. reflexivity.
    + destruct (Nat.ltb_spec i (S s)), (Nat.ltb_spec i s); try lia; [reflexivity|].
      replace (i - s) with (S (i - S s)) by lia. reflexivity.
Qed.
Lemma bucket_rows_sorted k s R : sorted_row (bucket (rows_entries s R) k) /\
  forall i, In i (map fst (bucket (rows_entries s R) k)) -> s <= i.
Proof.
  revert s. induction R as [|r R IH]; intros s; cbn [rows_entries].
  - split; [constructor|]. intros i [].
  - destruct (IH (S s)) as [IH1 IH2]. rewrite bucket_app, bucket_row_entries.
    split.
    + unfold sorted_row. rewrite map_app, map_map. cbn [fst].
      induction (at_ k r) as [|v l IHl]; [exact IH1|]. cbn. constructor; [exact IHl|].
      apply Forall_app. split.
      * apply Forall_forall. intros a Ha. apply in_map_iff in Ha as (? & <- & _). lia.
      * apply Forall_forall. intros a Ha. apply IH2 in Ha. lia.
    + intros i Hi. rewrite map_app, map_map in Hi. apply in_app_or in Hi as [Hi|Hi].
      * apply in_map_iff in Hi as (? & <- & _). cbn. lia.
      * apply IH2 in Hi. lia.
Qed.

Lemma transpose_length c R : length (transpose_rows c R) = c.
Proof. apply buckets_length. Qed.
Lemma at_transpose c R i k : k < c -> at_ i (nth k (transpose_rows c R) []) = at_ k (nth i R []).
Proof.
  intros H. unfold transpose_rows. rewrite nth_buckets by exact H. rewrite at_bucket_rows, Nat.sub_0_r. reflexivity.
Qed.
Lemma transpose_sorted c R : Forall sorted_row (transpose_rows c R).
Proof.
  apply (nth_Forall sorted_row _ []). intros k Hk. rewrite transpose_length in Hk.
  unfold transpose_rows. rewrite nth_buckets by exact Hk. apply bucket_rows_sorted.
Qed.
Lemma transpose_transpose c R n : length R = n -> Forall (fun r => Forall (fun e => fst e < c) r) R ->
  transpose_rows n (transpose_rows c R) = map sortn R.
Proof.
  intros L F. apply nth_ext with (d := []) (d' := []).
  - rewrite transpose_length, map_length. auto.
  - intros i Hi. rewrite transpose_length in Hi.
    change (@nil (nat * T)) with (sortn (@nil (nat * T))) at 2. rewrite map_nth.
    apply sorted_at_ext.
    + pose proof (transpose_sorted n (transpose_rows c R)) as G. rewrite (nth_Forall _ _ []) in G. apply G.
      rewrite transpose_length. exact Hi.
    + apply sortn_sorted.
    + intros k. rewrite at_transpose by exact Hi. rewrite at_sortn.
      destruct (Nat.lt_ge_cases k c) as [Hk|Hk]; [apply at_transpose, Hk|].
      rewrite nth_overflow by (rewrite transpose_length; exact Hk). rewrite at_nil. symmetry. apply at_not_in.
      rewrite (nth_Forall _ _ []) in F. specialize (F i ltac:(lia)). rewrite Forall_forall in F.
      intros Hin. apply in_map_iff in Hin as (e & <- & He). apply F in He. lia.
Qed.
Lemma crep_cols_lt I c p j (x : list T) R : crep I c p j x R -> Forall (fun r => Forall (fun e => fst e < c) r) R.
Proof.
  intros H. pose proof (cr_idx _ _ _ _ _ _ H) as F. apply Forall_forall. intros r Hr. apply Forall_forall. intros e He.
  rewrite Forall_forall in F. apply F. apply in_concat. eauto.
Qed.
Lemma transpose_nnz c R : Forall (fun r => Forall (fun e => fst e < c) r) R ->
  length (concat (transpose_rows c R)) = length (concat R).
Proof.
  intros F. rewrite <- (rows_entries_length 0 R). apply boff_total.
  rewrite Forall_forall. intros e He. apply (in_map fst) in He. rewrite rows_entries_fst in He.
  apply in_map_iff in He as (e' & E & He). rewrite <- E. apply in_concat in He as (r & Hr & He).
  rewrite Forall_forall in F. specialize (F _ Hr). rewrite Forall_forall in F. apply F, He.
Qed.
Lemma transpose_canonical c R : Forall nodup_row R -> Forall canonical_row (transpose_rows c R).
Proof.
  intros F. pose proof (transpose_sorted c R) as S. rewrite (nth_Forall _ _ []) in S. rewrite (nth_Forall _ _ []) in F. apply (nth_Forall _ _ []).
  intros k Hk. specialize (S k Hk). apply sorted_nodup_canonical; [exact S|].
  rewrite transpose_length in Hk. unfold nodup_row. apply (NoDup_count_occ Nat.eq_dec). intros i.
  rewrite <- at_length, at_transpose by exact Hk. rewrite at_length.
  clear Hk S. revert k. apply NoDup_count_occ.
  destruct (Nat.lt_ge_cases i (length R)) as [Hi|Hi]; [apply (F i Hi)|]. rewrite nth_overflow by exact Hi. constructor.
Qed.
End Transpose.

(** ** Conversions *)
Section Conv.
Context {T : Type} {SC : Scalar T}.
Variable I : ity.
Implicit Types R : list (list (nat * T)).

Lemma wp_conj_ok {A} (m : res A) (Q : A -> Prop) a : m = Ok a -> wp m Q -> Q a.
Proof. intros -> (b & [= ->] & H). exact H. Qed.

(** coordinate entries keyed by row, by column *)
Definition swap_entry (e : nat * nat * T) : nat * nat * T := ((snd (fst e), fst (fst e)), snd e).

Lemma wf_coo_arrays (m : Coo T) : wf_coo I m ->
  let E := coo_entries m in
  coo_rowidx m = map (fun e => Z.of_nat (fst (fst e))) E /\
  coo_colidx m = map (fun e => Z.of_nat (snd (fst e))) E /\
  coo_values m = map snd E /\ length E = length (coo_values m) /\
  Forall (fun e => (fst (fst e) < coo_rows m /\ (Z.of_nat (fst (fst e)) <= imax I)%Z) /\
                   (snd (fst e) < coo_cols m /\ (Z.of_nat (snd (fst e)) <= imax I)%Z)) E.
Proof.
  intros [Lr Lc Hr Hc] E. unfold E, coo_entries.
  generalize dependent (coo_rowidx m). generalize dependent (coo_colidx m). generalize dependent (coo_values m).
  clear E. intros vs. induction vs as [|v vs IH]; intros [|c cs] Lc Hc [|r rs] Lr Hr; cbn in *; try lia; [auto|].
  inversion Hr; inversion Hc; subst.
  destruct (IH cs ltac:(lia) ltac:(assumption) rs ltac:(lia) ltac:(assumption)) as (E1 & E2 & E3 & E4 & E5).
  rewrite <- E1, <- E2, <- E3, E4, !Z2Nat.id by tauto. sp.
  constructor; [|exact E5]. cbn. lia.
Qed.

Lemma coo_at_bucket (m : Coo T) i k : at_ k (bucket (keyed (coo_entries m)) i) = coo_at (T := T) m i k.
Proof.
  unfold coo_at, bucket, keyed, at_. induction (coo_entries m) as [|e l IH]; [reflexivity|]. cbn.
  destruct (fst (fst e) =? i); cbn; [|exact IH]. destruct (snd (fst e) =? k); cbn; [|exact IH]. rewrite IH. reflexivity.
Qed.
Lemma coo_at_bucket_col (m : Coo T) i k : at_ i (bucket (keyed (map swap_entry (coo_entries m))) k) = coo_at (T := T) m i k.
Proof.
  unfold coo_at, bucket, keyed, at_. induction (coo_entries m) as [|e l IH]; [reflexivity|]. cbn.
  destruct (snd (fst e) =? k); cbn.
  - destruct (fst (fst e) =? i); cbn; [|exact IH]. rewrite IH. reflexivity.
  - rewrite andb_false_r. exact IH.
Qed.

Lemma Coo_to_csr_exact m : wf_coo I m -> (Z.of_nat (length (coo_values m)) <= imax I)%Z -> ~ stuck I (buckets (coo_rows m) (keyed (coo_entries m))) ->
  wp (Coo_to_csr I m) (fun r => csr_rows r = coo_rows m /\ csr_cols r = coo_cols m /\
    csr_rep I r (map canon (buckets (coo_rows m) (keyed (coo_entries m)))) /\ csr_tight r).
Proof.
  intros H Hf Hs. destruct (wf_coo_arrays m H) as (E1 & E2 & E3 & E4 & E5).
  set (E := coo_entries m) in *. unfold Coo_to_csr.
  assert (LE : length (keyed E) = Coo_nnz m) by (unfold keyed; rewrite map_length; exact E4).
  rewrite <- LE. apply wp_bind.
  eapply wp_mono.
  { eapply (coo_tocsr_spec I (coo_rows m) (coo_cols m) _ _ _ (keyed E)).
    - unfold coo_arrays, keyed. rewrite !map_map. auto.
    - unfold keyed. apply Forall_map. eapply Forall_impl; [|exact E5]. cbn. tauto.
    - unfold keyed. apply Forall_map. eapply Forall_impl; [|exact E5]. cbn. tauto.
    - rewrite LE. unfold Coo_nnz. lia.
    - rewrite repeat_length. lia.
    - apply repeat_length.
    - apply repeat_length. }
  intros [[p j] x] (G & Lj & Lx).
  assert (LB : length (buckets (coo_rows m) (keyed E)) = coo_rows m) by apply buckets_length.
  rewrite (CSR_new_rep _ _ _ _ _ _ _ G LB). cbn [unwrap bind]. apply wp_unwrap.
  set (a := mkCSR (coo_rows m) (coo_cols m) p j x).
  assert (Ha : csr_rep I a (buckets (coo_rows m) (keyed E))) by (split; assumption).
  assert (LN : length (concat (buckets (coo_rows m) (keyed E))) = length (keyed E)).
  { apply boff_total. unfold keyed. apply Forall_map. eapply Forall_impl; [|exact E5]. cbn. tauto. }
  eapply wp_mono.
  - apply CSR_sum_duplicates_exact; [exact Ha|exact Hs].
  - intros r (G1 & G2 & G3 & G4 & G5). sp; try assumption. apply G5. left.
    apply (csr_tight_rep _ _ _ Ha). rewrite LN. auto.
Qed.
Lemma Coo_to_csr_rep m : wf_coo I m -> (Z.of_nat (length (coo_values m)) < imax I)%Z ->
  wp (Coo_to_csr I m) (fun r => csr_rows r = coo_rows m /\ csr_cols r = coo_cols m /\
    csr_rep I r (map canon (buckets (coo_rows m) (keyed (coo_entries m)))) /\ csr_tight r).
Proof.
  intros H Hf. apply Coo_to_csr_exact; [exact H|lia|]. intros (Q & _). destruct (wf_coo_arrays m H) as (_ & _ & _ & E4 & E5).
  assert (LN : length (concat (buckets (coo_rows m) (keyed (coo_entries m)))) = length (coo_values m)).
  { transitivity (length (keyed (coo_entries m))); [apply boff_total; unfold keyed; rewrite ?map_map; apply Forall_map; eapply Forall_impl; [|exact E5]; cbn; tauto|]. unfold keyed. rewrite ?map_length. exact E4. }
  lia.
Qed.

Lemma Coo_to_csc_exact m : wf_coo I m -> (Z.of_nat (length (coo_values m)) <= imax I)%Z -> ~ stuck I (buckets (coo_cols m) (keyed (map swap_entry (coo_entries m)))) ->
  wp (Coo_to_csc I m) (fun r => csc_rows r = coo_rows m /\ csc_cols r = coo_cols m /\
    csc_rep I r (map canon (buckets (coo_cols m) (keyed (map swap_entry (coo_entries m))))) /\ csc_tight r).
Proof.
  intros H Hf Hs. destruct (wf_coo_arrays m H) as (E1 & E2 & E3 & E4 & E5).
  set (E := map swap_entry (coo_entries m)) in *. unfold Coo_to_csc.
  assert (LE : length (keyed E) = Coo_nnz m) by (unfold keyed, E; rewrite !map_length; exact E4).
  rewrite <- LE. apply wp_bind.
  assert (F1 : Forall (fun e => fst e < coo_cols m) (keyed E)).
  { unfold keyed, E. rewrite map_map. apply Forall_map. eapply Forall_impl; [|exact E5]. cbn. tauto. }
  eapply wp_mono.
  { eapply (coo_tocsr_spec I (coo_cols m) (coo_rows m) _ _ _ (keyed E)).
    - unfold coo_arrays, keyed, E. rewrite !map_map. auto.
    - exact F1.
    - unfold keyed, E. rewrite map_map. apply Forall_map. eapply Forall_impl; [|exact E5]. cbn. tauto.
    - rewrite LE. unfold Coo_nnz. lia.
    - rewrite repeat_length. lia.
    - apply repeat_length.
    - apply repeat_length. }
  intros [[p j] x] (G & Lj & Lx).
  assert (LB : length (buckets (coo_cols m) (keyed E)) = coo_cols m) by apply buckets_length.
  rewrite (CSC_new_rep _ _ _ _ _ _ _ G LB). cbn [unwrap bind].
  set (a := mkCSC (coo_rows m) (coo_cols m) j p x).
  assert (Ha : csc_rep I a (buckets (coo_cols m) (keyed E))) by (split; assumption).
  assert (LN : length (concat (buckets (coo_cols m) (keyed E))) = length (keyed E)) by (apply boff_total, F1).
  eapply wp_mono.
  - apply CSC_sum_duplicates_exact; [exact Ha|exact Hs].
  - intros r (G1 & G2 & G3 & G4 & G5). sp; try assumption. apply G5. left.
    apply (csc_tight_rep _ _ _ Ha). rewrite LN. auto.
Qed.
Lemma Coo_to_csc_rep m : wf_coo I m -> (Z.of_nat (length (coo_values m)) < imax I)%Z ->
  wp (Coo_to_csc I m) (fun r => csc_rows r = coo_rows m /\ csc_cols r = coo_cols m /\
    csc_rep I r (map canon (buckets (coo_cols m) (keyed (map swap_entry (coo_entries m))))) /\ csc_tight r).
Proof.
  intros H Hf. apply Coo_to_csc_exact; [exact H|lia|]. intros (Q & _). destruct (wf_coo_arrays m H) as (_ & _ & _ & E4 & E5).
  assert (LN : length (concat (buckets (coo_cols m) (keyed (map swap_entry (coo_entries m))))) = length (coo_values m)).
  { transitivity (length (keyed (map swap_entry (coo_entries m)))); [apply boff_total; unfold keyed; rewrite ?map_map; apply Forall_map; eapply Forall_impl; [|exact E5]; cbn; tauto|]. unfold keyed. rewrite ?map_length. exact E4. }
  lia.
Qed.

(** the row numbers of non-empty rows are representable *)
Definition rows_fit R : Prop := forall i r, nth_error R i = Some r -> r <> [] -> (Z.of_nat i <= imax I)%Z.
Lemma rows_fit_bound R n : length R = n -> (Z.of_nat n <= imax I + 1)%Z -> rows_fit R.
Proof.
  intros L H i r Hi _. assert (i < length R) by (apply nth_error_Some; congruence). lia.
Qed.

Lemma csr_rows_fit_rep m R : csr_rep I m R -> csr_rows_fit I m <-> rows_fit R.
Proof.
  intros H. split.
  - intros F i r Hi Hr. assert (i < length R) by (apply nth_error_Some; congruence).
    destruct (H) as [L _]. apply F; [lia|]. rewrite (csr_rep_row _ _ _ _ H), (nth_error_nth _ _ _ Hi). exact Hr.
  - intros F i Hi Hr. rewrite (csr_rep_row _ _ _ _ H) in Hr. apply (F i (nth i R [])); [|exact Hr].
    apply nth_error_nth'. destruct H; lia.
Qed.
Lemma csc_cols_fit_rep m R : csc_rep I m R -> csc_cols_fit I m <-> rows_fit R.
Proof.
  intros H. split.
  - intros F i r Hi Hr. assert (i < length R) by (apply nth_error_Some; congruence).
    destruct (H) as [L _]. apply F; [lia|]. rewrite (csc_rep_col _ _ _ _ H), (nth_error_nth _ _ _ Hi). exact Hr.
  - intros F i Hi Hr. rewrite (csc_rep_col _ _ _ _ H) in Hr. apply (F i (nth i R [])); [|exact Hr].
    apply nth_error_nth'. destruct H; lia.
Qed.
Lemma transpose_rows_fit c p j (x : list T) R n : crep I c p j x R -> rows_fit (transpose_rows n R).
Proof.
  intros H k r Hk Hr. assert (Hlt : k < n).
  { rewrite <- (transpose_length n R). apply nth_error_Some. congruence. }
  destruct r as [|[i v] r]; [congruence|].
  assert (Hin : In v (at_ i (nth k (transpose_rows n R) []))).
  { rewrite (nth_error_nth _ _ _ Hk). rewrite at_cons. cbn. rewrite Nat.eqb_refl. left. reflexivity. }
  rewrite at_transpose in Hin by exact Hlt. apply at_in in Hin.
  pose proof (cr_idx _ _ _ _ _ _ H) as F. rewrite Forall_forall in F. apply (F (k, v)).
  apply in_concat. exists (nth i R []). split; [|exact Hin].
  apply nth_In. destruct (Nat.lt_ge_cases i (length R)); [assumption|]. rewrite nth_overflow in Hin by assumption.
  destruct Hin.
Qed.

Lemma CSR_to_csc_rep m R : csr_rep I m R -> rows_fit R ->
  wp (CSR_to_csc I m) (fun r => csc_rows r = csr_rows m /\ csc_cols r = csr_cols m /\
    csc_rep I r (transpose_rows (csr_cols m) R) /\ csc_tight r).
Proof.
  intros H Hr. unfold CSR_to_csc. rewrite (CSR_nnz_rep _ _ _ H). cbn [bind]. destruct H as [L H].
  apply wp_bind. eapply wp_mono.
  { eapply csr_tocsc_spec; [exact H|exact L|exact Hr| | |]; rewrite repeat_length; lia. }
  intros [[p j] x] (G & Lj & Lx).
  rewrite (CSC_new_rep _ _ _ _ _ _ _ G (transpose_length _ _)). cbn [unwrap]. apply wp_ok. cbn.
  assert (G2 : csc_rep I (mkCSC (csr_rows m) (csr_cols m) j p x) (transpose_rows (csr_cols m) R))
    by (split; [apply transpose_length|exact G]).
  sp; try assumption.
  apply (csc_tight_rep _ _ _ G2). cbn. rewrite transpose_nnz by (eapply crep_cols_lt; exact H). auto.
Qed.
Lemma CSC_to_csr_rep m R : csc_rep I m R -> rows_fit R ->
  wp (CSC_to_csr I m) (fun r => csr_rows r = csc_rows m /\ csr_cols r = csc_cols m /\
    csr_rep I r (transpose_rows (csc_rows m) R) /\ csr_tight r).
Proof.
  intros H Hr. unfold CSC_to_csr. rewrite (CSC_nnz_rep _ _ _ H). cbn [bind]. destruct H as [L H].
  apply wp_bind. eapply wp_mono.
  { eapply csr_tocsc_spec; [exact H|exact L|exact Hr| | |]; rewrite repeat_length; lia. }
  intros [[p j] x] (G & Lj & Lx).
  rewrite (CSR_new_rep _ _ _ _ _ _ _ G (transpose_length _ _)). cbn [unwrap]. apply wp_ok. cbn.
  assert (G2 : csr_rep I (mkCSR (csc_rows m) (csc_cols m) p j x) (transpose_rows (csc_rows m) R))
    by (split; [apply transpose_length|exact G]).
  sp; try assumption.
  apply (csr_tight_rep _ _ _ G2). cbn. rewrite transpose_nnz by (eapply crep_cols_lt; exact H). auto.
Qed.
End Conv.
