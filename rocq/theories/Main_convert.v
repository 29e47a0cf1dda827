(** Proofs of the theorems of Props_convert.v, under the same names in lower case. *)
From Verif Require Import Rust Scalar Model_kernels Model_matrix Spec Wp Rep ScatterProofs CanonProofs ConvProofs Check.

Section Props.
Context {T : Type} {SC : Scalar T}.
Variable I : ity.

Lemma c01_coo_to_csr : forall m : Coo T,
  wf_coo I m -> (Z.of_nat (length (coo_values m)) < imax I)%Z ->
  exists r, Coo_to_csr I m = Ok r /\ wf_csr I r /\ csr_tight r /\
    csr_rows r = coo_rows m /\ csr_cols r = coo_cols m /\ csr_canonical r /\
    forall i j, i < coo_rows m -> csr_at r i j = dup_sum (coo_at m i j).
Proof.
  intros m H Hf. destruct (Coo_to_csr_rep I m H Hf) as (r & E & E1 & E2 & R & Tt). exists r.
  sp; try assumption; [eapply csr_rep_wf; exact R| |].
  - unfold csr_canonical. apply (csr_rep_rows canonical_row _ _ _ R). apply Forall_map.
    apply Forall_forall. intros. apply canon_canonical.
  - intros i j Hi. rewrite (csr_rep_at _ _ _ _ _ R).
    change (@nil (nat * T)) with (canon (@nil (nat * T))). rewrite map_nth, at_canon.
    rewrite nth_buckets by exact Hi. rewrite coo_at_bucket. reflexivity.
Qed.

Lemma c02_coo_to_csc : forall m : Coo T,
  wf_coo I m -> (Z.of_nat (length (coo_values m)) < imax I)%Z ->
  exists r, Coo_to_csc I m = Ok r /\ wf_csc I r /\ csc_tight r /\
    csc_rows r = coo_rows m /\ csc_cols r = coo_cols m /\ csc_canonical r /\
    forall i j, j < coo_cols m -> csc_at r i j = dup_sum (coo_at m i j).
Proof.
  intros m H Hf. destruct (Coo_to_csc_rep I m H Hf) as (r & E & E1 & E2 & R & Tt). exists r.
  sp; try assumption; [eapply csc_rep_wf; exact R| |].
  - unfold csc_canonical. apply (csc_rep_cols canonical_row _ _ _ R). apply Forall_map.
    apply Forall_forall. intros. apply canon_canonical.
  - intros i j Hj. rewrite (csc_rep_at _ _ _ _ _ R).
    change (@nil (nat * T)) with (canon (@nil (nat * T))). rewrite map_nth, at_canon.
    rewrite nth_buckets by exact Hj. rewrite coo_at_bucket_col. reflexivity.
Qed.

Lemma c03_csr_to_csc : forall m : CSR T,
  wf_csr I m -> csr_rows_fit I m ->
  exists r, CSR_to_csc I m = Ok r /\ wf_csc I r /\ csc_tight r /\
    csc_rows r = csr_rows m /\ csc_cols r = csr_cols m /\ csc_sorted r /\
    (forall i j, j < csr_cols m -> csc_at r i j = csr_at m i j) /\
    csc_count r = csr_count m.
Proof.
  intros m H Hf. destruct (wf_csr_rep _ _ H) as [R HR].
  destruct (CSR_to_csc_rep I m R HR) as (r & E & E1 & E2 & R2 & Tt). { apply (csr_rows_fit_rep I m R HR), Hf. }
  exists r. sp; try assumption; [eapply csc_rep_wf; exact R2| | |].
  - unfold csc_sorted. apply (csc_rep_cols sorted_row _ _ _ R2). apply transpose_sorted.
  - intros i j Hj. rewrite (csc_rep_at _ _ _ _ _ R2), (csr_rep_at _ _ _ _ _ HR). apply at_transpose, Hj.
  - rewrite (csc_rep_count _ _ _ R2), (csr_rep_count _ _ _ HR). apply transpose_nnz.
    eapply crep_cols_lt. apply HR.
Qed.

Lemma c04_csc_to_csr : forall m : CSC T,
  wf_csc I m -> csc_cols_fit I m ->
  exists r, CSC_to_csr I m = Ok r /\ wf_csr I r /\ csr_tight r /\
    csr_rows r = csc_rows m /\ csr_cols r = csc_cols m /\ csr_sorted r /\
    (forall i j, i < csc_rows m -> csr_at r i j = csc_at m i j) /\
    csr_count r = csc_count m.
Proof.
  intros m H Hf. destruct (wf_csc_rep _ _ H) as [R HR].
  destruct (CSC_to_csr_rep I m R HR) as (r & E & E1 & E2 & R2 & Tt). { apply (csc_cols_fit_rep I m R HR), Hf. }
  exists r. sp; try assumption; [eapply csr_rep_wf; exact R2| | |].
  - unfold csr_sorted. apply (csr_rep_rows sorted_row _ _ _ R2). apply transpose_sorted.
  - intros i j Hj. rewrite (csr_rep_at _ _ _ _ _ R2), (csc_rep_at _ _ _ _ _ HR). apply at_transpose, Hj.
  - rewrite (csr_rep_count _ _ _ R2), (csc_rep_count _ _ _ HR). apply transpose_nnz.
    eapply crep_cols_lt. apply HR.
Qed.

Lemma c05_csr_round_trip : forall m : CSR T,
  wf_csr I m -> csr_rows_fit I m ->
  exists c r, CSR_to_csc I m = Ok c /\ CSC_to_csr I c = Ok r /\
    csr_rows r = csr_rows m /\ csr_cols r = csr_cols m /\ csr_rowptr r = csr_rowptr m /\ csr_tight r /\
    csr_sorted r /\ (forall i j, csr_at r i j = csr_at m i j) /\
    (csr_sorted m -> csr_tight m -> r = m).
Proof.
  intros m H Hf. destruct (wf_csr_rep _ _ H) as [R HR]. pose proof (crep_cols_lt _ _ _ _ _ _ (proj2 HR)) as HC.
  destruct (CSR_to_csc_rep I m R HR) as (c & E & E1 & E2 & R2 & Tt). { apply (csr_rows_fit_rep I m R HR), Hf. }
  destruct (CSC_to_csr_rep I c _ R2) as (r & F & F1 & F2 & R3 & Tt2).
  { eapply transpose_rows_fit. apply HR. }
  exists c, r. rewrite E1 in *. rewrite (transpose_transpose _ _ _ (proj1 HR) HC) in R3.
  destruct (CSR_sort_rep I m R HR) as (s & Es & Rs & S1 & S2 & S3 & S4 & S5).
  assert (Hp : csr_rowptr r = csr_rowptr m).
  { rewrite <- S3. destruct R3 as [L3 R3]. destruct Rs as [Ls Rs].
    apply (crep_resize _ _ _ _ _ _) in R3. apply (crep_resize _ _ _ _ _ _) in Rs.
    edestruct (crep_tight_eq _ _ _ _ _ _ _ _ _ _ _ R3 Rs) as (G & _); [..|exact G]; rewrite firstn_length;
      match goal with |- Nat.min _ (length ?l) = _ => idtac end;
      first [pose proof (crep_len_j _ _ _ _ _ _ R3)|idtac]; first [pose proof (crep_len_x _ _ _ _ _ _ R3)|idtac];
      pose proof (crep_len_j _ _ _ _ _ _ Rs); pose proof (crep_len_x _ _ _ _ _ _ Rs);
      rewrite !firstn_length in *; lia. }
  assert (Hsort : csr_sorted r).
  { unfold csr_sorted. apply (csr_rep_rows sorted_row _ _ _ R3). apply Forall_map, Forall_forall. intros. apply sortn_sorted. }
  sp; try assumption; try congruence.
  - intros i j. rewrite (csr_rep_at _ _ _ _ _ R3), (csr_rep_at _ _ _ _ _ HR).
    change (@nil (nat * T)) with (sortn (@nil (nat * T))) at 1. rewrite map_nth, at_sortn. reflexivity.
  - intros Sm Tm. apply (csr_rep_rows sorted_row _ _ _ HR) in Sm.
    assert (ER : map sortn R = R).
    { rewrite <- (map_id R) at 2. apply map_ext_in. intros a Ha. rewrite Forall_forall in Sm. apply sortn_id, Sm, Ha. }
    rewrite ER in R3. apply (csr_tight_rep _ _ _ R3) in Tt2. apply (csr_tight_rep _ _ _ HR) in Tm.
    destruct (crep_tight_eq _ _ _ _ _ _ _ _ _ _ _ (proj2 R3) (proj2 HR)) as (G1 & G2 & G3); try tauto.
    destruct r, m; cbn in *; congruence.
Qed.

Lemma c05_csc_round_trip : forall m : CSC T,
  wf_csc I m -> csc_cols_fit I m ->
  exists c r, CSC_to_csr I m = Ok c /\ CSR_to_csc I c = Ok r /\
    csc_rows r = csc_rows m /\ csc_cols r = csc_cols m /\ csc_colptr r = csc_colptr m /\ csc_tight r /\
    csc_sorted r /\ (forall i j, csc_at r i j = csc_at m i j) /\
    (csc_sorted m -> csc_tight m -> r = m).
Proof.
  intros m H Hf. destruct (wf_csc_rep _ _ H) as [R HR]. pose proof (crep_cols_lt _ _ _ _ _ _ (proj2 HR)) as HC.
  destruct (CSC_to_csr_rep I m R HR) as (c & E & E1 & E2 & R2 & Tt). { apply (csc_cols_fit_rep I m R HR), Hf. }
  destruct (CSR_to_csc_rep I c _ R2) as (r & F & F1 & F2 & R3 & Tt2).
  { eapply transpose_rows_fit. apply HR. }
  exists c, r. rewrite E2 in *. rewrite (transpose_transpose _ _ _ (proj1 HR) HC) in R3.
  destruct (CSC_sort_rep I m R HR) as (s & Es & Rs & S1 & S2 & S3 & S4 & S5).
  assert (Hp : csc_colptr r = csc_colptr m).
  { rewrite <- S3. destruct R3 as [L3 R3]. destruct Rs as [Ls Rs].
    apply (crep_resize _ _ _ _ _ _) in R3. apply (crep_resize _ _ _ _ _ _) in Rs.
    edestruct (crep_tight_eq _ _ _ _ _ _ _ _ _ _ _ R3 Rs) as (G & _); [..|exact G]; rewrite firstn_length;
      pose proof (crep_len_j _ _ _ _ _ _ R3); pose proof (crep_len_x _ _ _ _ _ _ R3);
      pose proof (crep_len_j _ _ _ _ _ _ Rs); pose proof (crep_len_x _ _ _ _ _ _ Rs);
      rewrite !firstn_length in *; lia. }
  assert (Hsort : csc_sorted r).
  { unfold csc_sorted. apply (csc_rep_cols sorted_row _ _ _ R3). apply Forall_map, Forall_forall. intros. apply sortn_sorted. }
  sp; try assumption; try congruence.
  - intros i j. rewrite (csc_rep_at _ _ _ _ _ R3), (csc_rep_at _ _ _ _ _ HR).
    change (@nil (nat * T)) with (sortn (@nil (nat * T))) at 1. rewrite map_nth, at_sortn. reflexivity.
  - intros Sm Tm. apply (csc_rep_cols sorted_row _ _ _ HR) in Sm.
    assert (ER : map sortn R = R).
    { rewrite <- (map_id R) at 2. apply map_ext_in. intros a Ha. rewrite Forall_forall in Sm. apply sortn_id, Sm, Ha. }
    rewrite ER in R3. apply (csc_tight_rep _ _ _ R3) in Tt2. apply (csc_tight_rep _ _ _ HR) in Tm.
    destruct (crep_tight_eq _ _ _ _ _ _ _ _ _ _ _ (proj2 R3) (proj2 HR)) as (G1 & G2 & G3); try tauto.
    destruct r, m; cbn in *; congruence.
Qed.

Lemma c08_coo_transpose : forall m : Coo T,
  coo_rows (Coo_t m) = coo_cols m /\ coo_cols (Coo_t m) = coo_rows m /\
  (forall i j, coo_at (Coo_t m) j i = coo_at m i j) /\ (wf_coo I m -> wf_coo I (Coo_t m)) /\
  Coo_t (Coo_t m) = m.
Proof.
  intros [r c ri ci v]. sp.
  - intros i j. unfold coo_at, coo_entries. cbn. revert ci v.
    induction ri as [|a ri IH]; intros [|b ci] v; [reflexivity..|]. destruct v as [|x v]; [reflexivity|]. cbn.
    rewrite andb_comm. destruct ((Z.to_nat a =? i) && (Z.to_nat b =? j)); cbn; rewrite IH; reflexivity.
  - intros []. constructor; assumption.
Qed.
Lemma c08_csr_transpose : forall m : CSR T, wf_csr I m ->
  exists c, CSR_t m = Ok c /\ wf_csc I c /\ csc_rows c = csr_cols m /\ csc_cols c = csr_rows m /\
    (forall i j, csc_at c j i = csr_at m i j) /\ CSC_t c = Ok m.
Proof.
  intros m H. destruct (wf_csr_rep _ _ H) as [R HR]. eexists. split; [apply (csr_t_rep _ _ _ HR)|].
  sp; try assumption.
  assert (HC : csc_rep I (mkCSC (csr_cols m) (csr_rows m) (csr_colidx m) (csr_rowptr m) (csr_values m)) R) by exact HR.
  rewrite (csc_t_rep _ _ _ HC). destruct m. reflexivity.
Qed.
Lemma c08_csc_transpose : forall m : CSC T, wf_csc I m ->
  exists c, CSC_t m = Ok c /\ wf_csr I c /\ csr_rows c = csc_cols m /\ csr_cols c = csc_rows m /\
    (forall i j, csr_at c j i = csc_at m i j) /\ CSR_t c = Ok m.
Proof.
  intros m H. destruct (wf_csc_rep _ _ H) as [R HR]. eexists. split; [apply (csc_t_rep _ _ _ HR)|].
  sp; try assumption.
  assert (HC : csr_rep I (mkCSR (csc_cols m) (csc_rows m) (csc_colptr m) (csc_rowidx m) (csc_values m)) R) by exact HR.
  rewrite (csr_t_rep _ _ _ HC). destruct m. reflexivity.
Qed.

Lemma c11_csr_has_canonical_format : forall m : CSR T,
  wf_csr I m -> (Z.of_nat (csr_count m) < imax I)%Z ->
  exists b, CSR_has_canonical_format I m = Ok b /\ (b = true <-> csr_canonical m).
Proof.
  intros m H Hf. destruct (wf_csr_rep _ _ H) as [R HR]. rewrite (csr_rep_count _ _ _ HR) in Hf.
  destruct (CSR_has_canonical_rep I m R HR Hf) as (b & E & Hb). exists b. split; [exact E|].
  unfold csr_canonical. rewrite (csr_rep_rows canonical_row _ _ _ HR). exact Hb.
Qed.
Lemma c11_csc_has_canonical_format : forall m : CSC T,
  wf_csc I m -> (Z.of_nat (csc_count m) < imax I)%Z ->
  exists b, CSC_has_canonical_format I m = Ok b /\ (b = true <-> csc_canonical m).
Proof.
  intros m H Hf. destruct (wf_csc_rep _ _ H) as [R HR]. rewrite (csc_rep_count _ _ _ HR) in Hf.
  destruct (CSC_has_canonical_rep I m R HR Hf) as (b & E & Hb). exists b. split; [exact E|].
  unfold csc_canonical. rewrite (csc_rep_cols canonical_row _ _ _ HR). exact Hb.
Qed.

Lemma c12_csr_has_sorted_indexes : forall m : CSR T, wf_csr I m ->
  (csr_rows m = 0 \/ csr_row m 0 <> [] -> exists b, CSR_has_sorted_indexes I m = Ok b /\ (b = true <-> csr_sorted m)) /\
  (0 < csr_rows m -> csr_row m 0 = [] -> CSR_has_sorted_indexes I m = Panic).
Proof.
  intros m H. split.
  - intros Hne. destruct (wf_csr_rep _ _ H) as [R HR].
    destruct (CSR_has_sorted_rep I m R HR) as (b & E & Hb).
    { rewrite (csr_rep_row _ _ _ _ HR), <- (proj1 HR) in Hne. destruct R; [exact Logic.I|]. cbn in Hne. destruct Hne; [discriminate|assumption]. }
    exists b. split; [exact E|]. unfold csr_sorted. rewrite (csr_rep_rows sorted_row _ _ _ HR). exact Hb.
  - intros Hr Hne. destruct (wf_csr_rep _ _ H) as [R [L HR]]. rewrite (csr_rep_row _ _ _ _ (conj L HR)) in Hne.
    unfold CSR_has_sorted_indexes. destruct (crep_nnz' _ _ _ _ _ _ HR) as (_ & G2 & _). rewrite G2. cbn [bind].
    destruct R as [|r R]; [cbn in L; lia|]. cbn in Hne. subst r. eapply has_sorted_panics; [exact HR|reflexivity].
Qed.
Lemma c12_csc_has_sorted_indexes : forall m : CSC T, wf_csc I m ->
  (csc_cols m = 0 \/ csc_col m 0 <> [] -> exists b, CSC_has_sorted_indexes I m = Ok b /\ (b = true <-> csc_sorted m)) /\
  (0 < csc_cols m -> csc_col m 0 = [] -> CSC_has_sorted_indexes I m = Panic).
Proof.
  intros m H. split.
  - intros Hne. destruct (wf_csc_rep _ _ H) as [R HR].
    destruct (CSC_has_sorted_rep I m R HR) as (b & E & Hb).
    { rewrite (csc_rep_col _ _ _ _ HR), <- (proj1 HR) in Hne. destruct R; [exact Logic.I|]. cbn in Hne. destruct Hne; [discriminate|assumption]. }
    exists b. split; [exact E|]. unfold csc_sorted. rewrite (csc_rep_cols sorted_row _ _ _ HR). exact Hb.
  - intros Hr Hne. destruct (wf_csc_rep _ _ H) as [R [L HR]]. rewrite (csc_rep_col _ _ _ _ (conj L HR)) in Hne.
    unfold CSC_has_sorted_indexes. destruct (crep_nnz' _ _ _ _ _ _ HR) as (_ & G2 & _). rewrite G2. cbn [bind].
    destruct R as [|r R]; [cbn in L; lia|]. cbn in Hne. subst r. eapply has_sorted_panics; [exact HR|reflexivity].
Qed.

Lemma c13_csr_sort_indexes : forall m : CSR T, wf_csr I m ->
  exists s, CSR_sort_indexes m = Ok s /\ wf_csr I s /\ csr_rows s = csr_rows m /\ csr_cols s = csr_cols m /\
    csr_rowptr s = csr_rowptr m /\ csr_sorted s /\
    (forall i, i < csr_rows m -> Permutation (csr_row s i) (csr_row m i)) /\
    (forall i j, csr_at s i j = csr_at m i j).
Proof.
  intros m H. destruct (wf_csr_rep _ _ H) as [R HR].
  destruct (CSR_sort_rep I m R HR) as (s & Es & Rs & S1 & S2 & S3 & S4 & S5). exists s.
  assert (G : forall i, csr_row s i = sortn (csr_row m i)).
  { intros i. rewrite (csr_rep_row _ _ _ _ Rs), (csr_rep_row _ _ _ _ HR).
    change (@nil (nat * T)) with (sortn (@nil (nat * T))) at 1. apply map_nth. }
  sp; try assumption.
  - eapply csr_rep_wf; exact Rs.
  - intros i _. rewrite G. apply sortn_sorted.
  - intros i _. rewrite G. apply sortn_perm.
  - intros i j. unfold csr_at. rewrite G. apply at_sortn.
Qed.
Lemma c13_csc_sort_indexes : forall m : CSC T, wf_csc I m ->
  exists s, CSC_sort_indexes m = Ok s /\ wf_csc I s /\ csc_rows s = csc_rows m /\ csc_cols s = csc_cols m /\
    csc_colptr s = csc_colptr m /\ csc_sorted s /\
    (forall j, j < csc_cols m -> Permutation (csc_col s j) (csc_col m j)) /\
    (forall i j, csc_at s i j = csc_at m i j).
Proof.
  intros m H. destruct (wf_csc_rep _ _ H) as [R HR].
  destruct (CSC_sort_rep I m R HR) as (s & Es & Rs & S1 & S2 & S3 & S4 & S5). exists s.
  assert (G : forall i, csc_col s i = sortn (csc_col m i)).
  { intros i. rewrite (csc_rep_col _ _ _ _ Rs), (csc_rep_col _ _ _ _ HR).
    change (@nil (nat * T)) with (sortn (@nil (nat * T))) at 1. apply map_nth. }
  sp; try assumption.
  - eapply csc_rep_wf; exact Rs.
  - intros i _. rewrite G. apply sortn_sorted.
  - intros i _. rewrite G. apply sortn_perm.
  - intros i j. unfold csc_at. rewrite G. apply at_sortn.
Qed.

Lemma c14_csr_sum_duplicates : forall m : CSR T,
  wf_csr I m -> (Z.of_nat (csr_count m) < imax I)%Z ->
  exists s, CSR_sum_duplicates I m = Ok s /\ wf_csr I s /\ csr_rows s = csr_rows m /\ csr_cols s = csr_cols m /\
    csr_canonical s /\ (forall i j, csr_at s i j = dup_sum (csr_at m i j)) /\
    (csr_canonical m -> s = m) /\ (csr_tight m \/ ~ csr_canonical m -> csr_tight s) /\
    CSR_sum_duplicates I s = Ok s.
Proof.
  intros m H Hf. destruct (wf_csr_rep _ _ H) as [R HR]. rewrite (csr_rep_count _ _ _ HR) in Hf.
  destruct (CSR_sum_duplicates_rep I m R HR Hf) as (s & Es & Rs & S1 & S2 & S3 & S4). exists s.
  assert (C : Forall canonical_row (map canon R)) by (apply Forall_map, Forall_forall; intros; apply canon_canonical).
  sp; try assumption.
  - eapply csr_rep_wf; exact Rs.
  - unfold csr_canonical. apply (csr_rep_rows canonical_row _ _ _ Rs). exact C.
  - intros i j. rewrite (csr_rep_at _ _ _ _ _ Rs), (csr_rep_at _ _ _ _ _ HR).
    change (@nil (nat * T)) with (canon (@nil (nat * T))) at 1. rewrite map_nth. apply at_canon.
  - intros Cm. apply S3. apply (csr_rep_rows canonical_row _ _ _ HR). exact Cm.
  - intros [Tm|Nm]; apply S4; [left; exact Tm|right; intros C'; exact (Nm (proj2 (csr_rep_rows canonical_row _ _ _ HR) C'))].
  - destruct (CSR_sum_duplicates_rep I s _ Rs) as (s2 & Es2 & _ & _ & _ & G & _).
    { pose proof (canon_nnz_le R). lia. }
    rewrite Es2, (G C). reflexivity.
Qed.
Lemma c14_csc_sum_duplicates : forall m : CSC T,
  wf_csc I m -> (Z.of_nat (csc_count m) < imax I)%Z ->
  exists s, CSC_sum_duplicates I m = Ok s /\ wf_csc I s /\ csc_rows s = csc_rows m /\ csc_cols s = csc_cols m /\
    csc_canonical s /\ (forall i j, csc_at s i j = dup_sum (csc_at m i j)) /\
    (csc_canonical m -> s = m) /\ (csc_tight m \/ ~ csc_canonical m -> csc_tight s) /\
    CSC_sum_duplicates I s = Ok s.
Proof.
  intros m H Hf. destruct (wf_csc_rep _ _ H) as [R HR]. rewrite (csc_rep_count _ _ _ HR) in Hf.
  destruct (CSC_sum_duplicates_rep I m R HR Hf) as (s & Es & Rs & S1 & S2 & S3 & S4). exists s.
  assert (C : Forall canonical_row (map canon R)) by (apply Forall_map, Forall_forall; intros; apply canon_canonical).
  sp; try assumption.
  - eapply csc_rep_wf; exact Rs.
  - unfold csc_canonical. apply (csc_rep_cols canonical_row _ _ _ Rs). exact C.
  - intros i j. rewrite (csc_rep_at _ _ _ _ _ Rs), (csc_rep_at _ _ _ _ _ HR).
    change (@nil (nat * T)) with (canon (@nil (nat * T))) at 1. rewrite map_nth. apply at_canon.
  - intros Cm. apply S3. apply (csc_rep_cols canonical_row _ _ _ HR). exact Cm.
  - intros [Tm|Nm]; apply S4; [left; exact Tm|right; intros C'; exact (Nm (proj2 (csc_rep_cols canonical_row _ _ _ HR) C'))].
  - destruct (CSC_sum_duplicates_rep I s _ Rs) as (s2 & Es2 & _ & _ & _ & G & _).
    { pose proof (canon_nnz_le R). lia. }
    rewrite Es2, (G C). reflexivity.
Qed.
End Props.
