(** Proofs of the theorems C81 of Props_frame.v, under the same names in lower case. *)
From Verif Require Import Rust Scalar Model_kernels Model_matrix Spec Wp Rep ScatterProofs ConvProofs LinProofs DokProofs.

Section Props.
Context {T : Type} {SC : Scalar T}.
Variable I : ity.
Lemma c81_csr_matvec : forall (m : CSR T) (x y : list T), wf_csr I m -> length x = csr_cols m -> length y = csr_rows m ->
  exists y', csr_matvec (csr_rows m) (csr_cols m) (csr_rowptr m) (csr_colidx m) (csr_values m) x y = Ok y' /\ length y' = csr_rows m /\
    forall i, i < csr_rows m -> nth i y' s0 = fold_left sadd (map (fun e => smul (snd e) (nth (fst e) x s0)) (csr_row m i)) (nth i y s0).
Proof.
  intros m x y W Lx Ly. destruct (wf_csr_rep _ _ W) as [R HR]. destruct HR as [L HC].
  destruct (matvec_spec I (csr_cols m) (csr_rows m) _ _ _ R x y (fun i => nth i y s0) HC L Lx) as (y' & E & L' & H); [split; [exact Ly|reflexivity]|].
  exists y'. split; [exact E|]. split; [exact L'|]. intros i Hi. rewrite (H i Hi). rewrite (csr_rep_row I m R i (conj L HC)). reflexivity.
Qed.
Lemma c81_csc_matvec : forall (m : CSC T) (x y : list T), wf_csc I m -> length x = csc_cols m -> length y = csc_rows m ->
  exists y', csc_matvec (csc_rows m) (csc_cols m) (csc_colptr m) (csc_rowidx m) (csc_values m) x y = Ok y' /\ length y' = csc_rows m /\
    forall i, i < csc_rows m -> nth i y' s0 = fold_left sadd (flat_map (fun j => map (fun v => smul v (nth j x s0)) (csc_at m i j)) (seq 0 (csc_cols m))) (nth i y s0).
Proof.
  intros m x y W Lx Ly. destruct (wf_csc_rep _ _ W) as [R HR]. destruct HR as [L HC].
  destruct (csc_matvec_spec I (csc_rows m) (csc_cols m) _ _ _ R x y (fun i => nth i y s0) HC L Lx) as (y' & E & L' & H); [split; [exact Ly|reflexivity]|].
  exists y'. split; [exact E|]. split; [exact L'|]. intros i Hi. rewrite (H i Hi), cprods_flat, L. f_equal. apply flat_map_ext. intros k. rewrite Nat.sub_0_r, (csc_rep_at I m R _ _ (conj L HC)). reflexivity.
Qed.
Lemma c81_csr_todense : forall (m : CSR T) d f, wf_csr I m -> is_table d (csr_rows m) (csr_cols m) f ->
  exists d', csr_todense (csr_rows m) (csr_cols m) (csr_rowptr m) (csr_colidx m) (csr_values m) d = Ok d' /\
    is_table d' (csr_rows m) (csr_cols m) (fun i k => fold_left sadd (csr_at m i k) (f i k)).
Proof.
  intros m d f W Hd. destruct (wf_csr_rep _ _ W) as [R HR]. destruct HR as [L HC].
  destruct (todense_spec I (csr_cols m) (csr_rows m) _ _ _ R d f HC L Hd) as (d' & E & H). exists d'. split; [exact E|]. destruct H as [H1 H2]. split; [exact H1|]. intros i Hi. destruct (H2 i Hi) as [H3 H4]. split; [exact H3|]. intros k Hk. rewrite (H4 k Hk), (csr_rep_at I m R _ _ (conj L HC)). reflexivity.
Qed.
Lemma c81_csr_tocoo : forall (m : CSR T) bi bj bx, wf_csr I m -> csr_rows_fit I m -> length bi = csr_count m -> length bj = csr_count m -> length bx = csr_count m ->
  csr_tocoo I (csr_rows m) (csr_cols m) (csr_rowptr m) (csr_colidx m) (csr_values m) bi bj bx =
    Ok (map (fun e => Z.of_nat (fst (fst e))) (csr_entries m), map (fun e => Z.of_nat (snd (fst e))) (csr_entries m), map snd (csr_entries m)).
Proof.
  intros m bi bj bx W F L1 L2 L3. destruct (wf_csr_rep _ _ W) as [R HR]. pose proof HR as [L HC]. rewrite (csr_rep_count _ _ _ HR) in *.
  rewrite (tocoo_spec I (csr_cols m) (csr_rows m) _ _ _ R bi bj bx HC L); try assumption; [|apply (csr_rows_fit_rep I m R HR), F]. rewrite (csr_entries_rep _ _ _ HR), !map_map. reflexivity.
Qed.
Lemma c81_expandptr : forall (m : CSR T) b, wf_csr I m -> csr_rows_fit I m -> length b = csr_count m ->
  expandptr I (csr_rows m) (csr_rowptr m) b = Ok (map (fun e => Z.of_nat (fst (fst e))) (csr_entries m)).
Proof.
  intros m b W F L1. destruct (wf_csr_rep _ _ W) as [R HR]. pose proof HR as [L HC]. rewrite (csr_rep_count _ _ _ HR) in *.
  rewrite (expandptr_spec I (csr_cols m) (csr_rows m) _ _ _ R b HC L); [|apply (csr_rows_fit_rep I m R HR), F|lia]. rewrite over_all by (rewrite map_length, flat_length; lia). rewrite (csr_entries_rep _ _ _ HR), !map_map. reflexivity.
Qed.
Lemma c81_csr_tocsc : forall (m : CSR T) bp bi bx, wf_csr I m -> csr_rows_fit I m -> length bp = csr_cols m + 1 -> length bi = csr_count m -> length bx = csr_count m ->
  exists c, CSR_to_csc I m = Ok c /\
    csr_tocsc I (csr_rows m) (csr_cols m) (csr_rowptr m) (csr_colidx m) (csr_values m) bp bi bx = Ok (csc_colptr c, csc_rowidx c, csc_values c).
Proof.
  intros m bp bi bx W F L1 L2 L3. destruct (wf_csr_rep _ _ W) as [R HR]. pose proof HR as [L HC]. rewrite (csr_rep_count _ _ _ HR) in *.
  assert (Fr : rows_fit I R) by (apply (csr_rows_fit_rep I m R HR), F). destruct (CSR_to_csc_rep I m R HR Fr) as (c & E & _ & E2 & RC & Tc). exists c. split; [exact E|].
  destruct (csr_tocsc_spec I (csr_rows m) (csr_cols m) _ _ _ R bp bi bx HC L Fr) as ([[p i] x] & E3 & HC2 & G1 & G2); try assumption; [lia|]. rewrite E3.
  assert (LN : length (concat (transpose_rows (csr_cols m) R)) = length (concat R)) by (apply transpose_nnz; eapply crep_cols_lt; exact HC).
  apply (csc_tight_rep _ _ _ RC) in Tc. destruct (crep_tight_eq _ _ _ _ _ _ _ _ _ _ _ HC2 (proj2 RC)) as (Q1 & Q2 & Q3); try tauto; try (rewrite LN; assumption). congruence.
Qed.
Lemma c81_csc_tocsr : forall (m : CSC T) bp bj bx, wf_csc I m -> csc_cols_fit I m -> length bp = csc_rows m + 1 -> length bj = csc_count m -> length bx = csc_count m ->
  exists r, CSC_to_csr I m = Ok r /\
    csc_tocsr I (csc_rows m) (csc_cols m) (csc_colptr m) (csc_rowidx m) (csc_values m) bp bj bx = Ok (csr_rowptr r, csr_colidx r, csr_values r).
Proof.
  intros m bp bi bx W F L1 L2 L3. destruct (wf_csc_rep _ _ W) as [R HR]. pose proof HR as [L HC]. rewrite (csc_rep_count _ _ _ HR) in *.
  assert (Fr : rows_fit I R) by (apply (csc_cols_fit_rep I m R HR), F). destruct (CSC_to_csr_rep I m R HR Fr) as (c & E & _ & E2 & RC & Tc). exists c. split; [exact E|]. unfold csc_tocsr.
  destruct (csr_tocsc_spec I (csc_cols m) (csc_rows m) _ _ _ R bp bi bx HC L Fr) as ([[p i] x] & E3 & HC2 & G1 & G2); try assumption; [lia|]. rewrite E3.
  assert (LN : length (concat (transpose_rows (csc_rows m) R)) = length (concat R)) by (apply transpose_nnz; eapply crep_cols_lt; exact HC).
  apply (csr_tight_rep _ _ _ RC) in Tc. destruct (crep_tight_eq _ _ _ _ _ _ _ _ _ _ _ HC2 (proj2 RC)) as (Q1 & Q2 & Q3); try tauto; try (rewrite LN; assumption). congruence.
Qed.
Lemma c81_coo_tocsr : forall (m : Coo T) bp bj bx, wf_coo I m -> (Z.of_nat (length (coo_values m)) <= imax I)%Z ->
  length bp = coo_rows m + 1 -> length bj = length (coo_values m) -> length bx = length (coo_values m) ->
  exists p j x, coo_tocsr I (coo_rows m) (coo_cols m) (length (coo_values m)) (coo_rowidx m) (coo_colidx m) (coo_values m) bp bj bx = Ok (p, j, x) /\
    let r := mkCSR (coo_rows m) (coo_cols m) p j x in wf_csr I r /\ csr_tight r /\
    forall i, i < coo_rows m -> csr_row r i = map (fun e => (snd (fst e), snd e)) (filter (fun e => fst (fst e) =? i) (coo_entries m)).
Proof.
  intros m bp bj bx H Hf L1 L2 L3. destruct (wf_coo_arrays I m H) as (E1 & E2 & E3 & E4 & E5). set (E := coo_entries m) in *.
  assert (LE : length (keyed E) = Coo_nnz m) by (unfold keyed; rewrite map_length; exact E4).
  assert (K1 : Forall (fun e => fst e < coo_rows m) (keyed E)) by (unfold keyed; apply Forall_map; eapply Forall_impl; [|exact E5]; cbn; tauto).
  destruct (coo_tocsr_spec I (coo_rows m) (coo_cols m) (coo_rowidx m) (coo_colidx m) (coo_values m) (keyed E) bp bj bx) as ([[p j] x] & Ex & G & Lj & Lx).
  - unfold coo_arrays, keyed. rewrite !map_map. auto.
  - exact K1.
  - unfold keyed. apply Forall_map. eapply Forall_impl; [|exact E5]. cbn. tauto.
  - rewrite LE. exact Hf.
  - lia.
  - rewrite LE. exact L2.
  - rewrite LE. exact L3.
  - assert (LB : length (buckets (coo_rows m) (keyed E)) = coo_rows m) by apply buckets_length.
    exists p, j, x. unfold Coo_nnz in LE. rewrite LE in Ex. split; [exact Ex|]. set (r := mkCSR _ _ p j x). assert (Rr : csr_rep I r (buckets (coo_rows m) (keyed E))) by (split; assumption).
    cbv zeta. split; [apply (csr_rep_wf _ _ _ Rr)|]. split.
    + apply (csr_tight_rep _ _ _ Rr). cbn. assert (LN : length (concat (buckets (coo_rows m) (keyed E))) = length (keyed E)) by (apply boff_total; exact K1). rewrite LN. auto.
    + intros i Hi. rewrite (csr_rep_row _ _ _ _ Rr), nth_buckets by exact Hi. unfold bucket, keyed. clear. induction E as [|e E IH]; [reflexivity|]. cbn. destruct (fst (fst e) =? i); cbn; rewrite IH; reflexivity.
Qed.
End Props.
