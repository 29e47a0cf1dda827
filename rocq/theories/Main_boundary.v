(** Proofs of the theorems of Props_boundary.v, under the same names in lower case. *)
From Verif Require Import Rust Scalar Model_kernels Model_matrix Spec SpecBoundary Wp Rep ScatterProofs CanonProofs ConvProofs PadProofs MismatchProofs Main_convert Main_struct.

Section Props.
Context {T : Type} {SC : Scalar T}.
Variable I : ity.

Lemma pc_for_exit_range {St Rr} (Inv : St -> Prop) lo hi (f : nat -> St -> res (ctl St Rr)) (s : St) (Q : Rr -> Prop) : Inv s ->
  (forall i s, lo <= i < hi -> Inv s -> pc (f i s) (fun c => match c with Cont t => Inv t | Stop r => Q r end)) ->
  pc (for_range_exit lo hi f s) (fun c => match c with Cont t => Inv t | Stop r => Q r end).
Proof.
  intros H0 Hs. unfold for_range_exit. remember (hi - lo) as n eqn:En. revert lo s H0 Hs En. induction n as [|n IH]; intros lo s H0 Hs En; cbn [for_n_exit].
  - apply pc_ok, H0.
  - eapply pc_bind; [apply Hs; [lia|exact H0]|]. intros [t|r] H'; [apply IH; [exact H'| |lia]; intros i u Hi; apply Hs; lia|apply pc_ok, H'].
Qed.
Lemma stuck_panics c p j (x : list T) R n : crep I c p j x R -> length R = n -> stuck I R -> csr_has_canonical_format I n p j = Panic.
Proof.
  intros H Ln (Et & Fc & pre0 & E0). apply panic_of; [apply has_canonical_np|]. unfold csr_has_canonical_format. eapply pc_bind.
  { eapply (pc_for_exit (fun i _ => i <= length pre0) 0 n _ _ (fun _ => False)); [lia|lia| |intros s Hs; rewrite E0, app_length in Ln; cbn in Ln; lia].
    intros i [] Hi Hle. assert (Hin : i < length R) by lia. destruct (nth_split_app R i [] Hin) as (pre & post & ER & Lp). set (r := nth i R []) in *. rewrite <- Lp.
    rewrite (crep_start H ER). cbn [bind]. rewrite (crep_end H ER). cbn [bind].
    destruct (Nat.ltb_spec (length (concat pre) + length r) (length (concat pre))); [lia|].
    rewrite (crep_startz H ER). cbn [bind].
    destruct (Nat.eq_dec i (length pre0)) as [El|Ne].
    - assert (Epre : pre = pre0 /\ r :: post = [[]]).
      { rewrite ER in E0. assert (Ep : pre = pre0). { apply (f_equal (firstn (length pre))) in E0. rewrite firstn_app_exact in E0 by reflexivity. rewrite E0. apply firstn_app_exact. lia. }
        subst pre0. apply app_inv_head in E0. split; [reflexivity|exact E0]. }
      destruct Epre as [-> Er]. assert (Q : Z.of_nat (length (concat pre0)) = imax I). { rewrite ER, Er, concat_app in Et. cbn in Et. rewrite app_nil_r in Et. exact Et. }
      unfold iadd, icheck. rewrite Q. destruct (Z.leb_spec (imax I + 1) (imax I)); [lia|]. rewrite andb_false_r. cbn. intros a Q'. discriminate.
    - assert (Fr : canonical_row r) by (rewrite ER in Fc; apply Forall_app in Fc as [_ Fc]; inversion Fc; assumption).
      eapply pc_bind; [apply pc_iadd|]. intros z ->. eapply pc_bind; [apply pc_to_usize|]. intros st Est. cbn [bind].
      cbv beta in Est. assert (Q : st = length (concat pre) + 1) by lia. subst st. clear Est.
      eapply pc_mono; [eapply (pc_for_exit_range (fun _ => True) _ _ _ _ (fun _ => False)); [exact Logic.I|]|intros [u|b] Q; [lia|exact Q]].
      intros jj [] Hjj _. destruct r as [|e0 r'] eqn:Er0; [cbn in Hjj; lia|]. rewrite <- Er0 in *.
      destruct (nth_split_app r (jj - length (concat pre) - 1) e0 ltac:(lia)) as (ip & iq & Eq1 & L1). set (d := nth _ r e0) in *.
      destruct iq as [|a iq]; [apply (f_equal (@length _)) in Eq1; rewrite app_length in Eq1; cbn in Eq1; lia|].
      rewrite usub_ok by lia. cbn [bind]. replace (jj - 1) with (length (concat pre) + length ip) by lia. rewrite (crep_vj H ER Eq1). cbn [bind].
      assert (Eq2 : r = (ip ++ [d]) ++ a :: iq) by (rewrite <- app_assoc; exact Eq1).
      replace jj with (length (concat pre) + length (ip ++ [d])) by (rewrite app_length; cbn; lia). rewrite (crep_vj H ER Eq2). cbn [bind].
      assert (Lt : fst d < fst a). { unfold canonical_row in Fr. rewrite Eq1, map_app in Fr. apply ssorted_app in Fr as (_ & Fr & _). apply ssorted_head2 in Fr. exact Fr. }
      destruct (Z.ltb_spec (Z.of_nat (fst d)) (Z.of_nat (fst a))); [|lia]. apply pc_ok. exact Logic.I. }
  intros [s|b] [].
Qed.

Lemma last_empty_nth (R : list (list (nat * T))) : (exists pre, R = pre ++ [[]]) <-> 0 < length R /\ nth (length R - 1) R [] = [].
Proof.
  split.
  - intros [pre ->]. rewrite app_length. cbn [length]. split; [lia|]. rewrite app_nth2 by lia. replace (length pre + 1 - 1 - length pre) with 0 by lia. reflexivity.
  - intros [L E]. destruct (exists_last (l := R)) as (pre & r & ->); [intros ->; cbn in L; lia|]. rewrite app_length in E. cbn [length] in E.
    rewrite app_nth2 in E by lia. replace (length pre + 1 - 1 - length pre) with 0 in E by lia. cbn in E. subst r. exists pre. reflexivity.
Qed.
Lemma csr_full_rep (m : CSR T) R : csr_rep I m R -> (csr_full I m <-> stuck I R).
Proof.
  intros H. unfold csr_full, stuck, csr_canonical. rewrite (csr_rep_count _ _ _ H), (csr_rep_rows canonical_row _ _ _ H), (csr_rep_row _ _ _ _ H), last_empty_nth, <- (proj1 H). tauto.
Qed.
Lemma csc_full_rep (m : CSC T) R : csc_rep I m R -> (csc_full I m <-> stuck I R).
Proof.
  intros H. unfold csc_full, stuck, csc_canonical. rewrite (csc_rep_count _ _ _ H), (csc_rep_cols canonical_row _ _ _ H), (csc_rep_col _ _ _ _ H), last_empty_nth, <- (proj1 H). tauto.
Qed.
Lemma bucket_keyed (E : list (nat * nat * T)) i : map fst (bucket (keyed E) i) = map (fun e => snd (fst e)) (filter (fun e => fst (fst e) =? i) E).
Proof. unfold bucket, keyed. induction E as [|e E IH]; [reflexivity|]. cbn. destruct (fst (fst e) =? i); cbn; [f_equal|]; exact IH. Qed.
Lemma full_buckets n (E : list (nat * nat * T)) (k : Z) : Forall (fun e => fst (fst e) < n) E -> Z.of_nat (length E) = k -> k = imax I ->
  (stuck I (buckets n (keyed E)) <-> 0 < n /\ (forall e, In e E -> fst (fst e) <> n - 1) /\
    forall i, StronglySorted lt (map (fun e => snd (fst e)) (filter (fun e => fst (fst e) =? i) E))).
Proof.
  intros F L Ek. unfold stuck. rewrite last_empty_nth, buckets_length.
  assert (LN : length (concat (buckets n (keyed E))) = length E).
  { transitivity (length (keyed E)); [apply boff_total; unfold keyed; apply Forall_map; exact F|]. unfold keyed. apply map_length. }
  assert (Nil : 0 < n -> (nth (n - 1) (buckets n (keyed E)) [] = [] <-> forall e, In e E -> fst (fst e) <> n - 1)).
  { intros Hn. rewrite nth_buckets by lia. split.
    - intros Q e He Ee. assert (In (fst e) (map fst E)) by (apply in_map, He). apply (f_equal (map fst)) in Q. rewrite bucket_keyed in Q. cbn in Q. apply map_eq_nil in Q.
      assert (Hf : In e (filter (fun e => fst (fst e) =? n - 1) E)) by (apply filter_In; split; [exact He|apply Nat.eqb_eq, Ee]). rewrite Q in Hf. destruct Hf.
    - intros Q. apply (map_eq_nil fst). rewrite bucket_keyed. destruct (filter (fun e => fst (fst e) =? n - 1) E) as [|e l] eqn:Ef; [reflexivity|].
      assert (Hf : In e (filter (fun e => fst (fst e) =? n - 1) E)) by (rewrite Ef; left; reflexivity). apply filter_In in Hf as [He Ee]. apply Nat.eqb_eq in Ee. destruct (Q e He Ee). }
  assert (Can : Forall canonical_row (buckets n (keyed E)) <-> forall i, StronglySorted lt (map (fun e => snd (fst e)) (filter (fun e => fst (fst e) =? i) E))).
  { rewrite (nth_Forall _ _ []), buckets_length. split.
    - intros Q i. destruct (Nat.lt_ge_cases i n) as [Hi|Hi].
      + specialize (Q i Hi). rewrite nth_buckets in Q by exact Hi. unfold canonical_row in Q. rewrite bucket_keyed in Q. exact Q.
      + replace (filter (fun e => fst (fst e) =? i) E) with (@nil (nat * nat * T)); [constructor|]. symmetry. clear - F Hi. induction F as [|e E He F IH]; [reflexivity|]. cbn.
        destruct (Nat.eqb_spec (fst (fst e)) i); [lia|exact IH].
    - intros Q i Hi. rewrite nth_buckets by exact Hi. unfold canonical_row. rewrite bucket_keyed. apply Q. }
  rewrite LN, Can. split.
  - intros (_ & H2 & H3 & H4). split; [exact H3|]. split; [apply Nil; assumption|exact H2].
  - intros (H2 & H3 & H4). split; [lia|]. split; [exact H4|]. split; [exact H2|]. apply Nil; assumption.
Qed.

Lemma c11_csr_exact : forall m : CSR T, wf_csr I m ->
  (csr_full I m -> CSR_has_canonical_format I m = Panic) /\
  (~ csr_full I m -> exists b, CSR_has_canonical_format I m = Ok b /\ (b = true <-> csr_canonical m)).
Proof.
  intros m H. destruct (wf_csr_rep _ _ H) as [R HR]. rewrite (csr_full_rep m R HR). split; intros Hs.
  - destruct HR as [L HR]. unfold CSR_has_canonical_format. destruct (crep_nnz' _ _ _ _ _ _ HR) as (_ & G2 & _). rewrite G2. cbn [bind]. eapply stuck_panics; eauto.
  - destruct (CSR_has_canonical_exact I m R HR Hs) as (b & E & Hb). exists b. split; [exact E|].
    unfold csr_canonical. rewrite (csr_rep_rows canonical_row _ _ _ HR). exact Hb.
Qed.
Lemma c14_csr_exact : forall m : CSR T, wf_csr I m ->
  (csr_full I m -> CSR_sum_duplicates I m = Panic) /\
  (~ csr_full I m -> exists s, CSR_sum_duplicates I m = Ok s /\ wf_csr I s /\ csr_rows s = csr_rows m /\ csr_cols s = csr_cols m /\
    csr_canonical s /\ (forall i j, csr_at s i j = dup_sum (csr_at m i j)) /\
    (csr_canonical m -> s = m) /\ (csr_tight m \/ ~ csr_canonical m -> csr_tight s)).
Proof.
  intros m H. split.
  { intros Hs. unfold CSR_sum_duplicates. rewrite (proj1 (c11_csr_exact m H) Hs). reflexivity. }
  intros Hs. destruct (wf_csr_rep _ _ H) as [R HR]. rewrite (csr_full_rep m R HR) in Hs.
  destruct (CSR_sum_duplicates_exact I m R HR Hs) as (s & Es & Rs & S1 & S2 & S3 & S4). exists s.
  assert (C : Forall canonical_row (map canon R)) by (apply Forall_map, Forall_forall; intros; apply canon_canonical).
  sp; try assumption.
  - eapply csr_rep_wf; exact Rs.
  - unfold csr_canonical. apply (csr_rep_rows canonical_row _ _ _ Rs). exact C.
  - intros i j. rewrite (csr_rep_at _ _ _ _ _ Rs), (csr_rep_at _ _ _ _ _ HR).
    change (@nil (nat * T)) with (canon (@nil (nat * T))) at 1. rewrite map_nth. apply at_canon.
  - intros Cm. apply S3. apply (csr_rep_rows canonical_row _ _ _ HR). exact Cm.
  - intros [Tm|Nm]; apply S4; [left; exact Tm|right; intros C'; exact (Nm (proj2 (csr_rep_rows canonical_row _ _ _ HR) C'))].
Qed.
Lemma c11_csc_exact : forall m : CSC T, wf_csc I m ->
  (csc_full I m -> CSC_has_canonical_format I m = Panic) /\
  (~ csc_full I m -> exists b, CSC_has_canonical_format I m = Ok b /\ (b = true <-> csc_canonical m)).
Proof.
  intros m H. destruct (wf_csc_rep _ _ H) as [R HR]. rewrite (csc_full_rep m R HR). split; intros Hs.
  - destruct HR as [L HR]. unfold CSC_has_canonical_format. destruct (crep_nnz' _ _ _ _ _ _ HR) as (_ & G2 & _). rewrite G2. cbn [bind]. eapply stuck_panics; eauto.
  - destruct (CSC_has_canonical_exact I m R HR Hs) as (b & E & Hb). exists b. split; [exact E|].
    unfold csc_canonical. rewrite (csc_rep_cols canonical_row _ _ _ HR). exact Hb.
Qed.
Lemma c14_csc_exact : forall m : CSC T, wf_csc I m ->
  (csc_full I m -> CSC_sum_duplicates I m = Panic) /\
  (~ csc_full I m -> exists s, CSC_sum_duplicates I m = Ok s /\ wf_csc I s /\ csc_rows s = csc_rows m /\ csc_cols s = csc_cols m /\
    csc_canonical s /\ (forall i j, csc_at s i j = dup_sum (csc_at m i j)) /\
    (csc_canonical m -> s = m) /\ (csc_tight m \/ ~ csc_canonical m -> csc_tight s)).
Proof.
  intros m H. split.
  { intros Hs. unfold CSC_sum_duplicates. rewrite (proj1 (c11_csc_exact m H) Hs). reflexivity. }
  intros Hs. destruct (wf_csc_rep _ _ H) as [R HR]. rewrite (csc_full_rep m R HR) in Hs.
  destruct (CSC_sum_duplicates_exact I m R HR Hs) as (s & Es & Rs & S1 & S2 & S3 & S4). exists s.
  assert (C : Forall canonical_row (map canon R)) by (apply Forall_map, Forall_forall; intros; apply canon_canonical).
  sp; try assumption.
  - eapply csc_rep_wf; exact Rs.
  - unfold csc_canonical. apply (csc_rep_cols canonical_row _ _ _ Rs). exact C.
  - intros i j. rewrite (csc_rep_at _ _ _ _ _ Rs), (csc_rep_at _ _ _ _ _ HR).
    change (@nil (nat * T)) with (canon (@nil (nat * T))) at 1. rewrite map_nth. apply at_canon.
  - intros Cm. apply S3. apply (csc_rep_cols canonical_row _ _ _ HR). exact Cm.
  - intros [Tm|Nm]; apply S4; [left; exact Tm|right; intros C'; exact (Nm (proj2 (csc_rep_cols canonical_row _ _ _ HR) C'))].
Qed.

Lemma coo_full_rows_stuck (m : Coo T) : wf_coo I m -> Z.of_nat (length (coo_values m)) = imax I ->
  (stuck I (buckets (coo_rows m) (keyed (coo_entries m))) <-> coo_full_rows I m).
Proof.
  intros H E. destruct (wf_coo_arrays I m H) as (_ & _ & _ & E4 & E5).
  rewrite (full_buckets _ _ (Z.of_nat (length (coo_values m)))); [unfold coo_full_rows; tauto| |rewrite E4; reflexivity|exact E].
  eapply Forall_impl; [|exact E5]. cbn. tauto.
Qed.
Lemma filter_swap (E : list (nat * nat * T)) i : map (fun e => snd (fst e)) (filter (fun e => fst (fst e) =? i) (map swap_entry E)) =
  map (fun e => fst (fst e)) (filter (fun e => snd (fst e) =? i) E).
Proof. induction E as [|e E IH]; [reflexivity|]. cbn. destruct (snd (fst e) =? i); cbn; [f_equal|]; exact IH. Qed.
Lemma coo_full_cols_stuck (m : Coo T) : wf_coo I m -> Z.of_nat (length (coo_values m)) = imax I ->
  (stuck I (buckets (coo_cols m) (keyed (map swap_entry (coo_entries m)))) <-> coo_full_cols I m).
Proof.
  intros H E. destruct (wf_coo_arrays I m H) as (_ & _ & _ & E4 & E5).
  rewrite (full_buckets _ _ (Z.of_nat (length (coo_values m)))).
  - unfold coo_full_cols. split.
    + intros (H1 & H2 & H3). split; [exact E|]. split; [exact H1|]. split.
      * intros e He. apply (H2 (swap_entry e)), in_map, He.
      * intros j. rewrite <- filter_swap. apply H3.
    + intros (_ & H1 & H2 & H3). split; [exact H1|]. split.
      * intros e He. apply in_map_iff in He as (e' & <- & He). apply (H2 e' He).
      * intros i. rewrite filter_swap. apply H3.
  - apply Forall_map. eapply Forall_impl; [|exact E5]. cbn. tauto.
  - rewrite map_length, E4. reflexivity.
  - exact E.
Qed.

Lemma c51_to_csr_exact : forall m : Coo T, wf_coo I m ->
  ((imax I < Z.of_nat (length (coo_values m)))%Z \/ coo_full_rows I m -> Coo_to_csr I m = Panic) /\
  (~ ((imax I < Z.of_nat (length (coo_values m)))%Z \/ coo_full_rows I m) ->
   exists r, Coo_to_csr I m = Ok r /\ wf_csr I r /\ csr_tight r /\ csr_rows r = coo_rows m /\ csr_cols r = coo_cols m /\ csr_canonical r /\
    forall i j, i < coo_rows m -> csr_at r i j = dup_sum (coo_at m i j)).
Proof.
  intros m H. split.
  - intros [Q|Q]; [apply (c51_coo_overflow I m Q)|]. assert (El := proj1 Q). apply (coo_full_rows_stuck m H El) in Q.
    destruct (wf_coo_arrays I m H) as (E1 & E2 & E3 & E4 & E5). set (E := coo_entries m) in *. unfold Coo_to_csr.
    assert (LE : length (keyed E) = Coo_nnz m) by (unfold keyed; rewrite map_length; exact E4). rewrite <- LE.
    match goal with |- bind ?k _ = _ => assert (W : wp k (fun '(p', j', x') => crep I (coo_cols m) p' j' x' (buckets (coo_rows m) (keyed E)) /\ length j' = length (keyed E) /\ length x' = length (keyed E))) end.
    { eapply wp_mono; [eapply (coo_tocsr_spec I (coo_rows m) (coo_cols m) _ _ _ (keyed E))|].
      - unfold coo_arrays, keyed. rewrite !map_map. auto.
      - unfold keyed. apply Forall_map. eapply Forall_impl; [|exact E5]. cbn. tauto.
      - unfold keyed. apply Forall_map. eapply Forall_impl; [|exact E5]. cbn. tauto.
      - rewrite LE. unfold Coo_nnz. lia.
      - rewrite repeat_length. lia.
      - apply repeat_length.
      - apply repeat_length.
      - intros [[p j] x] G. exact G. }
    destruct W as ([[p j] x] & -> & G & Lj & Lx). cbn [bind].
    assert (LB : length (buckets (coo_rows m) (keyed E)) = coo_rows m) by apply buckets_length.
    rewrite (CSR_new_rep _ _ _ _ _ _ _ G LB). cbn [unwrap bind].
    assert (Ha : csr_rep I (mkCSR (coo_rows m) (coo_cols m) p j x) (buckets (coo_rows m) (keyed E))) by (split; assumption).
    rewrite (proj1 (c14_csr_exact _ (csr_rep_wf _ _ _ Ha))); [reflexivity|]. apply (csr_full_rep _ _ Ha), Q.
  - intros N. destruct (Coo_to_csr_exact I m H) as (r & E & E1 & E2 & R & Tt); [lia| |].
    { intros Q. assert (El : Z.of_nat (length (coo_values m)) = imax I).
      { destruct (Z.eq_dec (Z.of_nat (length (coo_values m))) (imax I)) as [El|Ne]; [exact El|]. exfalso. destruct Q as [Q _]. destruct (wf_coo_arrays I m H) as (_ & _ & _ & E4 & E5).
        apply Ne. rewrite <- Q, <- E4. f_equal. transitivity (length (keyed (coo_entries m))); [unfold keyed; rewrite map_length; reflexivity|].
        symmetry. apply boff_total. unfold keyed. apply Forall_map. eapply Forall_impl; [|exact E5]. cbn. tauto. }
      apply N. right. apply (coo_full_rows_stuck m H El), Q. }
    exists r. sp; try assumption; [eapply csr_rep_wf; exact R| |].
    + unfold csr_canonical. apply (csr_rep_rows canonical_row _ _ _ R). apply Forall_map. apply Forall_forall. intros. apply canon_canonical.
    + intros i j Hi. rewrite (csr_rep_at _ _ _ _ _ R). change (@nil (nat * T)) with (canon (@nil (nat * T))). rewrite map_nth, at_canon.
      rewrite nth_buckets by exact Hi. rewrite coo_at_bucket. reflexivity.
Qed.
Lemma c51_to_csc_exact : forall m : Coo T, wf_coo I m ->
  ((imax I < Z.of_nat (length (coo_values m)))%Z \/ coo_full_cols I m -> Coo_to_csc I m = Panic) /\
  (~ ((imax I < Z.of_nat (length (coo_values m)))%Z \/ coo_full_cols I m) ->
   exists r, Coo_to_csc I m = Ok r /\ wf_csc I r /\ csc_tight r /\ csc_rows r = coo_rows m /\ csc_cols r = coo_cols m /\ csc_canonical r /\
    forall i j, j < coo_cols m -> csc_at r i j = dup_sum (coo_at m i j)).
Proof.
  intros m H. split.
  - intros [Q|Q]; [apply (c51_coo_overflow I m Q)|]. assert (El := proj1 Q). apply (coo_full_cols_stuck m H El) in Q.
    destruct (wf_coo_arrays I m H) as (E1 & E2 & E3 & E4 & E5). set (E := map swap_entry (coo_entries m)) in *. unfold Coo_to_csc.
    assert (LE : length (keyed E) = Coo_nnz m) by (unfold keyed, E; rewrite !map_length; exact E4). rewrite <- LE.
    assert (F1 : Forall (fun e => fst e < coo_cols m) (keyed E)). { unfold keyed, E. rewrite map_map. apply Forall_map. eapply Forall_impl; [|exact E5]. cbn. tauto. }
    match goal with |- bind ?k _ = _ => assert (W : wp k (fun '(p', j', x') => crep I (coo_rows m) p' j' x' (buckets (coo_cols m) (keyed E)) /\ length j' = length (keyed E) /\ length x' = length (keyed E))) end.
    { eapply wp_mono; [eapply (coo_tocsr_spec I (coo_cols m) (coo_rows m) _ _ _ (keyed E))|].
      - unfold coo_arrays, keyed, E. rewrite !map_map. auto.
      - exact F1.
      - unfold keyed, E. rewrite map_map. apply Forall_map. eapply Forall_impl; [|exact E5]. cbn. tauto.
      - rewrite LE. unfold Coo_nnz. lia.
      - rewrite repeat_length. lia.
      - apply repeat_length.
      - apply repeat_length.
      - intros [[p j] x] G. exact G. }
    destruct W as ([[p j] x] & -> & G & Lj & Lx). cbn [bind].
    assert (LB : length (buckets (coo_cols m) (keyed E)) = coo_cols m) by apply buckets_length.
    rewrite (CSC_new_rep _ _ _ _ _ _ _ G LB). cbn [unwrap bind].
    assert (Ha : csc_rep I (mkCSC (coo_rows m) (coo_cols m) j p x) (buckets (coo_cols m) (keyed E))) by (split; assumption).
    rewrite (proj1 (c14_csc_exact _ (csc_rep_wf _ _ _ Ha))); [reflexivity|]. apply (csc_full_rep _ _ Ha), Q.
  - intros N. destruct (Coo_to_csc_exact I m H) as (r & E & E1 & E2 & R & Tt); [lia| |].
    { intros Q. assert (El : Z.of_nat (length (coo_values m)) = imax I).
      { destruct (Z.eq_dec (Z.of_nat (length (coo_values m))) (imax I)) as [El|Ne]; [exact El|]. exfalso. destruct Q as [Q _]. destruct (wf_coo_arrays I m H) as (_ & _ & _ & E4 & E5).
        apply Ne. rewrite <- Q, <- E4. f_equal. transitivity (length (keyed (map swap_entry (coo_entries m)))); [unfold keyed; rewrite !map_length; reflexivity|].
        symmetry. apply boff_total. unfold keyed. rewrite map_map. apply Forall_map. eapply Forall_impl; [|exact E5]. cbn. tauto. }
      apply N. right. apply (coo_full_cols_stuck m H El), Q. }
    exists r. sp; try assumption; [eapply csc_rep_wf; exact R| |].
    + unfold csc_canonical. apply (csc_rep_cols canonical_row _ _ _ R). apply Forall_map. apply Forall_forall. intros. apply canon_canonical.
    + intros i j Hi. rewrite (csc_rep_at _ _ _ _ _ R). change (@nil (nat * T)) with (canon (@nil (nat * T))). rewrite map_nth, at_canon.
      rewrite nth_buckets by exact Hi. rewrite coo_at_bucket_col. reflexivity.
Qed.
End Props.
