(** Proofs of the theorems of Props_select.v, under the same names in lower case. *)
From Verif Require Import Rust Scalar Model_kernels Model_matrix Spec Wp Rep ScatterProofs CanonProofs ConvProofs
  RingProofs LinProofs Lin2Proofs StructProofs BlockProofs SelectProofs Check Main_convert.

Section Props.
Context {T : Type} {SC : Scalar T}.
Variable I : ity.

Lemma c31_csr_select_refuses : forall (m : CSR T) rs cs,
  wf_csr I m -> (Z.of_nat (csr_count m) < imax I)%Z -> (Z.of_nat (csr_rows m) <= imax I)%Z -> (Z.of_nat (csr_cols m) <= imax I)%Z ->
  (~ csr_canonical m -> CSR_select I m rs cs = Err ECanonical) /\
  (csr_canonical m -> ~ (picked_ok (csr_rows m) rs /\ picked_ok (csr_cols m) cs) -> CSR_select I m rs cs = Err ERange).
Proof.
  intros m rs cs H Hf Hr Hc. destruct (wf_csr_rep _ _ H) as [R HR]. rewrite (csr_rep_count _ _ _ HR) in Hf.
  unfold csr_canonical. rewrite (csr_rep_rows canonical_row _ _ _ HR). unfold CSR_select. destruct (CSR_has_canonical_rep I m R HR Hf) as (b & -> & Hb). cbn [bind]. split.
  - intros N. destruct b; [exfalso; apply N, Hb; reflexivity|reflexivity].
  - intros C N. rewrite (proj2 Hb C). cbn [negb]. destruct (picked_ok_dec (csr_rows m) rs) as [O1|O1].
    + rewrite (proj1 (select_ok I _ _ Hr O1)). cbn [bind]. rewrite (select_nok I _ _ Hc) by tauto. reflexivity.
    + rewrite (select_nok I _ _ Hr O1). reflexivity.
Qed.
Lemma c31_csc_select_refuses : forall (m : CSC T) rs cs,
  wf_csc I m -> (Z.of_nat (csc_count m) < imax I)%Z -> (Z.of_nat (csc_rows m) <= imax I)%Z -> (Z.of_nat (csc_cols m) <= imax I)%Z ->
  (~ csc_canonical m -> CSC_select I m rs cs = Err ECanonical) /\
  (csc_canonical m -> ~ (picked_ok (csc_rows m) rs /\ picked_ok (csc_cols m) cs) -> CSC_select I m rs cs = Err ERange).
Proof.
  intros m rs cs H Hf Hr Hc. destruct (wf_csc_rep _ _ H) as [R HR]. rewrite (csc_rep_count _ _ _ HR) in Hf.
  unfold csc_canonical. rewrite (csc_rep_cols canonical_row _ _ _ HR). unfold CSC_select. destruct (CSC_has_canonical_rep I m R HR Hf) as (b & -> & Hb). cbn [bind]. split.
  - intros N. destruct b; [exfalso; apply N, Hb; reflexivity|reflexivity].
  - intros C N. rewrite (proj2 Hb C). cbn [negb]. destruct (picked_ok_dec (csc_rows m) rs) as [O1|O1].
    + rewrite (proj1 (select_ok I _ _ Hr O1)). cbn [bind]. rewrite (select_nok I _ _ Hc) by tauto. reflexivity.
    + rewrite (select_nok I _ _ Hr O1). reflexivity.
Qed.
Lemma c31_csr_select : forall (m : CSR T) rs cs,
  wf_csr I m -> (Z.of_nat (csr_count m) < imax I)%Z -> (Z.of_nat (csr_rows m) <= imax I)%Z -> (Z.of_nat (csr_cols m) <= imax I)%Z ->
  csr_canonical m -> picked_ok (csr_rows m) rs -> picked_ok (csr_cols m) cs ->
  let rl := picked (csr_rows m) rs in let cl := picked (csr_cols m) cs in
  (Z.of_nat (length cl) <= imax I + 1)%Z ->
  (Z.of_nat (list_sum (map (fun i => list_sum (map (fun j => length (csr_at m i j)) cl)) rl)) <= imax I)%Z ->
  exists r, CSR_select I m rs cs = Ok r /\ csr_rows r = length rl /\ csr_cols r = length cl /\
    wf_csr I r /\ csr_tight r /\ csr_canonical r /\
    forall i j, i < length rl -> j < length cl -> csr_at r i j = csr_at m (nth i rl 0) (nth j cl 0).
Proof.
  intros m rs cs H Hf Hr Hc C O1 O2 rl cl Hl Hn. destruct (wf_csr_rep _ _ H) as [R HR]. rewrite (csr_rep_count _ _ _ HR) in Hf.
  unfold csr_canonical in C. rewrite (csr_rep_rows canonical_row _ _ _ HR) in C.
  assert (Hn' : (Z.of_nat (length (concat (map (fun i => sel 0 cl (nth i R [])) rl))) <= imax I)%Z).
  { rewrite select_count. erewrite map_ext; [exact Hn|]. intros i. cbn beta. f_equal. apply map_ext. intros j. rewrite (csr_rep_at _ _ _ _ _ HR). reflexivity. }
  destruct (select_ok I _ _ Hr O1) as [E1 F1]. destruct (select_ok I _ _ Hc O2) as [E2 F2].
  set (R' := map (fun i => sel 0 cl (nth i R [])) rl) in *. pose proof (select_crep I R rl cl Hl Hn') as X. cbv zeta in X. fold R' in X.
  assert (HR' : csr_rep I (mkCSR (length rl) (length cl) (ptrs R') (zfst (concat R')) (map snd (concat R'))) R') by (split; [unfold R'; apply map_length|exact X]).
  exists (mkCSR (length rl) (length cl) (ptrs R') (zfst (concat R')) (map snd (concat R'))).
  split; [|sp].
  - unfold CSR_select. destruct (CSR_has_canonical_rep I m R HR Hf) as (b & -> & Hb). cbn [bind]. rewrite (proj2 Hb C). cbn [negb].
    rewrite E1, E2. cbn [bind]. fold rl cl. rewrite (csr_select_spec I _ _ _ _ _ _ R rl cl (proj2 HR)).
    + cbn [bind]. rewrite !map_length. apply (CSR_new_rep I _ _ _ _ _ R' X). apply map_length.
    + eapply Forall_impl; [|exact C]. apply canonical_nodup.
    + destruct HR as [-> _]. exact F1.
    + exact Hl.
    + exact Hn'.
  - eapply csr_rep_wf, HR'.
  - apply (csr_tight_rep _ _ _ HR'). cbn [csr_colidx csr_values]. unfold zfst. rewrite !map_length. split; reflexivity.
  - refine (proj2 (csr_rep_rows canonical_row _ _ _ HR') _). apply Forall_map, Forall_forall. intros i Hi. apply sel_canonical, canonical_nodup.
    rewrite Forall_forall in F1, C. apply C, nth_In. destruct HR as [-> _]. apply F1, Hi.
  - intros i j Hi Hj. rewrite (csr_rep_at _ _ _ _ _ HR'), (csr_rep_at _ _ _ _ _ HR). apply select_nth; assumption.
Qed.
Lemma c31_csc_select : forall (m : CSC T) rs cs,
  wf_csc I m -> (Z.of_nat (csc_count m) < imax I)%Z -> (Z.of_nat (csc_rows m) <= imax I)%Z -> (Z.of_nat (csc_cols m) <= imax I)%Z ->
  csc_canonical m -> picked_ok (csc_rows m) rs -> picked_ok (csc_cols m) cs ->
  let rl := picked (csc_rows m) rs in let cl := picked (csc_cols m) cs in
  (Z.of_nat (length rl) <= imax I + 1)%Z ->
  (Z.of_nat (list_sum (map (fun j => list_sum (map (fun i => length (csc_at m i j)) rl)) cl)) <= imax I)%Z ->
  exists r, CSC_select I m rs cs = Ok r /\ csc_rows r = length rl /\ csc_cols r = length cl /\
    wf_csc I r /\ csc_tight r /\ csc_canonical r /\
    forall i j, i < length rl -> j < length cl -> csc_at r i j = csc_at m (nth i rl 0) (nth j cl 0).
Proof.
  intros m rs cs H Hf Hr Hc C O1 O2 rl cl Hl Hn. destruct (wf_csc_rep _ _ H) as [R HR]. rewrite (csc_rep_count _ _ _ HR) in Hf.
  unfold csc_canonical in C. rewrite (csc_rep_cols canonical_row _ _ _ HR) in C.
  assert (Hn' : (Z.of_nat (length (concat (map (fun i => sel 0 rl (nth i R [])) cl))) <= imax I)%Z).
  { rewrite select_count. erewrite map_ext; [exact Hn|]. intros i. cbn beta. f_equal. apply map_ext. intros j. rewrite (csc_rep_at _ _ _ _ _ HR). reflexivity. }
  destruct (select_ok I _ _ Hr O1) as [E1 F1]. destruct (select_ok I _ _ Hc O2) as [E2 F2].
  set (R' := map (fun i => sel 0 rl (nth i R [])) cl) in *. pose proof (select_crep I R cl rl Hl Hn') as X. cbv zeta in X. fold R' in X.
  assert (HR' : csc_rep I (mkCSC (length rl) (length cl) (zfst (concat R')) (ptrs R') (map snd (concat R'))) R') by (split; [unfold R'; apply map_length|exact X]).
  exists (mkCSC (length rl) (length cl) (zfst (concat R')) (ptrs R') (map snd (concat R'))).
  split; [|sp].
  - unfold CSC_select. destruct (CSC_has_canonical_rep I m R HR Hf) as (b & -> & Hb). cbn [bind]. rewrite (proj2 Hb C). cbn [negb].
    rewrite E1, E2. cbn [bind]. fold rl cl. rewrite (csr_select_spec I _ _ _ _ _ _ R cl rl (proj2 HR)).
    + cbn [bind]. rewrite !map_length. reflexivity.
    + eapply Forall_impl; [|exact C]. apply canonical_nodup.
    + destruct HR as [-> _]. exact F2.
    + exact Hl.
    + exact Hn'.
  - eapply csc_rep_wf, HR'.
  - apply (csc_tight_rep _ _ _ HR'). cbn [csc_rowidx csc_values]. unfold zfst. rewrite !map_length. split; reflexivity.
  - refine (proj2 (csc_rep_cols canonical_row _ _ _ HR') _). apply Forall_map, Forall_forall. intros i Hi. apply sel_canonical, canonical_nodup.
    rewrite Forall_forall in F2, C. apply C, nth_In. destruct HR as [-> _]. apply F2, Hi.
  - intros i j Hi Hj. rewrite (csc_rep_at _ _ _ _ _ HR'), (csc_rep_at _ _ _ _ _ HR). apply select_nth; assumption.
Qed.

Lemma c32_csr_get : forall (m : CSR T) i j, wf_csr I m ->
  (i < csr_rows m -> CSR_get m (Z.of_nat i) (Z.of_nat j) = Ok (hd s0 (csr_at m i j))) /\
  (csr_rows m <= i -> CSR_get m (Z.of_nat i) (Z.of_nat j) = Panic).
Proof.
  intros m i j H. destruct (wf_csr_rep _ _ H) as [R HR]. rewrite (csr_rep_at _ _ _ _ _ HR). split; intros Hi; [eapply CSR_get_rep|eapply CSR_get_out]; eassumption.
Qed.
Lemma c32_csr_get_negative : forall (m : CSR T) i j, (i < 0 \/ j < 0)%Z -> CSR_get m i j = Panic.
Proof. intros m i j H. apply CSR_get_neg, H. Qed.
Lemma c32_csr_get_dense : forall `{!ZeroAdd T} (m : CSR T), wf_csr I m -> csr_nodup m ->
  exists d, CSR_to_dense m = Ok d /\ forall i j, i < csr_rows m -> j < csr_cols m ->
    CSR_get m (Z.of_nat i) (Z.of_nat j) = Ok (nth j (nth i d []) s0).
Proof.
  intros ZA m H N. destruct (wf_csr_rep _ _ H) as [R HR]. destruct (CSR_to_dense_rep I m R HR) as (d & E & D). exists d. split; [exact E|]. intros i j Hi Hj.
  rewrite (CSR_get_rep I m R i j HR Hi), <- (csr_rep_at _ _ _ _ _ HR). f_equal.
  rewrite (proj2 (proj2 D i Hi)) by exact Hj. unfold csr_val. specialize (N i Hi). pose proof (nodup_at_le1 _ j N) as L. unfold csr_at in *. destruct (at_ j (csr_row m i)) as [|v [|w l]]; cbn in L; try lia; [reflexivity|]. cbn [hd]. symmetry. apply sum0_one.
Qed.

Lemma c39_submatrix : forall (m : CSR T) (r0 r1 a b : nat) bp bj bx,
  wf_csr I m -> r0 <= r1 <= csr_rows m -> (Z.of_nat r1 <= imax I)%Z ->
  exists p j x, get_csr_submatrix I (csr_rows m) (csr_cols m) (csr_rowptr m) (csr_colidx m) (csr_values m)
      (Z.of_nat r0) (Z.of_nat r1) (Z.of_nat a) (Z.of_nat b) bp bj bx = Ok (p, j, x) /\
    let r := mkCSR (r1 - r0) (b - a) p j x in
    wf_csr I r /\ csr_tight r /\ forall i, i < r1 - r0 -> csr_row r i = cut a b (csr_row m (r0 + i)).
Proof.
  intros m r0 r1 a b bp bj bx H Hr Hi. destruct (wf_csr_rep _ _ H) as [R HR]. destruct (HR) as [L HC]. eexists _, _, _. split; [eapply (submatrix_spec I); [exact HC|lia|exact Hi]|]. cbv zeta.
  set (R' := map (fun i => cut a b (nth (r0 + i) R [])) (seq 0 (r1 - r0))).
  assert (X : crep I (b - a) (ptrs R') (zfst (concat R')) (map snd (concat R')) R').
  { apply crep_exact.
    - apply Forall_concat, Forall_map, Forall_forall. intros i Hi'. apply in_seq in Hi'. apply Forall_forall. intros e He. unfold cut in He. apply in_map_iff in He. destruct He as (d & <- & Hd). apply filter_In in Hd. destruct Hd as [Hd Hb]. cbn [fst].
      pose proof (cr_idx _ _ _ _ _ _ HC) as F. rewrite Forall_forall in F. specialize (F d). destruct F as [_ F].
      { apply in_concat. exists (nth (r0 + i) R []). split; [apply nth_In; lia|exact Hd]. }
      apply andb_true_iff in Hb. destruct Hb as [B1 B2]. apply Nat.leb_le in B1. apply Nat.ltb_lt in B2. lia.
    - eapply Z.le_trans; [|apply (cr_fit _ _ _ _ _ _ HC)]. apply inj_le. eapply Nat.le_trans; [|apply (rows_le R r0 (r1 - r0))]. unfold R'. induction (seq 0 (r1 - r0)) as [|i l IH]; [reflexivity|]. cbn [map concat]. rewrite !app_length.
      unfold cut at 1. rewrite map_length. pose proof (filter_length_le (fun e : nat * T => (a <=? fst e) && (fst e <? b)) (nth (r0 + i) R [])). cbv zeta in IH. lia. }
  assert (HR' : csr_rep I (mkCSR (r1 - r0) (b - a) (ptrs R') (zfst (concat R')) (map snd (concat R'))) R') by (split; [unfold R'; cbn [csr_rows]; rewrite map_length, seq_length; reflexivity|exact X]).
  sp.
  - eapply csr_rep_wf, HR'.
  - apply (csr_tight_rep _ _ _ HR'). cbn [csr_colidx csr_values]. unfold zfst. rewrite !map_length. split; reflexivity.
  - intros i Hi'. rewrite (csr_rep_row _ _ _ _ HR'), (csr_rep_row _ _ _ _ HR). unfold R'. rewrite nth_map_seq by exact Hi'. reflexivity.
Qed.
Lemma c39_submatrix_rejects : forall (m : CSR T) (r0 r1 : nat) a b bp bj bx,
  wf_csr I m -> r1 < r0 \/ (r0 < r1 /\ csr_rows m < r1) ->
  get_csr_submatrix I (csr_rows m) (csr_cols m) (csr_rowptr m) (csr_colidx m) (csr_values m)
    (Z.of_nat r0) (Z.of_nat r1) a b bp bj bx = Panic.
Proof.
  intros m r0 r1 a b bp bj bx H [Hr|[H1 H2]]; [apply submatrix_reversed; lia|]. destruct (wf_csr_rep _ _ H) as [R [L HC]]. eapply submatrix_outside; [exact HC|exact H1|lia].
Qed.

Lemma c40_row_index : forall (m : CSR T) rows bj bx,
  wf_csr I m -> Forall (fun i => i < csr_rows m) rows ->
  csr_row_index (length rows) rows (csr_rowptr m) (csr_colidx m) (csr_values m) bj bx =
    Ok (bj ++ map (fun e => Z.of_nat (fst e)) (flat_map (csr_row m) rows), bx ++ map snd (flat_map (csr_row m) rows)).
Proof.
  intros m rows bj bx H F. destruct (wf_csr_rep _ _ H) as [R HR]. rewrite (row_index_spec I _ _ _ _ R rows bj bx (proj2 HR)) by (destruct HR as [-> _]; exact F).
  unfold rows_of. rewrite !(flat_map_ext _ _ (fun i => eq_sym (csr_rep_row _ _ _ i HR))). reflexivity.
Qed.
Lemma c40_row_slice : forall (m : CSR T) start stop step fuel bj bx,
  wf_csr I m -> stop <= csr_rows m -> 0 < step -> stop - start < fuel -> (Z.of_nat start <= imax Usize)%Z ->
  let rows := stepped start stop step in
  ((Z.of_nat (start + length rows * step) <= imax Usize)%Z ->
    csr_row_slice fuel start stop step (csr_rowptr m) (csr_colidx m) (csr_values m) bj bx =
      Ok (bj ++ map (fun e => Z.of_nat (fst e)) (flat_map (csr_row m) rows), bx ++ map snd (flat_map (csr_row m) rows))) /\
  ((imax Usize < Z.of_nat (start + length rows * step))%Z ->
    csr_row_slice fuel start stop step (csr_rowptr m) (csr_colidx m) (csr_values m) bj bx = Panic).
Proof.
  intros m start stop step fuel bj bx H H1 H2 H3 HU rows. destruct (wf_csr_rep _ _ H) as [R HR]. split; intros HE.
  - rewrite (row_slice_spec I _ _ _ _ R start stop step fuel bj bx (proj2 HR)); [|destruct HR as [-> _]; exact H1|exact H2|exact H3|exact HE].
    unfold rows_of. rewrite !(flat_map_ext _ _ (fun i => eq_sym (csr_rep_row _ _ _ i HR))). reflexivity.
  - apply (row_slice_over I _ _ _ _ R start stop step fuel bj bx (proj2 HR)); [destruct HR as [-> _]; exact H1|exact H2|exact H3|split; [exact HU|exact HE]].
Qed.
Lemma c40_row_slice_step0 : forall (m : CSR T) start stop fuel bj bx, wf_csr I m ->
  (start <= stop -> 0 < fuel -> csr_row_slice fuel start stop 0 (csr_rowptr m) (csr_colidx m) (csr_values m) bj bx = Ok (bj, bx)) /\
  (stop < start -> start < csr_rows m -> (Z.of_nat start <= imax Usize)%Z -> csr_row_slice fuel start stop 0 (csr_rowptr m) (csr_colidx m) (csr_values m) bj bx = NoFuel).
Proof.
  intros m start stop fuel bj bx H. destruct (wf_csr_rep _ _ H) as [R [L HC]]. split.
  - intros H1 H2. destruct fuel as [|fuel]; [lia|]. apply row_slice_zero, H1.
  - intros H1 H2 HU. eapply row_slice_loop; [exact HC|exact H1|lia|exact HU].
Qed.

Lemma c41_column_index : forall (m : CSR T) cols order bp bj bx,
  wf_csr I m -> Forall (fun c => c < csr_cols m) cols -> argsort cols order ->
  (Z.of_nat (length cols) <= imax I)%Z ->
  let n := list_sum (map (fun e => count_occ Nat.eq_dec cols (snd (fst e))) (csr_entries m)) in
  (Z.of_nat n <= imax I)%Z -> length bp = csr_rows m + 1 -> length bj = n -> length bx = n ->
  exists offsets p j x,
    csr_column_index1 I (length cols) cols (csr_rows m) (csr_cols m) (csr_rowptr m) (csr_colidx m) (repeat 0%Z (csr_cols m)) bp
      = Ok (offsets, p) /\
    csr_column_index2 (map Z.of_nat order) offsets (csr_count m) (csr_colidx m) (csr_values m) bj bx = Ok (j, x) /\
    let r := mkCSR (csr_rows m) (length cols) p j x in
    wf_csr I r /\ csr_tight r /\
    forall i k, i < csr_rows m -> k < length cols -> csr_at r i k = csr_at m i (nth k cols 0).
Proof.
  intros m cols order bp bj bx H Hc [Ho Hs] Hf n Hn Lp Lj Lx. destruct (wf_csr_rep _ _ H) as [R HR]. destruct (HR) as [L HC].
  assert (En : n = length (pick cols order (concat R))).
  { unfold n. rewrite (csr_entries_rep _ _ _ HR), map_map, (pick_length cols order Ho). unfold cnt. rewrite <- (flat_snd 0), map_map. reflexivity. }
  rewrite En in Hn, Lj, Lx. eexists _, _, _, _.
  split; [rewrite <- L; apply (column_index1_spec I cols order Ho Hs _ Hc Hf _ _ _ R bp HC); [lia|exact Hn]|].
  split; [rewrite (csr_rep_count _ _ _ HR); apply (column_index2_spec I cols order Ho Hs _ Hc _ _ _ R bj bx HC Lj Lx)|]. cbv zeta.
  assert (X : crep I (length cols) (ptrs (map (pick cols order) R)) (zfst (pick cols order (concat R))) (map snd (pick cols order (concat R))) (map (pick cols order) R)).
  { rewrite <- pick_concat in Hn |- *. apply crep_exact; [|exact Hn]. apply Forall_forall. intros e He. rewrite pick_concat in He. apply (pick_lt cols order Ho) in He. lia. }
  assert (HR' : csr_rep I (mkCSR (csr_rows m) (length cols) (ptrs (map (pick cols order) R)) (zfst (pick cols order (concat R))) (map snd (pick cols order (concat R)))) (map (pick cols order) R)) by (split; [rewrite map_length; exact L|exact X]).
  sp.
  - eapply csr_rep_wf, HR'.
  - apply (csr_tight_rep _ _ _ HR'). cbn [csr_colidx csr_values]. unfold zfst. rewrite !map_length, pick_concat. split; reflexivity.
  - intros i k Hi Hk. rewrite (csr_rep_at _ _ _ _ _ HR'), (csr_rep_at _ _ _ _ _ HR). change (@nil (nat * T)) with (pick (T := T) cols order []) at 1. rewrite map_nth. apply (pick_at cols order Ho), Hk.
Qed.

Lemma c48_count_diagonals : forall m : CSR T, wf_csr I m ->
  (Forall (fun e => fst (fst e) <= snd (fst e)) (csr_entries m) ->
   exists ds, NoDup ds /\ csr_count_diagonals (csr_rows m) (csr_rowptr m) (csr_colidx m) = Ok (length ds) /\
     forall d, In d ds <-> exists e, In e (csr_entries m) /\ snd (fst e) = fst (fst e) + d) /\
  (Exists (fun e => snd (fst e) < fst (fst e)) (csr_entries m) ->
   csr_count_diagonals (csr_rows m) (csr_rowptr m) (csr_colidx m) = Panic).
Proof.
  intros m H. destruct (wf_csr_rep _ _ H) as [R HR]. destruct (HR) as [L HC]. rewrite (csr_entries_rep _ _ _ HR), <- L. split.
  - intros F. rewrite Forall_map in F. cbn [fst snd] in F. exists (nodup Nat.eq_dec (map (fun t => fst (snd t) - fst t) (flat 0 R))). split; [apply NoDup_nodup|]. split; [apply (count_diagonals_spec I _ _ _ _ R HC F)|].
    intros d. rewrite nodup_In, in_map_iff. rewrite Forall_forall in F. split.
    + intros (t & <- & Ht). exists ((fst t, fst (snd t)), snd (snd t)). split; [apply in_map_iff; exists t; auto|]. specialize (F t Ht). cbn. lia.
    + intros (e & He & E). apply in_map_iff in He. destruct He as (t & <- & Ht). exists t. cbn in E. split; [lia|exact Ht].
  - intros X. apply Exists_exists in X. destruct X as (e & He & E). apply in_map_iff in He. destruct He as (t & <- & Ht). apply (count_diagonals_lower I _ _ _ _ R HC). apply Exists_exists. exists t. split; [exact Ht|exact E].
Qed.
Lemma c31_oversized : forall z l cs, (0 <= z)%Z ->
  (forall m : CSR T, wf_csr I m -> (Z.of_nat (csr_count m) < imax I)%Z -> csr_canonical m -> (imax I < Z.of_nat (csr_rows m))%Z -> CSR_select I m (Some (z :: l)) cs = Panic) /\
  (forall m : CSC T, wf_csc I m -> (Z.of_nat (csc_count m) < imax I)%Z -> csc_canonical m -> (imax I < Z.of_nat (csc_rows m))%Z -> CSC_select I m (Some (z :: l)) cs = Panic).
Proof.
  intros z l cs Hz. split; intros m H Hf C Hr.
  - destruct (wf_csr_rep _ _ H) as [R HR]. rewrite (csr_rep_count _ _ _ HR) in Hf. unfold csr_canonical in C. rewrite (csr_rep_rows canonical_row _ _ _ HR) in C.
    unfold CSR_select. destruct (CSR_has_canonical_rep I m R HR Hf) as (b & -> & Hb). rewrite (proj2 Hb C). cbn [bind negb select_indices for_each]. rewrite (proj2 (Z.ltb_ge z 0)), ifrom_panic by lia. reflexivity.
  - destruct (wf_csc_rep _ _ H) as [R HR]. rewrite (csc_rep_count _ _ _ HR) in Hf. unfold csc_canonical in C. rewrite (csc_rep_cols canonical_row _ _ _ HR) in C.
    unfold CSC_select. destruct (CSC_has_canonical_rep I m R HR Hf) as (b & -> & Hb). rewrite (proj2 Hb C). cbn [bind negb select_indices for_each]. rewrite (proj2 (Z.ltb_ge z 0)), ifrom_panic by lia. reflexivity.
Qed.
End Props.

Lemma c32_duplicates_refuted : exists (m : CSR Z) i j, wf_csr I32 m /\ i < csr_rows m /\
  CSR_get m (Z.of_nat i) (Z.of_nat j) <> Ok (csr_val m i j).
Proof. exists (mkCSR 1 1 [0; 2] [0; 0] [1; 2])%Z, 0, 0. split; [check|]. split; [cbn; lia|]. discriminate. Qed.
