(** Proofs of the theorems of Props_struct.v, under the same names in lower case. *)
From Verif Require Import Rust Scalar Model_kernels Model_matrix Spec Wp Rep ScatterProofs CanonProofs ConvProofs
  RingProofs LinProofs Lin2Proofs StructProofs BlockProofs TableProofs Check Main_convert Main_linear.

Section Props.
Context {T : Type} {SC : Scalar T}.
Variable I : ity.

Lemma c10_csr_from_dense : forall (a : list (list T)) c, a <> [] -> rectangular c a ->
  nz_cols_fit I c a -> (Z.of_nat (nz_count a) <= imax I)%Z ->
  exists r, CSR_from_dense I a = Ok r /\ wf_csr I r /\ csr_tight r /\
    csr_rows r = length a /\ csr_cols r = c /\ csr_canonical r /\ csr_count r = nz_count a /\
    forall i j, i < length a -> j < c -> csr_at r i j = nz (tcell a i j).
Proof. intros a c. apply CSR_from_dense_spec. Qed.
Lemma c10_csc_from_dense : forall (a : list (list T)) c, a <> [] -> rectangular c a ->
  nz_rows_fit I c a -> (Z.of_nat (nz_count a) <= imax I)%Z ->
  exists r, CSC_from_dense I a = Ok r /\ wf_csc I r /\ csc_tight r /\
    csc_rows r = length a /\ csc_cols r = c /\ csc_canonical r /\ csc_count r = nz_count a /\
    forall i j, i < length a -> j < c -> csc_at r i j = nz (tcell a i j).
Proof. intros a c. apply CSC_from_dense_spec. Qed.
Lemma c10_coo_from_dense : forall (a : list (list T)) c, a <> [] -> rectangular c a ->
  nz_rows_fit I c a -> nz_cols_fit I c a ->
  exists r, Coo_from_dense I a = Ok r /\ wf_coo I r /\ coo_rows r = length a /\ coo_cols r = c /\
    coo_entries r = table_entries (length a) c a /\
    forall i j, i < length a -> j < c -> coo_at r i j = nz (tcell a i j).
Proof. intros a c. apply Coo_from_dense_spec. Qed.
Lemma c10_round_trip : forall (HZ : ZeroAddNZ T) (a : list (list T)) c, a <> [] -> rectangular c a ->
  let back d := is_table d (length a) c (fun i j => if seqb (tcell a i j) s0 then s0 else tcell a i j) in
  (nz_cols_fit I c a -> (Z.of_nat (nz_count a) <= imax I)%Z ->
     exists r d, CSR_from_dense I a = Ok r /\ CSR_to_dense r = Ok d /\ back d) /\
  (nz_rows_fit I c a -> (Z.of_nat (nz_count a) <= imax I)%Z -> (Z.of_nat c <= imax I + 1)%Z ->
     exists r d, CSC_from_dense I a = Ok r /\ CSC_to_dense I r = Ok d /\ back d) /\
  (nz_rows_fit I c a -> nz_cols_fit I c a ->
     exists r d, Coo_from_dense I a = Ok r /\ Coo_to_dense r = Ok d /\ back d).
Proof.
  intros HZ a c N H back.
  assert (G : forall v, sum0 (nz v) = if seqb v s0 then s0 else v).
  { intros v. unfold nz, sum0. destruct (seqb v s0) eqn:E; cbn; [reflexivity|]. apply zero_add_nz, E. }
  split; [|split].
  - intros F Hf. destruct (c10_csr_from_dense a c N H F Hf) as (r & E & W & _ & E1 & E2 & _ & _ & A). destruct (c09_csr_to_dense I r W) as (d & Ed & D).
    exists r, d. split; [exact E|]. split; [exact Ed|]. rewrite E1, E2 in D. eapply is_table_ext; [exact D|]. intros i j Hi Hj. unfold csr_val. rewrite A by assumption. apply G.
  - intros F Hf Hc. destruct (c10_csc_from_dense a c N H F Hf) as (r & E & W & _ & E1 & E2 & _ & _ & A).
    destruct (c09_csc_to_dense I r W) as (d & Ed & D). { intros j Hj _. lia. }
    exists r, d. split; [exact E|]. split; [exact Ed|]. rewrite E1, E2 in D. eapply is_table_ext; [exact D|]. intros i j Hi Hj. unfold csc_val. rewrite A by assumption. apply G.
  - intros F1 F2. destruct (c10_coo_from_dense a c N H F1 F2) as (r & E & W & E1 & E2 & _ & A). destruct (c09_coo_to_dense I r W) as (d & Ed & D).
    exists r, d. split; [exact E|]. split; [exact Ed|]. rewrite E1, E2 in D. eapply is_table_ext; [exact D|]. intros i j Hi Hj. unfold coo_val. rewrite A by assumption. apply G.
Qed.

Lemma c22_csc_scale_refuted : forall (m : CSC T) (s : T),
  wf_csc I m -> length (csc_rowidx m) <> csc_cols m + 1 ->
  CSC_mul_scalar m s = Panic /\ CSC_scalar_mul s m = Panic.
Proof.
  intros m s _ H. unfold CSC_mul_scalar, CSC_scalar_mul. rewrite !CSC_new_csr, !CSR_new_bad by exact H. unfold bad_length.
  destruct (Z.eqb _ _); split; reflexivity.
Qed.

Lemma last_nth_ (l : list Z) d : last l d = nth (length l - 1) l d.
Proof. induction l as [|x [|y l] IH]; [reflexivity..|]. cbn [last length] in *. rewrite IH. cbn. destruct l; reflexivity. Qed.
Lemma c22_csc_scale_exchanged : forall (m : CSC T) (s : T),
  wf_csc I m -> length (csc_rowidx m) = csc_cols m + 1 -> length (csc_values m) = csc_cols m + 1 ->
  (0 <= last (csc_rowidx m) 0 <= Z.of_nat (csc_cols m + 1))%Z ->
  exists r l, CSC_mul_scalar m s = Ok r /\ CSC_scalar_mul s m = Ok l /\
    csc_rows r = csc_rows m /\ csc_cols r = csc_cols m /\ csc_colptr r = csc_rowidx m /\ csc_rowidx r = csc_colptr m /\
    csc_values r = map (fun v => smul v s) (csc_values m) /\
    csc_rows l = csc_rows m /\ csc_cols l = csc_cols m /\ csc_colptr l = csc_rowidx m /\ csc_rowidx l = csc_colptr m /\
    csc_values l = map (fun v => smul s v) (csc_values m).
Proof.
  intros m s W L Lv H.
  assert (E : forall f : T -> T, CSC_new (csc_rows m) (csc_cols m) (csc_colptr m) (csc_rowidx m) (map f (csc_values m)) =
    Ok (mkCSC (csc_rows m) (csc_cols m) (csc_colptr m) (csc_rowidx m) (map f (csc_values m)))).
  { intros f. unfold CSC_new. rewrite L, Nat.eqb_refl. cbn [negb]. unfold usub. destruct (Nat.leb_spec 1 (csc_cols m + 1)); [|lia]. cbn [bind].
    assert (P : pget (csc_rowidx m) (csc_cols m + 1 - 1) = Ok (Z.to_nat (last (csc_rowidx m) 0%Z))).
    { unfold pget. rewrite (vget_nth _ _ 0%Z) by lia. cbn [bind]. rewrite <- L, <- last_nth_. unfold to_usize. destruct (Z.leb_spec 0 (last (csc_rowidx m) 0%Z)); [reflexivity|lia]. }
    rewrite P. cbn [bind]. rewrite map_length, (wf_len _ _ _ _ _ _ W).
    destruct (Nat.ltb_spec (csc_cols m + 1) (Z.to_nat (last (csc_rowidx m) 0%Z))); [lia|].
    rewrite Lv. destruct (Nat.ltb_spec (csc_cols m + 1) (Z.to_nat (last (csc_rowidx m) 0%Z))); [lia|]. reflexivity. }
  unfold CSC_mul_scalar, CSC_scalar_mul. rewrite !E. cbn [unwrap]. eexists _, _. sp; reflexivity.
Qed.

Lemma c24_coo_add : forall a b : Coo T, wf_coo I a -> wf_coo I b ->
  (coo_rows a <> coo_rows b \/ coo_cols a <> coo_cols b -> Coo_add I a b = Panic) /\
  (coo_rows a = coo_rows b -> coo_cols a = coo_cols b ->
   (Z.of_nat (length (coo_values a) + length (coo_values b)) < imax I)%Z ->
   exists r, Coo_add I a b = Ok r /\ wf_csr I r /\ csr_tight r /\
     csr_rows r = coo_rows a /\ csr_cols r = coo_cols a /\ csr_canonical r /\
     forall i j, i < coo_rows a -> csr_at r i j = dup_sum (coo_at a i j ++ coo_at b i j)).
Proof.
  intros a b HA HB. split.
  - intros H. unfold Coo_add. destruct (Nat.eqb_spec (coo_rows a) (coo_rows b)); [|reflexivity]. destruct (Nat.eqb_spec (coo_cols a) (coo_cols b)); [|reflexivity]. tauto.
  - intros E1 E2 Hf. destruct (wf_coo_is I a HA) as [EA FA], (wf_coo_is I b HB) as [EB FB]. set (LA := coo_entries a) in *. set (LB := coo_entries b) in *.
    unfold Coo_add. rewrite E1, E2, !Nat.eqb_refl. cbn [negb].
    assert (N : Coo_new (coo_rows b) (coo_cols b) (coo_rowidx a ++ coo_rowidx b) (coo_colidx a ++ coo_colidx b) (coo_values a ++ coo_values b) = Ok (coo_of (coo_rows b) (coo_cols b) (LA ++ LB))).
    { rewrite EA, EB. cbn [coo_of coo_rowidx coo_colidx coo_values coo_rows coo_cols]. rewrite Coo_new_ok by (unfold zrow, zcol; rewrite !app_length, !map_length; reflexivity).
      unfold coo_of. rewrite zrow_app, zcol_app, map_app. reflexivity. }
    rewrite N. cbn [unwrap bind].
    destruct (c01_coo_to_csr I (coo_of (coo_rows b) (coo_cols b) (LA ++ LB))) as (r & Er & W & Tt & D1 & D2 & Cn & A).
    + apply wf_coo_of. apply Forall_app. split; [|exact FB]. rewrite E1, E2 in FA. exact FA.
    + cbn. rewrite map_app, app_length, !map_length. rewrite EA, EB in Hf. cbn in Hf. rewrite !map_length in Hf. exact Hf.
    + exists r. rewrite Er. sp; try assumption. intros i j Hi. rewrite A by exact Hi. unfold coo_at. rewrite coo_of_entries, filter_app, map_app. reflexivity.
Qed.

Lemma c25_v_stack : forall a b : Coo T, wf_coo I a -> wf_coo I b ->
  (coo_cols a <> coo_cols b -> Coo_v_stack I a b = Err EDim) /\
  (coo_cols a = coo_cols b -> (Z.of_nat (coo_rows a + coo_rows b) <= Z.min (imax I + 1) (imax Usize))%Z ->
   exists r, Coo_v_stack I a b = Ok r /\ wf_coo I r /\ coo_rows r = coo_rows a + coo_rows b /\ coo_cols r = coo_cols a /\
     coo_entries r = coo_entries a ++ placed (coo_rows a) 0 (coo_entries b) /\
     forall i j, coo_at r i j = if i <? coo_rows a then coo_at a i j else coo_at b (i - coo_rows a) j).
Proof.
  intros a b HA HB. split; [apply v_stack_err|]. intros E Hf. apply wf_is_coo in HA, HB.
  destruct (v_stack_is I _ _ _ _ _ _ _ _ HA HB E Hf) as (r & Er & Hr). exists r. split; [exact Er|].
  apply is_coo_wf in Hr as (W & E1 & E2 & E3). sp; try assumption.
  intros i j. rewrite !coo_at_entries, E3. eapply v_at. apply HA.
Qed.
Lemma c25_h_stack : forall a b : Coo T, wf_coo I a -> wf_coo I b ->
  (coo_rows a <> coo_rows b -> Coo_h_stack I a b = Err EDim) /\
  (coo_rows a = coo_rows b -> (Z.of_nat (coo_cols a + coo_cols b) <= Z.min (imax I + 1) (imax Usize))%Z ->
   exists r, Coo_h_stack I a b = Ok r /\ wf_coo I r /\ coo_rows r = coo_rows a /\ coo_cols r = coo_cols a + coo_cols b /\
     coo_entries r = coo_entries a ++ placed 0 (coo_cols a) (coo_entries b) /\
     forall i j, coo_at r i j = if j <? coo_cols a then coo_at a i j else coo_at b i (j - coo_cols a)).
Proof.
  intros a b HA HB. split; [apply h_stack_err|]. intros E Hf. apply wf_is_coo in HA, HB.
  destruct (h_stack_is I _ _ _ _ _ _ _ _ HA HB E Hf) as (r & Er & Hr). exists r. split; [exact Er|].
  apply is_coo_wf in Hr as (W & E1 & E2 & E3). sp; try assumption.
  intros i j. rewrite !coo_at_entries, E3. eapply h_at. apply HA.
Qed.
Lemma c25_v_stack3 : forall a b c : Coo T, wf_coo I a -> wf_coo I b -> wf_coo I c ->
  (coo_cols a <> coo_cols b \/ coo_cols a <> coo_cols c -> Coo_v_stack3 I a b c = Err EDim) /\
  (coo_cols a = coo_cols b -> coo_cols a = coo_cols c -> (Z.of_nat (coo_rows a + coo_rows b + coo_rows c) <= Z.min (imax I + 1) (imax Usize))%Z ->
   exists r, Coo_v_stack3 I a b c = Ok r /\ wf_coo I r /\ coo_rows r = coo_rows a + coo_rows b + coo_rows c /\ coo_cols r = coo_cols a /\
     coo_entries r = coo_entries a ++ placed (coo_rows a) 0 (coo_entries b) ++ placed (coo_rows a + coo_rows b) 0 (coo_entries c)).
Proof.
  intros a b c HA HB HC. split; [apply v_stack3_err|]. intros E1 E2 Hf. apply wf_is_coo in HA, HB, HC.
  destruct (v_stack3_is I _ _ _ _ _ _ _ _ _ _ _ _ HA HB HC E1 E2 Hf) as (r & Er & Hr). exists r. split; [exact Er|].
  apply is_coo_wf in Hr as (W & D1 & D2 & D3). sp; try assumption. rewrite D3, <- app_assoc. reflexivity.
Qed.
Lemma c25_h_stack3 : forall a b c : Coo T, wf_coo I a -> wf_coo I b -> wf_coo I c ->
  (coo_rows a <> coo_rows b \/ coo_rows a <> coo_rows c -> Coo_h_stack3 I a b c = Err EDim) /\
  (coo_rows a = coo_rows b -> coo_rows a = coo_rows c -> (Z.of_nat (coo_cols a + coo_cols b + coo_cols c) <= Z.min (imax I + 1) (imax Usize))%Z ->
   exists r, Coo_h_stack3 I a b c = Ok r /\ wf_coo I r /\ coo_rows r = coo_rows a /\ coo_cols r = coo_cols a + coo_cols b + coo_cols c /\
     coo_entries r = coo_entries a ++ placed 0 (coo_cols a) (coo_entries b) ++ placed 0 (coo_cols a + coo_cols b) (coo_entries c)).
Proof.
  intros a b c HA HB HC. split; [apply h_stack3_err|]. intros E1 E2 Hf. apply wf_is_coo in HA, HB, HC.
  destruct (h_stack3_is I _ _ _ _ _ _ _ _ _ _ _ _ HA HB HC E1 E2 Hf) as (r & Er & Hr). exists r. split; [exact Er|].
  apply is_coo_wf in Hr as (W & D1 & D2 & D3). sp; try assumption. rewrite D3, <- app_assoc. reflexivity.
Qed.
Lemma c25_compose : forall a00 a01 a10 a11 : Coo T, wf_coo I a00 -> wf_coo I a01 -> wf_coo I a10 -> wf_coo I a11 ->
  let r0 := coo_rows a00 in let c0 := coo_cols a00 in let c1 := coo_cols a10 in
  let fits := coo_rows a00 = coo_rows a01 /\ coo_rows a10 = coo_rows a11 /\ coo_cols a00 + coo_cols a01 = coo_cols a10 + coo_cols a11 in
  (Z.of_nat (coo_cols a00 + coo_cols a01) <= Z.min (imax I + 1) (imax Usize))%Z -> (Z.of_nat (coo_cols a10 + coo_cols a11) <= Z.min (imax I + 1) (imax Usize))%Z -> (Z.of_nat (r0 + coo_rows a10) <= Z.min (imax I + 1) (imax Usize))%Z ->
  (~ fits -> Coo_compose I a00 a01 a10 a11 = Err EDim) /\
  (fits -> exists r, Coo_compose I a00 a01 a10 a11 = Ok r /\ wf_coo I r /\
     coo_rows r = r0 + coo_rows a10 /\ coo_cols r = c0 + coo_cols a01 /\
     coo_entries r = coo_entries a00 ++ placed 0 c0 (coo_entries a01) ++ placed r0 0 (coo_entries a10) ++ placed r0 c1 (coo_entries a11) /\
     forall i j, coo_at r i j =
       if i <? r0 then (if j <? c0 then coo_at a00 i j else coo_at a01 i (j - c0))
       else (if j <? c1 then coo_at a10 (i - r0) j else coo_at a11 (i - r0) (j - c1))).
Proof.
  intros a00 a01 a10 a11 H0 H1 H2 H3 r0 c0 c1 fits F1 F2 F3. apply wf_is_coo in H0, H1, H2, H3. split.
  - intros N. unfold Coo_compose. destruct (Nat.eq_dec (coo_rows a00) (coo_rows a01)) as [E1|E1]; [|rewrite h_stack_err by exact E1; reflexivity].
    destruct (h_stack_is I _ _ _ _ _ _ _ _ H0 H1 E1 F1) as (m1 & -> & M1). cbn [bind].
    destruct (Nat.eq_dec (coo_rows a10) (coo_rows a11)) as [E2|E2]; [|rewrite h_stack_err by exact E2; reflexivity].
    destruct (h_stack_is I _ _ _ _ _ _ _ _ H2 H3 E2 F2) as (m2 & -> & M2). cbn [bind]. apply v_stack_err. destruct M1 as [-> _], M2 as [-> _]. cbn. intros E3. apply N. unfold fits. tauto.
  - intros (E1 & E2 & E3). destruct (compose_is I _ _ _ _ _ _ _ _ _ _ _ _ _ _ _ _ H0 H1 H2 H3 E1 E2 E3 F1 F3) as (r & Er & Hr). exists r. split; [exact Er|].
    apply is_coo_wf in Hr as (W & D1 & D2 & D3). sp; try assumption.
    + rewrite D3, placed_app, placed_placed, Nat.add_0_r, <- app_assoc. reflexivity.
    + intros i j. rewrite !coo_at_entries, D3. eapply compose_at; [apply H0|apply H1|exact E1|exact F1|apply H2].
Qed.
Lemma c25_compose3 : forall a00 a01 a02 a10 a11 a12 a20 a21 a22 : Coo T,
  wf_coo I a00 -> wf_coo I a01 -> wf_coo I a02 -> wf_coo I a10 -> wf_coo I a11 -> wf_coo I a12 -> wf_coo I a20 -> wf_coo I a21 -> wf_coo I a22 ->
  let row3 (a b c : Coo T) := coo_entries a ++ placed 0 (coo_cols a) (coo_entries b) ++ placed 0 (coo_cols a + coo_cols b) (coo_entries c) in
  let width (a b c : Coo T) := coo_cols a + coo_cols b + coo_cols c in
  let r0 := coo_rows a00 in let r1 := coo_rows a10 in let r2 := coo_rows a20 in
  let fits := coo_rows a01 = r0 /\ coo_rows a02 = r0 /\ coo_rows a11 = r1 /\ coo_rows a12 = r1 /\ coo_rows a21 = r2 /\ coo_rows a22 = r2 /\
    width a00 a01 a02 = width a10 a11 a12 /\ width a00 a01 a02 = width a20 a21 a22 in
  (Z.of_nat (width a00 a01 a02) <= Z.min (imax I + 1) (imax Usize))%Z -> (Z.of_nat (width a10 a11 a12) <= Z.min (imax I + 1) (imax Usize))%Z -> (Z.of_nat (width a20 a21 a22) <= Z.min (imax I + 1) (imax Usize))%Z ->
  (Z.of_nat (r0 + r1 + r2) <= Z.min (imax I + 1) (imax Usize))%Z ->
  (~ fits -> Coo_compose3 I a00 a01 a02 a10 a11 a12 a20 a21 a22 = Err EDim) /\
  (fits -> exists r, Coo_compose3 I a00 a01 a02 a10 a11 a12 a20 a21 a22 = Ok r /\ wf_coo I r /\
     coo_rows r = r0 + r1 + r2 /\ coo_cols r = width a00 a01 a02 /\
     coo_entries r = row3 a00 a01 a02 ++ placed r0 0 (row3 a10 a11 a12) ++ placed (r0 + r1) 0 (row3 a20 a21 a22)).
Proof.
  intros a00 a01 a02 a10 a11 a12 a20 a21 a22 H00 H01 H02 H10 H11 H12 H20 H21 H22 row3 width r0 r1 r2 fits F0 F1 F2 Fr.
  apply wf_is_coo in H00, H01, H02, H10, H11, H12, H20, H21, H22. unfold Coo_compose3, width in *. split.
  - intros N.
    destruct (Nat.eq_dec (coo_rows a00) (coo_rows a01)) as [E1|E1]; [|rewrite h_stack3_err by (left; exact E1); reflexivity].
    destruct (Nat.eq_dec (coo_rows a00) (coo_rows a02)) as [E2|E2]; [|rewrite h_stack3_err by (right; exact E2); reflexivity].
    destruct (h_stack3_is I _ _ _ _ _ _ _ _ _ _ _ _ H00 H01 H02 E1 E2 F0) as (m1 & -> & M1). cbn [bind].
    destruct (Nat.eq_dec (coo_rows a10) (coo_rows a11)) as [E3|E3]; [|rewrite h_stack3_err by (left; exact E3); reflexivity].
    destruct (Nat.eq_dec (coo_rows a10) (coo_rows a12)) as [E4|E4]; [|rewrite h_stack3_err by (right; exact E4); reflexivity].
    destruct (h_stack3_is I _ _ _ _ _ _ _ _ _ _ _ _ H10 H11 H12 E3 E4 F1) as (m2 & -> & M2). cbn [bind].
    destruct (Nat.eq_dec (coo_rows a20) (coo_rows a21)) as [E5|E5]; [|rewrite h_stack3_err by (left; exact E5); reflexivity].
    destruct (Nat.eq_dec (coo_rows a20) (coo_rows a22)) as [E6|E6]; [|rewrite h_stack3_err by (right; exact E6); reflexivity].
    destruct (h_stack3_is I _ _ _ _ _ _ _ _ _ _ _ _ H20 H21 H22 E5 E6 F2) as (m3 & -> & M3). cbn [bind].
    apply v_stack3_err. destruct M1 as [-> _], M2 as [-> _], M3 as [-> _]. cbn [coo_of coo_cols].
    destruct (Nat.eq_dec (coo_cols a00 + coo_cols a01 + coo_cols a02) (coo_cols a10 + coo_cols a11 + coo_cols a12)) as [E7|E7]; [|left; exact E7]. right. intros E8. apply N. unfold fits, width, r0, r1, r2. lia.
  - intros (E1 & E2 & E3 & E4 & E5 & E6 & E7 & E8).
    destruct (h_stack3_is I _ _ _ _ _ _ _ _ _ _ _ _ H00 H01 H02 (eq_sym E1) (eq_sym E2) F0) as (m1 & -> & M1). cbn [bind].
    destruct (h_stack3_is I _ _ _ _ _ _ _ _ _ _ _ _ H10 H11 H12 (eq_sym E3) (eq_sym E4) F1) as (m2 & -> & M2). cbn [bind].
    destruct (h_stack3_is I _ _ _ _ _ _ _ _ _ _ _ _ H20 H21 H22 (eq_sym E5) (eq_sym E6) F2) as (m3 & -> & M3). cbn [bind].
    destruct (v_stack3_is I _ _ _ _ _ _ _ _ _ _ _ _ M1 M2 M3 E7 E8 Fr) as (r & Er & Hr). exists r. split; [exact Er|].
    apply is_coo_wf in Hr as (W & D1 & D2 & D3). sp; try assumption. rewrite D3. unfold row3. rewrite <- !app_assoc. reflexivity.
Qed.

Lemma c26_csr_h_stack : forall a b : CSR T, wf_csr I a -> wf_csr I b -> csr_tight a -> csr_tight b -> csr_rows_fit I a -> csr_rows_fit I b ->
  (csr_rows a <> csr_rows b -> CSR_h_stack I a b = Err EDim) /\
  (csr_rows a = csr_rows b -> (Z.of_nat (csr_cols a + csr_cols b) <= Z.min (imax I + 1) (imax Usize))%Z -> (Z.of_nat (csr_count a + csr_count b) < imax I)%Z ->
   exists r, CSR_h_stack I a b = Ok r /\ wf_csr I r /\ csr_tight r /\
     csr_rows r = csr_rows a /\ csr_cols r = csr_cols a + csr_cols b /\ csr_canonical r /\
     forall i j, i < csr_rows a -> csr_at r i j = dup_sum (if j <? csr_cols a then csr_at a i j else csr_at b i (j - csr_cols a))).
Proof.
  intros a b HA HB TA TB FA FB. destruct (c06_csr_to_coo I a HA FA TA) as (ca & EA & WA & A1 & A2 & A3 & A4). destruct (c06_csr_to_coo I b HB FB TB) as (cb & EB & WB & B1 & B2 & B3 & B4).
  unfold CSR_h_stack. rewrite EA, EB. cbn [bind]. destruct (c25_h_stack ca cb WA WB) as [S1 S2]. rewrite A1, B1 in S1. rewrite A1, B1, A2, B2 in S2. split.
  - intros N. rewrite S1 by exact N. reflexivity.
  - intros E Hc Hf. destruct (S2 E Hc) as (c & -> & W & D1 & D2 & D3 & D4). cbn [bind].
    destruct (c01_coo_to_csr I c W) as (r & Er & Wr & Tr & R1 & R2 & Cn & A).
    { rewrite <- (coo_entries_length I c W), D3, app_length. unfold placed. rewrite map_length, A3, B3, (csr_entries_count I a HA), (csr_entries_count I b HB). exact Hf. }
    exists r. sp; try assumption; try congruence. intros i j Hi. rewrite A by congruence. rewrite D4. destruct (j <? csr_cols a); [rewrite A4 by exact Hi|rewrite B4 by congruence]; reflexivity.
Qed.
Lemma c26_csc_compose : forall a00 a01 a10 a11 : CSC T,
  wf_csc I a00 -> wf_csc I a01 -> wf_csc I a10 -> wf_csc I a11 ->
  let r0 := csc_rows a00 in let c0 := csc_cols a00 in let c1 := csc_cols a10 in
  let fits := csc_rows a00 = csc_rows a01 /\ csc_rows a10 = csc_rows a11 /\ csc_cols a00 + csc_cols a01 = csc_cols a10 + csc_cols a11 in
  (Z.of_nat (csc_cols a00 + csc_cols a01) <= Z.min (imax I + 1) (imax Usize))%Z -> (Z.of_nat (csc_cols a10 + csc_cols a11) <= Z.min (imax I + 1) (imax Usize))%Z -> (Z.of_nat (r0 + csc_rows a10) <= Z.min (imax I + 1) (imax Usize))%Z ->
  (~ fits -> CSC_compose I a00 a01 a10 a11 = Err EDim) /\
  (fits -> (Z.of_nat (csc_count a00 + csc_count a01 + csc_count a10 + csc_count a11) < imax I)%Z ->
   exists r, CSC_compose I a00 a01 a10 a11 = Ok r /\ wf_csc I r /\ csc_tight r /\
     csc_rows r = r0 + csc_rows a10 /\ csc_cols r = c0 + csc_cols a01 /\ csc_canonical r /\
     forall i j, j < c0 + csc_cols a01 -> csc_at r i j = dup_sum
       (if i <? r0 then (if j <? c0 then csc_at a00 i j else csc_at a01 i (j - c0))
        else (if j <? c1 then csc_at a10 (i - r0) j else csc_at a11 (i - r0) (j - c1)))).
Proof.
  intros a00 a01 a10 a11 H0 H1 H2 H3 r0 c0 c1 fits F1 F2 F3.
  destruct (c07_csc_to_coo I a00 H0) as (b0 & E0 & W0 & A0 & B0 & L0 & V0). { intros j Hj _. lia. }
  destruct (c07_csc_to_coo I a01 H1) as (b1 & E1 & W1 & A1 & B1 & L1 & V1). { intros j Hj _. lia. }
  destruct (c07_csc_to_coo I a10 H2) as (b2 & E2 & W2 & A2 & B2 & L2 & V2). { intros j Hj _. lia. }
  destruct (c07_csc_to_coo I a11 H3) as (b3 & E3 & W3 & A3 & B3 & L3 & V3). { intros j Hj _. lia. }
  assert (EC : CSC_compose I a00 a01 a10 a11 = let* c := Coo_compose I b0 b1 b2 b3 in Coo_to_csc I c).
  { unfold CSC_compose, Coo_compose. rewrite E0, E1, E2, E3. cbn [bind]. destruct (Coo_h_stack I b0 b1); [|reflexivity..]. cbn [bind]. destruct (Coo_h_stack I b2 b3); reflexivity. }
  rewrite EC. pose proof (c25_compose b0 b1 b2 b3 W0 W1 W2 W3) as S. cbv zeta in S. rewrite A0, A1, A2, A3, B0, B1, B2, B3 in S. destruct (S F1 F2 F3) as [S1 S2]. split.
  - intros N. rewrite S1 by exact N. reflexivity.
  - intros Fi Hf. destruct (S2 Fi) as (c & -> & W & D1 & D2 & D3 & D4). cbn [bind].
    destruct (c02_coo_to_csc I c W) as (r & Er & Wr & Tr & R1 & R2 & Cn & A).
    { rewrite <- (coo_entries_length I c W), D3, !app_length. unfold placed. rewrite !map_length, L0, L1, L2, L3, !(csc_entries_count I) by assumption. lia. }
    exists r. sp; try assumption; try (unfold r0, c0; congruence). intros i j Hj. rewrite A by (rewrite D2; exact Hj). rewrite D4. unfold r0, c0, c1 in *. destruct Fi as (_ & _ & Fi).
    destruct (Nat.ltb_spec j (csc_cols a00)), (Nat.ltb_spec j (csc_cols a10)), (i <? csc_rows a00); rewrite ?V0, ?V1, ?V2, ?V3 by lia; reflexivity.
Qed.

Lemma c27_upper : forall (m : Coo T) (k : Z), wf_coo I m ->
  ((forall e, In e (coo_entries m) -> in_ity I (Z.of_nat (fst (fst e)) + k)) ->
   exists r, Coo_upper I m k = Ok r /\ wf_coo I r /\ coo_rows r = coo_rows m /\ coo_cols r = coo_cols m /\
     coo_entries r = filter (fun e => Z.of_nat (fst (fst e)) + k <=? Z.of_nat (snd (fst e)))%Z (coo_entries m)) /\
  ((exists e, In e (coo_entries m) /\ ~ in_ity I (Z.of_nat (fst (fst e)) + k)) -> Coo_upper I m k = Panic).
Proof.
  intros m k H. destruct (wf_coo_is I m H) as [E F]. split.
  - intros G. rewrite E. rewrite Coo_upper_of by exact G. eexists. split; [reflexivity|]. sp; [|cbn [coo_of coo_rows coo_cols]; rewrite !coo_of_entries; reflexivity].
    apply wf_coo_of. apply incl_Forall with (coo_entries m); [|exact F]. intros e He. apply filter_In in He. apply He.
  - intros (e & He & N). rewrite E. eapply Coo_upper_over; eassumption.
Qed.

Lemma c30_coo_with_diagonal : forall d : list T, let n := length d in
  ((Z.of_nat n <= imax I + 1)%Z -> exists r, Coo_with_diagonal I d = Ok r /\ wf_coo I r /\ coo_rows r = n /\ coo_cols r = n /\
     coo_entries r = map (fun i => ((i, i), nth i d s0)) (seq 0 n)) /\
  ((imax I + 1 < Z.of_nat n)%Z -> Coo_with_diagonal I d = Panic).
Proof.
  intros d n. split; [|apply Coo_with_diagonal_over]. intros H. rewrite Coo_with_diagonal_ok by exact H. eexists. split; [reflexivity|]. sp.
  - apply wf_coo_of, Forall_forall. intros e He. apply diag_entries_in in He as (H1 & H2 & _). unfold inside. rewrite <- H1. lia.
  - rewrite coo_of_entries. apply diag_entries_map.
Qed.
Lemma c30_coo_identity : forall n : nat,
  ((Z.of_nat n <= imax I + 1)%Z -> exists r, Coo_identity I n = Ok r /\ wf_coo I r /\ coo_rows r = n /\ coo_cols r = n /\
     coo_entries r = map (fun i => ((i, i), s1)) (seq 0 n)) /\
  ((imax I + 1 < Z.of_nat n)%Z -> @Coo_identity T _ I n = Panic).
Proof.
  intros n. rewrite Coo_identity_eq. destruct (c30_coo_with_diagonal (repeat s1 n)) as [H1 H2]. rewrite repeat_length in *. split; [|exact H2].
  intros H. destruct (H1 H) as (r & E & W & D1 & D2 & D3). exists r. sp; try assumption. rewrite D3. apply map_ext_in. intros i Hi. apply in_seq in Hi. rewrite nth_repeat_any by lia. reflexivity.
Qed.
Lemma c30_csr_with_diagonal : forall d : list T, let n := length d in
  ((Z.of_nat n <= imax I)%Z -> exists r, CSR_with_diagonal I d = Ok r /\ wf_csr I r /\ csr_tight r /\ csr_canonical r /\ csr_rows r = n /\ csr_cols r = n /\
     forall i j, i < n -> csr_at r i j = if i =? j then [nth i d s0] else []) /\
  ((imax I < Z.of_nat n)%Z -> CSR_with_diagonal I d = Panic).
Proof.
  intros d n. split; [|apply CSR_with_diagonal_over]. intros H. rewrite CSR_with_diagonal_ok by exact H. eexists. split; [reflexivity|]. pose proof (diag_rep_at I d H) as R.
  set (RR := map (fun i => [(i, nth i d s0)]) (seq 0 (length d))) in *. fold n in R |- *.
  assert (HR : csr_rep I (mkCSR n n (map Z.of_nat (seq 0 (n + 1))) (map Z.of_nat (seq 0 n)) d) RR) by (split; [unfold RR; rewrite map_length, seq_length; reflexivity|exact R]).
  sp.
  - eapply csr_rep_wf, HR.
  - apply (csr_tight_rep _ _ _ HR). cbn [csr_colidx csr_values]. rewrite map_length, seq_length. unfold RR. rewrite diag_rows_length, seq_length. split; reflexivity.
  - refine (proj2 (csr_rep_rows canonical_row _ _ _ HR) _). apply Forall_map, Forall_forall. intros i _. repeat constructor.
  - intros i j Hi. rewrite (csr_rep_at _ _ _ _ _ HR). apply diag_rows_at, Hi.
Qed.
Lemma c30_csc_with_diagonal : forall d : list T, let n := length d in
  ((Z.of_nat n <= imax I)%Z -> exists r, CSC_with_diagonal I d = Ok r /\ wf_csc I r /\ csc_tight r /\ csc_canonical r /\ csc_rows r = n /\ csc_cols r = n /\
     forall i j, j < n -> csc_at r i j = if i =? j then [nth i d s0] else []) /\
  ((imax I < Z.of_nat n)%Z -> CSC_with_diagonal I d = Panic).
Proof.
  intros d n. split; [|apply CSC_with_diagonal_over]. intros H. rewrite CSC_with_diagonal_ok by exact H. eexists. split; [reflexivity|]. pose proof (diag_rep_at I d H) as R.
  set (RR := map (fun i => [(i, nth i d s0)]) (seq 0 (length d))) in *. fold n in R |- *.
  assert (HR : csc_rep I (mkCSC n n (map Z.of_nat (seq 0 n)) (map Z.of_nat (seq 0 (n + 1))) d) RR) by (split; [unfold RR; rewrite map_length, seq_length; reflexivity|exact R]).
  sp.
  - eapply csc_rep_wf, HR.
  - apply (csc_tight_rep _ _ _ HR). cbn [csc_rowidx csc_values]. rewrite map_length, seq_length. unfold RR. rewrite diag_rows_length, seq_length. split; reflexivity.
  - refine (proj2 (csc_rep_cols canonical_row _ _ _ HR) _). apply Forall_map, Forall_forall. intros i _. repeat constructor.
  - intros i j Hj. rewrite (csc_rep_at _ _ _ _ _ HR). unfold RR. rewrite diag_rows_at by exact Hj. rewrite Nat.eqb_sym. destruct (Nat.eqb_spec i j); [subst|]; reflexivity.
Qed.

Lemma c49_coo_new : forall r c (i j : list Z) (x : list T), let m := mkCoo r c i j x in
  (coo_sized m -> Coo_new r c i j x = Ok m) /\ (~ coo_sized m -> Coo_new r c i j x = Err ELength).
Proof.
  intros r c i j x m. split; [intros [H1 H2]; apply Coo_new_ok; assumption|]. intros N. apply Coo_new_err. unfold coo_sized in N. cbn in N. lia.
Qed.
Lemma c49_csr_new : forall r c (p j : list Z) (x : list T), let m := mkCSR r c p j x in
  (csr_sized m -> CSR_new r c p j x = Ok m) /\
  (length p <> r + 1 -> (Z.of_nat r < imax Usize)%Z -> CSR_new r c p j x = Err ELength) /\
  (length p = r + 1 -> (0 <= nth r p 0)%Z -> length j < csr_count m \/ length x < csr_count m -> CSR_new r c p j x = Err ELength) /\
  (length p = r + 1 -> (nth r p 0 < 0)%Z -> CSR_new r c p j x = Panic) /\
  (length p <> r + 1 -> Z.of_nat r = imax Usize -> CSR_new r c p j x = Panic).
Proof.
  intros r c p j x m. split; [apply (CSR_new_sized m)|]. split; [apply CSR_new_err_len|]. split; [|split; [apply CSR_new_neg|apply CSR_new_max]].
  intros E H1 H2. rewrite CSR_new_get by assumption. unfold m, csr_count in H2. cbn in H2.
  destruct (Nat.ltb_spec (length j) (ptr p r)); [reflexivity|]. destruct (Nat.ltb_spec (length x) (ptr p r)); [reflexivity|lia].
Qed.
Lemma c49_csc_new : forall r c (j p : list Z) (x : list T), let m := mkCSC r c j p x in
  (csc_sized m -> CSC_new r c j p x = Ok m) /\
  (length p <> c + 1 -> (Z.of_nat c < imax Usize)%Z -> CSC_new r c j p x = Err ELength) /\
  (length p = c + 1 -> (0 <= nth c p 0)%Z -> length j < csc_count m \/ length x < csc_count m -> CSC_new r c j p x = Err ELength) /\
  (length p = c + 1 -> (nth c p 0 < 0)%Z -> CSC_new r c j p x = Panic) /\
  (length p <> c + 1 -> Z.of_nat c = imax Usize -> CSC_new r c j p x = Panic).
Proof.
  intros r c j p x m. destruct (c49_csr_new c r p j x) as (H1 & H2 & H3 & H4 & H5). rewrite CSC_new_csr. repeat apply Logic.conj.
  - intros H. rewrite H1 by exact H. reflexivity.
  - intros Ha Hb. rewrite H2 by assumption. reflexivity.
  - intros Ha Hb Hc. rewrite H3 by assumption. reflexivity.
  - intros Ha Hb. rewrite H4 by assumption. reflexivity.
  - intros Ha Hb. rewrite H5 by assumption. reflexivity.
Qed.

Lemma c51_coo_overflow : forall m : Coo T, (imax I < Z.of_nat (length (coo_values m)))%Z ->
  Coo_to_csr I m = Panic /\ Coo_to_csc I m = Panic.
Proof. intros m H. split; [apply Coo_to_csr_over|apply Coo_to_csc_over]; exact H. Qed.
Lemma c51_from_dense_overflow : forall (a : list (list T)) c, a <> [] -> rectangular c a ->
  (~ (nz_cols_fit I c a /\ (Z.of_nat (nz_count a) <= imax I)%Z) -> CSR_from_dense I a = Panic) /\
  (~ (nz_rows_fit I c a /\ (Z.of_nat (nz_count a) <= imax I)%Z) -> CSC_from_dense I a = Panic) /\
  (~ (nz_rows_fit I c a /\ nz_cols_fit I c a) -> Coo_from_dense I a = Panic).
Proof.
  intros a c N H. split; [apply CSR_from_dense_panic; assumption|]. split; [apply CSC_from_dense_panic; assumption|apply Coo_from_dense_panic; assumption].
Qed.
Lemma c51_with_diagonal_overflow : forall d : list T,
  ((imax I < Z.of_nat (length d))%Z -> CSR_with_diagonal I d = Panic /\ CSC_with_diagonal I d = Panic) /\
  ((imax I + 1 < Z.of_nat (length d))%Z -> Coo_with_diagonal I d = Panic).
Proof. intros d. split; [|apply Coo_with_diagonal_over]. intros H. split; [apply CSR_with_diagonal_over|apply CSC_with_diagonal_over]; exact H. Qed.
Lemma mapM_shift_over (f : nat * nat * T -> nat) (d : nat) L : (exists e, In e L /\ (imax I < Z.of_nat (d + f e))%Z) ->
  mapM (fun z => let* s := ifrom I d in iadd I z s) (map (fun e => Z.of_nat (f e)) L) = Panic.
Proof.
  induction L as [|e L IH]; intros (e' & He & Ho); [contradiction|]. cbn [map mapM]. destruct (Z_le_gt_dec (Z.of_nat d) (imax I)) as [Hd|Hd]; [|rewrite ifrom_panic by lia; reflexivity].
  rewrite ifrom_ok in * by exact Hd. cbn [bind] in *. destruct (Z_le_gt_dec (Z.of_nat (d + f e)) (imax I)) as [Hl|Hl].
  - rewrite iadd_ok by lia. cbn [bind]. rewrite IH; [reflexivity|]. destruct He as [<-|He]; [lia|eauto].
  - unfold iadd, icheck. destruct (Z.leb_spec (Z.of_nat (f e) + Z.of_nat d) (imax I)); [lia|]. rewrite andb_false_r. reflexivity.
Qed.
Lemma c51_v_stack : forall a b : Coo T, wf_coo I a -> wf_coo I b -> coo_cols a = coo_cols b ->
  let too_big := (imax Usize < Z.of_nat (coo_rows a + coo_rows b))%Z \/ exists e, In e (coo_entries b) /\ (imax I < Z.of_nat (coo_rows a + fst (fst e)))%Z in
  (too_big -> Coo_v_stack I a b = Panic) /\
  (~ too_big -> exists r, Coo_v_stack I a b = Ok r /\ wf_coo I r /\ coo_rows r = coo_rows a + coo_rows b /\ coo_cols r = coo_cols a /\
    coo_entries r = coo_entries a ++ placed (coo_rows a) 0 (coo_entries b)).
Proof.
  intros a b Wa Wb E big. destruct (wf_coo_is I _ Wa) as [Ea Fa], (wf_coo_is I _ Wb) as [Eb Fb]. split.
  - intros H. unfold Coo_v_stack. rewrite E, Nat.eqb_refl. cbn [negb]. destruct (Z_le_gt_dec (Z.of_nat (coo_rows a + coo_rows b)) (imax Usize)) as [Hu|Hu]; [|rewrite uadd_over by lia; reflexivity].
    rewrite uadd_ok by exact Hu. cbn [bind]. destruct H as [H|H]; [lia|]. apply (f_equal (@coo_rowidx T)) in Eb. cbn [coo_of coo_rowidx] in Eb. rewrite Eb at 1. unfold zrow. rewrite mapM_shift_over by exact H. reflexivity.
  - intros H. assert (Hu : (Z.of_nat (coo_rows a + coo_rows b) <= imax Usize)%Z) by (unfold big in H; lia).
    assert (He : forall e, In e (coo_entries b) -> (Z.of_nat (coo_rows a + fst (fst e)) <= imax I)%Z).
    { intros e He. destruct (Z_le_gt_dec (Z.of_nat (coo_rows a + fst (fst e))) (imax I)) as [|G]; [assumption|]. exfalso. apply H. right. exists e. split; [exact He|lia]. }
    assert (R : Coo_v_stack I a b = Ok (coo_of (coo_rows a + coo_rows b) (coo_cols a) (coo_entries a ++ placed (coo_rows a) 0 (coo_entries b)))).
    { replace (Coo_v_stack I a b) with (Coo_v_stack I (coo_of (coo_rows a) (coo_cols a) (coo_entries a)) (coo_of (coo_rows b) (coo_cols b) (coo_entries b))) by (rewrite <- Ea, <- Eb; reflexivity). unfold Coo_v_stack. cbn [coo_of coo_rows coo_cols coo_rowidx coo_colidx coo_values]. rewrite E, Nat.eqb_refl. cbn [negb]. rewrite uadd_ok by exact Hu. cbn [bind].
      rewrite (mapM_zrow I _ 0) by exact He. cbn [bind]. unfold coo_of. rewrite zrow_app, zcol_app, map_app, zcol_placed_0, snd_placed. reflexivity. }
    assert (IS : is_coo I (coo_rows a + coo_rows b) (coo_cols a) (coo_entries a ++ placed (coo_rows a) 0 (coo_entries b)) (coo_of (coo_rows a + coo_rows b) (coo_cols a) (coo_entries a ++ placed (coo_rows a) 0 (coo_entries b)))).
    { split; [reflexivity|]. apply Forall_app. split; [eapply inside_mono; [exact Fa| |]; lia|]. apply Forall_map, Forall_forall. intros e Hi. rewrite Forall_forall in Fb. pose proof (Fb e Hi). specialize (He e Hi). unfold inside in *. cbn [fst snd]. lia. }
    exists (coo_of (coo_rows a + coo_rows b) (coo_cols a) (coo_entries a ++ placed (coo_rows a) 0 (coo_entries b))). split; [exact R|]. apply is_coo_wf in IS. exact IS.
Qed.
Lemma c51_h_stack : forall a b : Coo T, wf_coo I a -> wf_coo I b -> coo_rows a = coo_rows b ->
  let too_big := (imax Usize < Z.of_nat (coo_cols a + coo_cols b))%Z \/ exists e, In e (coo_entries b) /\ (imax I < Z.of_nat (coo_cols a + snd (fst e)))%Z in
  (too_big -> Coo_h_stack I a b = Panic) /\
  (~ too_big -> exists r, Coo_h_stack I a b = Ok r /\ wf_coo I r /\ coo_rows r = coo_rows a /\ coo_cols r = coo_cols a + coo_cols b /\
    coo_entries r = coo_entries a ++ placed 0 (coo_cols a) (coo_entries b)).
Proof.
  intros a b Wa Wb E big. destruct (wf_coo_is I _ Wa) as [Ea Fa], (wf_coo_is I _ Wb) as [Eb Fb]. split.
  - intros H. unfold Coo_h_stack. rewrite E, Nat.eqb_refl. cbn [negb]. destruct (Z_le_gt_dec (Z.of_nat (coo_cols a + coo_cols b)) (imax Usize)) as [Hu|Hu]; [|rewrite uadd_over by lia; reflexivity].
    rewrite uadd_ok by exact Hu. cbn [bind]. destruct H as [H|H]; [lia|]. apply (f_equal (@coo_colidx T)) in Eb. cbn [coo_of coo_colidx] in Eb. rewrite Eb at 1. unfold zcol. rewrite mapM_shift_over by exact H. reflexivity.
  - intros H. assert (Hu : (Z.of_nat (coo_cols a + coo_cols b) <= imax Usize)%Z) by (unfold big in H; lia).
    assert (He : forall e, In e (coo_entries b) -> (Z.of_nat (coo_cols a + snd (fst e)) <= imax I)%Z).
    { intros e He. destruct (Z_le_gt_dec (Z.of_nat (coo_cols a + snd (fst e))) (imax I)) as [|G]; [assumption|]. exfalso. apply H. right. exists e. split; [exact He|lia]. }
    assert (R : Coo_h_stack I a b = Ok (coo_of (coo_rows a) (coo_cols a + coo_cols b) (coo_entries a ++ placed 0 (coo_cols a) (coo_entries b)))).
    { replace (Coo_h_stack I a b) with (Coo_h_stack I (coo_of (coo_rows a) (coo_cols a) (coo_entries a)) (coo_of (coo_rows b) (coo_cols b) (coo_entries b))) by (rewrite <- Ea, <- Eb; reflexivity). unfold Coo_h_stack. cbn [coo_of coo_rows coo_cols coo_rowidx coo_colidx coo_values]. rewrite E, Nat.eqb_refl. cbn [negb]. rewrite uadd_ok by exact Hu. cbn [bind].
      rewrite (mapM_zcol I _ 0) by exact He. cbn [bind]. rewrite Coo_new_ok by (unfold zrow, zcol, placed; rewrite !app_length, !map_length; reflexivity).
      unfold coo_of. rewrite zrow_app, zcol_app, map_app, zrow_placed_0, snd_placed. reflexivity. }
    assert (IS : is_coo I (coo_rows a) (coo_cols a + coo_cols b) (coo_entries a ++ placed 0 (coo_cols a) (coo_entries b)) (coo_of (coo_rows a) (coo_cols a + coo_cols b) (coo_entries a ++ placed 0 (coo_cols a) (coo_entries b)))).
    { split; [reflexivity|]. apply Forall_app. split; [eapply inside_mono; [exact Fa| |]; lia|]. apply Forall_map, Forall_forall. intros e Hi. rewrite Forall_forall in Fb. pose proof (Fb e Hi). specialize (He e Hi). unfold inside in *. cbn [fst snd]. lia. }
    exists (coo_of (coo_rows a) (coo_cols a + coo_cols b) (coo_entries a ++ placed 0 (coo_cols a) (coo_entries b))). split; [exact R|]. apply is_coo_wf in IS. exact IS.
Qed.

Lemma c56_push_extend : forall (m : Coo T) calls, coo_sized m -> Forall call_equal calls ->
  let r := fold_left call_apply calls m in
  coo_sized r /\ coo_rows r = coo_rows m /\ coo_cols r = coo_cols m /\
  combine (combine (coo_rowidx r) (coo_colidx r)) (coo_values r) =
    combine (combine (coo_rowidx m) (coo_colidx m)) (coo_values m) ++ flat_map call_entries calls.
Proof.
  intros m calls H F. revert m H. induction F as [|c calls Hc F IH]; intros m H; cbn [fold_left flat_map]; [rewrite app_nil_r; sp; apply H|].
  assert (H' : coo_sized (call_apply m c)).
  { destruct H as [H1 H2]. destruct c as [i j v|i j v]; unfold coo_sized; cbn; rewrite !app_length; cbn; [lia|]. destruct Hc. lia. }
  destruct (IH (call_apply m c) H') as (S1 & S2 & S3 & S4). sp; try assumption.
  - rewrite S2. destruct c; reflexivity.
  - rewrite S3. destruct c; reflexivity.
  - rewrite S4, app_assoc. f_equal. destruct H as [H1 H2]. destruct c as [i j v|i j v]; cbn.
    + rewrite !combine_app by (rewrite ?combine_length; lia). reflexivity.
    + rewrite !combine_app by (rewrite ?combine_length; lia). reflexivity.
Qed.
End Props.

(** C23: unary minus and CSR scaling apply to every stored value and change nothing else. *)
Section Neg.
Context {T : Type} {SC : Scalar T} {SN : ScalarNeg T}.
Lemma c56_one_call : forall (m : Coo T) c, coo_sized m -> (coo_sized (call_apply m c) <-> call_equal c).
Proof.
  intros m c [H1 H2]. destruct c as [i j v|i j v]; unfold coo_sized; cbn; rewrite !app_length; cbn; [split; [tauto|lia]|]. lia.
Qed.
Lemma c23_coo_neg : forall m : Coo T, coo_sized m -> exists r, Coo_neg m = Ok r /\ coo_mapped sneg m r.
Proof. intros m H. destruct (coo_map_ok sneg m H) as (r & E & M). exists r. unfold Coo_neg. rewrite E. sp; apply M. Qed.
Lemma c23_csr_neg : forall m : CSR T, csr_sized m -> exists r, CSR_neg m = Ok r /\ csr_mapped sneg m r.
Proof. intros m H. destruct (csr_map_ok sneg m H) as (r & E & M). exists r. unfold CSR_neg. rewrite E. sp; apply M. Qed.
Lemma c23_csc_neg : forall m : CSC T, csc_sized m -> exists r, CSC_neg m = Ok r /\ csc_mapped sneg m r.
Proof. intros m H. destruct (csc_map_ok sneg m H) as (r & E & M). exists r. unfold CSC_neg. rewrite E. sp; apply M. Qed.
Lemma c23_csr_scale : forall (m : CSR T) (s : T), csr_sized m ->
  (exists r, CSR_mul_scalar m s = Ok r /\ csr_mapped (fun v => smul v s) m r) /\
  (exists r, CSR_scalar_mul s m = Ok r /\ csr_mapped (fun v => smul s v) m r).
Proof.
  intros m s H. split.
  - destruct (csr_map_ok (fun v => smul v s) m H) as (r & E & M). exists r. unfold CSR_mul_scalar. rewrite E. sp; apply M.
  - destruct (csr_map_ok (fun v => smul s v) m H) as (r & E & M). exists r. unfold CSR_scalar_mul. rewrite E. sp; apply M.
Qed.
End Neg.

(** C52: complex parts, embeddings and conjugate transpose. *)
Section Complex.
Context {F C : Type} {SF : Scalar F} {CO : ComplexOps F C}.
Notation conj := (cconj (F := F) (C := C)).
Lemma c52_coo_parts : forall m : Coo C, coo_sized m ->
  (exists r, Coo_conj (F := F) m = Ok r /\ coo_mapped conj m r) /\
  (exists r, Coo_real m = Ok r /\ coo_mapped (cre (F := F)) m r) /\
  (exists r, Coo_imag m = Ok r /\ coo_mapped (cim (F := F)) m r).
Proof.
  intros m H. split; [|split].
  - destruct (coo_map_ok conj m H) as (r & E & M). exists r. unfold Coo_conj. rewrite E. sp; apply M.
  - destruct (coo_map_ok (cre (F := F)) m H) as (r & E & M). exists r. unfold Coo_real. rewrite E. sp; apply M.
  - destruct (coo_map_ok (cim (F := F)) m H) as (r & E & M). exists r. unfold Coo_imag. rewrite E. sp; apply M.
Qed.
Lemma c52_csr_parts : forall m : CSR C, csr_sized m ->
  (exists r, CSR_conj (F := F) m = Ok r /\ csr_mapped conj m r) /\
  (exists r, CSR_real m = Ok r /\ csr_mapped (cre (F := F)) m r) /\
  (exists r, CSR_imag m = Ok r /\ csr_mapped (cim (F := F)) m r).
Proof.
  intros m H. split; [|split].
  - destruct (csr_map_ok conj m H) as (r & E & M). exists r. unfold CSR_conj. rewrite E. sp; apply M.
  - destruct (csr_map_ok (cre (F := F)) m H) as (r & E & M). exists r. unfold CSR_real. rewrite E. sp; apply M.
  - destruct (csr_map_ok (cim (F := F)) m H) as (r & E & M). exists r. unfold CSR_imag. rewrite E. sp; apply M.
Qed.
Lemma c52_csc_parts : forall m : CSC C, csc_sized m ->
  (exists r, CSC_conj (F := F) m = Ok r /\ csc_mapped conj m r) /\
  (exists r, CSC_real m = Ok r /\ csc_mapped (cre (F := F)) m r) /\
  (exists r, CSC_imag m = Ok r /\ csc_mapped (cim (F := F)) m r).
Proof.
  intros m H. split; [|split].
  - destruct (csc_map_ok conj m H) as (r & E & M). exists r. unfold CSC_conj. rewrite E. sp; apply M.
  - destruct (csc_map_ok (cre (F := F)) m H) as (r & E & M). exists r. unfold CSC_real. rewrite E. sp; apply M.
  - destruct (csc_map_ok (cim (F := F)) m H) as (r & E & M). exists r. unfold CSC_imag. rewrite E. sp; apply M.
Qed.
Lemma c52_csr_embed : forall m : CSR F, csr_sized m ->
  (exists r, CSR_with_real (C := C) m = Ok r /\ csr_mapped (fun v => cnew v s0) m r) /\
  (exists r, CSR_with_imag (C := C) m = Ok r /\ csr_mapped (fun v => cnew s0 v) m r).
Proof.
  intros m H. split.
  - destruct (csr_map_ok (fun v => cnew (C := C) v s0) m H) as (r & E & M). exists r. unfold CSR_with_real. rewrite E. sp; apply M.
  - destruct (csr_map_ok (fun v => cnew (C := C) s0 v) m H) as (r & E & M). exists r. unfold CSR_with_imag. rewrite E. sp; apply M.
Qed.
Lemma c52_coo_h : forall m : Coo C, coo_sized m ->
  exists r, Coo_h (F := F) m = Ok r /\ coo_rows r = coo_cols m /\ coo_cols r = coo_rows m /\
    (forall i j, coo_at r j i = map conj (coo_at m i j)) /\
    ((forall v, conj (conj v) = v) -> Coo_h (F := F) r = Ok m).
Proof.
  intros m H. destruct (c52_coo_parts m H) as [(c & E & M) _]. exists (Coo_t c). unfold Coo_h at 1. rewrite E. cbn [bind].
  pose proof M as (M1 & M2 & M3 & M4 & M5 & M6). sp; try assumption.
  - intros i j. rewrite <- M6. apply (c08_coo_transpose U8 c).
  - intros J. unfold Coo_h, Coo_conj. cbn [Coo_t coo_rows coo_cols coo_rowidx coo_colidx coo_values]. destruct H as [H1 H2]. rewrite Coo_new_ok by (rewrite M5, !map_length; congruence).
    cbn [unwrap bind Coo_t coo_rows coo_cols coo_rowidx coo_colidx coo_values]. unfold Coo_t. cbn [coo_rows coo_cols coo_rowidx coo_colidx coo_values]. rewrite M1, M2, M3, M4, M5, map_map.
    rewrite (map_ext _ (fun v => v)) by exact J. rewrite map_id. destruct m; reflexivity.
Qed.
Lemma c52_csr_h : forall m : CSR C, csr_sized m ->
  exists r, CSR_h (F := F) m = Ok r /\ csc_rows r = csr_cols m /\ csc_cols r = csr_rows m /\
    (forall i j, csc_at r j i = map conj (csr_at m i j)) /\
    ((forall v, conj (conj v) = v) -> CSC_h (F := F) r = Ok m).
Proof.
  intros m H. destruct (c52_csr_parts m H) as [(c & E & M) _]. pose proof (csr_mapped_sized _ _ _ H M) as Hc. pose proof M as (M1 & M2 & M3 & M4 & M5 & M6).
  set (r := mkCSC (csr_cols c) (csr_rows c) (csr_colidx c) (csr_rowptr c) (csr_values c)).
  assert (Er : CSR_t c = Ok r) by (unfold CSR_t; rewrite CSC_new_mk by exact Hc; reflexivity).
  exists r. unfold CSR_h at 1. rewrite E. cbn [bind]. split; [exact Er|]. sp; try assumption.
  intros J. assert (Hr : csc_sized r) by exact Hc. destruct (c52_csc_parts r Hr) as [(d & Ed & Md) _]. pose proof (csc_mapped_sized _ _ _ Hr Md) as Hd. destruct Md as (D1 & D2 & D3 & D4 & D5 & _).
    unfold CSC_h. rewrite Ed. cbn [bind]. unfold CSC_t. rewrite CSR_new_mk by exact Hd.
    cbn [unwrap]. rewrite D1, D2, D3, D4, D5. unfold r. cbn [csc_rows csc_cols csc_rowidx csc_colptr csc_values]. rewrite M1, M2, M3, M4, M5, map_map.
    rewrite (map_ext _ (fun v => v)) by exact J. rewrite map_id. destruct m; reflexivity.
Qed.
Lemma c52_csc_h : forall m : CSC C, csc_sized m ->
  exists r, CSC_h (F := F) m = Ok r /\ csr_rows r = csc_cols m /\ csr_cols r = csc_rows m /\
    (forall i j, csr_at r j i = map conj (csc_at m i j)) /\
    ((forall v, conj (conj v) = v) -> CSR_h (F := F) r = Ok m).
Proof.
  intros m H. destruct (c52_csc_parts m H) as [(c & E & M) _]. pose proof (csc_mapped_sized _ _ _ H M) as Hc. pose proof M as (M1 & M2 & M3 & M4 & M5 & M6).
  set (r := mkCSR (csc_cols c) (csc_rows c) (csc_colptr c) (csc_rowidx c) (csc_values c)).
  assert (Er : CSC_t c = Ok r) by (unfold CSC_t; rewrite CSR_new_mk by exact Hc; reflexivity).
  exists r. unfold CSC_h at 1. rewrite E. cbn [bind]. split; [exact Er|]. sp; try assumption.
  intros J. assert (Hr : csr_sized r) by exact Hc. destruct (c52_csr_parts r Hr) as [(d & Ed & Md) _]. pose proof (csr_mapped_sized _ _ _ Hr Md) as Hd. destruct Md as (D1 & D2 & D3 & D4 & D5 & _).
    unfold CSR_h. rewrite Ed. cbn [bind]. unfold CSR_t. rewrite CSC_new_mk by exact Hd.
    cbn [unwrap]. rewrite D1, D2, D3, D4, D5. unfold r. cbn [csr_rows csr_cols csr_colidx csr_rowptr csr_values]. rewrite M1, M2, M3, M4, M5, map_map.
    rewrite (map_ext _ (fun v => v)) by exact J. rewrite map_id. destruct m; reflexivity.
Qed.
End Complex.

Lemma c22_csc_scale_wrong_refuted : exists (m : CSC Z) (s : Z), wf_csc I32 m /\
  exists r, CSC_mul_scalar m s = Ok r /\ csc_at m 1 0 = [4%Z] /\ csc_at r 1 0 = [] /\ csc_count r <> csc_count m.
Proof.
  exists (mkCSC 2 1 [0; 1] [0; 2] [3; 4])%Z, 5%Z. split; [check|]. eexists. split; [reflexivity|]. split; [reflexivity|]. split; [reflexivity|]. cbn. discriminate.
Qed.

Lemma c51_boundary_refuted : exists m : Coo Z, wf_coo I8 m /\ Z.of_nat (length (coo_values m)) = imax I8 /\ Coo_to_csr I8 m = Panic.
Proof.
  exists (mkCoo 2 127 (repeat 0%Z 127) (map Z.of_nat (seq 0 127)) (repeat 7%Z 127)). split; [|split].
  - apply wf_coo_check. vm_compute. reflexivity.
  - vm_compute. reflexivity.
  - vm_compute. reflexivity.
Qed.

Lemma c56_extend_refuted : exists (m : Coo Z) c, coo_sized m /\ wf_coo I32 m /\ ~ coo_sized (call_apply m c).
Proof.
  exists (mkCoo 2 2 [0] [1] [5])%Z, (CExtend [1; 1] [0] [7; 8])%Z. split; [split; reflexivity|]. split; [check|]. intros [_ H]. discriminate H.
Qed.
