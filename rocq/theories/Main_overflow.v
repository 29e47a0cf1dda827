(** Proofs of the theorems of Props_overflow.v, under the same names in lower case. *)
From Verif Require Import Rust Debug Scalar Model_kernels Model_matrix Model_dok Model_checked Spec SpecChecked Wp Rep ScatterProofs CanonProofs
  ConvProofs LinProofs Lin2Proofs TableProofs StructProofs BlockProofs DokProofs CheckedProofs CheckedExact CheckedDup
  Main_convert Main_linear Main_struct BinopProofs ArithProofs BinopExact Main_addition CheckedBinop MatmatProofs SpecBoundary Main_product Main_fit CheckedProduct Main_checked.

Section All.
Context {T : Type} {SC : Scalar T} {CK : Checked T} {L : CheckedLaw True T}.
Variable I : ity.

Lemma c91_csr_sum_duplicates : forall m : CSR T, wf_csr I m ->
  panics_iff (exists i j, i < csr_rows m /\ dup_overflows (csr_at m i j)) (CSR_sum_duplicates_ck I m) (CSR_sum_duplicates I m).
Proof.
  intros m H. destruct (wf_csr_rep _ _ H) as [R HR]. eapply panics_iff_iff; [|apply (CSR_sumdup_iff I m R HR)]. unfold rows_ov. split.
  - intros (r & q & Hr & Ho). apply (In_nth _ _ []) in Hr as (i & Hi & <-). exists i, q. rewrite (csr_rep_at _ _ _ _ _ HR), <- (proj1 HR). auto.
  - intros (i & q & Hi & Ho). rewrite (csr_rep_at _ _ _ _ _ HR) in Ho. exists (nth i R []), q. split; [|exact Ho]. apply nth_In. rewrite (proj1 HR). exact Hi.
Qed.
Lemma c91_csc_sum_duplicates : forall m : CSC T, wf_csc I m ->
  panics_iff (exists i j, j < csc_cols m /\ dup_overflows (csc_at m i j)) (CSC_sum_duplicates_ck I m) (CSC_sum_duplicates I m).
Proof.
  intros m H. destruct (wf_csc_rep _ _ H) as [R HR]. eapply panics_iff_iff; [|apply (CSC_sumdup_iff I m R HR)]. unfold rows_ov. split.
  - intros (r & q & Hr & Ho). apply (In_nth _ _ []) in Hr as (i & Hi & <-). exists q, i. rewrite (csc_rep_at _ _ _ _ _ HR), <- (proj1 HR). auto.
  - intros (q & i & Hi & Ho). rewrite (csc_rep_at _ _ _ _ _ HR) in Ho. exists (nth i R []), q. split; [|exact Ho]. apply nth_In. rewrite (proj1 HR). exact Hi.
Qed.
Lemma c91_coo_to_csr : forall m : Coo T, wf_coo I m ->
  panics_iff (exists i j, dup_overflows (coo_at m i j)) (Coo_to_csr_ck I m) (Coo_to_csr I m).
Proof.
  intros m H. eapply panics_iff_iff; [|apply (Coo_to_csr_iff I m H)]. unfold rows_ov. split.
  - intros (r & q & Hr & Ho). unfold buckets in Hr. apply in_map_iff in Hr as (i & <- & Hi). rewrite coo_at_bucket in Ho. eauto.
  - intros (i & q & Ho). exists (bucket (keyed (coo_entries m)) i), q. rewrite coo_at_bucket. split; [|exact Ho]. unfold buckets. apply in_map, in_seq.
    split; [lia|]. destruct (le_lt_dec (coo_rows m) i) as [G|G]; [|exact G]. exfalso.
    rewrite coo_at_entries in Ho. unfold entries_at in Ho. rewrite (outside_at I (coo_rows m) (coo_cols m)) in Ho; [apply (dup_ov_nil Ho)| |auto]. apply (wf_coo_is I m H).
Qed.
Lemma c91_coo_to_csc : forall m : Coo T, wf_coo I m ->
  panics_iff (exists i j, dup_overflows (coo_at m i j)) (Coo_to_csc_ck I m) (Coo_to_csc I m).
Proof.
  intros m H. eapply panics_iff_iff; [|apply (Coo_to_csc_iff I m H)]. unfold rows_ov. split.
  - intros (r & q & Hr & Ho). unfold buckets in Hr. apply in_map_iff in Hr as (i & <- & Hi). rewrite coo_at_bucket_col in Ho. eauto.
  - intros (q & i & Ho). exists (bucket (keyed (map swap_entry (coo_entries m))) i), q. rewrite coo_at_bucket_col. split; [|exact Ho]. unfold buckets. apply in_map, in_seq.
    split; [lia|]. destruct (le_lt_dec (coo_cols m) i) as [G|G]; [|exact G]. exfalso.
    rewrite coo_at_entries in Ho. unfold entries_at in Ho. rewrite (outside_at I (coo_rows m) (coo_cols m)) in Ho; [apply (dup_ov_nil Ho)| |auto]. apply (wf_coo_is I m H).
Qed.
Lemma c91_coo_add : forall a b : Coo T, wf_coo I a -> wf_coo I b ->
  panics_iff (coo_rows a = coo_rows b /\ coo_cols a = coo_cols b /\ exists i j, dup_overflows (coo_at a i j ++ coo_at b i j)) (Coo_add_ck I a b) (Coo_add I a b).
Proof.
  intros a b HA HB. unfold Coo_add_ck, Coo_add.
  destruct (Nat.eqb_spec (coo_rows a) (coo_rows b)) as [E1|]; [|split; [tauto|reflexivity]].
  destruct (Nat.eqb_spec (coo_cols a) (coo_cols b)) as [E2|]; [|split; [tauto|reflexivity]]. cbn [negb].
  destruct (wf_coo_is I a HA) as [EA FA], (wf_coo_is I b HB) as [EB FB]. set (LA := coo_entries a) in *. set (LB := coo_entries b) in *.
  assert (N : Coo_new (coo_rows b) (coo_cols b) (coo_rowidx a ++ coo_rowidx b) (coo_colidx a ++ coo_colidx b) (coo_values a ++ coo_values b) = Ok (coo_of (coo_rows b) (coo_cols b) (LA ++ LB))).
  { rewrite EA, EB. cbn [coo_of coo_rowidx coo_colidx coo_values coo_rows coo_cols]. rewrite Coo_new_ok by (unfold zrow, zcol; rewrite !app_length, !map_length; reflexivity).
    unfold coo_of. rewrite zrow_app, zcol_app, map_app. reflexivity. }
  rewrite E1, E2, N. cbn [unwrap bind]. eapply panics_iff_iff; [|apply c91_coo_to_csr].
  - split; [intros (i & j & H)|intros (_ & _ & i & j & H)]; [split; [reflexivity|split; [reflexivity|]]|]; exists i, j;
      [|]; unfold coo_at in *; rewrite coo_of_entries, filter_app, map_app in *; exact H.
  - apply wf_coo_of. apply Forall_app. split; [|exact FB]. rewrite E1, E2 in FA. exact FA.
Qed.
Lemma c91_csr_h_stack : forall a b : CSR T, wf_csr I a -> wf_csr I b -> csr_tight a -> csr_tight b -> csr_rows_fit I a -> csr_rows_fit I b ->
  csr_rows a = csr_rows b -> (Z.of_nat (csr_cols a + csr_cols b) <= Z.min (imax I + 1) (imax Usize))%Z ->
  panics_iff (exists i j, i < csr_rows a /\ (dup_overflows (csr_at a i j) \/ dup_overflows (csr_at b i j))) (CSR_h_stack_ck I a b) (CSR_h_stack I a b).
Proof.
  intros a b HA HB TA TB FA FB E Hc.
  destruct (c06_csr_to_coo I a HA FA TA) as (ca & EA & WA & A1 & A2 & A3 & A4). destruct (c06_csr_to_coo I b HB FB TB) as (cb & EB & WB & B1 & B2 & B3 & B4).
  unfold CSR_h_stack_ck, CSR_h_stack. rewrite EA, EB. cbn [bind]. destruct (c25_h_stack I ca cb WA WB) as [_ S2]. rewrite A1, B1, A2, B2 in S2.
  destruct (S2 E Hc) as (c & -> & W & D1 & D2 & D3 & D4). cbn [bind]. eapply panics_iff_iff; [|apply (c91_coo_to_csr c W)]. 
  assert (Out : forall i j, csr_rows a <= i -> coo_at c i j = []).
  { intros i j Hi. rewrite coo_at_entries. unfold entries_at. apply (outside_at I (coo_rows c) (coo_cols c)); [apply (wf_coo_is I c W)|]. rewrite D1. auto. }
  assert (OutA : forall i j, csr_cols a <= j -> coo_at ca i j = []).
  { intros i j Hi. rewrite coo_at_entries. unfold entries_at. apply (outside_at I (coo_rows ca) (coo_cols ca)); [apply (wf_coo_is I ca WA)|]. rewrite A2. auto. }
  split.
  - intros (i & j & Ho). destruct (le_lt_dec (csr_rows a) i) as [Hi|Hi]; [rewrite Out in Ho by exact Hi; destruct (dup_ov_nil Ho)|].
    rewrite D4 in Ho. destruct (j <? csr_cols a).
    + exists i, j. rewrite A4 in Ho by exact Hi. auto.
    + exists i, (j - csr_cols a). rewrite B4 in Ho by lia. auto.
  - intros (i & j & Hi & [Ho|Ho]).
    + exists i, j. rewrite D4. destruct (Nat.ltb_spec j (csr_cols a)) as [Hj|Hj]; [rewrite A4 by exact Hi; exact Ho|].
      exfalso. rewrite <- A4, OutA in Ho by assumption. apply (dup_ov_nil Ho).
    + exists i, (j + csr_cols a). rewrite D4. destruct (Nat.ltb_spec (j + csr_cols a) (csr_cols a)) as [Hj|Hj]; [lia|].
      rewrite Nat.add_sub, B4 by lia. exact Ho.
Qed.
Lemma c91_csc_compose : forall a b c d : CSC T, wf_csc I a -> wf_csc I b -> wf_csc I c -> wf_csc I d ->
  csc_rows a = csc_rows b -> csc_rows c = csc_rows d -> csc_cols a + csc_cols b = csc_cols c + csc_cols d ->
  (Z.of_nat (csc_cols a + csc_cols b) <= Z.min (imax I + 1) (imax Usize))%Z -> (Z.of_nat (csc_rows a + csc_rows c) <= Z.min (imax I + 1) (imax Usize))%Z ->
  panics_iff (exists m i j, In m [a; b; c; d] /\ j < csc_cols m /\ dup_overflows (csc_at m i j)) (CSC_compose_ck I a b c d) (CSC_compose I a b c d).
Proof.
  intros a b c d H0 H1 H2 H3 G1 G2 G3 F1 F3.
  destruct (c07_csc_to_coo I a H0) as (b0 & E0 & W0 & A0 & B0 & L0 & V0). { intros j Hj _. lia. }
  destruct (c07_csc_to_coo I b H1) as (b1 & E1 & W1 & A1 & B1 & L1 & V1). { intros j Hj _. lia. }
  destruct (c07_csc_to_coo I c H2) as (b2 & E2 & W2 & A2 & B2 & L2 & V2). { intros j Hj _. lia. }
  destruct (c07_csc_to_coo I d H3) as (b3 & E3 & W3 & A3 & B3 & L3 & V3). { intros j Hj _. lia. }
  assert (EC : CSC_compose I a b c d = let* c := Coo_compose I b0 b1 b2 b3 in Coo_to_csc I c).
  { unfold CSC_compose, Coo_compose. rewrite E0, E1, E2, E3. cbn [bind]. destruct (Coo_h_stack I b0 b1); [|reflexivity..]. cbn [bind]. destruct (Coo_h_stack I b2 b3); reflexivity. }
  assert (EK : CSC_compose_ck I a b c d = let* c := Coo_compose I b0 b1 b2 b3 in Coo_to_csc_ck I c).
  { unfold CSC_compose_ck, Coo_compose. rewrite E0, E1, E2, E3. cbn [bind]. destruct (Coo_h_stack I b0 b1); [|reflexivity..]. cbn [bind]. destruct (Coo_h_stack I b2 b3); reflexivity. }
  rewrite EC, EK. clear EC EK. pose proof (c25_compose I b0 b1 b2 b3 W0 W1 W2 W3) as S. cbv zeta in S. rewrite A0, A1, A2, A3, B0, B1, B2, B3 in S.
  assert (F2 : (Z.of_nat (csc_cols c + csc_cols d) <= Z.min (imax I + 1) (imax Usize))%Z) by (rewrite <- G3; exact F1).
  destruct (S F1 F2 F3) as [_ S2]. destruct S2 as (r & -> & W & D1 & D2 & D3 & D4); [auto|]. cbn [bind].
  eapply panics_iff_iff; [|apply (c91_coo_to_csc r W)].
  assert (Out : forall (m : Coo T), wf_coo I m -> forall i j, coo_rows m <= i \/ coo_cols m <= j -> coo_at m i j = []).
  { intros m Hm i j Hi. rewrite coo_at_entries. unfold entries_at. apply (outside_at I (coo_rows m) (coo_cols m)); [apply (wf_coo_is I m Hm)|exact Hi]. }
  split.
  - intros (i & j & Ho). destruct (le_lt_dec (csc_cols a + csc_cols b) j) as [Hj|Hj].
    { rewrite (Out r W) in Ho by (right; rewrite D2; exact Hj). destruct (dup_ov_nil Ho). }
    rewrite D4 in Ho. destruct (i <? csc_rows a).
    + destruct (Nat.ltb_spec j (csc_cols a)).
      * exists a, i, j. rewrite V0 in Ho by lia. cbn. auto.
      * exists b, i, (j - csc_cols a). rewrite V1 in Ho by lia. cbn. split; [auto|]. split; [lia|exact Ho].
    + destruct (Nat.ltb_spec j (csc_cols c)).
      * exists c, (i - csc_rows a), j. rewrite V2 in Ho by lia. cbn. auto.
      * exists d, (i - csc_rows a), (j - csc_cols c). rewrite V3 in Ho by lia. cbn. split; [auto|]. split; [lia|exact Ho].
  - intros (m & i & j & Hm & Hj & Ho). cbn [In] in Hm. destruct Hm as [<-|[<-|[<-|[<-|[]]]]].
    + rewrite <- V0 in Ho by exact Hj. destruct (le_lt_dec (coo_rows b0) i) as [Hi|Hi]; [rewrite (Out b0 W0) in Ho by auto; destruct (dup_ov_nil Ho)|].
      exists i, j. rewrite D4. destruct (Nat.ltb_spec i (csc_rows a)); [|lia]. destruct (Nat.ltb_spec j (csc_cols a)); [|lia]. exact Ho.
    + rewrite <- V1 in Ho by exact Hj. destruct (le_lt_dec (coo_rows b1) i) as [Hi|Hi]; [rewrite (Out b1 W1) in Ho by auto; destruct (dup_ov_nil Ho)|].
      exists i, (j + csc_cols a). rewrite D4. destruct (Nat.ltb_spec i (csc_rows a)); [|lia]. destruct (Nat.ltb_spec (j + csc_cols a) (csc_cols a)); [lia|]. rewrite Nat.add_sub. exact Ho.
    + rewrite <- V2 in Ho by exact Hj. exists (i + csc_rows a), j. rewrite D4. destruct (Nat.ltb_spec (i + csc_rows a) (csc_rows a)); [lia|].
      destruct (Nat.ltb_spec j (csc_cols c)); [|lia]. rewrite Nat.add_sub. exact Ho.
    + rewrite <- V3 in Ho by exact Hj. exists (i + csc_rows a), (j + csc_cols c). rewrite D4. destruct (Nat.ltb_spec (i + csc_rows a) (csc_rows a)); [lia|].
      destruct (Nat.ltb_spec (j + csc_cols c) (csc_cols c)); [lia|]. rewrite !Nat.add_sub. exact Ho.
Qed.
Lemma c91_dok_convert : forall (d : DoK T) order, wf_dok I d -> Permutation order (dok_values d) -> seqb (T := T) s0 s0 = true ->
  DoK_to_csr_ck I d order = DoK_to_csr I d order /\ DoK_to_csc_ck I d order = DoK_to_csc I d order.
Proof.
  intros d order W P Z0. destruct (DoK_to_coo_spec I d order W P) as (c & E & H & _ & _ & _ & _ & A). specialize (A Z0).
  assert (N : ~ exists i j, dup_overflows (coo_at c i j)).
  { intros (i & j & Ho). rewrite A in Ho. unfold dok_cell, nz in Ho. destruct (seqb (DoK_get _ _ _) s0); [apply (dup_ov_nil Ho)|apply (dup_ov_one _ Ho)]. }
  unfold DoK_to_csr_ck, DoK_to_csr, DoK_to_csc_ck, DoK_to_csc. rewrite E. cbn [bind].
  split; [apply (c91_coo_to_csr c H), N|apply (c91_coo_to_csc c H), N].
Qed.

Lemma kernel_iff {T2} {NZ : Nonzero T2} (cop op : T -> T -> res T2) (f : T -> T -> T2) :
  (forall u v, cop u v = Panic \/ cop u v = Ok (f u v)) -> (forall u v, panics_or True (cop u v) (op u v)) ->
  kernel_overflow I cop (csr_binop_csr_ck I cop) (csr_binop_csr I op).
Proof.
  intros Hcop Hop a b c_p c_j c_x WA WB Er Ec LP LJ LX. destruct (wf_csr_rep _ _ WA) as [RA RPA], (wf_csr_rep _ _ WB) as [RB RPB].
  rewrite (csr_rep_count _ _ _ RPA), (csr_rep_count _ _ _ RPB) in LJ, LX.
  pose proof (both_csr I a b RA RB RPA RPB) as BC. pose proof RPA as [LA HA]. pose proof RPB as [LB HB]. rewrite Ec in HB. rewrite Er in LB.
  eapply panics_iff_iff; [|apply (binop_iff I cop op f Hcop Hop _ _ _ _ _ _ _ _ RA RB HA HB LA LB); [lia|assumption..]].
  unfold rep_ov, touched, csr_op_overflows. rewrite BC.
  assert (Occ : forall i j, (In j (map fst (nth i RA [])) \/ In j (map fst (nth i RB []))) <-> csr_at a i j ++ csr_at b i j <> []).
  { intros i j. rewrite <- !at_occ, (csr_rep_at _ _ _ _ _ RPA), (csr_rep_at _ _ _ _ _ RPB). split; [intros H E; apply app_eq_nil in E; tauto|].
    intros H. destruct (at_ j (nth i RA [])); [right; exact H|left; discriminate]. }
  split.
  - intros [[C (i & k & [Hi Hk] & Ho)]|[C (i & k & [Hi Hk] & Ho)]]; exists i, k; rewrite (csr_rep_at _ _ _ _ _ RPA), (csr_rep_at _ _ _ _ _ RPB).
    + apply Occ in Hk. rewrite (csr_rep_at _ _ _ _ _ RPA), (csr_rep_at _ _ _ _ _ RPB) in Hk. tauto.
    + apply Occ in Hk. rewrite (csr_rep_at _ _ _ _ _ RPA), (csr_rep_at _ _ _ _ _ RPB) in Hk. tauto.
  - intros (i & k & Hi & Hk & Ho). apply Occ in Hk. rewrite (csr_rep_at _ _ _ _ _ RPA), (csr_rep_at _ _ _ _ _ RPB) in Ho.
    destruct Ho as [[C Ho]|[C Ho]]; [left|right]; (split; [exact C|]); exists i, k; tauto.
Qed.
(** a CSC matrix read as the CSR matrix with the same arrays *)
Definition flip (m : CSC T) : CSR T := mkCSR (csc_cols m) (csc_rows m) (csc_colptr m) (csc_rowidx m) (csc_values m).
Lemma flip_wf m : wf_csc I m -> wf_csr I (flip m).
Proof. intros H. destruct (wf_csc_rep _ _ H) as [R [L1 L2]]. apply (csr_rep_wf I _ R). split; assumption. Qed.
Lemma flip_over {T2} (op : T -> T -> res T2) (a b : CSC T) : csr_op_overflows op (flip a) (flip b) <-> csc_op_overflows op a b.
Proof. split; intros (i & j & H); exists j, i; exact H. Qed.

Lemma c91_kernels : forall (SO : ScalarOrd T),
  kernel_overflow I cadd (csr_add_csr_ck I) (csr_add_csr I) /\ kernel_overflow I csub (csr_sub_csr_ck I) (csr_sub_csr I) /\
  kernel_overflow I cmul (csr_mul_csr_ck I) (csr_mul_csr I) /\
  ((forall u v, sdiv u v = Panic \/ exists q, sdiv u v = Ok q) -> kernel_overflow I cdiv (csr_div_csr_ck I) (csr_div_csr I)) /\
  kernel_overflow I (fun u v => Ok (seqb u v)) (csr_eq_csr_ck I) (csr_eq_csr I) /\
  kernel_overflow I (fun u v => Ok (negb (seqb u v))) (csr_ne_csr_ck I) (csr_ne_csr I) /\
  kernel_overflow I (fun u v => Ok (sltb u v)) (csr_lt_csr_ck I) (csr_lt_csr I) /\
  kernel_overflow I (fun u v => Ok (sltb v u)) (csr_gt_csr_ck I) (csr_gt_csr I) /\
  kernel_overflow I (fun u v => Ok (sleb u v)) (csr_le_csr_ck I) (csr_le_csr I) /\
  kernel_overflow I (fun u v => Ok (sleb v u)) (csr_ge_csr_ck I) (csr_ge_csr I) /\
  kernel_overflow I (fun u v => Ok (if sltb v u then u else v)) (csr_max_csr_ck I) (csr_max_csr I) /\
  kernel_overflow I (fun u v => Ok (if sltb u v then u else v)) (csr_min_csr_ck I) (csr_min_csr I).
Proof.
  intros SO.
  assert (P : forall {T2} {NZ : Nonzero T2} (f : T -> T -> T2),
    kernel_overflow I (fun u v => Ok (f u v)) (csr_binop_csr_ck I (fun u v => Ok (f u v))) (csr_binop_csr I (fun u v => Ok (f u v)))).
  { intros T2 NZ f. apply (kernel_iff _ _ f); intros; right; reflexivity. }
  repeat apply Logic.conj; try apply P.
  - apply (kernel_iff _ _ sadd); intros u v; destruct (law_add u v) as [[E _]|E]; rewrite E; [left; reflexivity|right; reflexivity|left; auto|right; reflexivity].
  - apply (kernel_iff _ _ ssub); intros u v; destruct (law_sub u v) as [[E _]|E]; rewrite E; [left; reflexivity|right; reflexivity|left; auto|right; reflexivity].
  - apply (kernel_iff _ _ smul); intros u v; destruct (law_mul u v) as [[E _]|E]; rewrite E; [left; reflexivity|right; reflexivity|left; auto|right; reflexivity].
  - intros HD. apply (kernel_iff _ _ (fun u v => match sdiv u v with Ok q => q | _ => s0 end)); intros u v; destruct (law_div u v) as [[E _]|E]; rewrite E.
    + left; reflexivity. + destruct (HD u v) as [-> | [q ->]]; [left|right]; reflexivity. + left; auto. + right; reflexivity.
Qed.

Section Kern.
Variables (cop : T -> T -> res T) (f : T -> T -> T).
Hypothesis K : kernel_overflow I cop (csr_binop_csr_ck I cop) (csr_binop_csr I (fun u v => Ok (f u v))).
Lemma csr_sum_iff (a b : CSR T) {B} (k k' : list Z * list Z * list T -> res B) : wf_csr I a -> wf_csr I b -> csr_rows b = csr_rows a -> csr_cols b = csr_cols a -> (forall x, k x = k' x) ->
  panics_iff (csr_op_overflows cop a b)
   (let* na := CSR_nnz a in let* nb := CSR_nnz b in
    let* r := csr_binop_csr_ck I cop (csr_rows a) (csr_cols a) (csr_rowptr a) (csr_colidx a) (csr_values a)
      (csr_rowptr b) (csr_colidx b) (csr_values b) (repeat 0%Z (csr_rows a + 1)) (repeat 0%Z (na + nb)) (repeat s0 (na + nb)) in k r)
   (let* na := CSR_nnz a in let* nb := CSR_nnz b in
    let* r := csr_binop_csr I (fun u v => Ok (f u v)) (csr_rows a) (csr_cols a) (csr_rowptr a) (csr_colidx a) (csr_values a)
      (csr_rowptr b) (csr_colidx b) (csr_values b) (repeat 0%Z (csr_rows a + 1)) (repeat 0%Z (na + nb)) (repeat s0 (na + nb)) in k' r).
Proof.
  intros WA WB Er Ec Hk. destruct (wf_csr_rep _ _ WA) as [RA RPA], (wf_csr_rep _ _ WB) as [RB RPB].
  rewrite (CSR_nnz_rep _ _ _ RPA), (CSR_nnz_rep _ _ _ RPB). cbn [bind].
  pose proof (K a b (repeat 0%Z (csr_rows a + 1)) (repeat 0%Z (length (concat RA) + length (concat RB))) (repeat s0 (length (concat RA) + length (concat RB))) WA WB Er Ec
    ltac:(apply repeat_length) ltac:(rewrite repeat_length, (csr_rep_count _ _ _ RPA), (csr_rep_count _ _ _ RPB); lia) ltac:(rewrite repeat_length, (csr_rep_count _ _ _ RPA), (csr_rep_count _ _ _ RPB); lia)) as H.
  apply (panics_iff_bind _ _ _ k) in H. destruct H as [H1 H2]. split; [exact H1|]. intros N. etransitivity; [apply (H2 N)|].
  destruct (csr_binop_csr I _ _ _ _ _ _ _ _ _ _ _ _) as [x| | |]; [apply Hk|reflexivity..].
Qed.
Lemma csc_sum_iff (a b : CSC T) c_p {B} (k k' : list Z * list Z * list T -> res B) : wf_csc I a -> wf_csc I b -> csc_rows b = csc_rows a -> csc_cols b = csc_cols a -> length c_p = csc_cols a + 1 -> (forall x, k x = k' x) ->
  panics_iff (csc_op_overflows cop a b)
   (let* na := CSC_nnz a in let* nb := CSC_nnz b in
    let* r := csr_binop_csr_ck I cop (csc_cols a) (csc_rows a) (csc_colptr a) (csc_rowidx a) (csc_values a)
      (csc_colptr b) (csc_rowidx b) (csc_values b) c_p (repeat 0%Z (na + nb)) (repeat s0 (na + nb)) in k r)
   (let* na := CSC_nnz a in let* nb := CSC_nnz b in
    let* r := csr_binop_csr I (fun u v => Ok (f u v)) (csc_cols a) (csc_rows a) (csc_colptr a) (csc_rowidx a) (csc_values a)
      (csc_colptr b) (csc_rowidx b) (csc_values b) c_p (repeat 0%Z (na + nb)) (repeat s0 (na + nb)) in k' r).
Proof.
  intros WA WB Er Ec LP Hk. destruct (wf_csc_rep _ _ WA) as [RA RPA], (wf_csc_rep _ _ WB) as [RB RPB].
  rewrite (CSC_nnz_rep _ _ _ RPA), (CSC_nnz_rep _ _ _ RPB). cbn [bind].
  pose proof (K (flip a) (flip b) c_p (repeat 0%Z (length (concat RA) + length (concat RB))) (repeat s0 (length (concat RA) + length (concat RB))) (flip_wf a WA) (flip_wf b WB) Ec Er
    LP ltac:(rewrite repeat_length; change (csr_count (flip a)) with (csc_count a); change (csr_count (flip b)) with (csc_count b);
      rewrite (csc_rep_count _ _ _ RPA), (csc_rep_count _ _ _ RPB); lia)
    ltac:(rewrite repeat_length; change (csr_count (flip a)) with (csc_count a); change (csr_count (flip b)) with (csc_count b);
      rewrite (csc_rep_count _ _ _ RPA), (csc_rep_count _ _ _ RPB); lia)) as H.
  apply (panics_iff_iff _ _ _ _ (flip_over cop a b)) in H.
  apply (panics_iff_bind _ _ _ k) in H. destruct H as [H1 H2]. split; [exact H1|]. intros N. etransitivity; [apply (H2 N)|].
  change (csr_binop_csr I (fun u v => Ok (f u v)) (csr_rows (flip a))) with (csr_binop_csr I (fun u v => Ok (f u v)) (csc_cols a)). cbn [flip csr_cols csr_rowptr csr_colidx csr_values].
  destruct (csr_binop_csr I _ _ _ _ _ _ _ _ _ _ _ _) as [x| | |]; [apply Hk|reflexivity..].
Qed.
End Kern.
Lemma kernel_add : kernel_overflow I cadd (csr_binop_csr_ck I cadd) (csr_binop_csr I (fun u v => Ok (sadd u v))).
Proof. apply (kernel_iff _ _ sadd); intros u v; destruct (law_add u v) as [[E _]|E]; rewrite E; [left; reflexivity|right; reflexivity|left; auto|right; reflexivity]. Qed.
Lemma kernel_sub : kernel_overflow I csub (csr_binop_csr_ck I csub) (csr_binop_csr I (fun u v => Ok (ssub u v))).
Proof. apply (kernel_iff _ _ ssub); intros u v; destruct (law_sub u v) as [[E _]|E]; rewrite E; [left; reflexivity|right; reflexivity|left; auto|right; reflexivity]. Qed.
Lemma c91_csr_sums : forall a b : CSR T, wf_csr I a -> wf_csr I b -> csr_rows b = csr_rows a -> csr_cols b = csr_cols a ->
  panics_iff (csr_op_overflows cadd a b) (CSR_add_ck I a b) (CSR_add I a b) /\
  panics_iff (csr_op_overflows csub a b) (CSR_sub_ck I a b) (CSR_sub I a b).
Proof.
  intros a b WA WB Er Ec. split.
  - apply (csr_sum_iff cadd sadd kernel_add a b); try assumption. intros [[p j] x]. reflexivity.
  - apply (csr_sum_iff csub ssub kernel_sub a b); try assumption. intros [[p j] x]. reflexivity.
Qed.
Lemma c91_csc_sums : forall a b : CSC T, wf_csc I a -> wf_csc I b -> csc_rows b = csc_rows a -> csc_cols b = csc_cols a ->
  panics_iff (csc_op_overflows cadd a b) (CSC_add_ck I a b) (CSC_add I a b) /\
  panics_iff (csc_op_overflows csub a b) (CSC_subtract_ck I a b) (CSC_subtract I a b) /\
  panics_iff (csc_op_overflows cadd a b) (CSC_op_add_ck I a b) (CSC_op_add I a b) /\
  panics_iff (csc_op_overflows csub a b) (CSC_op_sub_ck I a b) (CSC_op_sub I a b).
Proof.
  intros a b WA WB Er Ec.
  assert (LP : length (repeat 0%Z (length (csc_colptr a))) = csc_cols a + 1).
  { destruct (wf_csc_rep _ _ WA) as [RA [LA HA]]. rewrite repeat_length, (cr_len _ _ _ _ _ _ HA). lia. }
  assert (LP' : length (repeat 0%Z (csc_cols a + 1)) = csc_cols a + 1) by apply repeat_length.
  split; [|split; [|split]].
  - unfold CSC_add_ck, CSC_add. rewrite Er, Ec, !Nat.eqb_refl. cbn [negb orb]. apply (csc_sum_iff cadd sadd kernel_add a b); try assumption. intros [[p j] x]. reflexivity.
  - unfold CSC_subtract_ck, CSC_subtract. rewrite Er, Ec, !Nat.eqb_refl. cbn [negb orb]. apply (csc_sum_iff csub ssub kernel_sub a b); try assumption. intros [[p j] x]. reflexivity.
  - apply (csc_sum_iff cadd sadd kernel_add a b); try assumption. intros [[p j] x]. reflexivity.
  - apply (csc_sum_iff csub ssub kernel_sub a b); try assumption. intros [[p j] x]. reflexivity.
Qed.

Lemma in_at_row (l : list (nat * T)) k v : In v (at_ k l) <-> exists e, In e l /\ fst e = k /\ snd e = v.
Proof.
  unfold at_. rewrite in_map_iff. split.
  - intros (e & <- & He). apply filter_In in He as [He Ek]. apply Nat.eqb_eq in Ek. eauto.
  - intros (e & He & <- & <-). exists e. split; [reflexivity|]. apply filter_In. split; [exact He|apply Nat.eqb_refl].
Qed.
Lemma prod_ov_at n RA RB : prod_ov n RA RB <-> exists i k, i < n /\
  ((exists j u v, In u (at_ j (nth i RA [])) /\ In v (at_ k (nth j RB [])) /\ cmul u v = Panic) \/ sum_overflows (at_ k (prodrow RB (nth i RA [])))).
Proof.
  unfold prod_ov. split.
  - intros (i & Hi & [(e & f & He & Hf & Hp)|(k & Ho)]).
    + exists i, (fst f). split; [exact Hi|]. left. exists (fst e), (snd e), (snd f). rewrite !in_at_row. eauto 10.
    + exists i, k. auto.
  - intros (i & k & Hi & [(j & u & v & Hu & Hv & Hp)|Ho]); exists i; (split; [exact Hi|]).
    + left. apply in_at_row in Hu as (e & He & <- & <-). apply in_at_row in Hv as (f & Hf & _ & <-). eauto.
    + right. eauto.
Qed.
Lemma c91_csr_product : forall a b : CSR T, wf_csr I a -> wf_csr I b -> csr_cols a = csr_rows b ->
  panics_iff (csr_product_overflows a b) (CSR_mat_mat_ck I a b) (CSR_mat_mat I a b) /\
  panics_iff (csr_product_overflows a b) (CSR_mul_ck I a b) (CSR_mul I a b).
Proof.
  intros a b WA WB E. enough (H : panics_iff (csr_product_overflows a b) (CSR_mat_mat_ck I a b) (CSR_mat_mat I a b)).
  { split; [exact H|]. apply panics_iff_unwrap, H. }
  destruct (wf_csr_rep _ _ WA) as [RA RPA], (wf_csr_rep _ _ WB) as [RB RPB].
  unfold CSR_mat_mat_ck, CSR_mat_mat. rewrite E, Nat.eqb_refl. cbn [negb]. pose proof RPA as [LA HA]. pose proof RPB as [LB HB]. rewrite E in HA.
  rewrite (maxnnz_spec I _ _ _ _ _ _ _ _ _ _ _ HA HB LA LB). cbn [bind]. apply panics_iff_bind.
  eapply panics_iff_iff; [|apply (matmat_iff I _ _ _ _ _ _ _ _ _ _ _ HA HB LA LB); rewrite repeat_length; lia].
  rewrite prod_ov_at. unfold csr_product_overflows.
  split; intros (i & k & Hi & Ho); exists i, k; (split; [exact Hi|]); rewrite (csr_products_rep I _ _ RA RB _ _ RPA RPB) in *;
    (destruct Ho as [(j & u & v & Hu & Hv & Hp)|Ho]; [left; exists j, u, v; rewrite (csr_rep_at _ _ _ _ _ RPA), (csr_rep_at _ _ _ _ _ RPB) in *; auto|right; exact Ho]).
Qed.
Lemma c91_csc_product : forall a b : CSC T, wf_csc I a -> wf_csc I b -> csc_cols a = csc_rows b ->
  panics_iff (csc_product_overflows a b) (CSC_mat_mat_ck I a b) (CSC_mat_mat I a b) /\
  panics_iff (csc_product_overflows a b) (CSC_mul_ck I a b) (CSC_mul I a b).
Proof.
  intros a b WA WB E. enough (H : panics_iff (csc_product_overflows a b) (CSC_mat_mat_ck I a b) (CSC_mat_mat I a b)).
  { split; [exact H|]. apply panics_iff_unwrap, H. }
  destruct (wf_csc_rep _ _ WA) as [RA RPA], (wf_csc_rep _ _ WB) as [RB RPB].
  unfold CSC_mat_mat_ck, CSC_mat_mat, csc_matmat_ck, csc_matmat, csc_matmat_maxnnz. rewrite <- E, Nat.eqb_refl. cbn [negb]. pose proof RPA as [LA HA]. pose proof RPB as [LB HB]. rewrite <- E in HB.
  rewrite (maxnnz_spec I _ _ _ _ _ _ _ _ _ _ _ HB HA LB LA). cbn [bind]. apply panics_iff_bind.
  eapply panics_iff_iff; [|apply (matmat_iff I _ _ _ _ _ _ _ _ _ _ _ HB HA LB LA); rewrite repeat_length; lia].
  rewrite prod_ov_at. unfold csc_product_overflows.
  split; intros (i & k & Hi & Ho); exists k, i; (split; [exact Hi|]); rewrite (csc_products_rep I _ _ RA RB _ _ RPA RPB) in *;
    (destruct Ho as [(j & u & v & Hu & Hv & Hp)|Ho]; [left; exists j, v, u; rewrite (csc_rep_at _ _ _ _ _ RPA), (csc_rep_at _ _ _ _ _ RPB) in *; auto|right; exact Ho]).
Qed.
Lemma c91_mixed_product : forall (a : CSC T) (b : CSR T), wf_csc I a -> wf_csr I b -> csc_cols a = csr_rows b ->
  panics_iff (mixed_product_overflows a b) (CSC_mul_csr_ck I a b) (CSC_mul_csr I a b).
Proof.
  intros a b HA HB E. unfold CSC_mul_csr_ck, CSC_mul_csr.
  assert (D : csr_rows_fit I b \/ ~ csr_rows_fit I b).
  { destruct (Forall_dec (fun i => csr_row b i <> [] -> (Z.of_nat i <= imax I)%Z)) with (l := seq 0 (csr_rows b)) as [F|F].
    - intros i. destruct (csr_row b i); [left; congruence|]. destruct (Z_le_dec (Z.of_nat i) (imax I)); [left; auto|right; intros G; apply n, G; discriminate].
    - left. intros i Hi. rewrite Forall_forall in F. apply F, in_seq. lia.
    - right. intros G. apply F, Forall_forall. intros i Hi. apply in_seq in Hi. apply G. lia. }
  destruct D as [F|F].
  2:{ destruct (c03_csr_unfit I b HB F) as [P _]. rewrite P. split; reflexivity. }
  destruct (c03_csr_to_csc I b HB F) as (bc & Eb & Wb & _ & R1 & R2 & Sb & Ab & _). rewrite Eb. cbn [bind].
  destruct (mixed_rep I a b bc Wb R1 R2 Sb Ab) as [_ EP].
  eapply panics_iff_iff; [|apply panics_iff_unwrap, c91_csc_product; [exact HA|exact Wb|congruence]].
  unfold csc_product_overflows, mixed_product_overflows. rewrite R2.
  split; intros (i & k & Hk & Ho); exists i, k; (split; [exact Hk|]); rewrite (EP i k Hk) in *;
    (destruct Ho as [(j & u & v & Hu & Hv & Hp)|Ho]; [left; exists j, u, v; rewrite (Ab j k Hk) in *; auto|right; exact Ho]).
Qed.
End All.
Lemma c91_int : forall J (l : list Z), Forall (in_ity J) l ->
  (@dup_overflows Z _ (int_checked J) l <-> exists p q, l = p ++ q /\ ~ in_ity J (fold_right Z.add 0%Z p)).
Proof.
  intros J l F.
  assert (S : forall (p : list Z) u, fold_left Z.add p u = (u + fold_right Z.add 0 p)%Z).
  { intros p. induction p as [|a p IH]; intros u; cbn; [lia|]. rewrite IH. lia. }
  assert (S2 : forall (p : list Z) v, (fold_right Z.add 0 (p ++ [v]) = fold_right Z.add 0 p + v)%Z).
  { intros p v. rewrite fold_right_app. cbn. rewrite Z.add_0_r. induction p as [|a p IH]; cbn; [lia|]. rewrite IH. lia. }
  split.
  - intros (u & p & v & q & -> & H). cbn in H. rewrite icheck_panic, S in H. exists (u :: p ++ [v]), q. split; [cbn; rewrite <- app_assoc; reflexivity|].
    change (u :: p ++ [v]) with ((u :: p) ++ [v]). rewrite S2. exact H.
  - intros (p & q & -> & H). destruct p as [|u p]; [exfalso; apply H; unfold in_ity; cbn; pose proof (imin_le_0 J); pose proof (imax_ge_127 J); lia|].
    apply Forall_app in F as [F _]. inversion F as [|? ? Hu _]; subst. destruct p as [|v p _] using rev_ind.
    { exfalso. apply H. cbn. rewrite Z.add_0_r. exact Hu. }
    exists u, p, v, q. split; [cbn; rewrite <- app_assoc; reflexivity|]. cbn. rewrite icheck_panic, S.
    change (u :: p ++ [v]) with ((u :: p) ++ [v]) in H. rewrite S2 in H. exact H.
Qed.
