(** Programs on unsigned scalars: no call panics if every table fits the type. *)
From Verif Require Import Rust Debug Scalar Model_kernels Model_matrix Model_dok Model_checked Spec SpecBoundary SpecPipe SpecHom SpecChecked SpecProgram
  Wp Rep CanonProofs BlockProofs TableProofs ArithProofs PadProofs PipeProofs CheckedProofs ProgramProofs ProgramHom Main_linear Main_arith Main_product Main_pipe Main_checked Main_overflow Main_program Check.

Section Fits.
Variable I J : ity.
Hypothesis U : imin J = 0%Z.
#[local] Instance ck : Checked Z := int_checked J.
#[local] Instance cn : CheckedNeg Z := int_checked_neg J.
Local Notation fit := (in_ity J).
Local Notation fits := (Forall (in_ity J)).
#[local] Instance law : CheckedLaw True Z := proj1 (c89_int J).
#[local] Instance nlaw : CheckedNegLaw True Z := proj2 (c89_int J).

Lemma fit0 : fit 0%Z.
Proof. unfold in_ity. rewrite U. split; [lia|]. destruct J; cbv; discriminate. Qed.
Lemma Zsum0 (l : list Z) : sum0 l = fold_right Z.add 0%Z l.
Proof. unfold sum0. apply (fold_symmetric Z.add); intros; lia. Qed.
Lemma Zsum_app (p q : list Z) : (sum0 (p ++ q) = sum0 p + sum0 q)%Z.
Proof. rewrite !Zsum0. induction p as [|a p IH]; cbn; [lia|]. rewrite IH. lia. Qed.
Lemma Zsum_ge (l : list Z) : fits l -> (0 <= sum0 l)%Z.
Proof. rewrite Zsum0. induction 1 as [|a l Ha _ IH]; cbn; [lia|]. unfold in_ity in Ha. lia. Qed.
Lemma Zsum_in (l : list Z) v : fits l -> In v l -> (0 <= v <= sum0 l)%Z.
Proof.
  intros F H. apply in_split in H as (p & q & ->). apply Forall_app in F as [F1 F2]. inversion F2 as [|? ? Hv F3]; subst. rewrite Zsum_app. rewrite (Zsum0 (v :: q)). cbn. rewrite <- Zsum0.
  pose proof (Zsum_ge _ F1). pose proof (Zsum_ge _ F3). unfold in_ity in Hv. lia.
Qed.
Lemma Zpart (p q : list Z) : fits (p ++ q) -> fit (sum0 (p ++ q)) -> fit (sum0 p).
Proof. intros F H. apply Forall_app in F as [F1 F2]. rewrite Zsum_app in H. pose proof (Zsum_ge _ F1). pose proof (Zsum_ge _ F2). unfold in_ity in *. lia. Qed.
Lemma no_sum (l : list Z) : fits l -> fit (sum0 l) -> ~ sum_overflows l.
Proof.
  intros F H S. destruct (c90_int J 0 0 l) as (_ & _ & _ & _ & _ & E). apply E in S as (p & q & -> & _ & N). apply N. rewrite <- Zsum0. exact (Zpart p q F H).
Qed.
Lemma no_dup (l : list Z) : fits l -> fit (sum0 l) -> ~ dup_overflows l.
Proof. intros F H S. apply (c91_int J l F) in S as (p & q & -> & N). apply N. rewrite <- Zsum0. exact (Zpart p q F H). Qed.
Lemma no_add u v : fit (u + v)%Z -> cadd u v = Panic -> False.
Proof. intros H E. destruct (c90_int J u v []) as (A & _). apply A in E. exact (E H). Qed.
Lemma no_sub u v : fit (u - v)%Z -> csub u v = Panic -> False.
Proof. intros H E. destruct (c90_int J u v []) as (_ & A & _). apply A in E. exact (E H). Qed.
Lemma no_mul u v : fit (u * v)%Z -> cmul u v = Panic -> False.
Proof. intros H E. destruct (c90_int J u v []) as (_ & _ & A & _). apply A in E. exact (E H). Qed.
Lemma no_neg u : fit (- u)%Z -> cneg u = Panic -> False.
Proof. intros H E. destruct (c90_int J u 0 []) as (_ & _ & _ & _ & A & _). apply A in E. exact (E H). Qed.

(** ** the values stored at one position *)
Lemma skipn_In {A} n (l : list A) v : In v (skipn n l) -> In v l.
Proof. intros H. rewrite <- (firstn_skipn n l). apply in_or_app. now right. Qed.
Lemma firstn_In {A} n (l : list A) v : In v (firstn n l) -> In v l.
Proof. intros H. rewrite <- (firstn_skipn n l). apply in_or_app. now left. Qed.
Lemma crow_In p j (x : list Z) i e : In e (crow p j x i) -> In (snd e) x.
Proof. intros H. destruct e as [k v]. apply in_combine_r in H. unfold part in H. apply firstn_In, skipn_In in H. exact H. Qed.
Lemma at_fits k (r : list (nat * Z)) (x : list Z) : (forall e, In e r -> In (snd e) x) -> fits x -> fits (at_ k r).
Proof. intros H F. rewrite Forall_forall in *. intros v Hv. apply at_in in Hv. apply F, (H _ Hv). Qed.
Lemma cell_nil (l : list Z) : l = [] -> fit (sum0 l).
Proof. intros ->. exact fit0. Qed.
Lemma csr_row_lt (m : CSR Z) i e : wf_csr I m -> i < csr_rows m -> In e (csr_row m i) -> fst e < csr_cols m.
Proof.
  intros W Hi H. destruct (wf_csr_rep _ _ W) as [R RP]. rewrite (csr_rep_row _ _ _ _ RP) in H. destruct RP as [LR CR]. pose proof (cr_idx _ _ _ _ _ _ CR) as F. rewrite Forall_forall in F. apply F, in_concat.
  exists (nth i R []). split; [apply nth_In; lia|exact H].
Qed.
Lemma csc_col_lt (m : CSC Z) i e : wf_csc I m -> i < csc_cols m -> In e (csc_col m i) -> fst e < csc_rows m.
Proof.
  intros W Hi H. destruct (wf_csc_rep _ _ W) as [R RP]. rewrite (csc_rep_col _ _ _ _ RP) in H. destruct RP as [LR CR]. pose proof (cr_idx _ _ _ _ _ _ CR) as F. rewrite Forall_forall in F. apply F, in_concat.
  exists (nth i R []). split; [apply nth_In; lia|exact H].
Qed.
Definition cell (l : list Z) : Prop := fits l /\ fit (sum0 l).
Lemma cell_csr (m : CSR Z) t i j : wf_csr I m -> holds (MCsr m) t -> mat_typed J (MCsr m) -> table_typed J t -> i < csr_rows m -> cell (csr_at m i j).
Proof.
  intros W (H1 & H2 & H3) M Ht Hi. split.
  - apply at_fits with (x := csr_values m); [intros e; apply crow_In|exact M].
  - cbn in H1, H2, H3. destruct (lt_dec j (csr_cols m)) as [Hj|Hj].
    + change (sum0 (csr_at m i j)) with (csr_val m i j). rewrite H3 by lia. apply Ht; lia.
    + apply cell_nil. apply at_nil_iff. intros H. apply in_map_iff in H as (e & <- & He). apply Hj. apply (csr_row_lt m i e W Hi He).
Qed.
Lemma cell_csc (m : CSC Z) t i j : wf_csc I m -> holds (MCsc m) t -> mat_typed J (MCsc m) -> table_typed J t -> j < csc_cols m -> cell (csc_at m i j).
Proof.
  intros W (H1 & H2 & H3) M Ht Hi. split.
  - apply at_fits with (x := csc_values m); [intros e; apply crow_In|exact M].
  - cbn in H1, H2, H3. destruct (lt_dec i (csc_rows m)) as [Hj|Hj].
    + change (sum0 (csc_at m i j)) with (csc_val m i j). rewrite H3 by lia. apply Ht; lia.
    + apply cell_nil. apply at_nil_iff. intros H. apply in_map_iff in H as (e & <- & He). apply Hj. apply (csc_col_lt m j e W Hi He).
Qed.
Lemma coo_at_In (m : Coo Z) i j v : wf_coo I m -> In v (coo_at m i j) -> i < coo_rows m /\ j < coo_cols m /\ In v (coo_values m).
Proof.
  intros W H. apply in_map_iff in H as ([[a b] w] & E & H). cbn in E. subst w. apply filter_In in H as [H E]. cbn in E. apply andb_true_iff in E as [E1 E2]. apply Nat.eqb_eq in E1, E2. subst a b.
  destruct (wf_coo_is I m W) as [_ F]. rewrite Forall_forall in F. destruct (F _ H) as (A & B & _). cbn in A, B. split; [exact A|]. split; [exact B|]. apply in_combine_r in H. exact H.
Qed.
Lemma cell_coo (m : Coo Z) t i j : wf_coo I m -> holds (MCoo m) t -> mat_typed J (MCoo m) -> table_typed J t -> cell (coo_at m i j).
Proof.
  intros W (H1 & H2 & H3) M Ht. cbn in H1, H2, H3, M. split.
  - apply Forall_forall. intros v Hv. rewrite Forall_forall in M. apply M. apply (coo_at_In m i j v W Hv).
  - destruct (coo_at m i j) as [|v l] eqn:E; [exact fit0|]. rewrite <- E. assert (Hv : In v (coo_at m i j)) by (rewrite E; left; reflexivity). destruct (coo_at_In m i j v W Hv) as (A & B & _).
    change (sum0 (coo_at m i j)) with (coo_val m i j). rewrite H3 by lia. apply Ht; lia.
Qed.

(** ** every stored value is at some position *)
Lemma zpad_In {A} (z : A) k l v : zpad z k l -> In v l -> In v (firstn k l) \/ v = z.
Proof. intros H Hv. rewrite <- (firstn_skipn k l) in Hv. apply in_app_iff in Hv as [Hv|Hv]; [left; exact Hv|right]. rewrite H in Hv. exact (repeat_spec _ _ _ Hv). Qed.
Lemma csr_value (m : CSR Z) v : wf_csr I m -> vpad (MCsr m) -> In v (csr_values m) -> v = 0%Z \/ exists i j, i < csr_rows m /\ j < csr_cols m /\ In v (csr_at m i j).
Proof.
  intros W V H. destruct (wf_csr_rep _ _ W) as [R RP]. cbn in V. rewrite (csr_rep_count _ _ _ RP) in V. destruct (zpad_In _ _ _ _ V H) as [Hv|Hv]; [right|left; exact Hv].
  pose proof RP as [LR CR]. destruct (cr_dat _ _ _ _ _ _ CR) as [_ D]. rewrite D in Hv. apply in_map_iff in Hv as (e & <- & He). apply in_concat in He as (r & Hr & He). apply In_nth with (d := []) in Hr as (i & Hi & <-).
  rewrite <- (csr_rep_row _ _ _ i RP) in He. exists i, (fst e). split; [lia|]. split; [apply (csr_row_lt m i e W); [lia|exact He]|]. apply at_in. destruct e; exact He.
Qed.
Lemma csc_value (m : CSC Z) v : wf_csc I m -> vpad (MCsc m) -> In v (csc_values m) -> v = 0%Z \/ exists i j, i < csc_rows m /\ j < csc_cols m /\ In v (csc_at m i j).
Proof.
  intros W V H. destruct (wf_csc_rep _ _ W) as [R RP]. cbn in V. rewrite (csc_rep_count _ _ _ RP) in V. destruct (zpad_In _ _ _ _ V H) as [Hv|Hv]; [right|left; exact Hv].
  pose proof RP as [LR CR]. destruct (cr_dat _ _ _ _ _ _ CR) as [_ D]. rewrite D in Hv. apply in_map_iff in Hv as (e & <- & He). apply in_concat in He as (r & Hr & He). apply In_nth with (d := []) in Hr as (i & Hi & <-).
  rewrite <- (csc_rep_col _ _ _ i RP) in He. exists (fst e), i. split; [apply (csc_col_lt m i e W); [lia|exact He]|]. split; [lia|]. apply at_in. destruct e; exact He.
Qed.
Lemma coo_value (m : Coo Z) v : wf_coo I m -> In v (coo_values m) -> exists i j, In v (coo_at m i j).
Proof.
  intros W H. apply In_nth with (d := 0%Z) in H as (k & Hk & E). exists (nth k (map Z.to_nat (coo_rowidx m)) 0), (nth k (map Z.to_nat (coo_colidx m)) 0).
  apply in_map_iff. exists (nth k (map Z.to_nat (coo_rowidx m)) 0, nth k (map Z.to_nat (coo_colidx m)) 0, v). split; [reflexivity|]. apply filter_In. split; [|cbn; now rewrite !Nat.eqb_refl].
  unfold coo_entries. pose proof (wfc_rlen _ _ W) as R. pose proof (wfc_clen _ _ W) as C. rewrite <- E. rewrite <- combine_nth by (rewrite !map_length; congruence).
  rewrite <- combine_nth by (rewrite combine_length, !map_length; lia). apply nth_In. rewrite !combine_length, !map_length. lia.
Qed.

(** ** single calls *)
Lemma fits_coo_to_csr (m : Coo Z) t : wf_coo I m -> holds (MCoo m) t -> mat_typed J (MCoo m) -> table_typed J t -> Coo_to_csr_ck I m = Coo_to_csr I m.
Proof. intros W H M Ht. apply (c91_coo_to_csr I m W). intros (i & j & D). destruct (cell_coo m t i j W H M Ht) as [F S]. exact (no_dup _ F S D). Qed.
Lemma fits_coo_to_csc (m : Coo Z) t : wf_coo I m -> holds (MCoo m) t -> mat_typed J (MCoo m) -> table_typed J t -> Coo_to_csc_ck I m = Coo_to_csc I m.
Proof. intros W H M Ht. apply (c91_coo_to_csc I m W). intros (i & j & D). destruct (cell_coo m t i j W H M Ht) as [F S]. exact (no_dup _ F S D). Qed.
(** a value of an operand next to what its position holds *)
Lemma csr_below (m : CSR Z) t v : wf_csr I m -> vpad (MCsr m) -> holds (MCsr m) t -> mat_typed J (MCsr m) -> table_typed J t -> In v (csr_values m) ->
  v = 0%Z \/ exists i j, i < t_rows t /\ j < t_cols t /\ (0 <= v <= t_at t i j)%Z.
Proof.
  intros W V H M Ht Hv. destruct (csr_value m v W V Hv) as [->|(i & j & Hi & Hj & Hx)]; [left; reflexivity|right]. destruct (cell_csr m t i j W H M Ht Hi) as [F _]. pose proof (Zsum_in _ v F Hx) as B.
  destruct H as (H1 & H2 & H3). cbn in H1, H2, H3. exists i, j. rewrite <- H3 by lia. unfold csr_val. split; [lia|]. split; [lia|exact B].
Qed.
Lemma csc_below (m : CSC Z) t v : wf_csc I m -> vpad (MCsc m) -> holds (MCsc m) t -> mat_typed J (MCsc m) -> table_typed J t -> In v (csc_values m) ->
  v = 0%Z \/ exists i j, i < t_rows t /\ j < t_cols t /\ (0 <= v <= t_at t i j)%Z.
Proof.
  intros W V H M Ht Hv. destruct (csc_value m v W V Hv) as [->|(i & j & Hi & Hj & Hx)]; [left; reflexivity|right]. destruct (cell_csc m t i j W H M Ht Hj) as [F _]. pose proof (Zsum_in _ v F Hx) as B.
  destruct H as (H1 & H2 & H3). cbn in H1, H2, H3. exists i, j. rewrite <- H3 by lia. unfold csc_val. split; [lia|]. split; [lia|exact B].
Qed.
Lemma coo_below (m : Coo Z) t v : wf_coo I m -> holds (MCoo m) t -> mat_typed J (MCoo m) -> table_typed J t -> In v (coo_values m) ->
  exists i j, i < t_rows t /\ j < t_cols t /\ (0 <= v <= t_at t i j)%Z.
Proof.
  intros W H M Ht Hv. destruct (coo_value m v W Hv) as (i & j & Hx). destruct (cell_coo m t i j W H M Ht) as [F _]. pose proof (Zsum_in _ v F Hx) as B. destruct (coo_at_In m i j v W Hx) as (Hi & Hj & _).
  destruct H as (H1 & H2 & H3). cbn in H1, H2, H3. exists i, j. rewrite <- H3 by lia. unfold coo_val. split; [lia|]. split; [lia|exact B].
Qed.
Lemma fit_below v w : (0 <= v <= w)%Z -> fit w -> fit v.
Proof. unfold in_ity. lia. Qed.
Lemma fit_neg_below v w : (0 <= v <= w)%Z -> fit (- w)%Z -> fit (- v)%Z.
Proof. unfold in_ity. pose proof fit0 as F. unfold in_ity in F. lia. Qed.
Lemma unary_fits u m t : unary_ok I u m -> unary_typed J u -> good I m -> vpad m -> holds m t -> mat_typed J m -> table_typed J t -> table_typed J (table_unary u t) -> do_unary_ck I u m = do_unary I u m.
Proof.
  intros [D K] Tu G V H M Ht Hu. destruct u as [[]|o []| | |s|s|k|rs cs]; destruct m as [m|m|m|m]; cbn [do_unary_ck do_unary] in *; try reflexivity; clear D; apply f_equal.
  - unfold csr. now rewrite (fits_coo_to_csr m t) by (assumption || apply G).
  - unfold csc. now rewrite (fits_coo_to_csc m t) by (assumption || apply G).
  - unfold csr. destruct K as [P _]. now rewrite (proj1 (c91_dok_convert I m o (proj1 G) P eq_refl)).
  - unfold csc. destruct K as [P _]. now rewrite (proj2 (c91_dok_convert I m o (proj1 G) P eq_refl)).
  - unfold coo. f_equal. apply (c90_negation (mkCSR 0 0 [] [] []) (mkCSC 0 0 [] [] []) m). intros (v & Hv & E). destruct (coo_below m t v (proj1 G) H M Ht Hv) as (i & j & Hi & Hj & B).
    revert E. apply no_neg. apply (fit_neg_below v (t_at t i j) B). apply (Hu i j Hi Hj).
  - unfold csr. f_equal. apply (c90_negation m (mkCSC 0 0 [] [] []) (mkCoo 0 0 [] [] [])). intros (v & Hv & E). destruct (csr_below m t v (proj1 G) V H M Ht Hv) as [->|(i & j & Hi & Hj & B)]; revert E; apply no_neg; [exact fit0|].
    apply (fit_neg_below v (t_at t i j) B). apply (Hu i j Hi Hj).
  - unfold csc. f_equal. apply (c90_negation (mkCSR 0 0 [] [] []) m (mkCoo 0 0 [] [] [])). intros (v & Hv & E). destruct (csc_below m t v (proj1 G) V H M Ht Hv) as [->|(i & j & Hi & Hj & B)]; revert E; apply no_neg; [exact fit0|].
    apply (fit_neg_below v (t_at t i j) B). apply (Hu i j Hi Hj).
  - unfold csr. f_equal. apply (c90_scale m (mkCSC 0 0 [] [] []) s). intros (v & Hv & E). cbn [unary_typed] in Tu. destruct (csr_below m t v (proj1 G) V H M Ht Hv) as [->|(i & j & Hi & Hj & B)]; revert E; apply no_mul; [exact fit0|].
    apply (fit_below _ (t_at t i j * s)); [|apply (Hu i j Hi Hj)]. unfold in_ity in Tu. nia.
  - unfold csr. f_equal. apply (c90_scale m (mkCSC 0 0 [] [] []) s). intros (v & Hv & E). cbn [unary_typed] in Tu. destruct (csr_below m t v (proj1 G) V H M Ht Hv) as [->|(i & j & Hi & Hj & B)]; revert E; apply no_mul; [rewrite Z.mul_0_r; exact fit0|].
    apply (fit_below _ (s * t_at t i j)); [|apply (Hu i j Hi Hj)]. unfold in_ity in Tu. nia.
Qed.
Lemma inplace_fits p m t : inplace_ok I p m -> good I m -> holds m t -> mat_typed J m -> table_typed J t -> table_typed J (table_inplace p t) -> do_inplace_ck I p m = do_inplace I p m.
Proof.
  intros [D K] G H M Ht Hu. destruct p as [| |i j x|i j x|[i j x|i j x|i j x]]; destruct m as [m|m|m|m]; cbn [do_inplace_ck do_inplace dok_apply] in *; try reflexivity; clear D; apply f_equal.
  - unfold csr. f_equal. apply (c91_csr_sum_duplicates I m (proj1 G)). intros (i & j & Hi & E). destruct (cell_csr m t i j (proj1 G) H M Ht Hi) as [F S]. exact (no_dup _ F S E).
  - unfold csc. f_equal. apply (c91_csc_sum_duplicates I m (proj1 G)). intros (i & j & Hi & E). destruct (cell_csc m t i j (proj1 G) H M Ht Hi) as [F S]. exact (no_dup _ F S E).
  - unfold dok. f_equal. apply (c90_dok I m i j x). intros E. destruct K as ((Hi & Hj) & _). destruct H as (H1 & H2 & H3). cbn in H1, H2, H3, Hi, Hj. revert E. apply no_add.
    specialize (Hu (Z.to_nat i) (Z.to_nat j)). cbn in Hu. rewrite !Nat.eqb_refl in Hu. cbn in Hu. rewrite <- H3 in Hu by lia. rewrite !Z2Nat.id in Hu by lia. apply Hu; lia.
  - unfold dok. f_equal. apply (c90_dok I m i j x). intros E. destruct K as ((Hi & Hj) & _). destruct H as (H1 & H2 & H3). cbn in H1, H2, H3, Hi, Hj. revert E. apply no_sub.
    specialize (Hu (Z.to_nat i) (Z.to_nat j)). cbn in Hu. rewrite !Nat.eqb_refl in Hu. cbn in Hu. rewrite <- H3 in Hu by lia. rewrite !Z2Nat.id in Hu by lia. apply Hu; lia.
Qed.

Lemma hd_canonical k (r : list (nat * Z)) : canonical_row r -> hd 0%Z (at_ k r) = sum0 (at_ k r).
Proof. exact (canonical_at_read (T := Z) r k). Qed.
Lemma fits_csr_sum (op : Z -> Z -> Z) (cop : Z -> Z -> res Z) a b t u : (forall x y, fit (op x y) -> cop x y = Panic -> False) -> (op 0%Z 0%Z = 0%Z) ->
  wf_csr I a -> wf_csr I b -> holds (MCsr a) t -> holds (MCsr b) u -> mat_typed J (MCsr a) -> mat_typed J (MCsr b) -> table_typed J t -> table_typed J u ->
  csr_rows b = csr_rows a -> csr_cols b = csr_cols a ->
  (forall i j, i < csr_rows a -> j < csr_cols a -> fit (op (t_at t i j) (t_at u i j))) -> ~ csr_op_overflows cop a b.
Proof.
  intros No O0 Wa Wb Ha Hb Ma Mb Ta Tb E1 E2 Hu (i & j & Hi & _ & B).
  destruct (cell_csr a t i j Wa Ha Ma Ta Hi) as [Fa Sa]. destruct (cell_csr b u i j Wb Hb Mb Tb ltac:(lia)) as [Fb Sb].
  assert (Hs : fit (op (sum0 (csr_at a i j)) (sum0 (csr_at b i j)))).
  { destruct (lt_dec j (csr_cols a)) as [Hj|Hj].
    - destruct Ha as (A1 & A2 & A3). destruct Hb as (B1 & B2 & B3). cbn in A1, A2, A3, B1, B2, B3. change (fit (op (csr_val a i j) (csr_val b i j))). rewrite A3, B3 by lia. apply Hu; lia.
    - assert (N : forall m : CSR Z, wf_csr I m -> csr_rows m = csr_rows a -> csr_cols m = csr_cols a -> csr_at m i j = []).
      { intros m W R C. apply at_nil_iff. intros H. apply in_map_iff in H as (e & <- & He). apply Hj. rewrite <- C. apply (csr_row_lt m i e W); [lia|exact He]. }
      rewrite (N a), (N b) by (assumption || reflexivity). cbn. rewrite O0. exact fit0. }
  destruct B as [[[Ca Cb] B]|[_ [B|[B|B]]]].
  - unfold csr_at in B, Hs. change (@s0 Z _) with 0%Z in B. rewrite (hd_canonical j _ (Ca i Hi)), (hd_canonical j _ (Cb i ltac:(lia))) in B. exact (No _ _ Hs B).
  - exact (no_sum _ Fa Sa B).
  - exact (no_sum _ Fb Sb B).
  - exact (No _ _ Hs B).
Qed.
Lemma fits_csc_sum (op : Z -> Z -> Z) (cop : Z -> Z -> res Z) a b t u : (forall x y, fit (op x y) -> cop x y = Panic -> False) -> (op 0%Z 0%Z = 0%Z) ->
  wf_csc I a -> wf_csc I b -> holds (MCsc a) t -> holds (MCsc b) u -> mat_typed J (MCsc a) -> mat_typed J (MCsc b) -> table_typed J t -> table_typed J u ->
  csc_rows b = csc_rows a -> csc_cols b = csc_cols a ->
  (forall i j, i < csc_rows a -> j < csc_cols a -> fit (op (t_at t i j) (t_at u i j))) -> ~ csc_op_overflows cop a b.
Proof.
  intros No O0 Wa Wb Ha Hb Ma Mb Ta Tb E1 E2 Hu (i & j & Hi & _ & B).
  destruct (cell_csc a t i j Wa Ha Ma Ta Hi) as [Fa Sa]. destruct (cell_csc b u i j Wb Hb Mb Tb ltac:(lia)) as [Fb Sb].
  assert (Hs : fit (op (sum0 (csc_at a i j)) (sum0 (csc_at b i j)))).
  { destruct (lt_dec i (csc_rows a)) as [Hj|Hj].
    - destruct Ha as (A1 & A2 & A3). destruct Hb as (B1 & B2 & B3). cbn in A1, A2, A3, B1, B2, B3. change (fit (op (csc_val a i j) (csc_val b i j))). rewrite A3, B3 by lia. apply Hu; lia.
    - assert (N : forall m : CSC Z, wf_csc I m -> csc_rows m = csc_rows a -> csc_cols m = csc_cols a -> csc_at m i j = []).
      { intros m W R C. apply at_nil_iff. intros H. apply in_map_iff in H as (e & <- & He). apply Hj. rewrite <- R. apply (csc_col_lt m j e W); [lia|exact He]. }
      rewrite (N a), (N b) by (assumption || reflexivity). cbn. rewrite O0. exact fit0. }
  destruct B as [[[Ca Cb] B]|[_ [B|[B|B]]]].
  - unfold csc_at in B, Hs. change (@s0 Z _) with 0%Z in B. rewrite (hd_canonical i _ (Ca j Hi)), (hd_canonical i _ (Cb j ltac:(lia))) in B. exact (No _ _ Hs B).
  - exact (no_sum _ Fa Sa B).
  - exact (no_sum _ Fb Sb B).
  - exact (No _ _ Hs B).
Qed.
(** a list of non-negative products *)
Definition nn (l : list Z) : Prop := Forall (Z.le 0) l.
Lemma nn_fits l : nn l -> fit (sum0 l) -> fits l.
Proof.
  intros N. rewrite Zsum0. unfold in_ity. rewrite U. assert (G : forall k, nn k -> (0 <= fold_right Z.add 0 k)%Z) by (induction 1; cbn; lia).
  induction N as [|v l Hv N IH]; intros H; constructor; cbn in H; pose proof (G l N); [lia|]. apply IH. lia.
Qed.
Lemma nn_products {A} (l : list A) (f : A -> list Z) : (forall e, In e l -> nn (f e)) -> nn (flat_map f l).
Proof. intros H. apply Forall_forall. intros v Hv. apply in_flat_map in Hv as (e & He & Hv). specialize (H e He). unfold nn in H. rewrite Forall_forall in H. apply H, Hv. Qed.
Lemma fits_nn l : fits l -> nn l.
Proof. intros F. unfold nn. eapply Forall_impl; [|exact F]. unfold in_ity. intros. lia. Qed.
Lemma nn_scaled s (l : list Z) : (0 <= s)%Z -> nn l -> nn (map (fun v => s * v)%Z l).
Proof. intros Hs N. unfold nn in *. rewrite Forall_forall in *. intros v Hv. apply in_map_iff in Hv as (w & <- & Hw). specialize (N w Hw). nia. Qed.
Lemma csr_at_fits (m : CSR Z) i j : mat_typed J (MCsr m) -> fits (csr_at m i j).
Proof. intros M. apply at_fits with (x := csr_values m); [intros e; apply crow_In|exact M]. Qed.
Lemma csc_at_fits (m : CSC Z) i j : mat_typed J (MCsc m) -> fits (csc_at m i j).
Proof. intros M. apply at_fits with (x := csc_values m); [intros e; apply crow_In|exact M]. Qed.
Lemma row_nn (m : CSR Z) i e : mat_typed J (MCsr m) -> In e (csr_row m i) -> (0 <= snd e)%Z.
Proof. intros M H. apply crow_In in H. cbn in M. rewrite Forall_forall in M. specialize (M _ H). unfold in_ity in M. lia. Qed.
Lemma col_nn (m : CSC Z) i e : mat_typed J (MCsc m) -> In e (csc_col m i) -> (0 <= snd e)%Z.
Proof. intros M H. apply crow_In in H. cbn in M. rewrite Forall_forall in M. specialize (M _ H). unfold in_ity in M. lia. Qed.
Lemma no_products l : nn l -> fit (sum0 l) -> ~ sum_overflows l /\ forall v, In v l -> fit v.
Proof. intros N H. pose proof (nn_fits l N H) as F. split; [exact (no_sum l F H)|]. intros v Hv. rewrite Forall_forall in F. exact (F v Hv). Qed.
Lemma fits_csr_product a b r t : csr_rows r = csr_rows a -> csr_cols r = csr_cols b -> wf_csr I a -> wf_csr I b -> csr_cols a = csr_rows b ->
  (forall i k, i < csr_rows a -> csr_at r i k = keep (csr_products a b i k) (sum0 (csr_products a b i k))) ->
  holds (MCsr r) t -> table_typed J t -> mat_typed J (MCsr a) -> mat_typed J (MCsr b) -> wf_csr I r -> ~ csr_product_overflows a b.
Proof.
  intros R1 R2 Wa Wb E At H Ht Ma Mb Wr (i & k & Hi & B).
  assert (N : nn (csr_products a b i k)).
  { unfold csr_products. apply nn_products. intros e He. apply (nn_scaled (snd e)); [apply (row_nn a i e Ma He)|]. apply fits_nn, csr_at_fits, Mb. }
  assert (S : fit (sum0 (csr_products a b i k))).
  { assert (Q : csr_val r i k = sum0 (csr_products a b i k)) by (unfold csr_val; rewrite (At i k Hi); apply keep_sum; intros ->; reflexivity).
    rewrite <- Q. destruct H as (H1 & H2 & H3). cbn in H1, H2, H3. destruct (lt_dec k (csr_cols b)) as [Hk|Hk].
    - rewrite H3 by lia. apply Ht; lia.
    - unfold csr_val. apply cell_nil, at_nil_iff. intros He. apply in_map_iff in He as (e & <- & He). apply Hk. rewrite <- R2. apply (csr_row_lt r i e Wr); [lia|exact He]. }
  destruct (no_products _ N S) as [NS F]. destruct B as [(j & u & v & Hu & Hv & B)|B]; [|exact (NS B)]. revert B. apply no_mul. apply F. unfold csr_products. apply in_flat_map. apply at_in in Hu. exists (j, u). split; [exact Hu|]. cbn [fst snd]. exact (in_map (fun w => smul u w) _ _ Hv).
Qed.
Lemma fits_csc_product a b r t : csc_rows r = csc_rows a -> csc_cols r = csc_cols b -> wf_csc I a -> wf_csc I b -> csc_cols a = csc_rows b ->
  (forall i k, k < csc_cols b -> csc_at r i k = keep (csc_products a b i k) (sum0 (csc_products a b i k))) ->
  holds (MCsc r) t -> table_typed J t -> mat_typed J (MCsc a) -> mat_typed J (MCsc b) -> wf_csc I r -> ~ csc_product_overflows a b.
Proof.
  intros R1 R2 Wa Wb E At H Ht Ma Mb Wr (i & k & Hi & B).
  assert (N : nn (csc_products a b i k)).
  { unfold csc_products. apply nn_products. intros e He. apply (nn_scaled (snd e)); [apply (col_nn b k e Mb He)|]. apply fits_nn, csc_at_fits, Ma. }
  assert (S : fit (sum0 (csc_products a b i k))).
  { assert (Q : csc_val r i k = sum0 (csc_products a b i k)) by (unfold csc_val; rewrite (At i k Hi); apply keep_sum; intros ->; reflexivity).
    rewrite <- Q. destruct H as (H1 & H2 & H3). cbn in H1, H2, H3. destruct (lt_dec i (csc_rows a)) as [Hk|Hk].
    - rewrite H3 by lia. apply Ht; lia.
    - unfold csc_val. apply cell_nil, at_nil_iff. intros He. apply in_map_iff in He as (e & <- & He). apply Hk. rewrite <- R1. apply (csc_col_lt r k e Wr); [lia|exact He]. }
  destruct (no_products _ N S) as [NS F]. destruct B as [(j & u & v & Hu & Hv & B)|B]; [|exact (NS B)]. revert B. apply no_mul. apply F. unfold csc_products. apply in_flat_map. apply at_in in Hv. exists (j, v). split; [exact Hv|]. cbn [fst snd]. exact (in_map (fun w => smul v w) _ _ Hu).
Qed.
Lemma fits_mixed_product a b r t : csc_rows r = csc_rows a -> csc_cols r = csr_cols b -> wf_csc I a -> wf_csr I b -> csc_cols a = csr_rows b ->
  (forall i k, k < csr_cols b -> csc_at r i k = keep (mixed_products a b i k) (sum0 (mixed_products a b i k))) ->
  holds (MCsc r) t -> table_typed J t -> mat_typed J (MCsc a) -> mat_typed J (MCsr b) -> wf_csc I r -> ~ mixed_product_overflows a b.
Proof.
  intros R1 R2 Wa Wb E At H Ht Ma Mb Wr (i & k & Hi & B).
  assert (N : nn (mixed_products a b i k)).
  { unfold mixed_products. apply nn_products. intros j _. apply nn_products. intros v Hv. apply (nn_scaled v); [|apply fits_nn, csc_at_fits, Ma]. pose proof (csr_at_fits b j k Mb) as F. rewrite Forall_forall in F. specialize (F v Hv). unfold in_ity in F. lia. }
  assert (S : fit (sum0 (mixed_products a b i k))).
  { assert (Q : csc_val r i k = sum0 (mixed_products a b i k)) by (unfold csc_val; rewrite (At i k Hi); apply keep_sum; intros ->; reflexivity).
    rewrite <- Q. destruct H as (H1 & H2 & H3). cbn in H1, H2, H3. destruct (lt_dec i (csc_rows a)) as [Hk|Hk].
    - rewrite H3 by lia. apply Ht; lia.
    - unfold csc_val. apply cell_nil, at_nil_iff. intros He. apply in_map_iff in He as (e & <- & He). apply Hk. rewrite <- R1. apply (csc_col_lt r k e Wr); [lia|exact He]. }
  destruct (no_products _ N S) as [NS F]. destruct B as [(j & u & v & Hu & Hv & B)|B]; [|exact (NS B)]. revert B. apply no_mul. apply F. unfold mixed_products. apply in_flat_map.
  assert (Hj : j < csr_rows b).
  { destruct (lt_dec j (csr_rows b)) as [Hj|Hj]; [exact Hj|]. exfalso. destruct (wf_csr_rep _ _ Wb) as [R RP]. rewrite (csr_rep_at _ _ _ _ _ RP) in Hv. destruct RP as [LR _]. rewrite nth_overflow in Hv by lia. destruct Hv. }
  exists j. split; [apply in_seq; lia|]. apply in_flat_map. exists v. split; [exact Hv|]. exact (in_map (fun w => smul v w) _ _ Hu).
Qed.
Lemma csr_eq (x y : res (CSR Z)) : x = y -> csr x = csr y.
Proof. apply f_equal. Qed.
Lemma csc_eq (x y : res (CSC Z)) : x = y -> csc x = csc y.
Proof. apply f_equal. Qed.
Lemma to_coo_typed (m : CSR Z) r : CSR_to_coo I m = Ok r -> mat_typed J (MCsr m) -> mat_typed J (MCoo r).
Proof.
  intros E M. assert (F : Forall (mat_typed J) [MCsr m; MCoo r]).
  { apply (c93_range J I [CUn (UTo FCoo) 0] [MCsr m]); [repeat constructor; exact M|repeat constructor|]. cbn. rewrite E. reflexivity. }
  inversion F as [|? ? _ F']; inversion F'; assumption.
Qed.
Lemma h_stack_typed (a b r : Coo Z) : Coo_h_stack I a b = Ok r -> mat_typed J (MCoo a) -> mat_typed J (MCoo b) -> mat_typed J (MCoo r).
Proof.
  intros E Ma Mb. assert (F : Forall (mat_typed J) [MCoo a; MCoo b; MCoo r]).
  { apply (c93_range J I [CBin BBeside 0 1] [MCoo a; MCoo b]); [repeat constructor; assumption|repeat constructor|]. cbn. rewrite E. reflexivity. }
  inversion F as [|? ? _ F']; inversion F' as [|? ? _ F'']; inversion F''; assumption.
Qed.
Lemma binary_fits b x y t u : binary_ok I b x y -> good I x -> good I y -> vpad x -> vpad y -> holds x t -> holds y u -> mat_typed J x -> mat_typed J y -> table_typed J t -> table_typed J u ->
  table_typed J (table_binary b t u) -> do_binary_ck I b x y = do_binary I b x y.
Proof.
  intros OK GX GY VX VY HX HY MX MY Ht Hu Hr. destruct (binary_good I b x y OK GX GY) as (r & Er & Gr). destruct (binary_holds I b x y r t u OK GX GY VX VY HX HY Er) as [Vr HR].
  destruct OK as [D K]. destruct b; destruct x as [a|a|a|a]; destruct y as [b|b|b|b]; cbn [do_binary_ck do_binary] in *; try (match goal with |- ?a = ?b => constr_eq a b; reflexivity end); clear D; apply f_equal; cbn [mat_rows mat_cols mat_count met] in K.
  - destruct K as (E1 & E2 & _). apply csr_eq. apply (c91_coo_add I a b (proj1 GX) (proj1 GY)). intros (_ & _ & i & j & O).
    destruct (cell_coo a t i j (proj1 GX) HX MX Ht) as [Fa _]. destruct (cell_coo b u i j (proj1 GY) HY MY Hu) as [Fb _]. revert O. apply no_dup; [apply Forall_app; split; assumption|]. rewrite Zsum_app.
    destruct (coo_at a i j ++ coo_at b i j) as [|v l] eqn:E; [apply app_eq_nil in E as [-> ->]; exact fit0|].
    assert (P : i < coo_rows a /\ j < coo_cols a).
    { assert (Hv : In v (coo_at a i j ++ coo_at b i j)) by (rewrite E; left; reflexivity). apply in_app_iff in Hv as [Hv|Hv]; [destruct (coo_at_In a i j v (proj1 GX) Hv) as (? & ? & _)|destruct (coo_at_In b i j v (proj1 GY) Hv) as (? & ? & _)]; lia. }
    destruct HX as (A1 & A2 & A3), HY as (B1 & B2 & B3). cbn in A1, A2, A3, B1, B2, B3. change (fit (coo_val a i j + coo_val b i j)%Z). rewrite A3, B3 by lia. apply (Hr i j); cbn; lia.
  - destruct K as (E1 & E2 & _). apply csr_eq. apply (proj1 (c91_csr_sums I a b (proj1 GX) (proj1 GY) (eq_sym E1) (eq_sym E2))).
    destruct HX as (A1 & A2 & A3). cbn in A1, A2. apply (fits_csr_sum Z.add cadd a b t u no_add eq_refl (proj1 GX) (proj1 GY)); try assumption; try congruence; [split; [|split]; assumption|]. intros i j Hi Hj. apply (Hr i j); cbn; lia.
  - destruct K as (E1 & E2 & _). apply csc_eq. apply (proj1 (proj2 (proj2 (c91_csc_sums I a b (proj1 GX) (proj1 GY) (eq_sym E1) (eq_sym E2))))).
    destruct HX as (A1 & A2 & A3). cbn in A1, A2. apply (fits_csc_sum Z.add cadd a b t u no_add eq_refl (proj1 GX) (proj1 GY)); try assumption; try congruence; [split; [|split]; assumption|]. intros i j Hi Hj. apply (Hr i j); cbn; lia.
  - destruct K as (E1 & E2 & _). apply csr_eq. apply (proj2 (c91_csr_sums I a b (proj1 GX) (proj1 GY) (eq_sym E1) (eq_sym E2))).
    destruct HX as (A1 & A2 & A3). cbn in A1, A2. apply (fits_csr_sum Z.sub csub a b t u no_sub eq_refl (proj1 GX) (proj1 GY)); try assumption; try congruence; [split; [|split]; assumption|]. intros i j Hi Hj. apply (Hr i j); cbn; lia.
  - destruct K as (E1 & E2 & _). apply csc_eq. apply (proj1 (proj2 (c91_csc_sums I a b (proj1 GX) (proj1 GY) (eq_sym E1) (eq_sym E2)))).
    destruct HX as (A1 & A2 & A3). cbn in A1, A2. apply (fits_csc_sum Z.sub csub a b t u no_sub eq_refl (proj1 GX) (proj1 GY)); try assumption; try congruence; [split; [|split]; assumption|]. intros i j Hi Hj. apply (Hr i j); cbn; lia.
  - destruct K as (E1 & Hf). apply csr_eq. apply (proj2 (c91_csr_product I a b (proj1 GX) (proj1 GY) E1)). destruct (c17_csr_mat_mat I a b (proj1 GX) (proj1 GY) E1 Hf) as (r' & _ & E' & W & R1 & R2 & _ & _ & A).
    rewrite E' in Er. injection Er as <-. apply (fits_csr_product a b r' _ R1 R2 (proj1 GX) (proj1 GY) E1 A HR); assumption.
  - destruct K as (E1 & Hf). apply csc_eq. apply (c91_mixed_product I a b (proj1 GX) (proj1 GY) E1).
    destruct (c60_csc_mul_csr_exact I a b (proj1 GX) (proj1 GY) E1) as [P1 P2]. destruct P2 as (r' & E' & W & R1 & R2 & _ & _ & A).
    { intros O. rewrite (P1 O) in Er. discriminate. }
    rewrite E' in Er. injection Er as <-. apply (fits_mixed_product a b r' _ R1 R2 (proj1 GX) (proj1 GY) E1 A HR); assumption.
  - destruct K as (E1 & Hf). apply csc_eq. apply (proj2 (c91_csc_product I a b (proj1 GX) (proj1 GY) E1)). destruct (c18_csc_mat_mat I a b (proj1 GX) (proj1 GY) E1 Hf) as (r' & _ & E' & W & R1 & R2 & _ & _ & A).
    rewrite E' in Er. injection Er as <-. apply (fits_csc_product a b r' _ R1 R2 (proj1 GX) (proj1 GY) E1 A HR); assumption.
  - destruct K as (E1 & Hi & Hf). apply csr_eq. destruct (csr_beside_good I a b GX GY E1 Hi Hf) as (ca & cb & c & r' & Ea & Eb & Ec & Gc & C1 & C2 & C3 & Hc & E' & Er' & _).
    unfold CSR_h_stack_ck, CSR_h_stack. rewrite Ea, Eb. cbn [bind]. rewrite Ec. cbn [bind]. apply (fits_coo_to_csr c (table_binary BBeside t u) (proj1 Gc)); [| |exact Hr].
    + destruct HX as (A1 & A2 & A3), HY as (B1 & B2 & B3). cbn in A1, A2, A3, B1, B2, B3. unfold holds. cbn [mat_rows mat_cols mat_val table_binary table_beside t_rows t_cols t_at]. split; [congruence|]. split; [congruence|].
      intros i j Hi' Hj. rewrite C3, <- A2. destruct (Nat.ltb_spec j (csr_cols a)).
      * rewrite (to_coo_val_pad I a ca GX VX Ea) by lia. apply A3; lia.
      * rewrite (to_coo_val_pad I b cb GY VY Eb) by lia. apply B3; lia.
    + apply (h_stack_typed ca cb c Ec); [apply (to_coo_typed a ca Ea MX)|apply (to_coo_typed b cb Eb MY)].
Qed.
Lemma blocks_fits k ms ts : blocks_ok I k ms -> Forall (good I) ms -> Forall2 holds ms ts -> Forall (mat_typed J) ms -> Forall (table_typed J) ts -> do_blocks_ck I k ms = do_blocks I k ms.
Proof.
  intros [D K] G H M Ht. destruct (blocks_cases I k ms D) as [(a & b & c & -> & [-> | ->])|[(a & b & c & d & -> & ->)|[(a & b & c & d & -> & ->)|(a & b & c & d & e & f & g & h & l & -> & ->)]]]; cbn [do_blocks_ck]; try (match goal with |- ?a = ?b => constr_eq a b; reflexivity end).
  cbn [do_blocks]. apply f_equal. apply csc_eq. clear D.
  repeat match goal with H : Forall _ (_ :: _) |- _ => inversion H; clear H; subst | H : Forall2 _ (_ :: _) _ |- _ => inversion H; clear H; subst | H : Forall2 _ [] _ |- _ => inversion H; clear H; subst | H : Forall _ [] |- _ => clear H end.
  destruct K as [(K1 & K2 & K3) _]. repeat match goal with H : Forall _ (_ :: _) |- _ => inversion H; clear H; subst end. unfold row_ok, all_equal, width, index_ok in *. cbn in *.
  repeat match goal with H : Forall _ (_ :: _) |- _ => inversion H; clear H; subst | H : _ /\ _ |- _ => destruct H | H : Forall _ [] |- _ => clear H end.
  apply (c91_csc_compose I a b c d); try (apply proj1 in H2, H4, H3, H5); try assumption; try (change (imax Usize) with 18446744073709551615%Z; lia); try lia. intros (m & i & j & Hm & Hj & O).
  repeat (destruct Hm as [<-|Hm]; [match goal with Hh : holds (MCsc ?m) ?t |- _ => match type of Hj with j < csc_cols m => destruct (cell_csc m t i j ltac:(assumption) Hh ltac:(assumption) ltac:(assumption) Hj) as [F S]; exact (no_dup _ F S O) end end|]). destruct Hm.
Qed.

(** ** readings *)
Lemma nth_fit (x : list Z) k : fits x -> (0 <= nth k x 0)%Z.
Proof.
  intros F. destruct (lt_dec k (length x)) as [H|H]; [|rewrite nth_overflow by lia; lia]. rewrite Forall_forall in F. specialize (F _ (nth_In x 0%Z H)). unfold in_ity in F. lia.
Qed.
Lemma nth_fit2 (y : list Z) k : fits y -> fit (nth k y 0%Z).
Proof. intros F. destruct (lt_dec k (length y)) as [H|H]; [|rewrite nth_overflow by lia; exact fit0]. rewrite Forall_forall in F. exact (F _ (nth_In y 0%Z H)). Qed.
Lemma look_fits o m t : look_ok I o m -> look_typed J o -> good I m -> holds m t -> mat_typed J m -> table_typed J t -> answer_typed J (table_look o t) -> do_look_ck I o m = do_look I o m.
Proof.
  intros OK To G H M Ht Ha. pose proof (look_holds I o m t G H OK) as L. destruct OK as [D K].
  destruct o as [order|x| |i j]; destruct m as [m|m|m|m]; cbn [do_look_ck do_look] in *; try (match goal with |- ?a = ?b => constr_eq a b; reflexivity end); clear D; apply f_equal.
  - apply (f_equal tab). apply (c90_coo_to_dense I m (proj1 G)). intros (i & j & _ & _ & O). destruct (cell_coo m t i j (proj1 G) H M Ht) as [F S]. exact (no_sum _ F S O).
  - apply (f_equal tab). apply (c90_csr_to_dense I m (proj1 G)). intros (i & j & Hi & _ & O). destruct (cell_csr m t i j (proj1 G) H M Ht Hi) as [F S]. exact (no_sum _ F S O).
  - apply (f_equal tab). destruct G as (W & G1 & G2 & _). apply (c90_csc_to_dense I m W (csc_cols_fit_ok I m G2)). intros (i & j & _ & Hj & O). destruct (cell_csc m t i j W H M Ht Hj) as [F S]. exact (no_sum _ F S O).
  - apply (f_equal vec). destruct (proj2 (c15_csr_mat_vec I m x (proj1 G)) K) as (y & Ey & Ly & Hy). apply (c90_csr_mat_vec I m x (proj1 G) K). intros (i & Hi & O).
    rewrite Ey in L. injection L as L. assert (Fy : fits y) by (rewrite L; exact Ha). pose proof (nth_fit2 y i Fy) as S. change 0%Z with (@s0 Z _) in S. rewrite (Hy i Hi) in S.
    edestruct no_products as [NS F]; [|exact S|].
    { apply Forall_forall. intros v Hv. apply in_map_iff in Hv as (e & <- & He). pose proof (row_nn m i e M He). pose proof (nth_fit x (fst e) To). change (@smul Z _) with Z.mul. change (@s0 Z _) with 0%Z. nia. }
    destruct O as [(e & He & O)|O]; [|exact (NS O)]. revert O. apply no_mul. apply F. apply in_map_iff. exists e. split; [reflexivity|exact He].
  - apply (f_equal vec). destruct (proj2 (c16_csc_mat_vec I m x (proj1 G)) K) as (y & Ey & Ly & Hy). apply (c90_csc_mat_vec I m x (proj1 G) K). intros O.
    rewrite Ey in L. injection L as L. assert (Fy : fits y) by (rewrite L; exact Ha).
    assert (P : forall i, i < csc_rows m -> let l := flat_map (fun j => map (fun v => smul v (nth j x s0)) (csc_at m i j)) (seq 0 (csc_cols m)) in ~ sum_overflows l /\ forall v, In v l -> fit v).
    { intros i Hi. apply no_products.
      - apply nn_products. intros j _. apply Forall_forall. intros v Hv. apply in_map_iff in Hv as (w & <- & Hw). pose proof (csc_at_fits m i j M) as F. rewrite Forall_forall in F. specialize (F w Hw). unfold in_ity in F. pose proof (nth_fit x j To). change (@smul Z _) with Z.mul. change (@s0 Z _) with 0%Z. nia.
      - pose proof (nth_fit2 y i Fy) as S. change 0%Z with (@s0 Z _) in S. rewrite (Hy i Hi) in S. exact S. }
    destruct O as [(j & e & Hj & He & O)|(i & Hi & O)]; [|exact (proj1 (P i Hi) O)]. revert O. apply no_mul. pose proof (csc_col_lt m j e (proj1 G) Hj He) as Hi. apply (proj2 (P (fst e) Hi)).
    apply in_flat_map. exists j. split; [apply in_seq; lia|]. apply in_map_iff. exists (snd e). split; [reflexivity|]. apply at_in. destruct e; exact He.
  - apply (f_equal vec). apply (c90_coo_diagonal I m (proj1 G)). intros (i & Hi & O). destruct (cell_coo m t i i (proj1 G) H M Ht) as [F S]. exact (no_sum _ F S O).
  - apply (f_equal vec). apply (c90_csr_diagonal I m (proj1 G)). intros (i & Hi & O). destruct (cell_csr m t i i (proj1 G) H M Ht ltac:(lia)) as [F S]. exact (no_sum _ F S O).
  - apply (f_equal vec). apply (c90_csc_diagonal I m (proj1 G)). intros (i & Hi & O). destruct (cell_csc m t i i (proj1 G) H M Ht ltac:(lia)) as [F S]. exact (no_sum _ F S O).
Qed.

(** ** programs *)
Lemma forall_of_nth {A} (P : A -> Prop) l v d : Forall P l -> P d -> P (nth v l d).
Proof. intros F Hd. destruct (lt_dec v (length l)) as [H|H]; [|rewrite nth_overflow by lia; exact Hd]. rewrite Forall_forall in F. apply F, nth_In, H. Qed.
Lemma len2 {A B} (P : A -> B -> Prop) l k : Forall2 P l k -> length l = length k.
Proof. induction 1; cbn; congruence. Qed.
Lemma no_table_typed : table_typed J no_table.
Proof. intros i j Hi. cbn in Hi. lia. Qed.
Lemma vars_typed st vs ms : Forall (mat_typed J) st -> vars st vs = Some ms -> Forall (mat_typed J) ms.
Proof.
  intros F. revert ms. induction vs as [|v vs IH]; intros ms E; cbn in E; [injection E as <-; constructor|].
  destruct (nth_error st v) eqn:E1; [|discriminate]. cbn in E. destruct (vars st vs) eqn:E2; [|discriminate]. injection E as <-. constructor; [|apply IH; reflexivity]. rewrite Forall_forall in F. apply F. exact (nth_error_In _ _ E1).
Qed.
Lemma step_fits st ts c : Forall2 (sim I) st ts -> call_ok I st c -> Forall (mat_typed J) st -> call_typed J c -> Forall (table_typed J) ts -> Forall (table_typed J) (table_step ts c) -> step_ck I st c = step I st c.
Proof.
  intros G H M Tc Ht Hn. pose proof (fun v m (E : nth_error st v = Some m) => proj1 (Forall_forall _ _) M m (nth_error_In _ _ E)) as Mv. pose proof (fun v => forall_of_nth (table_typed J) ts v no_table Ht no_table_typed) as Tv.
  destruct c as [f k|u v|p v|b v w|k vs]; cbn [call_ok step step_ck table_step call_typed] in *.
  - reflexivity.
  - destruct H as (m & E & H). rewrite E. cbn [obind]. destruct (forall2_nth _ st ts v _ no_table G E) as (Gm & Vm & Hm). apply Forall_app in Hn as [_ Hn]. inversion Hn; subst. rewrite (unary_fits u m (nth v ts no_table)); auto. exact (Mv v m E).
  - destruct H as (m & E & H). rewrite E. cbn [obind]. destruct (forall2_nth _ st ts v _ no_table G E) as (Gm & Vm & Hm).
    assert (Lv : v < length ts) by (rewrite <- (len2 _ _ _ G); apply nth_error_Some; congruence).
    rewrite (inplace_fits p m (nth v ts no_table)); auto; [exact (Mv v m E)|]. rewrite Forall_forall in Hn. apply Hn.
    clear - Lv. generalize (table_inplace p (nth v ts no_table)). revert v Lv. induction ts as [|t ts IH]; intros [|v] Lv z; cbn in *; try lia; [left; reflexivity|right; apply IH; lia].
  - destruct H as (x & y & E1 & E2 & H). rewrite E1, E2. cbn [obind]. destruct (forall2_nth _ st ts v _ no_table G E1) as (Gx & Vx & Hx). destruct (forall2_nth _ st ts w _ no_table G E2) as (Gy & Vy & Hy).
    apply Forall_app in Hn as [_ Hn]. inversion Hn; subst. rewrite (binary_fits b x y (nth v ts no_table) (nth w ts no_table)); auto; [exact (Mv v x E1)|exact (Mv w y E2)].
  - destruct H as (ms & E & H). rewrite E. cbn [obind]. pose proof (vars_sim I st ts vs ms G E) as S.
    assert (S1 : Forall (good I) ms) by (clear - S; induction S as [|x t l k (? & _) S IH]; constructor; assumption).
    assert (S2 : Forall2 holds ms (map (fun v => nth v ts no_table) vs)) by (clear - S; induction S as [|x t l k (_ & _ & ?) S IH]; constructor; assumption).
    rewrite (blocks_fits k ms (map (fun v => nth v ts no_table) vs)); auto; [exact (vars_typed st vs ms M E)|]. apply Forall_forall. intros t Hx. apply in_map_iff in Hx as (v & <- & _). apply Tv.
Qed.
Lemma run_fits cs : forall st ts, Forall2 (sim I) st ts -> calls_ok I st cs -> Forall (mat_typed J) st -> Forall (call_typed J) cs ->
  (forall n, Forall (table_typed J) (table_run ts (firstn n cs))) -> run_ck I st cs = run I st cs.
Proof.
  induction cs as [|c cs IH]; intros st ts G H M Tc Hn; [reflexivity|]. destruct H as [Hc H]. inversion Tc as [|? ? T1 T2]; subst. destruct (step_sim I st ts c G Hc) as (st' & E & G'). rewrite E in H.
  assert (Ec : step_ck I st c = step I st c) by (apply (step_fits st ts c); try assumption; [exact (Hn 0)|exact (Hn 1)]). cbn [run run_ck]. rewrite Ec, E. cbn [bind].
  apply (IH st' (table_step ts c)); try assumption; [|intros n; exact (Hn (S n))].
  apply (c93_range J I [c] st); [exact M|constructor; [exact T1|constructor]|]. cbn [run_ck]. fold ck cn. rewrite Ec, E. reflexivity.
Qed.
End Fits.


Lemma c93_unsigned : forall (I J : ity) (cs : list (call Z)), imin J = 0%Z -> calls_ok I [] cs -> Forall (call_typed J) cs ->
  (forall n, Forall (table_typed J) (table_run [] (firstn n cs))) ->
  exists st, @run_ck Z _ _ (int_checked J) (int_checked_neg J) I [] cs = Ok st /\ Forall2 holds st (table_run [] cs).
Proof.
  intros I J cs U H Tc Hn. destruct (c62_history I cs H) as (st & E & F). exists st. split; [|exact F]. rewrite <- E. apply (run_fits I J U cs [] []); try assumption; constructor.
Qed.
Lemma c93_unsigned_look : forall (I J : ity) (cs : list (call Z)) st v m o, imin J = 0%Z -> calls_ok I [] cs -> Forall (call_typed J) cs ->
  @run_ck Z _ _ (int_checked J) (int_checked_neg J) I [] cs = Ok st -> nth_error st v = Some m -> look_ok I o m -> look_typed J o ->
  table_typed J (nth v (table_run [] cs) no_table) -> answer_typed J (table_look o (nth v (table_run [] cs) no_table)) ->
  @do_look_ck Z _ (int_checked J) I o m = Some (Ok (table_look o (nth v (table_run [] cs) no_table))).
Proof.
  intros I J cs st v m o U H Tc E Ev Ho To Ht Ha. pose proof (c93_range J I cs [] st (Forall_nil _) Tc E) as M.
  assert (E2 : run I [] cs = Ok st).
  { destruct (@may_run Z _ _ (int_checked J) (int_checked_neg J) True (proj1 (c89_int J)) (proj2 (c89_int J)) I cs []) as [[P _]|Q]; congruence. }
  destruct (run_sim I cs [] [] (Forall2_nil _) H) as (st' & E' & G). rewrite E2 in E'. injection E' as <-. destruct (forall2_nth _ st _ v m no_table G Ev) as (Gm & Vm & Hm).
  transitivity (do_look I o m); [|apply look_holds; assumption]. apply (look_fits I J U o m (nth v (table_run [] cs) no_table)); try assumption. rewrite Forall_forall in M. exact (M m (nth_error_In _ _ Ev)).
Qed.
Lemma c93_signed_refuted : exists (I J : ity) (cs : list (call Z)), calls_ok I [] cs /\ Forall (call_typed J) cs /\
  (forall n, Forall (table_typed J) (table_run [] (firstn n cs))) /\ @run_ck Z _ _ (int_checked J) (int_checked_neg J) I [] cs = Panic.
Proof.
  exists I16, I8, [CMake FCoo (MNew 1 1 [0; 0; 0] [0; 0; 0] [100; 100; -100]); CUn (UTo FCsr) 0]%Z. split; [|split; [|split; [|vm_compute; reflexivity]]].
  - split; [split; [discriminate|]; sp; try (vm_compute; congruence); check|]. replace (step I16 [] _) with (Ok [MCoo (mkCoo 1 1 [0; 0; 0]%Z [0; 0; 0]%Z [100; 100; -100]%Z)]) by (vm_compute; reflexivity).
    split; [|exact Logic.I]. eexists. split; [reflexivity|]. split; [vm_compute; discriminate|vm_compute; reflexivity].
  - repeat constructor; vm_compute; congruence.
  - intros n. apply Forall_forall. intros t Ht i j Hi Hj. destruct n as [|[|n]]; cbn in Ht; try rewrite firstn_nil in Ht; cbn in Ht; repeat (destruct Ht as [<-|Ht]; [cbn in Hi, Hj; assert (i = 0) by lia; assert (j = 0) by lia; subst; vm_compute; split; congruence|]); destruct Ht.
Qed.
