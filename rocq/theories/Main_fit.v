(** Proofs of the theorems of Props_fit.v, under the same names in lower case. *)
From Verif Require Import Rust Scalar Model_kernels Model_matrix Model_graph Spec Wp Rep ConvProofs LinkProofs PadProofs MismatchProofs ArithProofs TableProofs.

Section Props.
Context {T : Type} {SC : Scalar T}.
Variable I : ity.

Ltac npt := repeat first [exact Logic.I | apply np_vget | apply np_vset | apply np_icheck | apply np_to_usize | apply np_usub | apply np_pget
  | apply np_bind; [|intros ?] | apply np_for; intros ? ?
  | match goal with |- np (let '(_, _) := ?x in _) => destruct x end
  | match goal with |- np (if ?x then _ else _) => destruct x end ].
Lemma pc_ifrom n : pc (ifrom I n) (fun _ => (Z.of_nat n <= imax I)%Z).
Proof.
  unfold ifrom, icheck. destruct (_ && _)%bool eqn:E; [|discriminate]. intros a _. apply andb_prop in E as [_ E]. apply Z.leb_le in E. exact E.
Qed.
(** a loop over rows whose body needs the number of a row with entries to fit *)
Lemma pc_rows {St} c p j (x : list T) R n (f : nat -> St -> res St) s : crep I c p j x R -> length R = n ->
  (forall i s lo hi, pget p i = Ok lo -> pget p (i + 1) = Ok hi -> lo < hi -> pc (f i s) (fun _ => (Z.of_nat i <= imax I)%Z)) ->
  pc (for_range 0 n f s) (fun _ => forall i, i < n -> nth i R [] <> [] -> (Z.of_nat i <= imax I)%Z).
Proof.
  intros H L HB. eapply (pc_for (fun q _ => forall i, i < q -> nth i R [] <> [] -> (Z.of_nat i <= imax I)%Z)); [lia|lia| |auto].
  intros i t Hi Ht. destruct (nth_split_app R i []) as (pre & post & E & Lp); [lia|].
  pose proof (crep_start H E) as S1. pose proof (crep_end H E) as S2. rewrite Lp in S1, S2.
  intros r Er q Hq NE. destruct (Nat.eq_dec q i) as [->|D]; [|apply Ht; [lia|exact NE]].
  apply (HB i t _ _ S1 S2) with (a := r); [|exact Er]. destruct (nth i R []); [congruence|cbn [length]; lia].
Qed.

Lemma tocsc_unfit n c p j (x : list T) R bp bi bx : crep I c p j x R -> length R = n -> ~ (forall i, i < n -> nth i R [] <> [] -> (Z.of_nat i <= imax I)%Z) ->
  csr_tocsc I n c p j x bp bi bx = Panic.
Proof.
  intros H L NF. apply panic_of.
  - unfold csr_tocsc, vinc, iadd, ifrom. npt.
  - unfold csr_tocsc. do 4 (apply pc_any; intros ?). match goal with |- pc (let '(_, _) := ?z in _) _ => destruct z end. apply pc_any. intros b. eapply pc_bind.
    + eapply (pc_rows c p j x R n _ _ H L). intros i [[b1 b2] b3] lo hi E1 E2 Hl. rewrite E1, E2. cbn [bind]. rewrite for_range_cons by exact Hl. eapply pc_bind; [|intros s Hs r _; exact Hs]. apply pc_any. intros col. apply pc_any. intros dest. eapply pc_bind; [apply pc_ifrom|].
      intros zz Hz r _. exact Hz.
    + intros s Hs. destruct (NF Hs).
Qed.
Lemma tocoo_unfit n c p j (x : list T) R ai bj bx : crep I c p j x R -> length R = n -> ~ (forall i, i < n -> nth i R [] <> [] -> (Z.of_nat i <= imax I)%Z) ->
  csr_tocoo I n c p j x ai bj bx = Panic.
Proof.
  intros H L NF. apply panic_of.
  - unfold csr_tocoo, ifrom. npt.
  - unfold csr_tocoo. eapply pc_bind.
    + eapply (pc_rows c p j x R n _ _ H L). intros i [[[b1 b2] b3] b4] lo hi E1 E2 Hl. rewrite E1, E2. cbn [bind]. rewrite for_range_cons by exact Hl. eapply pc_bind; [|intros s Hs r _; exact Hs]. eapply pc_bind; [apply pc_ifrom|]. intros z Hz r _. exact Hz.
    + intros s Hs. destruct (NF Hs).
Qed.
Lemma expandptr_unfit n c p j (x : list T) R b : crep I c p j x R -> length R = n -> ~ (forall i, i < n -> nth i R [] <> [] -> (Z.of_nat i <= imax I)%Z) ->
  expandptr I n p b = Panic.
Proof.
  intros H L NF. apply panic_of.
  - unfold expandptr, ifrom. npt.
  - unfold expandptr. eapply pc_mono; [apply (pc_rows c p j x R n _ _ H L)|intros s; exact NF].
    intros i s lo hi E1 E2 Hl. rewrite E1, E2. cbn [bind]. rewrite for_range_cons by exact Hl. eapply pc_bind; [|intros q Hs r _; exact Hs]. eapply pc_bind; [apply pc_ifrom|]. intros z Hz r _. exact Hz.
Qed.
Lemma csr_unfit (m : CSR T) R : csr_rep I m R -> csr_rows_fit I m <-> (forall i, i < csr_rows m -> nth i R [] <> [] -> (Z.of_nat i <= imax I)%Z).
Proof. intros H. unfold csr_rows_fit. split; intros G i Hi; specialize (G i Hi); rewrite (csr_rep_row _ _ _ _ H) in *; exact G. Qed.
Lemma csc_unfit (m : CSC T) R : csc_rep I m R -> csc_cols_fit I m <-> (forall i, i < csc_cols m -> nth i R [] <> [] -> (Z.of_nat i <= imax I)%Z).
Proof. intros H. unfold csc_cols_fit. split; intros G i Hi; specialize (G i Hi); rewrite (csc_rep_col _ _ _ _ H) in *; exact G. Qed.

Lemma c03_csr_unfit : forall m : CSR T, wf_csr I m -> ~ csr_rows_fit I m -> CSR_to_csc I m = Panic /\ CSR_to_coo I m = Panic.
Proof.
  intros m W NF. destruct (wf_csr_rep _ _ W) as [R HR]. rewrite (csr_unfit m R HR) in NF. destruct (HR) as [L H].
  unfold CSR_to_csc, CSR_to_coo. rewrite (CSR_nnz_rep _ _ _ HR). cbn [bind].
  rewrite (tocsc_unfit _ _ _ _ _ R _ _ _ H L NF), (expandptr_unfit _ _ _ _ _ R _ H L NF). split; reflexivity.
Qed.
Lemma c04_csc_unfit : forall m : CSC T, wf_csc I m -> ~ csc_cols_fit I m -> CSC_to_csr I m = Panic /\ CSC_to_coo I m = Panic /\ CSC_to_dense I m = Panic.
Proof.
  intros m W NF. destruct (wf_csc_rep _ _ W) as [R HR]. rewrite (csc_unfit m R HR) in NF. destruct (HR) as [L H].
  unfold CSC_to_dense. assert (E : CSC_to_csr I m = Panic).
  { unfold CSC_to_csr. rewrite (CSC_nnz_rep _ _ _ HR). cbn [bind]. rewrite (tocsc_unfit _ _ _ _ _ R _ _ _ H L NF). reflexivity. }
  rewrite E. unfold CSC_to_coo. rewrite (CSC_nnz_rep _ _ _ HR). cbn [bind]. rewrite (tocoo_unfit _ _ _ _ _ R _ _ _ H L NF). split; [reflexivity|]. split; reflexivity.
Qed.

Lemma transpose_unfit (g : CSR T) : wf_csr I g -> ~ csr_rows_fit I g -> exists gt, CSR_t g = Ok gt /\ CSC_to_csr I gt = Panic.
Proof.
  intros W NF. destruct (wf_csr_rep _ _ W) as [R HR]. rewrite (csr_unfit g R HR) in NF. eexists. split; [exact (csr_t_rep _ _ _ HR)|]. destruct HR as [L H].
  assert (HR : csc_rep I (mkCSC (csr_cols g) (csr_rows g) (csr_colidx g) (csr_rowptr g) (csr_values g)) R) by (split; [exact L|exact H]).
  unfold CSC_to_csr. rewrite (CSC_nnz_rep _ _ _ HR). cbn [bind csc_cols csc_rows csc_rowidx csc_colptr csc_values].
  rewrite (tocsc_unfit _ _ _ _ _ R _ _ _ H L NF). reflexivity.
Qed.
Lemma c35_weak_unfit : forall (g : CSR T) directed conn, wf_csr I g -> ~ csr_rows_fit I g -> csr_rows g = csr_cols g ->
  conn = Weak \/ directed = false -> connected_components I g directed conn = Panic.
Proof.
  intros g directed conn W N E H. unfold connected_components, validate_graph. rewrite E, Nat.eqb_refl. cbn [negb bind].
  replace (match conn with Weak => false | Strong => directed end) with false by (destruct H as [->| ->]; [reflexivity|destruct conn; reflexivity]).
  destruct (transpose_unfit g W N) as (gt & -> & H1). cbn [bind]. rewrite H1. reflexivity.
Qed.
Lemma c37_undirected_unfit : forall (g : CSR T) s, wf_csr I g -> ~ csr_rows_fit I g -> csr_rows g = csr_cols g ->
  depth_first_order I g s false = Panic.
Proof.
  intros g s W N E. unfold depth_first_order, validate_graph. rewrite E, Nat.eqb_refl. cbn [negb bind].
  destruct (transpose_unfit g W N) as (gt & -> & H1). cbn [bind]. rewrite H1. reflexivity.
Qed.
End Props.
