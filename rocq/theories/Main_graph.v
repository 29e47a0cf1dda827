(** Proofs of the theorems of Props_graph.v, under the same names in lower case. *)
From Verif Require Import Rust Scalar Model_kernels Model_matrix Model_graph Spec SpecGraph Wp Rep ScatterProofs ConvProofs GraphProofs FlagProofs SccProofs Check.

Section Props.
Context {T : Type} {SC : Scalar T}.
Variable I : ity.

Lemma c35_not_square : forall (g : CSR T) directed conn, csr_rows g <> csr_cols g -> connected_components I g directed conn = Err ESquare.
Proof. intros g directed conn H. unfold connected_components, validate_graph. apply Nat.eqb_neq in H. rewrite H. reflexivity. Qed.
Lemma c35_weak_components : forall (g : CSR T) directed conn, wf_csr I g -> csr_rows_fit I g -> csr_rows g = csr_cols g ->
  conn = Weak \/ directed = false ->
  exists k labels, connected_components I g directed conn = Ok (k, labels) /\ length labels = csr_rows g /\
    (forall x y, x < csr_rows g -> y < csr_rows g -> (nth x labels 0 = nth y labels 0 <-> joined g x y)) /\
    (forall x, x < csr_rows g -> nth x labels 0 < k) /\
    (forall c, c < k -> exists i, i < csr_rows g /\ nth i labels 0 = c /\ forall j, j < i -> nth j labels 0 < c).
Proof.
  intros g directed conn W Ft Sq M. unfold connected_components, validate_graph. rewrite Sq, Nat.eqb_refl. cbn [negb bind]. rewrite <- Sq.
  replace (match conn with Weak => false | Strong => directed end) with false by (destruct M as [-> | ->]; [reflexivity|destruct conn; reflexivity]).
  destruct (transposed_graph I g W Ft Sq) as (gt & r & E1 & E2 & G2). rewrite E1. cbn [bind]. rewrite E2. cbn [bind].
  destruct (cc_undirected_ok (csr_rows g) (csr_colidx g) (csr_rowptr g) (csr_colidx r) (csr_rowptr r) (next_nodes g) (prev_nodes g)) as ([k out] & E & L & P & K & S).
  - apply (csr_is_graph I); assumption.
  - exact G2.
  - apply (nb_graph_sym I); assumption.
  - exists k, out. sp; try assumption. intros x y Hx Hy. rewrite (P x y Hx Hy). apply (joined_path I); assumption.
Qed.

Lemma c36_strong_components : forall g : CSR T, wf_csr I g -> csr_nodup g -> csr_rows g = csr_cols g -> 0 < csr_rows g ->
  exists k labels, connected_components I g true Strong = Ok (k, labels) /\ length labels = csr_rows g /\
    (forall x y, x < csr_rows g -> y < csr_rows g -> (nth x labels 0 = nth y labels 0 <-> reaches g x y /\ reaches g y x)) /\
    (forall x, x < csr_rows g -> nth x labels 0 < k) /\
    (forall c, c < k -> exists i, i < csr_rows g /\ nth i labels 0 = c).
Proof.
  intros g W N Sq Hn. unfold connected_components, validate_graph. rewrite Sq, Nat.eqb_refl. cbn [negb bind]. rewrite <- Sq. pose proof (csr_is_graph I g W Sq) as G.
  destruct (scc_correct (csr_rows g) (next_nodes g) ltac:(intros x y Hx Hy; apply (edge_lt I g x y W Sq); split; assumption) (csr_colidx g) (csr_rowptr g) G) as ([k out] & E & H); [|exact Hn|exists k, out; split; [exact E|]; split; [apply H|]; split; [apply H|]; split; apply H].
  intros v Hv. apply N, Hv.
Qed.
Lemma c77_edge : forall g : CSR T, wf_csr I g -> csr_nodup g -> csr_rows g = csr_cols g -> 0 < csr_rows g ->
  exists k labels, connected_components I g true Strong = Ok (k, labels) /\
    (forall x y, edge g x y -> nth y labels 0 <= nth x labels 0).
Proof.
  intros g W N Sq Hn. unfold connected_components, validate_graph. rewrite Sq, Nat.eqb_refl. cbn [negb bind]. rewrite <- Sq. pose proof (csr_is_graph I g W Sq) as G.
  destruct (scc_correct (csr_rows g) (next_nodes g) ltac:(intros x y Hx Hy; apply (edge_lt I g x y W Sq); split; assumption) (csr_colidx g) (csr_rowptr g) G) as ([k out] & E & H); [intros v Hv; apply N, Hv|exact Hn|].
  exists k, out. split; [exact E|]. intros x y Ed. destruct (edge_lt I g x y W Sq Ed) as [Hx Hy]. apply (proj2 (proj2 (proj2 (proj2 H)))); [exact Hx|exact Hy|exact Ed].
Qed.
Lemma c77_order : forall g : CSR T, wf_csr I g -> csr_nodup g -> csr_rows g = csr_cols g -> 0 < csr_rows g ->
  exists k labels, connected_components I g true Strong = Ok (k, labels) /\
    (forall x y, x < csr_rows g -> y < csr_rows g -> reaches g x y -> nth y labels 0 <= nth x labels 0 /\ (~ reaches g y x -> nth y labels 0 < nth x labels 0)).
Proof.
  intros g W N Sq Hn. destruct (c77_edge g W N Sq Hn) as (k & labels & E & H). destruct (c36_strong_components g W N Sq Hn) as (k' & l' & E' & L & Sm & _). rewrite E in E'. injection E' as <- <-.
  exists k, labels. split; [exact E|]. intros x y Hx Hy R. assert (Le : nth y labels 0 <= nth x labels 0).
  { clear Hx Hy. induction R as [x y Ed|x|x y z _ IH1 _ IH2]; [apply H, Ed|lia|lia]. }
  split; [exact Le|]. intros Nr. destruct (Nat.eq_dec (nth x labels 0) (nth y labels 0)) as [Eq|]; [|lia]. apply (Sm x y Hx Hy) in Eq. tauto.
Qed.
Lemma c36_empty_refuted : forall g : CSR T, csr_rows g = 0 -> csr_cols g = 0 -> connected_components I g true Strong = Panic.
Proof. intros g H1 H2. unfold connected_components, validate_graph. rewrite H1, H2. reflexivity. Qed.

Lemma c37_depth_first_order : forall (g : CSR T) s directed, wf_csr I g -> csr_rows g = csr_cols g -> (directed = false -> csr_rows_fit I g) ->
  s < csr_rows g ->
  exists L pr P, depth_first_order I g s directed = Ok (L, pr) /\
    dfs (neighbours directed g) s L P /\ nth_error L 0 = Some s /\ NoDup L /\
    (forall x, In x L <-> if directed then reaches g s x else joined g s x) /\
    length pr = csr_rows g /\
    (forall u p, u < csr_rows g -> (nth u pr None = Some p <-> In (u, p) P)) /\
    (forall u, u < csr_rows g -> (nth u pr None = None <-> u = s \/ ~ In u L)).
Proof.
  intros g s directed W Sq F Hs. destruct (depth_first_order_ok I g s directed W Sq F Hs) as ([L pr] & E & P & D & C & Lp & Hp). exists L, pr, P.
  pose proof (dfs_head _ _ _ _ D) as EL. pose proof (dfs_nodup 0 _ _ _ _ D) as ND. sp; try assumption.
  - rewrite EL. reflexivity.
  - assert (Step : forall a b, In a L -> In b (neighbours directed g a) -> In b L) by (intros a b Ha Hb; apply (proj2 (C a Ha)), Hb).
    assert (H0 : In s L) by (rewrite EL; left; reflexivity).
    intros x. split.
    + intros Hx. pose proof (dfs_reach _ _ _ _ _ D Hx) as R. clear -R C W Sq H0 Step. apply clos_rt_rt1n in R.
      assert (Hn : s < csr_rows g) by (apply C, H0). revert H0 Hn. induction R as [s|s b x Hb R IH]; intros H0 Hn.
      * destruct directed; [apply rt_refl|apply rst_refl].
      * assert (Hb' : In b L) by (eapply Step; eassumption). assert (Bn : b < csr_rows g) by (apply C, Hb'). specialize (IH Hb' Bn). destruct directed; cbn in Hb.
        -- eapply rt_trans; [apply rt_step; split; [exact Hn|exact Hb]|exact IH].
        -- apply in_app_or in Hb. eapply rst_trans; [|exact IH]. destruct Hb as [Hb|Hb]; [apply rst_step; split; [exact Hn|exact Hb]|apply rst_sym, rst_step, prev_next, Hb].
    + intros Hx. destruct directed.
      * clear -Hx H0 Step. revert H0. induction Hx as [a b [_ Hb]|a|a b c _ IH1 _ IH2]; intros H0; [apply (Step a b H0 Hb)|exact H0|auto].
      * apply (joined_path I g) in Hx; try assumption. clear -Hx H0 Step. revert H0. induction Hx as [a b [_ Hb]|a|a b c _ IH1 _ IH2]; intros H0; [|exact H0|auto]. apply (Step a b H0). cbn. apply in_or_app. exact Hb.
  - intros u Hu. split.
    + intros E0. destruct (in_dec Nat.eq_dec u L) as [X|X]; [left|right; exact X]. rewrite EL in X. destruct X as [X|X]; [congruence|]. apply in_map_iff in X. destruct X as ([u' p] & Eu & X). cbn in Eu. subst u'. apply Hp in X; [congruence|exact Hu].
    + intros X. destruct (nth u pr None) as [p|] eqn:E0; [|reflexivity]. exfalso. apply Hp in E0; [|exact Hu]. destruct (dfs_parent_in _ _ _ _ _ _ D E0) as (Y1 & Y2 & _). destruct X; contradiction.
Qed.
Lemma c37_not_square : forall (g : CSR T) s directed, csr_rows g <> csr_cols g -> depth_first_order I g s directed = Err ESquare.
Proof. intros g s directed H. unfold depth_first_order, validate_graph. apply Nat.eqb_neq in H. rewrite H. reflexivity. Qed.
Lemma c37_start_refuted : forall (g : CSR T) s directed, wf_csr I g -> csr_rows g = csr_cols g -> (directed = false -> csr_rows_fit I g) ->
  csr_rows g <= s -> depth_first_order I g s directed = Panic.
Proof.
  intros g s directed W Sq F Hs. unfold depth_first_order, validate_graph. rewrite Sq, Nat.eqb_refl. cbn [negb bind]. rewrite <- Sq.
  assert (Hi : dfs_init s (repeat 0 (csr_rows g)) (repeat None (csr_rows g)) = Panic).
  { unfold dfs_init. rewrite repeat_length. destruct (csr_rows g) as [|n]; [reflexivity|]. rewrite !vset_ok by (rewrite repeat_length; lia). cbn [bind]. unfold vset. rewrite repeat_length. destruct (Nat.ltb_spec s (S n)); [lia|reflexivity]. }
  destruct directed.
  - unfold depth_first_directed. rewrite Hi. reflexivity.
  - destruct (transposed_graph I g W (F eq_refl) Sq) as (gt & r & E1 & E2 & _). rewrite E1. cbn [bind]. rewrite E2. cbn [bind]. unfold depth_first_undirected. rewrite Hi. reflexivity.
Qed.

Lemma c38_flags : forall F (g : CSR T), wf_csr I g -> csr_rows_fit I g -> csr_rows g = csr_cols g ->
  (imin F <= -2)%Z -> (Z.of_nat (csr_rows g) <= imax F)%Z -> (exists i, i < csr_rows g /\ csr_row g i <> []) ->
  exists seeds flag, CSR_connected_components I F g = Ok (Z.of_nat (length seeds), flag) /\ length flag = csr_rows g /\
    (forall u, u < csr_rows g -> csr_row g u = [] -> nth u flag 0%Z = (-2)%Z) /\
    (forall u, u < csr_rows g -> csr_row g u <> [] -> exists c, c < length seeds /\ nth u flag 0%Z = Z.of_nat c /\
      reaches g (nth c seeds 0) u /\ forall c', c' < c -> ~ reaches g (nth c' seeds 0) u) /\
    (forall c, c < length seeds -> let s := nth c seeds 0 in s < csr_rows g /\ csr_row g s <> [] /\ nth s flag 0%Z = Z.of_nat c /\
      forall j, j < s -> csr_row g j <> [] -> (0 <= nth j flag 0 < Z.of_nat c)%Z).
Proof.
  intros F g W Ft Sq F1 F2 Ex. destruct (CSR_flags_ok I F g W Ft Sq F1 F2 Ex) as ([k flag] & E & L & seeds & -> & A & B & C). exists seeds, flag. sp; assumption.
Qed.
Lemma c38_symmetric : forall F (g : CSR T), wf_csr I g -> csr_rows_fit I g -> csr_rows g = csr_cols g -> csr_symmetric g ->
  (imin F <= -2)%Z -> (Z.of_nat (csr_rows g) <= imax F)%Z -> (exists i, i < csr_rows g /\ csr_row g i <> []) ->
  exists k flag, CSR_connected_components I F g = Ok (Z.of_nat k, flag) /\ length flag = csr_rows g /\
    (forall u, u < csr_rows g -> csr_row g u = [] -> nth u flag 0%Z = (-2)%Z) /\
    (forall u, u < csr_rows g -> csr_row g u <> [] -> (0 <= nth u flag 0 < Z.of_nat k)%Z) /\
    (forall u v, u < csr_rows g -> v < csr_rows g -> csr_row g u <> [] -> csr_row g v <> [] -> (nth u flag 0%Z = nth v flag 0%Z <-> joined g u v)) /\
    (forall c, c < k -> exists i, i < csr_rows g /\ csr_row g i <> [] /\ nth i flag 0%Z = Z.of_nat c /\ forall j, j < i -> (nth j flag 0 < Z.of_nat c)%Z).
Proof.
  intros F g W Ft Sq Sy F1 F2 Ex. destruct (c38_flags F g W Ft Sq F1 F2 Ex) as (seeds & flag & E & L & A & B & C). exists (length seeds), flag. sp; try assumption.
  - intros u Hu Bu. destruct (B u Hu Bu) as (c & Hc & -> & _). lia.
  - assert (RS : forall x y, reaches g x y -> reaches g y x).
    { intros x y H. induction H as [x y H|x|x y z _ H1 _ H2]; [apply rt_step, Sy, H|apply rt_refl|eapply rt_trans; eassumption]. }
    assert (JR : forall x y, joined g x y <-> reaches g x y).
    { intros x y. split; intros H; induction H as [x y H|x|x y H1 IH1|x y z _ H1 _ H2] || induction H as [x y H|x|x y z _ H1 _ H2].
      - apply rt_step, H. - apply rt_refl. - apply RS, IH1. - eapply rt_trans; eassumption. - apply rst_step, H. - apply rst_refl. - eapply rst_trans; eassumption. }
    intros u v Hu Hv Bu Bv. rewrite JR. destruct (B u Hu Bu) as (c & Hc & -> & Rc & Nc). destruct (B v Hv Bv) as (d & Hd & -> & Rd & Nd). split.
    + intros Ed. apply Nat2Z.inj in Ed. subst d. eapply rt_trans; [apply RS, Rc|exact Rd].
    + intros Ruv. f_equal. destruct (Nat.lt_trichotomy c d) as [X|[X|X]]; [|exact X|].
      * exfalso. apply (Nd c X). eapply rt_trans; eassumption.
      * exfalso. apply (Nc d X). eapply rt_trans; [exact Rd|apply RS, Ruv].
  - intros c Hc. destruct (C c Hc) as (S1 & S2 & S3 & S4). exists (nth c seeds 0). sp; try assumption. intros j Hj. destruct (csr_row g j) eqn:Ej; [rewrite A by (lia || exact Ej); lia|]. apply S4; [exact Hj|congruence].
Qed.
Lemma c38_not_square : forall F (g : CSR T), csr_rows g <> csr_cols g -> CSR_connected_components I F g = Err ESquare.
Proof. intros F g H. unfold CSR_connected_components. rewrite Nat.eqb_sym. apply Nat.eqb_neq in H. rewrite H. reflexivity. Qed.
Lemma c38_no_entries : forall F (g : CSR T), wf_csr I g -> csr_rows g = csr_cols g -> (imin F <= -2)%Z -> 0 < csr_rows g ->
  (forall i, i < csr_rows g -> csr_row g i = []) -> CSR_connected_components I F g = Err ECorrupt.
Proof. intros F g. apply CSR_flags_none. Qed.

(** C78 *)
Definition first_numbered (n k : nat) (l : list nat) : Prop := length l = n /\ (forall x, x < n -> nth x l 0 < k) /\
  (forall c, c < k -> exists i, i < n /\ nth i l 0 = c /\ forall j, j < i -> nth j l 0 < c).
Lemma first_prefix n k l x : first_numbered n k l -> x < n -> (forall j, j < x -> nth j l 0 <> nth x l 0) -> forall c, c < nth x l 0 <-> exists j, j < x /\ nth j l 0 = c.
Proof.
  intros (L & B & F) Hx Nx c. destruct (F (nth x l 0) (B x Hx)) as (i & Hi & Ei & Fi).
  assert (i = x) as ->. { destruct (lt_eq_lt_dec i x) as [[H|H]|H]; [exfalso; apply (Nx i H Ei)|exact H|specialize (Fi x H); lia]. }
  split; [|intros (j & Hj & <-); apply Fi, Hj]. intros Hc. destruct (F c) as (j & Hj & Ej & Fj); [specialize (B x Hx); lia|]. exists j. split; [|exact Ej].
  destruct (lt_eq_lt_dec j x) as [[H|H]|H]; [exact H|subst; lia|specialize (Fj x H); lia].
Qed.
Lemma first_numbered_unique n k1 l1 k2 l2 : first_numbered n k1 l1 -> first_numbered n k2 l2 ->
  (forall x y, x < n -> y < n -> (nth x l1 0 = nth y l1 0 <-> nth x l2 0 = nth y l2 0)) -> k1 = k2 /\ l1 = l2.
Proof.
  intros H1 H2 E. assert (K : forall x, x < n -> nth x l1 0 = nth x l2 0).
  { intros x. induction x as [x IH] using lt_wf_ind. intros Hx.
    assert (D : (exists j, j < x /\ nth j l1 0 = nth x l1 0) \/ (forall j, j < x -> nth j l1 0 <> nth x l1 0)).
    { clear. generalize (nth x l1 0). intros c. induction x as [|x IH]; [right; lia|]. destruct IH as [(j & Hj & Ej)|IH]; [left; exists j; split; [lia|exact Ej]|].
      destruct (Nat.eq_dec (nth x l1 0) c) as [Ex|Ex]; [left; exists x; split; [lia|exact Ex]|right]. intros j Hj. destruct (Nat.eq_dec j x) as [->|]; [exact Ex|apply IH; lia]. }
    destruct D as [(j & Hj & Ej)|D].
    - assert (Hjn : j < n) by lia. rewrite <- Ej. rewrite (IH j Hj Hjn). apply (E j x Hjn Hx), Ej.
    - assert (D2 : forall j, j < x -> nth j l2 0 <> nth x l2 0) by (intros j Hj X; apply (D j Hj), E; [lia|exact Hx|exact X]).
      pose proof (first_prefix _ _ _ x H1 Hx D) as P1. pose proof (first_prefix _ _ _ x H2 Hx D2) as P2.
      destruct (lt_eq_lt_dec (nth x l1 0) (nth x l2 0)) as [[X|X]|X]; [|exact X|]; exfalso.
      + apply P2 in X. destruct X as (j & Hj & Ej). rewrite <- (IH j Hj) in Ej by lia. apply (D j Hj Ej).
      + apply P1 in X. destruct X as (j & Hj & Ej). rewrite (IH j Hj) in Ej by lia. apply (D2 j Hj Ej). }
  destruct H1 as (L1 & B1 & F1), H2 as (L2 & B2 & F2). split.
  - destruct (lt_eq_lt_dec k1 k2) as [[X|X]|X]; [|exact X|]; exfalso.
    + destruct (F2 k1 X) as (i & Hi & Ei & _). rewrite <- K in Ei by exact Hi. specialize (B1 i Hi). lia.
    + destruct (F1 k2 X) as (i & Hi & Ei & _). rewrite K in Ei by exact Hi. specialize (B2 i Hi). lia.
  - apply (nth_ext _ _ 0 0); [congruence|]. intros x Hx. apply K. lia.
Qed.
Lemma c78_weak_unique : forall (g h : CSR T) d1 c1 d2 c2, wf_csr I g -> csr_rows_fit I g -> csr_rows g = csr_cols g -> wf_csr I h -> csr_rows_fit I h -> csr_rows h = csr_cols h ->
  c1 = Weak \/ d1 = false -> c2 = Weak \/ d2 = false ->
  csr_rows g = csr_rows h -> (forall x y, edge g x y -> edge h x y \/ edge h y x) -> (forall x y, edge h x y -> edge g x y \/ edge g y x) ->
  connected_components I g d1 c1 = connected_components I h d2 c2.
Proof.
  intros g h d1 c1 d2 c2 Wg Fg Sg Wh Fh Sh Cg Ch En E1 E2.
  destruct (c35_weak_components g d1 c1 Wg Fg Sg Cg) as (k1 & l1 & -> & L1 & J1 & B1 & N1). destruct (c35_weak_components h d2 c2 Wh Fh Sh Ch) as (k2 & l2 & -> & L2 & J2 & B2 & N2).
  assert (JJ : forall a b : CSR T, (forall x y, edge a x y -> edge b x y \/ edge b y x) -> forall x y, joined a x y -> joined b x y).
  { intros a b H x y J. induction J as [x y Ed|x|x y _ IH|x y z _ IH1 _ IH2]; [destruct (H x y Ed); [apply rst_step|apply rst_sym, rst_step]; assumption|apply rst_refl|apply rst_sym, IH|eapply rst_trans; eassumption]. }
  destruct (first_numbered_unique (csr_rows g) k1 l1 k2 l2) as [-> ->]; [repeat split; assumption|rewrite En; repeat split; assumption| |reflexivity].
  intros x y Hx Hy. rewrite J1 by assumption. rewrite J2 by congruence. split; apply JJ; assumption.
Qed.
Lemma c78_strong_refines_weak : forall g : CSR T, wf_csr I g -> csr_rows_fit I g -> csr_nodup g -> csr_rows g = csr_cols g -> 0 < csr_rows g ->
  exists ks ls kw lw, connected_components I g true Strong = Ok (ks, ls) /\ connected_components I g true Weak = Ok (kw, lw) /\ kw <= ks /\
    (forall x y, x < csr_rows g -> y < csr_rows g -> nth x ls 0 = nth y ls 0 -> nth x lw 0 = nth y lw 0) /\
    (csr_symmetric g -> ks = kw /\ forall x y, x < csr_rows g -> y < csr_rows g -> nth x lw 0 = nth y lw 0 -> nth x ls 0 = nth y ls 0).
Proof.
  intros g W F N Sq Hn. destruct (c36_strong_components g W N Sq Hn) as (ks & ls & Es & Ls & Js & Bs & Us). destruct (c35_weak_components g true Weak W F Sq (or_introl eq_refl)) as (kw & lw & Ew & Lw & Jw & Bw & Nw).
  assert (RJ : forall x y, reaches g x y -> joined g x y) by (intros x y R; induction R; [apply rst_step; assumption|apply rst_refl|eapply rst_trans; eassumption]).
  assert (Ref : forall x y, x < csr_rows g -> y < csr_rows g -> nth x ls 0 = nth y ls 0 -> nth x lw 0 = nth y lw 0) by (intros x y Hx Hy Exy; apply Jw; try assumption; apply RJ; apply (Js x y Hx Hy), Exy).
  (* a labelling that uses all of 0..k-1 and is constant on the classes of another with labels below k' has k <= k' *)
  assert (Cnt : forall k l k' l', length l = csr_rows g -> length l' = csr_rows g -> (forall x, x < csr_rows g -> nth x l' 0 < k') -> (forall c, c < k -> exists i, i < csr_rows g /\ nth i l 0 = c) ->
    (forall x y, x < csr_rows g -> y < csr_rows g -> nth x l' 0 = nth y l' 0 -> nth x l 0 = nth y l 0) -> k <= k').
  { intros k l k' l' Hl Hl' B U R. assert (X : exists f, forall c, c < k -> f c < csr_rows g /\ nth (f c) l 0 = c).
    { clear -U. induction k as [|k IH]; [exists (fun _ => 0); lia|]. destruct IH as (f & Hf); [intros c Hc; apply U; lia|]. destruct (U k) as (i & Hi & Ei); [lia|]. exists (fun c => if c =? k then i else f c). intros c Hc. destruct (Nat.eqb_spec c k) as [->|D]; [auto|apply Hf; lia]. }
    destruct X as (f & Hf). set (m := map (fun c => nth (f c) l' 0) (seq 0 k)). assert (Nm : NoDup m).
    { apply NoDup_nth with (d := nth (f 0) l' 0). unfold m. rewrite map_length, seq_length. intros i j Hi Hj. rewrite !(map_nth (fun c => nth (f c) l' 0)), !seq_nth by assumption. cbn. intros X. destruct (Hf i Hi) as [F1 F2], (Hf j Hj) as [F3 F4]. apply (R _ _ F1 F3) in X. congruence. }
    assert (Lm : length m <= k'). { apply nodup_bound; [exact Nm|]. intros u Hu. apply in_map_iff in Hu. destruct Hu as (c & <- & Hc). apply in_seq in Hc. apply B, Hf. lia. }
    unfold m in Lm. rewrite map_length, seq_length in Lm. exact Lm. }
  assert (Uw : forall c, c < kw -> exists i, i < csr_rows g /\ nth i lw 0 = c) by (intros c Hc; destruct (Nw c Hc) as (i & Hi & Ei & _); exists i; auto).
  exists ks, ls, kw, lw. split; [exact Es|]. split; [exact Ew|]. split; [apply (Cnt kw lw ks ls); assumption|]. split; [exact Ref|]. intros Sy. split.
  - apply Nat.le_antisymm; [|apply (Cnt kw lw ks ls); assumption]. apply (Cnt ks ls kw lw); try assumption.
    intros x y Hx Hy X. apply Jw in X; try assumption. apply Js; try assumption. assert (K : forall x y, joined g x y -> reaches g x y /\ reaches g y x).
    { intros a b J. induction J as [a b Ed|a|a b _ IH|a b c _ IH1 _ IH2]; [split; apply rt_step; [exact Ed|apply Sy, Ed]|split; apply rt_refl|tauto|]. destruct IH1, IH2. split; eapply rt_trans; eassumption. }
    apply K, X.
  - intros x y Hx Hy X. apply Jw in X; try assumption. apply Js; try assumption. assert (K : forall x y, joined g x y -> reaches g x y /\ reaches g y x).
    { intros a b J. induction J as [a b Ed|a|a b _ IH|a b c _ IH1 _ IH2]; [split; apply rt_step; [exact Ed|apply Sy, Ed]|split; apply rt_refl|tauto|]. destruct IH1, IH2. split; eapply rt_trans; eassumption. }
    apply K, X.
Qed.

Lemma c78_transposed_facts : forall g : CSR T, wf_csr I g -> csr_rows_fit I g -> csr_rows g = csr_cols g ->
  exists gt r, CSR_t g = Ok gt /\ CSC_to_csr I gt = Ok r /\ wf_csr I r /\ csr_rows_fit I r /\ csr_rows r = csr_cols r /\ csr_rows r = csr_rows g /\
    (forall x y, edge r x y <-> edge g y x) /\ (csr_nodup g -> csr_nodup r).
Proof.
  intros g W F Sq. destruct (wf_csr_rep _ _ W) as [R HR]. eexists. pose proof (csr_t_rep _ _ _ HR) as E. set (gt := mkCSC _ _ _ _ _) in *.
  assert (HC : csc_rep I gt R) by exact HR. destruct (CSC_to_csr_rep I gt R HC) as (r & E1 & E2 & E3 & R2 & Tt). { apply (csr_rows_fit_rep I g R HR), F. }
  exists r. assert (Er : csr_rows r = csr_rows g) by (rewrite E2; cbn; congruence). assert (Ec : csr_cols r = csr_rows g) by (rewrite E3; reflexivity).
  assert (En : forall v, v < csr_rows g -> next_nodes r v = prev_nodes g v).
  { intros v Hv. unfold next_nodes. rewrite (csr_rep_row _ _ _ _ R2). unfold transpose_rows. rewrite nth_buckets by (cbn; lia). rewrite bucket_prev. unfold prev_nodes.
    rewrite (proj1 HR). apply flat_map_ext. intros j. cbn. rewrite (csr_rep_at _ _ _ _ _ HR). reflexivity. }
  split; [exact E|]. split; [exact E1|]. split; [apply (csr_rep_wf _ _ _ R2)|]. split. { apply (csr_rows_fit_rep I r _ R2). eapply transpose_rows_fit. apply HR. }
  split; [congruence|]. split; [exact Er|]. split.
  - intros x y. split.
    + intros [Hx Hy]. rewrite Er in Hx. rewrite (En x Hx) in Hy. apply prev_next, Hy.
    + intros Ed. destruct (edge_lt I g y x W Sq Ed) as [Hy Hx]. split; [congruence|]. rewrite (En x Hx). apply prev_next, Ed.
  - intros N v Hv. rewrite Er in Hv. change (NoDup (next_nodes r v)). rewrite (En v Hv). unfold prev_nodes.
    assert (K : forall j, j < csr_rows g -> length (csr_at g j v) <= 1).
    { intros j Hj. specialize (N j Hj). unfold csr_at, at_. rewrite map_length. revert N. generalize (csr_row g j). intros l N. induction l as [|e l IH]; [cbn; lia|]. cbn [map] in N. inversion N as [|? ? Ni N']. subst. cbn [filter]. destruct (Nat.eqb_spec (fst e) v) as [Ee|Ee]; [|apply IH, N'].
      cbn [length]. assert (filter (fun e0 => fst e0 =? v) l = []) as ->; [|cbn; lia]. clear -Ni Ee. induction l as [|e' l IH]; [reflexivity|]. cbn [filter map] in *. destruct (Nat.eqb_spec (fst e') v) as [X|X]; [exfalso; apply Ni; left; congruence|]. apply IH. intros Hi. apply Ni. right. exact Hi. }
    assert (G : forall s n, (forall j, s <= j < s + n -> length (csr_at g j v) <= 1) -> NoDup (flat_map (fun j => map (fun _ => j) (csr_at g j v)) (seq s n))).
    { intros s n. revert s. induction n as [|n IH]; intros s Hk; [constructor|]. cbn [seq flat_map]. specialize (IH (S s) ltac:(intros j Hj; apply Hk; lia)).
      specialize (Hk s ltac:(lia)). destruct (csr_at g s v) as [|a [|b l]]; cbn [length] in Hk; [exact IH| |lia]. cbn [map app]. constructor; [|exact IH].
      intros Hi. apply in_flat_map in Hi. destruct Hi as (j & Hj & Hs). apply in_seq in Hj. apply in_map_iff in Hs. destruct Hs as (_ & X & _). lia. }
    apply G. intros j Hj. apply K. lia.
Qed.
Lemma c78_transposed_weak : forall (g : CSR T) d c d' c', wf_csr I g -> csr_rows_fit I g -> csr_rows g = csr_cols g -> c = Weak \/ d = false -> c' = Weak \/ d' = false ->
  exists gt r, CSR_t g = Ok gt /\ CSC_to_csr I gt = Ok r /\ connected_components I r d' c' = connected_components I g d c.
Proof.
  intros g d c d' c' W F Sq C C'. destruct (c78_transposed_facts g W F Sq) as (gt & r & E1 & E2 & Wr & Fr & Sr & Rr & Ed & _). exists gt, r. split; [exact E1|]. split; [exact E2|].
  apply c78_weak_unique; try assumption; intros x y H; right; apply Ed, H.
Qed.
Lemma c78_transposed_strong : forall g : CSR T, wf_csr I g -> csr_rows_fit I g -> csr_nodup g -> csr_rows g = csr_cols g -> 0 < csr_rows g ->
  exists gt r k l k' l', CSR_t g = Ok gt /\ CSC_to_csr I gt = Ok r /\ connected_components I g true Strong = Ok (k, l) /\ connected_components I r true Strong = Ok (k', l') /\
    forall x y, x < csr_rows g -> y < csr_rows g -> (nth x l 0 = nth y l 0 <-> nth x l' 0 = nth y l' 0).
Proof.
  intros g W F N Sq Hn. destruct (c78_transposed_facts g W F Sq) as (gt & r & E1 & E2 & Wr & Fr & Sr & Rr & Ed & Nr).
  destruct (c36_strong_components g W N Sq Hn) as (k & l & E & _ & J & _). destruct (c36_strong_components r Wr (Nr N) Sr ltac:(lia)) as (k' & l' & E' & _ & J' & _).
  exists gt, r, k, l, k', l'. repeat (split; [assumption|]). intros x y Hx Hy. rewrite (J x y Hx Hy), (J' x y ltac:(lia) ltac:(lia)).
  assert (K : forall x y, reaches g x y <-> reaches r y x).
  { intros a b. split; intros H; induction H; try (apply rt_refl); try (eapply rt_trans; eassumption); apply rt_step, Ed; assumption. }
  rewrite (K x y), (K y x). tauto.
Qed.
Lemma c78_flags_agree : forall F (g : CSR T), wf_csr I g -> csr_rows_fit I g -> csr_rows g = csr_cols g -> csr_symmetric g ->
  (imin F <= -2)%Z -> (Z.of_nat (csr_rows g) <= imax F)%Z -> (exists i, i < csr_rows g /\ csr_row g i <> []) ->
  exists k flag k' labels, CSR_connected_components I F g = Ok (Z.of_nat k, flag) /\ connected_components I g false Weak = Ok (k', labels) /\ k <= k' /\
    forall u v, u < csr_rows g -> v < csr_rows g -> csr_row g u <> [] -> csr_row g v <> [] -> (nth u flag 0%Z = nth v flag 0%Z <-> nth u labels 0 = nth v labels 0).
Proof.
  intros F g W Ft Sq Sy HF HF2 Ne. destruct (c38_symmetric F g W Ft Sq Sy HF HF2 Ne) as (k & flag & E & L & A & B & C & D). destruct (c35_weak_components g false Weak W Ft Sq (or_introl eq_refl)) as (k' & l' & E' & L' & J' & B' & N').
  assert (Q : forall u v, u < csr_rows g -> v < csr_rows g -> csr_row g u <> [] -> csr_row g v <> [] -> (nth u flag 0%Z = nth v flag 0%Z <-> nth u l' 0 = nth v l' 0)).
  { intros u v Hu Hv Nu Nv. rewrite (C u v Hu Hv Nu Nv), (J' u v Hu Hv). tauto. }
  exists k, flag, k', l'. split; [exact E|]. split; [exact E'|]. split; [|exact Q].
  assert (X : exists f, forall c, c < k -> f c < csr_rows g /\ csr_row g (f c) <> [] /\ nth (f c) flag 0%Z = Z.of_nat c).
  { clear -D. induction k as [|k IH]; [exists (fun _ => 0); lia|]. destruct IH as (f & Hf); [intros c Hc; apply D; lia|]. destruct (D k) as (i & Hi & Ni & Ei & _); [lia|]. exists (fun c => if c =? k then i else f c). intros c Hc. destruct (Nat.eqb_spec c k) as [->|Dc]; [auto|apply Hf; lia]. }
  destruct X as (f & Hf). set (m := map (fun c => nth (f c) l' 0) (seq 0 k)). assert (Nm : NoDup m).
  { apply NoDup_nth with (d := nth (f 0) l' 0). unfold m. rewrite map_length, seq_length. intros i j Hi Hj. rewrite !(map_nth (fun c => nth (f c) l' 0)), !seq_nth by assumption. cbn. intros X. destruct (Hf i Hi) as (F1 & F2 & F3), (Hf j Hj) as (G1 & G2 & G3). apply Q in X; try assumption. lia. }
  assert (Lm : length m <= k'). { apply nodup_bound; [exact Nm|]. intros u Hu. apply in_map_iff in Hu. destruct Hu as (c & <- & Hc). apply in_seq in Hc. apply B', Hf. lia. }
  unfold m in Lm. rewrite map_length, seq_length in Lm. exact Lm.
Qed.

(** C79 *)
Lemma c79_undirected : forall (g : CSR T) s, wf_csr I g -> csr_rows_fit I g -> csr_rows g = csr_cols g -> s < csr_rows g ->
  exists L pr k labels, depth_first_order I g s false = Ok (L, pr) /\ connected_components I g false Weak = Ok (k, labels) /\
    forall x, In x L <-> x < csr_rows g /\ nth x labels 0 = nth s labels 0.
Proof.
  intros g s W F Sq Hs. destruct (c37_depth_first_order g s false W Sq (fun _ => F) Hs) as (L & pr & P & E & _ & _ & _ & M & _). destruct (c35_weak_components g false Weak W F Sq (or_introl eq_refl)) as (k & l & E' & _ & J & _).
  exists L, pr, k, l. split; [exact E|]. split; [exact E'|]. intros x. rewrite M. split.
  - intros R. assert (Hx : x < csr_rows g). { assert (K : forall a b, joined g a b -> (a < csr_rows g <-> b < csr_rows g)).
      { intros a b Jab. induction Jab as [a b Ed| | |]; [destruct (edge_lt I g a b W Sq Ed); tauto|tauto|tauto|tauto]. } apply (K s x R), Hs. }
    split; [exact Hx|]. symmetry. apply J; assumption.
  - intros [Hx Ex]. apply J; [exact Hs|exact Hx|]. symmetry. exact Ex.
Qed.
Lemma c79_directed : forall (g : CSR T) s t, wf_csr I g -> csr_nodup g -> csr_rows g = csr_cols g -> s < csr_rows g -> t < csr_rows g ->
  exists L pr L' pr' k labels, depth_first_order I g s true = Ok (L, pr) /\ depth_first_order I g t true = Ok (L', pr') /\ connected_components I g true Strong = Ok (k, labels) /\
    (nth s labels 0 = nth t labels 0 <-> In t L /\ In s L').
Proof.
  intros g s t W N Sq Hs Ht. destruct (c37_depth_first_order g s true W Sq ltac:(discriminate) Hs) as (L & pr & P & E & _ & _ & _ & M & _). destruct (c37_depth_first_order g t true W Sq ltac:(discriminate) Ht) as (L' & pr' & P' & E' & _ & _ & _ & M' & _).
  destruct (c36_strong_components g W N Sq ltac:(lia)) as (k & l & E2 & _ & J & _). exists L, pr, L', pr', k, l. split; [exact E|]. split; [exact E'|]. split; [exact E2|]. rewrite (J s t Hs Ht), (M t), (M' s). tauto.
Qed.
End Props.
Lemma c36_duplicates_refuted : exists g : CSR Z, wf_csr I32 g /\ csr_rows g = csr_cols g /\ 0 < csr_rows g /\ connected_components I32 g true Strong = Panic.
Proof. exists (mkCSR 2 2 [0; 2; 2]%Z [1; 1]%Z [3; 4]%Z). split; [check|]. sp; try (cbn; lia). Qed.
Lemma c36_duplicates_wrong_refuted : exists (g : CSR Z) k labels x y, wf_csr I32 g /\ csr_rows g = csr_cols g /\ connected_components I32 g true Strong = Ok (k, labels) /\
  x < csr_rows g /\ y < csr_rows g /\ reaches g x y /\ reaches g y x /\ nth x labels 0 <> nth y labels 0 /\ k < nth x labels 0.
Proof.
  exists (mkCSR 4 4 [0; 1; 4; 5; 7]%Z [1; 2; 2; 3; 1; 0; 2]%Z [1; 1; 1; 1; 1; 1; 1]%Z), 1, [3; 2; 0; 3], 0, 1. split; [check|]. split; [reflexivity|]. split; [vm_compute; reflexivity|]. split; [cbn; lia|]. split; [cbn; lia|].
  split; [apply rt_step; split; [cbn; lia|vm_compute; auto]|]. split; [|cbn; lia]. apply rt_trans with 3; apply rt_step; (split; [cbn; lia|vm_compute; auto 6]).
Qed.
