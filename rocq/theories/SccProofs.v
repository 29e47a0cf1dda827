(** Strongly connected components. *)
From Verif Require Import Rust Scalar Model_kernels Model_matrix Model_graph Spec SpecGraph Wp Rep ScatterProofs ConvProofs GraphProofs.

Definition other (w : nat) (D : list nat) : list nat := filter (fun x => negb (x =? w)) D.
Lemma in_other w D x : In x (other w D) <-> In x D /\ x <> w.
Proof. unfold other. rewrite filter_In. destruct (Nat.eqb_spec x w); cbn; intuition congruence. Qed.
Lemma other_nodup w D : NoDup D -> NoDup (other w D).
Proof. apply NoDup_filter. Qed.
Lemma other_notin w D : ~ In w D -> other w D = D.
Proof. induction D as [|x D IH]; [reflexivity|]. cbn. intros N. destruct (Nat.eqb_spec x w) as [->|_]; [tauto|]. cbn. unfold other in IH. rewrite IH by tauto. reflexivity. Qed.
Lemma other_app w A B : other w (A ++ B) = other w A ++ other w B.
Proof. apply filter_app. Qed.

(** back pointers of the depth-first stack *)
Fixpoint back (sb : list node) (b : node) (D : list nat) : Prop :=
  match D with
  | [] => True
  | u :: D' => nth u sb NVoid = b /\ u < length sb /\ back sb (NLabel u) D'
  end.
Lemma back_upd sb w x b D : ~ In w D -> back sb b D -> back (upd sb w x) b D.
Proof.
  revert b. induction D as [|u D IH]; intros b N; cbn; [tauto|]. intros (E & L & C). rewrite upd_length. cbn in N. rewrite nth_upd_ne by (intros ->; tauto). sp; try assumption. apply IH; tauto.
Qed.
Lemma excise_chain ss h A a w B : NoDup (A ++ a :: w :: B) -> chain ss h (A ++ a :: w :: B) -> chain (upd ss a (nth w ss NVoid)) h (A ++ a :: B).
Proof.
  revert h. induction A as [|x A IH]; intros h N; cbn.
  - intros (E & L & E2 & L2 & C). rewrite upd_length, nth_upd_eq by exact L. sp; try assumption. cbn in N. apply NoDup_cons_iff in N. destruct N as [N _]. apply chain_upd; [cbn in N; tauto|exact C].
  - intros (E & L & C). cbn in N. apply NoDup_cons_iff in N. destruct N as [N1 N2]. rewrite upd_length. sp; try assumption. rewrite nth_upd_ne; [apply IH; assumption|]. intros ->. apply N1, in_or_app. right. left. reflexivity.
Qed.
Definition relink (sb : list node) (B : list nat) (a : nat) : list node := match B with [] => sb | y :: _ => upd sb y (NLabel a) end.
Lemma excise_back sb b A a w B : NoDup (A ++ a :: w :: B) -> back sb b (A ++ a :: w :: B) -> nth w sb NVoid = NLabel a /\ back (relink sb B a) b (A ++ a :: B).
Proof.
  revert b. induction A as [|x A IH]; intros b N; cbn.
  - intros (E & L & E2 & L2 & C). split; [exact E2|]. unfold relink. destruct B as [|y B]; [sp; assumption|]. cbn in C. cbn in N. apply NoDup_cons_iff in N. destruct N as [N1 N2]. apply NoDup_cons_iff in N2. destruct N2 as [N2 N3]. apply NoDup_cons_iff in N3.
    rewrite upd_length, nth_upd_ne by (intros ->; cbn in N1; tauto). cbn. rewrite upd_length, nth_upd_eq by tauto. sp; try tauto. apply back_upd; tauto.
  - intros (E & L & C). cbn in N. apply NoDup_cons_iff in N. destruct N as [N1 N2]. destruct (IH _ N2 C) as [E1 E2]. split; [exact E1|]. unfold relink in *. destruct B as [|y B]; [sp; assumption|]. rewrite upd_length, nth_upd_ne; [sp; assumption|]. intros ->. apply N1, in_or_app. right. right. right. left. reflexivity.
Qed.
Lemma relink_length sb B a : length (relink sb B a) = length sb.
Proof. destruct B; [reflexivity|apply upd_length]. Qed.

Lemma chain_split ss h A w B : chain ss h (A ++ w :: B) -> chain ss (nth w ss NVoid) B.
Proof. revert h. induction A as [|x A IH]; intros h; cbn; [tauto|]. intros (_ & _ & C). apply (IH _ C). Qed.
Lemma back_len sb b D u : back sb b D -> In u D -> u < length sb.
Proof. revert b. induction D as [|x D IH]; intros b; cbn; [tauto|]. intros (_ & L & C) [<-|H]; [exact L|eapply IH; eassumption]. Qed.

Lemma scc_push_ok n labels w ss sb h d0 D1 : let D := d0 :: D1 in
  length labels = n -> length ss = n -> length sb = n -> chain ss h D -> back sb NEnd D -> NoDup D -> d0 <> w -> w < n ->
  nth w labels NVoid = NVoid -> (In w D <-> nth w ss NVoid <> NVoid) ->
  wp (scc_push labels w (ss, sb, h)) (fun '(ss', sb', h') => length ss' = n /\ length sb' = n /\ chain ss' h' (w :: other w D) /\ back sb' NEnd (w :: other w D) /\
    forall u, u <> w -> ~ In u D -> nth u ss' NVoid = nth u ss NVoid).
Proof.
  intros D Ll Ls Lb C B N Hd Hw Hl Hin. unfold scc_push. rewrite (vget_nth _ _ NVoid) by lia. cbn [bind]. rewrite Hl. cbn [node_eqb]. rewrite (vget_nth _ _ NVoid) by lia. cbn [bind].
  assert (Eh : h = NLabel d0) by apply C. assert (Hd0 : d0 < n) by (rewrite <- Ls; apply C).
  (* push onto a stack without w *)
  assert (K : forall ss1 sb1 D1', other w D = d0 :: D1' -> length ss1 = n -> length sb1 = n -> chain ss1 h (other w D) -> back sb1 NEnd (other w D) -> (forall u, u <> w -> ~ In u D -> nth u ss1 NVoid = nth u ss NVoid) ->
    wp (let* ss := vset ss1 w h in let* stack_b := vset sb1 w NEnd in let* uh := node_unwrap h in let* stack_b := vset stack_b uh (NLabel w) in Ok (ss, stack_b, NLabel w))
      (fun '(ss', sb', h') => length ss' = n /\ length sb' = n /\ chain ss' h' (w :: other w D) /\ back sb' NEnd (w :: other w D) /\ forall u, u <> w -> ~ In u D -> nth u ss' NVoid = nth u ss NVoid)).
  { intros ss1 sb1 D1' EO L1 L2 C1 B1 K1. rewrite Eh. rewrite !vset_ok by lia. cbn [bind node_unwrap]. rewrite vset_ok by (rewrite upd_length; lia). cbn [bind]. apply wp_ok. rewrite !upd_length. pose proof (other_nodup w D N) as NO. assert (Nw : ~ In w (other w D)) by (rewrite in_other; tauto). sp; try assumption.
    - split; [reflexivity|]. rewrite upd_length. split; [lia|]. rewrite nth_upd_eq by lia. rewrite <- Eh. apply chain_upd; assumption.
    - cbn [back]. rewrite !upd_length. split; [rewrite nth_upd_ne by congruence; apply nth_upd_eq; lia|]. split; [lia|]. rewrite EO in *. cbn in B1 |- *. destruct B1 as (_ & _ & B1). rewrite nth_upd_eq by (rewrite upd_length; lia). rewrite !upd_length. sp; [lia|]. apply NoDup_cons_iff in NO. apply back_upd; [tauto|]. apply back_upd; [cbn in Nw; tauto|exact B1].
    - intros u Hu HD. rewrite nth_upd_ne by exact Hu. apply K1; assumption. }
  destruct (node_eqb (nth w ss NVoid) NVoid) eqn:Ev; cbn [negb].
  - apply node_eqb_void in Ev. assert (NI : ~ In w D) by (rewrite Hin; tauto). cbn [bind]. rewrite (other_notin w D NI) in *. apply (K ss sb D1); try assumption; reflexivity.
  - assert (HI : In w D). { apply Hin. intros X. rewrite X in Ev. discriminate. }
    destruct HI as [X|HI]; [congruence|]. apply in_split in HI. destruct HI as (A' & B' & E1).
    assert (exists A a, d0 :: A' = A ++ [a]) as (A & a & EA). { destruct (exists_last (l := d0 :: A')) as (A & a & EA); [discriminate|]. exists A, a. exact EA. }
    assert (ED : D = A ++ a :: w :: B'). { unfold D. rewrite E1. change (d0 :: A' ++ w :: B') with ((d0 :: A') ++ w :: B'). rewrite EA, <- app_assoc. reflexivity. }
    rewrite ED in C, B, N. destruct (excise_back _ _ _ _ _ _ N B) as [Ew B2]. pose proof (excise_chain _ _ _ _ _ _ N C) as C2.
    assert (EO : other w D = A ++ a :: B').
    { rewrite ED. change (a :: w :: B') with ([a] ++ [w] ++ B'). rewrite !other_app. assert (NW : ~ In w (A ++ [a] ++ B')). { intros X. assert (NoDup ((A ++ [a]) ++ w :: B')) by (rewrite <- app_assoc; exact N). apply NoDup_remove_2 in H. apply H. rewrite <- app_assoc. exact X. }
      rewrite !in_app_iff in NW. rewrite (other_notin w A), (other_notin w [a]), (other_notin w B') by tauto. cbn. rewrite Nat.eqb_refl. reflexivity. }
    assert (EO2 : exists D1', other w D = d0 :: D1') by (unfold D, other; cbn; destruct (Nat.eqb_spec d0 w); [contradiction|]; cbn; eexists; reflexivity). destruct EO2 as [D1' EO2].
    assert (Ha : In a D) by (rewrite ED; apply in_or_app; right; left; reflexivity). assert (La : a < n) by (rewrite <- Lb; apply (back_len _ _ _ _ B); rewrite <- ED; exact Ha).
    rewrite (vget_nth _ _ NVoid) by lia. cbn [bind]. rewrite Ew. cbn [node_eqb negb node_unwrap bind]. rewrite vset_ok by lia. cbn [bind].
    assert (CB : chain ss (nth w ss NVoid) B'). { apply (chain_split ss h (A ++ [a]) w B'). rewrite <- app_assoc. exact C. }
    assert (RE : wp (if negb (node_eqb (nth w ss NVoid) NEnd) then let* uf := node_unwrap (nth w ss NVoid) in vset sb uf (NLabel a) else Ok sb) (fun sb1 => sb1 = relink sb B' a)).
    { destruct B' as [|y B']; cbn in CB; [rewrite CB; cbn; apply wp_ok; reflexivity|]. destruct CB as (-> & Ly & _). cbn. rewrite vset_ok by lia. apply wp_ok. reflexivity. }
    destruct RE as (sb1 & RE & ->). rewrite RE. cbn [bind]. rewrite EO in *. apply (K _ _ D1'); try assumption.
    + rewrite upd_length. exact Ls.
    + rewrite relink_length. exact Lb.
    + intros u Hu HD. apply nth_upd_ne. intros ->. contradiction.
Qed.

(** position in the list of live nodes *)
Fixpoint pos (O : list nat) (u : nat) : nat := match O with [] => 0 | x :: O' => if x =? u then 0 else S (pos O' u) end.
Lemma pos_lt O u : In u O -> pos O u < length O.
Proof. induction O as [|x O IH]; cbn; [tauto|]. destruct (Nat.eqb_spec x u); [lia|]. intros [X|X]; [contradiction|]. apply IH in X. lia. Qed.
Lemma nth_pos O u d : In u O -> nth (pos O u) O d = u.
Proof. induction O as [|x O IH]; cbn; [tauto|]. destruct (Nat.eqb_spec x u); [trivial|]. intros [X|X]; [contradiction|]. apply IH, X. Qed.
Lemma pos_app O l u : In u O -> pos (O ++ l) u = pos O u.
Proof. induction O as [|x O IH]; cbn; [tauto|]. destruct (Nat.eqb_spec x u); [trivial|]. intros [X|X]; [contradiction|]. rewrite IH by exact X. reflexivity. Qed.
Lemma pos_snoc O v : ~ In v O -> pos (O ++ [v]) v = length O.
Proof. induction O as [|x O IH]; cbn; [rewrite Nat.eqb_refl; reflexivity|]. destruct (Nat.eqb_spec x v); [tauto|]. intros N. rewrite IH by tauto. reflexivity. Qed.
Lemma pos_inj O u v : In u O -> In v O -> pos O u = pos O v -> u = v.
Proof. intros Hu Hv E. rewrite <- (nth_pos O u 0 Hu), <- (nth_pos O v 0 Hv), E. reflexivity. Qed.
Lemma in_firstn_pos O k u : In u (firstn k O) <-> In u O /\ pos O u < k.
Proof.
  revert k. induction O as [|x O IH]; intros k; [rewrite firstn_nil; cbn; tauto|]. destruct k as [|k]; cbn; [intuition lia|]. rewrite IH. destruct (Nat.eqb_spec x u); intuition lia.
Qed.
Lemma pos_firstn O k u : In u (firstn k O) -> pos (firstn k O) u = pos O u.
Proof. intros H. rewrite <- (firstn_skipn k O) at 2. symmetry. apply pos_app, H. Qed.
Lemma pos_nth O k d : NoDup O -> k < length O -> pos O (nth k O d) = k.
Proof. intros N Hk. apply (proj1 (NoDup_nth O d) N); [apply pos_lt, nth_In, Hk|exact Hk|]. apply nth_pos, nth_In, Hk. Qed.

(** list splitting *)
Lemma app_cases {A} (X Y P : list A) w Q : X ++ Y = P ++ w :: Q -> (exists X2, X = P ++ w :: X2 /\ Q = X2 ++ Y) \/ (exists P2, P = X ++ P2 /\ Y = P2 ++ w :: Q).
Proof.
  revert P. induction X as [|x X IH]; intros P; cbn; [intros ->; right; exists P; auto|]. destruct P as [|p P]; cbn; intros [= -> E]; [left; exists X; auto|]. destruct (IH P E) as [(X2 & -> & ->)|(P2 & -> & ->)]; [left; exists X2; auto|right; exists P2; auto].
Qed.
Lemma filter_cases {A} (f : A -> bool) l P w Q : filter f l = P ++ w :: Q -> exists P0 Q0, l = P0 ++ w :: Q0 /\ filter f P0 = P /\ filter f Q0 = Q.
Proof.
  revert P. induction l as [|x l IH]; intros P; cbn; [destruct P; discriminate|]. destruct (f x) eqn:Ef.
  - destruct P as [|p P]; cbn; intros [= -> E].
    + exists [], l. auto.
    + destruct (IH P E) as (P0 & Q0 & -> & <- & <-). exists (p :: P0), Q0. cbn. rewrite Ef. auto.
  - intros E. destruct (IH P E) as (P0 & Q0 & -> & <- & <-). exists (x :: P0), Q0. cbn. rewrite Ef. auto.
Qed.
Lemma split_prefix (P : nat -> Prop) (dec : forall u, P u \/ ~ P u) S : (forall A u B u', S = A ++ u :: B -> In u' B -> P u' -> P u) ->
  exists A B, S = A ++ B /\ (forall u, In u A -> P u) /\ (forall u, In u B -> ~ P u).
Proof.
  induction S as [|x S IH]; intros H; [exists [], []; cbn; tauto|]. destruct IH as (A & B & E & HA & HB); [intros A u B u' E; apply (H (x :: A) u B u'); rewrite E; reflexivity|].
  destruct (dec x) as [X|X]; [exists (x :: A), B; cbn; rewrite E; sp; [|exact HB]; intros u [<-|Hu]; [exact X|apply HA, Hu]|].
  exists [], (x :: S). cbn. sp; [tauto|]. intros u [<-|Hu]; [exact X|]. intros Y. apply X. apply (H [] x S u); auto.
Qed.
Definition drop (P D : list nat) : list nat := filter (fun x => negb (existsb (Nat.eqb x) P)) D.
Lemma existsb_in P x : existsb (Nat.eqb x) P = true <-> In x P.
Proof. rewrite existsb_exists. split; [intros (y & Hy & E); apply Nat.eqb_eq in E; subst; exact Hy|intros H; exists x; split; [exact H|apply Nat.eqb_refl]]. Qed.
Lemma in_drop P D x : In x (drop P D) <-> In x D /\ ~ In x P.
Proof. unfold drop. rewrite filter_In, negb_true_iff, <- not_true_iff_false, existsb_in. tauto. Qed.
Lemma drop_app P A B : drop P (A ++ B) = drop P A ++ drop P B.
Proof. apply filter_app. Qed.
Lemma drop_cons_keep P x D : ~ In x P -> drop P (x :: D) = x :: drop P D.
Proof. intros N. unfold drop. cbn. destruct (existsb (Nat.eqb x) P) eqn:E; [apply existsb_in in E; contradiction|reflexivity]. Qed.

Lemma nodup_app {A} (a b : list A) : NoDup a -> NoDup b -> (forall x, In x a -> ~ In x b) -> NoDup (a ++ b).
Proof.
  intros Na Nb DJ. induction Na as [|x a Hx Na IH]; [exact Nb|]. cbn. constructor; [rewrite in_app_iff; intros [X|X]; [contradiction|apply (DJ x (or_introl eq_refl) X)]|]. apply IH. intros u Hu. apply DJ. right. exact Hu.
Qed.

Section Tarjan.
Variables (n : nat) (adj : nat -> list nat).
Hypothesis adj_lt : forall x y, x < n -> In y (adj x) -> y < n.
Definition arc (x y : nat) : Prop := x < n /\ In y (adj x).
Notation reach := (clos_refl_trans nat arc).
Notation at_node lab u := (nth u lab NVoid).

Record tarjan (lab : list node) (O D S Dn : list nat) (k : nat) : Prop := {
  t_len : length lab = n;
  t_O : NoDup O;
  t_On : forall u, In u O -> u < n;
  t_D : NoDup D;
  t_Dlt : forall u, In u D -> u < n;
  t_S : NoDup S;
  t_cases : forall u, In u O <-> (In u D /\ at_node lab u <> NVoid) \/ In u S;
  t_DS : forall u, In u D -> ~ In u S;
  t_vis : forall u, u < n -> (at_node lab u <> NVoid <-> In u O \/ In u Dn);
  t_Dn : NoDup Dn;
  t_Dnlt : forall u, In u Dn -> u < n /\ ~ In u O;
  t_gray : forall u, In u D -> In u O -> at_node lab u = NLabel (pos O u);
  t_low : forall u, In u S -> exists l, at_node lab u = NLabel l /\ l < pos O u /\ reach u (nth l O 0);
  t_down : forall g u, In g D -> In g O -> In u O -> pos O g <= pos O u -> reach g u;
  t_edge : forall u w l, In u S -> arc u w -> at_node lab u = NLabel l -> at_node lab w <> NVoid /\ (In w O -> l <= pos O w);
  t_own : forall g u l, In g D -> In g O -> In u S -> pos O g < pos O u -> (forall g', In g' D -> In g' O -> pos O g < pos O g' -> pos O u < pos O g') ->
    at_node lab u = NLabel l -> exists w lw, In w S /\ arc g w /\ at_node lab w = NLabel lw /\ lw <= l;
  t_order : forall A u B u' g, S = A ++ u :: B -> In u' B -> In g D -> In g O -> pos O g < pos O u' -> pos O g < pos O u;
  t_link : forall A w B, D = A ++ w :: B -> B = [] \/ exists P g B', B = P ++ g :: B' /\ In g O /\ (forall x, In x P -> ~ In x O) /\ arc g w;
  t_sorted : forall A g B g', D = A ++ g :: B -> In g O -> In g' B -> In g' O -> pos O g' < pos O g;
  t_succ : forall A g B w, D = A ++ g :: B -> In g O -> arc g w -> at_node lab w <> NVoid \/ In w A;
  t_done : forall u, In u Dn -> exists c, c < k /\ at_node lab u = NLabel (n - 1 - c);
  t_closed : forall u w, In u Dn -> arc u w -> In w Dn;
  t_same : forall u u', In u Dn -> In u' Dn -> (at_node lab u = at_node lab u' <-> reach u u' /\ reach u' u);
  t_used : forall c, c < k -> exists u, In u Dn /\ at_node lab u = NLabel (n - 1 - c);
  t_topo : forall u w lu lw, In u Dn -> arc u w -> at_node lab u = NLabel lu -> at_node lab w = NLabel lw -> lu <= lw;
  t_k : k <= length Dn
}.

Lemma t_count lab O D S Dn k : tarjan lab O D S Dn k -> length O + length Dn <= n.
Proof.
  intros H. rewrite <- app_length. apply nodup_bound.
  - apply nodup_app; [apply (t_O _ _ _ _ _ _ H)|apply (t_Dn _ _ _ _ _ _ H)|]. intros u Hu X. apply (t_Dnlt _ _ _ _ _ _ H u X), Hu.
  - intros u Hu. apply in_app_or in Hu. destruct Hu as [Hu|Hu]; [apply (t_On _ _ _ _ _ _ H u Hu)|apply (t_Dnlt _ _ _ _ _ _ H u Hu)].
Qed.
Lemma t_reach_closed lab O D S Dn k u w : tarjan lab O D S Dn k -> reach u w -> In u Dn -> In w Dn.
Proof. intros H R. induction R as [u w R|u|u w x _ H1 _ H2]; [intros Hu; apply (t_closed _ _ _ _ _ _ H u w Hu R)|auto|auto]. Qed.

(** visiting the node on top of the stack *)
Lemma tarjan_visit lab O v D1 S Dn k P : tarjan lab O (v :: D1) S Dn k -> at_node lab v = NVoid -> NoDup P ->
  (forall w, In w P <-> arc v w /\ at_node (upd lab v (NLabel (length O))) w = NVoid) ->
  tarjan (upd lab v (NLabel (length O))) (O ++ [v]) (P ++ v :: drop P D1) S Dn k.
Proof.
  intros H Ev NP HP. set (lab' := upd lab v (NLabel (length O))) in *.
  pose proof (t_len _ _ _ _ _ _ H) as Len. assert (Hv : v < n) by (apply (t_Dlt _ _ _ _ _ _ H); left; reflexivity).
  assert (Nv : ~ In v O). { intros X. assert (Y : at_node lab v <> NVoid) by (apply (t_vis _ _ _ _ _ _ H v Hv); left; exact X). contradiction. }
  assert (NvDn : ~ In v Dn). { intros X. assert (Y : at_node lab v <> NVoid) by (apply (t_vis _ _ _ _ _ _ H v Hv); right; exact X). contradiction. }
  assert (NvS : ~ In v S) by (apply (t_DS _ _ _ _ _ _ H); left; reflexivity).
  assert (ND := t_D _ _ _ _ _ _ H). apply NoDup_cons_iff in ND. destruct ND as [NvD ND].
  assert (Lv : at_node lab' v = NLabel (length O)) by (apply nth_upd_eq; lia).
  assert (Lo : forall u, u <> v -> at_node lab' u = at_node lab u) by (intros u Hu; apply nth_upd_ne, Hu).
  assert (Lvis : forall u, at_node lab u <> NVoid -> at_node lab' u <> NVoid) by (intros u Hu; destruct (Nat.eq_dec u v) as [->|D]; [rewrite Lv; discriminate|rewrite Lo by exact D; exact Hu]).
  assert (Vo : forall u, In u O -> at_node lab u <> NVoid) by (intros u Hu; apply (t_vis _ _ _ _ _ _ H u (t_On _ _ _ _ _ _ H u Hu)); left; exact Hu).
  assert (NPo : forall u, In u P -> ~ In u (O ++ [v])).
  { intros u Hu X. apply HP in Hu. destruct Hu as [_ Hu]. apply in_app_or in X. destruct X as [X|[<-|[]]]; [apply (Lvis u (Vo u X)), Hu|rewrite Lv in Hu; discriminate]. }
  assert (PO : forall u, In u O -> pos (O ++ [v]) u = pos O u) by (intros u Hu; apply pos_app, Hu).
  assert (PV : pos (O ++ [v]) v = length O) by (apply pos_snoc, Nv).
  assert (SO : forall u, In u S -> In u O) by (intros u Hu; apply (t_cases _ _ _ _ _ _ H); right; exact Hu).
  assert (GD : forall g, In g O -> (In g (P ++ v :: drop P D1) <-> In g (v :: D1))).
  { intros g Hg. assert (N : ~ In g P) by (intros X; apply (NPo g X), in_or_app; left; exact Hg). rewrite in_app_iff. cbn. rewrite in_drop. tauto. }
  assert (IO : forall u, In u (O ++ [v]) -> In u O \/ u = v) by (intros u Hu; apply in_app_or in Hu; destruct Hu as [Hu|[<-|[]]]; auto).
  constructor.
  - unfold lab'. rewrite upd_length. exact Len.
  - eapply Permutation_NoDup; [apply Permutation_cons_append|]. constructor; [exact Nv|apply (t_O _ _ _ _ _ _ H)].
  - intros u Hu. destruct (IO u Hu) as [X| ->]; [apply (t_On _ _ _ _ _ _ H u X)|exact Hv].
  - assert (N2 : NoDup (v :: drop P D1)) by (constructor; [rewrite in_drop; tauto|apply NoDup_filter, ND]).
    apply nodup_app; [exact NP|exact N2|]. intros x Hx [<-|X]; [apply (NPo v Hx), in_or_app; right; left; reflexivity|]. apply in_drop in X. tauto.
  - intros u Hu. apply in_app_or in Hu. destruct Hu as [Hu|[<-|Hu]]; [apply HP in Hu; destruct Hu as [[X Y] _]; apply (adj_lt v u X Y)|exact Hv|]. apply in_drop in Hu. apply (t_Dlt _ _ _ _ _ _ H). right. apply Hu.
  - apply (t_S _ _ _ _ _ _ H).
  - intros u. split.
    + intros Hu. destruct (IO u Hu) as [X| ->]; [|left; split; [apply in_or_app; right; left; reflexivity|rewrite Lv; discriminate]]. destruct (proj1 (t_cases _ _ _ _ _ _ H u) X) as [[Y _]|Y]; [left|right; exact Y]. split; [apply GD; assumption|apply Lvis, Vo, X].
    + intros [[Hu Eu]|Hu]; [|apply in_or_app; left; apply SO, Hu]. apply in_app_or in Hu. destruct Hu as [Hu|[<-|Hu]]; [apply HP in Hu; tauto|apply in_or_app; right; left; reflexivity|]. apply in_drop in Hu. destruct Hu as [Hu _]. assert (u <> v) by congruence. rewrite Lo in Eu by assumption. apply in_or_app. left. apply (t_cases _ _ _ _ _ _ H). left. split; [right; exact Hu|exact Eu].
  - intros u Hu X. apply in_app_or in Hu. destruct Hu as [Hu|[<-|Hu]]; [apply (NPo u Hu), in_or_app; left; apply SO, X|contradiction|]. apply in_drop in Hu. apply (t_DS _ _ _ _ _ _ H u); [right; apply Hu|exact X].
  - intros u Hu. destruct (Nat.eq_dec u v) as [->|D]; [rewrite Lv; split; [intros _; left; apply in_or_app; right; left; reflexivity|discriminate]|]. rewrite Lo by exact D. rewrite (t_vis _ _ _ _ _ _ H u Hu). rewrite in_app_iff. cbn. split; [tauto|]. intros [[X|[X|[]]]|X]; auto. congruence.
  - apply (t_Dn _ _ _ _ _ _ H).
  - intros u Hu. destruct (t_Dnlt _ _ _ _ _ _ H u Hu) as [X Y]. split; [exact X|]. intros Z. destruct (IO u Z) as [W| ->]; contradiction.
  - intros u Hu Hu'. destruct (IO u Hu') as [X| ->]; [|rewrite Lv, PV; reflexivity]. rewrite Lo by (intros ->; contradiction). rewrite PO by exact X. apply (t_gray _ _ _ _ _ _ H); [apply GD; assumption|exact X].
  - intros u Hu. destruct (t_low _ _ _ _ _ _ H u Hu) as (l & E & L & R). exists l. rewrite Lo by (intros ->; contradiction). rewrite PO by (apply SO, Hu). sp; try assumption. rewrite app_nth1; [exact R|]. pose proof (pos_lt O u (SO u Hu)). lia.
  - intros g u Hg Hg' Hu Le. destruct (IO g Hg') as [X| ->].
    + rewrite (PO g X) in Le. pose proof (proj1 (GD g X) Hg) as Hg2. destruct (IO u Hu) as [Y| ->]; [rewrite (PO u Y) in Le; apply (t_down _ _ _ _ _ _ H); assumption|].
      destruct Hg2 as [<-|Hg2]; [contradiction|]. destruct (t_link _ _ _ _ _ _ H [] v D1 eq_refl) as [Z|(P0 & g1 & B' & E & G1 & Np & Ea)]; [rewrite Z in Hg2; destruct Hg2|].
      assert (Hg1 : In g1 (v :: D1)) by (right; rewrite E; apply in_or_app; right; left; reflexivity). eapply rt_trans; [|apply rt_step, Ea].
      rewrite E in Hg2. apply in_app_or in Hg2. destruct Hg2 as [Z|[<-|Z]]; [exfalso; apply (Np g Z X)|apply rt_refl|]. apply (t_down _ _ _ _ _ _ H); [apply GD; assumption|exact X|exact G1|]. apply Nat.lt_le_incl, (t_sorted _ _ _ _ _ _ H (v :: P0) g1 B' g); try assumption. rewrite E. reflexivity.
    + rewrite PV in Le. destruct (IO u Hu) as [Y| ->]; [|apply rt_refl]. rewrite (PO u Y) in Le. pose proof (pos_lt O u Y). lia.
  - intros u w l Hu Hw El. assert (Hu' : In u O) by (apply SO, Hu). rewrite Lo in El by (intros ->; contradiction). destruct (t_edge _ _ _ _ _ _ H u w l Hu Hw El) as [V1 V2]. split; [apply Lvis, V1|]. intros Hw'. destruct (IO w Hw') as [X| ->]; [rewrite (PO w X); apply V2, X|]. rewrite PV. destruct (t_low _ _ _ _ _ _ H u Hu) as (l' & E' & L' & _). assert (l' = l) by congruence. subst l'. pose proof (pos_lt O u Hu'). lia.
  - intros g u l Hg Hg' Hu Lt Nb El. assert (Hu' : In u O) by (apply SO, Hu). rewrite (PO u Hu') in Lt, Nb. rewrite Lo in El by (intros ->; contradiction). destruct (IO g Hg') as [X| ->]; [|rewrite PV in Lt; pose proof (pos_lt O u Hu'); lia]. rewrite (PO g X) in Lt, Nb.
    destruct (t_own _ _ _ _ _ _ H g u l) as (w & lw & W1 & W2 & W3 & W4); try assumption.
    + apply GD; assumption.
    + intros g' G1 G2 G3. rewrite <- (PO g' G2). apply Nb; [apply GD; assumption|apply in_or_app; left; exact G2|rewrite (PO g' G2); exact G3].
    + exists w, lw. sp; try assumption. rewrite Lo by (intros ->; contradiction). exact W3.
  - intros A u B u' g E Hu' Hg Hg' Lt. assert (S1 : In u O) by (apply SO; rewrite E; apply in_or_app; right; left; reflexivity). assert (S2 : In u' O) by (apply SO; rewrite E; apply in_or_app; right; right; exact Hu'). rewrite (PO u' S2) in Lt. rewrite (PO u S1). destruct (IO g Hg') as [X| ->]; [|rewrite PV in Lt; pose proof (pos_lt O u' S2); lia]. rewrite (PO g X) in *. apply (t_order _ _ _ _ _ _ H A u B u' g); try assumption. apply GD; assumption.
  - assert (TL : forall B0 w, B0 = [] \/ (exists P1 g B', B0 = P1 ++ g :: B' /\ In g O /\ (forall x, In x P1 -> ~ In x O) /\ arc g w) -> incl B0 D1 ->
      drop P B0 = [] \/ (exists P1 g B', drop P B0 = P1 ++ g :: B' /\ In g (O ++ [v]) /\ (forall x, In x P1 -> ~ In x (O ++ [v])) /\ arc g w)).
    { intros B0 w [-> |(P1 & g & B' & -> & G1 & G2 & G3)] HI; [left; reflexivity|]. right. exists (drop P P1), g, (drop P B'). assert (Hg : In g (O ++ [v])) by (apply in_or_app; left; exact G1). rewrite drop_app, drop_cons_keep by (intros X; apply (NPo g X Hg)). sp; try assumption. intros x Hx X. apply in_drop in Hx. destruct (IO x X) as [Y| ->]; [apply (G2 x); tauto|]. apply NvD, HI, in_or_app. left. tauto. }
    intros A w B E. destruct (app_cases _ _ _ _ _ E) as [(X2 & E1 & ->)|(P2 & -> & E2)].
    + right. exists X2, v, (drop P D1). sp; [apply in_or_app; right; left; reflexivity| |].
      * intros x Hx. apply NPo. rewrite E1. apply in_or_app. right. right. exact Hx.
      * apply HP. rewrite E1. apply in_or_app. right. left. reflexivity.
    + destruct P2 as [|p P2]; cbn in E2; [injection E2 as <- <-|injection E2 as <- E2].
      * apply TL; [apply (t_link _ _ _ _ _ _ H [] v D1 eq_refl)|apply incl_refl].
      * apply filter_cases in E2. destruct E2 as (A0 & B0 & E2 & _ & <-). apply (TL B0 w); [apply (t_link _ _ _ _ _ _ H (v :: A0) w B0); rewrite E2; reflexivity|]. intros x Hx. rewrite E2. apply in_or_app. right. right. exact Hx.
  - intros A g B g' E Hg Hg' HgO. destruct (app_cases _ _ _ _ _ E) as [(X2 & E1 & ->)|(P2 & -> & E2)].
    + exfalso. apply (NPo g); [rewrite E1; apply in_or_app; right; left; reflexivity|exact Hg].
    + destruct P2 as [|p P2]; cbn in E2; [injection E2 as <- <-|injection E2 as <- E2].
      * apply in_drop in Hg'. destruct (IO g' HgO) as [X| ->]; [|tauto]. rewrite PV, (PO g' X). apply pos_lt, X.
      * apply filter_cases in E2. destruct E2 as (A0 & B0 & E2 & _ & <-). apply in_drop in Hg'. assert (g <> v) by (intros ->; apply NvD; rewrite E2; apply in_or_app; right; left; reflexivity). assert (g' <> v) by (intros ->; apply NvD; rewrite E2; apply in_or_app; right; right; tauto).
        destruct (IO g Hg) as [X|X]; [|contradiction]. destruct (IO g' HgO) as [Y|Y]; [|contradiction]. rewrite !PO by assumption. apply (t_sorted _ _ _ _ _ _ H (v :: A0) g B0 g'); try tauto. rewrite E2. reflexivity.
  - intros A g B w E Hg Hw. destruct (app_cases _ _ _ _ _ E) as [(X2 & E1 & ->)|(P2 & -> & E2)].
    + exfalso. apply (NPo g); [rewrite E1; apply in_or_app; right; left; reflexivity|exact Hg].
    + assert (DV : at_node lab' w <> NVoid \/ at_node lab' w = NVoid) by (destruct (at_node lab' w); [left; discriminate|right; reflexivity|left; discriminate]).
      destruct P2 as [|p P2]; cbn in E2; [injection E2 as <- <-|injection E2 as <- E2].
      * destruct DV as [X|X]; [left; exact X|right; rewrite app_nil_r; apply HP; split; assumption].
      * apply filter_cases in E2. destruct E2 as (A0 & B0 & E2 & <- & <-). assert (g <> v) by (intros ->; apply NvD; rewrite E2; apply in_or_app; right; left; reflexivity). destruct (IO g Hg) as [X|X]; [|contradiction].
        destruct (t_succ _ _ _ _ _ _ H (v :: A0) g B0 w) as [Y|Y]; [rewrite E2; reflexivity|exact X|exact Hw|left; apply Lvis, Y|]. destruct Y as [<-|Y]; [left; rewrite Lv; discriminate|]. right. apply in_or_app. destruct (in_dec Nat.eq_dec w P) as [Z|Z]; [left; exact Z|right; right]. apply in_drop. tauto.
  - intros u Hu. rewrite Lo by (intros ->; contradiction). apply (t_done _ _ _ _ _ _ H u Hu).
  - apply (t_closed _ _ _ _ _ _ H).
  - intros u u' Hu Hu'. rewrite !Lo by (intros ->; contradiction). apply (t_same _ _ _ _ _ _ H u u' Hu Hu').
  - intros c Hc. destruct (t_used _ _ _ _ _ _ H c Hc) as (u & Hu & E). exists u. rewrite Lo by (intros ->; contradiction). auto.
  - intros u w lu lw Hu Ha. pose proof (t_closed _ _ _ _ _ _ H u w Hu Ha) as Hw'. rewrite !Lo by (intros ->; contradiction). apply (t_topo _ _ _ _ _ _ H u w lu lw Hu Ha).
  - apply (t_k _ _ _ _ _ _ H).
Qed.

Lemma t_live lab O D S Dn k w : tarjan lab O D S Dn k -> In w O -> exists l, at_node lab w = NLabel l /\ l <= pos O w /\ reach w (nth l O 0).
Proof.
  intros H Hw. destruct (proj1 (t_cases _ _ _ _ _ _ H w) Hw) as [[X _]|X].
  - exists (pos O w). sp; [apply (t_gray _ _ _ _ _ _ H); assumption|rewrite nth_pos by exact Hw; apply rt_refl].
  - destruct (t_low _ _ _ _ _ _ H w X) as (l & E & L & R). exists l. sp; [exact E|lia|exact R].
Qed.
Lemma t_top lab O v D1 S Dn k : tarjan lab O (v :: D1) S Dn k -> at_node lab v <> NVoid ->
  In v O /\ ~ In v S /\ ~ In v D1 /\ NoDup D1 /\ at_node lab v = NLabel (pos O v) /\
  (forall g, In g D1 -> In g O -> pos O g < pos O v) /\ (forall w, arc v w -> w < n /\ at_node lab w <> NVoid).
Proof.
  intros H Ev. assert (Hv : In v O) by (apply (t_cases _ _ _ _ _ _ H); left; split; [left; reflexivity|exact Ev]). assert (ND := t_D _ _ _ _ _ _ H). apply NoDup_cons_iff in ND. sp; try tauto.
  - apply (t_DS _ _ _ _ _ _ H). left. reflexivity.
  - apply (t_gray _ _ _ _ _ _ H); [left; reflexivity|exact Hv].
  - intros g Hg HgO. apply (t_sorted _ _ _ _ _ _ H [] v D1 g eq_refl); assumption.
  - intros w Hw. split; [apply (adj_lt v w); apply Hw|]. destruct (t_succ _ _ _ _ _ _ H [] v D1 w eq_refl Hv Hw) as [X|[]]. exact X.
Qed.
(** the node below [v]'s subtree: the most recent one still open *)
Lemma t_parent lab O v D1 S Dn k g : tarjan lab O (v :: D1) S Dn k -> at_node lab v <> NVoid -> In g D1 -> In g O ->
  (forall g', In g' D1 -> In g' O -> pos O g < pos O g' -> False) -> arc g v.
Proof.
  intros H Ev Hg HgO Last. destruct (t_top _ _ _ _ _ _ _ H Ev) as (Hv & _). destruct (t_link _ _ _ _ _ _ H [] v D1 eq_refl) as [Z|(P0 & g1 & B' & E & G1 & Np & Ea)]; [rewrite Z in Hg; destruct Hg|].
  rewrite E in Hg. apply in_app_or in Hg. destruct Hg as [Z|[<-|Z]]; [exfalso; apply (Np g Z HgO)|exact Ea|]. exfalso. apply (Last g1); [rewrite E; apply in_or_app; right; left; reflexivity|exact G1|]. apply (t_sorted _ _ _ _ _ _ H (v :: P0) g1 B' g); try assumption. rewrite E. reflexivity.
Qed.
(** nodes backtracked since [v] was visited link back no further than [v] does *)
Lemma t_above lab O v D1 S Dn k m u l : tarjan lab O (v :: D1) S Dn k -> at_node lab v <> NVoid ->
  (forall w lw, arc v w -> In w O -> at_node lab w = NLabel lw -> m <= lw) -> In u S -> pos O v < pos O u -> at_node lab u = NLabel l -> m <= l.
Proof.
  intros H Ev Hm Hu Lt El. destruct (t_top _ _ _ _ _ _ _ H Ev) as (Hv & _ & _ & _ & _ & Hs & _).
  destruct (t_own _ _ _ _ _ _ H v u l) as (w & lw & W1 & W2 & W3 & W4); try assumption; [left; reflexivity| |].
  - intros g' [<-|G1] G2 G3; [lia|]. specialize (Hs g' G1 G2). lia.
  - assert (In w O) by (apply (t_cases _ _ _ _ _ _ H); right; exact W1). specialize (Hm w lw W2 H0 W3). lia.
Qed.

Lemma tarjan_keep lab O v D1 S Dn k m : tarjan lab O (v :: D1) S Dn k -> at_node lab v <> NVoid ->
  (forall w lw, arc v w -> In w O -> at_node lab w = NLabel lw -> m <= lw) -> m < pos O v -> (exists w, arc v w /\ In w O /\ at_node lab w = NLabel m) ->
  tarjan (upd lab v (NLabel m)) O D1 (v :: S) Dn k.
Proof.
  intros H Ev Hm Lm (w0 & A0 & O0 & E0). destruct (t_top _ _ _ _ _ _ _ H Ev) as (Hv & NvS & NvD & ND & Gv & Hs & Hw). pose proof (t_len _ _ _ _ _ _ H) as Len. assert (Bv : v < n) by (apply (t_On _ _ _ _ _ _ H), Hv).
  set (lab' := upd lab v (NLabel m)). assert (Lv : at_node lab' v = NLabel m) by (apply nth_upd_eq; lia).
  assert (Lo : forall u, u <> v -> at_node lab' u = at_node lab u) by (intros u Hu; apply nth_upd_ne, Hu).
  assert (Lvis : forall u, at_node lab' u <> NVoid <-> at_node lab u <> NVoid) by (intros u; destruct (Nat.eq_dec u v) as [->|D]; [rewrite Lv; split; [intros _; exact Ev|discriminate]|rewrite Lo by exact D; tauto]).
  assert (NvDn : ~ In v Dn) by (intros X; apply (t_Dnlt _ _ _ _ _ _ H v X), Hv).
  assert (SO : forall u, In u S -> In u O) by (intros u Hu; apply (t_cases _ _ _ _ _ _ H); right; exact Hu).
  assert (In1 : forall u, In u D1 -> In u (v :: D1)) by (intros u Hu; right; exact Hu).
  constructor.
  - unfold lab'. rewrite upd_length. exact Len.
  - apply (t_O _ _ _ _ _ _ H).
  - apply (t_On _ _ _ _ _ _ H).
  - exact ND.
  - intros u Hu. apply (t_Dlt _ _ _ _ _ _ H), In1, Hu.
  - constructor; [exact NvS|apply (t_S _ _ _ _ _ _ H)].
  - intros u. rewrite Lvis, (t_cases _ _ _ _ _ _ H u). cbn. split; [intros [[[<-|X] Y]|X]; tauto|]. intros [[X Y]|[<-|X]]; tauto.
  - intros u Hu [<-|X]; [contradiction|]. apply (t_DS _ _ _ _ _ _ H u); auto.
  - intros u Hu. rewrite Lvis. apply (t_vis _ _ _ _ _ _ H u Hu).
  - apply (t_Dn _ _ _ _ _ _ H).
  - apply (t_Dnlt _ _ _ _ _ _ H).
  - intros u Hu HuO. rewrite Lo by (intros ->; contradiction). apply (t_gray _ _ _ _ _ _ H); auto.
  - intros u [<-|Hu].
    + exists m. sp; [exact Lv|exact Lm|]. destruct (t_live _ _ _ _ _ _ _ H O0) as (l & El & _ & R). assert (l = m) by congruence. subst l. eapply rt_trans; [apply rt_step, A0|exact R].
    + rewrite Lo by (intros ->; contradiction). apply (t_low _ _ _ _ _ _ H u Hu).
  - intros g u Hg. apply (t_down _ _ _ _ _ _ H). auto.
  - intros u w l Hu Ha El. rewrite Lvis. destruct Hu as [<-|Hu].
    + split; [apply Hw, Ha|]. intros HwO. rewrite Lv in El. injection El as <-. destruct (t_live _ _ _ _ _ _ _ H HwO) as (lw & Elw & Lw & _). specialize (Hm w lw Ha HwO Elw). lia.
    + rewrite Lo in El by (intros ->; contradiction). apply (t_edge _ _ _ _ _ _ H u w l Hu Ha El).
  - intros g u l Hg HgO Hu Lt Nb El.
    assert (PA : pos O v <= pos O u -> arc g v).
    { intros Le. apply (t_parent _ _ _ _ _ _ _ _ H Ev Hg HgO). intros g' G1 G2 G3. specialize (Nb g' G1 G2 G3). specialize (Hs g' G1 G2). lia. }
    destruct (Nat.eq_dec u v) as [->|Dv]; [exists v, m; sp; [left; reflexivity|apply PA; lia|exact Lv|rewrite Lv in El; injection El as <-; lia]|].
    destruct Hu as [X|Hu]; [congruence|]. rewrite Lo in El by exact Dv. assert (pos O u <> pos O v) by (intros X; apply Dv, (pos_inj O); [apply SO, Hu|exact Hv|exact X]).
    destruct (Nat.lt_ge_cases (pos O v) (pos O u)) as [Lvu|Lvu].
    + exists v, m. sp; [left; reflexivity|apply PA; lia|exact Lv|]. apply (t_above _ _ _ _ _ _ _ m u l H Ev Hm Hu Lvu El).
    + destruct (t_own _ _ _ _ _ _ H g u l) as (w & lw & W1 & W2 & W3 & W4); try assumption; [auto| |].
      * intros g' [<-|G1] G2 G3; [lia|]. apply Nb; assumption.
      * exists w, lw. sp; [right; exact W1|exact W2|rewrite Lo by (intros ->; contradiction); exact W3|exact W4].
  - intros A u B u' g E Hu' Hg HgO Lt. destruct A as [|a A]; cbn in E; [injection E as <- <-; apply Hs; assumption|injection E as <- E]. apply (t_order _ _ _ _ _ _ H A u B u' g); auto.
  - intros A w B E. apply (t_link _ _ _ _ _ _ H (v :: A) w B). rewrite E. reflexivity.
  - intros A g B g' E. apply (t_sorted _ _ _ _ _ _ H (v :: A) g B g'). rewrite E. reflexivity.
  - intros A g B w E HgO Ha. rewrite Lvis. destruct (t_succ _ _ _ _ _ _ H (v :: A) g B w) as [X|[<-|X]]; [rewrite E; reflexivity|exact HgO|exact Ha|left; exact X|left; exact Ev|right; exact X].
  - intros u Hu. rewrite Lo by (intros ->; contradiction). apply (t_done _ _ _ _ _ _ H u Hu).
  - apply (t_closed _ _ _ _ _ _ H).
  - intros u u' Hu Hu'. rewrite !Lo by (intros ->; contradiction). apply (t_same _ _ _ _ _ _ H u u' Hu Hu').
  - intros c Hc. destruct (t_used _ _ _ _ _ _ H c Hc) as (u & Hu & E). exists u. rewrite Lo by (intros ->; contradiction). auto.
  - intros u w lu lw Hu Ha. pose proof (t_closed _ _ _ _ _ _ H u w Hu Ha) as Hw'. rewrite !Lo by (intros ->; contradiction). apply (t_topo _ _ _ _ _ _ H u w lu lw Hu Ha).
  - apply (t_k _ _ _ _ _ _ H).
Qed.

(** the part of the stack of backtracked nodes visited after [v] *)
Lemma t_split lab O v D1 S Dn k : tarjan lab O (v :: D1) S Dn k -> at_node lab v <> NVoid ->
  exists A B, S = A ++ B /\ (forall u, In u A -> pos O v < pos O u) /\ (forall u, In u B -> pos O u < pos O v).
Proof.
  intros H Ev. destruct (t_top _ _ _ _ _ _ _ H Ev) as (Hv & NvS & _). destruct (split_prefix (fun u => pos O v < pos O u) ltac:(intros u; cbn beta; lia) S) as (A & B & E & HA & HB).
  - intros A u B u' E Hu' Lt. apply (t_order _ _ _ _ _ _ H A u B u' v); try assumption. left. reflexivity.
  - exists A, B. sp; [exact E|exact HA|]. intros u Hu. specialize (HB u Hu). assert (HuS : In u S) by (rewrite E; apply in_or_app; right; exact Hu). assert (pos O u <> pos O v); [|lia]. intros X. apply NvS. rewrite <- (pos_inj O u v); [exact HuS| |exact Hv|exact X]. apply (t_cases _ _ _ _ _ _ H). right. exact HuS.
Qed.

Lemma tarjan_close lab lab' O v D1 A B Dn k : tarjan lab O (v :: D1) (A ++ B) Dn k -> at_node lab v <> NVoid ->
  (forall w lw, arc v w -> In w O -> at_node lab w = NLabel lw -> pos O v <= lw) ->
  (forall u, In u A -> pos O v < pos O u) -> (forall u, In u B -> pos O u < pos O v) ->
  length lab' = n -> (forall u, u = v \/ In u A -> at_node lab' u = NLabel (n - 1 - k)) -> (forall u, u <> v -> ~ In u A -> at_node lab' u = at_node lab u) ->
  length O = pos O v + 1 + length A /\ k < n /\ tarjan lab' (firstn (pos O v) O) D1 B (v :: A ++ Dn) (Datatypes.S k).
Proof.
  intros H Ev Hm HA HB Ll LC Lo. destruct (t_top _ _ _ _ _ _ _ H Ev) as (Hv & NvS & NvD & ND & Gv & Hs & Hw). assert (Bv : v < n) by (apply (t_On _ _ _ _ _ _ H), Hv).
  set (O' := firstn (pos O v) O) in *. set (S := A ++ B) in *.
  assert (SO : forall u, In u S -> In u O) by (intros u Hu; apply (t_cases _ _ _ _ _ _ H); right; exact Hu).
  assert (AS : forall u, In u A -> In u S) by (intros u Hu; apply in_or_app; left; exact Hu). assert (BS : forall u, In u B -> In u S) by (intros u Hu; apply in_or_app; right; exact Hu).
  assert (IO : forall u, In u O' <-> In u O /\ pos O u < pos O v) by (intros u; apply in_firstn_pos).
  assert (PO : forall u, In u O' -> pos O' u = pos O u) by (intros u; apply pos_firstn).
  assert (CO : forall u, In u (v :: A) <-> In u O /\ pos O v <= pos O u).
  { intros u. split; [intros [<-|X]; [split; [exact Hv|lia]|]; split; [apply SO, AS, X|apply Nat.lt_le_incl, HA, X]|]. intros [X Y]. destruct (Nat.eq_dec u v) as [->|D]; [left; reflexivity|]. right. destruct (proj1 (t_cases _ _ _ _ _ _ H u) X) as [[[Z|Z] _]|Z]; [congruence|specialize (Hs u Z X); lia|]. apply in_app_or in Z. destruct Z as [Z|Z]; [exact Z|]. specialize (HB u Z). lia. }
  assert (NA : NoDup A /\ forall u, In u A -> ~ In u B).
  { pose proof (t_S _ _ _ _ _ _ H) as N. split; [|intros u HuA HuB; specialize (HA u HuA); specialize (HB u HuB); lia]. clear -N. unfold S in N. clearbody S. induction A as [|a A IH]; [constructor|]. cbn in N. apply NoDup_cons_iff in N. destruct N as [N1 N2]. constructor; [intros X; apply N1, in_or_app; left; exact X|apply IH, N2]. }
  destruct NA as [NA DAB]. assert (NvA : ~ In v A) by (intros X; apply NvS, AS, X).
  assert (NC : NoDup (v :: A)) by (constructor; assumption).
  assert (DnC : forall u, In u Dn -> ~ In u (v :: A)) by (intros u Hu X; apply CO in X; apply (t_Dnlt _ _ _ _ _ _ H u Hu); tauto).
  assert (LoC : forall u, ~ In u (v :: A) -> at_node lab' u = at_node lab u) by (intros u Hu; cbn in Hu; apply Lo; [intros ->; tauto|tauto]).
  assert (LcC : forall u, In u (v :: A) -> at_node lab' u = NLabel (n - 1 - k)) by (intros u [<-|Hu]; apply LC; auto).
  assert (DecC : forall u, In u (v :: A) \/ ~ In u (v :: A)) by (intros u; destruct (in_dec Nat.eq_dec u (v :: A)); auto).
  assert (Lvis : forall u, at_node lab' u <> NVoid <-> at_node lab u <> NVoid).
  { intros u. destruct (DecC u) as [X|X]; [|rewrite LoC by exact X; tauto]. rewrite (LcC u X). split; [intros _|discriminate]. apply CO in X. destruct X as [X _]. apply (t_vis _ _ _ _ _ _ H u (t_On _ _ _ _ _ _ H u X)). left. exact X. }
  assert (Cnt : length O = pos O v + 1 + length A).
  { pose proof (pos_lt O v Hv) as Lp. assert (PE : Permutation (v :: A) (skipn (pos O v) O)).
    { apply NoDup_Permutation; [exact NC| |].
      - pose proof (t_O _ _ _ _ _ _ H) as N. rewrite <- (firstn_skipn (pos O v) O) in N. clear -N. induction (firstn (pos O v) O); [exact N|]. cbn in N. apply NoDup_cons_iff in N. tauto.
      - intros u. rewrite CO. pose proof (t_O _ _ _ _ _ _ H) as N. split.
        + intros [X Y]. pose proof X as X'. rewrite <- (firstn_skipn (pos O v) O) in X. apply in_app_or in X. destruct X as [X|X]; [|exact X]. apply in_firstn_pos in X. lia.
        + intros X. assert (XO : In u O) by (rewrite <- (firstn_skipn (pos O v) O); apply in_or_app; right; exact X). split; [exact XO|]. destruct (Nat.lt_ge_cases (pos O u) (pos O v)) as [Y|Y]; [|exact Y]. exfalso. assert (In u (firstn (pos O v) O)) by (apply in_firstn_pos; auto).
          rewrite <- (firstn_skipn (pos O v) O) in N. clear -N X H0. induction (firstn (pos O v) O) as [|a l IH]; [destruct H0|]. cbn in N. apply NoDup_cons_iff in N. destruct N as [N1 N2]. destruct H0 as [->|H0]; [|auto]. apply N1, in_or_app. right. exact X. }
    apply Permutation_length in PE. rewrite skipn_length in PE. cbn in PE. lia. }
  pose proof (t_count _ _ _ _ _ _ H) as Tot. pose proof (t_k _ _ _ _ _ _ H) as TK. assert (Kn : k < n) by lia.
  assert (GO : forall g, In g D1 -> In g O -> In g O') by (intros g G1 G2; apply IO; auto).
  assert (OO : forall u, In u O' -> In u O) by (intros u Hu; apply IO in Hu; tauto).
  assert (BO : forall u, In u B -> In u O') by (intros u Hu; apply IO; split; [apply SO, BS, Hu|apply HB, Hu]).
  assert (OC : forall u, In u O' -> ~ In u (v :: A)) by (intros u Hu X; apply IO in Hu; apply CO in X; lia).
  assert (In1 : forall u, In u D1 -> In u (v :: D1)) by (intros u Hu; right; exact Hu).
  assert (D1C : forall u, In u D1 -> ~ In u (v :: A)) by (intros u Hu [<-|X]; [contradiction|]; apply (t_DS _ _ _ _ _ _ H u (In1 u Hu)), AS, X).
  (* every node of the component reaches v *)
  assert (RU : forall p u, pos O u <= p -> In u (v :: A) -> reach u v).
  { induction p as [|p IH]; intros u Hp Hu; (destruct (Nat.eq_dec u v) as [->|D]; [apply rt_refl|]); (assert (HuA : In u A) by (destruct Hu as [X|X]; [congruence|exact X])); pose proof (HA u HuA) as Lt; [lia|].
    destruct (t_low _ _ _ _ _ _ H u (AS u HuA)) as (l & El & Ll2 & R). assert (pos O v <= l) by (apply (t_above _ _ _ _ _ _ _ _ u l H Ev Hm (AS u HuA) Lt El)). pose proof (pos_lt O u (SO u (AS u HuA))) as Lp.
    eapply rt_trans; [exact R|]. assert (PN : pos O (nth l O 0) = l) by (apply pos_nth; [apply (t_O _ _ _ _ _ _ H)|lia]). apply IH; [lia|]. apply CO. split; [apply nth_In; lia|lia]. }
  assert (RD : forall u, In u (v :: A) -> reach v u) by (intros u Hu; apply CO in Hu; apply (t_down _ _ _ _ _ _ H); [left; reflexivity|exact Hv|tauto|tauto]).
  (* and its arcs stay inside or end in finished components *)
  assert (CL : forall u w, In u (v :: A) -> arc u w -> In w (v :: A ++ Dn)).
  { intros u w Hu Ha. assert (K : w < n /\ at_node lab w <> NVoid /\ (In w O -> pos O v <= pos O w)).
    { destruct Hu as [<-|Hu].
      - destruct (Hw w Ha) as [X Y]. sp; try assumption. intros HwO. destruct (t_live _ _ _ _ _ _ _ H HwO) as (lw & Elw & Lw & _). specialize (Hm w lw Ha HwO Elw). lia.
      - split; [apply (adj_lt u w); apply Ha|]. destruct (t_low _ _ _ _ _ _ H u (AS u Hu)) as (l & El & _). destruct (t_edge _ _ _ _ _ _ H u w l (AS u Hu) Ha El) as [V1 V2]. split; [exact V1|]. intros HwO. specialize (V2 HwO). pose proof (t_above _ _ _ _ _ _ _ _ u l H Ev Hm (AS u Hu) (HA u Hu) El). lia. }
    destruct K as (K1 & K2 & K3). apply (t_vis _ _ _ _ _ _ H w K1) in K2. change (v :: A ++ Dn) with ((v :: A) ++ Dn). apply in_or_app. destruct K2 as [K2|K2]; [left; apply CO; auto|right; exact K2]. }
  sp; [exact Cnt|exact Kn|]. change (v :: A ++ Dn) with ((v :: A) ++ Dn).
  constructor.
  - exact Ll.
  - pose proof (t_O _ _ _ _ _ _ H) as N. unfold O'. rewrite <- (firstn_skipn (pos O v) O) in N. clear -N. induction (firstn (pos O v) O) as [|a l IH]; [constructor|]. cbn in N. apply NoDup_cons_iff in N. destruct N as [N1 N2]. constructor; [intros X; apply N1, in_or_app; left; exact X|apply IH, N2].
  - intros u Hu. apply (t_On _ _ _ _ _ _ H), OO, Hu.
  - exact ND.
  - intros u Hu. apply (t_Dlt _ _ _ _ _ _ H), In1, Hu.
  - pose proof (t_S _ _ _ _ _ _ H) as N. unfold S in N. clear -N. induction A as [|a A IH]; [exact N|]. cbn in N. apply NoDup_cons_iff in N. apply IH. tauto.
  - intros u. rewrite Lvis. split.
    + intros Hu. pose proof (OC u Hu) as NC'. apply OO in Hu. destruct (proj1 (t_cases _ _ _ _ _ _ H u) Hu) as [[[X|X] Y]|X]; [exfalso; apply NC'; left; exact X|left; auto|]. apply in_app_or in X. destruct X as [X|X]; [exfalso; apply NC'; right; exact X|right; exact X].
    + intros [[X Y]|X]; [|apply BO, X]. apply GO; [exact X|]. apply (t_cases _ _ _ _ _ _ H). left. auto.
  - intros u Hu X. apply (t_DS _ _ _ _ _ _ H u); auto.
  - intros u Hu. rewrite Lvis, (t_vis _ _ _ _ _ _ H u Hu). rewrite in_app_iff, CO, IO. split; [intros [X|X]; [|tauto]; destruct (Nat.lt_ge_cases (pos O u) (pos O v)); tauto|tauto].
  - apply nodup_app; [exact NC|apply (t_Dn _ _ _ _ _ _ H)|]. intros u Hu X. apply (DnC u X Hu).
  - intros u Hu. apply in_app_or in Hu. destruct Hu as [Hu|Hu].
    + pose proof Hu as Hu'. apply CO in Hu. split; [apply (t_On _ _ _ _ _ _ H); tauto|]. intros X. apply (OC u X Hu').
    + destruct (t_Dnlt _ _ _ _ _ _ H u Hu) as [X Y]. split; [exact X|]. intros Z. apply Y, OO, Z.
  - intros u Hu HuO. rewrite LoC by (apply D1C, Hu). rewrite PO by exact HuO. apply (t_gray _ _ _ _ _ _ H); auto.
  - intros u Hu. pose proof (BO u Hu) as HuO. rewrite LoC by (apply OC, HuO). rewrite PO by exact HuO. destruct (t_low _ _ _ _ _ _ H u (BS u Hu)) as (l & E & L & R). exists l. sp; try assumption. pose proof (HB u Hu). unfold O'. rewrite <- (firstn_skipn (pos O v) O) in R at 1. rewrite app_nth1 in R; [exact R|]. rewrite firstn_length. pose proof (pos_lt O v Hv). lia.
  - intros g u Hg HgO Hu. rewrite !PO by assumption. apply (t_down _ _ _ _ _ _ H); auto.
  - intros u w l Hu Ha El. pose proof (BO u Hu) as HuO. rewrite LoC in El by (apply OC, HuO). rewrite Lvis. destruct (t_edge _ _ _ _ _ _ H u w l (BS u Hu) Ha El) as [V1 V2]. split; [exact V1|]. intros HwO. rewrite PO by exact HwO. apply V2, OO, HwO.
  - intros g u l Hg HgO Hu Lt Nb El. pose proof (BO u Hu) as HuO. rewrite LoC in El by (apply OC, HuO). rewrite (PO u HuO) in *. rewrite (PO g HgO) in *.
    destruct (t_own _ _ _ _ _ _ H g u l) as (w & lw & W1 & W2 & W3 & W4); try assumption; [auto|apply OO, HgO|apply BS, Hu| |].
    + intros g' [<-|G1] G2 G3; [apply HB, Hu|]. rewrite <- (PO g' (GO g' G1 G2)). apply Nb; [exact G1|apply GO; assumption|]. rewrite (PO g' (GO g' G1 G2)). exact G3.
    + apply in_app_or in W1. destruct W1 as [W1|W1].
      * exfalso. pose proof (t_above _ _ _ _ _ _ _ _ w lw H Ev Hm (AS w W1) (HA w W1) W3). destruct (t_low _ _ _ _ _ _ H u (BS u Hu)) as (l' & El' & L' & _). assert (l' = l) by congruence. subst l'. pose proof (HB u Hu). lia.
      * exists w, lw. sp; try assumption. rewrite LoC by (apply OC, BO, W1). exact W3.
  - intros A1 u B1 u' g E Hu' Hg HgO. assert (U1 : In u B) by (rewrite E; apply in_or_app; right; left; reflexivity). assert (U2 : In u' B) by (rewrite E; apply in_or_app; right; right; exact Hu'). rewrite !PO by (assumption || apply BO; assumption). apply (t_order _ _ _ _ _ _ H (A ++ A1) u B1 u' g); auto. unfold S. rewrite E, app_assoc. reflexivity.
  - intros A1 w B1 E. destruct (t_link _ _ _ _ _ _ H (v :: A1) w B1) as [X|(P & g & B' & E1 & G1 & G2 & G3)]; [rewrite E; reflexivity|left; exact X|]. right. exists P, g, B'. sp; try assumption.
    + apply GO; [|exact G1]. rewrite E, E1. apply in_or_app. right. right. apply in_or_app. right. left. reflexivity.
    + intros x Hx X. apply (G2 x Hx), OO, X.
  - intros A1 g B1 g' E Hg Hg' HgO'. rewrite !PO by assumption. apply (t_sorted _ _ _ _ _ _ H (v :: A1) g B1 g'); auto. rewrite E. reflexivity.
  - intros A1 g B1 w E HgO Ha. rewrite Lvis. destruct (t_succ _ _ _ _ _ _ H (v :: A1) g B1 w) as [X|[<-|X]]; [rewrite E; reflexivity|apply OO, HgO|exact Ha|left; exact X|left; exact Ev|right; exact X].
  - intros u Hu. apply in_app_or in Hu. destruct Hu as [Hu|Hu]; [exists k; split; [lia|apply LcC, Hu]|]. rewrite LoC by (apply DnC, Hu). destruct (t_done _ _ _ _ _ _ H u Hu) as (c & Hc & E). exists c. split; [lia|exact E].
  - intros u w Hu Ha. apply in_app_or in Hu. destruct Hu as [Hu|Hu]; [apply (CL u w Hu Ha)|]. apply in_or_app. right. apply (t_closed _ _ _ _ _ _ H u w Hu Ha).
  - assert (DF : forall u u', In u (v :: A) -> In u' Dn -> at_node lab' u <> at_node lab' u' /\ ~ reach u' u).
    { intros u u' Hu Hu'. rewrite (LcC u Hu), (LoC u' (DnC u' Hu')). destruct (t_done _ _ _ _ _ _ H u' Hu') as (c & Hc & E). rewrite E. split; [intros [= X]; lia|]. intros R. apply (DnC u); [|exact Hu]. apply (t_reach_closed _ _ _ _ _ _ _ _ H R Hu'). }
    intros u u' Hu Hu'. apply in_app_or in Hu, Hu'. destruct Hu as [Hu|Hu], Hu' as [Hu'|Hu'].
    + rewrite (LcC u Hu), (LcC u' Hu'). split; [intros _|reflexivity]. split; (eapply rt_trans; [eapply RU; [apply Nat.le_refl|eassumption]|apply RD; assumption]).
    + destruct (DF u u' Hu Hu'). tauto.
    + destruct (DF u' u Hu' Hu). split; [intros E; symmetry in E; tauto|tauto].
    + rewrite (LoC u (DnC u Hu)), (LoC u' (DnC u' Hu')). apply (t_same _ _ _ _ _ _ H u u' Hu Hu').
  - intros c Hc. destruct (Nat.eq_dec c k) as [->|D]; [exists v; split; [left; reflexivity|apply LcC; left; reflexivity]|]. destruct (t_used _ _ _ _ _ _ H c) as (u & Hu & E); [lia|]. exists u. split; [apply in_or_app; right; exact Hu|]. rewrite LoC by (apply DnC, Hu). exact E.
  - intros u w lu lw Hu Ha Eu Ew. apply in_app_or in Hu. destruct Hu as [Hu|Hu].
    + rewrite (LcC u Hu) in Eu. injection Eu as <-. pose proof (CL u w Hu Ha) as X. change (v :: A ++ Dn) with ((v :: A) ++ Dn) in X. apply in_app_or in X. destruct X as [X|X].
      * rewrite (LcC w X) in Ew. injection Ew as <-. lia.
      * rewrite (LoC w (DnC w X)) in Ew. destruct (t_done _ _ _ _ _ _ H w X) as (c & Hc & E). rewrite E in Ew. injection Ew as <-. lia.
    + pose proof (t_closed _ _ _ _ _ _ H u w Hu Ha) as X. rewrite (LoC u (DnC u Hu)) in Eu. rewrite (LoC w (DnC w X)) in Ew. apply (t_topo _ _ _ _ _ _ H u w lu lw Hu Ha Eu Ew).
  - rewrite app_length. cbn. lia.
Qed.

Lemma tarjan_start lab Dn k v : tarjan lab [] [] [] Dn k -> v < n -> at_node lab v = NVoid -> tarjan lab [] [v] [] Dn k.
Proof.
  intros H Hv Ev. constructor; try apply H; cbn; try tauto.
  - constructor; [intros []|constructor].
  - intros u [<-|[]]. exact Hv.
  - intros u. split; [intros []|]. intros [[[<-|[]] X]|[]]. contradiction.
  - intros A w B E. destruct A as [|a A]; [injection E as <- <-; left; reflexivity|injection E as _ E; destruct A; discriminate].
Qed.
Lemma tarjan_end lab O S Dn k : tarjan lab O [] S Dn k -> O = [] /\ S = [].
Proof.
  intros H. assert (EO : O = []).
  { destruct O as [|o O]; [reflexivity|]. exfalso. assert (Hs : In o S) by (destruct (proj1 (t_cases _ _ _ _ _ _ H o) (or_introl eq_refl)) as [[[] _]|X]; exact X). destruct (t_low _ _ _ _ _ _ H o Hs) as (l & _ & L & _). cbn in L. rewrite Nat.eqb_refl in L. lia. }
  split; [exact EO|]. destruct S as [|s S]; [reflexivity|]. exfalso. assert (X : In s O) by (apply (t_cases _ _ _ _ _ _ H); right; left; reflexivity). rewrite EO in X. destruct X.
Qed.

Lemma chain_ext ss ss' h D : length ss' = length ss -> (forall u, In u D -> nth u ss' NVoid = nth u ss NVoid) -> chain ss h D -> chain ss' h D.
Proof.
  intros L. revert h. induction D as [|u D IH]; intros h E; cbn; [tauto|]. intros (E1 & E2 & C). rewrite L, E by (left; reflexivity). sp; try assumption. apply IH; [|exact C]. intros x Hx. apply E. right. exact Hx.
Qed.
Lemma other_drop w P D : other w (drop P D) = drop (w :: P) D.
Proof.
  unfold other, drop. induction D as [|x D IH]; [reflexivity|]. cbn. destruct (existsb (Nat.eqb x) P) eqn:E; cbn; [rewrite orb_true_r; exact IH|]. rewrite orb_false_r. destruct (x =? w); cbn; rewrite IH; reflexivity.
Qed.

Variables idx ptr : list Z.
Hypothesis G : is_graph n idx ptr adj.
Hypothesis adj_nodup : forall v, v < n -> NoDup (adj v).

Definition lbl (k : nat) : node := if k <? n then NLabel (n - 1 - k) else NVoid.
Definition stacks (D S : list nat) (ss sb : list node) (ss_head stack_head : node) : Prop :=
  length ss = n /\ length sb = n /\ chain ss stack_head D /\ back sb NEnd D /\ chain ss ss_head S /\ forall u, u < n -> ~ In u D -> ~ In u S -> nth u ss NVoid = NVoid.
Definition scc_ok (O D S Dn : list nat) (k : nat) (st : scc_state) : Prop :=
  let '(labels, ss, sb, ss_head, stack_head, index, label) := st in
  tarjan labels O D S Dn k /\ stacks D S ss sb ss_head stack_head /\ index = length O /\ label = lbl k.

Lemma scc_visit_ok O v D1 S Dn k labels ss sb ss_head stack_head index label :
  scc_ok O (v :: D1) S Dn k (labels, ss, sb, ss_head, stack_head, index, label) -> at_node labels v = NVoid ->
  wp (scc_visit idx ptr v (labels, ss, sb, ss_head, stack_head, index, label)) (fun st => exists P, scc_ok (O ++ [v]) (P ++ v :: drop P D1) S Dn k st).
Proof.
  intros (H & (Ls & Lb & C & B & CS & Z) & -> & ->) Ev. unfold scc_visit. pose proof (t_len _ _ _ _ _ _ H) as Len. assert (Hv : v < n) by (apply (t_Dlt _ _ _ _ _ _ H); left; reflexivity).
  rewrite vset_ok by lia. cbn [bind]. set (lab' := upd labels v (NLabel (length O))). destruct (G v Hv) as (s & E1 & E2 & E3 & E4). rewrite E1. cbn [bind]. rewrite E2. cbn [bind]. rewrite Forall_forall in E4.
  assert (Lv : at_node lab' v = NLabel (length O)) by (apply nth_upd_eq; lia).
  assert (Lo : forall u, u <> v -> at_node lab' u = at_node labels u) by (intros u Hu; apply nth_upd_ne, Hu).
  assert (ND := t_D _ _ _ _ _ _ H). apply NoDup_cons_iff in ND. destruct ND as [NvD ND]. assert (NvS : ~ In v S) by (apply (t_DS _ _ _ _ _ _ H); left; reflexivity).
  assert (Svis : forall u, In u S -> at_node lab' u <> NVoid). { intros u Hu. assert (HuO : In u O) by (apply (t_cases _ _ _ _ _ _ H); right; exact Hu). rewrite Lo by (intros ->; contradiction). apply (t_vis _ _ _ _ _ _ H u (t_On _ _ _ _ _ _ H u HuO)). left. exact HuO. }
  set (unv := fun w => node_eqb (at_node lab' w) NVoid).
  set (PP := fun pre => rev (filter unv pre)).
  assert (HPP : forall pre w, In w (PP pre) <-> In w pre /\ at_node lab' w = NVoid) by (intros pre w; unfold PP; rewrite <- in_rev, filter_In; unfold unv; rewrite node_eqb_void; tauto).
  apply wp_bind. eapply (wp_for_list (fun pre '(ss', sb', h') => stacks (PP pre ++ v :: drop (PP pre) D1) S ss' sb' ss_head h') (adj v)).
  - reflexivity.
  - cbn [PP filter rev app]. assert (drop [] D1 = D1) as -> by (unfold drop; cbn; clear; induction D1 as [|x D IH]; [reflexivity|cbn; rewrite IH; reflexivity]). unfold stacks. sp; assumption.
  - intros pre w post [[ss1 sb1] h1] E (L1 & L2 & C1 & B1 & CS1 & Z1). rewrite (E3 _ _ _ E). cbn [bind]. assert (Hw : w < n) by (apply E4; rewrite E; apply in_or_app; right; left; reflexivity).
    assert (Npre : ~ In w pre). { pose proof (adj_nodup v Hv) as N. rewrite E in N. apply NoDup_remove_2 in N. intros X. apply N, in_or_app. left. exact X. }
    assert (EP : PP (pre ++ [w]) = if unv w then w :: PP pre else PP pre). { unfold PP. rewrite filter_app, rev_app_distr. cbn. destruct (unv w); reflexivity. }
    destruct (unv w) eqn:Ew; rewrite EP.
    + pose proof Ew as Ew'. unfold unv in Ew'. apply node_eqb_void in Ew'.
      assert (NwP : ~ In w (PP pre)) by (rewrite HPP; tauto). assert (Nwv : w <> v) by (intros ->; rewrite Lv in Ew'; discriminate). assert (NwS : ~ In w S) by (intros X; apply (Svis w X Ew')).
      set (D := PP pre ++ v :: drop (PP pre) D1) in *. assert (exists d0 D0, D = d0 :: D0 /\ d0 <> w) as (d0 & D0 & ED & Hd).
      { unfold D. destruct (PP pre) as [|d0 P0] eqn:EPP; cbn; [exists v, (drop [] D1); auto|]. exists d0, (P0 ++ v :: drop (d0 :: P0) D1). split; [reflexivity|]. intros ->. apply NwP. left. reflexivity. }
      assert (NDD : NoDup D).
      { apply nodup_app.
        - unfold PP. apply NoDup_rev, NoDup_filter. pose proof (adj_nodup v Hv) as N. rewrite E in N. clear -N. induction pre as [|a pre IH]; [constructor|]. cbn in N. apply NoDup_cons_iff in N. destruct N as [N1 N2]. constructor; [intros X; apply N1, in_or_app; left; exact X|apply IH, N2].
        - constructor; [rewrite in_drop; tauto|apply NoDup_filter, ND].
        - intros x Hx [<-|X]; [apply HPP in Hx; rewrite Lv in Hx; destruct Hx; discriminate|]. apply in_drop in X. tauto. }
      assert (EO : w :: other w D = (w :: PP pre) ++ v :: drop (w :: PP pre) D1).
      { unfold D. rewrite other_app, (other_notin w (PP pre)) by exact NwP. cbn [app]. f_equal. f_equal. rewrite <- other_drop. unfold other at 1. cbn. destruct (Nat.eqb_spec v w); [congruence|]. reflexivity. }
      eapply wp_mono; [rewrite ED in *; apply (scc_push_ok n lab' w ss1 sb1 h1 d0 D0); try assumption|].
      * unfold lab'. rewrite upd_length. exact Len.
      * split; [intros X; apply (proj2 (chain_in ss1 h1 _ w C1 X))|]. intros X. destruct (in_dec Nat.eq_dec w (d0 :: D0)) as [Y|Y]; [exact Y|]. exfalso. apply X, Z1; assumption.
      * intros [[ss2 sb2] h2] (F1 & F2 & F3 & F4 & F5). rewrite <- ED in *. rewrite EO in F3, F4. assert (SD : forall u, In u S -> u <> w /\ ~ In u D).
        { intros u Hu. split; [intros ->; contradiction|]. unfold D. intros X. apply in_app_or in X. destruct X as [X|[<-|X]]; [apply HPP in X; apply (Svis u Hu); tauto|contradiction|]. apply in_drop in X. apply (t_DS _ _ _ _ _ _ H u); [right; tauto|exact Hu]. }
        unfold stacks. sp; try assumption.
        -- apply (chain_ext ss1); [congruence| |exact CS1]. intros u Hu. apply F5; apply SD, Hu.
        -- intros u Hu HD HS. rewrite <- EO in HD. cbn in HD. rewrite in_other in HD. assert (u <> w) by (intros ->; tauto). assert (~ In u D) by tauto. rewrite F5 by assumption. apply Z1; assumption.
    + unfold scc_push. rewrite (vget_nth _ _ NVoid) by (unfold lab'; rewrite upd_length; lia). cbn [bind]. unfold unv in Ew. rewrite Ew. apply wp_ok. unfold stacks. sp; assumption.
  - intros [[ss' sb'] h'] HS. apply wp_ok. exists (PP (adj v)). unfold scc_ok. rewrite app_length. sp; [|exact HS].
    apply tarjan_visit; try assumption; [unfold PP; apply NoDup_rev, NoDup_filter, adj_nodup, Hv|]. intros w. rewrite HPP. fold lab'. unfold arc. tauto.
Qed.

Lemma low_loop labels O v D1 S Dn k s : tarjan labels O (v :: D1) S Dn k -> at_node labels v <> NVoid ->
  pget ptr v = Ok s ->
  wp (for_range s (s + length (adj v)) (fun j '(root, low_v) =>
    let* w := pget idx j in
    let* low_w := vget labels w in
    if node_ltb low_w low_v then Ok (false, low_w) else Ok (root, low_v)) (true, at_node labels v))
  (fun '(root, low_v) => exists m, low_v = NLabel m /\ (forall w lw, arc v w -> In w O -> at_node labels w = NLabel lw -> m <= lw) /\
     ((root = true /\ m = pos O v) \/ (root = false /\ m < pos O v /\ exists w, arc v w /\ In w O /\ at_node labels w = NLabel m))).
Proof.
  intros H Ev Es. destruct (t_top _ _ _ _ _ _ _ H Ev) as (Hv & NvS & NvD & ND & Gv & Hs & Hw). assert (Bv : v < n) by (apply (t_On _ _ _ _ _ _ H), Hv). pose proof (t_len _ _ _ _ _ _ H) as Len.
  destruct (G v Bv) as (s' & E1 & _ & E3 & E4). rewrite E1 in Es. injection Es as <-. rewrite Forall_forall in E4. pose proof (t_count _ _ _ _ _ _ H) as Tot. pose proof (t_k _ _ _ _ _ _ H) as TK. pose proof (pos_lt O v Hv) as Lp.
  eapply (wp_for_list (fun pre '(root, low_v) => exists m, low_v = NLabel m /\ (forall w lw, In w pre -> at_node labels w = NLabel lw -> m <= lw) /\
     ((root = true /\ m = pos O v) \/ (root = false /\ m < pos O v /\ exists w, arc v w /\ In w O /\ at_node labels w = NLabel m))) (adj v)).
  - reflexivity.
  - exists (pos O v). sp; [exact Gv|intros w lw []|left; auto].
  - intros pre w post [root low] E (m & -> & M1 & M2). rewrite (E3 _ _ _ E). cbn [bind]. assert (Ha : arc v w) by (split; [exact Bv|rewrite E; apply in_or_app; right; left; reflexivity]). destruct (Hw w Ha) as [Bw Vw]. rewrite (vget_nth _ _ NVoid) by lia. cbn [bind].
    apply (t_vis _ _ _ _ _ _ H w Bw) in Vw. assert (K : exists l, at_node labels w = NLabel l /\ (In w O \/ pos O v < l)).
    { destruct Vw as [X|X]; [destruct (t_live _ _ _ _ _ _ _ H X) as (l & El & _); exists l; auto|]. destruct (t_done _ _ _ _ _ _ H w X) as (c & Hc & El). exists (n - 1 - c). split; [exact El|right; lia]. }
    destruct K as (l & El & K). rewrite El. unfold node_ltb. cbn [node_cmp]. destruct (Nat.compare_spec l m) as [Q|Q|Q]; apply wp_ok.
    + exists m. sp; [|exact M2]. intros x lx Hx. apply in_app_or in Hx. destruct Hx as [Hx|[<-|[]]]; [apply M1, Hx|]. rewrite El. intros [= <-]. lia.
    + exists l. sp.
      * intros x lx Hx Ex. apply in_app_or in Hx. destruct Hx as [Hx|[<-|[]]]; [specialize (M1 x lx Hx Ex); lia|]. rewrite El in Ex. injection Ex as <-. lia.
      * right. assert (l < pos O v) by (destruct M2 as [[_ ->]|(_ & X & _)]; lia). sp; [assumption|]. exists w. sp; try assumption. destruct K as [K|K]; [exact K|lia].
    + exists m. sp; [|exact M2]. intros x lx Hx. apply in_app_or in Hx. destruct Hx as [Hx|[<-|[]]]; [apply M1, Hx|]. rewrite El. intros [= <-]. lia.
  - intros [root low] (m & -> & M1 & M2). exists m. sp; [|exact M2]. intros w lw [_ Ha] _. apply M1, Ha.
Qed.

Lemma scc_finish_ok O v D1 S Dn k labels ss sb ss_head stack_head index label :
  scc_ok O (v :: D1) S Dn k (labels, ss, sb, ss_head, stack_head, index, label) -> at_node labels v <> NVoid ->
  wp (scc_finish n idx ptr v (labels, ss, sb, ss_head, stack_head, index, label)) (fun st => exists O' S' Dn' k', scc_ok O' D1 S' Dn' k' st /\
    length O' + length Dn' = length O + length Dn /\ length S < length O /\ length O' - length S' < length O - length S /\ (forall u, In u O \/ In u Dn -> In u O' \/ In u Dn')).
Proof.
  intros (H & (Ls & Lb & C & B & CS & Z) & -> & ->) Ev. unfold scc_finish. pose proof (t_len _ _ _ _ _ _ H) as Len.
  destruct (t_top _ _ _ _ _ _ _ H Ev) as (Hv & NvS & NvD & ND & Gv & Hs & Hw). assert (Bv : v < n) by (apply (t_On _ _ _ _ _ _ H), Hv).
  rewrite (vget_nth _ _ NVoid) by lia. cbn [bind]. cbn in C, B. destruct C as (Eh & _ & C). destruct B as (_ & _ & B). set (h := nth v ss NVoid) in *.
  assert (SDJ : forall u, In u D1 -> ~ In u S) by (intros u Hu; apply (t_DS _ _ _ _ _ _ H); right; exact Hu).
  assert (B1 : exists sb1, (if negb (node_eqb h NVoid) && negb (node_eqb h NEnd) then let* uh := node_unwrap h in vset sb uh NEnd else Ok sb) = Ok sb1 /\ length sb1 = n /\ back sb1 NEnd D1).
  { destruct D1 as [|y D2]; cbn in C; [rewrite C; exists sb; cbn; auto|]. destruct C as (-> & Ly & _). cbn. rewrite vset_ok by lia. exists (upd sb y NEnd). rewrite upd_length. split; [reflexivity|]. split; [exact Lb|]. rewrite nth_upd_eq by lia. split; [reflexivity|]. split; [lia|]. cbn in B. apply NoDup_cons_iff in ND. apply back_upd; tauto. }
  destruct B1 as (sb1 & E0 & Lb1 & B1). rewrite E0. cbn [bind]. rewrite vset_ok by lia. cbn [bind]. rewrite vset_ok by lia. cbn [bind]. rewrite (vget_nth _ _ NVoid) by lia. cbn [bind].
  destruct (G v Bv) as (s & E1 & E2 & _). rewrite E1. cbn [bind]. rewrite E2. cbn [bind].
  apply wp_bind. eapply wp_mono; [apply (low_loop _ _ _ _ _ _ _ s H Ev E1)|]. intros [root low] (m & -> & M1 & M2). rewrite vset_ok by lia. cbn [bind].
  assert (CD : chain (upd ss v NVoid) h D1) by (apply chain_upd; assumption). assert (CS' : chain (upd ss v NVoid) ss_head S) by (apply chain_upd; assumption).
  assert (Bk : back (upd sb1 v NVoid) NEnd D1) by (apply back_upd; assumption).
  assert (Zz : forall u, u < n -> ~ In u D1 -> ~ In u S -> nth u (upd ss v NVoid) NVoid = NVoid).
  { intros u Hu X Y. destruct (Nat.eq_dec u v) as [->|D]; [apply nth_upd_eq; lia|]. rewrite nth_upd_ne by exact D. apply Z; try assumption. intros [W|W]; [congruence|contradiction]. }
  assert (LS : length S < length O).
  { assert (X : length (v :: S) <= length O); [|cbn in X; lia]. apply NoDup_incl_length; [constructor; [exact NvS|apply (t_S _ _ _ _ _ _ H)]|]. intros u [<-|Hu]; [exact Hv|apply (t_cases _ _ _ _ _ _ H); right; exact Hu]. }
  destruct M2 as [[-> ->]|(-> & Lm & Wit)].
  - (* a root *)
    destruct (t_split _ _ _ _ _ _ _ H Ev) as (A & Bs & ES & HA & HB). pose proof (t_count _ _ _ _ _ _ H) as Tot. pose proof (t_k _ _ _ _ _ _ H) as TK. pose proof (pos_lt O v Hv) as Lp.
    assert (Kn : k < n) by lia. assert (El : lbl k = NLabel (n - 1 - k)) by (unfold lbl; destruct (Nat.ltb_spec k n); [reflexivity|lia]).
    assert (UV : forall u, at_node (upd labels v (NLabel (pos O v))) u = at_node labels u) by (intros u; destruct (Nat.eq_dec u v) as [->|D]; [rewrite nth_upd_eq by lia; congruence|apply nth_upd_ne, D]).
    subst S. assert (NS := t_S _ _ _ _ _ _ H). assert (SO : forall u, In u (A ++ Bs) -> In u O) by (intros u Hu; apply (t_cases _ _ _ _ _ _ H); right; exact Hu).
    assert (LA : forall u, In u A -> exists l, at_node labels u = NLabel l /\ pos O v <= l). { intros u Hu. assert (X : In u (A ++ Bs)) by (apply in_or_app; left; exact Hu). destruct (t_low _ _ _ _ _ _ H u X) as (l & E & _). exists l. split; [exact E|]. apply (t_above _ _ _ _ _ _ _ _ u l H Ev M1 X (HA u Hu) E). }
    assert (LB : forall u, In u Bs -> exists l, at_node labels u = NLabel l /\ l < pos O v). { intros u Hu. assert (X : In u (A ++ Bs)) by (apply in_or_app; right; exact Hu). destruct (t_low _ _ _ _ _ _ H u X) as (l & E & L & _). exists l. split; [exact E|]. specialize (HB u Hu). lia. }
    assert (LO : length O = pos O v + 1 + length A).
    { destruct (tarjan_close labels (fold_right (fun u l => upd l u (NLabel (n - 1 - k))) labels (v :: A)) O v D1 A Bs Dn k H Ev M1 HA HB) as (X & _); [| | |exact X].
      - clear -Len. induction (v :: A); cbn; [exact Len|]. rewrite upd_length. assumption.
      - intros u Hu. assert (Hu' : In u (v :: A)) by (destruct Hu as [-> |Hu]; [left; reflexivity|right; exact Hu]). assert (Hl : forall x, In x (v :: A) -> x < n) by (intros x [<-|Hx]; [exact Bv|apply (t_On _ _ _ _ _ _ H), SO, in_or_app; left; exact Hx]). clear -Hu' Hl Len.
        assert (LL : forall l, length (fold_right (fun u l => upd l u (NLabel (n - 1 - k))) labels l) = n) by (intros l; induction l; cbn; [exact Len|rewrite upd_length; assumption]).
        induction (v :: A) as [|x l IH]; [destruct Hu'|]. cbn. destruct (Nat.eq_dec u x) as [->|D]; [apply nth_upd_eq; rewrite LL; apply Hl; left; reflexivity|]. rewrite nth_upd_ne by exact D. apply IH; [destruct Hu'; [congruence|assumption]|]. intros y Hy. apply Hl. right. exact Hy.
      - intros u D Hu. assert (Hu' : ~ In u (v :: A)) by (intros [X|X]; [congruence|contradiction]). clear -Hu'. induction (v :: A) as [|x l IH]; [reflexivity|]. cbn. cbn in Hu'. rewrite nth_upd_ne by (intros ->; tauto). apply IH. tauto. }
    rewrite usub_ok by lia. cbn [bind]. rewrite El. apply wp_bind.
    set (Post := fun st => exists O' S' Dn' k', scc_ok O' D1 S' Dn' k' st /\ length O' + length Dn' = length O + length Dn /\ length (A ++ Bs) < length O /\ length O' - length S' < length O - length (A ++ Bs) /\ (forall u, In u O \/ In u Dn -> In u O' \/ In u Dn')).
    assert (Exit : forall labels' ss' sh index, length labels' = n -> (forall u, In u A -> at_node labels' u = NLabel (n - 1 - k)) -> (forall u, ~ In u A -> at_node labels' u = at_node labels u) ->
        length ss' = n -> chain ss' sh Bs -> chain ss' h D1 -> (forall u, u < n -> ~ In u D1 -> ~ In u Bs -> nth u ss' NVoid = NVoid) -> index + 1 + length A = length O ->
        wp (let* labels0 := vset labels' v (NLabel (n - 1 - k)) in let* label := label_pred (NLabel (n - 1 - k)) in Ok (labels0, ss', upd sb1 v NVoid, sh, h, index, label)) Post).
    { intros labels' ss' sh index Q1 Q2 Q3 Q4 Q5 Q6 Q7 Q8. rewrite vset_ok by lia. cbn [bind]. assert (NvA : ~ In v A) by (intros X; apply NvS, in_or_app; left; exact X).
      assert (EL : label_pred (NLabel (n - 1 - k)) = Ok (lbl (Datatypes.S k))). { unfold label_pred, lbl. destruct (Nat.eqb_spec (n - 1 - k) 0), (Nat.ltb_spec (Datatypes.S k) n); try lia; [reflexivity|]. do 2 f_equal. lia. }
      rewrite EL. cbn [bind]. apply wp_ok. destruct (tarjan_close labels (upd labels' v (NLabel (n - 1 - k))) O v D1 A Bs Dn k H Ev M1 HA HB) as (_ & _ & T').
      - rewrite upd_length. exact Q1.
      - intros u [-> |Hu]; [apply nth_upd_eq; lia|]. rewrite nth_upd_ne by (intros ->; contradiction). apply Q2, Hu.
      - intros u D Hu. rewrite nth_upd_ne by exact D. apply Q3, Hu.
      - exists (firstn (pos O v) O), Bs, (v :: A ++ Dn), (Datatypes.S k). assert (LF : length (firstn (pos O v) O) = pos O v) by (rewrite firstn_length; lia). rewrite LF. cbn [length]. rewrite !app_length in *. unfold scc_ok, stacks. sp; try assumption; try lia.
        + rewrite upd_length. exact Lb1.
        + intros u Hu. assert (Bu : u < n) by (destruct Hu as [Hu|Hu]; [apply (t_On _ _ _ _ _ _ H u Hu)|apply (t_Dnlt _ _ _ _ _ _ H u Hu)]). apply (t_vis _ _ _ _ _ _ T' u Bu). apply (t_vis _ _ _ _ _ _ H u Bu) in Hu.
          destruct (Nat.eq_dec u v) as [->|D]; [rewrite nth_upd_eq by lia; discriminate|]. rewrite nth_upd_ne by exact D. destruct (in_dec Nat.eq_dec u A) as [X|X]; [rewrite Q2 by exact X; discriminate|rewrite Q3 by exact X; exact Hu]. }
    eapply (wp_while_ghost (fun j '(labels', ss', sh, index) => exists A1 A2, A = A1 ++ A2 /\ j = length A2 /\ length labels' = n /\ (forall u, In u A1 -> at_node labels' u = NLabel (n - 1 - k)) /\ (forall u, ~ In u A1 -> at_node labels' u = at_node labels u) /\
        length ss' = n /\ chain ss' sh (A2 ++ Bs) /\ chain ss' h D1 /\ (forall u, u < n -> ~ In u D1 -> ~ In u (A2 ++ Bs) -> nth u ss' NVoid = NVoid) /\ index + 1 + length A1 = length O) (length A)).
    + lia.
    + exists [], A. rewrite !upd_length. cbn [length app]. sp; try assumption; try lia. intros u []. intros u _. apply UV.
    + intros j [[[labels' ss'] sh] index] (A1 & A2 & EA & -> & Q1 & Q2 & Q3 & Q4 & Q5 & Q6 & Q7 & Q8).
      assert (NvA1 : ~ In v A1) by (intros X; apply NvS, in_or_app; left; rewrite EA; apply in_or_app; left; exact X).
      assert (LV : at_node labels' v = NLabel (pos O v)) by (rewrite Q3 by exact NvA1; exact Gv).
      destruct A2 as [|x A2]; cbn [app] in Q5.
      * rewrite app_nil_r in EA. subst A1. assert (CB : Bs = [] \/ exists y Bs', Bs = y :: Bs') by (destruct Bs as [|y Bs']; [left; reflexivity|right; exists y, Bs'; reflexivity]). destruct CB as [EB|(y & Bs' & EB)].
        -- assert (sh = NEnd) as -> by (rewrite EB in Q5; exact Q5). cbn [node_eqb negb]. apply wp_ok. apply Exit; assumption.
        -- assert (Hy : In y Bs) by (rewrite EB; left; reflexivity). destruct (LB y Hy) as (l & Ey & Ly). assert (Ny : ~ In y A) by (intros X; specialize (HA y X); specialize (HB y Hy); lia). assert (By : y < n) by (apply (t_On _ _ _ _ _ _ H), SO, in_or_app; right; exact Hy).
           assert (sh = NLabel y) as -> by (rewrite EB in Q5; apply Q5). cbn [node_eqb negb]. rewrite (vget_nth _ _ NVoid) by lia. cbn [bind node_unwrap]. rewrite (vget_nth _ _ NVoid) by lia. cbn [bind]. rewrite LV, Q3, Ey by exact Ny. unfold node_leb. cbn [node_cmp]. destruct (Nat.compare_spec (pos O v) l) as [R|R|R]; [lia|lia|]. apply wp_ok. apply Exit; assumption.
      * assert (Hx : In x A) by (rewrite EA; apply in_or_app; right; left; reflexivity). destruct (LA x Hx) as (l & Ex & Lx). assert (Bx : x < n) by (apply (t_On _ _ _ _ _ _ H), SO, in_or_app; left; exact Hx). cbn [chain] in Q5. destruct Q5 as (-> & _ & Q5).
        assert (NXX : ~ In x (A1 ++ A2 ++ Bs)). { rewrite EA, <- app_assoc in NS. cbn in NS. apply NoDup_remove_2 in NS. exact NS. } rewrite !in_app_iff in NXX. assert (NxD : ~ In x D1) by (intros X; apply (SDJ x X), in_or_app; left; exact Hx).
        cbn [node_eqb negb]. rewrite (vget_nth _ _ NVoid) by lia. cbn [bind node_unwrap]. rewrite (vget_nth _ _ NVoid) by lia. cbn [bind]. rewrite LV, Q3, Ex by tauto. unfold node_leb. cbn [node_cmp]. rewrite EA, app_length in LO. cbn [length] in LO.
        assert (BD : wp (let* w := Ok x in let* ss_head := vget ss' w in let* ss := vset ss' w NVoid in let* labels := vset labels' w (NLabel (n - 1 - k)) in let* index := usub index 1 in Ok (labels, ss, ss_head, index))
          (fun '(labels', ss', sh, index) => exists k', k' < length (x :: A2) /\ exists A1 A2, A = A1 ++ A2 /\ k' = length A2 /\ length labels' = n /\ (forall u, In u A1 -> at_node labels' u = NLabel (n - 1 - k)) /\ (forall u, ~ In u A1 -> at_node labels' u = at_node labels u) /\
        length ss' = n /\ chain ss' sh (A2 ++ Bs) /\ chain ss' h D1 /\ (forall u, u < n -> ~ In u D1 -> ~ In u (A2 ++ Bs) -> nth u ss' NVoid = NVoid) /\ index + 1 + length A1 = length O)).
        { cbn [bind]. rewrite (vget_nth _ _ NVoid) by lia. cbn [bind]. rewrite !vset_ok by lia. cbn [bind]. rewrite usub_ok by lia. cbn [bind]. apply wp_ok. exists (length A2). split; [cbn; lia|]. exists (A1 ++ [x]), A2. rewrite !upd_length, app_length. cbn [length]. sp; try assumption; try lia.
          - rewrite EA, <- app_assoc. reflexivity.
          - intros u Hu. apply in_app_or in Hu. destruct (Nat.eq_dec u x) as [->|D]; [apply nth_upd_eq; lia|]. rewrite nth_upd_ne by exact D. destruct Hu as [Hu|[Hu|[]]]; [apply Q2, Hu|congruence].
          - intros u Hu. rewrite in_app_iff in Hu. cbn in Hu. rewrite nth_upd_ne by (intros ->; tauto). apply Q3. tauto.
          - apply chain_upd; [rewrite in_app_iff; tauto|exact Q5].
          - apply chain_upd; assumption.
          - intros u Hu X Y. destruct (Nat.eq_dec u x) as [->|D]; [apply nth_upd_eq; lia|]. rewrite nth_upd_ne by exact D. apply Q7; try assumption. cbn. intros [W|W]; [congruence|contradiction]. }
        destruct (Nat.compare_spec (pos O v) l) as [R|R|R]; [| |lia]; apply wp_ok; (eapply wp_mono; [exact BD|intros [[[? ?] ?] ?] X; exact X]).
  - rewrite vset_ok by (rewrite upd_length; lia). cbn [bind]. apply wp_ok. exists O, (v :: S), Dn, k. split.
    + unfold scc_ok, stacks. rewrite !upd_length. sp; try assumption.
      * apply tarjan_keep with (D1 := D1); assumption.
      * apply chain_upd; assumption.
      * cbn [chain]. rewrite !upd_length. sp; [lia|]. rewrite nth_upd_eq by (rewrite upd_length; lia). apply chain_upd; assumption.
      * intros u Hu X Y. cbn in Y. rewrite nth_upd_ne by (intros ->; tauto). apply Zz; tauto.
    + cbn [length]. sp; try assumption; try lia. tauto.
Qed.

(** all nodes reachable from one start node *)
Lemma scc_search v0 labels ss sb ss_head stack_head index label Dn k : scc_ok [] [] [] Dn k (labels, ss, sb, ss_head, stack_head, index, label) ->
  v0 < n -> at_node labels v0 = NVoid -> (forall u, u < v0 -> In u Dn) ->
  wp (let* ss := vset ss v0 NEnd in
      let* stack_b := vset sb v0 NEnd in
      while (2 * n * n + 2 * n + 1)
          (fun '(_, _, _, _, stack_head, _, _) => Ok (negb (node_eqb stack_head NEnd)))
          (fun '(labels, ss, stack_b, ss_head, stack_head, index, label) =>
            let* v := node_unwrap stack_head in
            let* lv := vget labels v in
            if node_eqb lv NVoid then
              scc_visit idx ptr v (labels, ss, stack_b, ss_head, stack_head, index, label)
            else
              scc_finish n idx ptr v (labels, ss, stack_b, ss_head, stack_head, index, label))
          (labels, ss, stack_b, ss_head, NLabel v0, index, label))
    (fun st => exists Dn' k', scc_ok [] [] [] Dn' k' st /\ forall u, u <= v0 -> In u Dn').
Proof.
  intros (H & (Ls & Lb & C & B & CS & Z) & -> & ->) Hv0 Ev0 Hd. rewrite vset_ok by lia. cbn [bind]. rewrite vset_ok by lia. cbn [bind].
  eapply (wp_while_ghost (fun j st => exists O D S Dn k, scc_ok O D S Dn k st /\ j = 2 * (n - (length O + length Dn)) + (length O - length S) /\ forall u, u <= v0 -> In u D \/ In u O \/ In u Dn) (2 * (n - length Dn))).
  - lia.
  - exists [], [v0], [], Dn, k. split; [|split].
    + unfold scc_ok, stacks. rewrite !upd_length. cbn [chain back length]. sp; try assumption.
      * apply tarjan_start; assumption.
      * rewrite upd_length. lia.
      * apply nth_upd_eq. lia.
      * apply nth_upd_eq. lia.
      * rewrite upd_length. lia.
      * intros u Hu N _. rewrite nth_upd_ne by (intros ->; apply N; left; reflexivity). apply Z; [exact Hu|intros []|intros []].
    + cbn. lia.
    + intros u Hu. destruct (Nat.eq_dec u v0) as [->|D]; [left; left; reflexivity|right; right; apply Hd; lia].
  - intros j st (O & D & S & Dn1 & k1 & Hs & -> & Hall). destruct st as [[[[[[lab ss1] sb1] sh1] h1] i1] lb1]. pose proof Hs as (T & (Ls1 & Lb1 & C1 & _) & Ei & El). apply wp_ok.
    destruct D as [|v D1]; cbn in C1.
    + rewrite C1. cbn [node_eqb negb]. destruct (tarjan_end _ _ _ _ _ T) as [-> ->]. exists Dn1, k1. split; [rewrite C1 in Hs; exact Hs|]. intros u Hu. destruct (Hall u Hu) as [[]|[[]|X]]. exact X.
    + destruct C1 as (Eh & Lv & C1). rewrite Eh. cbn [node_eqb negb node_unwrap bind]. assert (Bv : v < n) by lia. pose proof (t_len _ _ _ _ _ _ T) as Len. rewrite (vget_nth _ _ NVoid) by lia. cbn [bind]. rewrite Eh in Hs. destruct (node_eqb (at_node lab v) NVoid) eqn:Ev.
      * apply node_eqb_void in Ev. eapply wp_mono; [apply (scc_visit_ok _ _ _ _ _ _ _ _ _ _ _ _ _ Hs Ev)|]. intros st (P & Hs'). exists (2 * (n - (length (O ++ [v]) + length Dn1)) + (length (O ++ [v]) - length S)). split.
        -- destruct st as [[[[[[lab' ?] ?] ?] ?] ?] ?]. destruct Hs' as (T' & _). pose proof (t_count _ _ _ _ _ _ T') as Tot. rewrite app_length in *. cbn [length] in *.
           assert (length S <= length O); [|lia]. apply NoDup_incl_length; [apply (t_S _ _ _ _ _ _ T)|]. intros u Hu. apply (t_cases _ _ _ _ _ _ T). right. exact Hu.
        -- exists (O ++ [v]), (P ++ v :: drop P D1), S, Dn1, k1. sp; [exact Hs'|]. intros u Hu. rewrite !in_app_iff. cbn. rewrite in_drop. destruct (Hall u Hu) as [[X|X]|[X|X]]; try tauto. destruct (in_dec Nat.eq_dec u P); tauto.
      * assert (Ev' : at_node lab v <> NVoid) by (intros X; rewrite X in Ev; discriminate). eapply wp_mono; [apply (scc_finish_ok _ _ _ _ _ _ _ _ _ _ _ _ _ Hs Ev')|]. intros st (O' & S' & Dn' & k' & Hs' & E1 & E2 & E3 & E4). exists (2 * (n - (length O' + length Dn')) + (length O' - length S')). split; [lia|].
        exists O', D1, S', Dn', k'. sp; [exact Hs'|]. intros u Hu. destruct (Hall u Hu) as [[<-|X]|X]; [right; apply E4; left; apply (t_cases _ _ _ _ _ _ T); left; split; [left; reflexivity|exact Ev']|left; exact X|right; apply E4, X].
Qed.

Lemma scc_ok_init : scc_ok [] [] [] [] 0 (repeat NVoid n, repeat NVoid n, repeat NVoid n, NEnd, NEnd, 0, lbl 0).
Proof.
  assert (R : forall u, nth u (repeat NVoid n) NVoid = NVoid) by (intros u; apply nth_repeat).
  unfold scc_ok, stacks. rewrite !repeat_length. sp; [|intros u _ _ _; apply R]. constructor; cbn; try tauto; try lia; try apply NoDup_nil.
  - apply repeat_length.
  - intros u Hu. rewrite R. tauto.
  - intros A w B E. destruct A; discriminate.
Qed.

Theorem scc_correct : 0 < n -> wp (connected_components_directed n idx ptr) (fun '(k, out) => length out = n /\
  (forall x y, x < n -> y < n -> (nth x out 0 = nth y out 0 <-> reach x y /\ reach y x)) /\ (forall x, x < n -> nth x out 0 < k) /\
  (forall c, c < k -> exists i, i < n /\ nth i out 0 = c) /\ (forall x y, x < n -> y < n -> arc x y -> nth y out 0 <= nth x out 0)).
Proof.
  intros Hn. unfold connected_components_directed. rewrite usub_ok by lia. cbn [bind]. apply wp_bind.
  eapply (wp_for (fun v st => exists Dn k, scc_ok [] [] [] Dn k st /\ forall u, u < v -> In u Dn)).
  - lia.
  - exists [], 0. split; [|lia]. assert (lbl 0 = NLabel (n - 1)) as <- by (unfold lbl; destruct (Nat.ltb_spec 0 n); [f_equal; lia|lia]). apply scc_ok_init.
  - intros v st Hv (Dn & k & Hs & Hd). destruct st as [[[[[[lab ss] sb] sh] h] i] lb]. pose proof Hs as (T & _). pose proof (t_len _ _ _ _ _ _ T) as Len. rewrite (vget_nth _ _ NVoid) by lia. cbn [bind]. destruct (node_eqb (at_node lab v) NVoid) eqn:Ev.
    + apply node_eqb_void in Ev. eapply wp_mono; [apply (scc_search v lab ss sb sh h i lb Dn k Hs); [lia|exact Ev|exact Hd]|]. intros st (Dn' & k' & Hs' & Hd'). exists Dn', k'. split; [exact Hs'|]. intros u Hu. apply Hd'. lia.
    + apply wp_ok. exists Dn, k. split; [exact Hs|]. intros u Hu. destruct (Nat.eq_dec u v) as [->|D]; [|apply Hd; lia]. assert (X : at_node lab v <> NVoid) by (intros X; rewrite X in Ev; discriminate). apply (t_vis _ _ _ _ _ _ T) in X; [|lia]. destruct X as [[]|X]. exact X.
  - intros st (Dn & k & Hs & Hd). destruct st as [[[[[[lab ss] sb] sh] h] i] lb]. destruct Hs as (T & _ & _ & ->). pose proof (t_len _ _ _ _ _ _ T) as Len. pose proof (t_count _ _ _ _ _ _ T) as Tot. pose proof (t_k _ _ _ _ _ _ T) as TK. cbn in Tot.
    assert (EC : match lbl k with NLabel l => usub (n - 1) l | _ => Ok n end = Ok k). { unfold lbl. destruct (Nat.ltb_spec k n); [rewrite usub_ok by lia; f_equal; lia|f_equal; lia]. }
    rewrite EC. cbn [bind]. set (g := fun a => match a with NLabel l => n - 1 - l | _ => 0 end).
    assert (KD : forall u, u < n -> exists c, c < k /\ at_node lab u = NLabel (n - 1 - c)) by (intros u Hu; apply (t_done _ _ _ _ _ _ T), Hd, Hu).
    rewrite (mapM_map _ g).
    + cbn [bind]. apply wp_ok. rewrite map_length. assert (N : forall x, x < n -> nth x (map g lab) 0 < k /\ at_node lab x = NLabel (n - 1 - nth x (map g lab) 0)).
      { intros x Hx. destruct (KD x Hx) as (c & Hc & E). replace (nth x (map g lab) 0) with (g (at_node lab x)) by (symmetry; apply (map_nth g lab NVoid x)). rewrite E. cbn. replace (n - 1 - (n - 1 - c)) with c by lia. auto. }
      sp; try assumption.
      * intros x y Hx Hy. destruct (N x Hx) as [Kx Nx]. destruct (N y Hy) as [Ky Ny]. rewrite <- (t_same _ _ _ _ _ _ T x y (Hd x Hx) (Hd y Hy)), Nx, Ny. split; [intros ->; reflexivity|]. intros E. injection E. lia.
      * intros x Hx. apply N, Hx.
      * intros c Hc. destruct (t_used _ _ _ _ _ _ T c Hc) as (u & Hu & E). destruct (t_Dnlt _ _ _ _ _ _ T u Hu) as [Bu _]. exists u. split; [exact Bu|]. destruct (N u Bu) as [Ku Nu]. rewrite Nu in E. injection E. lia.
      * intros x y Hx Hy Ha. destruct (N x Hx) as [Kx Nx]. destruct (N y Hy) as [Ky Ny]. pose proof (t_topo _ _ _ _ _ _ T x y _ _ (Hd x Hx) Ha Nx Ny). lia.
    + intros a Ha. apply (In_nth _ _ NVoid) in Ha. destruct Ha as (u & Hu & <-). rewrite Len in Hu. destruct (KD u Hu) as (c & Hc & ->). cbn [node_unwrap bind g]. apply usub_ok. lia.
Qed.
End Tarjan.
