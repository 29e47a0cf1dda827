(** Graph algorithms: adjacency arrays, undirected components, depth-first order. *)
From Verif Require Import Rust Scalar Model_kernels Model_matrix Model_graph Spec SpecGraph Wp Rep ScatterProofs ConvProofs.

(** arrays of a graph with nodes 0..n-1 *)
Definition is_graph (n : nat) (idx ptr : list Z) (adj : nat -> list nat) : Prop :=
  forall v, v < n -> exists s, pget ptr v = Ok s /\ pget ptr (v + 1) = Ok (s + length (adj v)) /\
    (forall pre w post, adj v = pre ++ w :: post -> pget idx (s + length pre) = Ok w) /\ Forall (fun w => w < n) (adj v).

Lemma csr_is_graph {T} I (m : CSR T) : wf_csr I m -> csr_rows m = csr_cols m -> is_graph (csr_rows m) (csr_colidx m) (csr_rowptr m) (next_nodes m).
Proof.
  intros W Sq v Hv. destruct (wf_csr_rep _ _ W) as [R HR]. pose proof HR as [L H]. rewrite <- L in Hv. destruct (nth_split R [] Hv) as (R1 & R2 & E & E1).
  unfold next_nodes. rewrite (csr_rep_row _ _ _ _ HR). set (r := nth v R []) in *. exists (length (concat R1)). rewrite <- E1. rewrite map_length. sp.
  - apply (crep_start H E).
  - apply (crep_end H E).
  - intros pre w post Er. apply map_eq_app in Er. destruct Er as (ip & iq & Er & <- & Eq). destruct iq as [|e iq]; [discriminate|]. injection Eq as <- _. rewrite map_length. apply (crep_pj H E Er).
  - apply Forall_map. pose proof (cr_idx _ _ _ _ _ _ H) as F. rewrite E, concat_app in F. cbn [concat] in F. apply Forall_app in F. destruct F as [_ F]. apply Forall_app in F. destruct F as [F _]. try rewrite L; rewrite Sq. eapply Forall_impl; [|exact F]. cbn. tauto.
Qed.

(** loops whose variant is not a function of the state *)
Lemma wp_while_ghost {St} (Inv : nat -> St -> Prop) k fuel cond body (s : St) (Q : St -> Prop) :
  k < fuel -> Inv k s ->
  (forall k s, Inv k s -> wp (cond s) (fun b : bool => if b then wp (body s) (fun s' => exists k', k' < k /\ Inv k' s') else Q s)) ->
  wp (while fuel cond body s) Q.
Proof.
  intros Hk H0 Hs. revert k s Hk H0. induction fuel as [|fuel IH]; intros k s Hk H0; [lia|]. cbn. apply wp_bind. eapply wp_mono; [apply (Hs _ _ H0)|]. intros [|]; cbn beta iota; [|intros HQ; apply wp_ok, HQ].
  intros Hb. apply wp_bind. eapply wp_mono; [exact Hb|]. intros s' (k' & Hk' & H'). apply (IH k'); [lia|exact H'].
Qed.
Lemma wp_while_exit_ghost {St} (Inv : nat -> St -> Prop) k fuel cond body (s : St) (Q : St -> Prop) :
  k < fuel -> Inv k s ->
  (forall k s, Inv k s -> wp (cond s) (fun b : bool => if b then wp (body s) (fun c => match c with Cont s' => exists k', k' < k /\ Inv k' s' | Stop s' => Q s' end) else Q s)) ->
  wp (while_exit fuel cond body s) Q.
Proof.
  intros Hk H0 Hs. revert k s Hk H0. induction fuel as [|fuel IH]; intros k s Hk H0; [lia|]. cbn. apply wp_bind. eapply wp_mono; [apply (Hs _ _ H0)|]. intros [|]; cbn beta iota; [|intros HQ; apply wp_ok, HQ].
  intros Hb. apply wp_bind. eapply wp_mono; [exact Hb|]. intros [s'|s']; [|intros HQ; apply wp_ok, HQ]. intros (k' & Hk' & H'). apply (IH k'); [lia|exact H'].
Qed.
Lemma nodup_bound (l : list nat) n : NoDup l -> (forall u, In u l -> u < n) -> length l <= n.
Proof. intros N B. rewrite <- (seq_length n 0). apply NoDup_incl_length; [exact N|]. intros u Hu. apply in_seq. specialize (B u Hu). lia. Qed.

Lemma perm_mid {A} (a b d s : list A) x : Permutation ((a ++ b) ++ d ++ x :: s) ((x :: d) ++ a ++ b ++ s).
Proof.
  cbn. rewrite app_assoc. symmetry. etransitivity; [|apply Permutation_middle]. apply perm_skip. rewrite <- (app_assoc (a ++ b)). rewrite (app_assoc a b s). apply Permutation_app_swap_app.
Qed.
Section CC.
Variable n : nat.

(** pointers through a node array *)
Fixpoint chain (lab : list node) (h : node) (S : list nat) : Prop :=
  match S with
  | [] => h = NEnd
  | u :: S' => h = NLabel u /\ u < length lab /\ chain lab (nth u lab NVoid) S'
  end.
Lemma chain_upd lab w x h S : ~ In w S -> chain lab h S -> chain (upd lab w x) h S.
Proof.
  revert h. induction S as [|u S IH]; intros h N; cbn; [tauto|]. intros (E & L & C). rewrite upd_length. sp; try assumption. cbn in N. rewrite nth_upd_ne by (intros ->; tauto). apply IH; tauto.
Qed.
Lemma chain_nonvoid lab h S : chain lab h S -> h <> NVoid.
Proof. destruct S; cbn; [intros ->; discriminate|intros [-> _]; discriminate]. Qed.
Lemma chain_in lab h S u : chain lab h S -> In u S -> u < length lab /\ nth u lab NVoid <> NVoid.
Proof.
  revert h. induction S as [|v S IH]; intros h; cbn; [tauto|]. intros (_ & L & C) [<-|Hu]; [|eapply IH; eassumption]. split; [exact L|]. apply (chain_nonvoid _ _ _ C).
Qed.
Lemma node_eqb_void a : node_eqb a NVoid = true <-> a = NVoid.
Proof. destruct a; cbn; split; congruence. Qed.
Lemma node_eqb_end a : node_eqb a NEnd = true <-> a = NEnd.
Proof. destruct a; cbn; split; congruence. Qed.

Lemma push_row_ok idx ptr adj x lab h S : is_graph n idx ptr adj -> x < n -> length lab = n -> chain lab h S ->
  wp (cc_push_row idx ptr x (lab, h)) (fun '(lab', h') => exists New, chain lab' h' (New ++ S) /\ length lab' = n /\ NoDup New /\
    (forall u, In u New -> In u (adj x) /\ nth u lab NVoid = NVoid /\ nth u lab' NVoid <> NVoid) /\ (forall u, ~ In u New -> nth u lab' NVoid = nth u lab NVoid) /\
    (forall w, In w (adj x) -> nth w lab' NVoid <> NVoid)).
Proof.
  intros G Hx L C. destruct (G x Hx) as (s & E1 & E2 & E3 & E4). unfold cc_push_row. rewrite E1. cbn [bind]. rewrite E2. cbn [bind].
  eapply (wp_for_list (fun pre '(lab', h') => exists New, chain lab' h' (New ++ S) /\ length lab' = n /\ NoDup New /\
    (forall u, In u New -> In u pre /\ nth u lab NVoid = NVoid /\ nth u lab' NVoid <> NVoid) /\ (forall u, ~ In u New -> nth u lab' NVoid = nth u lab NVoid) /\
    (forall w, In w pre -> nth w lab' NVoid <> NVoid)) (adj x)).
  - reflexivity.
  - exists []. cbn [app]. sp; try assumption; try apply NoDup_nil; intros u; cbn; tauto.
  - intros pre w post [lab' h'] E (New & C' & L' & N & F1 & F2 & F3). rewrite (E3 _ _ _ E). cbn [bind].
    assert (Hw : w < n). { rewrite Forall_forall in E4. apply E4. rewrite E. apply in_or_app. right. left. reflexivity. }
    rewrite (vget_nth _ _ NVoid) by lia. cbn [bind]. destruct (node_eqb (nth w lab' NVoid) NVoid) eqn:Ew.
    + apply node_eqb_void in Ew. rewrite vset_ok by lia. cbn [bind]. apply wp_ok. exists (w :: New).
      assert (Nw : ~ In w (New ++ S)). { intros X. apply (chain_in _ _ _ _ C') in X. tauto. } rewrite in_app_iff in Nw.
      assert (Hh : h' <> NVoid) by apply (chain_nonvoid _ _ _ C').
      sp.
      * cbn. rewrite upd_length, nth_upd_eq by lia. sp; [lia|]. apply chain_upd; [rewrite in_app_iff; exact Nw|exact C'].
      * rewrite upd_length. exact L'.
      * constructor; [tauto|exact N].
      * intros u [<-|Hu].
        -- rewrite nth_upd_eq by lia. sp; try assumption; [apply in_or_app; right; left; reflexivity|]. rewrite <- F2 by tauto. exact Ew.
        -- destruct (F1 u Hu) as (X1 & X2 & X3). rewrite nth_upd_ne by (intros ->; tauto). sp; try assumption. apply in_or_app. left. exact X1.
      * intros u Hu. cbn in Hu. rewrite nth_upd_ne by (intros ->; tauto). apply F2. tauto.
      * intros u Hu. destruct (Nat.eq_dec u w) as [->|D]; [rewrite nth_upd_eq by lia; exact Hh|]. rewrite nth_upd_ne by exact D. apply in_app_or in Hu. destruct Hu as [Hu|[Hu|[]]]; [apply F3, Hu|congruence].
    + assert (Ew' : nth w lab' NVoid <> NVoid) by (intros X; rewrite X in Ew; discriminate). apply wp_ok. exists New. sp; try assumption.
      * intros u Hu. destruct (F1 u Hu) as (X1 & X2 & X3). sp; try assumption. apply in_or_app. left. exact X1.
      * intros u Hu. apply in_app_or in Hu. destruct Hu as [Hu|[<-|[]]]; [apply F3, Hu|exact Ew'].
  - intros [lab' h'] H. exact H.
Qed.

Variables (idx1 ptr1 idx2 ptr2 : list Z) (adj1 adj2 : nat -> list nat).
Hypothesis G1 : is_graph n idx1 ptr1 adj1.
Hypothesis G2 : is_graph n idx2 ptr2 adj2.
Definition nb (x y : nat) : Prop := x < n /\ (In y (adj1 x) \/ In y (adj2 x)).
Hypothesis nb_sym : forall x y, nb x y -> nb y x.
Notation path := (clos_refl_trans nat nb).
Lemma nb_lt x y : nb x y -> x < n /\ y < n.
Proof. intros H. split; [apply H|apply (nb_sym _ _ H)]. Qed.
Lemma path_sym x y : path x y -> path y x.
Proof. intros H. induction H as [x y H|x|x y z _ H1 _ H2]; [apply rt_step, nb_sym, H|apply rt_refl|eapply rt_trans; eassumption]. Qed.
Lemma path_closed (D : nat -> Prop) x y : (forall x y, D x -> nb x y -> D y) -> path x y -> D x -> D y.
Proof. intros C H. induction H as [x y H|x|x y z _ H1 _ H2]; [intros X; eapply C; eassumption|tauto|tauto]. Qed.

Definition cc_inner (lab0 : list node) (label v : nat) (q : nat) (st : list node * node) : Prop :=
  let '(lab, h) := st in exists S D, length D + q = n /\ length lab = n /\ chain lab h S /\ NoDup (D ++ S) /\
    (forall u, In u D -> nth u lab NVoid = NLabel label) /\ (forall u, ~ In u (D ++ S) -> nth u lab NVoid = nth u lab0 NVoid) /\
    (forall u, In u (D ++ S) -> u < n /\ nth u lab0 NVoid = NVoid /\ path v u) /\ In v (D ++ S) /\
    (forall x y, In x D -> nb x y -> In y (D ++ S)).

Definition cc_done (k : nat) (lab : list node) : Prop :=
  length lab = n /\ (forall u, u < n -> nth u lab NVoid = NVoid \/ exists c, c < k /\ nth u lab NVoid = NLabel c) /\
  (forall x y, nb x y -> nth x lab NVoid <> NVoid -> nth y lab NVoid <> NVoid) /\
  (forall x y c, x < n -> y < n -> nth x lab NVoid = NLabel c -> (nth y lab NVoid = NLabel c <-> path x y)) /\
  (forall c, c < k -> exists i, i < n /\ nth i lab NVoid = NLabel c /\ forall j, j < i -> exists c', c' < c /\ nth j lab NVoid = NLabel c').

Lemma filter_len_le {A} (f : A -> bool) l : length (filter f l) <= length l.
Proof. induction l as [|a l IH]; cbn; [lia|]. destruct (f a); cbn; lia. Qed.

Lemma cc_component lab k v : cc_done k lab -> v < n -> nth v lab NVoid = NVoid -> (forall u, u < v -> nth u lab NVoid <> NVoid) ->
  wp (let* labels := vset lab v NEnd in
      let* '(labels, _) := while (S n)
        (fun '(_, ss_head) => Ok (negb (node_eqb ss_head NEnd)))
        (fun '(labels, ss_head) =>
          let* v := node_unwrap ss_head in
          let* ss_head := vget labels v in
          let* labels := vset labels v (NLabel k) in
          let* st := cc_push_row idx1 ptr1 v (labels, ss_head) in
          cc_push_row idx2 ptr2 v st) (labels, NLabel v) in
      Ok (labels, k + 1))
    (fun '(lab', k') => k' = k + 1 /\ cc_done k' lab' /\ nth v lab' NVoid <> NVoid /\ forall u, nth u lab NVoid <> NVoid -> nth u lab' NVoid = nth u lab NVoid).
Proof.
  intros (L & H1 & H2 & H3 & H4) Hv Ev Hlt. rewrite vset_ok by lia. cbn [bind]. apply wp_bind.
  eapply wp_mono with (P := fun st => (exists q, cc_inner lab k v q st) /\ snd st = NEnd).
  - eapply (wp_while_ghost (cc_inner lab k v) n).
    + lia.
    + cbn. exists [v], []. cbn [app]. rewrite upd_length. sp; try assumption.
      * cbn. rewrite upd_length, nth_upd_eq by lia. sp. lia.
      * repeat constructor. tauto.
      * cbn. tauto.
      * intros u Hu. rewrite nth_upd_ne; [reflexivity|]. intros ->. apply Hu. left. reflexivity.
      * intros u [<-|[]]. sp; try assumption. apply rt_refl.
      * left. reflexivity.
      * cbn. tauto.
    + intros q [lab1 h] (S & D & I0 & I1 & I2 & I3 & I4 & I5 & I6 & I7 & I8). cbn [fst snd]. destruct S as [|x S].
      * cbn in I2. subst h. cbn. eexists. split; [reflexivity|]. cbn. split; [|reflexivity]. exists q, [], D. sp; try assumption.
      * cbn in I2. destruct I2 as (-> & Lx & Cx). cbn [node_eqb negb]. apply wp_ok. cbn [node_unwrap bind]. rewrite (vget_nth _ _ NVoid) by lia. cbn [bind]. rewrite vset_ok by lia. cbn [bind].
        assert (Nx : ~ In x (D ++ S)) by (apply NoDup_remove_2 in I3; exact I3). assert (ND : NoDup (D ++ S)) by (apply NoDup_remove_1 in I3; exact I3). rewrite in_app_iff in Nx.
        destruct (I6 x) as (Bx & Vx & Px); [apply in_or_app; right; left; reflexivity|].
        set (lab2 := upd lab1 x (NLabel k)). assert (L2 : length lab2 = n) by (unfold lab2; rewrite upd_length; exact I1).
        assert (C2 : chain lab2 (nth x lab1 NVoid) S) by (apply chain_upd; tauto).
        apply wp_bind. eapply wp_mono; [apply (push_row_ok idx1 ptr1 adj1 x lab2 _ S G1 Bx L2 C2)|].
        intros [lab3 h3] (New1 & C3 & L3 & N3 & A3 & B3 & D3).
        eapply wp_mono; [apply (push_row_ok idx2 ptr2 adj2 x lab3 _ _ G2 Bx L3 C3)|].
        intros [lab4 h4] (New2 & C4 & L4 & N4 & A4 & B4 & D4).
        assert (K2 : forall u, u <> x -> nth u lab2 NVoid = nth u lab1 NVoid) by (intros u Hu; apply nth_upd_ne, Hu).
        assert (K2x : nth x lab2 NVoid = NLabel k) by (apply nth_upd_eq; lia).
        (* new nodes were void in lab1 *)
        assert (V1 : forall u, In u (New2 ++ New1) -> nth u lab1 NVoid = NVoid /\ u <> x /\ nb x u).
        { intros u Hu. assert (Q : nth u lab2 NVoid = NVoid /\ nb x u).
          { apply in_app_or in Hu. destruct Hu as [Hu|Hu].
            - destruct (A4 u Hu) as (X1 & X2 & _). destruct (in_dec Nat.eq_dec u New1) as [Y|Y]; [destruct (A3 u Y) as (_ & _ & Y2); congruence|]. rewrite B3 in X2 by exact Y. split; [exact X2|]. split; [exact Bx|]. right. exact X1.
            - destruct (A3 u Hu) as (X1 & X2 & _). split; [exact X2|]. split; [exact Bx|]. left. exact X1. }
          destruct Q as [Q1 Q2]. assert (u <> x) by (intros ->; congruence). rewrite K2 in Q1 by assumption. auto. }
        assert (NV : forall u, In u (D ++ x :: S) -> nth u lab1 NVoid <> NVoid).
        { intros u Hu. apply in_app_or in Hu. destruct Hu as [Hu|[<-|Hu]]; [rewrite (I4 u Hu); discriminate|apply (chain_nonvoid _ _ _ Cx)|apply (chain_in _ _ _ _ Cx Hu)]. }
        assert (NN : NoDup (New2 ++ New1)).
        { clear -N3 N4 A3 A4. induction N4 as [|a l Ha N4 IH]; [exact N3|]. cbn. constructor; [|apply IH; intros u Hu; apply A4; right; exact Hu].
          rewrite in_app_iff. intros [X|X]; [contradiction|]. destruct (A4 a) as (_ & X2 & _); [left; reflexivity|]. destruct (A3 a X) as (_ & _ & X3). contradiction. }
        assert (Keep : forall u, ~ In u (New2 ++ New1) -> nth u lab4 NVoid = nth u lab2 NVoid).
        { intros u Hu. rewrite in_app_iff in Hu. rewrite B4 by tauto. apply B3. tauto. }
        assert (Mem : forall u, In u ((x :: D) ++ New2 ++ New1 ++ S) <-> In u (New2 ++ New1) \/ In u (D ++ x :: S)).
        { intros u. rewrite !in_app_iff. cbn. tauto. }
        assert (BD : length (D ++ x :: S) <= n) by (apply nodup_bound; [exact I3|intros u Hu; apply I6, Hu]). rewrite app_length in BD. cbn [length] in BD.
        exists (q - 1). split; [lia|].
        -- cbn. exists (New2 ++ New1 ++ S), (x :: D). sp.
           ++ cbn [length]. lia.
           ++ exact L4.
           ++ exact C4.
           ++ eapply Permutation_NoDup with (l := (New2 ++ New1) ++ (D ++ x :: S)).
              { apply perm_mid. }
              clear -NN I3 V1 NV. induction (New2 ++ New1) as [|a l IH]; [exact I3|]. inversion NN as [|? ? Na NN']; subst. cbn. constructor; [|apply IH; [intros u Hu; apply V1; right; exact Hu|exact NN']].
              rewrite in_app_iff. intros [X|X]; [contradiction|]. apply NV in X. destruct (V1 a) as (Y & _); [left; reflexivity|]. contradiction.
           ++ intros u [<-|Hu].
              ** rewrite Keep; [exact K2x|]. intros X. apply V1 in X. tauto.
              ** assert (u <> x) by (intros ->; tauto). rewrite Keep; [rewrite K2 by assumption; apply I4, Hu|]. intros X. apply V1 in X. rewrite (I4 u Hu) in X. destruct X; discriminate.
           ++ intros u Hu. rewrite Mem in Hu. rewrite Keep by tauto. assert (u <> x). { intros ->. apply Hu. right. apply in_or_app. right. left. reflexivity. } rewrite K2 by assumption. apply I5. tauto.
           ++ intros u Hu. rewrite Mem in Hu. destruct Hu as [Hu|Hu]; [|apply I6, Hu]. destruct (V1 u Hu) as (Y1 & Y2 & Y3). sp; [apply (nb_lt _ _ Y3)| |eapply rt_trans; [exact Px|apply rt_step, Y3]].
              rewrite <- I5; [exact Y1|]. intros X. apply NV in X. contradiction.
           ++ rewrite Mem. right. exact I7.
           ++ intros a b [<-|Ha] Hb.
              ** rewrite Mem. destruct (nb_lt _ _ Hb) as [_ Bb]. assert (Y : nth b lab4 NVoid <> NVoid).
                 { destruct Hb as [_ [Hb|Hb]]; [|apply D4, Hb]. specialize (D3 b Hb). destruct (in_dec Nat.eq_dec b New2) as [Y|Y]; [apply A4, Y|rewrite B4 by exact Y; exact D3]. }
                 destruct (in_dec Nat.eq_dec b (New2 ++ New1)) as [Z|Z]; [left; exact Z|]. right. rewrite Keep in Y by exact Z. destruct (in_dec Nat.eq_dec b (D ++ x :: S)) as [W|W]; [exact W|]. exfalso.
                 assert (b <> x) by (intros ->; apply W; apply in_or_app; right; left; reflexivity). rewrite K2, I5 in Y by assumption. apply nb_sym in Hb. apply (H2 _ _ Hb Y). exact Vx.
              ** rewrite Mem. right. eapply I8; eassumption.
  - intros [lab' h'] [(q & S & D & I0 & I1 & I2 & I3 & I4 & I5 & I6 & I7 & I8) E]. cbn in E. subst h'. destruct S as [|x S]; [|destruct I2; discriminate]. rewrite app_nil_r in *. apply wp_ok.
    assert (Dn : forall u, In u D \/ ~ In u D) by (intros u; destruct (in_dec Nat.eq_dec u D); auto).
    assert (DP : forall u, In u D <-> path v u).
    { intros u. split; [apply I6|]. intros P. apply (path_closed (fun u => In u D) v u I8 P I7). }
    assert (OC : forall x y, path x y -> nth x lab NVoid <> NVoid -> nth y lab NVoid <> NVoid).
    { intros x y P. apply (path_closed (fun u => nth u lab NVoid <> NVoid) x y); [|exact P]. intros a b Ha Hb. eapply H2; eassumption. }
    assert (KP : forall u, nth u lab NVoid <> NVoid -> nth u lab' NVoid = nth u lab NVoid).
    { intros u Hu. apply I5. intros X. apply I6 in X. tauto. }
    unfold cc_done. sp.
    + exact I1.
    + intros u Hu. destruct (Dn u) as [X|X]; [right; exists k; split; [lia|apply I4, X]|]. rewrite I5 by exact X. destruct (H1 u Hu) as [Y|(c & Hc & Y)]; [auto|]. right. exists c. split; [lia|exact Y].
    + intros x y Hxy Hx. destruct (Dn x) as [X|X].
      * rewrite (I4 y) by (eapply I8; eassumption). discriminate.
      * rewrite I5 in Hx by exact X. pose proof (H2 _ _ Hxy Hx) as Y. rewrite KP by exact Y. exact Y.
    + intros x y c Hx Hy Ex. destruct (Dn x) as [X|X].
      * rewrite I4 in Ex by exact X. injection Ex as <-. destruct (Dn y) as [Y|Y].
        -- rewrite I4 by exact Y. split; [|reflexivity]. intros _. eapply rt_trans; [apply path_sym, I6, X|apply I6, Y].
        -- rewrite I5 by exact Y. split.
           ++ intros Ey. exfalso. destruct (H1 y Hy) as [Z|(c & Hc & Z)]; [congruence|]. rewrite Z in Ey. injection Ey as ->. lia.
           ++ intros P. exfalso. apply Y, DP. eapply rt_trans; [apply DP, X|exact P].
      * rewrite I5 in Ex by exact X. destruct (Dn y) as [Y|Y].
        -- rewrite I4 by exact Y. split.
           ++ intros [= <-]. exfalso. destruct (H1 x Hx) as [Z|(c & Hc & Z)]; [congruence|]. rewrite Z in Ex. injection Ex as ->. lia.
           ++ intros P. exfalso. apply (OC x y P); [congruence|]. apply I6, Y.
        -- rewrite I5 by exact Y. apply H3; assumption.
    + intros c Hc. destruct (Nat.eq_dec c k) as [->|Dc].
      * exists v. sp; [exact Hv|apply I4, I7|]. intros j Hj. specialize (Hlt j Hj). destruct (H1 j) as [Z|(c & Hc' & Z)]; [lia|contradiction|]. exists c. split; [exact Hc'|]. rewrite KP by exact Hlt. exact Z.
      * destruct (H4 c) as (i & Hi & Ei & Hj); [lia|]. exists i. sp; [exact Hi|rewrite KP by congruence; exact Ei|]. intros j Hji. destruct (Hj j Hji) as (c' & Hc' & E). exists c'. split; [exact Hc'|]. rewrite KP by congruence. exact E.
    + rewrite I4 by exact I7. discriminate.
    + exact KP.
Qed.

Lemma cc_undirected_ok : wp (connected_components_undirected n idx1 ptr1 idx2 ptr2) (fun '(k, out) => length out = n /\
  (forall x y, x < n -> y < n -> (nth x out 0 = nth y out 0 <-> path x y)) /\ (forall x, x < n -> nth x out 0 < k) /\
  (forall c, c < k -> exists i, i < n /\ nth i out 0 = c /\ forall j, j < i -> nth j out 0 < c)).
Proof.
  unfold connected_components_undirected. apply wp_bind.
  eapply (wp_for (fun v '(lab, k) => cc_done k lab /\ forall u, u < v -> nth u lab NVoid <> NVoid)).
  - lia.
  - split; [|lia]. unfold cc_done. rewrite repeat_length. assert (R : forall u, nth u (repeat NVoid n) NVoid = NVoid) by (intros u; apply nth_repeat). sp.
    + intros u _. left. apply R.
    + intros x y _. rewrite R. congruence.
    + intros x y c _ _. rewrite R. discriminate.
    + lia.
  - intros v [lab k] Hv [D U]. pose proof D as (L & _). rewrite (vget_nth _ _ NVoid) by lia. cbn [bind]. destruct (node_eqb (nth v lab NVoid) NVoid) eqn:E.
    + apply node_eqb_void in E. eapply wp_mono; [apply (cc_component lab k v D); [lia|exact E|exact U]|]. intros [lab' k'] (-> & D' & V & K). split; [exact D'|]. intros u Hu. destruct (Nat.eq_dec u v) as [->|N]; [exact V|]. rewrite K by (apply U; lia). apply U. lia.
    + apply wp_ok. split; [exact D|]. intros u Hu. destruct (Nat.eq_dec u v) as [->|N]; [intros X; rewrite X in E; discriminate|apply U; lia].
  - intros [lab k] [(L & H1 & H2 & H3 & H4) U].
    set (g := fun a => match a with NLabel l => l | _ => 0 end). rewrite (mapM_map _ g).
    + cbn [bind]. apply wp_ok. rewrite map_length.
      assert (N : forall x, x < n -> nth x lab NVoid = NLabel (nth x (map g lab) 0) /\ nth x (map g lab) 0 < k).
      { intros x Hx. replace (nth x (map g lab) 0) with (g (nth x lab NVoid)) by (symmetry; apply (map_nth g lab NVoid x)). destruct (H1 x Hx) as [Y|(c & Hc & Y)]; [exfalso; apply (U x Hx Y)|]. rewrite Y. cbn. auto. }
      sp; try assumption.
      * intros x y Hx Hy. destruct (N x Hx) as [Nx _]. destruct (N y Hy) as [Ny _]. rewrite <- (H3 x y _ Hx Hy Nx), Ny. split; [intros ->; reflexivity|intros [= ->]; reflexivity].
      * intros x Hx. apply N, Hx.
      * intros c Hc. destruct (H4 c Hc) as (i & Hi & Ei & Hj). exists i. destruct (N i Hi) as [Ni _]. sp; [exact Hi|congruence|]. intros j Hji. destruct (Hj j Hji) as (c' & Hc' & Ej). destruct (N j) as [Nj _]; [lia|]. rewrite Nj in Ej. injection Ej as ->. exact Hc'.
    + intros a Ha. apply (In_nth _ _ NVoid) in Ha. destruct Ha as (i & Hi & <-). rewrite L in Hi. destruct (H1 i Hi) as [Y|(c & _ & Y)]; [exfalso; apply (U i Hi Y)|]. rewrite Y. reflexivity.
Qed.
End CC.

(** ** depth-first order *)
Lemma bind_assoc {A B C} (m : res A) (f : A -> res B) (g : B -> res C) : bind (bind m f) g = bind m (fun a => bind (f a) g).
Proof. destruct m; reflexivity. Qed.
Lemma while_exit_ext {St} fuel c c' (b b' : St -> res (ctl St St)) s : (forall s, c s = c' s) -> (forall s, b s = b' s) -> while_exit fuel c b s = while_exit fuel c' b' s.
Proof.
  intros Hc Hb. revert s. induction fuel as [|k IH]; intros s; [reflexivity|]. cbn. rewrite Hc. destruct (c' s) as [[|]| | |]; cbn; try reflexivity. rewrite Hb. destruct (b' s) as [[s'|s']| | |]; cbn; try reflexivity. apply IH.
Qed.

Section DFS.
Variable n : nat.

Definition dfs_good (s : dfs_state) : Prop :=
  let '(i_root, nl, rl, nlst, pr, flag) := s in
  length rl = n /\ length nlst = n /\ length pr = n /\ length flag = n /\ (0 <= i_root)%Z /\
  ((exists w, w < n /\ nth w flag false = false) -> (i_root + 1 < Z.of_nat n)%Z /\ nl < n).
Definition scan_spec (l : list nat) (p : nat) (s : dfs_state) (r : dfs_state * bool) : Prop :=
  let '(i_root, nl, rl, nlst, pr, flag) := s in
  ((forall w, In w l -> nth w flag false = true) /\ r = (s, true)) \/
  exists seen w rest, l = seen ++ w :: rest /\ (forall u, In u seen -> nth u flag false = true) /\ nth w flag false = false /\ w < n /\
    r = ((i_root + 1)%Z, nl + 1, upd rl (Z.to_nat (i_root + 1)) w, upd nlst nl w, upd pr w (Some p), upd flag w true, false).

Lemma dfs_scan_ok idx ptr adj p s : is_graph n idx ptr adj -> p < n -> dfs_good s -> wp (dfs_scan idx ptr p s) (scan_spec (adj p) p s).
Proof.
  intros G Hp Hs. destruct (G p Hp) as (st & E1 & E2 & E3 & E4). unfold dfs_scan. rewrite E1. cbn [bind]. rewrite E2. cbn [bind]. destruct s as [[[[[i_root nl] rl] nlst] pr] flag]. destruct Hs as (L1 & L2 & L3 & L4 & L5 & L6).
  apply wp_bind. eapply (wp_for_exit_list (fun pre s' => s' = (i_root, nl, rl, nlst, pr, flag) /\ forall u, In u pre -> nth u flag false = true)
    (fun r => exists seen w rest, adj p = seen ++ w :: rest /\ (forall u, In u seen -> nth u flag false = true) /\ nth w flag false = false /\ w < n /\
    r = ((i_root + 1)%Z, nl + 1, upd rl (Z.to_nat (i_root + 1)) w, upd nlst nl w, upd pr w (Some p), upd flag w true)) (adj p)).
  - reflexivity.
  - split; [reflexivity|]. intros u [].
  - intros pre w post s' E [-> Hpre]. rewrite (E3 _ _ _ E). cbn [bind]. assert (Hw : w < n). { rewrite Forall_forall in E4. apply E4. rewrite E. apply in_or_app. right. left. reflexivity. }
    rewrite (vget_nth _ _ false) by lia. cbn [bind]. destruct (nth w flag false) eqn:Ef.
    + apply wp_ok. split; [reflexivity|]. intros u Hu. apply in_app_or in Hu. destruct Hu as [Hu|[<-|[]]]; [apply Hpre, Hu|exact Ef].
    + destruct L6 as [L6 L7]; [exists w; auto|]. rewrite to_usize_ok by lia. cbn [bind]. rewrite vset_ok by lia. cbn [bind]. rewrite vset_ok by lia. cbn [bind]. rewrite vset_ok by lia. cbn [bind]. rewrite vset_ok by lia. cbn [bind]. apply wp_ok.
      exists pre, w, post. sp; assumption.
  - intros s' [-> Hall]. cbn beta iota. apply wp_ok. left. auto.
  - intros r (seen & w & rest & F1 & F2 & F3 & F4 & ->). cbn beta iota. apply wp_ok. right. exists seen, w, rest. sp; assumption.
Qed.
Lemma scan_spec_app l1 l2 p s r : scan_spec l1 p s (s, true) -> scan_spec l2 p s r -> scan_spec (l1 ++ l2) p s r.
Proof.
  destruct s as [[[[[i_root nl] rl] nlst] pr] flag]. intros H1 H2. assert (A1 : forall w, In w l1 -> nth w flag false = true).
  { destruct H1 as [[H _]|(seen & w & rest & _ & _ & _ & _ & E)]; [exact H|]. injection E. intros. discriminate. }
  destruct H2 as [[H2 ->]|(seen & w & rest & -> & F2 & F3 & F4 & ->)].
  - left. split; [|reflexivity]. intros w Hw. apply in_app_or in Hw. destruct Hw; auto.
  - right. exists (l1 ++ seen), w, rest. sp; try assumption; [rewrite app_assoc; reflexivity|]. intros u Hu. apply in_app_or in Hu. destruct Hu; auto.
Qed.
Lemma scan_spec_left l1 l2 p s s' : scan_spec l1 p s (s', false) -> scan_spec (l1 ++ l2) p s (s', false).
Proof.
  destruct s as [[[[[i_root nl] rl] nlst] pr] flag]. intros [[_ E]|(seen & w & rest & -> & F2 & F3 & F4 & E)]; [discriminate|]. right. exists seen, w, (rest ++ l2). sp; try assumption. rewrite <- app_assoc. reflexivity.
Qed.

(** the stack, most recent first, follows the order of visits *)
Fixpoint ordered (L St : list nat) : Prop :=
  match St with [] => True | p :: St' => exists pre post, L = pre ++ p :: post /\ ordered pre St' end.
Lemma ordered_app L L' St : ordered L St -> ordered (L ++ L') St.
Proof. destruct St as [|p St]; [auto|]. intros (pre & post & -> & H). exists pre, (post ++ L'). rewrite <- app_assoc. auto. Qed.
Lemma ordered_incl L St : ordered L St -> incl St L.
Proof.
  revert L. induction St as [|p St IH]; intros L; cbn; [intros _ u []|]. intros (pre & post & -> & H) u [<-|Hu]; apply in_or_app; [right; left; reflexivity|left; apply (IH pre H), Hu].
Qed.
Lemma ordered_length L St : ordered L St -> length St <= length L.
Proof.
  revert L. induction St as [|p St IH]; intros L; cbn; [lia|]. intros (pre & post & -> & H). rewrite app_length. cbn. specialize (IH pre H). lia.
Qed.

Lemma dfs_head nbr s L P : dfs nbr s L P -> L = s :: map fst P.
Proof. intros H. induction H as [|before p after seen w rest P H IH _ _ _ _]; [reflexivity|]. rewrite IH, map_app. reflexivity. Qed.
Lemma dfs_nodup nbr s L P : dfs nbr s L P -> NoDup L.
Proof.
  intros H. induction H as [|before p after seen w rest P H IH _ _ _ N]; [repeat constructor; tauto|].
  eapply Permutation_NoDup; [apply Permutation_cons_append|]. constructor; assumption.
Qed.
Lemma dfs_reach nbr s L P x : dfs nbr s L P -> In x L -> clos_refl_trans nat (fun a b => In b (nbr a)) s x.
Proof.
  intros H. revert x. induction H as [|before p after seen w rest P H IH _ E _ _]; intros x; [intros [<-|[]]; apply rt_refl|].
  intros Hx. apply in_app_or in Hx. destruct Hx as [Hx|[<-|[]]]; [apply IH, Hx|]. eapply rt_trans; [apply (IH p); apply in_or_app; right; left; reflexivity|]. apply rt_step. rewrite E. apply in_or_app. right. left. reflexivity.
Qed.
Lemma dfs_parent_in nbr s L P w p : dfs nbr s L P -> In (w, p) P -> In w L /\ w <> s /\ In p L /\ In w (nbr p).
Proof.
  intros H. induction H as [|before q after seen u rest P H IH _ E _ N]; [intros []|]. intros Hp. apply in_app_or in Hp. rewrite !in_app_iff. destruct Hp as [Hp|[[= -> ->]|[]]].
  - destruct (IH Hp) as (X1 & X2 & X3 & X4). rewrite !in_app_iff in X1, X3. tauto.
  - cbn. sp; try tauto; [|rewrite E; apply in_or_app; right; left; reflexivity]. intros ->. apply N. rewrite (dfs_head _ _ _ _ H). left. reflexivity.
Qed.
(** every visited node other than the start has exactly one parent *)
Lemma dfs_parent_fun nbr s L P w p p' : dfs nbr s L P -> In (w, p) P -> In (w, p') P -> p = p'.
Proof.
  intros H. induction H as [|before q after seen u rest P H IH _ E _ N]; [intros []|]. intros H1 H2. apply in_app_or in H1, H2. destruct H1 as [H1|[H1|[]]], H2 as [H2|[H2|[]]]; [auto|injection H2 as -> ->|injection H1 as -> ->|congruence].
  - exfalso. apply N. apply (dfs_parent_in _ _ _ _ _ _ H H1).
  - exfalso. apply N. apply (dfs_parent_in _ _ _ _ _ _ H H2).
Qed.

Variables (nbr : nat -> list nat) (scan : nat -> dfs_state -> res (dfs_state * bool)).
Hypothesis nbr_lt : forall p w, p < n -> In w (nbr p) -> w < n.
Hypothesis scan_ok : forall p s, p < n -> dfs_good s -> wp (scan p s) (scan_spec (nbr p) p s).

Definition dfs_body (s : dfs_state) : res (ctl dfs_state dfs_state) :=
  let '(i_root, i_nl_end, root_list, node_list, predecessors, flag) := s in
  let* pnode := vget root_list (Z.to_nat i_root) in
  let* '(st, no_children) := scan pnode s in
  let '(i_root, i_nl_end, root_list, node_list, predecessors, flag) := st in
  if i_nl_end =? n then Ok (Stop st) else
  if no_children then Ok (Cont ((i_root - 1)%Z, i_nl_end, root_list, node_list, predecessors, flag)) else Ok (Cont st).

Definition dfs_inv (h : nat) (L : list nat) (P : list (nat * nat)) (s : dfs_state) : Prop :=
  let '(i_root, nl, rl, nlst, pr, flag) := s in
  length rl = n /\ length nlst = n /\ length pr = n /\ length flag = n /\ nl = length L /\ firstn nl nlst = L /\ dfs nbr h L P /\ (forall u, In u L -> u < n) /\
  (forall u, u < n -> (nth u flag false = true <-> In u L)) /\ (forall u p, u < n -> (nth u pr None = Some p <-> In (u, p) P)).
Definition dfs_stack (L : list nat) (s : dfs_state) (St : list nat) : Prop :=
  let '(i_root, nl, rl, nlst, pr, flag) := s in
  i_root = (Z.of_nat (length St) - 1)%Z /\ firstn (length St) rl = rev St /\ ordered L St /\ (forall u, In u L -> ~ In u St -> incl (nbr u) L).
Definition dfs_final (h : nat) (s : dfs_state) : Prop :=
  exists L P, dfs_inv h L P s /\ forall u, In u L -> incl (nbr u) L.

Lemma dfs_loop_ok h s0 : h < n -> s0 = (0%Z, 1, upd (repeat 0 n) 0 h, upd (repeat 0 n) 0 h, repeat None n, upd (repeat false n) h true) ->
  wp (while_exit (2 * n + 1) (fun (s : dfs_state) => let '(i_root, _, _, _, _, _) := s in Ok (0 <=? i_root)%Z) dfs_body s0) (dfs_final h).
Proof.
  intros Hh ->. eapply (wp_while_exit_ghost (fun q s => exists L P St, dfs_inv h L P s /\ dfs_stack L s St /\ q + 2 * length L = 2 * n + length St) (2 * n - 1)).
  - lia.
  - exists [h], [], [h]. unfold dfs_inv, dfs_stack. rewrite !upd_length, !repeat_length. sp.
    + rewrite firstn_upd_snoc by (rewrite repeat_length; lia). reflexivity.
    + constructor.
    + intros u [<-|[]]. exact Hh.
    + intros u Hu. rewrite nth_upd, repeat_length, nth_repeat. destruct (Nat.eqb_spec u h) as [->|D]; [destruct (Nat.ltb_spec h n); [|lia]; cbn; tauto|]. cbn. split; [discriminate|]. intros [->|[]]. contradiction.
    + intros u p Hu. rewrite nth_repeat. cbn. split; [discriminate|tauto].
    + cbn [length]. rewrite firstn_upd_snoc by (rewrite repeat_length; lia). reflexivity.
    + cbn. exists [], []. auto.
    + intros u [<-|[]] N. exfalso. apply N. left. reflexivity.
    + cbn. lia.
  - intros q s (L & P & St & HI & HS & Hq). destruct s as [[[[[i_root nl] rl] nlst] pr] flag]. pose proof HI as (L1 & L2 & L3 & L4 & L5 & L6 & L7 & L8 & L9 & L10). destruct HS as (S1 & S2 & S3 & S4). apply wp_ok.
    destruct St as [|p St].
    + cbn in S1. subst i_root. cbn. exists L, P. split; [exact HI|]. intros u Hu. apply S4; [exact Hu|]. intros [].
    + cbn [length] in *. assert (Ei : i_root = Z.of_nat (length St)) by lia. destruct (Z.leb_spec 0 i_root); [|lia]. unfold dfs_body.
      assert (Hp : In p L) by (apply (ordered_incl _ _ S3); left; reflexivity). assert (Bp : p < n) by (apply L8, Hp).
      assert (Lr : length (firstn (S (length St)) rl) = S (length St)) by (rewrite S2, rev_length; reflexivity). rewrite firstn_length in Lr.
      assert (Ep : vget rl (Z.to_nat i_root) = Ok p).
      { rewrite (vget_nth _ _ 0) by lia. f_equal. rewrite <- (firstn_skipn (S (length St)) rl), S2. cbn [rev]. rewrite app_nth1 by (rewrite app_length, rev_length; cbn; lia). rewrite app_nth2 by (rewrite rev_length; lia). rewrite rev_length. replace (Z.to_nat i_root - length St) with 0 by lia. reflexivity. }
      rewrite Ep. cbn [bind]. apply wp_bind.
      assert (LL : length L <= n) by (apply nodup_bound; [apply (dfs_nodup _ _ _ _ L7)|exact L8]).
      assert (Good : dfs_good (i_root, nl, rl, nlst, pr, flag)).
      { cbn. sp; try assumption. intros (w & Hw & Ef). assert (Nw : ~ In w L) by (intros X; apply L9 in X; [congruence|exact Hw]).
        assert (length (w :: L) <= n) by (apply nodup_bound; [constructor; [exact Nw|apply (dfs_nodup _ _ _ _ L7)]|intros u [<-|Hu]; [exact Hw|apply L8, Hu]]). cbn [length] in *. pose proof (ordered_length _ _ S3) as OL. cbn [length] in OL. lia. }
      eapply wp_mono; [apply (scan_ok p _ Bp Good)|]. intros [st nc] Hsc. destruct Hsc as [[Hall E]|(seen & w & rest & E1 & E2 & E3 & E4 & E)].
      * injection E as -> ->. cbn [fst snd].
        assert (Ex : incl (nbr p) L) by (intros u Hu; apply L9; [eapply nbr_lt; eassumption|apply Hall, Hu]).
        destruct (Nat.eqb_spec nl n) as [En|En].
        -- apply wp_ok. exists L, P. split; [exact HI|]. intros u Hu w Hw. assert (Bw : w < n) by (eapply nbr_lt; [apply L8, Hu|exact Hw]).
           destruct (in_dec Nat.eq_dec w L) as [X|X]; [exact X|]. exfalso. assert (length (w :: L) <= n) by (apply nodup_bound; [constructor; [exact X|apply (dfs_nodup _ _ _ _ L7)]|intros v [<-|Hv]; [exact Bw|apply L8, Hv]]). cbn [length] in *. lia.
        -- apply wp_ok. exists (q - 1). split; [lia|]. exists L, P, St. sp; try assumption; try lia.
           ++ unfold dfs_stack. sp; [lia| | |].
              ** apply (f_equal (firstn (length St))) in S2. rewrite firstn_firstn in S2. replace (Nat.min (length St) (S (length St))) with (length St) in S2 by lia. rewrite S2. cbn [rev]. apply firstn_app_exact. rewrite rev_length. reflexivity.
              ** cbn in S3. destruct S3 as (pre & post & -> & S3). apply ordered_app, S3.
              ** intros u Hu Nu. destruct (Nat.eq_dec u p) as [->|D]; [exact Ex|]. apply S4; [exact Hu|]. intros [X|X]; [congruence|contradiction].
      * injection E as -> ->. cbn [fst snd].
        assert (Nw : ~ In w L) by (intros X; apply L9 in X; [congruence|exact E4]). destruct Good as (_ & _ & _ & _ & _ & Good). destruct Good as [Gr Gl]; [exists w; auto|].
        assert (HI' : dfs_inv h (L ++ [w]) (P ++ [(w, p)]) ((i_root + 1)%Z, nl + 1, upd rl (Z.to_nat (i_root + 1)) w, upd nlst nl w, upd pr w (Some p), upd flag w true)).
        { unfold dfs_inv. rewrite !upd_length, app_length. cbn [length]. sp; try assumption; try lia.
          - rewrite Nat.add_1_r, firstn_upd_snoc by lia. rewrite L6. reflexivity.
          - destruct S3 as (pre & post & EL & S3). rewrite EL in *. eapply dfs_next; try eassumption.
            + intros u Hu. apply S4; [apply in_or_app; right; right; exact Hu|]. pose proof (dfs_nodup _ _ _ _ L7) as ND. intros [<-|X].
              * apply NoDup_remove_2 in ND. apply ND, in_or_app. right. exact Hu.
              * apply (ordered_incl _ _ S3) in X. apply in_split in Hu. destruct Hu as (a & b & ->). change (p :: a ++ u :: b) with ((p :: a) ++ u :: b) in ND. rewrite app_assoc in ND. apply NoDup_remove_2 in ND. apply ND. apply in_or_app. left. apply in_or_app. left. exact X.
            + intros u Hu. apply L9; [|apply E2, Hu]. apply (nbr_lt p); [exact Bp|]. rewrite E1. apply in_or_app. left. exact Hu.
          - intros u Hu. apply in_app_or in Hu. destruct Hu as [Hu|[<-|[]]]; [apply L8, Hu|exact E4].
          - intros u Hu. rewrite in_app_iff. cbn. destruct (Nat.eq_dec u w) as [->|D]; [rewrite nth_upd_eq by lia; tauto|]. rewrite nth_upd_ne by exact D. rewrite L9 by exact Hu. split; [tauto|]. intros [X|[X|[]]]; [exact X|congruence].
          - intros u v Hu. rewrite in_app_iff. cbn. destruct (Nat.eq_dec u w) as [->|D].
            + rewrite nth_upd_eq by lia. split; [intros [= <-]; tauto|]. intros [X|[[= <-]|[]]]; [|reflexivity]. exfalso. apply Nw. apply (dfs_parent_in _ _ _ _ _ _ L7 X).
            + rewrite nth_upd_ne by exact D. rewrite L10 by exact Hu. split; [tauto|]. intros [X|[[= X]|[]]]; [exact X|congruence]. }
        destruct (Nat.eqb_spec (nl + 1) n) as [En|En].
        -- apply wp_ok. exists (L ++ [w]), (P ++ [(w, p)]). split; [exact HI'|]. intros u Hu v Hv. destruct HI' as (_ & _ & _ & _ & K1 & _ & K2 & K3 & _). assert (Bv : v < n) by (eapply nbr_lt; [apply K3, Hu|exact Hv]).
           destruct (in_dec Nat.eq_dec v (L ++ [w])) as [X|X]; [exact X|]. exfalso. assert (length (v :: L ++ [w]) <= n) by (apply nodup_bound; [constructor; [exact X|apply (dfs_nodup _ _ _ _ K2)]|intros y [<-|Hy]; [exact Bv|apply K3, Hy]]). cbn [length] in *. lia.
        -- apply wp_ok. exists (q - 1). split; [|exists (L ++ [w]), (P ++ [(w, p)]), (w :: p :: St); split; [exact HI'|split]].
           ++ pose proof (ordered_length _ _ S3) as OL. cbn [length] in OL. lia.
           ++ unfold dfs_stack. cbn [length]. sp; [lia| | |].
              ** replace (Z.to_nat (i_root + 1)) with (S (length St)) by lia. rewrite firstn_upd_snoc by lia. rewrite S2. reflexivity.
              ** cbn [ordered]. exists L, []. split; [reflexivity|exact S3].
              ** intros u Hu Nu. apply in_app_or in Hu. destruct Hu as [Hu|[<-|[]]]; [|exfalso; apply Nu; left; reflexivity]. intros y Hy. apply in_or_app. left. apply (S4 u Hu); [|exact Hy]. intros X. apply Nu. right. exact X.
           ++ rewrite app_length. cbn [length]. lia.
Qed.
End DFS.

Lemma bucket_prev {T} (R : list (list (nat * T))) s i : map fst (bucket (rows_entries s R) i) = flat_map (fun j => map (fun _ => s + j) (at_ i (nth j R []))) (seq 0 (length R)).
Proof.
  revert s. induction R as [|r R IH]; intros s; [reflexivity|]. cbn [rows_entries length seq flat_map nth]. rewrite bucket_app, map_app, IH. f_equal.
  - rewrite Nat.add_0_r. unfold at_, bucket, row_entries. clear. induction r as [|e r IH]; [reflexivity|]. cbn. destruct (fst e =? i); cbn; rewrite IH; reflexivity.
  - rewrite <- seq_shift. rewrite !flat_map_concat_map, map_map. f_equal. apply map_ext. intros j. cbn [nth]. apply map_ext. intros _. lia.
Qed.
Section Api.
Context {T : Type} {SC : Scalar T}.
Variable I : ity.
Lemma transposed_graph (g : CSR T) : wf_csr I g -> csr_rows_fit I g -> csr_rows g = csr_cols g ->
  exists gt r, CSR_t g = Ok gt /\ CSC_to_csr I gt = Ok r /\ is_graph (csr_rows g) (csr_colidx r) (csr_rowptr r) (prev_nodes g).
Proof.
  intros W F Sq. destruct (wf_csr_rep _ _ W) as [R HR]. eexists. pose proof (csr_t_rep _ _ _ HR) as E. set (gt := mkCSC _ _ _ _ _) in *.
  assert (HC : csc_rep I gt R) by exact HR. destruct (CSC_to_csr_rep I gt R HC) as (r & E1 & E2 & E3 & R2 & Tt). { apply (csr_rows_fit_rep I g R HR), F. }
  exists r. split; [exact E|]. split; [exact E1|]. assert (Er : csr_rows r = csr_rows g) by (rewrite E2; cbn; congruence). assert (Ec : csr_cols r = csr_rows g) by (rewrite E3; reflexivity).
  pose proof (csr_is_graph I r (csr_rep_wf _ _ _ R2) ltac:(congruence)) as G. rewrite Er in G. intros v Hv. specialize (G v Hv).
  assert (En : next_nodes r v = prev_nodes g v); [|rewrite En in G; exact G]. unfold next_nodes. rewrite (csr_rep_row _ _ _ _ R2). unfold transpose_rows. rewrite nth_buckets by (cbn; lia). rewrite bucket_prev. unfold prev_nodes.
  rewrite (proj1 HR). apply flat_map_ext. intros j. cbn. rewrite (csr_rep_at _ _ _ _ _ HR). reflexivity.
Qed.
Lemma prev_next (g : CSR T) x y : In y (prev_nodes g x) <-> edge g y x.
Proof.
  unfold prev_nodes, edge, next_nodes. rewrite in_flat_map. split.
  - intros (j & Hj & Hy). apply in_map_iff in Hy. destruct Hy as (v & <- & Hv). apply in_seq in Hj. split; [lia|]. unfold csr_at, at_ in Hv. apply in_map_iff in Hv. destruct Hv as (e & _ & He). apply filter_In in He. destruct He as [He Ee]. apply Nat.eqb_eq in Ee. rewrite <- Ee. apply in_map, He.
  - intros [Hy Hx]. exists y. split; [apply in_seq; lia|]. apply in_map_iff in Hx. destruct Hx as (e & Ee & He). apply in_map_iff. exists (snd e). split; [reflexivity|]. unfold csr_at, at_. apply in_map, filter_In. split; [exact He|]. apply Nat.eqb_eq, Ee.
Qed.
Lemma edge_lt (g : CSR T) x y : wf_csr I g -> csr_rows g = csr_cols g -> edge g x y -> x < csr_rows g /\ y < csr_rows g.
Proof.
  intros W Sq [Hx Hy]. split; [exact Hx|]. destruct (csr_is_graph I g W Sq x Hx) as (s & _ & _ & _ & F). rewrite Forall_forall in F. apply F, Hy.
Qed.
Lemma joined_path (g : CSR T) x y : wf_csr I g -> csr_rows g = csr_cols g ->
  clos_refl_trans nat (nb (csr_rows g) (next_nodes g) (prev_nodes g)) x y <-> joined g x y.
Proof.
  intros W Sq. split; intros H.
  - induction H as [x y [Hx [H|H]]|x|x y z _ H1 _ H2].
    + apply rst_step. split; assumption.
    + apply rst_sym, rst_step, prev_next, H.
    + apply rst_refl.
    + eapply rst_trans; eassumption.
  - assert (Sy : forall a b, nb (csr_rows g) (next_nodes g) (prev_nodes g) a b -> nb (csr_rows g) (next_nodes g) (prev_nodes g) b a).
    { intros a b [Ha [H'|H']]; (split; [|]).
      - apply (edge_lt g a b W Sq). split; assumption.
      - right. apply prev_next. split; assumption.
      - apply prev_next in H'. apply H'.
      - left. apply prev_next in H'. apply H'. }
    induction H as [x y H|x|x y _ IH|x y z _ H1 _ H2].
    + apply rt_step. split; [apply H|]. left. apply H.
    + apply rt_refl.
    + apply path_sym; assumption.
    + eapply rt_trans; eassumption.
Qed.
Lemma nb_graph_sym (g : CSR T) : wf_csr I g -> csr_rows g = csr_cols g -> forall a b, nb (csr_rows g) (next_nodes g) (prev_nodes g) a b -> nb (csr_rows g) (next_nodes g) (prev_nodes g) b a.
Proof.
  intros W Sq a b [Ha [H'|H']]; (split; [|]).
  - apply (edge_lt g a b W Sq). split; assumption.
  - right. apply prev_next. split; assumption.
  - apply prev_next in H'. apply H'.
  - left. apply prev_next in H'. apply H'.
Qed.

Lemma depth_first_order_ok (g : CSR T) s directed : wf_csr I g -> csr_rows g = csr_cols g -> (directed = false -> csr_rows_fit I g) -> s < csr_rows g ->
  wp (depth_first_order I g s directed) (fun '(L, pr) => exists P, dfs (neighbours directed g) s L P /\ (forall u, In u L -> u < csr_rows g /\ incl (neighbours directed g u) L) /\ length pr = csr_rows g /\
    forall u p, u < csr_rows g -> (nth u pr None = Some p <-> In (u, p) P)).
Proof.
  intros W Sq F Hs. unfold depth_first_order, validate_graph. rewrite Sq, Nat.eqb_refl. cbn [negb bind]. rewrite <- Sq. set (n := csr_rows g) in *.
  pose proof (csr_is_graph I g W Sq) as G1. fold n in G1.
  assert (In0 : dfs_init s (repeat 0 n) (repeat None n) = Ok (0%Z, 1, upd (repeat 0 n) 0 s, upd (repeat 0 n) 0 s, repeat None n, upd (repeat false n) s true)).
  { unfold dfs_init. rewrite repeat_length, !vset_ok by (rewrite repeat_length; lia). reflexivity. }
  assert (End : forall (m : res dfs_state), wp m (dfs_final n (neighbours directed g) s) -> wp (let* '(len, node_list, predecessors) := (let* '(_, i_nl_end, _, node_list, predecessors, _) := m in Ok (i_nl_end, node_list, predecessors)) in let* nodes := vslice node_list 0 len in Ok (nodes, predecessors))
    (fun '(L, pr) => exists P, dfs (neighbours directed g) s L P /\ (forall u, In u L -> u < n /\ incl (neighbours directed g u) L) /\ length pr = n /\ forall u p, u < n -> (nth u pr None = Some p <-> In (u, p) P))).
  { intros m ([[[[[i_root nl] rl] nlst] pr] flag] & -> & L & P & (L1 & L2 & L3 & L4 & L5 & L6 & L7 & L8 & L9 & L10) & Hc). cbn [bind].
    assert (length L <= n) by (rewrite <- L6, firstn_length; lia). rewrite vslice_ok by lia. rewrite Nat.sub_0_r. cbn [bind skipn]. apply wp_ok. rewrite L6. exists P. sp; try assumption. intros u Hu. split; [apply L8, Hu|apply Hc, Hu]. }
  destruct directed.
  - unfold depth_first_directed. rewrite repeat_length, In0. cbn [bind]. apply End. cbn [neighbours]. erewrite while_exit_ext; [eapply (dfs_loop_ok n (next_nodes g) (dfs_scan (csr_colidx g) (csr_rowptr g)))|reflexivity|]; try reflexivity.
    + intros p w Hp Hw. destruct (G1 p Hp) as (? & _ & _ & _ & Fo). rewrite Forall_forall in Fo. apply Fo, Hw.
    + intros p st Hp Hg. apply dfs_scan_ok; assumption.
    + exact Hs.
  - destruct (transposed_graph g W (F eq_refl) Sq) as (gt & r & E1 & E2 & G2). rewrite E1. cbn [bind]. rewrite E2. cbn [bind]. fold n in G2. unfold depth_first_undirected. rewrite repeat_length, In0. cbn [bind]. apply End.
    erewrite while_exit_ext; [eapply (dfs_loop_ok n (neighbours false g) (fun p s => let* '(st, no_children) := dfs_scan (csr_colidx g) (csr_rowptr g) p s in if no_children then dfs_scan (csr_colidx r) (csr_rowptr r) p st else Ok (st, no_children)))|reflexivity|]; try reflexivity.
    + intros p w Hp Hw. cbn in Hw. apply in_app_or in Hw. destruct Hw as [Hw|Hw]; [destruct (G1 p Hp) as (? & _ & _ & _ & Fo)|destruct (G2 p Hp) as (? & _ & _ & _ & Fo)]; rewrite Forall_forall in Fo; apply Fo, Hw.
    + intros p st Hp Hg. apply wp_bind. eapply wp_mono; [apply (dfs_scan_ok n _ _ _ p st G1 Hp Hg)|]. intros [st' nc] H1. destruct nc.
      * assert (st' = st) as ->. { destruct st as [[[[[? ?] ?] ?] ?] ?]. destruct H1 as [[_ E]|(? & ? & ? & _ & _ & _ & _ & E)]; [congruence|discriminate]. }
        eapply wp_mono; [apply (dfs_scan_ok n _ _ _ p st G2 Hp Hg)|]. intros r' H2. apply scan_spec_app; assumption.
      * apply wp_ok. apply scan_spec_left, H1.
    + exact Hs.
    + intros [[[[[i_root nl] rl] nlst] pr] flag]. unfold dfs_body. destruct (vget rl (Z.to_nat i_root)) as [p| | |]; cbn [bind]; try reflexivity. rewrite bind_assoc. destruct (dfs_scan _ _ p _) as [[st nc]| | |]; reflexivity.
Qed.
End Api.
