(** When the functions of Model_checked.v panic. *)
From Verif Require Import Rust Scalar Model_kernels Model_matrix Model_dok Model_checked Spec SpecChecked Wp Rep ScatterProofs CanonProofs
  ConvProofs LinProofs Lin2Proofs BinopExact CheckedProofs.

Section Exact.
Context {T : Type} {SC : Scalar T} {CK : Checked T} {L : CheckedLaw True T}.
Implicit Types R : list (list (nat * T)).

Lemma cadd_or x y : cadd x y = Panic \/ cadd x y = Ok (sadd x y).
Proof. destruct (law_add x y) as [[H _]|H]; auto. Qed.
Lemma cmul_or x y : cmul x y = Panic \/ cmul x y = Ok (smul x y).
Proof. destruct (law_mul x y) as [[H _]|H]; auto. Qed.

Lemma so_nil : ~ sum_overflows (T := T) [].
Proof. intros (p & v & q & E & _). destruct p; discriminate. Qed.
Lemma so_here (p : list T) v q : cadd (sum0 p) v = Panic -> sum_overflows (p ++ v :: q).
Proof. intros H. exists p, v, q. split; [reflexivity|exact H]. Qed.
Lemma so_snoc (l : list T) v : ~ sum_overflows l -> cadd (sum0 l) v <> Panic -> ~ sum_overflows (l ++ [v]).
Proof.
  intros H1 H2 (p & w & q & E & H). induction q as [|z q _] using rev_ind.
  - apply app_inj_tail in E as [-> ->]. contradiction.
  - rewrite app_comm_cons, app_assoc in E. apply app_inj_tail in E as [-> _]. apply H1. exists p, w, q. auto.
Qed.

(** from "panics only if [P]" and "[P] fails if there is a result" *)
Lemma exact_of (P : Prop) {A} (m m' : res A) : panics_or True m m' -> pw P m (fun _ => ~ P) -> panics_iff P m m'.
Proof.
  intros H1 [[H2 H3]|(a & H2 & H3)]; split; intros H; try assumption; try contradiction.
  destruct H1 as [[H1 _]|H1]; [congruence|exact H1].
Qed.

Lemma pw_flat (P : Prop) {St} (Inv : list (nat * (nat * T)) -> St -> Prop) I c p j (x : list T) R n
  (body : nat -> nat -> St -> res St) (s : St) (Q : St -> Prop) :
  crep I c p j x R -> length R = n ->
  Inv [] s ->
  (forall pre i e post s, flat 0 R = pre ++ (i, e) :: post -> met I c n j x R (length pre) i e -> Inv pre s ->
     pw P (body i (length pre) s) (Inv (pre ++ [(i, e)]))) ->
  (forall s, Inv (flat 0 R) s -> Q s) ->
  pw P (for_range 0 n (fun i s =>
        let* start := pget p i in
        let* end_ := pget p (i + 1) in
        for_range start end_ (fun k s => body i k s) s) s) Q.
Proof.
  intros H Ln H0 Hstep HQ.
  eapply (pw_for_list P (fun pre => Inv (flat 0 pre)) R).
  - exact (eq_sym Ln).
  - exact H0.
  - intros pre r post s1 ER Hs. cbn [plus]. rewrite (crep_start H ER). cbn [bind]. rewrite (crep_end H ER). cbn [bind].
    eapply (pw_for_list P (fun ip => Inv (flat 0 pre ++ map (pair (length pre)) ip)) r).
    + reflexivity.
    + cbn. rewrite app_nil_r. exact Hs.
    + intros ip e iq s2 Er Hs2. pose proof (crep_col H ER Er) as [Hc Hf].
      replace (length (concat pre) + length ip) with (length (flat 0 pre ++ map (pair (length pre)) ip))
        by (rewrite app_length, flat_length, map_length; reflexivity).
      eapply pw_mono; [eapply Hstep|].
      * rewrite ER, flat_app. cbn [flat plus]. rewrite Er, map_app. cbn [map]. rewrite <- !app_assoc. reflexivity.
      * rewrite app_length, flat_length, map_length. constructor.
        -- exact (crep_vj H ER Er).
        -- exact (crep_pj H ER Er).
        -- exact (crep_vx H ER Er).
        -- subst. rewrite app_length. cbn. lia.
        -- exact Hc.
        -- exact Hf.
        -- rewrite ER, nth_middle, Er. apply in_or_app. right. left. reflexivity.
      * exact Hs2.
      * intros s3. rewrite map_app, app_assoc. auto.
    + intros s2 Hs2. rewrite flat_app. cbn. rewrite app_nil_r. exact Hs2.
  - exact HQ.
Qed.

Lemma vaddto_pw (P : Prop) (y : list T) n f i v : is_vec y n f -> i < n -> (cadd (f i) v = Panic -> P) ->
  pw P (vaddto_ck y i v) (fun y' => is_vec y' n (fun k => if k =? i then sadd (f k) v else f k) /\ cadd (f i) v <> Panic).
Proof.
  intros H Hi HP. unfold vaddto_ck. rewrite (is_vec_get _ _ _ _ H Hi). cbn [bind].
  destruct (cadd_or (f i) v) as [E|E]; rewrite E; cbn [bind]; [apply pw_panic, HP, E|].
  destruct (is_vec_set _ _ _ i (sadd (f i) v) H Hi) as (y' & Ey & H'). rewrite Ey. apply pw_ok. split; [|discriminate].
  eapply is_vec_ext; [exact H'|]. intros k _. cbv beta. destruct (Nat.eqb_spec k i); [subst k|]; reflexivity.
Qed.
Lemma cmul_pw (P : Prop) u v {B} (f : T -> res B) Q : (cmul u v = Panic -> P) -> (cmul u v <> Panic -> pw P (f (smul u v)) Q) -> pw P (bind (cmul u v) f) Q.
Proof.
  intros HP HQ. destruct (cmul_or u v) as [E|E]; rewrite E; cbn [bind]; [apply pw_panic, HP, E|]. apply HQ. rewrite E. discriminate.
Qed.

(** ** Products with vectors *)
Lemma matvec_exact (P : Prop) I c n p j (a : list T) R x : crep I c p j a R -> length R = n -> length x = c ->
  (forall i e, i < n -> In e (nth i R []) -> cmul (snd e) (nth (fst e) x s0) = Panic -> P) ->
  (forall i, i < n -> sum_overflows (prods x (nth i R [])) -> P) ->
  pw P (csr_matvec_ck n c p j a x (repeat s0 n)) (fun _ => forall i, i < n ->
    (forall e, In e (nth i R []) -> cmul (snd e) (nth (fst e) x s0) <> Panic) /\ ~ sum_overflows (prods x (nth i R []))).
Proof.
  intros H Ln Hx HP1 HP2. unfold csr_matvec_ck.
  set (good r := (forall e, In e r -> cmul (snd e) (nth (fst e) x s0) <> Panic) /\ ~ sum_overflows (prods x r)).
  eapply (pw_for_list P (fun pre y => length y = n /\ (forall i, length pre <= i -> i < n -> nth i y s0 = s0) /\ forall r, In r pre -> good r) R).
  - exact (eq_sym Ln).
  - split; [apply repeat_length|]. split; [intros i _ Hi; apply nth_repeat|]. intros r [].
  - intros pre r post y1 ER (Ly & Hy & Hg). cbn [plus].
    assert (Hi : length pre < n) by (subst; rewrite app_length; cbn; lia).
    assert (Er0 : nth (length pre) R [] = r) by (rewrite ER; apply nth_middle).
    rewrite (vget_nth _ _ s0) by lia. cbn [bind]. rewrite Hy by lia.
    rewrite (crep_start H ER). cbn [bind]. rewrite (crep_end H ER). cbn [bind]. apply pw_bind.
    eapply (pw_for_list P (fun ip s => s = sum0 (prods x ip) /\ good ip) r).
    + reflexivity.
    + split; [reflexivity|]. split; [intros e []|apply so_nil].
    + intros ip e iq s Er [-> [G1 G2]]. rewrite (crep_vx H ER Er). cbn [bind]. rewrite (crep_pj H ER Er). cbn [bind].
      rewrite (vget_nth _ _ s0). 2:{ rewrite Hx. apply (crep_col H ER Er). } cbn [bind].
      apply cmul_pw.
      { apply (HP1 (length pre)); [exact Hi|]. rewrite Er0, Er. apply in_or_app. right. left. reflexivity. }
      intros Hm. destruct (cadd_or (sum0 (prods x ip)) (smul (snd e) (nth (fst e) x s0))) as [E|E]; rewrite E.
      * apply pw_panic, (HP2 (length pre)); [exact Hi|]. rewrite Er0, Er. unfold prods. rewrite map_app. apply so_here, E.
      * apply pw_ok. unfold good, prods. rewrite map_app. cbn [map]. rewrite sum0_snoc. sp.
        -- intros e' He. apply in_app_or in He as [He|[<-|[]]]; [apply G1, He|exact Hm].
        -- apply so_snoc; [exact G2|]. unfold prods in E. rewrite E. discriminate.
    + intros s [-> Gr]. rewrite vset_ok by lia. apply pw_ok. rewrite upd_length, app_length. cbn [length]. sp.
      * exact Ly.
      * intros i Hi1 Hi2. rewrite nth_upd_ne by lia. apply Hy; lia.
      * intros r' Hr. apply in_app_or in Hr as [Hr|[<-|[]]]; [apply Hg, Hr|exact Gr].
  - intros y1 (_ & _ & Hg) i Hi. apply Hg, nth_In. lia.
Qed.

Lemma cmatvec_exact (P : Prop) I r n p j (a : list T) R x : crep I r p j a R -> length R = n -> length x = n ->
  (forall t, In t (flat 0 R) -> cmul (snd (snd t)) (nth (fst t) x s0) = Panic -> P) ->
  (forall i, i < r -> sum_overflows (cprods x (flat 0 R) i) -> P) ->
  pw P (csc_matvec_ck r n p j a x (repeat s0 r)) (fun _ =>
    (forall t, In t (flat 0 R) -> cmul (snd (snd t)) (nth (fst t) x s0) <> Panic) /\
    forall i, i < r -> ~ sum_overflows (cprods x (flat 0 R) i)).
Proof.
  intros H Ln Hx HP1 HP2. unfold csc_matvec_ck.
  eapply (pw_flat P (fun F y => is_vec y r (fun i => sum0 (cprods x F i)) /\
     (forall t, In t F -> cmul (snd (snd t)) (nth (fst t) x s0) <> Panic) /\ forall i, i < r -> ~ sum_overflows (cprods x F i))); [exact H|exact Ln| | |].
  - sp; [apply is_vec_repeat|intros t []|intros i _; apply so_nil].
  - intros pre i e post y1 EF M (Hy & G1 & G2). rewrite (met_pj _ _ _ _ _ _ _ _ _ M). cbn [bind]. rewrite (met_vx _ _ _ _ _ _ _ _ _ M). cbn [bind].
    rewrite (vget_nth _ _ s0). 2:{ rewrite Hx. apply (met_i _ _ _ _ _ _ _ _ _ M). } cbn [bind].
    pose proof (met_c _ _ _ _ _ _ _ _ _ M) as Hc.
    apply cmul_pw. { apply (HP1 (i, e)). rewrite EF. apply in_or_app. right. left. reflexivity. } intros Hm.
    eapply pw_mono; [apply (vaddto_pw P _ _ _ _ _ Hy Hc)|].
    { intros E. apply (HP2 (fst e) Hc). rewrite EF. unfold cprods. rewrite filter_app, map_app. cbn [filter fst snd]. rewrite Nat.eqb_refl. cbn [map fst snd].
      apply so_here. exact E. }
    intros y2 [H2 Hp]. sp.
    + eapply is_vec_ext; [exact H2|]. intros k Hk. cbv beta. rewrite cprods_snoc. cbn [fst snd]. rewrite (Nat.eqb_sym (fst e) k).
      destruct (k =? fst e); [rewrite sum0_snoc|rewrite app_nil_r]; reflexivity.
    + intros t Ht. apply in_app_or in Ht as [Ht|[<-|[]]]; [apply G1, Ht|exact Hm].
    + intros k Hk. rewrite cprods_snoc. cbn [fst snd]. destruct (Nat.eqb_spec (fst e) k) as [Ek|D]; [|rewrite app_nil_r; apply G2, Hk].
      subst k. apply so_snoc; [apply G2, Hk|exact Hp].
  - intros y (_ & G). exact G.
Qed.

(** ** Dense tables *)
Lemma todense_exact (P : Prop) I c n p j (x : list T) R : crep I c p j x R -> length R = n ->
  (forall i k, i < n -> k < c -> sum_overflows (at_ k (nth i R [])) -> P) ->
  pw P (csr_todense_ck n c p j x (repeat (repeat s0 c) n)) (fun _ => forall i k, i < n -> k < c -> ~ sum_overflows (at_ k (nth i R []))).
Proof.
  intros H Ln HP. unfold csr_todense_ck.
  assert (Ec : forall i k, cell (flat 0 R) i k = at_ k (nth i R [])) by (intros; rewrite cell_flat, Nat.sub_0_r; reflexivity).
  eapply (pw_flat P (fun F d => is_table d n c (fun i k => sum0 (cell F i k)) /\ forall i k, i < n -> k < c -> ~ sum_overflows (cell F i k))); [exact H|exact Ln| | |].
  - split; [apply is_table_zero|]. intros i k _ _. apply so_nil.
  - intros pre i e post d1 EF M [Hd G]. rewrite (met_pj _ _ _ _ _ _ _ _ _ M). cbn [bind]. rewrite (met_vx _ _ _ _ _ _ _ _ _ M). cbn [bind].
    pose proof (met_i _ _ _ _ _ _ _ _ _ M) as Hi. pose proof (met_c _ _ _ _ _ _ _ _ _ M) as Hc.
    destruct (is_table_row _ _ _ _ i Hd Hi) as [G1 G2]. rewrite G1. cbn [bind].
    apply pw_bind. eapply pw_mono; [apply (vaddto_pw P _ _ _ _ (snd e) G2 Hc)|].
    { intros E. apply (HP i (fst e) Hi Hc). rewrite <- Ec, EF. unfold cell. rewrite filter_app, map_app. cbn [filter fst snd].
      rewrite !Nat.eqb_refl. cbn [andb map fst snd]. apply so_here. exact E. }
    intros y [Hy Hp]. destruct (is_table_setrow _ _ _ _ i y _ Hd Hi Hy) as (d' & E & Hd'). rewrite E. apply pw_ok. split.
    + eapply is_table_ext; [exact Hd'|]. intros a b Ha Hb. cbv beta. rewrite cell_snoc. cbn [fst snd].
      rewrite (Nat.eqb_sym i a), (Nat.eqb_sym (fst e) b). destruct (Nat.eqb_spec a i) as [->|]; cbn [andb].
      * destruct (b =? fst e); [rewrite sum0_snoc; reflexivity|rewrite app_nil_r; reflexivity].
      * rewrite app_nil_r. reflexivity.
    + intros a b Ha Hb. rewrite cell_snoc. cbn [fst snd].
      destruct (Nat.eqb_spec i a) as [Ei|]; [destruct (Nat.eqb_spec (fst e) b) as [Eb|]|]; cbn [andb]; rewrite ?app_nil_r; try (apply G; assumption).
      subst a b. apply so_snoc; [apply G; assumption|exact Hp].
  - intros d [_ G] i k Hi Hk. rewrite <- Ec. apply G; assumption.
Qed.

Lemma Coo_to_dense_exact (P : Prop) I (m : Coo T) : wf_coo I m ->
  (forall i k, i < coo_rows m -> k < coo_cols m -> sum_overflows (coo_at m i k) -> P) ->
  pw P (Coo_to_dense_ck m) (fun _ => forall i k, i < coo_rows m -> k < coo_cols m -> ~ sum_overflows (coo_at m i k)).
Proof.
  intros H HP. destruct (wf_coo_arrays I m H) as (E1 & E2 & E3 & E4 & _). unfold Coo_to_dense_ck, Coo_nnz. rewrite E1, E2, E3.
  eapply (pw_for_list P (fun E d => is_table d (coo_rows m) (coo_cols m) (fun i k => sum0 (vals_at E i k)) /\
     forall i k, i < coo_rows m -> k < coo_cols m -> ~ sum_overflows (vals_at E i k)) (coo_entries m)).
  - rewrite map_length. reflexivity.
  - split; [apply is_table_zero|]. intros i k _ _. apply so_nil.
  - intros pre e post d1 Ee [H1 G]. cbn [plus]. rewrite (pget_map (fun e => fst (fst e)) _ _ _ _ Ee). cbn [bind].
    rewrite (pget_map (fun e => snd (fst e)) _ _ _ _ Ee). cbn [bind].
    destruct (coo_bound I m _ _ _ H Ee) as [B1 B2].
    destruct (is_table_row _ _ _ _ _ H1 B1) as [G1 G2]. rewrite G1. cbn [bind].
    rewrite (is_vec_get _ _ _ _ G2 B2). cbn [bind]. rewrite (vget_map _ _ _ _ _ Ee). cbn [bind].
    destruct (cadd_or (sum0 (vals_at pre (fst (fst e)) (snd (fst e)))) (snd e)) as [E|E]; rewrite E; cbn [bind].
    { apply pw_panic, (HP _ _ B1 B2). unfold coo_at. rewrite Ee, filter_app, map_app. cbn [filter]. rewrite !Nat.eqb_refl. cbn [andb map].
      apply so_here, E. }
    destruct (is_vec_set _ _ _ _ (sadd (sum0 (vals_at pre (fst (fst e)) (snd (fst e)))) (snd e)) G2 B2) as (y & Ey & Hy).
    rewrite Ey. cbn [bind].
    destruct (is_table_setrow _ _ _ _ _ y _ H1 B1 Hy) as (d2 & Ed & H2). rewrite Ed. apply pw_ok. split.
    + eapply is_table_ext; [exact H2|]. intros i k Hi Hk. cbv beta. rewrite vals_at_snoc.
      rewrite (Nat.eqb_sym (fst (fst e)) i), (Nat.eqb_sym (snd (fst e)) k).
      destruct (Nat.eqb_spec i (fst (fst e))) as [Ei|D]; [destruct (Nat.eqb_spec k (snd (fst e))) as [Ek|D]|]; cbn [andb].
      * subst. rewrite sum0_snoc. reflexivity.
      * subst i. rewrite app_nil_r. reflexivity.
      * rewrite app_nil_r. reflexivity.
    + intros i k Hi Hk. rewrite vals_at_snoc.
      destruct (Nat.eqb_spec (fst (fst e)) i) as [Ei|D]; [destruct (Nat.eqb_spec (snd (fst e)) k) as [Ek|D]|]; cbn [andb]; rewrite ?app_nil_r; try (apply G; assumption).
      subst i k. apply so_snoc; [apply G; assumption|]. rewrite E. discriminate.
  - intros d1 [_ G]. exact G.
Qed.

(** ** Diagonals *)
Lemma diagonal_exact (P : Prop) I c n p j (x : list T) R : crep I c p j x R -> length R = n ->
  (forall i, i < Nat.min n c -> sum_overflows (at_ i (nth i R [])) -> P) ->
  pw P (csr_diagonal_ck 0 n c p j x (repeat s0 (Nat.min n c))) (fun _ => forall i, i < Nat.min n c -> ~ sum_overflows (at_ i (nth i R []))).
Proof.
  intros H Ln HP. unfold csr_diagonal_ck. cbn [Z.leb Z.compare]. change (Z.to_nat 0) with 0.
  rewrite usub_ok by lia. cbn [bind]. rewrite usub_ok by lia. cbn [bind]. rewrite !Nat.sub_0_r. set (m := Nat.min n c) in *.
  eapply (pw_for P (fun q (y' : list T) => length y' = m /\ forall i, i < q -> ~ sum_overflows (at_ i (nth i R []))) 0 m).
  - lia.
  - split; [apply repeat_length|]. intros i Hi. lia.
  - intros q y1 Hq [L1 H1]. destruct (nth_split_rows R q) as (pre & post & ER & Lp); [lia|].
    set (r := nth q R []) in *. cbn [plus]. cbv zeta. pose proof (crep_start H ER) as S1. pose proof (crep_end H ER) as S2. rewrite Lp in S1, S2. rewrite S1. cbn [bind]. rewrite S2. cbn [bind]. apply pw_bind.
    eapply (pw_for_list P (fun ip d => d = sum0 (at_ q ip) /\ ~ sum_overflows (at_ q ip)) r).
    + reflexivity.
    + split; [reflexivity|apply so_nil].
    + intros ip e iq d Er [-> G]. rewrite (crep_pj H ER Er). cbn [bind]. rewrite at_snoc.
      destruct (fst e =? q) eqn:Eq; [|rewrite app_nil_r; apply pw_ok; split; [reflexivity|exact G]].
      rewrite (crep_vx H ER Er). cbn [bind]. destruct (cadd_or (sum0 (at_ q ip)) (snd e)) as [E|E]; rewrite E.
      * apply pw_panic, (HP q); [lia|]. fold r. rewrite Er. unfold at_. rewrite filter_app, map_app. cbn [filter]. rewrite Eq. cbn [map]. apply so_here, E.
      * apply pw_ok. rewrite sum0_snoc. split; [reflexivity|]. apply so_snoc; [exact G|]. rewrite E. discriminate.
    + intros d [-> G]. rewrite vset_ok by lia. apply pw_ok. rewrite upd_length. split; [exact L1|].
      intros i Hi. destruct (Nat.eq_dec i q) as [->|D]; [exact G|apply H1; lia].
  - intros y1 [_ H1]. exact H1.
Qed.

Lemma Coo_diagonal_exact (P : Prop) I (m : Coo T) : wf_coo I m ->
  (forall i, i < Nat.min (coo_rows m) (coo_cols m) -> sum_overflows (coo_at m i i) -> P) ->
  pw P (Coo_diagonal_ck m) (fun _ => forall i, i < Nat.min (coo_rows m) (coo_cols m) -> ~ sum_overflows (coo_at m i i)).
Proof.
  intros H HP. destruct (wf_coo_arrays I m H) as (E1 & E2 & E3 & E4 & E5). unfold Coo_diagonal_ck. rewrite E1, E2, E3.
  set (n := Nat.min (coo_rows m) (coo_cols m)) in *.
  eapply (pw_for_list P (fun E d => is_vec d n (fun i => sum0 (vals_at E i i)) /\ forall i, i < n -> ~ sum_overflows (vals_at E i i)) (coo_entries m)).
  - rewrite map_length. reflexivity.
  - split; [apply is_vec_repeat|]. intros i _. apply so_nil.
  - intros pre e post d Ee [Hd G]. cbn [plus]. rewrite (vget_map _ _ _ _ _ Ee). cbn [bind]. rewrite (vget_map _ _ _ _ _ Ee). cbn [bind].
    destruct (coo_bound I m _ _ _ H Ee) as [B1 B2].
    destruct (Z.eqb_spec (Z.of_nat (fst (fst e))) (Z.of_nat (snd (fst e)))) as [Ez|D].
    + rewrite to_usize_nat. cbn [bind]. rewrite (vget_map _ _ _ _ _ Ee). cbn [bind].
      assert (Ex : snd (fst e) = fst (fst e)) by lia.
      eapply pw_mono; [apply (vaddto_pw P _ _ _ (fst (fst e)) (snd e) Hd); [lia|]|].
      { intros E. apply (HP (fst (fst e))); [lia|]. unfold coo_at. rewrite Ee, filter_app, map_app. cbn [filter]. rewrite Ex, !Nat.eqb_refl. cbn [andb map].
        apply so_here, E. }
      intros d2 [H2 Hp]. split.
      * eapply is_vec_ext; [exact H2|]. intros i Hi. cbv beta. rewrite vals_at_snoc, Ex, (Nat.eqb_sym (fst (fst e)) i).
        destruct (i =? fst (fst e)); cbn [andb]; [rewrite sum0_snoc|rewrite app_nil_r]; reflexivity.
      * intros i Hi. rewrite vals_at_snoc, Ex. destruct (Nat.eqb_spec (fst (fst e)) i) as [Ei|]; cbn [andb]; [|rewrite app_nil_r; apply G, Hi].
        subst i. apply so_snoc; [apply G, Hi|exact Hp].
    + assert (N : forall i, ((fst (fst e) =? i) && (snd (fst e) =? i))%bool = false).
      { intros i. destruct (Nat.eqb_spec (fst (fst e)) i), (Nat.eqb_spec (snd (fst e)) i); try reflexivity. lia. }
      apply pw_ok. split; [eapply is_vec_ext; [exact Hd|]|]; intros i Hi; cbv beta; rewrite vals_at_snoc, N, app_nil_r; [reflexivity|apply G, Hi].
  - intros d [_ G]. exact G.
Qed.

(** ** One operation per value *)
Lemma mapM_exact {A B} (f : A -> res B) (l : list A) : (forall a, f a = Panic \/ exists b, f a = Ok b) ->
  ((exists a, In a l /\ f a = Panic) -> mapM f l = Panic) /\ (~ (exists a, In a l /\ f a = Panic) -> mapM f l <> Panic).
Proof.
  intros H. induction l as [|a l [I1 I2]]; [split; [intros (a & [] & _)|intros _; discriminate]|]. cbn [mapM].
  destruct (H a) as [E|[b E]]; rewrite E; cbn [bind].
  - split; [reflexivity|]. intros G. exfalso. apply G. exists a. split; [left; reflexivity|exact E].
  - split.
    + intros (a' & [<-|Ha] & E'); [congruence|]. rewrite I1; [reflexivity|]. exists a'. auto.
    + intros G. assert (N : mapM f l <> Panic) by (apply I2; intros (a' & Ha & E'); apply G; exists a'; split; [right; exact Ha|exact E']).
      destruct (mapM f l); cbn [bind]; congruence.
Qed.
End Exact.
