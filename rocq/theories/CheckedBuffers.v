(** When the kernels of Model_checked.v that add to the caller's arrays or scale values panic. *)
From Verif Require Import Rust Debug Scalar Model_kernels Model_matrix Model_checked Spec SpecChecked Wp Rep ScatterProofs CanonProofs
  ConvProofs LinProofs Lin2Proofs BinopExact CheckedProofs CheckedExact.

Section Buffers.
Context {T : Type} {SC : Scalar T} {CK : Checked T} {L : CheckedLaw True T}.
Implicit Types R : list (list (nat * T)).

Lemma ao_nil (u : T) : ~ adds_overflow u [].
Proof. intros (p & v & q & E & _). destruct p; discriminate. Qed.
Lemma ao_here u (p : list T) v q : cadd (fold_left sadd p u) v = Panic -> adds_overflow u (p ++ v :: q).
Proof. intros H. exists p, v, q. split; [reflexivity|exact H]. Qed.
Lemma ao_snoc u (l : list T) v : ~ adds_overflow u l -> cadd (fold_left sadd l u) v <> Panic -> ~ adds_overflow u (l ++ [v]).
Proof.
  intros H1 H2 (p & w & q & E & H). induction q as [|z q _] using rev_ind.
  - apply app_inj_tail in E as [-> ->]. contradiction.
  - rewrite app_comm_cons, app_assoc in E. apply app_inj_tail in E as [-> _]. apply H1. exists p, w, q. auto.
Qed.

(** [y] is what [f] became by adding the lists [g], none of them with an overflow *)
Definition acc (y : list T) n (f : nat -> T) (g : nat -> list T) : Prop :=
  is_vec y n (fun i => fold_left sadd (g i) (f i)) /\ forall i, i < n -> ~ adds_overflow (f i) (g i).
Lemma acc_self y n : length y = n -> acc y n (fun i => nth i y s0) (fun _ => []).
Proof. intros H. split; [apply is_vec_self, H|]. intros i _. apply ao_nil. Qed.
Lemma acc_step (P : Prop) y n f g g' i v : acc y n f g -> i < n ->
  (forall k, k < n -> g' k = g k ++ (if k =? i then [v] else [])) ->
  (cadd (fold_left sadd (g i) (f i)) v = Panic -> P) ->
  pw P (vaddto_ck y i v) (fun y' => acc y' n f g').
Proof.
  intros [H G] Hi Hg HP. eapply pw_mono; [apply (vaddto_pw P _ _ _ _ _ H Hi HP)|]. intros y2 [H2 Hp]. split.
  - eapply is_vec_ext; [exact H2|]. intros k Hk. cbv beta. rewrite (Hg k Hk). destruct (k =? i); [rewrite fold_left_app|rewrite app_nil_r]; reflexivity.
  - intros k Hk. rewrite (Hg k Hk). destruct (Nat.eqb_spec k i) as [->|]; [|rewrite app_nil_r; apply G, Hk]. apply ao_snoc; [apply G, Hk|exact Hp].
Qed.

(** the same for blocks *)
Definition gacc (y : list T) n m (f : nat -> nat -> T) (g : nat -> nat -> list T) : Prop :=
  is_grid y n m (fun i v => fold_left sadd (g i v) (f i v)) /\ forall i v, i < n -> v < m -> ~ adds_overflow (f i v) (g i v).
Lemma gacc_ext y n m f g g' : gacc y n m f g -> (forall i v, i < n -> v < m -> g i v = g' i v) -> gacc y n m f g'.
Proof.
  intros [H G] E. split; [eapply is_grid_ext; [exact H|]|]; intros i v Hi Hv; cbv beta.
  - rewrite (E i v Hi Hv). reflexivity.
  - rewrite <- (E i v Hi Hv). apply G; assumption.
Qed.
Lemma gacc_self y n m : length y = m * n -> gacc y n m (fun i v => nth (m * i + v) y s0) (fun _ _ => []).
Proof. intros H. split; [split; [exact H|reflexivity]|]. intros i v _ _. apply ao_nil. Qed.
Lemma gacc_step (P : Prop) y n m f g i v a : gacc y n m f g -> i < n -> v < m ->
  (cadd (fold_left sadd (g i v) (f i v)) a = Panic -> P) ->
  pw P (vaddto_ck y (m * i + v) a) (fun y' => gacc y' n m f (fun i' v' => g i' v' ++ (if (i' =? i) && (v' =? v) then [a] else []))).
Proof.
  intros [[H1 H2] G] Hi Hv HP. pose proof (grid_lt m n i v Hi Hv) as B. unfold vaddto_ck. rewrite (vget_nth _ _ s0) by lia. cbn [bind].
  rewrite H2 by assumption. destruct (cadd_or (fold_left sadd (g i v) (f i v)) a) as [E|E]; rewrite E; cbn [bind]; [apply pw_panic, HP, E|].
  rewrite vset_ok by lia. apply pw_ok. split.
  - split; [rewrite upd_length; exact H1|]. intros i' v' Hi' Hv'.
    destruct (Nat.eqb_spec i' i) as [Ei|D]; [destruct (Nat.eqb_spec v' v) as [Ev|D]|]; cbn [andb].
    + subst. rewrite nth_upd_eq by lia. rewrite fold_left_app. reflexivity.
    + rewrite app_nil_r, nth_upd_ne; [apply H2; assumption|]. intros X. apply grid_inj in X; try assumption. tauto.
    + rewrite app_nil_r, nth_upd_ne; [apply H2; assumption|]. intros X. apply grid_inj in X; try assumption. tauto.
  - intros i' v' Hi' Hv'. destruct (Nat.eqb_spec i' i) as [Ei|D]; [destruct (Nat.eqb_spec v' v) as [Ev|D]|]; cbn [andb]; rewrite ?app_nil_r; try (apply G; assumption).
    subst. apply ao_snoc; [apply G; assumption|]. rewrite E. discriminate.
Qed.
Lemma axpy_pw (P : Prop) y n m f g i a x xo : gacc y n m f g -> i < n -> xo + m <= length x ->
  (forall v, v < m -> cmul a (nth (xo + v) x s0) = Panic -> P) ->
  (forall v, v < m -> cadd (fold_left sadd (g i v) (f i v)) (smul a (nth (xo + v) x s0)) = Panic -> P) ->
  pw P (axpy_ck m a x xo y (m * i)) (fun y' => gacc y' n m f (fun i' v => g i' v ++ (if i' =? i then [smul a (nth (xo + v) x s0)] else [])) /\
    forall v, v < m -> cmul a (nth (xo + v) x s0) <> Panic).
Proof.
  intros H Hi Hx HP1 HP2. unfold axpy_ck.
  eapply (pw_for P (fun q y => gacc y n m f (fun i' v => g i' v ++ (if (i' =? i) && (v <? q) then [smul a (nth (xo + v) x s0)] else [])) /\
     forall v, v < q -> cmul a (nth (xo + v) x s0) <> Panic) 0 m).
  - lia.
  - split; [|intros; lia]. eapply gacc_ext; [exact H|]. intros i' v _ _. rewrite andb_false_r, app_nil_r. reflexivity.
  - intros q y1 Hq [H1 G1]. rewrite (vget_nth _ _ s0) by lia. cbn [bind]. apply cmul_pw; [apply HP1; lia|]. intros Hm.
    eapply pw_mono; [apply (gacc_step P _ _ _ _ _ i q _ H1 Hi); [lia|]|].
    + rewrite Nat.eqb_refl, Nat.ltb_irrefl. cbn [andb]. rewrite app_nil_r. apply HP2. lia.
    + intros y2 H2. split.
      * eapply gacc_ext; [exact H2|]. intros i' v _ _. cbv beta. rewrite <- app_assoc. f_equal. destruct (Nat.eqb_spec i' i); cbn [andb]; [|reflexivity].
        destruct (Nat.eqb_spec v q) as [Ev|D].
        -- subst v. rewrite Nat.ltb_irrefl. destruct (Nat.ltb_spec q (S q)); [reflexivity|lia].
        -- rewrite app_nil_r. destruct (Nat.ltb_spec v q), (Nat.ltb_spec v (S q)); try lia; reflexivity.
      * intros v Hv. destruct (Nat.eq_dec v q) as [->|]; [exact Hm|apply G1; lia].
  - intros y1 [H1 G1]. split; [|exact G1]. eapply gacc_ext; [exact H1|]. intros i' v _ Hv. cbv beta. destruct (Nat.ltb_spec v m); [|lia]. rewrite andb_true_r. reflexivity.
Qed.

(** ** Products added to the caller's vector *)
Lemma matvec_buf (P : Prop) I c n p j (a : list T) R x y : crep I c p j a R -> length R = n -> length x = c -> length y = n ->
  (forall i e, i < n -> In e (nth i R []) -> cmul (snd e) (nth (fst e) x s0) = Panic -> P) ->
  (forall i, i < n -> adds_overflow (nth i y s0) (prods x (nth i R [])) -> P) ->
  pw P (csr_matvec_ck n c p j a x y) (fun _ => forall i, i < n ->
    (forall e, In e (nth i R []) -> cmul (snd e) (nth (fst e) x s0) <> Panic) /\ ~ adds_overflow (nth i y s0) (prods x (nth i R []))).
Proof.
  intros H Ln Hx Ly HP1 HP2. unfold csr_matvec_ck.
  set (good i r := (forall e, In e r -> cmul (snd e) (nth (fst e) x s0) <> Panic) /\ ~ adds_overflow (nth i y s0) (prods x r)).
  eapply (pw_for_list P (fun pre y' => length y' = n /\ (forall i, length pre <= i -> i < n -> nth i y' s0 = nth i y s0) /\ forall i, i < length pre -> good i (nth i R [])) R).
  - exact (eq_sym Ln).
  - split; [exact Ly|]. split; [reflexivity|]. cbn. lia.
  - intros pre r post y1 ER (Ly1 & Hy & Hg). cbn [plus].
    assert (Hi : length pre < n) by (subst; rewrite app_length; cbn; lia).
    assert (Er0 : nth (length pre) R [] = r) by (rewrite ER; apply nth_middle).
    rewrite (vget_nth _ _ s0) by lia. cbn [bind]. rewrite Hy by lia.
    rewrite (crep_start H ER). cbn [bind]. rewrite (crep_end H ER). cbn [bind]. apply pw_bind.
    eapply (pw_for_list P (fun ip s => s = fold_left sadd (prods x ip) (nth (length pre) y s0) /\ good (length pre) ip) r).
    + reflexivity.
    + split; [reflexivity|]. split; [intros e []|apply ao_nil].
    + intros ip e iq s Er [-> [G1 G2]]. rewrite (crep_vx H ER Er). cbn [bind]. rewrite (crep_pj H ER Er). cbn [bind].
      rewrite (vget_nth _ _ s0). 2:{ rewrite Hx. apply (crep_col H ER Er). } cbn [bind].
      apply cmul_pw.
      { apply (HP1 (length pre)); [exact Hi|]. rewrite Er0, Er. apply in_or_app. right. left. reflexivity. }
      intros Hm. destruct (cadd_or (fold_left sadd (prods x ip) (nth (length pre) y s0)) (smul (snd e) (nth (fst e) x s0))) as [E|E]; rewrite E.
      * apply pw_panic, (HP2 (length pre)); [exact Hi|]. rewrite Er0, Er. unfold prods. rewrite map_app. apply ao_here, E.
      * apply pw_ok. unfold good, prods. rewrite map_app. cbn [map]. rewrite fold_left_app. sp.
        -- intros e' He. apply in_app_or in He as [He|[<-|[]]]; [apply G1, He|exact Hm].
        -- apply ao_snoc; [exact G2|]. unfold prods in E. rewrite E. discriminate.
    + intros s [-> Gr]. rewrite vset_ok by lia. apply pw_ok. rewrite upd_length, app_length. cbn [length]. sp.
      * exact Ly1.
      * intros i Hi1 Hi2. rewrite nth_upd_ne by lia. apply Hy; lia.
      * intros i Hi1. destruct (Nat.eq_dec i (length pre)) as [->|]; [rewrite Er0; exact Gr|apply Hg; lia].
  - intros y1 (_ & _ & Hg) i Hi. apply Hg. lia.
Qed.

Lemma cmatvec_buf (P : Prop) I r n p j (a : list T) R x y : crep I r p j a R -> length R = n -> length x = n -> length y = r ->
  (forall t, In t (flat 0 R) -> cmul (snd (snd t)) (nth (fst t) x s0) = Panic -> P) ->
  (forall i, i < r -> adds_overflow (nth i y s0) (cprods x (flat 0 R) i) -> P) ->
  pw P (csc_matvec_ck r n p j a x y) (fun _ =>
    (forall t, In t (flat 0 R) -> cmul (snd (snd t)) (nth (fst t) x s0) <> Panic) /\
    forall i, i < r -> ~ adds_overflow (nth i y s0) (cprods x (flat 0 R) i)).
Proof.
  intros H Ln Hx Ly HP1 HP2. unfold csc_matvec_ck.
  eapply (pw_flat P (fun F y' => acc y' r (fun i => nth i y s0) (cprods x F) /\
     (forall t, In t F -> cmul (snd (snd t)) (nth (fst t) x s0) <> Panic))); [exact H|exact Ln| | |].
  - split; [apply acc_self, Ly|intros t []].
  - intros pre i e post y1 EF M (Hy & G1). rewrite (met_pj _ _ _ _ _ _ _ _ _ M). cbn [bind]. rewrite (met_vx _ _ _ _ _ _ _ _ _ M). cbn [bind].
    rewrite (vget_nth _ _ s0). 2:{ rewrite Hx. apply (met_i _ _ _ _ _ _ _ _ _ M). } cbn [bind].
    pose proof (met_c _ _ _ _ _ _ _ _ _ M) as Hc.
    apply cmul_pw. { apply (HP1 (i, e)). rewrite EF. apply in_or_app. right. left. reflexivity. } intros Hm.
    eapply pw_mono; [apply (acc_step P _ _ _ _ (cprods x (pre ++ [(i, e)])) _ _ Hy Hc)|].
    { intros k _. rewrite cprods_snoc. cbn [fst snd]. rewrite (Nat.eqb_sym (fst e) k). destruct (k =? fst e); reflexivity. }
    { intros E. apply (HP2 (fst e) Hc). rewrite EF. unfold cprods. rewrite filter_app, map_app. cbn [filter fst snd]. rewrite Nat.eqb_refl. cbn [map fst snd].
      apply ao_here. exact E. }
    intros y2 H2. split; [exact H2|]. intros t Ht. apply in_app_or in Ht as [Ht|[<-|[]]]; [apply G1, Ht|exact Hm].
  - intros y1 ((_ & G2) & G1). split; [exact G1|exact G2].
Qed.

Definition coprods (x : list T) (E : list (nat * nat * T)) (i : nat) : list T :=
  map (fun e => smul (snd e) (nth (snd (fst e)) x s0)) (filter (fun e => fst (fst e) =? i) E).
Lemma coo_matvec_buf (P : Prop) I (m : Coo T) x y : wf_coo I m -> length x = coo_cols m -> length y = coo_rows m ->
  (forall e, In e (coo_entries m) -> cmul (snd e) (nth (snd (fst e)) x s0) = Panic -> P) ->
  (forall i, i < coo_rows m -> adds_overflow (nth i y s0) (coprods x (coo_entries m) i) -> P) ->
  pw P (coo_matvec_ck (length (coo_values m)) (coo_rowidx m) (coo_colidx m) (coo_values m) x y) (fun _ =>
    (forall e, In e (coo_entries m) -> cmul (snd e) (nth (snd (fst e)) x s0) <> Panic) /\
    forall i, i < coo_rows m -> ~ adds_overflow (nth i y s0) (coprods x (coo_entries m) i)).
Proof.
  intros H Hx Ly HP1 HP2. destruct (wf_coo_arrays I m H) as (E1 & E2 & E3 & E4 & _). unfold coo_matvec_ck. rewrite E1, E2, E3.
  eapply (pw_for_list P (fun E y' => acc y' (coo_rows m) (fun i => nth i y s0) (coprods x E) /\
     (forall e, In e E -> cmul (snd e) (nth (snd (fst e)) x s0) <> Panic)) (coo_entries m)).
  - rewrite map_length. reflexivity.
  - split; [apply acc_self, Ly|intros e []].
  - intros pre e post y1 Ee [H1 G]. cbn [plus]. rewrite (pget_map (fun e => fst (fst e)) _ _ _ _ Ee). cbn [bind].
    rewrite (pget_map (fun e => snd (fst e)) _ _ _ _ Ee). cbn [bind]. rewrite (vget_map _ _ _ _ _ Ee). cbn [bind].
    destruct (coo_bound I m _ _ _ H Ee) as [B1 B2]. rewrite (vget_nth _ _ s0) by lia. cbn [bind].
    apply cmul_pw. { apply (HP1 e). rewrite Ee. apply in_or_app. right. left. reflexivity. } intros Hm.
    eapply pw_mono; [apply (acc_step P _ _ _ _ (coprods x (pre ++ [e])) _ _ H1 B1)|].
    { intros k _. unfold coprods. rewrite filter_app, map_app. cbn [filter]. rewrite (Nat.eqb_sym (fst (fst e)) k). destruct (k =? fst (fst e)); reflexivity. }
    { intros E. apply (HP2 _ B1). rewrite Ee. unfold coprods. rewrite filter_app, map_app. cbn [filter]. rewrite Nat.eqb_refl. cbn [map]. apply ao_here. exact E. }
    intros y2 H2. split; [exact H2|]. intros t Ht. apply in_app_or in Ht as [Ht|[<-|[]]]; [apply G, Ht|exact Hm].
  - intros y1 ((_ & G2) & G1). split; [exact G1|exact G2].
Qed.

(** ** Products with blocks of vectors *)
Lemma matvecs_buf (P : Prop) I c n m p j (a : list T) R x y : crep I c p j a R -> length R = n -> length x = m * c -> length y = m * n ->
  (forall i v e, i < n -> v < m -> In e (nth i R []) -> cmul (snd e) (nth (m * fst e + v) x s0) = Panic -> P) ->
  (forall i v, i < n -> v < m -> adds_overflow (nth (m * i + v) y s0) (bprods x m v (nth i R [])) -> P) ->
  pw P (csr_matvecs_ck n c m p j a x y) (fun _ => forall i v, i < n -> v < m ->
    (forall e, In e (nth i R []) -> cmul (snd e) (nth (m * fst e + v) x s0) <> Panic) /\ ~ adds_overflow (nth (m * i + v) y s0) (bprods x m v (nth i R []))).
Proof.
  intros H Ln Hx Ly HP1 HP2. unfold csr_matvecs_ck.
  set (f i v := nth (m * i + v) y s0).
  eapply (pw_for_list P (fun pre y' => gacc y' n m f (fun i v => if i <? length pre then bprods x m v (nth i R []) else []) /\
     forall i v, i < length pre -> v < m -> forall e, In e (nth i R []) -> cmul (snd e) (nth (m * fst e + v) x s0) <> Panic) R).
  - exact (eq_sym Ln).
  - split; [|cbn; lia]. eapply gacc_ext; [apply gacc_self, Ly|]. reflexivity.
  - intros pre r post y1 ER [Hy1 G1]. cbn [plus]. assert (Hi : length pre < n) by (subst; rewrite app_length; cbn; lia).
    assert (Er0 : nth (length pre) R [] = r) by (rewrite ER; apply nth_middle).
    destruct (Nat.ltb_spec (length y1) (m * length pre)). { rewrite (proj1 (proj1 Hy1)) in *. nia. }
    rewrite (crep_start H ER). cbn [bind]. rewrite (crep_end H ER). cbn [bind].
    eapply (pw_for_list P (fun ip y' => gacc y' n m f (fun i v => if i =? length pre then bprods x m v ip else if i <? length pre then bprods x m v (nth i R []) else []) /\
       forall v, v < m -> forall e, In e ip -> cmul (snd e) (nth (m * fst e + v) x s0) <> Panic) r).
    + reflexivity.
    + split; [|intros v _ e []]. eapply gacc_ext; [exact Hy1|]. intros i v _ _. cbv beta. destruct (Nat.eqb_spec i (length pre)) as [->|]; [|reflexivity].
      rewrite Nat.ltb_irrefl. reflexivity.
    + intros ip e iq y2 Er [H2 G2]. rewrite (crep_pj H ER Er). cbn [bind]. rewrite (crep_vx H ER Er). cbn [bind].
      destruct (crep_col H ER Er) as [Hc _]. destruct (Nat.ltb_spec (length x) (m * fst e)). { rewrite Hx in *. nia. }
      assert (Ie : In e (nth (length pre) R [])) by (rewrite Er0, Er; apply in_or_app; right; left; reflexivity).
      eapply pw_mono; [apply (axpy_pw P _ _ _ _ _ (length pre) (snd e) x (m * fst e) H2 Hi)|].
      * rewrite Hx. nia.
      * intros v Hv. apply (HP1 (length pre)); assumption.
      * intros v Hv. rewrite Nat.eqb_refl. intros E. apply (HP2 (length pre) v Hi Hv). rewrite Er0, Er. unfold bprods. rewrite map_app. apply ao_here, E.
      * intros y3 [H3 G3]. split.
        -- eapply gacc_ext; [exact H3|]. intros i v _ _. cbv beta. destruct (Nat.eqb_spec i (length pre)); [|apply app_nil_r]. unfold bprods. rewrite map_app. reflexivity.
        -- intros v Hv e' He. apply in_app_or in He as [He|[<-|[]]]; [apply G2; assumption|apply G3, Hv].
    + intros y2 [H2 G2]. rewrite app_length. cbn [length]. split.
      * eapply gacc_ext; [exact H2|]. intros i v _ _. cbv beta. destruct (Nat.eqb_spec i (length pre)) as [->|D].
        -- destruct (Nat.ltb_spec (length pre) (length pre + 1)); [|lia]. rewrite Er0. reflexivity.
        -- destruct (Nat.ltb_spec i (length pre)), (Nat.ltb_spec i (length pre + 1)); try lia; reflexivity.
      * intros i v Hi' Hv. destruct (Nat.eq_dec i (length pre)) as [->|]; [rewrite Er0; apply G2, Hv|apply G1; [lia|exact Hv]].
  - intros y1 [[_ G2] G1] i v Hi Hv. split; [apply G1; [lia|exact Hv]|]. specialize (G2 i v Hi Hv). cbv beta in G2. destruct (Nat.ltb_spec i (length R)); [exact G2|lia].
Qed.
Lemma cmatvecs_buf (P : Prop) I r n m p j (a : list T) R x y : crep I r p j a R -> length R = n -> length x = m * n -> length y = m * r ->
  (forall v t, v < m -> In t (flat 0 R) -> cmul (snd (snd t)) (nth (m * fst t + v) x s0) = Panic -> P) ->
  (forall i v, i < r -> v < m -> adds_overflow (nth (m * i + v) y s0) (bcprods x m v (flat 0 R) i) -> P) ->
  pw P (csc_matvecs_ck r n m p j a x y) (fun _ => forall v, v < m ->
    (forall t, In t (flat 0 R) -> cmul (snd (snd t)) (nth (m * fst t + v) x s0) <> Panic) /\
    forall i, i < r -> ~ adds_overflow (nth (m * i + v) y s0) (bcprods x m v (flat 0 R) i)).
Proof.
  intros H Ln Hx Ly HP1 HP2. unfold csc_matvecs_ck.
  eapply (pw_flat P (fun F y' => gacc y' r m (fun i v => nth (m * i + v) y s0) (fun i v => bcprods x m v F i) /\
     forall v, v < m -> forall t, In t F -> cmul (snd (snd t)) (nth (m * fst t + v) x s0) <> Panic)); [exact H|exact Ln| | |].
  - split; [apply gacc_self, Ly|intros v _ t []].
  - intros pre i e post y1 EF M [Hy1 G1]. rewrite (met_pj _ _ _ _ _ _ _ _ _ M). cbn [bind]. rewrite (met_vx _ _ _ _ _ _ _ _ _ M). cbn [bind].
    pose proof (met_i _ _ _ _ _ _ _ _ _ M) as Hi. pose proof (met_c _ _ _ _ _ _ _ _ _ M) as Hc.
    destruct (Nat.ltb_spec (length x) (m * i)). { rewrite Hx in *. nia. }
    destruct (Nat.ltb_spec (length y1) (m * fst e)). { rewrite (proj1 (proj1 Hy1)) in *. nia. }
    assert (It : In (i, e) (flat 0 R)) by (rewrite EF; apply in_or_app; right; left; reflexivity).
    eapply pw_mono; [apply (axpy_pw P _ _ _ _ _ (fst e) (snd e) x (m * i) Hy1 Hc)|].
    + rewrite Hx. nia.
    + intros v Hv. apply (HP1 v (i, e) Hv It).
    + intros v Hv E. apply (HP2 (fst e) v Hc Hv). rewrite EF. unfold bcprods. rewrite filter_app, map_app. cbn [filter fst snd]. rewrite Nat.eqb_refl. cbn [map fst snd].
      apply ao_here. exact E.
    + intros y3 [H3 G3]. split.
      * eapply gacc_ext; [exact H3|]. intros k v _ _. cbv beta. unfold bcprods. rewrite filter_app, map_app. cbn [filter fst snd].
        rewrite (Nat.eqb_sym (fst e) k). destruct (k =? fst e); reflexivity.
      * intros v Hv t Ht. apply in_app_or in Ht as [Ht|[<-|[]]]; [apply G1; assumption|apply G3, Hv].
  - intros y1 [[_ G2] G1] v Hv. split; [apply G1, Hv|]. intros i Hi. apply (G2 i v Hi Hv).
Qed.

(** ** Dense blocks *)
Lemma todense_buf (P : Prop) I c n p j (x : list T) R d f : crep I c p j x R -> length R = n -> is_table d n c f ->
  (forall i k, i < n -> k < c -> adds_overflow (f i k) (at_ k (nth i R [])) -> P) ->
  pw P (csr_todense_ck n c p j x d) (fun _ => forall i k, i < n -> k < c -> ~ adds_overflow (f i k) (at_ k (nth i R []))).
Proof.
  intros H Ln Hd0 HP. unfold csr_todense_ck.
  assert (Ec : forall i k, cell (flat 0 R) i k = at_ k (nth i R [])) by (intros; rewrite cell_flat, Nat.sub_0_r; reflexivity).
  eapply (pw_flat P (fun F d => is_table d n c (fun i k => fold_left sadd (cell F i k) (f i k)) /\ forall i k, i < n -> k < c -> ~ adds_overflow (f i k) (cell F i k))); [exact H|exact Ln| | |].
  - split; [exact Hd0|]. intros i k _ _. apply ao_nil.
  - intros pre i e post d1 EF M [Hd G]. rewrite (met_pj _ _ _ _ _ _ _ _ _ M). cbn [bind]. rewrite (met_vx _ _ _ _ _ _ _ _ _ M). cbn [bind].
    pose proof (met_i _ _ _ _ _ _ _ _ _ M) as Hi. pose proof (met_c _ _ _ _ _ _ _ _ _ M) as Hc.
    destruct (is_table_row _ _ _ _ i Hd Hi) as [G1 G2]. rewrite G1. cbn [bind].
    apply pw_bind. eapply pw_mono; [apply (vaddto_pw P _ _ _ _ (snd e) G2 Hc)|].
    { intros E. apply (HP i (fst e) Hi Hc). rewrite <- Ec, EF. unfold cell. rewrite filter_app, map_app. cbn [filter fst snd].
      rewrite !Nat.eqb_refl. cbn [andb map fst snd]. apply ao_here. exact E. }
    intros y [Hy Hp]. destruct (is_table_setrow _ _ _ _ i y _ Hd Hi Hy) as (d' & E & Hd'). rewrite E. apply pw_ok. split.
    + eapply is_table_ext; [exact Hd'|]. intros a b Ha Hb. cbv beta. rewrite cell_snoc. cbn [fst snd].
      rewrite (Nat.eqb_sym i a), (Nat.eqb_sym (fst e) b). destruct (Nat.eqb_spec a i) as [->|]; cbn [andb].
      * destruct (b =? fst e); [rewrite fold_left_app; reflexivity|rewrite app_nil_r; reflexivity].
      * rewrite app_nil_r. reflexivity.
    + intros a b Ha Hb. rewrite cell_snoc. cbn [fst snd].
      destruct (Nat.eqb_spec i a) as [Ei|]; [destruct (Nat.eqb_spec (fst e) b) as [Eb|]|]; cbn [andb]; rewrite ?app_nil_r; try (apply G; assumption).
      subst a b. apply ao_snoc; [apply G; assumption|exact Hp].
  - intros d1 [_ G] i k Hi Hk. rewrite <- Ec. apply G; assumption.
Qed.
Lemma coo_todense_c_buf (P : Prop) I (m : Coo T) b : wf_coo I m -> length b = coo_cols m * coo_rows m ->
  (forall i k, i < coo_rows m -> k < coo_cols m -> adds_overflow (nth (coo_cols m * i + k) b s0) (coo_at m i k) -> P) ->
  pw P (coo_todense_ck (coo_rows m) (coo_cols m) (length (coo_values m)) (coo_rowidx m) (coo_colidx m) (coo_values m) b false)
    (fun _ => forall i k, i < coo_rows m -> k < coo_cols m -> ~ adds_overflow (nth (coo_cols m * i + k) b s0) (coo_at m i k)).
Proof.
  intros H Lb HP. destruct (wf_coo_arrays I m H) as (E1 & E2 & E3 & E4 & _). unfold coo_todense_ck. cbn [negb]. rewrite E1, E2, E3.
  eapply (pw_for_list P (fun E y => gacc y (coo_rows m) (coo_cols m) (fun i k => nth (coo_cols m * i + k) b s0) (vals_at E)) (coo_entries m)).
  - rewrite map_length. reflexivity.
  - apply gacc_self, Lb.
  - intros pre e post y1 Ee H1. cbn [plus]. rewrite (pget_map (fun e => fst (fst e)) _ _ _ _ Ee). cbn [bind].
    rewrite (pget_map (fun e => snd (fst e)) _ _ _ _ Ee). cbn [bind]. cbv zeta. rewrite (vget_map _ _ _ _ _ Ee). cbn [bind].
    destruct (coo_bound I m _ _ _ H Ee) as [B1 B2].
    eapply pw_mono; [apply (gacc_step P _ _ _ _ _ _ _ (snd e) H1 B1 B2)|].
    + intros E. apply (HP _ _ B1 B2). unfold coo_at. rewrite Ee, filter_app, map_app. cbn [filter]. rewrite !Nat.eqb_refl. cbn [andb map]. apply ao_here, E.
    + intros y2 H2. eapply gacc_ext; [exact H2|]. intros i k _ _. cbv beta. rewrite vals_at_snoc, (Nat.eqb_sym i), (Nat.eqb_sym k). reflexivity.
  - intros y1 [_ G]. exact G.
Qed.
Lemma coo_todense_f_buf (P : Prop) I (m : Coo T) b : wf_coo I m -> length b = coo_rows m * coo_cols m ->
  (forall i k, i < coo_rows m -> k < coo_cols m -> adds_overflow (nth (coo_rows m * k + i) b s0) (coo_at m i k) -> P) ->
  pw P (coo_todense_ck (coo_rows m) (coo_cols m) (length (coo_values m)) (coo_rowidx m) (coo_colidx m) (coo_values m) b true)
    (fun _ => forall i k, i < coo_rows m -> k < coo_cols m -> ~ adds_overflow (nth (coo_rows m * k + i) b s0) (coo_at m i k)).
Proof.
  intros H Lb HP. destruct (wf_coo_arrays I m H) as (E1 & E2 & E3 & E4 & _). unfold coo_todense_ck. cbn [negb]. rewrite E1, E2, E3.
  eapply (pw_for_list P (fun E y => gacc y (coo_cols m) (coo_rows m) (fun k i => nth (coo_rows m * k + i) b s0) (fun k i => vals_at E i k)) (coo_entries m)).
  - rewrite map_length. reflexivity.
  - apply gacc_self, Lb.
  - intros pre e post y1 Ee H1. cbn [plus]. rewrite (pget_map (fun e => snd (fst e)) _ _ _ _ Ee). cbn [bind].
    rewrite (pget_map (fun e => fst (fst e)) _ _ _ _ Ee). cbn [bind]. cbv zeta. rewrite (vget_map _ _ _ _ _ Ee). cbn [bind].
    destruct (coo_bound I m _ _ _ H Ee) as [B1 B2].
    eapply pw_mono; [apply (gacc_step P _ _ _ _ _ _ _ (snd e) H1 B2 B1)|].
    + intros E. apply (HP _ _ B1 B2). unfold coo_at. rewrite Ee, filter_app, map_app. cbn [filter]. rewrite !Nat.eqb_refl. cbn [andb map]. apply ao_here, E.
    + intros y2 H2. eapply gacc_ext; [exact H2|]. intros k i _ _. cbv beta. rewrite vals_at_snoc, (Nat.eqb_sym i), (Nat.eqb_sym k), andb_comm. reflexivity.
  - intros y1 [_ G] i k Hi Hk. apply (G k i Hk Hi).
Qed.

(** ** Diagonals *)
Lemma kth_diagonal_buf (P : Prop) I c n p j (x : list T) R k y : crep I c p j x R -> length R = n ->
  diag_row k <= n -> diag_col k <= c -> Nat.min (n - diag_row k) (c - diag_col k) <= length y ->
  (forall i, i < Nat.min (n - diag_row k) (c - diag_col k) -> sum_overflows (at_ (diag_col k + i) (nth (diag_row k + i) R [])) -> P) ->
  pw P (csr_diagonal_ck k n c p j x y) (fun _ => forall i, i < Nat.min (n - diag_row k) (c - diag_col k) -> ~ sum_overflows (at_ (diag_col k + i) (nth (diag_row k + i) R []))).
Proof.
  intros H Ln Hr Hc Hy HP. unfold csr_diagonal_ck.
  assert (E1 : (if (0 <=? k)%Z then 0 else Z.to_nat (-1 * k)) = diag_row k).
  { unfold diag_row. destruct (Z.leb_spec 0 k); lia. }
  assert (E2 : (if (0 <=? k)%Z then Z.to_nat k else 0) = diag_col k).
  { unfold diag_col. destruct (Z.leb_spec 0 k); lia. }
  rewrite E1, E2. clear E1 E2. set (fr := diag_row k) in *. set (fc := diag_col k) in *.
  rewrite usub_ok by exact Hr. cbn [bind]. rewrite usub_ok by exact Hc. cbn [bind].
  set (m := Nat.min (n - fr) (c - fc)) in *.
  eapply (pw_for P (fun q (y' : list T) => length y' = length y /\ forall i, i < q -> ~ sum_overflows (at_ (fc + i) (nth (fr + i) R []))) 0 m).
  - lia.
  - split; [reflexivity|]. intros i Hi. lia.
  - intros q y1 Hq [L1 H1]. destruct (nth_split_rows R (fr + q)) as (pre & post & ER & Lp); [lia|].
    set (r := nth (fr + q) R []) in *. cbv zeta.
    rewrite <- Lp. rewrite (crep_start H ER). cbn [bind]. rewrite (crep_end H ER). cbn [bind]. apply pw_bind.
    eapply (pw_for_list P (fun ip d => d = sum0 (at_ (fc + q) ip) /\ ~ sum_overflows (at_ (fc + q) ip)) r).
    + reflexivity.
    + split; [reflexivity|apply so_nil].
    + intros ip e iq d Er [-> G]. rewrite (crep_pj H ER Er). cbn [bind]. rewrite at_snoc.
      destruct (fst e =? fc + q) eqn:Eq; [|rewrite app_nil_r; apply pw_ok; split; [reflexivity|exact G]].
      rewrite (crep_vx H ER Er). cbn [bind]. destruct (cadd_or (sum0 (at_ (fc + q) ip)) (snd e)) as [E|E]; rewrite E.
      * apply pw_panic, (HP q); [lia|]. fold r. rewrite Er. unfold at_. rewrite filter_app, map_app. cbn [filter]. rewrite Eq. cbn [map]. apply so_here, E.
      * apply pw_ok. rewrite sum0_snoc. split; [reflexivity|]. apply so_snoc; [exact G|]. rewrite E. discriminate.
    + intros d [-> G]. rewrite vset_ok by lia. apply pw_ok. rewrite upd_length. split; [exact L1|].
      intros i Hi. destruct (Nat.eq_dec i q) as [->|D]; [exact G|apply H1; lia].
  - intros y1 [_ H1]. exact H1.
Qed.

(** ** Scaling *)
Lemma scale_rows_buf (P : Prop) I c n p j (x : list T) R s : crep I c p j x R -> length R = n -> n <= length s ->
  (forall t, In t (flat 0 R) -> cmul (snd (snd t)) (nth (fst t) s s0) = Panic -> P) ->
  pw P (csr_scale_rows_ck n c p j x s) (fun _ => forall t, In t (flat 0 R) -> cmul (snd (snd t)) (nth (fst t) s s0) <> Panic).
Proof.
  intros H Ln Ls HP. unfold csr_scale_rows_ck. pose proof (crep_len_x _ _ _ _ _ _ H) as LX.
  eapply (pw_flat P (fun F x' => x' = over (map (fun t => smul (snd (snd t)) (nth (fst t) s s0)) F) x /\
     forall t, In t F -> cmul (snd (snd t)) (nth (fst t) s s0) <> Panic)); [exact H|exact Ln|split; [reflexivity|intros t []]| |].
  - intros pre i e post x1 Ee M [-> G].
    assert (Hl : length pre < length (concat R)).
    { pose proof (flat_length 0 R) as X. rewrite Ee, app_length in X. cbn in X. lia. }
    rewrite over_get by (rewrite map_length; lia). rewrite (met_vx _ _ _ _ _ _ _ _ _ M). cbn [bind].
    rewrite (vget_nth _ _ s0). 2:{ pose proof (met_i _ _ _ _ _ _ _ _ _ M). lia. } cbn [bind].
    apply cmul_pw. { apply (HP (i, e)). rewrite Ee. apply in_or_app. right. left. reflexivity. } intros Hm.
    rewrite over_set by (rewrite ?map_length; lia). apply pw_ok. rewrite map_app. split; [reflexivity|].
    intros t Ht. apply in_app_or in Ht as [Ht|[<-|[]]]; [apply G, Ht|exact Hm].
  - intros x1 [_ G]. exact G.
Qed.
Lemma scale_columns_buf (P : Prop) I c n p j (x : list T) R s : crep I c p j x R -> length R = n -> c <= length s ->
  (forall e, In e (concat R) -> cmul (snd e) (nth (fst e) s s0) = Panic -> P) ->
  pw P (csr_scale_columns_ck n c p j x s) (fun _ => forall e, In e (concat R) -> cmul (snd e) (nth (fst e) s s0) <> Panic).
Proof.
  intros H Ln Ls HP. unfold csr_scale_columns_ck. pose proof (crep_len_x _ _ _ _ _ _ H) as LX.
  rewrite <- Ln, (crep_nnz _ _ _ _ _ _ H). cbn [bind].
  eapply (pw_for_list P (fun F x' => x' = over (map (fun e => smul (snd e) (nth (fst e) s s0)) F) x /\
     forall e, In e F -> cmul (snd e) (nth (fst e) s s0) <> Panic) (concat R)); [reflexivity|split; [reflexivity|intros t []]| |].
  - intros pre e post x1 Ee [-> G]. cbn [plus].
    assert (Hl : length pre < length (concat R)) by (rewrite Ee, app_length; cbn; lia).
    rewrite over_get by (rewrite map_length; lia). rewrite (bdat_vx _ _ _ _ _ _ (cr_dat _ _ _ _ _ _ H) Ee). cbn [bind].
    rewrite (bdat_pj _ _ _ _ _ _ (cr_dat _ _ _ _ _ _ H) Ee). cbn [bind].
    assert (Ie : In e (concat R)) by (rewrite Ee; apply in_or_app; right; left; reflexivity).
    assert (fst e < c). { pose proof (cr_idx _ _ _ _ _ _ H) as F. rewrite Forall_forall in F. apply F, Ie. }
    rewrite (vget_nth _ _ s0) by lia. cbn [bind]. apply cmul_pw; [apply HP, Ie|]. intros Hm.
    rewrite over_set by (rewrite ?map_length; lia). apply pw_ok. rewrite map_app. split; [reflexivity|].
    intros t Ht. apply in_app_or in Ht as [Ht|[<-|[]]]; [apply G, Ht|exact Hm].
  - intros x1 [_ G]. exact G.
Qed.
End Buffers.
