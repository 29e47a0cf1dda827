(** has_canonical_format, has_sorted_indices, sort_indices, sum_duplicates, eliminate_zeros *)
From Verif Require Import Rust Scalar Model_kernels Model_matrix Spec Wp Rep ScatterProofs.

Lemma wp_eq {A} (m : res A) a (Q : A -> Prop) : m = Ok a -> Q a -> wp m Q.
Proof. intros -> H. apply wp_ok, H. Qed.

Lemma for_range_exit_nil {S R} lo hi (f : nat -> S -> res (ctl S R)) s :
  hi <= lo -> for_range_exit lo hi f s = Ok (Cont s).
Proof. intros H. unfold for_range_exit. replace (hi - lo) with 0 by lia. reflexivity. Qed.

Lemma vget_upd_ne {A} (l : list A) i k a : k <> i -> vget (upd l i a) k = vget l k.
Proof. intros H. unfold vget. rewrite nth_error_upd. apply Nat.eqb_neq in H. rewrite H. reflexivity. Qed.

Lemma Forall_perm {A} (P : A -> Prop) l l' : Permutation l l' -> Forall P l -> Forall P l'.
Proof. rewrite !Forall_forall. intros HP H x Hx. apply H. eapply Permutation_in; [symmetry; exact HP|exact Hx]. Qed.

Lemma skipn_S {A} n (l : list A) a r : skipn n l = a :: r -> skipn (S n) l = r.
Proof. revert l. induction n; intros [|b l] H; cbn in *; try discriminate; [congruence|]. apply IHn, H. Qed.

Section Sorted.
Context {A : Type} (R : A -> A -> Prop).
Lemma ssorted_snoc l a : StronglySorted R (l ++ [a]) <-> StronglySorted R l /\ Forall (fun x => R x a) l.
Proof.
  induction l as [|b l IH]; cbn.
  - split; [split; constructor|]. intros _. constructor; constructor.
  - split.
    + intros H. inversion H; subst. apply IH in H2 as [H1 H2]. apply Forall_app in H3 as [H3 H4].
      split; constructor; auto. inversion H4; auto.
    + intros [H1 H2]. inversion H1; subst. inversion H2; subst. constructor; [apply IH; auto|].
      apply Forall_app. split; auto.
Qed.
Lemma ssorted_app l1 l2 : StronglySorted R (l1 ++ l2) ->
  StronglySorted R l1 /\ StronglySorted R l2 /\ (forall a b, In a l1 -> In b l2 -> R a b).
Proof.
  induction l1 as [|a l1 IH]; cbn; intros H; [sp; auto; [constructor|intros ? ? []]|].
  inversion H; subst. destruct (IH H2) as (H4 & H5 & H6). apply Forall_app in H3 as [H3 H7].
  rewrite Forall_forall in H7. sp; auto.
  - constructor; auto.
  - intros x y [<-|Hx] Hy; auto.
Qed.
Lemma ssorted_head2 a b l : StronglySorted R (a :: b :: l) -> R a b.
Proof. intros H. apply StronglySorted_inv in H as [_ H]. apply Forall_inv in H. exact H. Qed.
End Sorted.

Lemma ssorted_snoc2_lt l d a : StronglySorted lt (l ++ [d]) -> d < a -> StronglySorted lt ((l ++ [d]) ++ [a]).
Proof.
  intros H Hd. apply ssorted_snoc. split; [exact H|]. apply ssorted_snoc in H as [_ H].
  apply Forall_app. split; [|constructor; auto]. eapply Forall_impl; [|exact H]. cbn. intros; lia.
Qed.
Lemma ssorted_snoc2_le l d a : StronglySorted le (l ++ [d]) -> d <= a -> StronglySorted le ((l ++ [d]) ++ [a]).
Proof.
  intros H Hd. apply ssorted_snoc. split; [exact H|]. apply ssorted_snoc in H as [_ H].
  apply Forall_app. split; [|constructor; auto]. eapply Forall_impl; [|exact H]. cbn. intros; lia.
Qed.

Section Checks.
Context {T : Type}.

(** the rows on which the canonical format check overflows: all canonical, as many entries as the index type can count,
    and an empty row at the end *)
Definition stuck I (R : list (list (nat * T))) : Prop :=
  Z.of_nat (length (concat R)) = imax I /\ Forall canonical_row R /\ exists pre, R = pre ++ [[]].
Lemma stuck_lt I R : (Z.of_nat (length (concat R)) < imax I)%Z -> ~ stuck I R.
Proof. intros H (E & _). lia. Qed.
Lemma has_canonical_exact I c p j (x : list T) R n : crep I c p j x R -> length R = n -> ~ stuck I R ->
  wp (csr_has_canonical_format I n p j) (fun b => b = true <-> Forall canonical_row R).
Proof.
  intros H Ln Hf. unfold csr_has_canonical_format. apply wp_bind.
  eapply (wp_for_exit_list (fun pre _ => Forall canonical_row pre)
            (fun b => b = false /\ ~ Forall canonical_row R) R); [exact (eq_sym Ln)|constructor| | |].
  - intros pre r post [] ER Hpre. cbn [plus].
    assert (Lpre : length (concat pre) <= length (concat R)) by (pose proof (crep_row_le H ER); lia).
    assert (Hlt0 : (Z.of_nat (length (concat pre)) < imax I)%Z).
    { pose proof (cr_fit _ _ _ _ _ _ H) as Hm. destruct (Z.lt_ge_cases (Z.of_nat (length (concat pre))) (imax I)) as [Q|Q]; [exact Q|]. exfalso. apply Hf.
      assert (Er : concat (r :: post) = []) by (apply length_zero_iff_nil; rewrite ER, concat_app, app_length in Hm; lia).
      split; [lia|]. assert (Fe : Forall (fun q : list (nat * T) => q = []) (r :: post)).
      { clear - Er. induction (r :: post) as [|q l IH]; [constructor|]. cbn in Er. apply app_eq_nil in Er as [-> Er]. constructor; auto. }
      rewrite ER. split.
      - apply Forall_app. split; [exact Hpre|]. eapply Forall_impl; [|exact Fe]. cbn. intros q ->. constructor.
      - destruct (@exists_last _ (r :: post) ltac:(discriminate)) as (l & q & El). rewrite El in *. apply Forall_app in Fe as [_ Fe]. inversion Fe; subst.
        exists (pre ++ l). rewrite app_assoc. reflexivity. }
    rewrite (crep_start H ER). cbn [bind]. rewrite (crep_end H ER). cbn [bind].
    destruct (Nat.ltb_spec (length (concat pre) + length r) (length (concat pre))); [lia|].
    rewrite (crep_startz H ER). cbn [bind]. rewrite iadd_ok by lia. cbn [bind].
    replace (Z.of_nat (length (concat pre)) + 1)%Z with (Z.of_nat (length (concat pre) + 1)) by lia.
    rewrite to_usize_nat. cbn [bind].
    destruct r as [|e0 r].
    { rewrite for_range_exit_nil by (cbn; lia). apply wp_ok. apply Forall_app. split; [exact Hpre|].
      constructor; [|constructor]. constructor. }
    eapply (wp_for_exit_list (fun ip _ => canonical_row (e0 :: ip))
            (fun b => b = false /\ ~ canonical_row (e0 :: r)) r).
    + cbn; lia.
    + repeat constructor.
    + intros ip a iq [] Er Hip.
      destruct (@exists_last _ (e0 :: ip) ltac:(discriminate)) as (ip' & d & Ed).
      assert (Lip : length ip = length ip') by (apply (f_equal (@length _)) in Ed; rewrite app_length in Ed; cbn in Ed; lia).
      assert (Ea : e0 :: r = (ip' ++ [d]) ++ a :: iq) by (rewrite <- Ed; cbn; rewrite Er; reflexivity).
      assert (Ed2 : e0 :: r = ip' ++ d :: (a :: iq)) by (rewrite Ea, <- app_assoc; reflexivity).
      rewrite usub_ok by lia. cbn [bind].
      replace (length (concat pre) + 1 + length ip - 1) with (length (concat pre) + length ip') by lia.
      rewrite (crep_vj H ER Ed2). cbn [bind].
      replace (length (concat pre) + 1 + length ip) with (length (concat pre) + length (ip' ++ [d]))
        by (rewrite app_length; cbn; lia).
      rewrite (crep_vj H ER Ea). cbn [bind].
      destruct (Z.ltb_spec (Z.of_nat (fst d)) (Z.of_nat (fst a))) as [Hlt|Hge]; cbn [negb]; apply wp_ok.
      * change (e0 :: ip ++ [a]) with ((e0 :: ip) ++ [a]). rewrite Ed in *. unfold canonical_row in *.
        rewrite !map_app in *. cbn [map] in *. apply ssorted_snoc2_lt; [exact Hip|lia].
      * split; [reflexivity|]. intros C. unfold canonical_row in C. rewrite Ed2, map_app in C.
        apply ssorted_app in C as (_ & C & _). apply ssorted_head2 in C. lia.
    + intros [] Hr. apply Forall_app. split; [exact Hpre|]. constructor; [exact Hr|constructor].
    + intros b [Hb C]. split; [exact Hb|]. intros F. rewrite ER in F. apply Forall_app in F as [_ F].
      inversion F; subst. contradiction.
  - intros [] HR. apply wp_ok. tauto.
  - intros b [-> C]. apply wp_ok. split; [discriminate|tauto].
Qed.

Lemma has_canonical_spec I c p j (x : list T) R n : crep I c p j x R -> length R = n ->
  (Z.of_nat (length (concat R)) < imax I)%Z ->
  wp (csr_has_canonical_format I n p j) (fun b => b = true <-> Forall canonical_row R).
Proof. intros H Ln Hf. eapply has_canonical_exact; eauto using stuck_lt. Qed.

Lemma has_sorted_spec I c p j (x : list T) R n : crep I c p j x R -> length R = n ->
  (match R with [] => True | r :: _ => r <> [] end) ->
  wp (csr_has_sorted_indices I n p j) (fun b => b = true <-> Forall sorted_row R).
Proof.
  intros H Ln Hne. unfold csr_has_sorted_indices. apply wp_bind.
  eapply (wp_for_exit_list (fun pre _ => Forall sorted_row pre)
            (fun b => b = false /\ ~ Forall sorted_row R) R); [exact (eq_sym Ln)|constructor| | |].
  - intros pre r post [] ER Hpre. cbn [plus].
    pose proof (crep_row_le H ER) as Lr. pose proof (cr_fit _ _ _ _ _ _ H) as Hf.
    rewrite (crep_start H ER). cbn [bind]. rewrite (crep_endz H ER). cbn [bind].
    assert (Hpos : 1 <= length (concat pre) + length r).
    { destruct pre as [|r0 pre].
      - cbn in ER. subst R. destruct r; [congruence|cbn; lia].
      - cbn in ER. subst R. cbn. rewrite app_length. destruct r0; [congruence|cbn; lia]. }
    rewrite isub_ok by lia. cbn [bind].
    replace (Z.of_nat (length (concat pre) + length r) - 1)%Z with (Z.of_nat (length (concat pre) + length r - 1)) by lia.
    rewrite to_usize_nat. cbn [bind].
    destruct r as [|e0 r].
    { rewrite for_range_exit_nil by (cbn; lia). apply wp_ok. apply Forall_app. split; [exact Hpre|].
      constructor; [|constructor]. constructor. }
    eapply (wp_for_exit_list (fun ip _ => sorted_row (e0 :: ip))
            (fun b => b = false /\ ~ sorted_row (e0 :: r)) r).
    + cbn; lia.
    + repeat constructor.
    + intros ip a iq [] Er Hip.
      destruct (@exists_last _ (e0 :: ip) ltac:(discriminate)) as (ip' & d & Ed).
      assert (Lip : length ip = length ip') by (apply (f_equal (@length _)) in Ed; rewrite app_length in Ed; cbn in Ed; lia).
      assert (Ea : e0 :: r = (ip' ++ [d]) ++ a :: iq) by (rewrite <- Ed; cbn; rewrite Er; reflexivity).
      assert (Ed2 : e0 :: r = ip' ++ d :: (a :: iq)) by (rewrite Ea, <- app_assoc; reflexivity).
      replace (length (concat pre) + length ip) with (length (concat pre) + length ip') by lia.
      rewrite (crep_vj H ER Ed2). cbn [bind].
      replace (length (concat pre) + length ip' + 1) with (length (concat pre) + length (ip' ++ [d]))
        by (rewrite app_length; cbn; lia).
      rewrite (crep_vj H ER Ea). cbn [bind].
      destruct (Z.ltb_spec (Z.of_nat (fst a)) (Z.of_nat (fst d))) as [Hlt|Hge]; apply wp_ok.
      * split; [reflexivity|]. intros C. unfold sorted_row in C. rewrite Ed2, map_app in C.
        apply ssorted_app in C as (_ & C & _). apply ssorted_head2 in C. lia.
      * change (e0 :: ip ++ [a]) with ((e0 :: ip) ++ [a]). rewrite Ed in *. unfold sorted_row in *.
        rewrite !map_app in *. cbn [map] in *. apply ssorted_snoc2_le; [exact Hip|lia].
    + intros [] Hr. apply Forall_app. split; [exact Hpre|]. constructor; [exact Hr|constructor].
    + intros b [Hb C]. split; [exact Hb|]. intros F. rewrite ER in F. apply Forall_app in F as [_ F].
      inversion F; subst. contradiction.
  - intros [] HR. apply wp_ok. tauto.
  - intros b [-> C]. apply wp_ok. split; [discriminate|tauto].
Qed.

Lemma has_sorted_panics I c p j (x : list T) R n : crep I c p j x ([] :: R) -> S (length R) = n ->
  csr_has_sorted_indices I n p j = Panic.
Proof.
  intros H <-. unfold csr_has_sorted_indices, for_range_exit. cbn [minus for_n_exit].
  pose proof (crep_start H (pre := []) eq_refl) as G1. pose proof (crep_endz H (pre := []) eq_refl) as G2.
  cbn in G1, G2. rewrite G1. cbn [bind]. change (0 + 1) with 1. rewrite G2. cbn [bind].
  unfold isub, icheck. destruct (_ && _); reflexivity.
Qed.
End Checks.

(** ** Stable sort of a row *)
Section Sort.
Context {T : Type}.
Implicit Types r : list (nat * T).

Fixpoint insn (e : nat * T) r : list (nat * T) :=
  match r with [] => [e] | y :: r' => if fst e <=? fst y then e :: y :: r' else y :: insn e r' end.
Fixpoint sortn r : list (nat * T) := match r with [] => [] | e :: r' => insn e (sortn r') end.

Definition emb (e : nat * T) : Z * T := (Z.of_nat (fst e), snd e).
Lemma insert_emb e r : insert_by (emb e) (map emb r) = map emb (insn e r).
Proof.
  induction r as [|y r IH]; [reflexivity|]. cbn.
  destruct (Nat.leb_spec (fst e) (fst y)), (Z.leb_spec (Z.of_nat (fst e)) (Z.of_nat (fst y))); try lia; cbn; [reflexivity|].
  rewrite IH. reflexivity.
Qed.
Lemma sort_emb r : sort_by (map emb r) = map emb (sortn r).
Proof. induction r as [|e r IH]; [reflexivity|]. cbn. rewrite IH. apply insert_emb. Qed.

Lemma insn_perm e r : Permutation (insn e r) (e :: r).
Proof.
  induction r as [|y r IH]; cbn; [reflexivity|]. destruct (_ <=? _); [reflexivity|].
  rewrite IH. apply perm_swap.
Qed.
Lemma sortn_perm r : Permutation (sortn r) r.
Proof. induction r as [|e r IH]; cbn; [reflexivity|]. rewrite insn_perm, IH. reflexivity. Qed.
Lemma sortn_length r : length (sortn r) = length r.
Proof. apply Permutation_length, sortn_perm. Qed.
Lemma insn_sorted e r : sorted_row r -> sorted_row (insn e r).
Proof.
  unfold sorted_row. induction r as [|y r IH]; cbn; intros H; [repeat constructor|].
  inversion H; subst. destruct (Nat.leb_spec (fst e) (fst y)) as [L|L].
  - cbn. constructor; [exact H|]. constructor; [exact L|]. eapply Forall_impl; [|exact H3]. cbn. intros; lia.
  - cbn. constructor; [apply IH; assumption|].
    eapply (Forall_perm _ (map fst (e :: r))).
    { symmetry. apply Permutation_map, insn_perm. }
    cbn. constructor; [lia|exact H3].
Qed.
Lemma sortn_sorted r : sorted_row (sortn r).
Proof. induction r as [|e r IH]; cbn; [constructor|]. apply insn_sorted, IH. Qed.
Lemma at_insn k e r : at_ k (insn e r) = at_ k (e :: r).
Proof.
  induction r as [|y r IH]; [reflexivity|]. cbn [insn]. destruct (Nat.leb_spec (fst e) (fst y)) as [L|L]; [reflexivity|].
  rewrite at_cons, IH, !at_cons.
  destruct (Nat.eqb_spec (fst e) k), (Nat.eqb_spec (fst y) k); cbn; try reflexivity. lia.
Qed.
Lemma at_sortn k r : at_ k (sortn r) = at_ k r.
Proof. induction r as [|e r IH]; [reflexivity|]. cbn [sortn]. rewrite at_insn, !at_cons, IH. reflexivity. Qed.
Lemma insn_id e r : sorted_row (e :: r) -> insn e r = e :: r.
Proof.
  destruct r as [|y r]; [reflexivity|]. intros H. unfold sorted_row in H. cbn in H. inversion H; subst. inversion H3; subst.
  cbn. apply Nat.leb_le in H4. rewrite H4. reflexivity.
Qed.
Lemma sortn_id r : sorted_row r -> sortn r = r.
Proof.
  induction r as [|e r IH]; intros H; [reflexivity|]. cbn. rewrite IH; [apply insn_id, H|].
  unfold sorted_row in *. cbn in H. inversion H; assumption.
Qed.
Lemma canonical_sorted r : canonical_row r -> sorted_row r.
Proof.
  unfold canonical_row, sorted_row. induction (map fst r) as [|a l IH]; intros H; [constructor|].
  inversion H; subst. constructor; [auto|]. eapply Forall_impl; [|exact H3]. cbn; intros; lia.
Qed.
Lemma canonical_nodup r : canonical_row r -> nodup_row r.
Proof.
  unfold canonical_row, nodup_row. induction (map fst r) as [|a l IH]; intros H; [constructor|].
  inversion H; subst. constructor; [|auto]. intros Hi. rewrite Forall_forall in H3. specialize (H3 _ Hi). lia.
Qed.
Lemma sorted_nodup_canonical r : sorted_row r -> nodup_row r -> canonical_row r.
Proof.
  unfold sorted_row, nodup_row, canonical_row. induction (map fst r) as [|a l IH]; intros H N; [constructor|].
  inversion H; inversion N; subst. constructor; [auto|]. rewrite Forall_forall in *. intros b Hb.
  specialize (H3 _ Hb). assert (a <> b) by (intros ->; contradiction). lia.
Qed.
End Sort.

(** in-place replacement of one entry *)
Lemma map_upd {A B} (f : A -> B) (l1 : list A) e l2 (v : list B) a :
  firstn (length (l1 ++ e :: l2)) v = map f (l1 ++ e :: l2) ->
  firstn (length (l1 ++ a :: l2)) (upd v (length l1) (f a)) = map f (l1 ++ a :: l2).
Proof.
  revert v. induction l1 as [|b l1 IH]; intros v H; cbn in *.
  - destruct v as [|y v]; [discriminate|]. cbn in *. f_equal. congruence.
  - destruct v as [|y v]; [discriminate|]. cbn in *. injection H as -> H. f_equal. apply IH, H.
Qed.

Section SortKernel.
Context {T : Type} {SC : Scalar T}.

Lemma bdat_upd j (x : list T) A e B e' : bdat j x (A ++ e :: B) ->
  bdat (upd j (length A) (Z.of_nat (fst e'))) (upd x (length A) (snd e')) (A ++ e' :: B).
Proof.
  intros [Hj Hx]. split.
  - apply (map_upd (fun e => Z.of_nat (fst e)) A e B j e' Hj).
  - apply (map_upd snd A e B x e' Hx).
Qed.

Lemma sort_indices_spec I c p j (x : list T) R n : crep I c p j x R -> length R = n ->
  wp (csr_sort_indices n p j x) (fun '(j', x') =>
    crep I c p j' x' (map sortn R) /\ length j' = length j /\ length x' = length x).
Proof.
  intros H Ln. unfold csr_sort_indices. apply wp_bind.
  eapply (wp_for_list (fun pre '(_, j', x') =>
     (forall post, R = pre ++ post -> bdat j' x' (concat (map sortn pre) ++ concat post)) /\
     length j' = length j /\ length x' = length x) R); [exact (eq_sym Ln)| | |].
  - split; [|auto]. cbn. intros post ->. apply (cr_dat _ _ _ _ _ _ H).
  - intros pre r post [[temp j'] x'] ER (Hd & Lj & Lx). cbn [plus]. specialize (Hd _ ER). cbn [concat] in Hd.
    assert (Lc : length (concat (map sortn pre)) = length (concat pre)).
    { clear. induction pre as [|a pre IH]; [reflexivity|]. cbn. rewrite !app_length, IH, sortn_length. reflexivity. }
    rewrite (crep_start H ER). cbn [bind]. rewrite (crep_end H ER). cbn [bind].
    rewrite usub_ok by lia. cbn [bind].
    replace (length (concat pre) + length r - length (concat pre)) with (length r) by lia.
    (* fill temp *)
    apply wp_bind. eapply (wp_for_list (fun ip '(temp, k) => k = length ip /\ length temp = length r /\
        firstn k temp = map emb ip) r); [reflexivity| | |].
    + sp. unfold vresize. rewrite app_length, firstn_length, repeat_length. lia.
    + intros ip e iq [tmp k] Er (-> & Lt & Ht).
      rewrite <- Lc, <- app_length.
      assert (Es : concat (map sortn pre) ++ r ++ concat post = (concat (map sortn pre) ++ ip) ++ e :: (iq ++ concat post)).
      { rewrite Er, <- !app_assoc. reflexivity. }
      rewrite (bdat_vj _ _ _ _ _ _ Hd Es). cbn [bind]. rewrite (bdat_vx _ _ _ _ _ _ Hd Es). cbn [bind].
      assert (length ip < length tmp) by (rewrite Lt, Er, app_length; cbn; lia).
      rewrite vset_ok by assumption. cbn [bind]. apply wp_ok. rewrite app_length, upd_length. cbn [length].
      sp; [assumption|]. replace (length ip + 1) with (S (length ip)) by lia.
      rewrite firstn_upd_snoc by assumption. rewrite Ht, map_app. reflexivity.
    + intros [tmp k] (-> & Lt & Ht). cbv beta iota.
      rewrite <- Lt, firstn_all in Ht. subst tmp. rewrite sort_emb.
      (* write back *)
      apply wp_bind. eapply (wp_for_list (fun ip '(j', x', k) => k = length ip /\
         bdat j' x' (concat (map sortn pre) ++ ip ++ skipn (length ip) r ++ concat post) /\
         length j' = length j /\ length x' = length x) (sortn r)).
      * rewrite sortn_length. reflexivity.
      * sp; cbn; try assumption; apply Hd.
      * intros ip e iq [[j2 x2] k] Er (-> & Hd2 & Lj2 & Lx2).
        assert (Lip : length ip < length r) by (rewrite <- (sortn_length r), Er, app_length; cbn; lia).
        destruct (skipn (length ip) r) as [|d rest] eqn:Esk.
        { apply (f_equal (@length _)) in Esk. rewrite skipn_length in Esk. cbn in Esk. lia. }
        rewrite (vget_map _ _ _ _ _ Er). cbn [bind]. cbn [emb fst snd].
        assert (Hd3 : bdat j2 x2 ((concat (map sortn pre) ++ ip) ++ d :: (rest ++ concat post))).
        { rewrite <- app_assoc. exact Hd2. }
        pose proof (bdat_len_j _ _ _ Hd3) as B1. pose proof (bdat_len_x _ _ _ Hd3) as B2.
        rewrite app_length in B1, B2. cbn in B1, B2. rewrite app_length in B1, B2.
        rewrite <- Lc. rewrite vset_ok by lia. cbn [bind]. rewrite vset_ok by lia. cbn [bind].
        apply wp_ok. rewrite !upd_length, app_length. sp; try assumption.
        apply (bdat_upd _ _ _ _ _ e) in Hd3. rewrite app_length in Hd3.
        assert (Er2 : skipn (length ip + length [e]) r = rest).
        { cbn [length]. rewrite Nat.add_1_r. exact (skipn_S _ _ _ _ Esk). }
        rewrite Er2. rewrite <- !app_assoc in *. exact Hd3.
      * intros [[j2 x2] k] (-> & Hd2 & Lj2 & Lx2). cbv beta iota. apply wp_ok. split; [|auto].
        intros post' E'. assert (post' = post) as ->.
        { rewrite ER, <- app_assoc in E'. apply app_inv_head in E'. cbn in E'. congruence. }
        rewrite sortn_length, skipn_all in Hd2. rewrite map_app, concat_app. cbn. rewrite app_nil_r, <- app_assoc.
        exact Hd2.
  - intros [[tmp j'] x'] (Hd & Lj & Lx). cbv beta iota. apply wp_ok. split; [|auto].
    specialize (Hd [] (eq_sym (app_nil_r _))). cbn in Hd. rewrite app_nil_r in Hd.
    assert (P : Permutation (concat (map sortn R)) (concat R)).
    { clear. induction R as [|r R IH]; [reflexivity|]. cbn. rewrite IH. apply Permutation_app_tail, sortn_perm. }
    constructor.
    + rewrite map_length. apply (cr_len _ _ _ _ _ _ H).
    + intros pre post E.
      assert (E2 : R = firstn (length pre) R ++ skipn (length pre) R) by (symmetry; apply firstn_skipn).
      assert (E3 : pre = map sortn (firstn (length pre) R)).
      { rewrite <- firstn_map, E, firstn_app_exact; reflexivity. }
      pose proof (cr_ptr _ _ _ _ _ _ H _ _ E2) as G.
      assert (length (firstn (length pre) R) = length pre) as EL.
      { rewrite E3 at 2. rewrite map_length. reflexivity. }
      rewrite EL in G. rewrite G. f_equal. f_equal. rewrite E3 at 2.
      generalize (firstn (length pre) R). clear. intros l.
      induction l as [|r R IH]; [reflexivity|]. cbn. rewrite !app_length, IH, sortn_length. reflexivity.
    + exact Hd.
    + eapply Forall_perm; [symmetry; exact P|]. apply (cr_idx _ _ _ _ _ _ H).
    + rewrite (Permutation_length P). apply (cr_fit _ _ _ _ _ _ H).
Qed.
End SortKernel.

(** ** In-place compaction *)
Section Compact.
Context {T : Type} {SC : Scalar T}.
Implicit Types r d o : list (nat * T).

Fixpoint suma (k : nat) (v : T) r : list (nat * T) :=
  match r with
  | [] => [(k, v)]
  | (k', v') :: r' => if k' =? k then suma k (sadd v v') r' else (k, v) :: suma k' v' r'
  end.
Definition sum_adj r := match r with [] => [] | (k, v) :: r' => suma k v r' end.

Lemma suma_length k v r : length (suma k v r) <= S (length r).
Proof.
  revert k v. induction r as [|[k' v'] r IH]; intros k v; cbn; [lia|].
  destruct (_ =? _); [specialize (IH k (sadd v v')); lia|]. cbn. specialize (IH k' v'). lia.
Qed.
Lemma sum_adj_length r : length (sum_adj r) <= length r.
Proof. destruct r as [|[k v] r]; [reflexivity|]. apply suma_length. Qed.
Lemma suma_keys k v r : incl (map fst (suma k v r)) (k :: map fst r).
Proof.
  revert k v. induction r as [|[k' v'] r IH]; intros k v; cbn; [apply incl_refl|].
  destruct (Nat.eqb_spec k' k) as [->|].
  - intros a Ha. apply IH in Ha. cbn in *. tauto.
  - cbn. intros a [<-|Ha]; [left; reflexivity|]. apply IH in Ha. cbn in *. tauto.
Qed.
Lemma sum_adj_keys r : incl (map fst (sum_adj r)) (map fst r).
Proof. destruct r as [|[k v] r]; [apply incl_refl|]. apply suma_keys. Qed.

Lemma suma_canonical k v r : sorted_row ((k, v) :: r) -> canonical_row (suma k v r).
Proof.
  revert k v. induction r as [|[k' v'] r IH]; intros k v H; cbn; [repeat constructor|].
  unfold sorted_row in H; cbn in H. inversion H; subst. inversion H3; subst.
  destruct (Nat.eqb_spec k' k) as [->|D].
  - apply IH. unfold sorted_row. cbn. inversion H2; subst. constructor; assumption.
  - unfold canonical_row. cbn. constructor.
    + apply IH. exact H2.
    + apply Forall_forall. intros a Ha. apply suma_keys in Ha. cbn in Ha.
      inversion H2; subst. destruct Ha as [<-|Ha]; [lia|]. rewrite Forall_forall in H7. specialize (H7 _ Ha). lia.
Qed.
Lemma sum_adj_canonical r : sorted_row r -> canonical_row (sum_adj r).
Proof. destruct r as [|[k v] r]; intros H; [constructor|]. apply suma_canonical, H. Qed.

Lemma at_suma q k v r : sorted_row ((k, v) :: r) -> at_ q (suma k v r) = dup_sum (at_ q ((k, v) :: r)).
Proof.
  revert k v. induction r as [|[k' v'] r IH]; intros k v H; cbn [suma].
  - rewrite at_cons. cbn. destruct (k =? q); reflexivity.
  - unfold sorted_row in H; cbn in H. inversion H; subst. inversion H3; subst.
    destruct (Nat.eqb_spec k' k) as [->|D].
    + rewrite IH.
      * rewrite !at_cons. cbn. destruct (k =? q); cbn; reflexivity.
      * unfold sorted_row; cbn. inversion H2; subst. constructor; assumption.
    + rewrite at_cons, IH by exact H2. rewrite (at_cons q (k, v)). cbn [fst snd].
      destruct (Nat.eqb_spec k q) as [->|D2]; [|reflexivity].
      assert (N : at_ q ((k', v') :: r) = []).
      { apply at_not_in. cbn. intros [E|Hi]; [lia|]. apply StronglySorted_inv in H2 as [_ H2]. rewrite Forall_forall in H2.
        specialize (H2 _ Hi). lia. }
      rewrite N. reflexivity.
Qed.
Lemma at_sum_adj q r : sorted_row r -> at_ q (sum_adj r) = dup_sum (at_ q r).
Proof. destruct r as [|[k v] r]; intros H; [reflexivity|]. apply at_suma, H. Qed.
Lemma suma_id k v r : canonical_row ((k, v) :: r) -> suma k v r = (k, v) :: r.
Proof.
  revert k v. induction r as [|[k' v'] r IH]; intros k v H; cbn; [reflexivity|].
  unfold canonical_row in H; cbn in H. inversion H; subst. inversion H3; subst.
  destruct (Nat.eqb_spec k' k); [lia|]. f_equal. apply IH. exact H2.
Qed.
Lemma sum_adj_id r : canonical_row r -> sum_adj r = r.
Proof. destruct r as [|[k v] r]; intros H; [reflexivity|]. apply suma_id, H. Qed.

(** canonical form of a row *)
Definition canon r := sum_adj (sortn r).
Lemma canon_canonical r : canonical_row (canon r).
Proof. apply sum_adj_canonical, sortn_sorted. Qed.
Lemma at_canon q r : at_ q (canon r) = dup_sum (at_ q r).
Proof. unfold canon. rewrite at_sum_adj by apply sortn_sorted. rewrite at_sortn. reflexivity. Qed.
Lemma canon_id r : canonical_row r -> canon r = r.
Proof. intros H. unfold canon. rewrite sortn_id by (apply canonical_sorted, H). apply sum_adj_id, H. Qed.

(** generic compaction of the rows by a function [g] that reads left to right *)
Variable g : list (nat * T) -> list (nat * T).
Hypothesis g_nil : g [] = [].
Hypothesis g_len : forall r, length (g r) <= length r.
Hypothesis g_keys : forall r, incl (map fst (g r)) (map fst r).

Lemma concat_g_len (pre : list (list (nat * T))) : length (concat (map g pre)) <= length (concat pre).
Proof. induction pre as [|r pre IH]; [reflexivity|]. cbn. rewrite !app_length. specialize (g_len r). lia. Qed.

(** state before row [length pre] *)
Definition cstate (p0 j0 : list Z) (x0 : list T) (pre : list (list (nat * T))) (p j : list Z) (x : list T) (nnz row_end : nat) : Prop :=
  length p = length p0 /\ length j = length j0 /\ length x = length x0 /\
  row_end = length (concat pre) /\ nnz = length (concat (map g pre)) /\
  bptr p (map g pre) /\ (forall k, length pre < k -> nth_error p k = nth_error p0 k) /\
  bdat j x (concat (map g pre)) /\
  (forall t, row_end <= t -> vget j t = vget j0 t) /\ (forall t, row_end <= t -> vget x t = vget x0 t).

Lemma cstate_init I c p0 j0 x0 R : crep I c p0 j0 x0 R -> cstate p0 j0 x0 [] p0 j0 x0 0 0.
Proof.
  intros H. unfold cstate. sp; auto; [|apply bdat_nil].
  apply bptr_nil. apply (cr_ptr _ _ _ _ _ _ H [] R eq_refl).
Qed.

(** state inside a row: [c] consumed, [o] emitted, positions [jj] and [nnz] *)
Definition rstate (j0 : list Z) (x0 : list T) (pre : list (list (nat * T))) r o d (jj : nat) (j : list Z) (x : list T) (nnz : nat) : Prop :=
  length j = length j0 /\ length x = length x0 /\
  jj + length d = length (concat pre) + length r /\
  nnz = length (concat (map g pre)) + length o /\ nnz <= jj /\
  bdat j x (concat (map g pre) ++ o) /\
  (forall t, jj <= t -> vget j t = vget j0 t) /\ (forall t, jj <= t -> vget x t = vget x0 t).

Lemma rstate_init p0 j0 x0 pre p j x nnz row_end r :
  cstate p0 j0 x0 pre p j x nnz row_end -> rstate j0 x0 pre r [] r row_end j x nnz.
Proof.
  intros (_ & Lj & Lx & -> & -> & _ & _ & Hd & Hj & Hx).
  unfold rstate. sp; auto; try (cbn; lia); try (apply concat_g_len).
  rewrite app_nil_r. exact Hd.
Qed.

Lemma rstate_emit j0 x0 pre r o d jj j x nnz k v d' jj' :
  rstate j0 x0 pre r o d jj j x nnz ->
  length d' < length d -> jj' + length d' = jj + length d ->
  nnz < length j -> nnz < length x ->
  rstate j0 x0 pre r (o ++ [(k, v)]) d' jj' (upd j nnz (Z.of_nat k)) (upd x nnz v) (nnz + 1).
Proof.
  intros (Lj & Lx & Hjj & -> & Hle & Hd & Hj & Hx) Hl1 Hl2 H1 H2.
  unfold rstate. rewrite !upd_length, app_length. cbn [length].
  assert (jj < jj') by lia.
  split; [assumption|]. split; [assumption|]. split; [lia|]. split; [lia|]. split; [lia|]. split.
  - rewrite app_assoc. pose proof (bdat_push _ _ _ k v Hd) as G. rewrite app_length in G. apply G; assumption.
  - split; intros t Ht; rewrite vget_upd_ne by lia; [apply Hj|apply Hx]; lia.
Qed.

Lemma rstate_skip j0 x0 pre r o d jj j x nnz d' jj' :
  rstate j0 x0 pre r o d jj j x nnz -> length d' <= length d -> jj' + length d' = jj + length d ->
  rstate j0 x0 pre r o d' jj' j x nnz.
Proof.
  intros (Lj & Lx & Hjj & -> & Hle & Hd & Hj & Hx) Hl1 Hl2.
  unfold rstate. sp; auto; try lia; intros t Ht; [apply Hj|apply Hx]; lia.
Qed.

Lemma cstate_next I c p0 j0 x0 R pre r post p j x nnz0 re0 jj j' x' nnz :
  crep I c p0 j0 x0 R -> R = pre ++ r :: post ->
  cstate p0 j0 x0 pre p j x nnz0 re0 ->
  rstate j0 x0 pre r (g r) [] jj j' x' nnz ->
  (Z.of_nat nnz <= imax I)%Z /\ length pre + 1 < length p /\
  cstate p0 j0 x0 (pre ++ [r]) (upd p (length pre + 1) (Z.of_nat nnz)) j' x' nnz (length (concat pre) + length r).
Proof.
  intros H ER (Lp & _ & _ & -> & -> & Hp & Hp2 & _ & _ & _) (Lj & Lx & Hjj & -> & Hle & Hd & Hj & Hx).
  pose proof (cr_len _ _ _ _ _ _ H) as L0. pose proof (cr_fit _ _ _ _ _ _ H) as Hf.
  pose proof (crep_row_le H ER) as Lr. cbn in Hjj. rewrite Nat.add_0_r in Hjj.
  assert (LR : length R = length pre + S (length post)) by (rewrite ER, app_length; reflexivity).
  split; [lia|]. split; [lia|].
  unfold cstate. rewrite upd_length, map_app, !concat_app, !app_length. cbn [map concat length app].
  rewrite !app_nil_r.
  split; [exact Lp|]. split; [exact Lj|]. split; [exact Lx|]. split; [reflexivity|]. split; [reflexivity|].
  replace (length pre + 1) with (S (length (map g pre))) by (rewrite map_length; lia).
  split; [apply bptr_push; [exact Hp|rewrite map_length; lia|reflexivity]|].
  split.
  - intros k Hk. rewrite nth_error_upd. rewrite map_length in *. destruct (Nat.eqb_spec k (S (length pre))); [lia|].
    cbn. apply Hp2. lia.
  - split; [exact Hd|]. split; intros t Ht; [apply Hj|apply Hx]; lia.
Qed.

Lemma cstate_crep I c p0 j0 x0 R p j x nnz re : crep I c p0 j0 x0 R ->
  cstate p0 j0 x0 R p j x nnz re -> crep I c p j x (map g R).
Proof.
  intros H (Lp & _ & _ & _ & _ & Hp & _ & Hd & _ & _).
  constructor.
  - rewrite Lp, map_length. apply (cr_len _ _ _ _ _ _ H).
  - exact Hp.
  - exact Hd.
  - pose proof (cr_idx _ _ _ _ _ _ H) as F. rewrite Forall_forall in *. intros e He.
    apply in_concat in He as (s & Hs & He). apply in_map_iff in Hs as (r & <- & Hr).
    apply (in_map fst) in He. apply g_keys in He. apply in_map_iff in He as (e' & <- & He').
    apply (F e'). apply in_concat. exists r. auto.
  - pose proof (cr_fit _ _ _ _ _ _ H). pose proof (concat_g_len R). lia.
Qed.
End Compact.

Section CompactKernels.
Context {T : Type} {SC : Scalar T}.

(** read the next entry of the row *)
Lemma rstate_read (g : list (nat * T) -> list (nat * T)) I c p0 j0 x0 R pre r post o d0 e d jj j x nnz :
  crep I c p0 j0 x0 R -> R = pre ++ r :: post -> r = d0 ++ e :: d ->
  rstate g j0 x0 pre r o (e :: d) jj j x nnz ->
  jj = length (concat pre) + length d0 /\
  vget j jj = Ok (Z.of_nat (fst e)) /\ vget x jj = Ok (snd e) /\ nnz < length j /\ nnz < length x.
Proof.
  intros H ER Er (Lj & Lx & Hjj & -> & Hle & Hd & Hj & Hx).
  assert (Ejj : jj = length (concat pre) + length d0).
  { rewrite Er in Hjj. rewrite app_length in Hjj. cbn in Hjj. lia. }
  split; [exact Ejj|]. rewrite Hj, Hx by lia. rewrite Ejj.
  rewrite (crep_vj H ER Er), (crep_vx H ER Er). split; [reflexivity|]. split; [reflexivity|].
  rewrite Lj, Lx.
  pose proof (crep_row_le H ER) as Lr. pose proof (bdat_len_j _ _ _ (cr_dat _ _ _ _ _ _ H)).
  pose proof (bdat_len_x _ _ _ (cr_dat _ _ _ _ _ _ H)).
  assert (length d0 < length r) by (rewrite Er, app_length; cbn; lia). lia.
Qed.

Lemma sum_duplicates_spec I n c p j (x : list T) R : crep I c p j x R -> length R = n ->
  wp (csr_sum_duplicates I n c p j x) (fun '(p', j', x') =>
    crep I c p' j' x' (map sum_adj R) /\ length j' = length j /\ length x' = length x).
Proof.
  intros H Ln. unfold csr_sum_duplicates. apply wp_bind.
  eapply (wp_for_list (fun pre '(p', j', x', nnz, re) => cstate sum_adj p j x pre p' j' x' nnz re) R);
    [exact (eq_sym Ln)| | |].
  - eapply cstate_init; exact H.
  - intros pre r post [[[[p1 j1] x1] nnz] re] ER Hc. cbn [plus].
    assert (Hend : pget p1 (length pre + 1) = Ok (length (concat pre) + length r)).
    { destruct Hc as (_ & _ & _ & _ & _ & _ & Hp2 & _). pose proof (crep_end H ER) as G.
      unfold pget, vget in *. rewrite Hp2 by lia. exact G. }
    rewrite Hend. cbn [bind]. apply wp_bind.
    eapply (wp_while (fun '(jj, j2, x2, nnz2) => exists d0 d o, r = d0 ++ d /\ sum_adj r = o ++ sum_adj d /\
        rstate sum_adj j x pre r o d jj j2 x2 nnz2)
      (fun '(jj, _, _, _) => length (concat pre) + length r - jj)).
    + lia.
    + exists [], r, []. split; [reflexivity|]. split; [reflexivity|].
      eapply rstate_init; [apply sum_adj_length|exact Hc].
    + intros [[[jj j2] x2] nnz2] (d0 & d & o & Er & Es & Hr).
      apply wp_ok. destruct d as [|[k v] d].
      { assert (Hjj : jj = length (concat pre) + length r) by (destruct Hr as (_ & _ & Hjj & _); cbn in Hjj; lia).
        rewrite Hjj, Nat.ltb_irrefl. cbv beta iota. cbn in Es. rewrite app_nil_r in Es.
        rewrite <- Es in Hr.
        edestruct (cstate_next sum_adj) as (G1 & G2 & G3); [exact H|exact ER|exact Hc|exact Hr|].
        rewrite ifrom_ok by exact G1. cbn [bind]. rewrite vset_ok by exact G2. cbn [bind]. apply wp_ok. exact G3. }
      destruct (rstate_read _ _ _ _ _ _ _ _ _ _ _ _ _ _ _ _ _ _ H ER Er Hr) as (Ejj & G1 & G2 & G3 & G4).
      assert (Hlr : length r = length d0 + S (length d)) by (rewrite Er, app_length; reflexivity).
      destruct (Nat.ltb_spec jj (length (concat pre) + length r)); [|lia].
      rewrite G1. cbn [bind]. rewrite G2. cbn [bind fst snd].
      apply wp_bind.
      eapply (wp_while (fun '(jj', x') => exists e f, d = e ++ f /\ jj' = jj + 1 + length e /\
          sum_adj ((k, v) :: d) = suma k x' f)
        (fun '(jj', _) => length (concat pre) + length r - jj')).
      * lia.
      * exists [], d. split; [reflexivity|]. split; [cbn; lia|reflexivity].
      * intros [jj' x'] (e & f & Ed & Ejj' & Ef).
        assert (Hld : length d = length e + length f) by (rewrite Ed, app_length; reflexivity).
        destruct f as [|[k' v'] f].
        { destruct (Nat.ltb_spec jj' (length (concat pre) + length r)); [cbn in Hld; lia|].
          apply wp_ok. rewrite vset_ok by exact G3. cbn [bind]. rewrite vset_ok by exact G4. cbn [bind]. apply wp_ok.
          split; [|cbn in Hld; lia].
          exists r, [], (o ++ [(k, x')]). split; [symmetry; apply app_nil_r|]. split.
          { rewrite Es, Ef. cbn. rewrite app_nil_r. reflexivity. }
          eapply rstate_emit; try eassumption; cbn in *; lia. }
        destruct (Nat.ltb_spec jj' (length (concat pre) + length r)); [|cbn in Hld; lia].
        assert (Er2 : r = (d0 ++ (k, v) :: e) ++ (k', v') :: f) by (rewrite Er, Ed, <- app_assoc; reflexivity).
        assert (Ejj2 : jj' = length (concat pre) + length (d0 ++ (k, v) :: e)) by (rewrite app_length; cbn; lia).
        pose proof Hr as Hr0. destruct Hr as (Lj & Lx & _ & Hn & Hle & _ & Hj & Hx).
        rewrite Hj by lia. rewrite Ejj2 at 1. rewrite (crep_vj H ER Er2). cbn [bind fst].
        apply wp_ok. destruct (Z.eqb_spec (Z.of_nat k') (Z.of_nat k)) as [Ek|Ek].
        -- rewrite Hx by lia. rewrite Ejj2 at 1. rewrite (crep_vx H ER Er2). cbn [bind snd]. apply wp_ok.
           split; [|lia]. exists (e ++ [(k', v')]), f. rewrite <- app_assoc, app_length. cbn [length].
           split; [exact Ed|]. split; [lia|]. rewrite Ef. cbn.
           destruct (Nat.eqb_spec k' k); [reflexivity|lia].
        -- rewrite vset_ok by exact G3. cbn [bind]. rewrite vset_ok by exact G4. cbn [bind]. apply wp_ok.
           split; [|lia]. exists (d0 ++ (k, v) :: e), ((k', v') :: f), (o ++ [(k, x')]). split; [exact Er2|]. split.
           { rewrite Es, Ef, <- app_assoc. cbn. destruct (Nat.eqb_spec k' k); [lia|reflexivity]. }
           eapply rstate_emit with (d := (k, v) :: d) (jj := jj).
           ++ exact Hr0.
           ++ cbn in *; lia.
           ++ cbn in *; lia.
           ++ exact G3.
           ++ exact G4.
  - intros [[[[p1 j1] x1] nnz] re] Hc. cbv beta iota. apply wp_ok.
    split; [|destruct Hc as (_ & Lj & Lx & _); auto].
    eapply cstate_crep; [apply sum_adj_length|apply sum_adj_keys|exact H|exact Hc].
Qed.

Lemma filter_length_le {A} (f : A -> bool) l : length (filter f l) <= length l.
Proof. induction l as [|a l IH]; cbn; [lia|]. destruct (f a); cbn; lia. Qed.

Definition nzrow (r : list (nat * T)) := filter (fun e => negb (seqb (snd e) s0)) r.
Lemma nzrow_keys r : incl (map fst (nzrow r)) (map fst r).
Proof.
  intros k Hk. apply in_map_iff in Hk as (e & <- & He). apply filter_In in He as [He _]. apply in_map, He.
Qed.

Lemma eliminate_zeros_spec I n c p j (x : list T) R : crep I c p j x R -> length R = n ->
  wp (csr_eliminate_zeros I n c p j x) (fun '(p', j', x') =>
    crep I c p' j' x' (map nzrow R) /\ length j' = length j /\ length x' = length x).
Proof.
  intros H Ln. unfold csr_eliminate_zeros. apply wp_bind.
  eapply (wp_for_list (fun pre '(p', j', x', nnz, re) => cstate nzrow p j x pre p' j' x' nnz re) R);
    [exact (eq_sym Ln)| | |].
  - eapply cstate_init; exact H.
  - intros pre r post [[[[p1 j1] x1] nnz] re] ER Hc. cbn [plus].
    assert (Hend : pget p1 (length pre + 1) = Ok (length (concat pre) + length r)).
    { destruct Hc as (_ & _ & _ & _ & _ & _ & Hp2 & _). pose proof (crep_end H ER) as G.
      unfold pget, vget in *. rewrite Hp2 by lia. exact G. }
    assert (Hre : re = length (concat pre)) by apply Hc.
    rewrite Hend. cbn [bind]. apply wp_bind.
    eapply (wp_while (fun '(jj, j2, x2, nnz2) => exists d0 d o, r = d0 ++ d /\ nzrow r = o ++ nzrow d /\
        rstate nzrow j x pre r o d jj j2 x2 nnz2)
      (fun '(jj, _, _, _) => length (concat pre) + length r - jj)).
    + lia.
    + exists [], r, []. split; [reflexivity|]. split; [reflexivity|].
      eapply rstate_init; [intros; apply filter_length_le|exact Hc].
    + intros [[[jj j2] x2] nnz2] (d0 & d & o & Er & Es & Hr).
      apply wp_ok. destruct d as [|[k v] d].
      { assert (Hjj : jj = length (concat pre) + length r) by (destruct Hr as (_ & _ & Hjj & _); cbn in Hjj; lia).
        rewrite Hjj, Nat.ltb_irrefl. cbv beta iota. cbn in Es. rewrite app_nil_r in Es.
        rewrite <- Es in Hr.
        edestruct (cstate_next nzrow) as (G1 & G2 & G3); [exact H|exact ER|exact Hc|exact Hr|].
        rewrite ifrom_ok by exact G1. cbn [bind]. rewrite vset_ok by exact G2. cbn [bind]. apply wp_ok. exact G3. }
      destruct (rstate_read _ _ _ _ _ _ _ _ _ _ _ _ _ _ _ _ _ _ H ER Er Hr) as (Ejj & G1 & G2 & G3 & G4).
      assert (Hlr : length r = length d0 + S (length d)) by (rewrite Er, app_length; reflexivity).
      destruct (Nat.ltb_spec jj (length (concat pre) + length r)); [|lia].
      rewrite G1. cbn [bind]. rewrite G2. cbn [bind fst snd].
      assert (Er2 : r = (d0 ++ [(k, v)]) ++ d) by (rewrite Er, <- app_assoc; reflexivity).
      cbn in Es. destruct (negb (seqb v s0)).
      * rewrite vset_ok by exact G3. cbn [bind]. rewrite vset_ok by exact G4. cbn [bind]. apply wp_ok.
        split; [|lia]. exists (d0 ++ [(k, v)]), d, (o ++ [(k, v)]). split; [exact Er2|].
        split; [rewrite <- app_assoc; exact Es|].
        eapply rstate_emit; [exact Hr| | | |]; try assumption; cbn; lia.
      * apply wp_ok. split; [|lia]. exists (d0 ++ [(k, v)]), d, o. split; [exact Er2|].
        split; [exact Es|]. eapply rstate_skip; [exact Hr| |]; cbn; lia.
  - intros [[[[p1 j1] x1] nnz] re] Hc. cbv beta iota. apply wp_ok.
    split; [|destruct Hc as (_ & Lj & Lx & _); auto].
    eapply cstate_crep; [intros; apply filter_length_le|apply nzrow_keys|exact H|exact Hc].
Qed.
End CompactKernels.
