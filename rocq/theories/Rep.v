(** Compressed arrays as lists of rows; lemmas to read and to build such arrays. *)
From Verif Require Import Rust Scalar Model_kernels Model_matrix Spec Wp.

Lemma nth_split_app {A} (l : list A) i d : i < length l ->
  exists pre post, l = pre ++ nth i l d :: post /\ length pre = i.
Proof.
  intros H. destruct (nth_split l d H) as (l1 & l2 & E & L). exists l1, l2. auto.
Qed.

Lemma nth_middle_len {A} (pre : list A) a post i d : i = length pre -> nth i (pre ++ a :: post) d = a.
Proof. intros ->. apply nth_middle. Qed.

Lemma app_snoc_inv {A} (l : list A) a pre post : l ++ [a] = pre ++ post ->
  (post = [] /\ pre = l ++ [a]) \/ (exists post', post = post' ++ [a] /\ l = pre ++ post').
Proof.
  revert pre. induction l as [|b l IH]; intros pre E; cbn in E.
  - destruct pre as [|c pre]; cbn in E.
    + right. exists []. subst; auto.
    + left. injection E as <- E. destruct pre; [|discriminate]. cbn in E. subst. auto.
  - destruct pre as [|c pre]; cbn in E.
    + right. exists (b :: l). subst; auto.
    + injection E as <- E. destruct (IH _ E) as [[-> ->]|(post' & -> & ->)].
      * left; auto.
      * right; exists post'; auto.
Qed.

Section At.
Context {T : Type}.
Implicit Types (r : list (nat * T)).

Lemma at_nil k : at_ (T := T) k [] = [].
Proof. reflexivity. Qed.
Lemma at_app k r1 r2 : at_ k (r1 ++ r2) = at_ k r1 ++ at_ k r2.
Proof. unfold at_. rewrite filter_app, map_app. reflexivity. Qed.
Lemma at_cons k e r : at_ k (e :: r) = (if fst e =? k then [snd e] else []) ++ at_ k r.
Proof. unfold at_. cbn. destruct (fst e =? k); reflexivity. Qed.
Lemma at_snoc k r e : at_ k (r ++ [e]) = at_ k r ++ (if fst e =? k then [snd e] else []).
Proof. rewrite at_app, at_cons, at_nil, app_nil_r. reflexivity. Qed.
Lemma at_not_in k r : ~ In k (map fst r) -> at_ k r = [].
Proof.
  induction r as [|e r IH]; intros H; [reflexivity|]. rewrite at_cons. cbn in H.
  destruct (Nat.eqb_spec (fst e) k); [tauto|]. cbn. apply IH. tauto.
Qed.
Lemma at_nil_iff k r : at_ k r = [] <-> ~ In k (map fst r).
Proof.
  split; [|apply at_not_in]. induction r as [|e r IH]; intros H; [cbn; tauto|].
  rewrite at_cons in H. destruct (Nat.eqb_spec (fst e) k); [discriminate|]. cbn in *. tauto.
Qed.
Lemma at_length k r : length (at_ k r) = count_occ Nat.eq_dec (map fst r) k.
Proof.
  induction r as [|e r IH]; [reflexivity|]. rewrite at_cons, app_length, IH. cbn.
  destruct (Nat.eqb_spec (fst e) k); destruct (Nat.eq_dec (fst e) k); cbn; lia.
Qed.
Lemma at_nodup k v r : nodup_row r -> In (k, v) r -> at_ k r = [v].
Proof.
  induction r as [|e r IH]; intros H; [intros []|]. unfold nodup_row in H; cbn in H. inversion H; subst.
  intros [->|Hi]; rewrite at_cons; cbn.
  - rewrite Nat.eqb_refl. cbn. rewrite at_not_in by assumption. reflexivity.
  - destruct (Nat.eqb_spec (fst e) k) as [E|E].
    + exfalso. subst. apply H2. apply (in_map fst) in Hi. exact Hi.
    + cbn. apply IH; assumption.
Qed.
Lemma at_in k v r : In v (at_ k r) <-> In (k, v) r.
Proof.
  unfold at_. rewrite in_map_iff. split.
  - intros ([k' v'] & E & H). cbn in E. subst. apply filter_In in H as [H E]. cbn in E.
    apply Nat.eqb_eq in E. subst. exact H.
  - intros H. exists (k, v). split; [reflexivity|]. apply filter_In. cbn. rewrite Nat.eqb_refl. auto.
Qed.
End At.

Section Rep.
Context {T : Type}.
Implicit Types (R : list (list (nat * T))) (p j : list Z) (x : list T).

(** pointers of the rows built so far *)
Definition bptr p R : Prop :=
  forall pre post, R = pre ++ post -> nth_error p (length pre) = Some (Z.of_nat (length (concat pre))).
(** the entries written so far *)
Definition bdat j x (L : list (nat * T)) : Prop :=
  firstn (length L) j = map (fun e => Z.of_nat (fst e)) L /\ firstn (length L) x = map snd L.

Record crep (I : ity) (c : nat) p j x R : Prop := {
  cr_len : length p = S (length R);
  cr_ptr : bptr p R;
  cr_dat : bdat j x (concat R);
  cr_idx : Forall (fun e => fst e < c /\ (Z.of_nat (fst e) <= imax I)%Z) (concat R);
  cr_fit : (Z.of_nat (length (concat R)) <= imax I)%Z }.

Lemma bdat_len_j j x L : bdat j x L -> length L <= length j.
Proof.
  intros [H _]. apply (f_equal (@length _)) in H. rewrite firstn_length, map_length in H. lia.
Qed.
Lemma bdat_len_x j x L : bdat j x L -> length L <= length x.
Proof.
  intros [_ H]. apply (f_equal (@length _)) in H. rewrite firstn_length, map_length in H. lia.
Qed.
Lemma bdat_nil j x : bdat j x [].
Proof. split; reflexivity. Qed.

Lemma bdat_push j x L k v : bdat j x L -> length L < length j -> length L < length x ->
  bdat (upd j (length L) (Z.of_nat k)) (upd x (length L) v) (L ++ [(k, v)]).
Proof.
  intros [Hj Hx] Lj Lx. unfold bdat. rewrite app_length, !map_app. cbn [length map fst snd].
  replace (length L + 1) with (S (length L)) by lia.
  rewrite !firstn_upd_snoc by assumption. rewrite Hj, Hx. auto.
Qed.

Lemma bptr_nil p : nth_error p 0 = Some 0%Z -> bptr p [].
Proof. intros H pre post E. destruct pre; [exact H|discriminate]. Qed.

Lemma bptr_push p R r z : bptr p R -> S (length R) < length p ->
  z = Z.of_nat (length (concat R) + length r) ->
  bptr (upd p (S (length R)) z) (R ++ [r]).
Proof.
  intros H Hl -> pre post E. rewrite nth_error_upd.
  destruct (app_snoc_inv _ _ _ _ E) as [[-> ->]|(post' & -> & E2)].
  - rewrite app_length; cbn [length]. replace (length R + 1) with (S (length R)) by lia.
    rewrite Nat.eqb_refl. apply Nat.ltb_lt in Hl. rewrite Hl. cbn [andb].
    rewrite concat_app, app_length; cbn. rewrite app_nil_r. reflexivity.
  - destruct (Nat.eqb_spec (length pre) (S (length R))) as [E3|E3].
    + subst R. rewrite app_length in E3. lia.
    + cbn. apply (H _ _ E2).
Qed.

(** ** Reading *)

Lemma bptr_start p R pre post : bptr p R -> R = pre ++ post -> pget p (length pre) = Ok (length (concat pre)).
Proof.
  intros H E. unfold pget. rewrite (vget_some _ _ _ (H _ _ E)). cbn. apply to_usize_nat.
Qed.
Lemma bptr_startz p R pre post : bptr p R -> R = pre ++ post ->
  vget p (length pre) = Ok (Z.of_nat (length (concat pre))).
Proof. intros H E. rewrite (vget_some _ _ _ (H _ _ E)). reflexivity. Qed.
Lemma bptr_end p R pre r post : bptr p R -> R = pre ++ r :: post ->
  pget p (length pre + 1) = Ok (length (concat pre) + length r).
Proof.
  intros H E. pose proof (bptr_start p R (pre ++ [r]) post H) as G.
  rewrite <- app_assoc in G. specialize (G E). rewrite app_length, concat_app, app_length in G.
  cbn in G. rewrite app_nil_r in G. exact G.
Qed.
Lemma bptr_endz p R pre r post : bptr p R -> R = pre ++ r :: post ->
  vget p (length pre + 1) = Ok (Z.of_nat (length (concat pre) + length r)).
Proof.
  intros H E. pose proof (bptr_startz p R (pre ++ [r]) post H) as G.
  rewrite <- app_assoc in G. specialize (G E). rewrite app_length, concat_app, app_length in G.
  cbn in G. rewrite app_nil_r in G. exact G.
Qed.

Lemma bdat_vj j x L a e b : bdat j x L -> L = a ++ e :: b -> vget j (length a) = Ok (Z.of_nat (fst e)).
Proof.
  intros [H _] E. apply vget_some.
  assert (nth_error (firstn (length L) j) (length a) = Some (Z.of_nat (fst e))).
  { rewrite H, E, map_app, nth_error_app2; rewrite map_length; [|lia]. rewrite Nat.sub_diag. reflexivity. }
  rewrite <- H0. rewrite <- (firstn_skipn (length L) j) at 1.
  rewrite nth_error_app1; [reflexivity|]. apply nth_error_Some. congruence.
Qed.
Lemma bdat_pj j x L a e b : bdat j x L -> L = a ++ e :: b -> pget j (length a) = Ok (fst e).
Proof. intros H E. unfold pget. rewrite (bdat_vj _ _ _ _ _ _ H E). cbn. apply to_usize_nat. Qed.
Lemma bdat_vx j x L a e b : bdat j x L -> L = a ++ e :: b -> vget x (length a) = Ok (snd e).
Proof.
  intros [_ H] E. apply vget_some.
  assert (nth_error (firstn (length L) x) (length a) = Some (snd e)).
  { rewrite H, E, map_app, nth_error_app2; rewrite map_length; [|lia]. rewrite Nat.sub_diag. reflexivity. }
  rewrite <- H0. rewrite <- (firstn_skipn (length L) x) at 1.
  rewrite nth_error_app1; [reflexivity|]. apply nth_error_Some. congruence.
Qed.

Lemma bdat_pj_nth j x L k m : bdat j x L -> nth_error (map fst L) k = Some m -> pget j k = Ok m.
Proof.
  intros H Hk. rewrite nth_error_map in Hk. destruct (nth_error L k) as [e|] eqn:E; [|discriminate].
  injection Hk as <-. destruct (nth_error_split _ _ E) as (a & b & Ea & <-). exact (bdat_pj _ _ _ _ _ _ H Ea).
Qed.

Lemma concat_split R pre r post ip e iq : R = pre ++ r :: post -> r = ip ++ e :: iq ->
  concat R = (concat pre ++ ip) ++ e :: (iq ++ concat post).
Proof. intros -> ->. rewrite concat_app. cbn. rewrite <- !app_assoc. reflexivity. Qed.

Section Read.
  Context {I : ity} {c : nat} {p j x R} (H : crep I c p j x R).
  Context {pre r post} (E : R = pre ++ r :: post).
  Lemma crep_start : pget p (length pre) = Ok (length (concat pre)).
  Proof. exact (bptr_start _ _ _ _ (cr_ptr _ _ _ _ _ _ H) E). Qed.
  Lemma crep_startz : vget p (length pre) = Ok (Z.of_nat (length (concat pre))).
  Proof. exact (bptr_startz _ _ _ _ (cr_ptr _ _ _ _ _ _ H) E). Qed.
  Lemma crep_end : pget p (length pre + 1) = Ok (length (concat pre) + length r).
  Proof. exact (bptr_end _ _ _ _ _ (cr_ptr _ _ _ _ _ _ H) E). Qed.
  Lemma crep_endz : vget p (length pre + 1) = Ok (Z.of_nat (length (concat pre) + length r)).
  Proof. exact (bptr_endz _ _ _ _ _ (cr_ptr _ _ _ _ _ _ H) E). Qed.
  Lemma crep_row_le : length (concat pre) + length r <= length (concat R).
  Proof. subst R. rewrite concat_app, app_length. cbn. rewrite app_length. lia. Qed.
  Context {ip e iq} (Er : r = ip ++ e :: iq).
  Lemma crep_vj : vget j (length (concat pre) + length ip) = Ok (Z.of_nat (fst e)).
  Proof.
    rewrite <- app_length. exact (bdat_vj _ _ _ _ _ _ (cr_dat _ _ _ _ _ _ H) (concat_split _ _ _ _ _ _ _ E Er)).
  Qed.
  Lemma crep_pj : pget j (length (concat pre) + length ip) = Ok (fst e).
  Proof.
    rewrite <- app_length. exact (bdat_pj _ _ _ _ _ _ (cr_dat _ _ _ _ _ _ H) (concat_split _ _ _ _ _ _ _ E Er)).
  Qed.
  Lemma crep_vx : vget x (length (concat pre) + length ip) = Ok (snd e).
  Proof.
    rewrite <- app_length. exact (bdat_vx _ _ _ _ _ _ (cr_dat _ _ _ _ _ _ H) (concat_split _ _ _ _ _ _ _ E Er)).
  Qed.
  Lemma crep_col : fst e < c /\ (Z.of_nat (fst e) <= imax I)%Z.
  Proof.
    pose proof (cr_idx _ _ _ _ _ _ H) as F. rewrite Forall_forall in F. apply F.
    rewrite (concat_split _ _ _ _ _ _ _ E Er). apply in_or_app. right. left. reflexivity.
  Qed.
End Read.

(** ** From and to well-formed arrays *)

Lemma part_nil {A} s e (l : list A) : e <= s -> part s e l = [].
Proof. intros H. unfold part. replace (e - s) with 0 by lia. reflexivity. Qed.
Lemma firstn_part {A} s e (l : list A) : s <= e -> firstn e l = firstn s l ++ part s e l.
Proof.
  intros H. unfold part. rewrite <- (firstn_skipn s (firstn e l)), firstn_firstn, Nat.min_l by exact H.
  f_equal. rewrite skipn_firstn_comm. reflexivity.
Qed.
Lemma combine_app {A B} (a1 a2 : list A) (b1 b2 : list B) : length a1 = length b1 ->
  combine (a1 ++ a2) (b1 ++ b2) = combine a1 b1 ++ combine a2 b2.
Proof. revert b1. induction a1; intros [|b b1] H; cbn in *; try lia; auto. rewrite IHa1 by lia. reflexivity. Qed.
Lemma firstn_combine {A B} n (a : list A) (b : list B) :
  firstn n (combine a b) = combine (firstn n a) (firstn n b).
Proof. revert a b. induction n; intros [|? a] [|? b]; cbn; auto. rewrite IHn. reflexivity. Qed.
Lemma map_fst_combine {A B} (a : list A) (b : list B) : length a = length b -> map fst (combine a b) = a.
Proof. revert b. induction a; intros [|? b] H; cbn in *; try lia; auto. rewrite IHa by lia. reflexivity. Qed.
Lemma map_snd_combine {A B} (a : list A) (b : list B) : length a = length b -> map snd (combine a b) = b.
Proof. revert b. induction a; intros [|? b] H; cbn in *; try lia; auto. rewrite IHa by lia. reflexivity. Qed.
Lemma combine_fst_snd {A B} (l : list (A * B)) : combine (map fst l) (map snd l) = l.
Proof. induction l as [|[a b] l IH]; cbn; [|rewrite IH]; reflexivity. Qed.

Lemma crep_wf I c p j x R : crep I c p j x R -> wf_arrays I (length R) c p j x.
Proof.
  intros H. destruct (H) as [Hl Hp Hd Hi Hf].
  assert (P : forall k, k <= length R -> nth k p 0%Z = Z.of_nat (length (concat (firstn k R)))).
  { intros k Hk. pose proof (Hp (firstn k R) (skipn k R) (eq_sym (firstn_skipn _ _))) as G.
    rewrite firstn_length, Nat.min_l in G by exact Hk. apply (nth_error_nth _ _ 0%Z G). }
  assert (Pn : ptr p (length R) = length (concat R)).
  { unfold ptr. rewrite P by lia. rewrite firstn_all. apply Nat2Z.id. }
  constructor.
  - lia.
  - rewrite P by lia. reflexivity.
  - intros i Hi2. rewrite !P by lia.
    destruct (nth_split_app R i [] Hi2) as (pre & post & E & L).
    rewrite E. replace (S i) with (length (pre ++ [nth i R []])) by (rewrite app_length; cbn; lia).
    rewrite <- L at 1. rewrite firstn_app_exact by reflexivity.
    change (nth i R [] :: post) with ([nth i R []] ++ post). rewrite app_assoc.
    rewrite firstn_app_exact by reflexivity. rewrite concat_app, app_length. lia.
  - rewrite Pn. apply (bdat_len_j _ _ _ Hd).
  - rewrite Pn. apply (bdat_len_x _ _ _ Hd).
  - intros k Hk. rewrite Pn in Hk.
    destruct (concat R) as [|d L0] eqn:EL; [cbn in Hk; lia|]. rewrite <- EL in *.
    destruct (nth_split_app (concat R) k d Hk) as (a & b & E & L).
    pose proof (bdat_vj _ _ _ _ _ _ Hd E) as G. apply vget_inv in G.
    rewrite L in G. rewrite (nth_error_nth _ _ 0%Z G).
    rewrite Forall_forall in Hi. specialize (Hi (nth k (concat R) d) ltac:(apply nth_In, Hk)).
    cbn in Hi. lia.
  - rewrite Pn. exact Hf.
Qed.

Lemma crep_ptr I c p j x R : crep I c p j x R -> ptr p (length R) = length (concat R).
Proof.
  intros H. pose proof (cr_ptr _ _ _ _ _ _ H R [] (eq_sym (app_nil_r R))) as G.
  unfold ptr. rewrite (nth_error_nth _ _ 0%Z G). apply Nat2Z.id.
Qed.

Lemma crep_crow I c p j x R i : crep I c p j x R -> crow p j x i = nth i R [].
Proof.
  intros H. pose proof (crep_ptr _ _ _ _ _ _ H) as HN. destruct (Nat.lt_ge_cases i (length R)) as [Hi|Hi].
  - destruct (nth_split_app R i [] Hi) as (pre & post & E & L). set (r := nth i R []) in *.
    assert (P1 : ptr p i = length (concat pre)).
    { pose proof (crep_startz H E) as G. apply vget_inv in G. unfold ptr. rewrite <- L.
      rewrite (nth_error_nth _ _ 0%Z G). apply Nat2Z.id. }
    assert (P2 : ptr p (S i) = length (concat pre) + length r).
    { pose proof (crep_endz H E) as G. apply vget_inv in G. unfold ptr.
      replace (S i) with (length pre + 1) by lia.
      rewrite (nth_error_nth _ _ 0%Z G). apply Nat2Z.id. }
    unfold crow. rewrite P1, P2. unfold part.
    replace (length (concat pre) + length r - length (concat pre)) with (length r) by lia.
    destruct (cr_dat _ _ _ _ _ _ H) as [Hj Hx].
    assert (EC : concat R = concat pre ++ r ++ concat post).
    { rewrite E, concat_app. reflexivity. }
    rewrite EC, !map_app in Hj, Hx.
    assert (Gj : firstn (length r) (skipn (length (concat pre)) j) = map (fun e => Z.of_nat (fst e)) r).
    { rewrite <- (firstn_skipn (length (concat pre ++ r ++ concat post)) j), Hj, <- !app_assoc.
      rewrite skipn_app_exact by (rewrite map_length; reflexivity).
      apply firstn_app_exact. rewrite map_length. reflexivity. }
    assert (Gx : firstn (length r) (skipn (length (concat pre)) x) = map snd r).
    { rewrite <- (firstn_skipn (length (concat pre ++ r ++ concat post)) x), Hx, <- !app_assoc.
      rewrite skipn_app_exact by (rewrite map_length; reflexivity).
      apply firstn_app_exact. rewrite map_length. reflexivity. }
    rewrite Gj, Gx, map_map.
    replace (map (fun y => Z.to_nat (Z.of_nat (fst y))) r) with (map fst r)
      by (apply map_ext; intros; rewrite Nat2Z.id; reflexivity).
    apply combine_fst_snd.
  - rewrite (nth_overflow R) by exact Hi. unfold crow.
    assert (ptr p (S i) = 0) as ->.
    { unfold ptr. rewrite nth_overflow; [reflexivity|]. rewrite (cr_len _ _ _ _ _ _ H). lia. }
    rewrite part_nil by lia. reflexivity.
Qed.

Lemma crep_of_wf I n c p j x : wf_arrays I n c p j x ->
  let R := map (crow p j x) (seq 0 n) in length R = n /\ crep I c p j x R.
Proof.
  intros [Hl H0 Hm Hj Hx Hi Hf] R.
  assert (LR : length R = n) by (unfold R; rewrite map_length, seq_length; reflexivity).
  assert (Pos : forall k, k <= n -> (0 <= nth k p 0)%Z).
  { induction k; intros; [lia|]. specialize (Hm k ltac:(lia)). specialize (IHk ltac:(lia)). lia. }
  assert (Mono : forall k, k < n -> ptr p k <= ptr p (S k)).
  { intros k Hk. unfold ptr. specialize (Hm k Hk). lia. }
  assert (Up : forall k, k <= n -> ptr p k <= ptr p n).
  { intros k Hk. remember (n - k) as d. revert k Hk Heqd. induction d; intros.
    - replace k with n by lia. lia.
    - specialize (Mono k ltac:(lia)). specialize (IHd (S k) ltac:(lia) ltac:(lia)). lia. }
  assert (G : forall k, k <= n -> concat (map (crow p j x) (seq 0 k)) =
              combine (map Z.to_nat (firstn (ptr p k) j)) (firstn (ptr p k) x)).
  { induction k as [|k IH]; intros Hk.
    - unfold ptr. rewrite H0. reflexivity.
    - rewrite seq_S, map_app, concat_app, IH by lia. cbn. rewrite app_nil_r.
      rewrite (firstn_part (ptr p k) (ptr p (S k)) j), (firstn_part (ptr p k) (ptr p (S k)) x) by (apply Mono; lia).
      rewrite map_app, combine_app; [reflexivity|].
      specialize (Up k ltac:(lia)). rewrite map_length, !firstn_length. lia. }
  assert (Len : forall k, k <= n -> length (concat (map (crow p j x) (seq 0 k))) = ptr p k).
  { intros k Hk. rewrite G by exact Hk. specialize (Up k Hk).
    rewrite combine_length, map_length, !firstn_length. lia. }
  split; [exact LR|]. constructor.
  - lia.
  - intros pre post E.
    assert (Lp : length pre <= n) by (rewrite <- LR, E, app_length; lia).
    assert (Ep : pre = map (crow p j x) (seq 0 (length pre))).
    { pose proof (f_equal (firstn (length pre)) E) as E2. rewrite firstn_app_exact in E2 by reflexivity.
      transitivity (firstn (length pre) R); [auto|]. unfold R. rewrite firstn_map. f_equal.
      replace n with (length pre + (n - length pre)) at 1 by lia. rewrite seq_app.
      apply firstn_app_exact. rewrite seq_length. reflexivity. }
    rewrite Ep at 2. rewrite Len by exact Lp. unfold ptr. rewrite Z2Nat.id by (apply Pos; exact Lp).
    apply nth_error_nth'. lia.
  - unfold bdat, R. rewrite Len by lia. rewrite G by lia.
    assert (LE : length (map Z.to_nat (firstn (ptr p n) j)) = length (firstn (ptr p n) x)).
    { rewrite map_length, !firstn_length. lia. }
    split.
    + transitivity (map Z.of_nat (map fst (combine (map Z.to_nat (firstn (ptr p n) j)) (firstn (ptr p n) x)))).
      2:{ rewrite map_map. reflexivity. }
      rewrite map_fst_combine by exact LE. rewrite map_map.
      rewrite <- (map_id (firstn (ptr p n) j)) at 1. apply map_ext_in. intros z Hz.
      apply (In_nth _ _ 0%Z) in Hz as (k & Hk & <-). rewrite firstn_length in Hk.
      assert (Ek : nth k (firstn (ptr p n) j) 0%Z = nth k j 0%Z).
      { rewrite <- (firstn_skipn (ptr p n) j) at 2. rewrite app_nth1; [reflexivity|]. rewrite firstn_length. lia. }
      rewrite Ek. specialize (Hi k ltac:(lia)). lia.
    + rewrite map_snd_combine by exact LE. reflexivity.
  - unfold R. rewrite G by lia. apply Forall_forall. intros [k v] H. apply in_combine_l in H. cbn.
    apply in_map_iff in H as (z & <- & Hz).
    apply (In_nth _ _ 0%Z) in Hz as (q & Hk & <-). rewrite firstn_length in Hk.
    assert (Ek : nth q (firstn (ptr p n) j) 0%Z = nth q j 0%Z).
    { rewrite <- (firstn_skipn (ptr p n) j) at 2. rewrite app_nth1; [reflexivity|]. rewrite firstn_length. lia. }
    rewrite Ek. specialize (Hi q ltac:(lia)). lia.
  - unfold R. rewrite Len by lia. exact Hf.
Qed.

(** matrix level *)
Definition csr_rep (I : ity) (m : CSR T) R : Prop :=
  length R = csr_rows m /\ crep I (csr_cols m) (csr_rowptr m) (csr_colidx m) (csr_values m) R.
Definition csc_rep (I : ity) (m : CSC T) R : Prop :=
  length R = csc_cols m /\ crep I (csc_rows m) (csc_colptr m) (csc_rowidx m) (csc_values m) R.

Lemma wf_csr_rep I m : wf_csr I m -> exists R, csr_rep I m R.
Proof. intros H. destruct (crep_of_wf _ _ _ _ _ _ H). eexists; split; eassumption. Qed.
Lemma wf_csc_rep I m : wf_csc I m -> exists R, csc_rep I m R.
Proof. intros H. destruct (crep_of_wf _ _ _ _ _ _ H). eexists; split; eassumption. Qed.
Lemma csr_rep_wf I m R : csr_rep I m R -> wf_csr I m.
Proof. intros [L H]. unfold wf_csr. rewrite <- L. apply crep_wf, H. Qed.
Lemma csc_rep_wf I m R : csc_rep I m R -> wf_csc I m.
Proof. intros [L H]. unfold wf_csc. rewrite <- L. apply crep_wf, H. Qed.
Lemma csr_rep_row I m R i : csr_rep I m R -> csr_row m i = nth i R [].
Proof. intros [L H]. apply (crep_crow _ _ _ _ _ _ _ H). Qed.
Lemma csc_rep_col I m R i : csc_rep I m R -> csc_col m i = nth i R [].
Proof. intros [L H]. apply (crep_crow _ _ _ _ _ _ _ H). Qed.
Lemma csr_rep_at I m R i k : csr_rep I m R -> csr_at m i k = at_ k (nth i R []).
Proof. intros H. unfold csr_at. rewrite (csr_rep_row _ _ _ _ H). reflexivity. Qed.
Lemma csc_rep_at I m R i k : csc_rep I m R -> csc_at m i k = at_ i (nth k R []).
Proof. intros H. unfold csc_at. rewrite (csc_rep_col _ _ _ _ H). reflexivity. Qed.
Lemma csr_rep_count I m R : csr_rep I m R -> csr_count m = length (concat R).
Proof. intros [L H]. unfold csr_count. rewrite <- L. apply (crep_ptr _ _ _ _ _ _ H). Qed.
Lemma csc_rep_count I m R : csc_rep I m R -> csc_count m = length (concat R).
Proof. intros [L H]. unfold csc_count. rewrite <- L. apply (crep_ptr _ _ _ _ _ _ H). Qed.
End Rep.
