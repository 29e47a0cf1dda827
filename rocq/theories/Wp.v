(** Proof rules for the monad and the loops. *)
From Verif Require Import Rust.
From Verif Require Export Debug.

(** split conjunctions that are visible as such *)
Ltac sp := repeat match goal with |- _ /\ _ => split end; try reflexivity.

Definition wp {A} (m : res A) (Q : A -> Prop) : Prop := exists a, m = Ok a /\ Q a.

Lemma wp_ok {A} (a : A) (Q : A -> Prop) : Q a -> wp (Ok a) Q.
Proof. exists a; auto. Qed.

Lemma wp_bind {A B} (m : res A) (f : A -> res B) Q :
  wp m (fun a => wp (f a) Q) -> wp (bind m f) Q.
Proof. intros (a & -> & H). exact H. Qed.

Lemma wp_mono {A} (m : res A) (P Q : A -> Prop) :
  wp m P -> (forall a, P a -> Q a) -> wp m Q.
Proof. intros (a & E & H) HQ. exists a; auto. Qed.

Lemma wp_unwrap {A} (m : res A) Q : wp m Q -> wp (unwrap m) Q.
Proof. intros (a & -> & H). exists a; auto. Qed.

Lemma wp_elim {A} (m : res A) Q : wp m Q -> exists a, m = Ok a /\ Q a.
Proof. auto. Qed.

(** ** Loops *)

Lemma for_range_nil {St} lo hi (f : nat -> St -> res St) s : hi <= lo -> for_range lo hi f s = Ok s.
Proof. intros H. unfold for_range. replace (hi - lo) with 0 by lia. reflexivity. Qed.

Lemma for_range_cons {St} lo hi (f : nat -> St -> res St) s :
  lo < hi -> for_range lo hi f s = let* s' := f lo s in for_range (S lo) hi f s'.
Proof.
  intros H. unfold for_range. replace (hi - lo) with (S (hi - S lo)) by lia. reflexivity.
Qed.

Lemma for_range_ext {St} lo hi (f g : nat -> St -> res St) s :
  (forall k s, lo <= k < hi -> f k s = g k s) -> for_range lo hi f s = for_range lo hi g s.
Proof.
  remember (hi - lo) as n eqn:En. revert lo s En.
  induction n as [|n IH]; intros lo s En H.
  - rewrite !for_range_nil by lia; reflexivity.
  - rewrite !for_range_cons by lia. rewrite H by lia.
    destruct (g lo s); cbn; try reflexivity. apply IH; [lia|]. intros; apply H; lia.
Qed.

(** [for] loop running along a list: iteration [lo + length pre] handles the element after [pre] *)
Lemma wp_for_list {A St} (Inv : list A -> St -> Prop) (l : list A) lo hi f (s : St) (Q : St -> Prop) :
  hi = lo + length l ->
  Inv [] s ->
  (forall pre a post s, l = pre ++ a :: post -> Inv pre s ->
     wp (f (lo + length pre) s) (Inv (pre ++ [a]))) ->
  (forall s, Inv l s -> Q s) ->
  wp (for_range lo hi f s) Q.
Proof.
  intros Hhi H0 Hstep HQ.
  assert (G : forall post pre s, l = pre ++ post -> Inv pre s ->
            wp (for_range (lo + length pre) hi f s) (Inv l)).
  { clear H0. induction post as [|a post IH]; intros pre s' E Hs.
    - rewrite for_range_nil. 2:{ subst l hi. rewrite app_nil_r. lia. }
      apply wp_ok. rewrite app_nil_r in E. subst. exact Hs.
    - rewrite for_range_cons.
      2:{ subst l hi. rewrite app_length; cbn. lia. }
      apply wp_bind. eapply wp_mono; [apply (Hstep _ _ _ _ E Hs)|].
      intros s2 H2. replace (S (lo + length pre)) with (lo + length (pre ++ [a]))
        by (rewrite app_length; cbn; lia).
      apply IH; [|exact H2]. rewrite <- app_assoc. exact E. }
  eapply wp_mono; [|exact HQ].
  specialize (G l [] s eq_refl H0). cbn in G. rewrite Nat.add_0_r in G. exact G.
Qed.

(** [for] loop with an invariant on the counter *)
Lemma wp_for {St} (Inv : nat -> St -> Prop) lo hi f (s : St) (Q : St -> Prop) :
  lo <= hi ->
  Inv lo s ->
  (forall k s, lo <= k < hi -> Inv k s -> wp (f k s) (Inv (S k))) ->
  (forall s, Inv hi s -> Q s) ->
  wp (for_range lo hi f s) Q.
Proof.
  intros Hle H0 Hstep HQ.
  eapply (wp_for_list (fun pre => Inv (lo + length pre)) (repeat tt (hi - lo))).
  - rewrite repeat_length. lia.
  - cbn. rewrite Nat.add_0_r. exact H0.
  - intros pre a post s' E Hs. eapply wp_mono.
    + apply Hstep; [|exact Hs].
      assert (length (pre ++ a :: post) = hi - lo) by (rewrite <- E, repeat_length; reflexivity).
      rewrite app_length in *; cbn in *. lia.
    + intros s2 H2. rewrite app_length; cbn.
      replace (lo + (length pre + 1)) with (S (lo + length pre)) by lia. exact H2.
  - intros s'. rewrite repeat_length. replace (lo + (hi - lo)) with hi by lia. apply HQ.
Qed.

Lemma wp_for_each {A St} (Inv : list A -> St -> Prop) (l : list A) f (s : St) (Q : St -> Prop) :
  Inv [] s ->
  (forall pre a post s, l = pre ++ a :: post -> Inv pre s -> wp (f a s) (Inv (pre ++ [a]))) ->
  (forall s, Inv l s -> Q s) ->
  wp (for_each l f s) Q.
Proof.
  intros H0 Hstep HQ.
  assert (G : forall post pre s, l = pre ++ post -> Inv pre s -> wp (for_each post f s) (Inv l)).
  { clear H0. induction post as [|a post IH]; intros pre s' E Hs; cbn.
    - apply wp_ok. rewrite app_nil_r in E. subst. exact Hs.
    - apply wp_bind. eapply wp_mono; [apply (Hstep _ _ _ _ E Hs)|].
      intros s2 H2. apply (IH (pre ++ [a])); [|exact H2]. rewrite <- app_assoc. exact E. }
  eapply wp_mono; [apply (G l []); auto|exact HQ].
Qed.

Lemma wp_for_enum {A St} (Inv : list A -> St -> Prop) (l : list A) k f (s : St) (Q : St -> Prop) :
  Inv [] s ->
  (forall pre a post s, l = pre ++ a :: post -> Inv pre s ->
     wp (f (k + length pre) a s) (Inv (pre ++ [a]))) ->
  (forall s, Inv l s -> Q s) ->
  wp (for_enum k l f s) Q.
Proof.
  intros H0 Hstep HQ.
  assert (G : forall post pre s, l = pre ++ post -> Inv pre s ->
            wp (for_enum (k + length pre) post f s) (Inv l)).
  { clear H0. induction post as [|a post IH]; intros pre s' E Hs; cbn.
    - apply wp_ok. rewrite app_nil_r in E. subst. exact Hs.
    - apply wp_bind. eapply wp_mono; [apply (Hstep _ _ _ _ E Hs)|].
      intros s2 H2. replace (S (k + length pre)) with (k + length (pre ++ [a]))
        by (rewrite app_length; cbn; lia).
      apply IH; [|exact H2]. rewrite <- app_assoc. exact E. }
  eapply wp_mono; [|exact HQ].
  specialize (G l [] s eq_refl H0). cbn in G. rewrite Nat.add_0_r in G. exact G.
Qed.

(** loop with early exit along a list: on [Stop r] the postcondition [P r] of the exit must hold *)
Lemma wp_for_exit_list {A St R} (Inv : list A -> St -> Prop) (P : R -> Prop) (l : list A) lo hi f (s : St) (Q : ctl St R -> Prop) :
  hi = lo + length l ->
  Inv [] s ->
  (forall pre a post s, l = pre ++ a :: post -> Inv pre s ->
     wp (f (lo + length pre) s)
        (fun c => match c with Cont s' => Inv (pre ++ [a]) s' | Stop r => P r end)) ->
  (forall s, Inv l s -> Q (Cont s)) ->
  (forall r, P r -> Q (Stop r)) ->
  wp (for_range_exit lo hi f s) Q.
Proof.
  intros Hhi H0 Hstep HQ HP.
  assert (G : forall post pre s, l = pre ++ post -> Inv pre s ->
            wp (for_n_exit (length post) (lo + length pre) f s)
               (fun c => match c with Cont s' => Inv l s' | Stop r => P r end)).
  { clear H0. induction post as [|a post IH]; intros pre s' E Hs; cbn.
    - apply wp_ok. rewrite app_nil_r in E. subst. exact Hs.
    - apply wp_bind. eapply wp_mono; [apply (Hstep _ _ _ _ E Hs)|].
      intros [s2|r] H2; [|apply wp_ok; exact H2].
      replace (S (lo + length pre)) with (lo + length (pre ++ [a]))
        by (rewrite app_length; cbn; lia).
      apply IH; [|exact H2]. rewrite <- app_assoc. exact E. }
  unfold for_range_exit. replace (hi - lo) with (length l) by lia.
  specialize (G l [] s eq_refl H0). cbn in G. rewrite Nat.add_0_r in G.
  eapply wp_mono; [exact G|]. intros [?|?]; auto.
Qed.

Lemma wp_while {St} (Inv : St -> Prop) (measure : St -> nat) fuel cond body (s : St) (Q : St -> Prop) :
  measure s < fuel ->
  Inv s ->
  (forall s, Inv s -> wp (cond s) (fun b : bool =>
     if b then wp (body s) (fun s' => Inv s' /\ measure s' < measure s) else Q s)) ->
  wp (while fuel cond body s) Q.
Proof.
  intros Hm Hs Hstep. revert s Hm Hs.
  induction fuel as [|k IH]; intros s Hm Hs; [lia|].
  cbn. apply wp_bind. eapply wp_mono; [apply (Hstep s Hs)|].
  intros [|] H; [|apply wp_ok; exact H].
  apply wp_bind. eapply wp_mono; [exact H|]. intros s' [H1 H2]. apply IH; [lia|exact H1].
Qed.

Lemma wp_while_exit {St} (Inv : St -> Prop) (measure : St -> nat) fuel cond body (s : St) (Q : St -> Prop) :
  measure s < fuel ->
  Inv s ->
  (forall s, Inv s -> wp (cond s) (fun b : bool =>
     if b then wp (body s) (fun c => match c with
                  | Cont s' => Inv s' /\ measure s' < measure s
                  | Stop s' => Q s' end) else Q s)) ->
  wp (while_exit fuel cond body s) Q.
Proof.
  intros Hm Hs Hstep. revert s Hm Hs.
  induction fuel as [|k IH]; intros s Hm Hs; [lia|].
  cbn. apply wp_bind. eapply wp_mono; [apply (Hstep s Hs)|].
  intros [|] H; [|apply wp_ok; exact H].
  apply wp_bind. eapply wp_mono; [exact H|].
  intros [s'|s'] H'; [apply IH; [lia|tauto]|apply wp_ok; exact H'].
Qed.

Lemma wp_mapM {A B} (P : A -> B -> Prop) (f : A -> res B) (l : list A) :
  (forall a, In a l -> wp (f a) (P a)) -> wp (mapM f l) (Forall2 P l).
Proof.
  induction l as [|a l IH]; intros H; cbn.
  - apply wp_ok. constructor.
  - apply wp_bind. eapply wp_mono; [apply H; left; reflexivity|]. intros b Hb.
    apply wp_bind. eapply wp_mono; [apply IH; intros; apply H; right; assumption|].
    intros bs Hbs. apply wp_ok. constructor; assumption.
Qed.

Lemma mapM_map {A B} (f : A -> res B) (g : A -> B) l :
  (forall a, In a l -> f a = Ok (g a)) -> mapM f l = Ok (map g l).
Proof.
  induction l as [|a l IH]; intros H; cbn; [reflexivity|].
  rewrite H by (left; reflexivity). cbn. rewrite IH by (intros; apply H; right; assumption). reflexivity.
Qed.

(** ** Vectors and index types *)

Lemma vget_nth {A} (l : list A) i d : i < length l -> vget l i = Ok (nth i l d).
Proof. intros H. unfold vget. rewrite (nth_error_nth' l d H). reflexivity. Qed.

Lemma vget_some {A} (l : list A) i a : nth_error l i = Some a -> vget l i = Ok a.
Proof. intros H. unfold vget. rewrite H. reflexivity. Qed.

Lemma vget_inv {A} (l : list A) i a : vget l i = Ok a -> nth_error l i = Some a.
Proof. unfold vget. destruct (nth_error l i); congruence. Qed.

Lemma vset_ok {A} (l : list A) i a : i < length l -> vset l i a = Ok (upd l i a).
Proof. intros H. unfold vset. apply Nat.ltb_lt in H. rewrite H. reflexivity. Qed.

Lemma upd_length {A} (l : list A) i a : length (upd l i a) = length l.
Proof. revert i. induction l as [|x l IH]; intros [|i]; cbn; auto. Qed.

Lemma nth_error_upd {A} (l : list A) i k a :
  nth_error (upd l i a) k = if (k =? i) && (i <? length l) then Some a else nth_error l k.
Proof.
  revert i k. induction l as [|x l IH]; intros [|i] [|k]; cbn; try reflexivity.
  - rewrite andb_false_r. reflexivity.
  - rewrite IH. reflexivity.
Qed.

Lemma nth_upd {A} (l : list A) i k a d :
  nth k (upd l i a) d = if (k =? i) && (i <? length l) then a else nth k l d.
Proof.
  revert i k. induction l as [|x l IH]; intros [|i] [|k]; cbn; try reflexivity.
  - rewrite andb_false_r. reflexivity.
  - rewrite IH. reflexivity.
Qed.

Lemma nth_upd_eq {A} (l : list A) i a d : i < length l -> nth i (upd l i a) d = a.
Proof. intros H. rewrite nth_upd, Nat.eqb_refl. apply Nat.ltb_lt in H. rewrite H. reflexivity. Qed.

Lemma nth_upd_ne {A} (l : list A) i k a d : k <> i -> nth k (upd l i a) d = nth k l d.
Proof. intros H. rewrite nth_upd. apply Nat.eqb_neq in H. rewrite H. reflexivity. Qed.

Lemma firstn_upd_ge {A} (l : list A) i n a : n <= i -> firstn n (upd l i a) = firstn n l.
Proof.
  revert i n. induction l as [|x l IH]; intros [|i] [|n] H; cbn; try reflexivity; try lia.
  f_equal. apply IH. lia.
Qed.

Lemma skipn_upd_lt {A} (l : list A) i n a : i < n -> skipn n (upd l i a) = skipn n l.
Proof.
  revert i n. induction l as [|x l IH]; intros [|i] [|n] H; cbn; try reflexivity; try lia.
  apply IH. lia.
Qed.

Lemma firstn_upd_snoc {A} (l : list A) i a :
  i < length l -> firstn (S i) (upd l i a) = firstn i l ++ [a].
Proof.
  revert i. induction l as [|x l IH]; intros [|i] H; cbn in *; try reflexivity; try lia.
  f_equal. apply IH. lia.
Qed.

Lemma vset_wp {A} (l : list A) i a (Q : list A -> Prop) : i < length l -> Q (upd l i a) -> wp (vset l i a) Q.
Proof. intros H HQ. rewrite vset_ok by exact H. apply wp_ok. exact HQ. Qed.

Lemma icheck_ok I z : (imin I <= z <= imax I)%Z -> icheck I z = Ok z.
Proof.
  intros [H1 H2]. unfold icheck. apply Z.leb_le in H1, H2. rewrite H1, H2. reflexivity.
Qed.

Lemma icheck_inv I z r : icheck I z = Ok r -> r = z /\ (imin I <= z <= imax I)%Z.
Proof.
  unfold icheck. destruct (_ && _) eqn:E; [|discriminate]. intros [= <-].
  apply andb_true_iff in E. rewrite !Z.leb_le in E. auto.
Qed.

Lemma imin_le_0 I : (imin I <= 0)%Z.
Proof. destruct I; cbn; lia. Qed.
Lemma imax_ge_127 I : (127 <= imax I)%Z.
Proof. destruct I; cbn; lia. Qed.

Lemma ifrom_ok I n : (Z.of_nat n <= imax I)%Z -> ifrom I n = Ok (Z.of_nat n).
Proof. intros H. apply icheck_ok. pose proof (imin_le_0 I). lia. Qed.

Lemma ifrom_panic I n : (imax I < Z.of_nat n)%Z -> ifrom I n = Panic.
Proof.
  intros H. unfold ifrom, icheck. destruct (Z.leb_spec (Z.of_nat n) (imax I)); [lia|].
  rewrite andb_false_r. reflexivity.
Qed.

Lemma iadd_ok I a b : (0 <= a + b <= imax I)%Z -> iadd I a b = Ok (a + b)%Z.
Proof. intros H. apply icheck_ok. pose proof (imin_le_0 I). lia. Qed.

Lemma isub_ok I a b : (0 <= a - b <= imax I)%Z -> isub I a b = Ok (a - b)%Z.
Proof. intros H. apply icheck_ok. pose proof (imin_le_0 I). lia. Qed.

Lemma to_usize_ok z : (0 <= z)%Z -> to_usize z = Ok (Z.to_nat z).
Proof. intros H. unfold to_usize. apply Z.leb_le in H. rewrite H. reflexivity. Qed.

Lemma to_usize_nat n : to_usize (Z.of_nat n) = Ok n.
Proof. rewrite to_usize_ok by lia. rewrite Nat2Z.id. reflexivity. Qed.

Lemma uadd_ok a b : (Z.of_nat (a + b) <= imax Usize)%Z -> uadd a b = Ok (a + b).
Proof. intros H. unfold uadd. destruct (Z.leb_spec (Z.of_nat a + Z.of_nat b) (imax Usize)); [reflexivity|lia]. Qed.
Lemma uadd_over a b : (imax Usize < Z.of_nat (a + b))%Z -> uadd a b = Panic.
Proof. intros H. unfold uadd. destruct (Z.leb_spec (Z.of_nat a + Z.of_nat b) (imax Usize)); [lia|reflexivity]. Qed.
Lemma usub_ok a b : b <= a -> usub a b = Ok (a - b).
Proof. intros H. unfold usub. apply Nat.leb_le in H. rewrite H. reflexivity. Qed.

Lemma vslice_ok {A} (l : list A) s e :
  s <= e -> e <= length l -> vslice l s e = Ok (firstn (e - s) (skipn s l)).
Proof.
  intros H1 H2. unfold vslice. apply Nat.leb_le in H1, H2. rewrite H1, H2. reflexivity.
Qed.

Lemma firstn_app_exact {A} (l1 l2 : list A) n : n = length l1 -> firstn n (l1 ++ l2) = l1.
Proof. intros ->. rewrite firstn_app, Nat.sub_diag, firstn_all, firstn_O, app_nil_r. reflexivity. Qed.
Lemma skipn_app_exact {A} (l1 l2 : list A) n : n = length l1 -> skipn n (l1 ++ l2) = l2.
Proof. intros ->. rewrite skipn_app, Nat.sub_diag, skipn_all. reflexivity. Qed.
