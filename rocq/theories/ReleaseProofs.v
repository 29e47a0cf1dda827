(** Simulation of the build with overflow checks by the release build. *)
From Verif Require Import Rust Scalar Model_kernels Model_matrix Model_graph Model_dok Model_text Model_eigen SpecMore.

Definition agrees {A} (m m' : res A) : Prop := m <> Panic -> m' = m.
Lemma iwrap_id I z : in_ity I z -> iwrap I z = z.
Proof. unfold in_ity, iwrap. intros H. rewrite Z.mod_small by lia. lia. Qed.
Lemma agrees_refl {A} (m : res A) : agrees m m.
Proof. intros _. reflexivity. Qed.
Lemma agrees_panic {A} (m : res A) : agrees Panic m.
Proof. intros H. contradiction. Qed.
Lemma agrees_bind {A B} (m m' : res A) (k k' : A -> res B) : agrees m m' -> (forall a, agrees (k a) (k' a)) -> agrees (bind m k) (bind m' k').
Proof. intros H K. destruct m as [a|e| |]; cbn [bind]; try (rewrite H by discriminate; cbn [bind]; try apply K; apply agrees_refl). apply agrees_panic. Qed.
Lemma agrees_unwrap {A} (m m' : res A) : agrees m m' -> agrees (unwrap m) (unwrap m').
Proof. intros H. destruct m as [a|e| |]; try (rewrite H by discriminate; apply agrees_refl). apply agrees_panic. Qed.
Lemma agrees_for_n {St} (f f' : nat -> St -> res St) : (forall i s, agrees (f i s) (f' i s)) -> forall n i s, agrees (for_n n i f s) (for_n n i f' s).
Proof. intros H. induction n; intros i s; cbn [for_n]; [apply agrees_refl|]. apply agrees_bind; [apply H|]. intros. apply IHn. Qed.
Lemma agrees_for {St} lo hi (f f' : nat -> St -> res St) s : (forall i s, agrees (f i s) (f' i s)) -> agrees (for_range lo hi f s) (for_range lo hi f' s).
Proof. intros H. apply agrees_for_n, H. Qed.
Lemma agrees_for_exit {St R} lo hi (f f' : nat -> St -> res (ctl St R)) s : (forall i s, agrees (f i s) (f' i s)) -> agrees (for_range_exit lo hi f s) (for_range_exit lo hi f' s).
Proof.
  intros H. unfold for_range_exit. generalize (hi - lo) as n. intros n. revert s. generalize lo as i. induction n; intros i s; cbn [for_n_exit]; [apply agrees_refl|].
  apply agrees_bind; [apply H|]. intros [s'|r]; [apply IHn|apply agrees_refl].
Qed.
Lemma agrees_for_each {St A} (l : list A) (f f' : A -> St -> res St) s : (forall a s, agrees (f a s) (f' a s)) -> agrees (for_each l f s) (for_each l f' s).
Proof. intros H. revert s. induction l as [|a l IH]; intros s; cbn [for_each]; [apply agrees_refl|]. apply agrees_bind; [apply H|]. intros. apply IH. Qed.
Lemma agrees_for_enum {St A} k (l : list A) (f f' : nat -> A -> St -> res St) s : (forall k a s, agrees (f k a s) (f' k a s)) -> agrees (for_enum k l f s) (for_enum k l f' s).
Proof. intros H. revert k s. induction l as [|a l IH]; intros k s; cbn [for_enum]; [apply agrees_refl|]. apply agrees_bind; [apply H|]. intros. apply IH. Qed.
Lemma agrees_mapM {A B} (f f' : A -> res B) l : (forall a, agrees (f a) (f' a)) -> agrees (mapM f l) (mapM f' l).
Proof. intros H. induction l as [|a l IH]; cbn [mapM]; [apply agrees_refl|]. apply agrees_bind; [apply H|]. intros. apply agrees_bind; [apply IH|]. intros. apply agrees_refl. Qed.
Lemma agrees_while {St} fuel (c c' : St -> res bool) b b' s : (forall s, agrees (c s) (c' s)) -> (forall s, agrees (b s) (b' s)) -> agrees (while fuel c b s) (while fuel c' b' s).
Proof.
  intros HC HB. revert s. induction fuel; intros s; cbn [while]; [apply agrees_refl|]. apply agrees_bind; [apply HC|]. intros [|]; [|apply agrees_refl].
  apply agrees_bind; [apply HB|]. intros. apply IHfuel.
Qed.
Lemma agrees_while_exit {St} fuel (c c' : St -> res bool) b b' s : (forall s, agrees (c s) (c' s)) -> (forall s, agrees (b s) (b' s)) -> agrees (while_exit fuel c b s) (while_exit fuel c' b' s).
Proof.
  intros HC HB. revert s. induction fuel; intros s; cbn [while_exit]; [apply agrees_refl|]. apply agrees_bind; [apply HC|]. intros [|]; [|apply agrees_refl].
  apply agrees_bind; [apply HB|]. intros [s'|s']; [apply IHfuel|apply agrees_refl].
Qed.
Lemma agrees_icheck I z : agrees (icheck I z) (Ok (iwrap I z)).
Proof.
  unfold icheck. destruct (_ && _) eqn:E; [|apply agrees_panic]. apply andb_true_iff in E. destruct E as [E1 E2]. apply Z.leb_le in E1, E2.
  rewrite iwrap_id by (split; assumption). apply agrees_refl.
Qed.
Lemma agrees_iadd I a b : agrees (@iadd Debug I a b) (@iadd Release I a b).
Proof. apply agrees_icheck. Qed.
Lemma agrees_isub I a b : agrees (@isub Debug I a b) (@isub Release I a b).
Proof. apply agrees_icheck. Qed.
Lemma agrees_usub a b : agrees (@usub Debug a b) (@usub Release a b).
Proof. unfold usub. destruct (_ <=? _); [apply agrees_refl|apply agrees_panic]. Qed.
Lemma agrees_uadd a b : agrees (@uadd Debug a b) (@uadd Release a b).
Proof. unfold uadd. destruct (_ <=? _)%Z; [apply agrees_refl|apply agrees_panic]. Qed.

Create HintDb agrees discriminated.
#[export] Hint Constants Opaque : agrees.
#[export] Hint Transparent scc_state dfs_state : agrees.
#[export] Hint Resolve agrees_iadd agrees_isub agrees_usub agrees_uadd : agrees.
Ltac ag1 :=
  match goal with
  | |- agrees ?a ?a => apply agrees_refl
  | |- agrees (bind _ _) _ => apply agrees_bind; [|let a := fresh "a" in intros a]
  | |- agrees (unwrap _) _ => apply agrees_unwrap
  | |- agrees (for_range _ _ _ _) _ => apply agrees_for; intros ? ?
  | |- agrees (for_range_exit _ _ _ _) _ => apply agrees_for_exit; intros ? ?
  | |- agrees (for_each _ _ _) _ => apply agrees_for_each; intros ? ?
  | |- agrees (for_enum _ _ _ _) _ => apply agrees_for_enum; intros ? ? ?
  | |- agrees (mapM _ _) _ => apply agrees_mapM; intros ?
  | |- agrees (while _ _ _ _) _ => apply agrees_while; intros ?
  | |- agrees (while_exit _ _ _ _) _ => apply agrees_while_exit; intros ?
  | |- agrees (match ?x with _ => _ end) _ => destruct x
  | |- agrees (match ?x with _ => _ end _) _ => destruct x
  | |- agrees (match ?x with _ => _ end _ _) _ => destruct x
  | |- agrees (let x := ?e in @?k x) _ => cbv zeta
  | _ => solve [auto with agrees]
  end.
Ltac agall f := intros; unfold f; repeat ag1.
