(** The column-linking workspace shared by the product and the general binary kernels. *)
From Verif Require Import Rust Scalar Model_kernels Model_matrix Spec Wp Rep LinProofs.

Fixpoint chain (next : list Z) (head : Z) (L : list nat) : Prop :=
  match L with
  | [] => head = (-2)%Z
  | k :: L' => head = Z.of_nat k /\ k < length next /\ chain next (nth k next (-1)%Z) L'
  end.
Record linked (c : nat) (next : list Z) (head : Z) (L : list nat) : Prop := {
  lk_len : length next = c;
  lk_nodup : NoDup L;
  lk_chain : chain next head L;
  lk_free : forall k, k < c -> ~ In k L -> nth k next (-1)%Z = (-1)%Z }.

Lemma chain_lt next head L : chain next head L -> Forall (fun k => k < length next) L.
Proof. revert head. induction L as [|k L IH]; intros head H; constructor; [apply H|]. apply (IH _ (proj2 (proj2 H))). Qed.
Lemma chain_in next head L k : chain next head L -> In k L -> nth k next (-1)%Z <> (-1)%Z.
Proof.
  revert head. induction L as [|a L IH]; intros head H; [intros []|]. destruct H as (_ & _ & H). intros [->|Hi].
  - destruct L as [|b L]; cbn in H; lia.
  - apply (IH _ H Hi).
Qed.
Lemma chain_ext next next' head L : length next' = length next -> (forall k, In k L -> nth k next' (-1)%Z = nth k next (-1)%Z) ->
  chain next head L -> chain next' head L.
Proof.
  intros HL. revert head. induction L as [|a L IH]; intros head He H; [exact H|]. destruct H as (H1 & H2 & H3).
  cbn. rewrite HL. sp; try assumption. rewrite He by (left; reflexivity). apply IH; [|exact H3]. intros k Hk. apply He. right. exact Hk.
Qed.
Lemma linked_init c : linked c (repeat (-1)%Z c) (-2)%Z [].
Proof.
  constructor; [apply repeat_length|constructor|reflexivity|]. intros k Hk _. apply nth_repeat.
Qed.
Lemma linked_restart c next head : linked c next head [] -> linked c next (-2)%Z [].
Proof. intros []. constructor; try assumption. reflexivity. Qed.

Definition touch (L : list nat) (k : nat) : list nat := if existsb (Nat.eqb k) L then L else k :: L.
Lemma touch_in L k : In k L -> touch L k = L.
Proof. intros H. unfold touch. replace (existsb (Nat.eqb k) L) with true; [reflexivity|]. symmetry. apply existsb_exists. exists k. rewrite Nat.eqb_refl. auto. Qed.
Lemma touch_new L k : ~ In k L -> touch L k = k :: L.
Proof.
  intros H. unfold touch. destruct (existsb (Nat.eqb k) L) eqn:E; [|reflexivity]. apply existsb_exists in E as (a & Ha & Ea).
  apply Nat.eqb_eq in Ea. subst. contradiction.
Qed.
Lemma in_touch L k a : In a (touch L k) <-> In a L \/ a = k.
Proof.
  destruct (in_dec Nat.eq_dec k L) as [H|H].
  - rewrite touch_in by exact H. split; [auto|intros [|E]; [auto|subst a; auto]].
  - rewrite touch_new by exact H. cbn. intuition congruence.
Qed.
Lemma in_touches l L a : In a (fold_left touch l L) <-> In a L \/ In a l.
Proof. revert L. induction l as [|k l IH]; intros L; cbn; [tauto|]. rewrite IH, in_touch. intuition congruence. Qed.
Lemma touches_len l L : length (fold_left touch l L) <= length L + length l.
Proof.
  revert L. induction l as [|k l IH]; intros L; cbn; [lia|]. specialize (IH (touch L k)).
  enough (length (touch L k) <= S (length L)) by lia. unfold touch. destruct (existsb _ _); cbn; lia.
Qed.
Lemma touches_mono l L : length L <= length (fold_left touch l L).
Proof.
  revert L. induction l as [|k l IH]; intros L; cbn; [lia|]. specialize (IH (touch L k)).
  enough (length L <= length (touch L k)) by lia. unfold touch. destruct (existsb _ _); cbn; lia.
Qed.
Lemma touches_nodup l L : NoDup L -> NoDup (fold_left touch l L).
Proof.
  revert L. induction l as [|k l IH]; intros L H; cbn; [exact H|]. apply IH.
  destruct (in_dec Nat.eq_dec k L); [rewrite touch_in|rewrite touch_new]; try assumption. constructor; assumption.
Qed.

Lemma linked_lt c next head L k : linked c next head L -> In k L -> k < c.
Proof. intros H Hk. pose proof (chain_lt _ _ _ (lk_chain _ _ _ _ H)) as F. rewrite Forall_forall in F. rewrite <- (lk_len _ _ _ _ H). apply F, Hk. Qed.

(** one step of the linking code, as written in the kernels *)
Lemma wp_link {B} I c next head L k len (f : list Z -> Z -> Z -> res B) (Q : B -> Prop) :
  linked c next head L -> k < c -> len = Z.of_nat (length L) -> (Z.of_nat (length (touch L k)) <= imax I)%Z ->
  (forall next head len, linked c next head (touch L k) -> len = Z.of_nat (length (touch L k)) -> wp (f next head len) Q) ->
  wp (let* nk := vget next k in
      if (nk =? -1)%Z then
        let* next := vset next k head in
        let* length := iadd I len 1 in
        f next (Z.of_nat k) length
      else f next head len) Q.
Proof.
  intros H Hk Hlen Hfit Hf. destruct (H) as [HL HN HC HF].
  rewrite (vget_nth _ _ (-1)%Z) by lia. cbn [bind]. destruct (in_dec Nat.eq_dec k L) as [Hi|Hi].
  - rewrite (touch_in _ _ Hi) in *. pose proof (chain_in _ _ _ _ HC Hi) as Hne.
    destruct (Z.eqb_spec (nth k next (-1)%Z) (-1)); [contradiction|]. apply Hf; assumption.
  - rewrite (touch_new _ _ Hi) in *. rewrite HF by assumption. cbn [Z.eqb Pos.eqb].
    rewrite vset_ok by lia. cbn [bind]. rewrite iadd_ok by (cbn in Hfit; lia). cbn [bind]. apply Hf; [|cbn; lia].
    constructor.
    + rewrite upd_length. exact HL.
    + constructor; assumption.
    + cbn. rewrite upd_length. sp; [lia|]. rewrite nth_upd_eq by lia. eapply chain_ext; [apply upd_length| |exact HC].
      intros a Ha. apply nth_upd_ne. intros ->. contradiction.
    + intros a Ha Hn. cbn in Hn. rewrite nth_upd_ne by (intros ->; apply Hn; auto). apply HF; [exact Ha|tauto].
Qed.

(** taking the head off the list *)
Lemma linked_pop c next head k L : linked c next head (k :: L) ->
  head = Z.of_nat k /\ k < c /\ vget next k = Ok (nth k next (-1)%Z) /\
  vset next k (-1)%Z = Ok (upd next k (-1)%Z) /\ linked c (upd next k (-1)%Z) (nth k next (-1)%Z) L.
Proof.
  intros [HL HN HC HF]. destruct HC as (E & Hk & HC). inversion HN as [|? ? Hn HN']; subst. sp.
  - exact Hk.
  - apply vget_nth, Hk.
  - apply vset_ok, Hk.
  - constructor.
    + apply upd_length.
    + exact HN'.
    + eapply chain_ext; [apply upd_length| |exact HC]. intros a Ha. apply nth_upd_ne. intros ->. contradiction.
    + intros a Ha Hna. rewrite nth_upd. destruct (Nat.eqb_spec a k) as [E|D].
      * destruct (Nat.ltb_spec k (length next)); [reflexivity|lia].
      * cbn. apply HF; [exact Ha|]. cbn. intuition.
Qed.

(** the columns that are kept, with their values *)
Section Emit.
Context {T : Type} {NZ : Nonzero T}.
Definition emit (g : nat -> T) (L : list nat) : list (nat * T) :=
  flat_map (fun k => if nonzero (g k) then [(k, g k)] else []) L.
Lemma emit_app g L1 L2 : emit g (L1 ++ L2) = emit g L1 ++ emit g L2.
Proof. apply flat_map_app. Qed.
Lemma emit_len g L : length (emit g L) <= length L.
Proof. unfold emit. induction L as [|k L IH]; cbn; [lia|]. rewrite app_length. destruct (nonzero (g k)); cbn; lia. Qed.
Lemma emit_fst g L : map fst (emit g L) = filter (fun k => nonzero (g k)) L.
Proof. unfold emit. induction L as [|k L IH]; cbn; [reflexivity|]. rewrite map_app, IH. destruct (nonzero (g k)); reflexivity. Qed.
Lemma emit_nodup g L : NoDup L -> nodup_row (emit g L).
Proof. intros H. unfold nodup_row. rewrite emit_fst. apply NoDup_filter, H. Qed.
Lemma emit_sorted g L : StronglySorted lt L -> canonical_row (emit g L).
Proof.
  intros H. unfold canonical_row. rewrite emit_fst. induction H as [|k L H IH F]; cbn; [constructor|].
  destruct (nonzero (g k)); [|exact IH]. constructor; [exact IH|]. rewrite Forall_forall in *. intros a Ha. apply filter_In in Ha. apply F, Ha.
Qed.
Lemma emit_at g L k : NoDup L -> at_ k (emit g L) = if (if in_dec Nat.eq_dec k L then true else false) && nonzero (g k) then [g k] else [].
Proof.
  intros H. destruct (in_dec Nat.eq_dec k L) as [Hi|Hi]; cbn [andb].
  - destruct (nonzero (g k)) eqn:E.
    + apply at_nodup; [apply emit_nodup, H|]. apply in_flat_map. exists k. rewrite E. split; [exact Hi|left; reflexivity].
    + apply at_not_in. rewrite emit_fst. intros Hf. apply filter_In in Hf as [_ Hf]. congruence.
  - apply at_not_in. rewrite emit_fst. intros Hf. apply filter_In in Hf as [Hf _]. contradiction.
Qed.
Lemma emit_ext g h L : (forall k, In k L -> g k = h k) -> emit g L = emit h L.
Proof.
  intros H. unfold emit. induction L as [|k L IH]; [reflexivity|]. cbn. rewrite IH by (intros; apply H; right; assumption).
  rewrite H by (left; reflexivity). reflexivity.
Qed.
Lemma emit_in g L e : In e (emit g L) -> In (fst e) L /\ snd e = g (fst e) /\ nonzero (snd e) = true.
Proof.
  unfold emit. intros H. apply in_flat_map in H as (k & Hk & He). destruct (nonzero (g k)) eqn:E; [|destruct He].
  destruct He as [<-|[]]. cbn. auto.
Qed.
End Emit.
