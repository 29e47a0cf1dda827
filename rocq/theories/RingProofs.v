(** Sums over an exact commutative ring. *)
From Verif Require Import Rust Scalar Model_kernels Model_matrix Spec Wp Rep.
From Coq Require Import Ring.

Section ZA.
Context {T : Type} {SC : Scalar T} {ZA : ZeroAdd T}.
Lemma sum0_one (v : T) : sum0 [v] = v.
Proof. apply zero_add. Qed.
Lemma sum0_cons_za (v : T) l : sum0 (v :: l) = fold_left sadd l v.
Proof. unfold sum0. cbn. rewrite zero_add. reflexivity. Qed.
Lemma sum0_dup_sum (l : list T) : sum0 (dup_sum l) = sum0 l.
Proof. destruct l as [|v l]; [reflexivity|]. cbn [dup_sum]. rewrite sum0_one, sum0_cons_za. reflexivity. Qed.
End ZA.

Section Ring.
Context {T : Type} {SC : Scalar T} {SN : ScalarNeg T} {ER : ExactRing T}.
Add Ring TR : er_ring.

Lemma fold_sum (l : list T) a : fold_left sadd l a = sadd a (sum0 l).
Proof.
  revert a. unfold sum0. induction l as [|v l IH]; intros a; cbn; [ring|]. rewrite IH, (IH (sadd s0 v)). ring.
Qed.
Lemma sum0_nil : sum0 (T := T) [] = s0.
Proof. reflexivity. Qed.
Lemma sum0_cons (v : T) l : sum0 (v :: l) = sadd v (sum0 l).
Proof. unfold sum0 at 1. cbn. rewrite fold_sum. ring. Qed.
Lemma sum0_app (l1 l2 : list T) : sum0 (l1 ++ l2) = sadd (sum0 l1) (sum0 l2).
Proof. unfold sum0 at 1. rewrite fold_left_app, fold_sum. reflexivity. Qed.
Lemma sum0_perm (l1 l2 : list T) : Permutation l1 l2 -> sum0 l1 = sum0 l2.
Proof.
  induction 1; rewrite ?sum0_cons; [reflexivity|congruence|ring|congruence].
Qed.
Lemma sum0_flat_map {A} (f : A -> list T) l : sum0 (flat_map f l) = sum0 (map (fun a => sum0 (f a)) l).
Proof. induction l as [|a l IH]; [reflexivity|]. cbn [flat_map map]. rewrite sum0_app, IH, sum0_cons. reflexivity. Qed.
Lemma sum0_map_mul_r (l : list T) c : sum0 (map (fun v => smul v c) l) = smul (sum0 l) c.
Proof. induction l as [|v l IH]; cbn [map]; rewrite ?sum0_nil, ?sum0_cons, ?IH; ring. Qed.
Lemma sum0_map_mul_l (l : list T) c : sum0 (map (fun v => smul c v) l) = smul c (sum0 l).
Proof. induction l as [|v l IH]; cbn [map]; rewrite ?sum0_nil, ?sum0_cons, ?IH; ring. Qed.
Lemma sum0_map_opp (l : list T) : sum0 (map sneg l) = sneg (sum0 l).
Proof. induction l as [|v l IH]; cbn [map]; rewrite ?sum0_nil, ?sum0_cons, ?IH; ring. Qed.
Lemma sum0_map_add {A} (f g : A -> T) l : sum0 (map (fun a => sadd (f a) (g a)) l) = sadd (sum0 (map f l)) (sum0 (map g l)).
Proof. induction l as [|v l IH]; cbn [map]; rewrite ?sum0_nil, ?sum0_cons, ?IH; ring. Qed.
Lemma sum0_map_zero {A} (f : A -> T) l : (forall a, In a l -> f a = s0) -> sum0 (map f l) = s0.
Proof.
  induction l as [|v l IH]; intros H; [reflexivity|]. cbn [map]. rewrite sum0_cons, IH, H; [ring|left; reflexivity|].
  intros; apply H; right; assumption.
Qed.

Lemma rsum_ext n (f g : nat -> T) : (forall i, i < n -> f i = g i) -> rsum n f = rsum n g.
Proof. intros H. unfold rsum. f_equal. apply map_ext_in. intros i Hi. apply in_seq in Hi. apply H. lia. Qed.
Lemma rsum_S n (f : nat -> T) : rsum (S n) f = sadd (rsum n f) (f n).
Proof. unfold rsum. rewrite seq_S, map_app, sum0_app. cbn [map plus]. rewrite sum0_cons, sum0_nil. ring. Qed.
Lemma rsum_zero n : rsum n (fun _ => s0 : T) = s0.
Proof. apply sum0_map_zero. reflexivity. Qed.
Lemma rsum_add n (f g : nat -> T) : rsum n (fun i => sadd (f i) (g i)) = sadd (rsum n f) (rsum n g).
Proof. apply sum0_map_add. Qed.
Lemma rsum_mul_r n (f : nat -> T) c : rsum n (fun i => smul (f i) c) = smul (rsum n f) c.
Proof. unfold rsum. rewrite <- sum0_map_mul_r, map_map. reflexivity. Qed.
Lemma rsum_mul_l n (f : nat -> T) c : rsum n (fun i => smul c (f i)) = smul c (rsum n f).
Proof. unfold rsum. rewrite <- sum0_map_mul_l, map_map. reflexivity. Qed.
Lemma rsum_swap n m (f : nat -> nat -> T) : rsum n (fun i => rsum m (fun j => f i j)) = rsum m (fun j => rsum n (fun i => f i j)).
Proof.
  induction n as [|n IH]; [cbn; rewrite rsum_zero; reflexivity|]. rewrite rsum_S, IH, <- rsum_add. apply rsum_ext.
  intros j _. rewrite rsum_S. reflexivity.
Qed.
Lemma rsum_single n k (f : nat -> T) : k < n -> (forall i, i < n -> i <> k -> f i = s0) -> rsum n f = f k.
Proof.
  intros Hk H. induction n as [|n IH]; [lia|]. rewrite rsum_S. destruct (Nat.eq_dec k n) as [->|D].
  - rewrite (rsum_ext n f (fun _ => s0)); [rewrite rsum_zero; ring|]. intros i Hi. apply H; lia.
  - rewrite IH by (try lia; intros; apply H; lia). rewrite (H n) by lia. ring.
Qed.
Lemma sum0_flat_seq n (f : nat -> list T) : sum0 (flat_map f (seq 0 n)) = rsum n (fun k => sum0 (f k)).
Proof. apply sum0_flat_map. Qed.

(** a row of entries summed entry by entry is the sum over the columns *)
Lemma row_sum c (r : list (nat * T)) (f : nat -> T) : Forall (fun e => fst e < c) r ->
  sum0 (map (fun e => smul (snd e) (f (fst e))) r) = rsum c (fun j => smul (sum0 (at_ j r)) (f j)).
Proof.
  induction 1 as [|e r He Hr IH].
  - cbn [map]. rewrite sum0_nil. rewrite (rsum_ext c _ (fun _ => s0)); [symmetry; apply rsum_zero|]. intros. cbn. ring.
  - cbn [map]. rewrite sum0_cons, IH.
    rewrite (rsum_ext c (fun j => smul (sum0 (at_ j (e :: r))) (f j))
       (fun j => sadd (if fst e =? j then smul (snd e) (f (fst e)) else s0) (smul (sum0 (at_ j r)) (f j)))).
    + rewrite rsum_add. f_equal. rewrite (rsum_single c (fst e)); [rewrite Nat.eqb_refl; reflexivity|exact He|].
      intros i _ D. destruct (Nat.eqb_spec (fst e) i); [congruence|reflexivity].
    + intros j _. rewrite at_cons. destruct (Nat.eqb_spec (fst e) j) as [->|D]; cbn [app]; rewrite ?sum0_cons; ring.
Qed.
End Ring.
