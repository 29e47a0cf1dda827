(** A kernel given an operation that may panic either panics or does what it does with any operation
    that agrees where the first is defined. *)
From Verif Require Import Rust Scalar Model_kernels Wp.

Definition may {A} (m m' : res A) : Prop := m = Panic \/ m = m'.
Lemma may_refl {A} (m : res A) : may m m.
Proof. right. reflexivity. Qed.
Lemma may_bind {A B} (m m' : res A) (f f' : A -> res B) : may m m' -> (forall a, may (f a) (f' a)) -> may (bind m f) (bind m' f').
Proof. intros [-> | ->] H; [left; reflexivity|]. destruct m'; cbn [bind]; [apply H|right; reflexivity..]. Qed.
Lemma may_for_range {S} lo hi (f f' : nat -> S -> res S) s : (forall i s, may (f i s) (f' i s)) -> may (for_range lo hi f s) (for_range lo hi f' s).
Proof.
  intros H. unfold for_range. generalize (hi - lo) as n. intros n. revert lo s.
  induction n as [|n IH]; intros lo s; cbn [for_n]; [apply may_refl|]. apply may_bind; [apply H|]. intros a. apply IH.
Qed.
Lemma may_while {S} fuel (c : S -> res bool) (f f' : S -> res S) s : (forall s, may (f s) (f' s)) -> may (while fuel c f s) (while fuel c f' s).
Proof.
  intros H. revert s. induction fuel as [|n IH]; intros s; cbn [while]; [apply may_refl|]. apply may_bind; [apply may_refl|].
  intros [|]; [|apply may_refl]. apply may_bind; [apply H|]. intros a. apply IH.
Qed.

Ltac may_step := repeat first
  [ exact (may_refl _) | assumption
  | apply may_bind; [|let a := fresh "a" in intros a]
  | apply may_for_range; let i := fresh "i" in let s := fresh "s" in intros i s
  | apply may_while; let s := fresh "s" in intros s
  | match goal with
    | |- may (let '(_, _) := ?x in _) _ => destruct x
    | |- may (if ?b then _ else _) _ => destruct b
    end ].

Section Binop.
Context {T T2 : Type} {SC : Scalar T} {NZ : Nonzero T2}.
Variable I : ity.
Variables op op' : T -> T -> res T2.
Hypothesis Hop : forall u v, may (op u v) (op' u v).

Lemma may_binop n m ap aj ax bp bj bx cp cj (cx : list T2) :
  may (csr_binop_csr I op n m ap aj ax bp bj bx cp cj cx) (csr_binop_csr I op' n m ap aj ax bp bj bx cp cj cx).
Proof.
  unfold csr_binop_csr, csr_binop_csr_general, csr_binop_csr_canonical. may_step; apply Hop.
Qed.
End Binop.
