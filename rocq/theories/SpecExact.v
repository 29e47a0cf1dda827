(** Floating-point arithmetic that does not round. *)
From Verif Require Import Rust Scalar Model_matrix Spec SpecRound.
From Coq Require Import ZArith QArith Qabs List.
Import ListNotations.
Open Scope Q_scope.

(** [q] is a whole number of units *)
Definition multiple (unit q : Q) : Prop := exists n : Z, q == inject_Z n * unit.

(** Arithmetic on [T] that does not round while results are whole numbers of units and at most [bound]:
    [real x] is the number that [x] stands for, [fin x] says that it stands for one. *)
Record ExactBelow {T} {SC : Scalar T} (real : T -> Q) (fin : T -> Prop) (unit bound : Q) : Prop := {
  eb_zero : fin s0 /\ real s0 == 0;
  eb_eq : forall x, seqb x s0 = true -> real x == 0;
  eb_add : forall x y, fin x -> fin y -> multiple unit (real x + real y) -> Qabs (real x + real y) <= bound ->
    fin (sadd x y) /\ real (sadd x y) == real x + real y;
  eb_sub : forall x y, fin x -> fin y -> multiple unit (real x - real y) -> Qabs (real x - real y) <= bound ->
    fin (ssub x y) /\ real (ssub x y) == real x - real y;
  eb_mul : forall x y, fin x -> fin y -> multiple unit (real x * real y) -> Qabs (real x * real y) <= bound ->
    fin (smul x y) /\ real (smul x y) == real x * real y;
}.

(** the summands [t] are whole numbers of units, and together at most [bound] *)
Definition small_sum (unit bound : Q) (t : list Q) : Prop := Forall (multiple unit) t /\ qsum_abs t <= bound.

(** [x] stands for exactly the sum of the numbers [t] *)
Definition is_sum {T} (real : T -> Q) (fin : T -> Prop) (x : T) (t : list Q) : Prop := fin x /\ real x == qsum t.

(** the f64 nearest to an integer ([z as f64]) *)
From Coq Require Import Floats.SpecFloat.
Definition f64_of_Z (z : Z) : f64 := binary_normalize 53 1024 z 0 false.
(** sum of the absolute values of the products in row [i] of the product of an integer matrix and vector *)
Definition row_weight (m : CSR Z) (x : list Z) (i : nat) : Z :=
  fold_right Z.add 0%Z (map (fun e => Z.abs (snd e * nth (fst e) x 0%Z)) (csr_row m i)).
