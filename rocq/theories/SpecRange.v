(** When results computed with rounded arithmetic are finite. *)
From Verif Require Import Rust Scalar Model_matrix Spec SpecRound.
From Coq Require Import ZArith QArith Qabs List Floats.SpecFloat.
Import ListNotations.
Open Scope Q_scope.

(** [top] is the largest number of the type: a sum, difference or product of finite values whose exact result is not larger is finite. *)
Record Ranged {T} {SC : Scalar T} (real : T -> Q) (fin val : T -> Prop) (top : Q) : Prop := {
  rg_add : forall x y, val x -> val y -> fin x -> fin y -> Qabs (real x + real y) <= top -> fin (sadd x y);
  rg_sub : forall x y, val x -> val y -> fin x -> fin y -> Qabs (real x - real y) <= top -> fin (ssub x y);
  rg_mul : forall x y, val x -> val y -> fin x -> fin y -> Qabs (real x * real y) <= top -> fin (smul x y);
}.
(** the largest float of a format *)
Definition float_top (prec emax : Z) : Q := inject_Z (2 ^ prec - 1) * 2 ^ (emax - prec).

(** a value of the type that stands for a number *)
Definition good {T} (fin val : T -> Prop) (x : T) : Prop := val x /\ fin x.

(** The summands [t] leave room for the rounding of k - 1 additions: (1 + u)^(k-1) * sum |t| <= top *)
Definition fits_sum (u top : Q) (t : list Q) : Prop :=
  (1 + u) ^ Z.of_nat (length t - 1) * qsum_abs t <= top.
(** ... of k products and additions: (1 + u)^k * (sum |t| + k * eta) <= top *)
Definition fits_dot (u eta top : Q) (t : list Q) : Prop :=
  (1 + u) ^ Z.of_nat (length t) * (qsum_abs t + inject_Z (Z.of_nat (length t)) * eta) <= top.

(** an f64 that is neither infinite nor NaN *)
Definition is_number (v : f64) : Prop := valid_binary 53 1024 v = true /\ float_fin v.
