(** Rounding: how far the values computed with rounded arithmetic are from the exact ones. *)
From Verif Require Import Rust Scalar Model_matrix Spec.
From Coq Require Import ZArith QArith Qabs List Floats.SpecFloat.
Import ListNotations.
Open Scope Q_scope.

(** [got] differs from [exact] by at most the relative error [u] and the absolute error [eta] *)
Definition off (u eta got exact : Q) : Prop := Qabs (got - exact) <= u * Qabs exact + eta.

(** exact sum of rational numbers, and of their absolute values *)
Definition qsum (l : list Q) : Q := fold_right Qplus 0 l.
Definition qsum_abs (l : list Q) : Q := qsum (map Qabs l).

(** Rounded arithmetic on [T]: [real x] is the number that [x] stands for, [fin x] says that it stands for one (is neither infinite nor
    NaN), [val x] that it is a value of the type at all.  A sum or product that stands for a number came from numbers; a sum is off by
    at most the relative error [u], a product by at most [u] and, if it is tiny, [eta]; adding to zero does not round. *)
Record Rounded {T} {SC : Scalar T} (real : T -> Q) (fin val : T -> Prop) (u eta : Q) : Prop := {
  rd_u : 0 <= u;
  rd_eta : 0 <= eta;
  rd_zero : val s0 /\ fin s0 /\ real s0 == 0;
  rd_eq : forall x, seqb x s0 = true -> fin x /\ real x == 0;
  rd_start : forall x, val x -> val (sadd s0 x) /\ (fin (sadd s0 x) -> fin x /\ real (sadd s0 x) == real x);
  rd_add : forall x y, val x -> val y -> val (sadd x y) /\
    (fin (sadd x y) -> fin x /\ fin y /\ off u 0 (real (sadd x y)) (real x + real y));
  rd_sub : forall x y, val x -> val y -> val (ssub x y) /\
    (fin (ssub x y) -> fin x /\ fin y /\ off u 0 (real (ssub x y)) (real x - real y));
  rd_mul : forall x y, val x -> val y -> val (smul x y) /\
    (fin (smul x y) -> fin x /\ fin y /\ off u eta (real (smul x y)) (real x * real y));
}.

(** ** Binary floating-point numbers (IEEE 754), [prec] binary digits, exponents below [emax] *)
Definition float_real (x : spec_float) : Q :=
  match x with
  | S754_finite s m e => inject_Z (if s then Zneg m else Zpos m) * 2 ^ e
  | _ => 0
  end.
Definition float_fin (x : spec_float) : Prop :=
  match x with S754_finite _ _ _ | S754_zero _ => True | _ => False end.
(** [x] is a float of the format (its digits and its exponent are in range) *)
Definition float_val (prec emax : Z) (x : spec_float) : Prop := valid_binary prec emax x = true.
(** arithmetic on the floats of a format; [scalar_f64] is [scalar_float 53 1024] *)
Definition scalar_float (prec emax : Z) (one : spec_float) : Scalar spec_float := {|
  s0 := S754_zero false; s1 := one;
  sadd := SFadd prec emax; ssub := SFsub prec emax; smul := SFmul prec emax;
  sdiv a b := Ok (SFdiv prec emax a b); seqb := SFeqb |}.
Definition scalar_f32 : Scalar spec_float := scalar_float 24 128 (S754_finite false 8388608 (-23)).

(** ** Error bounds of sums *)
(** [got] is as close to the sum of the numbers [t] as k - 1 rounded additions leave it (k the number of summands):
    |got - sum t| <= ((1 + u)^(k-1) - 1) * sum |t| *)
Definition near_sum (u : Q) (got : Q) (t : list Q) : Prop :=
  Qabs (got - qsum t) <= ((1 + u) ^ Z.of_nat (length t - 1) - 1) * qsum_abs t.
(** ... as k rounded products or additions leave it, each product being off by a further [eta] at most:
    |got - sum t| <= ((1 + u)^k - 1) * sum |t| + k * (1 + u)^k * eta *)
Definition near_dot (u eta : Q) (got : Q) (t : list Q) : Prop :=
  Qabs (got - qsum t) <= ((1 + u) ^ Z.of_nat (length t) - 1) * qsum_abs t
    + inject_Z (Z.of_nat (length t)) * (1 + u) ^ Z.of_nat (length t) * eta.

(** ** The exact summands *)
Section Terms.
Context {T : Type} {SC : Scalar T} (real : T -> Q).
(** the products a(i,j) * x(j) of row [i], without rounding *)
Definition csr_terms (m : CSR T) (x : list T) (i : nat) : list Q :=
  map (fun e => real (snd e) * real (nth (fst e) x s0)) (csr_row m i).
Definition csc_terms (m : CSC T) (x : list T) (i : nat) : list Q :=
  flat_map (fun j => map (fun v => real v * real (nth j x s0)) (csc_at m i j)) (seq 0 (csc_cols m)).
(** the products a(i,j) * b(j,k), without rounding *)
Definition csr_product_terms (a b : CSR T) (i k : nat) : list Q :=
  flat_map (fun e => map (fun v => real (snd e) * real v) (csr_at b (fst e) k)) (csr_row a i).
Definition csc_product_terms (a b : CSC T) (i k : nat) : list Q :=
  flat_map (fun e => map (fun v => real (snd e) * real v) (csc_at a i (fst e))) (csc_col b k).
End Terms.
