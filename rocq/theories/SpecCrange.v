(** When results of complex arithmetic are finite (C97 for complex numbers). *)
From Verif Require Import Rust Scalar Model_matrix Spec SpecRound SpecRange SpecComplex SpecCexact.
From Coq Require Import ZArith QArith Qabs List.
Import ListNotations.
Open Scope Q_scope.

(** the k pairs of products [t] that make up one part leave room for rounding: (1 + u)^(k+1) * (sum (|p| + |q|) + 2 k eta) <= top *)
Definition fits_cdot (u eta top : Q) (t : list (Q * Q)) : Prop :=
  (1 + u) ^ Z.of_nat (length t + 1) * (pair_abs t + 2 * inject_Z (Z.of_nat (length t)) * eta) <= top.
(** a value of the type both of whose parts are numbers *)
Definition cplx_good {T} (fin val : T -> Prop) (v : cplx T) : Prop := cplx_val val v /\ cplx_fin fin v.
(** each part is a number if its products leave room *)
Definition finite_parts {T} (fin : T -> Prop) (u eta top : Q) (v : cplx T) (re im : list (Q * Q)) : Prop :=
  (fits_cdot u eta top re -> fin (cx_re v)) /\ (fits_cdot u eta top im -> fin (cx_im v)).
(** each part of a sum of the values [l] is a number if the parts leave room (for the additions alone) *)
Definition finite_sums {T} (fin : T -> Prop) (real : T -> Q) (u top : Q) (v : cplx T) (l : list (cplx T)) : Prop :=
  (fits_sum u top (reals real l) -> fin (cx_re v)) /\ (fits_sum u top (imags real l) -> fin (cx_im v)).
(** ... for a CSR or CSC sum or difference, which rounds once more *)
Definition finite_sums1 {T} (fin : T -> Prop) (real : T -> Q) (u top : Q) (v : cplx T) (l : list (cplx T)) : Prop :=
  (fits_dot u 0 top (reals real l) -> fin (cx_re v)) /\ (fits_dot u 0 top (imags real l) -> fin (cx_im v)).
