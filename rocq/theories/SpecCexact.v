(** Complex arithmetic that does not round (C96 for complex numbers). *)
From Verif Require Import Rust Scalar Model_matrix Spec SpecRound SpecExact SpecComplex.
From Coq Require Import ZArith QArith Qabs List.
Import ListNotations.
Open Scope Q_scope.

(** the real products [t] that make up one part are whole numbers of units, and together at most [bound] *)
Definition small_pairs (unit bound : Q) (t : list (Q * Q)) : Prop :=
  Forall (fun e => multiple unit (fst e) /\ multiple unit (snd e)) t /\ pair_abs t <= bound.
(** [x] stands for exactly their sum *)
Definition is_pair_sum {T} (real : T -> Q) (fin : T -> Prop) (x : T) (t : list (Q * Q)) : Prop := fin x /\ real x == pair_sum t.
(** a part is exact if its products are small; the two parts do not depend on each other *)
Definition exact_parts {T} (real : T -> Q) (fin : T -> Prop) (unit bound : Q) (v : cplx T) (re im : list (Q * Q)) : Prop :=
  (small_pairs unit bound re -> is_pair_sum real fin (cx_re v) re) /\ (small_pairs unit bound im -> is_pair_sum real fin (cx_im v) im).
(** both parts are numbers *)
Definition cplx_fin {T} (fin : T -> Prop) (v : cplx T) : Prop := fin (cx_re v) /\ fin (cx_im v).
(** a part of a sum of the values [l] minus the values [k] is exact if the parts are small whole numbers of units *)
Definition exact_sums {T} (real : T -> Q) (fin : T -> Prop) (unit bound : Q) (v : cplx T) (l k : list (cplx T)) : Prop :=
  (Forall (fun w => fin (cx_re w)) (l ++ k) -> small_sum unit bound (reals real l ++ map Qopp (reals real k)) -> is_sum real fin (cx_re v) (reals real l ++ map Qopp (reals real k))) /\
  (Forall (fun w => fin (cx_im w)) (l ++ k) -> small_sum unit bound (imags real l ++ map Qopp (imags real k)) -> is_sum real fin (cx_im v) (imags real l ++ map Qopp (imags real k))).
