(** Complex numbers over rounded arithmetic (C99). *)
From Verif Require Import Rust Scalar Model_matrix Spec SpecRound.
From Coq Require Import ZArith QArith Qabs List.
Import ListNotations.

(** [num_complex::Complex], the complex numbers the crate is used with (traits.rs:37-71, 105-127, 151-152).  The type belongs to a
    dependency whose source is not in /repo: that it is a pair, added, subtracted and compared part by part, multiplied as
    (a + bi)(c + di) = (ac - bd) + (ad + bc)i and divided by multiplying with the conjugate is assumed here. *)
Record cplx (T : Type) := Cx { cx_re : T; cx_im : T }.
Arguments Cx {T}. Arguments cx_re {T}. Arguments cx_im {T}.
Section Ops.
Context {T : Type} {SC : Scalar T}.
Global Instance scalar_cplx : Scalar (cplx T) := {|
  s0 := Cx s0 s0; s1 := Cx s1 s0;
  sadd a b := Cx (sadd (cx_re a) (cx_re b)) (sadd (cx_im a) (cx_im b));
  ssub a b := Cx (ssub (cx_re a) (cx_re b)) (ssub (cx_im a) (cx_im b));
  smul a b := Cx (ssub (smul (cx_re a) (cx_re b)) (smul (cx_im a) (cx_im b))) (sadd (smul (cx_re a) (cx_im b)) (smul (cx_im a) (cx_re b)));
  sdiv a b :=
    let n := sadd (smul (cx_re b) (cx_re b)) (smul (cx_im b) (cx_im b)) in
    let* r := sdiv (sadd (smul (cx_re a) (cx_re b)) (smul (cx_im a) (cx_im b))) n in
    let* i := sdiv (ssub (smul (cx_im a) (cx_re b)) (smul (cx_re a) (cx_im b))) n in Ok (Cx r i);
  seqb a b := (seqb (cx_re a) (cx_re b) && seqb (cx_im a) (cx_im b))%bool |}.
End Ops.

(** [got] is as close to the sum of k pairs of real products as rounding leaves it: k - 1 additions, and for each pair two products (off
    by a further [eta] at most) and one sum:
    |got - sum (p + q)| <= ((1 + u)^(k+1) - 1) * sum (|p| + |q|) + 2 k (1 + u)^k * eta *)
Open Scope Q_scope.
Definition pair_sum (t : list (Q * Q)) : Q := qsum (map (fun e => fst e + snd e) t).
Definition pair_abs (t : list (Q * Q)) : Q := qsum (map (fun e => Qabs (fst e) + Qabs (snd e)) t).
Definition near_cdot (u eta got : Q) (t : list (Q * Q)) : Prop :=
  Qabs (got - pair_sum t) <= ((1 + u) ^ Z.of_nat (length t + 1) - 1) * pair_abs t
    + 2 * inject_Z (Z.of_nat (length t)) * (1 + u) ^ Z.of_nat (length t) * eta.

(** the pairs of exact real products that make up the real and the imaginary part of a product of two complex numbers *)
Section Terms.
Context {T : Type} {SC : Scalar T} (real : T -> Q).
Definition re_pair (a b : cplx T) : Q * Q := (real (cx_re a) * real (cx_re b), - (real (cx_im a) * real (cx_im b))).
Definition im_pair (a b : cplx T) : Q * Q := (real (cx_re a) * real (cx_im b), real (cx_im a) * real (cx_re b)).
(** ... for every product entering an element of a matrix-vector or matrix product; [pr] is one of the two above *)
Definition csr_cterms (pr : cplx T -> cplx T -> Q * Q) (m : CSR (cplx T)) (x : list (cplx T)) (i : nat) : list (Q * Q) :=
  map (fun e => pr (snd e) (nth (fst e) x s0)) (csr_row m i).
Definition csc_cterms (pr : cplx T -> cplx T -> Q * Q) (m : CSC (cplx T)) (x : list (cplx T)) (i : nat) : list (Q * Q) :=
  flat_map (fun j => map (fun v => pr v (nth j x s0)) (csc_at m i j)) (seq 0 (csc_cols m)).
Definition csr_product_cterms (pr : cplx T -> cplx T -> Q * Q) (a b : CSR (cplx T)) (i k : nat) : list (Q * Q) :=
  flat_map (fun e => map (fun v => pr (snd e) v) (csr_at b (fst e) k)) (csr_row a i).
Definition csc_product_cterms (pr : cplx T -> cplx T -> Q * Q) (a b : CSC (cplx T)) (i k : nat) : list (Q * Q) :=
  flat_map (fun e => map (fun v => pr (snd e) v) (csc_at a i (fst e))) (csc_col b k).
End Terms.

(** both parts of a stored number are values of the type *)
Definition cplx_val {T} (val : T -> Prop) (v : cplx T) : Prop := val (cx_re v) /\ val (cx_im v).
(** [re]: the real part of [v], if it is finite, is the number required; likewise [im] *)
Definition parts {T} (fin : T -> Prop) (v : cplx T) (re im : Prop) : Prop := (fin (cx_re v) -> re) /\ (fin (cx_im v) -> im).
(** the numbers that the real (imaginary) parts of some entries stand for *)
Definition reals {T} (real : T -> Q) (l : list (cplx T)) : list Q := map (fun v => real (cx_re v)) l.
Definition imags {T} (real : T -> Q) (l : list (cplx T)) : list Q := map (fun v => real (cx_im v)) l.
