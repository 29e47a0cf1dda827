(** Scalars: operations without laws, law classes, instances. *)
From Verif Require Import Rust.
From Coq Require Export Ring_theory.
From Coq Require InitialRing.
From Coq Require Import ZArith Floats.SpecFloat.

(** [trait Scalar] (/repo/src/traits.rs:73-92) restricted to what the crate
    uses.  [seqb] is [PartialEq] (so NaN != NaN and -0.0 == 0.0 are possible).
    [sdiv] may panic (integer division by zero). *)
Class Scalar (T : Type) := {
  s0 : T;                       (* T::zero() = T::default() *)
  s1 : T;                       (* T::one() *)
  sadd : T -> T -> T;
  ssub : T -> T -> T;
  smul : T -> T -> T;
  sdiv : T -> T -> res T;
  seqb : T -> T -> bool;
}.

(** [T: Neg], [T: PartialOrd]. *)
Class ScalarNeg (T : Type) := { sneg : T -> T }.
Class ScalarOrd (T : Type) := { sltb : T -> T -> bool; sleb : T -> T -> bool }.

(** [trait Nonzero] (/repo/src/traits.rs:142-146): [*self != Default::default()]. *)
Class Nonzero (T : Type) := { ndefault : T; nonzero : T -> bool }.
#[export] Instance nonzero_scalar {T} `{Scalar T} : Nonzero T :=
  { ndefault := s0; nonzero x := negb (seqb x s0) }.
#[export] Instance nonzero_bool : Nonzero bool :=
  { ndefault := false; nonzero b := b }.

(** [trait Complex<F>] (/repo/src/traits.rs:30-35) *)
Class ComplexOps (F C : Type) := {
  cnew : F -> F -> C;
  cconj : C -> C;
  cre : C -> F;
  cim : C -> F;
}.

(** ** Laws, used only where a theorem lists them as hypothesis *)

(** 0 + x = x for x that does not compare equal to 0 (true of IEEE floats). *)
Class ZeroAddNZ (T : Type) `{Scalar T} : Prop :=
  zero_add_nz : forall x, seqb x s0 = false -> sadd s0 x = x.

(** 0 + x = x. *)
Class ZeroAdd (T : Type) `{Scalar T} : Prop :=
  zero_add : forall x, sadd s0 x = x.

(** Exact commutative ring with decidable equality (integers, integers
    modulo 2^k, Gaussian integers, rationals...). *)
Class ExactRing (T : Type) `{Scalar T} `{ScalarNeg T} : Prop := {
  er_ring : ring_theory s0 s1 sadd smul ssub sneg eq;
  er_eqb : forall x y : T, seqb x y = true <-> x = y;
}.

#[export] Instance exact_zero_add {T} `{ExactRing T} : ZeroAdd T.
Proof. intros x. apply (Radd_0_l er_ring). Qed.
#[export] Instance zero_add_zero_add_nz {T} `{ZeroAdd T} : ZeroAddNZ T.
Proof. intros x _. apply zero_add. Qed.

(** ** Instances *)

(** Unbounded integers. *)
#[export] Instance scalar_Z : Scalar Z := {
  s0 := 0%Z; s1 := 1%Z; sadd := Z.add; ssub := Z.sub; smul := Z.mul;
  sdiv a b := if (b =? 0)%Z then Panic else Ok (Z.quot a b);
  seqb := Z.eqb;
}.
#[export] Instance scalarneg_Z : ScalarNeg Z := { sneg := Z.opp }.
#[export] Instance scalarord_Z : ScalarOrd Z := { sltb := Z.ltb; sleb := Z.leb }.
#[export] Instance exact_Z : ExactRing Z.
Proof.
  constructor.
  - exact InitialRing.Zth.
  - intros x y. apply Z.eqb_eq.
Qed.

(** IEEE binary64, as in the standard library's [SpecFloat] (no axioms). *)
Definition f64 := spec_float.
Definition fprec := 53%Z.
Definition femax := 1024%Z.
#[export] Instance scalar_f64 : Scalar f64 := {
  s0 := S754_zero false;
  s1 := S754_finite false 4503599627370496 (-52);
  sadd := SFadd fprec femax; ssub := SFsub fprec femax; smul := SFmul fprec femax;
  sdiv a b := Ok (SFdiv fprec femax a b);
  seqb := SFeqb;
}.
#[export] Instance scalarneg_f64 : ScalarNeg f64 := { sneg := SFopp }.
#[export] Instance scalarord_f64 : ScalarOrd f64 := { sltb := SFltb; sleb := SFleb }.

(** Gaussian integers, an exact stand-in for [num_complex::Complex]. *)
Record gint := G { gre : Z; gim : Z }.
Definition gmul a b := G (gre a * gre b - gim a * gim b) (gre a * gim b + gim a * gre b).
#[export] Instance scalar_gint : Scalar gint := {
  s0 := G 0 0; s1 := G 1 0;
  sadd a b := G (gre a + gre b) (gim a + gim b);
  ssub a b := G (gre a - gre b) (gim a - gim b);
  smul := gmul;
  sdiv a b := Panic;   (* Gaussian integers are not a field; never used in theorems *)
  seqb a b := ((gre a =? gre b) && (gim a =? gim b))%Z;
}.
#[export] Instance scalarneg_gint : ScalarNeg gint := { sneg a := G (- gre a) (- gim a) }.
#[export] Instance complex_gint : ComplexOps Z gint :=
  { cnew := G; cconj a := G (gre a) (- gim a); cre := gre; cim := gim }.
#[export] Instance exact_gint : ExactRing gint.
Proof.
  constructor.
  - constructor; intros; repeat match goal with x : gint |- _ => destruct x end; cbn -[Z.add Z.mul Z.sub Z.opp]; unfold gmul; cbn -[Z.add Z.mul Z.sub Z.opp];
      f_equal; ring.
  - intros [a b] [c d]; cbn. rewrite andb_true_iff, !Z.eqb_eq. split; [intros []; congruence|intros [=]; auto].
Qed.

(** 64-bit wrapping integers (release-mode [u64]/[i64] scalars). *)
Definition wmod : Z := (2 ^ 64)%Z.
Lemma wmod_pos : (0 < wmod)%Z.
Proof. reflexivity. Qed.
Record w64 := W { wval : Z; wok : (wval mod wmod =? wval)%Z = true }.
Lemma w64_eq a b : wval a = wval b -> a = b.
Proof.
  destruct a as [x p], b as [y q]; cbn [wval]; intros <-. f_equal. apply Eqdep_dec.UIP_dec, bool_dec.
Qed.
Lemma w64_mod_ok z : ((z mod wmod) mod wmod =? z mod wmod)%Z = true.
Proof. apply Z.eqb_eq, Zmod_mod. Qed.
Definition wrap (z : Z) : w64 := W (z mod wmod) (w64_mod_ok z).
Lemma wval_mod a : (wval a mod wmod = wval a)%Z.
Proof. destruct a as [x p]; cbn [wval]. apply Z.eqb_eq, p. Qed.
#[export] Instance scalar_w64 : Scalar w64 := {
  s0 := wrap 0; s1 := wrap 1;
  sadd a b := wrap (wval a + wval b); ssub a b := wrap (wval a - wval b);
  smul a b := wrap (wval a * wval b);
  sdiv a b := if (wval b =? 0)%Z then Panic else Ok (wrap (wval a / wval b));  (* unsigned *)
  seqb a b := (wval a =? wval b)%Z;
}.
#[export] Instance scalarneg_w64 : ScalarNeg w64 := { sneg a := wrap (- wval a) }.

Section W64.
  Opaque wmod Z.modulo Z.add Z.mul Z.sub Z.opp.
  Lemma wval_wrap z : wval (wrap z) = (z mod wmod)%Z.
  Proof. reflexivity. Qed.
  Opaque wrap.
  #[export] Instance exact_w64 : ExactRing w64.
  Proof.
    constructor.
    - constructor; intros; apply w64_eq; cbn [s0 s1 sadd ssub smul sneg scalar_w64 scalarneg_w64];
        rewrite ?wval_wrap.
      + rewrite Zplus_mod_idemp_l. rewrite <- (wval_mod x) at 2. f_equal.
      + f_equal; ring.
      + rewrite Zplus_mod_idemp_r, Zplus_mod_idemp_l. f_equal; ring.
      + rewrite Zmult_mod_idemp_l. rewrite <- (wval_mod x) at 2. f_equal. ring.
      + f_equal; ring.
      + rewrite Zmult_mod_idemp_r, Zmult_mod_idemp_l. f_equal; ring.
      + rewrite Zmult_mod_idemp_l, Zplus_mod_idemp_l, Zplus_mod_idemp_r. f_equal; ring.
      + rewrite Zplus_mod_idemp_r. f_equal. 
      + rewrite Zplus_mod_idemp_r. f_equal. ring.
    - intros x y; cbn [seqb scalar_w64]. rewrite Z.eqb_eq. split; [apply w64_eq|congruence].
  Qed.
End W64.
