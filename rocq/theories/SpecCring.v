(** Complex numbers over a ring (C53, C76, C87, C88). *)
From Verif Require Import Rust Scalar SpecComplex.

(** negation, conjugation and parts of [num_complex::Complex] (traits.rs:37-71, 105-127); like its other operations assumed, as the
    source of that crate is not in /repo *)
#[export] Instance scalarneg_cplx {T} `{ScalarNeg T} : ScalarNeg (cplx T) := { sneg a := Cx (sneg (cx_re a)) (sneg (cx_im a)) }.
#[export] Instance complexops_cplx {T} `{ScalarNeg T} : ComplexOps T (cplx T) :=
  { cnew := Cx; cconj a := Cx (cx_re a) (sneg (cx_im a)); cre := cx_re; cim := cx_im }.
(** both parts replaced *)
Definition cplx_map {T U} (h : T -> U) (v : cplx T) : cplx U := Cx (h (cx_re v)) (h (cx_im v)).
