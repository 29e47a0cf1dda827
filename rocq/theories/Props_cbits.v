(** The format makes no rounding difference for complex numbers: C98. *)
From Verif Require Import Rust Scalar Model_kernels Model_matrix Spec SpecBoundary SpecRound SpecBits SpecComplex Wp Check Main_float Main_cbits.
From Coq Require Import ZArith List Floats.SpecFloat.
Import ListNotations.
Open Scope nat_scope.

(** C98: the theorems of Props_bits.v apply to complex numbers if they apply to their parts and addition of parts commutes, ... *)
Theorem C98_complex_zero : forall (T : Type) (SC : Scalar T) (val : T -> Prop), ZeroFirst val -> @ZeroFirst (cplx T) scalar_cplx (cplx_val val).
Proof. exact @c98_complex_zero. Qed.
Theorem C98_complex_mul : forall (T : Type) (SC : Scalar T), Commutes (T := T) -> (forall a b : T, sadd a b = sadd b a) -> @Commutes (cplx T) scalar_cplx.
Proof. exact @c98_complex_mul. Qed.
(** ... as is so for f64 and f32, infinities and NaN included. *)
Theorem C98_complex_f64 : @ZeroFirst (cplx f64) scalar_cplx (cplx_val (float_val 53 1024)) /\ @Commutes (cplx f64) scalar_cplx.
Proof. exact c98_complex_f64. Qed.
Theorem C98_complex_f32 : @ZeroFirst (cplx spec_float) (@scalar_cplx _ scalar_f32) (cplx_val (float_val 24 128)) /\ @Commutes (cplx spec_float) (@scalar_cplx _ scalar_f32).
Proof. exact c98_complex_f32. Qed.

(** Two cases written out: conversion of coordinates leaves the dense table of complex f64 numbers as it is, ... *)
Theorem C98_complex_f64_coo_to_csr : forall I (m : Coo (cplx f64)), wf_coo I m -> (Z.of_nat (length (coo_values m)) < imax I)%Z -> Forall (cplx_val (float_val 53 1024)) (coo_values m) ->
  exists r d, Coo_to_csr I m = Ok r /\ Coo_to_dense m = Ok d /\ CSR_to_dense r = Ok d.
Proof. exact c98_complex_f64_coo_to_csr. Qed.
(** ... and the product in CSR and in CSC holds the same values. *)
Theorem C98_complex_f64_mat_mat : forall I (a b p : CSR (cplx f64)), wf_csr I a -> wf_csr I b -> csr_rows_fit I a -> csr_rows_fit I b -> csr_canonical a -> CSR_mat_mat I a b = Ok p ->
  exists ca cb c, CSR_to_csc I a = Ok ca /\ CSR_to_csc I b = Ok cb /\ CSC_mat_mat I ca cb = Ok c /\ csc_rows c = csr_rows p /\ csc_cols c = csr_cols p /\
    forall i k, i < csr_rows p -> k < csr_cols p -> csc_at c i k = csr_at p i k.
Proof. exact c98_complex_f64_mat_mat. Qed.

(** ** Examples *)
Definition k1 : f64 := S754_finite false 4503599627370496 (-52).
Definition k01 : f64 := S754_finite false 7205759403792794 (-56).
Definition kbig : f64 := S754_finite false 4503599627370496 1.
Definition kneg : f64 := S754_finite true 4503599627370496 1.
(** three values at (1, 0), whose parts add up differently in another order; a negative zero as real part at (0, 1) *)
Definition cbits_c : Coo (cplx f64) := mkCoo 2 2 [1; 0; 1; 1]%Z [0; 1; 0; 0]%Z [Cx k1 k01; Cx (S754_zero true) k1; Cx kbig kneg; Cx kneg kbig].
Example C98_complex_coo_ex : wf_coo U8 cbits_c /\ Forall (cplx_val (float_val 53 1024)) (coo_values cbits_c) /\
  sadd (Cx k1 k01) (sadd (Cx kbig kneg) (Cx kneg kbig)) <> sadd (sadd (Cx k1 k01) (Cx kbig kneg)) (Cx kneg kbig) /\
  exists r, Coo_to_csr U8 cbits_c = Ok r /\ csr_at r 0 1 = [Cx (S754_zero true) k1] /\ length (csr_at r 1 0) = 1.
Proof.
  split; [check|]. split; [repeat constructor|]. split; [vm_compute; discriminate|].
  eexists. split; [vm_compute; reflexivity|]. split; vm_compute; reflexivity.
Qed.
(** a canonical matrix times one with two values at a position; products of parts are rounded *)
Definition cbits_a : CSR (cplx f64) := mkCSR 2 2 [0; 2; 3]%Z [0; 1; 1]%Z [Cx k01 k1; Cx kbig kneg; Cx k1 k01].
Definition cbits_b : CSR (cplx f64) := mkCSR 2 2 [0; 2; 4]%Z [1; 0; 0; 0]%Z [Cx k01 k01; Cx k1 k01; Cx k01 k1; Cx k01 k1].
Example C98_complex_product_ex : wf_csr U8 cbits_a /\ wf_csr U8 cbits_b /\ csr_rows_fit U8 cbits_a /\ csr_rows_fit U8 cbits_b /\ csr_canonical cbits_a /\
  exists p, CSR_mat_mat U8 cbits_a cbits_b = Ok p /\ csr_at p 0 0 <> [] /\ csr_at p 0 1 <> [] /\ csr_at p 1 0 <> [].
Proof.
  split; [check|]. split; [check|]. split; [check|]. split; [check|]. split; [check|].
  eexists. split; [vm_compute; reflexivity|]. repeat split; vm_compute; discriminate.
Qed.

Print Assumptions C98_complex_zero.
Print Assumptions C98_complex_mul.
Print Assumptions C98_complex_f64.
Print Assumptions C98_complex_f32.
Print Assumptions C98_complex_f64_coo_to_csr.
Print Assumptions C98_complex_f64_mat_mat.
