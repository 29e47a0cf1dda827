(** Complex numbers satisfy what the formats need to agree (C98). *)
From Verif Require Import Rust Scalar Model_kernels Model_matrix Spec SpecRound SpecBits SpecComplex Wp Main_float Main_bits.
From Coq Require Import ZArith QArith Bool List Floats.SpecFloat.
Import ListNotations.

Section C.
Context {T : Type} {SC : Scalar T}.
Lemma c98_complex_zero (val : T -> Prop) : ZeroFirst val -> @ZeroFirst (cplx T) scalar_cplx (cplx_val val).
Proof.
  intros [A F]. constructor; intros a b [A1 A2] [B1 B2]; cbn; [split; apply A; assumption|]. rewrite !F by assumption. reflexivity.
Qed.
Lemma c98_complex_mul : Commutes (T := T) -> (forall a b : T, sadd a b = sadd b a) -> @Commutes (cplx T) scalar_cplx.
Proof.
  intros M A a b. cbn. f_equal; [f_equal; apply M|]. rewrite A. f_equal; apply M.
Qed.
End C.
Lemma add_comm_float prec emax x y : SFadd prec emax x y = SFadd prec emax y x.
Proof.
  destruct x as [[]|[]| |[] mx ex], y as [[]|[]| |[] my ey]; try reflexivity; unfold SFadd; rewrite (Z.min_comm ey ex), Z.add_comm; reflexivity.
Qed.
Lemma c98_complex_f64 : @ZeroFirst (cplx f64) scalar_cplx (cplx_val (float_val 53 1024)) /\ @Commutes (cplx f64) scalar_cplx.
Proof. destruct c98_f64 as [A B]. split; [exact (c98_complex_zero _ A)|exact (c98_complex_mul B (add_comm_float 53 1024))]. Qed.
Lemma c98_complex_f32 : @ZeroFirst (cplx spec_float) (@scalar_cplx _ scalar_f32) (cplx_val (float_val 24 128)) /\ @Commutes (cplx spec_float) (@scalar_cplx _ scalar_f32).
Proof. destruct c98_f32 as [A B]. split; [exact (@c98_complex_zero _ scalar_f32 _ A)|exact (@c98_complex_mul _ scalar_f32 B (add_comm_float 24 128))]. Qed.
Section F.
Variable I : ity.
Open Scope nat_scope.
Lemma c98_complex_f64_coo_to_csr : forall m : Coo (cplx f64), wf_coo I m -> (Z.of_nat (length (coo_values m)) < imax I)%Z -> Forall (cplx_val (float_val 53 1024)) (coo_values m) ->
  exists r d, Coo_to_csr I m = Ok r /\ Coo_to_dense m = Ok d /\ CSR_to_dense r = Ok d.
Proof. exact (c98_coo_to_csr I (proj1 c98_complex_f64)). Qed.
Lemma c98_complex_f64_mat_mat : forall a b p : CSR (cplx f64), wf_csr I a -> wf_csr I b -> csr_rows_fit I a -> csr_rows_fit I b -> csr_canonical a -> CSR_mat_mat I a b = Ok p ->
  exists ca cb c, CSR_to_csc I a = Ok ca /\ CSR_to_csc I b = Ok cb /\ CSC_mat_mat I ca cb = Ok c /\ csc_rows c = csr_rows p /\ csc_cols c = csr_cols p /\
    forall i k, i < csr_rows p -> k < csr_cols p -> csc_at c i k = csr_at p i k.
Proof. intros a b p. exact (c98_mat_mat I a b p (proj2 c98_complex_f64)). Qed.
End F.
