(** Complex numbers over a ring form a ring. *)
From Verif Require Import Rust Scalar Model_kernels Model_matrix Spec SpecPipe SpecHom SpecComplex SpecCring Wp Check Main_hom.
From Coq Require Import ZArith Bool List Ring Floats.SpecFloat.
Import ListNotations.
Open Scope nat_scope.

Section C.
Context {T : Type} {SC : Scalar T} {SN : ScalarNeg T} {ER : ExactRing T}.
Add Ring Tring : (er_ring (T := T)).
Lemma c53_complex_ring : ExactRing (cplx T).
Proof.
  constructor.
  - constructor; intros; repeat match goal with x : cplx T |- _ => destruct x end; cbn; f_equal; ring.
  - intros [a b] [c d]. cbn. rewrite andb_true_iff, !er_eqb. split; [intros []; congruence|intros [=]; auto].
Qed.
Lemma c87_complex_conj : keeps_ring (cconj : cplx T -> cplx T) /\ keeps_eq (cconj : cplx T -> cplx T).
Proof.
  split.
  - constructor; intros; repeat match goal with x : cplx T |- _ => destruct x end; cbn; f_equal; ring.
  - intros [a b] [c d]. cbn. f_equal. apply eq_true_iff_eq. rewrite !er_eqb. split; [intros E|congruence].
    transitivity (sneg (sneg b)); [ring|]. rewrite E. ring.
Qed.
End C.
Lemma c76_complex_comm {T} {SC : Scalar T} : (forall x y : T, sadd x y = sadd y x) -> forall x y : cplx T, sadd x y = sadd y x.
Proof. intros H x y. cbn. f_equal; apply H. Qed.
Lemma c88_complex_ring {T U} {ST : Scalar T} {SU : Scalar U} (h : T -> U) : keeps_ring h -> keeps_ring (cplx_map h).
Proof. intros [A B C D E]. constructor; intros; unfold cplx_map; cbn; rewrite ?A, ?B, ?C, ?D, ?E; reflexivity. Qed.
Lemma c88_complex_wrap : forall (I : ity) (cs : list (call (cplx Z))), calls_ok I [] cs -> calls_ok I [] (map (call_map (cplx_map wrap)) cs) ->
  exists st st', run I [] cs = Ok st /\ run I [] (map (call_map (cplx_map wrap)) cs) = Ok st' /\
    Forall2 (fun m m' => mat_rows m' = mat_rows m /\ mat_cols m' = mat_cols m /\ forall i j, i < mat_rows m -> j < mat_cols m ->
      wval (cx_re (mat_val m' i j)) = (cx_re (mat_val m i j) mod 2 ^ 64)%Z /\ wval (cx_im (mat_val m' i j)) = (cx_im (mat_val m i j) mod 2 ^ 64)%Z) st st'.
Proof.
  intros I cs H H'. destruct (c88_history (RT := c53_complex_ring) (RU := c53_complex_ring) I (cplx_map wrap) (c88_complex_ring _ wrap_keeps) cs H H') as (st & st' & E & E' & F). exists st, st'. split; [exact E|]. split; [exact E'|].
  clear E E' H H'. induction F as [|m m' st st' (A & B & D) F IH]; constructor; [|exact IH]. split; [exact A|]. split; [exact B|]. intros i j Hi Hj. rewrite D by assumption. split; apply wval_wrap.
Qed.
Lemma c87_complex_f64_refuted : exists a b p ca cb cp q : CSR (cplx f64), wf_csr U8 a /\ wf_csr U8 b /\ CSR_mat_mat U8 a b = Ok p /\
  CSR_conj (F := f64) a = Ok ca /\ CSR_conj (F := f64) b = Ok cb /\ CSR_conj (F := f64) p = Ok cp /\ CSR_mat_mat U8 ca cb = Ok q /\
  csr_at cp 0 0 = [Cx (S754_finite false 4503599627370496 (-51)) (S754_zero true)] /\ csr_at q 0 0 = [Cx (S754_finite false 4503599627370496 (-51)) (S754_zero false)].
Proof.
  exists (mkCSR 1 1 [0; 1]%Z [0]%Z [Cx s1 s1]), (mkCSR 1 1 [0; 1]%Z [0]%Z [Cx s1 (sneg s1)]).
  eexists _, _, _, _, _. split; [check|]. split; [check|]. repeat (split; [vm_compute; reflexivity|]). vm_compute; reflexivity.
Qed.
