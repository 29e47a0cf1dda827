(** Complex numbers over a ring: C53, C76, C87, C88. *)
From Verif Require Import Rust Scalar Model_kernels Model_matrix Spec SpecPipe SpecHom SpecComplex SpecCring Wp Check Main_hom Main_cring.
From Coq Require Import ZArith List Floats.SpecFloat.
Import ListNotations.
Open Scope nat_scope.

(** C53: complex numbers over an exact ring are one, so every theorem on exact rings (C53, C61, C62, ...) holds of matrices of them. *)
Theorem C53_complex_ring : forall (T : Type) (SC : Scalar T) (SN : ScalarNeg T), ExactRing T -> ExactRing (cplx T).
Proof. exact @c53_complex_ring. Qed.
(** C76: addition of complex numbers commutes if that of their parts does. *)
Theorem C76_complex_comm : forall (T : Type) (SC : Scalar T), (forall x y : T, sadd x y = sadd y x) -> forall x y : cplx T, sadd x y = sadd y x.
Proof. exact @c76_complex_comm. Qed.
(** C87: conjugation preserves the operations and ==. *)
Theorem C87_complex_conj : forall (T : Type) (SC : Scalar T) (SN : ScalarNeg T), ExactRing T -> keeps_ring (cconj : cplx T -> cplx T) /\ keeps_eq (cconj : cplx T -> cplx T).
Proof. exact @c87_complex_conj. Qed.
(** Over f64 it does not, by the sign of a zero: (1 + i)(1 - i) is 2 + 0i, whose conjugate is 2 - 0i, but the product of the conjugates is 2 + 0i. *)
Theorem C87_complex_f64_refuted : exists a b p ca cb cp q : CSR (cplx f64), wf_csr U8 a /\ wf_csr U8 b /\ CSR_mat_mat U8 a b = Ok p /\
  CSR_conj (F := f64) a = Ok ca /\ CSR_conj (F := f64) b = Ok cb /\ CSR_conj (F := f64) p = Ok cp /\ CSR_mat_mat U8 ca cb = Ok q /\
  csr_at cp 0 0 = [Cx (S754_finite false 4503599627370496 (-51)) (S754_zero true)] /\ csr_at q 0 0 = [Cx (S754_finite false 4503599627370496 (-51)) (S754_zero false)].
Proof. exact c87_complex_f64_refuted. Qed.
(** C88: what preserves the operations on parts preserves them on complex numbers, ... *)
Theorem C88_complex_ring : forall (T U : Type) (ST : Scalar T) (SU : Scalar U) (h : T -> U), keeps_ring h -> keeps_ring (cplx_map h).
Proof. exact @c88_complex_ring. Qed.
(** ... so complex numbers with machine integers as parts end with the remainders of the exact parts, whatever overflowed on the way. *)
Theorem C88_complex_wrap : forall (I : ity) (cs : list (call (cplx Z))), calls_ok I [] cs -> calls_ok I [] (map (call_map (cplx_map wrap)) cs) ->
  exists st st', run I [] cs = Ok st /\ run I [] (map (call_map (cplx_map wrap)) cs) = Ok st' /\
    Forall2 (fun m m' => mat_rows m' = mat_rows m /\ mat_cols m' = mat_cols m /\ forall i j, i < mat_rows m -> j < mat_cols m ->
      wval (cx_re (mat_val m' i j)) = (cx_re (mat_val m i j) mod 2 ^ 64)%Z /\ wval (cx_im (mat_val m' i j)) = (cx_im (mat_val m i j) mod 2 ^ 64)%Z) st st'.
Proof. exact c88_complex_wrap. Qed.

(** A = [[2^40 + i, 3], [0, 5i]]; B = A A, whose real part overflows; B - A *)
Definition cwrap_calls : list (call (cplx Z)) := [CMake FCsr (MDense [[Cx (2 ^ 40) 1; Cx 3 0]; [Cx 0 0; Cx 0 5]]%Z); CBin BMul 0 0; CBin BSub 1 0].
Ltac calls := repeat match goal with
  | |- calls_ok _ _ [] => exact Logic.I
  | |- calls_ok _ _ (_ :: _) => split; [|match goal with |- context [step ?i ?st ?c] => let v := eval vm_compute in (step i st c) in replace (step i st c) with v by (vm_compute; reflexivity) end; cbv iota]
  | |- call_ok _ _ (CMake _ _) => split; [discriminate|]
  | |- call_ok _ _ (CBin _ _ _) => eexists _, _; split; [reflexivity|]; split; [reflexivity|]; split; [vm_compute; discriminate|]; vm_compute; sp; congruence
  end.
Example C88_complex_ex : calls_ok I32 [] cwrap_calls /\ calls_ok I32 [] (map (call_map (cplx_map wrap)) cwrap_calls) /\
  exists st st', run I32 [] cwrap_calls = Ok st /\ run I32 [] (map (call_map (cplx_map wrap)) cwrap_calls) = Ok st' /\
    map (fun m => mat_val m 0 0) st = [Cx (2 ^ 40) 1; Cx (2 ^ 80 - 1) (2 ^ 41); Cx (2 ^ 80 - 1 - 2 ^ 40) (2 ^ 41 - 1)]%Z /\
    map (fun m => (wval (cx_re (mat_val m 0 0)), wval (cx_im (mat_val m 0 0)))) st' = [(2 ^ 40, 1); (2 ^ 64 - 1, 2 ^ 41); (2 ^ 64 - 1 - 2 ^ 40, 2 ^ 41 - 1)]%Z.
Proof.
  split; [unfold cwrap_calls; calls|split; [unfold cwrap_calls; cbn [map call_map maker_map]; calls|]].
  3: { eexists _, _. split; [vm_compute; reflexivity|]. split; [vm_compute; reflexivity|]. split; vm_compute; reflexivity. }
  all: try (split; [discriminate|]; exists 2; sp; try (vm_compute; congruence); repeat constructor).
Qed.
(** the rings in question, and the conjugate of (2 + 3i)^2, which is the square of the conjugate *)
Example C87_complex_ex : ExactRing w64 /\ ExactRing Z /\ (cconj (smul (Cx 2 3) (Cx 2 3)) = Cx (-5) (-12) :> cplx Z)%Z /\ (smul (cconj (Cx 2 3)) (cconj (Cx 2 3)) = Cx (-5) (-12) :> cplx Z)%Z.
Proof. split; [exact exact_w64|]. split; [exact exact_Z|]. split; reflexivity. Qed.

Print Assumptions C53_complex_ring.
Print Assumptions C76_complex_comm.
Print Assumptions C87_complex_conj.
Print Assumptions C87_complex_f64_refuted.
Print Assumptions C88_complex_ring.
Print Assumptions C88_complex_wrap.
