(** At the maximal number of entries: C11, C14, C51. *)
From Verif Require Import Rust Scalar Model_kernels Model_matrix Spec SpecBoundary Wp Check Main_boundary.

Section Props.
Context {T : Type} {SC : Scalar T}.
Variable I : ity.

(** C11, without a bound on the number of entries: has_canonical_format decides canonicity of every well-formed matrix, except that it
    panics if the matrix is canonical, has as many entries as the index type can count and stores nothing in its last row. *)
Theorem C11_csr_exact : forall m : CSR T, wf_csr I m ->
  (csr_full I m -> CSR_has_canonical_format I m = Panic) /\
  (~ csr_full I m -> exists b, CSR_has_canonical_format I m = Ok b /\ (b = true <-> csr_canonical m)).
Proof. exact (c11_csr_exact I). Qed.
Theorem C11_csc_exact : forall m : CSC T, wf_csc I m ->
  (csc_full I m -> CSC_has_canonical_format I m = Panic) /\
  (~ csc_full I m -> exists b, CSC_has_canonical_format I m = Ok b /\ (b = true <-> csc_canonical m)).
Proof. exact (c11_csc_exact I). Qed.
(** C14, without a bound: sum_duplicates yields the canonical form, except on the same matrices, where it panics. *)
Theorem C14_csr_exact : forall m : CSR T, wf_csr I m ->
  (csr_full I m -> CSR_sum_duplicates I m = Panic) /\
  (~ csr_full I m -> exists s, CSR_sum_duplicates I m = Ok s /\ wf_csr I s /\ csr_rows s = csr_rows m /\ csr_cols s = csr_cols m /\
    csr_canonical s /\ (forall i j, csr_at s i j = dup_sum (csr_at m i j)) /\
    (csr_canonical m -> s = m) /\ (csr_tight m \/ ~ csr_canonical m -> csr_tight s)).
Proof. exact (c14_csr_exact I). Qed.
Theorem C14_csc_exact : forall m : CSC T, wf_csc I m ->
  (csc_full I m -> CSC_sum_duplicates I m = Panic) /\
  (~ csc_full I m -> exists s, CSC_sum_duplicates I m = Ok s /\ wf_csc I s /\ csc_rows s = csc_rows m /\ csc_cols s = csc_cols m /\
    csc_canonical s /\ (forall i j, csc_at s i j = dup_sum (csc_at m i j)) /\
    (csc_canonical m -> s = m) /\ (csc_tight m \/ ~ csc_canonical m -> csc_tight s)).
Proof. exact (c14_csc_exact I). Qed.
(** C51 / C01, without a bound: to_csr panics exactly if there are more triplets than the index type can count, or just as many with
    none in the last row and the triplets of every row pushed from left to right; it is right on all other well-formed matrices. *)
Theorem C51_to_csr_exact : forall m : Coo T, wf_coo I m ->
  ((imax I < Z.of_nat (length (coo_values m)))%Z \/ coo_full_rows I m -> Coo_to_csr I m = Panic) /\
  (~ ((imax I < Z.of_nat (length (coo_values m)))%Z \/ coo_full_rows I m) ->
   exists r, Coo_to_csr I m = Ok r /\ wf_csr I r /\ csr_tight r /\ csr_rows r = coo_rows m /\ csr_cols r = coo_cols m /\ csr_canonical r /\
    forall i j, i < coo_rows m -> csr_at r i j = dup_sum (coo_at m i j)).
Proof. exact (c51_to_csr_exact I). Qed.
(** ... and to_csc, with columns in place of rows. *)
Theorem C51_to_csc_exact : forall m : Coo T, wf_coo I m ->
  ((imax I < Z.of_nat (length (coo_values m)))%Z \/ coo_full_cols I m -> Coo_to_csc I m = Panic) /\
  (~ ((imax I < Z.of_nat (length (coo_values m)))%Z \/ coo_full_cols I m) ->
   exists r, Coo_to_csc I m = Ok r /\ wf_csc I r /\ csc_tight r /\ csc_rows r = coo_rows m /\ csc_cols r = coo_cols m /\ csc_canonical r /\
    forall i j, j < coo_cols m -> csc_at r i j = dup_sum (coo_at m i j)).
Proof. exact (c51_to_csc_exact I). Qed.
End Props.

(** ** Concrete cases: 127 triplets in the first row of a 2 by 127 matrix with i8 indices, from left to right and from right to left *)
Definition ex_up : Coo Z := mkCoo 2 127 (repeat 0%Z 127) (map Z.of_nat (seq 0 127)) (map Z.of_nat (seq 1 127)).
Definition ex_down : Coo Z := mkCoo 2 127 (repeat 0%Z 127) (rev (map Z.of_nat (seq 0 127))) (map Z.of_nat (seq 1 127)).
Example ex_boundary_meets : wf_coo I8 ex_up /\ wf_coo I8 ex_down /\ Z.of_nat (length (coo_values ex_up)) = imax I8 /\ Z.of_nat (length (coo_values ex_down)) = imax I8.
Proof. split; [check|]. split; [check|]. split; reflexivity. Qed.
Example C51_up_ex : Coo_to_csr I8 ex_up = Panic.
Proof. reflexivity. Qed.
Example C51_down_ex : exists r, Coo_to_csr I8 ex_down = Ok r /\ csr_at r 0 0 = [127]%Z /\ CSR_has_canonical_format I8 r = Panic /\ CSR_sum_duplicates I8 r = Panic.
Proof. eexists. split; [vm_compute; reflexivity|]. repeat split; vm_compute; reflexivity. Qed.
Example C51_up_csc_ex : exists r, Coo_to_csc I8 ex_up = Ok r /\ csc_at r 0 126 = [127]%Z /\ CSC_has_canonical_format I8 r = Ok true.
Proof. eexists. split; [vm_compute; reflexivity|]. repeat split; vm_compute; reflexivity. Qed.

Print Assumptions C11_csr_exact.
Print Assumptions C11_csc_exact.
Print Assumptions C14_csr_exact.
Print Assumptions C14_csc_exact.
Print Assumptions C51_to_csr_exact.
Print Assumptions C51_to_csc_exact.
