(** No difference between the formats, without a law of arithmetic: C98. *)
From Verif Require Import Rust Scalar Model_kernels Model_matrix Spec SpecRound SpecBits Wp Check Main_bits.
From Coq Require Import ZArith List Floats.SpecFloat.
Import ListNotations.
Open Scope nat_scope.

Section Props.
Context {T : Type} {SC : Scalar T}.
Variable I : ity.

(** C98: conversions between formats that do not add, and sorting, leave the dense table as it is, whatever the scalars are. *)
Theorem C98_csr_to_csc : forall m : CSR T, wf_csr I m -> csr_rows_fit I m ->
  exists r d, CSR_to_csc I m = Ok r /\ CSR_to_dense m = Ok d /\ CSC_to_dense I r = Ok d.
Proof. exact (c98_csr_to_csc I). Qed.

Theorem C98_csc_to_csr : forall m : CSC T, wf_csc I m -> csc_cols_fit I m ->
  exists r d, CSC_to_csr I m = Ok r /\ CSC_to_dense I m = Ok d /\ CSR_to_dense r = Ok d.
Proof. exact (c98_csc_to_csr I). Qed.

Theorem C98_csr_to_coo : forall m : CSR T, wf_csr I m -> csr_rows_fit I m -> csr_tight m ->
  exists r d, CSR_to_coo I m = Ok r /\ CSR_to_dense m = Ok d /\ Coo_to_dense r = Ok d.
Proof. exact (c98_csr_to_coo I). Qed.

Theorem C98_csc_to_coo : forall m : CSC T, wf_csc I m -> csc_cols_fit I m ->
  exists r d, CSC_to_coo I m = Ok r /\ CSC_to_dense I m = Ok d /\ Coo_to_dense r = Ok d.
Proof. exact (c98_csc_to_coo I). Qed.

Theorem C98_csr_sort_indexes : forall m : CSR T, wf_csr I m ->
  exists r d, CSR_sort_indexes m = Ok r /\ CSR_to_dense m = Ok d /\ CSR_to_dense r = Ok d.
Proof. exact (c98_csr_sort_indexes I). Qed.

Theorem C98_csc_sort_indexes : forall m : CSC T, wf_csc I m -> csc_cols_fit I m ->
  exists r d, CSC_sort_indexes m = Ok r /\ CSC_to_dense I m = Ok d /\ CSC_to_dense I r = Ok d.
Proof. exact (c98_csc_sort_indexes I). Qed.

(** ... and a CSC matrix times a vector is the same vector after conversion to CSR. *)
Theorem C98_mat_vec : forall (m : CSC T) (x : list T), wf_csc I m -> csc_cols_fit I m -> length x = csc_cols m ->
  exists r y, CSC_to_csr I m = Ok r /\ CSC_mat_vec m x = Ok y /\ CSR_mat_vec r x = Ok y.
Proof. exact (c98_mat_vec I). Qed.

(** Conversions that add up the values of a position leave the dense table as it is if adding zero first or last is the same. *)
Theorem C98_coo_to_csr : forall (val : T -> Prop) (m : Coo T), ZeroFirst val -> wf_coo I m -> (Z.of_nat (length (coo_values m)) < imax I)%Z -> Forall val (coo_values m) ->
  exists r d, Coo_to_csr I m = Ok r /\ Coo_to_dense m = Ok d /\ CSR_to_dense r = Ok d.
Proof. exact (fun val m Z => c98_coo_to_csr I Z m). Qed.

Theorem C98_coo_to_csc : forall (val : T -> Prop) (m : Coo T), ZeroFirst val -> wf_coo I m -> (Z.of_nat (length (coo_values m)) < imax I)%Z -> Forall val (coo_values m) ->
  exists r d, Coo_to_csc I m = Ok r /\ Coo_to_dense m = Ok d /\ CSC_to_dense I r = Ok d.
Proof. exact (fun val m Z => c98_coo_to_csc I Z m). Qed.

Theorem C98_csr_sum_duplicates : forall (val : T -> Prop) (m : CSR T), ZeroFirst val -> wf_csr I m -> (Z.of_nat (csr_count m) < imax I)%Z -> Forall val (csr_values m) ->
  exists r d, CSR_sum_duplicates I m = Ok r /\ CSR_to_dense m = Ok d /\ CSR_to_dense r = Ok d.
Proof. exact (fun val m Z => c98_csr_sum_duplicates I Z m). Qed.

Theorem C98_csc_sum_duplicates : forall (val : T -> Prop) (m : CSC T), ZeroFirst val -> wf_csc I m -> csc_cols_fit I m -> (Z.of_nat (csc_count m) < imax I)%Z -> Forall val (csc_values m) ->
  exists r d, CSC_sum_duplicates I m = Ok r /\ CSC_to_dense I m = Ok d /\ CSC_to_dense I r = Ok d.
Proof. exact (fun val m Z => c98_csc_sum_duplicates I Z m). Qed.

(** The product of two CSR matrices, the first of them canonical, holds the same values as that of the converted matrices. *)
Theorem C98_mat_mat : forall a b p : CSR T, Commutes (T := T) -> wf_csr I a -> wf_csr I b -> csr_rows_fit I a -> csr_rows_fit I b -> csr_canonical a -> CSR_mat_mat I a b = Ok p ->
  exists ca cb c, CSR_to_csc I a = Ok ca /\ CSR_to_csc I b = Ok cb /\ CSC_mat_mat I ca cb = Ok c /\ csc_rows c = csr_rows p /\ csc_cols c = csr_cols p /\
    forall i k, i < csr_rows p -> k < csr_cols p -> csc_at c i k = csr_at p i k.
Proof. exact (c98_mat_mat I). Qed.

(** So do sums and differences of canonical matrices. *)
Theorem C98_add : forall (a b p : CSR T) (ca cb c : CSC T), wf_csr I a -> wf_csr I b -> csr_rows b = csr_rows a -> csr_cols b = csr_cols a -> csr_canonical a -> csr_canonical b ->
  CSR_to_csc I a = Ok ca -> CSR_to_csc I b = Ok cb -> CSR_add I a b = Ok p -> CSC_add I ca cb = Ok c ->
  csc_rows c = csr_rows p /\ csc_cols c = csr_cols p /\ forall i j, i < csr_rows p -> j < csr_cols p -> csc_at c i j = csr_at p i j.
Proof. exact (c98_add I). Qed.

Theorem C98_sub : forall (a b p : CSR T) (ca cb c : CSC T), wf_csr I a -> wf_csr I b -> csr_rows b = csr_rows a -> csr_cols b = csr_cols a -> csr_canonical a -> csr_canonical b ->
  CSR_to_csc I a = Ok ca -> CSR_to_csc I b = Ok cb -> CSR_sub I a b = Ok p -> CSC_subtract I ca cb = Ok c ->
  csc_rows c = csr_rows p /\ csc_cols c = csr_cols p /\ forall i j, i < csr_rows p -> j < csr_cols p -> csc_at c i j = csr_at p i j.
Proof. exact (c98_sub I). Qed.
End Props.

(** IEEE arithmetic is of this kind: for every two floats of the format, infinities and NaN included. *)
Theorem C98_f64 : @ZeroFirst f64 scalar_f64 (float_val 53 1024) /\ @Commutes f64 scalar_f64.
Proof. exact c98_f64. Qed.
Theorem C98_f32 : @ZeroFirst spec_float scalar_f32 (float_val 24 128) /\ @Commutes spec_float scalar_f32.
Proof. exact c98_f32. Qed.

(** That the first factor is canonical is needed: if both store several values at one position, the products are added up in different orders. *)
Theorem C98_mat_mat_refuted : exists (a b p : CSR f64) (ca cb c : CSC f64),
  wf_csr U8 a /\ wf_csr U8 b /\ csr_sorted a /\ csr_sorted b /\ CSR_to_csc U8 a = Ok ca /\ CSR_to_csc U8 b = Ok cb /\
  CSR_mat_mat U8 a b = Ok p /\ CSC_mat_mat U8 ca cb = Ok c /\ csc_val c 0 0 <> csr_val p 0 0.
Proof. exact c98_mat_mat_refuted. Qed.

(** ** Examples *)
Definition g1 : f64 := S754_finite false 4503599627370496 (-52).
Definition g01 : f64 := S754_finite false 7205759403792794 (-56).
Definition gbig : f64 := S754_finite false 4503599627370496 1.
Definition gneg : f64 := S754_finite true 4503599627370496 1.
Definition gm0 : f64 := S754_zero true.
(** 1 + 2^53 - 2^53 at (1, 0), where the order matters: addition is not associative; a negative zero at (0, 1) *)
Definition bits_c : Coo f64 := mkCoo 2 2 [1; 0; 1; 1]%Z [0; 1; 0; 0]%Z [g1; gm0; gbig; gneg].
Example C98_coo_ex : wf_coo U8 bits_c /\ Forall (float_val 53 1024) (coo_values bits_c) /\
  sadd g1 (sadd gbig gneg) <> sadd (sadd g1 gbig) gneg /\ sadd s0 gm0 <> gm0 /\
  (exists r, Coo_to_csr U8 bits_c = Ok r /\ csr_at r 0 1 = [gm0] /\ csr_at r 1 0 = [s0]) /\
  (exists r d, Coo_to_csc U8 bits_c = Ok r /\ Coo_to_dense bits_c = Ok d /\ CSC_to_dense U8 r = Ok d).
Proof.
  split; [check|]. split; [repeat constructor|]. split; [vm_compute; discriminate|]. split; [vm_compute; discriminate|].
  split; [eexists; split; [vm_compute; reflexivity|split; vm_compute; reflexivity]|]. eexists _, _. split; [vm_compute; reflexivity|split; vm_compute; reflexivity].
Qed.
(** a canonical matrix with rounded products *)
Definition bits_m : CSR f64 := mkCSR 2 3 [0; 3; 4]%Z [0; 1; 2; 1]%Z [g01; gbig; gneg; g1].
Definition bits_n : CSR f64 := mkCSR 3 2 [0; 2; 4; 5]%Z [1; 0; 0; 0; 0]%Z [g01; g1; g01; g1; g01].
Example C98_product_ex : wf_csr U8 bits_m /\ wf_csr U8 bits_n /\ csr_rows_fit U8 bits_m /\ csr_rows_fit U8 bits_n /\ csr_canonical bits_m /\ ~ csr_canonical bits_n /\
  (exists p, CSR_mat_mat U8 bits_m bits_n = Ok p /\ csr_at p 0 0 <> [] /\ csr_at p 0 1 <> [] /\ csr_at p 1 0 <> []) /\
  exists p, CSR_add U8 bits_m bits_m = Ok p /\ csr_at p 0 0 = [sadd g01 g01].
Proof.
  split; [check|]. split; [check|]. split; [check|]. split; [check|]. split; [check|]. split.
  - intros H. specialize (H 1 ltac:(vm_compute; repeat constructor)). vm_compute in H. inversion H as [|? ? _ F]. inversion F as [|? ? G]. inversion G.
  - split; [|eexists; split; vm_compute; reflexivity]. eexists. split; [vm_compute; reflexivity|]. repeat split; vm_compute; discriminate.
Qed.

Print Assumptions C98_csr_to_csc.
Print Assumptions C98_csc_to_csr.
Print Assumptions C98_csr_to_coo.
Print Assumptions C98_csc_to_coo.
Print Assumptions C98_csr_sort_indexes.
Print Assumptions C98_csc_sort_indexes.
Print Assumptions C98_mat_vec.
Print Assumptions C98_coo_to_csr.
Print Assumptions C98_coo_to_csc.
Print Assumptions C98_csr_sum_duplicates.
Print Assumptions C98_csc_sum_duplicates.
Print Assumptions C98_mat_mat.
Print Assumptions C98_add.
Print Assumptions C98_sub.
Print Assumptions C98_f64.
Print Assumptions C98_f32.
Print Assumptions C98_mat_mat_refuted.
