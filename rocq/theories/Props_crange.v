(** Finite results of complex arithmetic: C97. *)
From Verif Require Import Rust Scalar Model_kernels Model_matrix Spec SpecRound SpecRange SpecComplex SpecCexact SpecCrange Wp Check Main_float Main_round Main_range Main_crange.
From Coq Require Import ZArith QArith Qabs List Floats.SpecFloat.
Import ListNotations.
Open Scope nat_scope.

Section Props.
Context {T : Type} {SC : Scalar T} {real : T -> Q} {fin val : T -> Prop} {u eta top : Q}
  (R : Rounded real fin val u eta) (G : Ranged real fin val top).
Variable I : ity.

(** C97 for complex numbers: if all parts of the stored values are numbers, a part of an element of a product is a number unless the
    magnitudes of the real products entering that part add up to more than the largest number leaves room for. *)
Theorem C97_complex_csr_mat_vec : forall (m : CSR (cplx T)) (x : list (cplx T)), wf_csr I m -> length x = csr_cols m ->
  Forall (cplx_good fin val) (csr_values m) -> Forall (cplx_good fin val) x ->
  exists y, CSR_mat_vec m x = Ok y /\ length y = csr_rows m /\
    forall i, i < csr_rows m -> finite_parts fin u eta top (nth i y s0) (csr_cterms (re_pair real) m x i) (csr_cterms (im_pair real) m x i).
Proof. exact (c97_complex_csr_mat_vec R G I). Qed.

Theorem C97_complex_csc_mat_vec : forall (m : CSC (cplx T)) (x : list (cplx T)), wf_csc I m -> length x = csc_cols m ->
  Forall (cplx_good fin val) (csc_values m) -> Forall (cplx_good fin val) x ->
  exists y, CSC_mat_vec m x = Ok y /\ length y = csc_rows m /\
    forall i, i < csc_rows m -> finite_parts fin u eta top (nth i y s0) (csc_cterms (re_pair real) m x i) (csc_cterms (im_pair real) m x i).
Proof. exact (c97_complex_csc_mat_vec R G I). Qed.

Theorem C97_complex_csr_mat_mat : forall a b r : CSR (cplx T), wf_csr I a -> wf_csr I b ->
  Forall (cplx_good fin val) (csr_values a) -> Forall (cplx_good fin val) (csr_values b) -> CSR_mat_mat I a b = Ok r ->
  forall i k v, i < csr_rows a -> In v (csr_at r i k) -> finite_parts fin u eta top v (csr_product_cterms (re_pair real) a b i k) (csr_product_cterms (im_pair real) a b i k).
Proof. exact (c97_complex_csr_mat_mat R G I). Qed.

Theorem C97_complex_csc_mat_mat : forall a b r : CSC (cplx T), wf_csc I a -> wf_csc I b ->
  Forall (cplx_good fin val) (csc_values a) -> Forall (cplx_good fin val) (csc_values b) -> CSC_mat_mat I a b = Ok r ->
  forall i k v, k < csc_cols b -> In v (csc_at r i k) -> finite_parts fin u eta top v (csc_product_cterms (re_pair real) a b i k) (csc_product_cterms (im_pair real) a b i k).
Proof. exact (c97_complex_csc_mat_mat R G I). Qed.

(** ... and a part of a sum of stored values, or of a sum or difference of matrices. *)
Theorem C97_complex_coo_to_dense : forall m : Coo (cplx T), wf_coo I m -> Forall (cplx_good fin val) (coo_values m) ->
  exists d, Coo_to_dense m = Ok d /\ is_table d (coo_rows m) (coo_cols m) (coo_val m) /\
    forall i j, finite_sums fin real u top (coo_val m i j) (coo_at m i j).
Proof. exact (c97_complex_coo_to_dense R G I). Qed.

Theorem C97_complex_csr_to_dense : forall m : CSR (cplx T), wf_csr I m -> Forall (cplx_good fin val) (csr_values m) ->
  exists d, CSR_to_dense m = Ok d /\ is_table d (csr_rows m) (csr_cols m) (csr_val m) /\
    forall i j, finite_sums fin real u top (csr_val m i j) (csr_at m i j).
Proof. exact (c97_complex_csr_to_dense R G I). Qed.

Theorem C97_complex_csc_to_dense : forall m : CSC (cplx T), wf_csc I m -> csc_cols_fit I m -> Forall (cplx_good fin val) (csc_values m) ->
  exists d, CSC_to_dense I m = Ok d /\ is_table d (csc_rows m) (csc_cols m) (csc_val m) /\
    forall i j, finite_sums fin real u top (csc_val m i j) (csc_at m i j).
Proof. exact (c97_complex_csc_to_dense R G I). Qed.

Theorem C97_complex_coo_to_csr : forall m : Coo (cplx T), wf_coo I m -> (Z.of_nat (length (coo_values m)) < imax I)%Z -> Forall (cplx_good fin val) (coo_values m) ->
  exists r, Coo_to_csr I m = Ok r /\ forall i j v, i < coo_rows m -> In v (csr_at r i j) -> finite_sums fin real u top v (coo_at m i j).
Proof. exact (c97_complex_coo_to_csr R G I). Qed.

Theorem C97_complex_coo_to_csc : forall m : Coo (cplx T), wf_coo I m -> (Z.of_nat (length (coo_values m)) < imax I)%Z -> Forall (cplx_good fin val) (coo_values m) ->
  exists r, Coo_to_csc I m = Ok r /\ forall i j v, j < coo_cols m -> In v (csc_at r i j) -> finite_sums fin real u top v (coo_at m i j).
Proof. exact (c97_complex_coo_to_csc R G I). Qed.

Theorem C97_complex_csr_sum_duplicates : forall m : CSR (cplx T), wf_csr I m -> (Z.of_nat (csr_count m) < imax I)%Z -> Forall (cplx_good fin val) (csr_values m) ->
  exists r, CSR_sum_duplicates I m = Ok r /\ forall i j v, In v (csr_at r i j) -> finite_sums fin real u top v (csr_at m i j).
Proof. exact (c97_complex_csr_sum_duplicates R G I). Qed.

Theorem C97_complex_csc_sum_duplicates : forall m : CSC (cplx T), wf_csc I m -> (Z.of_nat (csc_count m) < imax I)%Z -> Forall (cplx_good fin val) (csc_values m) ->
  exists r, CSC_sum_duplicates I m = Ok r /\ forall i j v, In v (csc_at r i j) -> finite_sums fin real u top v (csc_at m i j).
Proof. exact (c97_complex_csc_sum_duplicates R G I). Qed.

Theorem C97_complex_coo_add : forall a b : Coo (cplx T), wf_coo I a -> wf_coo I b -> coo_rows a = coo_rows b -> coo_cols a = coo_cols b ->
  (Z.of_nat (length (coo_values a) + length (coo_values b)) < imax I)%Z -> Forall (cplx_good fin val) (coo_values a) -> Forall (cplx_good fin val) (coo_values b) ->
  exists r, Coo_add I a b = Ok r /\
    forall i j v, i < coo_rows a -> In v (csr_at r i j) -> finite_sums fin real u top v (coo_at a i j ++ coo_at b i j).
Proof. exact (c97_complex_coo_add R G I). Qed.

Theorem C97_complex_csr_add : forall a b r : CSR (cplx T), wf_csr I a -> wf_csr I b -> csr_rows b = csr_rows a -> csr_cols b = csr_cols a ->
  Forall (cplx_good fin val) (csr_values a) -> Forall (cplx_good fin val) (csr_values b) -> CSR_add I a b = Ok r ->
  forall i j v, i < csr_rows a -> In v (csr_at r i j) -> finite_sums1 fin real u top v (csr_at a i j ++ csr_at b i j).
Proof. exact (c97_complex_csr_add R G I). Qed.

Theorem C97_complex_csr_sub : forall a b r : CSR (cplx T), wf_csr I a -> wf_csr I b -> csr_rows b = csr_rows a -> csr_cols b = csr_cols a ->
  Forall (cplx_good fin val) (csr_values a) -> Forall (cplx_good fin val) (csr_values b) -> CSR_sub I a b = Ok r ->
  forall i j v, i < csr_rows a -> In v (csr_at r i j) -> finite_sums1 fin real u top v (csr_at a i j ++ csr_at b i j).
Proof. exact (c97_complex_csr_sub R G I). Qed.

Theorem C97_complex_csc_add : forall a b r : CSC (cplx T), wf_csc I a -> wf_csc I b -> csc_rows b = csc_rows a -> csc_cols b = csc_cols a ->
  Forall (cplx_good fin val) (csc_values a) -> Forall (cplx_good fin val) (csc_values b) -> CSC_add I a b = Ok r ->
  forall i j v, j < csc_cols a -> In v (csc_at r i j) -> finite_sums1 fin real u top v (csc_at a i j ++ csc_at b i j).
Proof. exact (c97_complex_csc_add R G I). Qed.

Theorem C97_complex_csc_subtract : forall a b r : CSC (cplx T), wf_csc I a -> wf_csc I b -> csc_rows b = csc_rows a -> csc_cols b = csc_cols a ->
  Forall (cplx_good fin val) (csc_values a) -> Forall (cplx_good fin val) (csc_values b) -> CSC_subtract I a b = Ok r ->
  forall i j v, j < csc_cols a -> In v (csc_at r i j) -> finite_sums1 fin real u top v (csc_at a i j ++ csc_at b i j).
Proof. exact (c97_complex_csc_subtract R G I). Qed.

End Props.

Open Scope Q_scope.
(** ** Concrete cases *)
(** 0.1, -0.2, 1 and the largest f64 *)
Definition h01 : f64 := S754_finite false 7205759403792794 (-56).
Definition h02 : f64 := S754_finite true 7205759403792794 (-55).
Definition h1 : f64 := S754_finite false 4503599627370496 (-52).
Definition hmost : f64 := S754_finite false 9007199254740991 971.
(** row 0: 0.1 - 0.2i and 1 + 0.1i; row 1: the largest float in both parts *)
Definition hx_m : CSR (cplx f64) := mkCSR 2 2 [0; 2; 3]%Z [0; 1; 0]%Z [Cx h01 h02; Cx h1 h01; Cx hmost hmost].
Definition hx_x : list (cplx f64) := [Cx h1 h1; Cx h02 h01].
Local Notation fits := (fits_cdot (2 ^ (-53)) (2 ^ (-1075)) (float_top 53 1024)).
(** both parts of element 0 leave room; in element 1, (most + most i)(1 + i), neither does: the real part is 0 all the same, the imaginary part overflows *)
Example C97_complex_ex : wf_csr U8 hx_m /\ length hx_x = csr_cols hx_m /\
  Forall (cplx_good float_fin (float_val 53 1024)) (csr_values hx_m) /\ Forall (cplx_good float_fin (float_val 53 1024)) hx_x /\
  fits (csr_cterms (re_pair float_real) hx_m hx_x 0) /\ fits (csr_cterms (im_pair float_real) hx_m hx_x 0) /\
  ~ fits (csr_cterms (re_pair float_real) hx_m hx_x 1) /\ ~ fits (csr_cterms (im_pair float_real) hx_m hx_x 1) /\
  exists a b, CSR_mat_vec hx_m hx_x = Ok [a; b] /\ float_fin (cx_re a) /\ float_fin (cx_im a) /\ float_fin (cx_re b) /\ ~ float_fin (cx_im b).
Proof.
  split; [check|]. split; [reflexivity|]. split; [repeat constructor|]. split; [repeat constructor|].
  split; [vm_compute; discriminate|]. split; [vm_compute; discriminate|].
  split; [vm_compute; intros H; apply H; reflexivity|]. split; [vm_compute; intros H; apply H; reflexivity|].
  eexists _, _. split; [vm_compute; reflexivity|]. split; [exact Logic.I|]. split; [exact Logic.I|]. split; [exact Logic.I|]. intros H; exact H.
Qed.
(** one part leaves room and the other does not: two values at one position *)
Definition hx_c : Coo (cplx f64) := mkCoo 2 2 [1; 0; 1]%Z [0; 1; 0]%Z [Cx hmost h01; Cx hmost hmost; Cx hmost h02].
Example C97_complex_coo_ex : wf_coo U8 hx_c /\ Forall (cplx_good float_fin (float_val 53 1024)) (coo_values hx_c) /\
  fits_sum (2 ^ (-53)) (float_top 53 1024) (imags float_real (coo_at hx_c 1 0)) /\
  ~ fits_sum (2 ^ (-53)) (float_top 53 1024) (reals float_real (coo_at hx_c 1 0)) /\
  float_fin (cx_im (coo_val hx_c 1 0)) /\ ~ float_fin (cx_re (coo_val hx_c 1 0)) /\ coo_val hx_c 0 1 = Cx hmost hmost.
Proof.
  split; [check|]. split; [repeat constructor|]. split; [vm_compute; discriminate|]. split; [vm_compute; intros H; apply H; reflexivity|].
  split; [exact Logic.I|]. split; [intros H; exact H|reflexivity].
Qed.

Print Assumptions C97_complex_csr_mat_vec.
Print Assumptions C97_complex_csc_mat_vec.
Print Assumptions C97_complex_csr_mat_mat.
Print Assumptions C97_complex_csc_mat_mat.
Print Assumptions C97_complex_coo_to_dense.
Print Assumptions C97_complex_csr_to_dense.
Print Assumptions C97_complex_csc_to_dense.
Print Assumptions C97_complex_coo_to_csr.
Print Assumptions C97_complex_coo_to_csc.
Print Assumptions C97_complex_csr_sum_duplicates.
Print Assumptions C97_complex_csc_sum_duplicates.
Print Assumptions C97_complex_coo_add.
Print Assumptions C97_complex_csr_add.
Print Assumptions C97_complex_csr_sub.
Print Assumptions C97_complex_csc_add.
Print Assumptions C97_complex_csc_subtract.
