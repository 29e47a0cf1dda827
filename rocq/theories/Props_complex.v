(** Rounding errors of complex matrices: C99. *)
From Verif Require Import Rust Scalar Model_kernels Model_matrix Spec SpecRound SpecComplex Wp Check Main_float Main_round Main_complex.
From Coq Require Import ZArith QArith Qabs List Floats.SpecFloat.
Import ListNotations.
Open Scope nat_scope.

Section Props.
Context {T : Type} {SC : Scalar T} {real : T -> Q} {fin val : T -> Prop} {u eta : Q} (R : Rounded real fin val u eta).
Variable I : ity.

(** C99: each finite part of an element of a product with a vector is as close to the exact one as rounding leaves it. *)
Theorem C99_csr_mat_vec : forall (m : CSR (cplx T)) (x : list (cplx T)), wf_csr I m -> length x = csr_cols m ->
  Forall (cplx_val val) (csr_values m) -> Forall (cplx_val val) x ->
  exists y, CSR_mat_vec m x = Ok y /\ length y = csr_rows m /\
    forall i, i < csr_rows m -> let v := nth i y s0 in
      parts fin v (near_cdot u eta (real (cx_re v)) (csr_cterms (re_pair real) m x i)) (near_cdot u eta (real (cx_im v)) (csr_cterms (im_pair real) m x i)).
Proof. exact (c99_csr_mat_vec R I). Qed.

Theorem C99_csc_mat_vec : forall (m : CSC (cplx T)) (x : list (cplx T)), wf_csc I m -> length x = csc_cols m ->
  Forall (cplx_val val) (csc_values m) -> Forall (cplx_val val) x ->
  exists y, CSC_mat_vec m x = Ok y /\ length y = csc_rows m /\
    forall i, i < csc_rows m -> let v := nth i y s0 in
      parts fin v (near_cdot u eta (real (cx_re v)) (csc_cterms (re_pair real) m x i)) (near_cdot u eta (real (cx_im v)) (csc_cterms (im_pair real) m x i)).
Proof. exact (c99_csc_mat_vec R I). Qed.

(** ... likewise for products of matrices, where an element is dropped only if both parts are zero; *)
Theorem C99_csr_mat_mat : forall a b r : CSR (cplx T), wf_csr I a -> wf_csr I b -> Forall (cplx_val val) (csr_values a) -> Forall (cplx_val val) (csr_values b) ->
  CSR_mat_mat I a b = Ok r -> forall i k, i < csr_rows a -> let v := csr_val r i k in
    parts fin v (near_cdot u eta (real (cx_re v)) (csr_product_cterms (re_pair real) a b i k)) (near_cdot u eta (real (cx_im v)) (csr_product_cterms (im_pair real) a b i k)).
Proof. exact (c99_csr_mat_mat R I). Qed.

Theorem C99_csc_mat_mat : forall a b r : CSC (cplx T), wf_csc I a -> wf_csc I b -> Forall (cplx_val val) (csc_values a) -> Forall (cplx_val val) (csc_values b) ->
  CSC_mat_mat I a b = Ok r -> forall i k, k < csc_cols b -> let v := csc_val r i k in
    parts fin v (near_cdot u eta (real (cx_re v)) (csc_product_cterms (re_pair real) a b i k)) (near_cdot u eta (real (cx_im v)) (csc_product_cterms (im_pair real) a b i k)).
Proof. exact (c99_csc_mat_mat R I). Qed.

(** ... for a cell of a dense table, a sum without products; *)
Theorem C99_coo_to_dense : forall m : Coo (cplx T), wf_coo I m -> Forall (cplx_val val) (coo_values m) ->
  exists d, Coo_to_dense m = Ok d /\ is_table d (coo_rows m) (coo_cols m) (coo_val m) /\
    forall i j, let v := coo_val m i j in
      parts fin v (near_sum u (real (cx_re v)) (reals real (coo_at m i j))) (near_sum u (real (cx_im v)) (imags real (coo_at m i j))).
Proof. exact (c99_coo_to_dense R I). Qed.

Theorem C99_csr_to_dense : forall m : CSR (cplx T), wf_csr I m -> Forall (cplx_val val) (csr_values m) ->
  exists d, CSR_to_dense m = Ok d /\ is_table d (csr_rows m) (csr_cols m) (csr_val m) /\
    forall i j, let v := csr_val m i j in
      parts fin v (near_sum u (real (cx_re v)) (reals real (csr_at m i j))) (near_sum u (real (cx_im v)) (imags real (csr_at m i j))).
Proof. exact (c99_csr_to_dense R I). Qed.

Theorem C99_csc_to_dense : forall m : CSC (cplx T), wf_csc I m -> csc_cols_fit I m -> Forall (cplx_val val) (csc_values m) ->
  exists d, CSC_to_dense I m = Ok d /\ is_table d (csc_rows m) (csc_cols m) (csc_val m) /\
    forall i j, let v := csc_val m i j in
      parts fin v (near_sum u (real (cx_re v)) (reals real (csc_at m i j))) (near_sum u (real (cx_im v)) (imags real (csc_at m i j))).
Proof. exact (c99_csc_to_dense R I). Qed.

(** ... for entries with the same position summed into one; *)
Theorem C99_coo_to_csr : forall m : Coo (cplx T), wf_coo I m -> (Z.of_nat (length (coo_values m)) < imax I)%Z -> Forall (cplx_val val) (coo_values m) ->
  exists r, Coo_to_csr I m = Ok r /\ forall i j v, i < coo_rows m -> In v (csr_at r i j) ->
    parts fin v (near_sum u (real (cx_re v)) (reals real (coo_at m i j))) (near_sum u (real (cx_im v)) (imags real (coo_at m i j))).
Proof. exact (c99_coo_to_csr R I). Qed.

Theorem C99_coo_to_csc : forall m : Coo (cplx T), wf_coo I m -> (Z.of_nat (length (coo_values m)) < imax I)%Z -> Forall (cplx_val val) (coo_values m) ->
  exists r, Coo_to_csc I m = Ok r /\ forall i j v, j < coo_cols m -> In v (csc_at r i j) ->
    parts fin v (near_sum u (real (cx_re v)) (reals real (coo_at m i j))) (near_sum u (real (cx_im v)) (imags real (coo_at m i j))).
Proof. exact (c99_coo_to_csc R I). Qed.

Theorem C99_csr_sum_duplicates : forall m : CSR (cplx T), wf_csr I m -> (Z.of_nat (csr_count m) < imax I)%Z -> Forall (cplx_val val) (csr_values m) ->
  exists r, CSR_sum_duplicates I m = Ok r /\ forall i j v, In v (csr_at r i j) ->
    parts fin v (near_sum u (real (cx_re v)) (reals real (csr_at m i j))) (near_sum u (real (cx_im v)) (imags real (csr_at m i j))).
Proof. exact (c99_csr_sum_duplicates R I). Qed.

Theorem C99_csc_sum_duplicates : forall m : CSC (cplx T), wf_csc I m -> (Z.of_nat (csc_count m) < imax I)%Z -> Forall (cplx_val val) (csc_values m) ->
  exists r, CSC_sum_duplicates I m = Ok r /\ forall i j v, In v (csc_at r i j) ->
    parts fin v (near_sum u (real (cx_re v)) (reals real (csc_at m i j))) (near_sum u (real (cx_im v)) (imags real (csc_at m i j))).
Proof. exact (c99_csc_sum_duplicates R I). Qed.

(** ... and for sums and differences of matrices. *)
Theorem C99_coo_add : forall a b : Coo (cplx T), wf_coo I a -> wf_coo I b -> coo_rows a = coo_rows b -> coo_cols a = coo_cols b ->
  (Z.of_nat (length (coo_values a) + length (coo_values b)) < imax I)%Z -> Forall (cplx_val val) (coo_values a) -> Forall (cplx_val val) (coo_values b) ->
  exists r, Coo_add I a b = Ok r /\ forall i j v, i < coo_rows a -> In v (csr_at r i j) ->
    parts fin v (near_sum u (real (cx_re v)) (reals real (coo_at a i j) ++ reals real (coo_at b i j)))
      (near_sum u (real (cx_im v)) (imags real (coo_at a i j) ++ imags real (coo_at b i j))).
Proof. exact (c99_coo_add R I). Qed.

Theorem C99_csr_add : forall a b r : CSR (cplx T), wf_csr I a -> wf_csr I b -> csr_rows b = csr_rows a -> csr_cols b = csr_cols a ->
  Forall (cplx_val val) (csr_values a) -> Forall (cplx_val val) (csr_values b) -> CSR_add I a b = Ok r ->
  forall i j, i < csr_rows a -> let v := csr_val r i j in
    parts fin v (near_dot u 0 (real (cx_re v)) (reals real (csr_at a i j) ++ reals real (csr_at b i j)))
      (near_dot u 0 (real (cx_im v)) (imags real (csr_at a i j) ++ imags real (csr_at b i j))).
Proof. exact (c99_csr_add R I). Qed.

Theorem C99_csr_sub : forall a b r : CSR (cplx T), wf_csr I a -> wf_csr I b -> csr_rows b = csr_rows a -> csr_cols b = csr_cols a ->
  Forall (cplx_val val) (csr_values a) -> Forall (cplx_val val) (csr_values b) -> CSR_sub I a b = Ok r ->
  forall i j, i < csr_rows a -> let v := csr_val r i j in
    parts fin v (near_dot u 0 (real (cx_re v)) (reals real (csr_at a i j) ++ map Qopp (reals real (csr_at b i j))))
      (near_dot u 0 (real (cx_im v)) (imags real (csr_at a i j) ++ map Qopp (imags real (csr_at b i j)))).
Proof. exact (c99_csr_sub R I). Qed.

Theorem C99_csc_add : forall a b r : CSC (cplx T), wf_csc I a -> wf_csc I b -> csc_rows b = csc_rows a -> csc_cols b = csc_cols a ->
  Forall (cplx_val val) (csc_values a) -> Forall (cplx_val val) (csc_values b) -> CSC_add I a b = Ok r ->
  forall i j, j < csc_cols a -> let v := csc_val r i j in
    parts fin v (near_dot u 0 (real (cx_re v)) (reals real (csc_at a i j) ++ reals real (csc_at b i j)))
      (near_dot u 0 (real (cx_im v)) (imags real (csc_at a i j) ++ imags real (csc_at b i j))).
Proof. exact (c99_csc_add R I). Qed.

Theorem C99_csc_subtract : forall a b r : CSC (cplx T), wf_csc I a -> wf_csc I b -> csc_rows b = csc_rows a -> csc_cols b = csc_cols a ->
  Forall (cplx_val val) (csc_values a) -> Forall (cplx_val val) (csc_values b) -> CSC_subtract I a b = Ok r ->
  forall i j, j < csc_cols a -> let v := csc_val r i j in
    parts fin v (near_dot u 0 (real (cx_re v)) (reals real (csc_at a i j) ++ map Qopp (reals real (csc_at b i j))))
      (near_dot u 0 (real (cx_im v)) (imags real (csc_at a i j) ++ map Qopp (imags real (csc_at b i j)))).
Proof. exact (c99_csc_subtract R I). Qed.

End Props.

Open Scope Q_scope.
(** C99 for pairs of f64, written out: whatever the stored values and the vector are. *)
Theorem C99_f64_mat_vec : forall I (m : CSR (cplx f64)) (x : list (cplx f64)), wf_csr I m -> length x = csr_cols m ->
  (forall v, In v (csr_values m) \/ In v x -> valid_binary 53 1024 (cx_re v) = true /\ valid_binary 53 1024 (cx_im v) = true) ->
  exists y, CSR_mat_vec m x = Ok y /\ length y = csr_rows m /\
    forall i, (i < csr_rows m)%nat ->
      (float_fin (cx_re (nth i y s0)) ->
        let t := csr_cterms (re_pair float_real) m x i in let k := Z.of_nat (length t) in
        Qabs (float_real (cx_re (nth i y s0)) - pair_sum t) <= ((1 + 2 ^ (-53)) ^ (k + 1) - 1) * pair_abs t + 2 * inject_Z k * (1 + 2 ^ (-53)) ^ k * 2 ^ (-1075)) /\
      (float_fin (cx_im (nth i y s0)) ->
        let t := csr_cterms (im_pair float_real) m x i in let k := Z.of_nat (length t) in
        Qabs (float_real (cx_im (nth i y s0)) - pair_sum t) <= ((1 + 2 ^ (-53)) ^ (k + 1) - 1) * pair_abs t + 2 * inject_Z k * (1 + 2 ^ (-53)) ^ k * 2 ^ (-1075)).
Proof. exact c99_f64_mat_vec. Qed.

(** ** Concrete cases *)
(** 0.1, 0.2, 1 as f64, and a value near the largest *)
Definition f01 : f64 := S754_finite false 7205759403792794 (-56).
Definition f02 : f64 := S754_finite false 7205759403792794 (-55).
Definition f1 : f64 := S754_finite false 4503599627370496 (-52).
Definition huge : f64 := S754_finite false 4503599627370496 971.
(** row 0: 0.1 + 0.2i and 1 + 0.1i; row 1: huge + i *)
Definition ex_m : CSR (cplx f64) := mkCSR 2 2 [0; 2; 3]%Z [0; 1; 0]%Z [Cx f01 f02; Cx f1 f01; Cx huge f1].
Definition ex_x : list (cplx f64) := [Cx f02 f01; Cx f01 f01].
Definition all_parts (l : list (cplx f64)) : list f64 := flat_map (fun v => [cx_re v; cx_im v]) l.
(** both parts of the first element are rounded, and within the bound *)
Example C99_ex : wf_csr U8 ex_m /\ length ex_x = csr_cols ex_m /\ forallb (valid_binary 53 1024) (all_parts (csr_values ex_m ++ ex_x)) = true /\
  exists a b, CSR_mat_vec ex_m ex_x = Ok [a; b] /\ float_fin (cx_re a) /\ float_fin (cx_im a) /\
    ~ float_real (cx_re a) == pair_sum (csr_cterms (re_pair float_real) ex_m ex_x 0) /\
    ~ float_real (cx_im a) == pair_sum (csr_cterms (im_pair float_real) ex_m ex_x 0) /\
    ~ near_cdot (2 ^ (-53)) (2 ^ (-1075)) (float_real (cx_re a)) (csr_cterms (im_pair float_real) ex_m ex_x 0).
Proof.
  split; [check|]. split; [reflexivity|]. split; [reflexivity|].
  eexists _, _. split; [vm_compute; reflexivity|]. split; [exact Logic.I|]. split; [exact Logic.I|].
  split; [vm_compute; discriminate|]. split; [vm_compute; discriminate|]. vm_compute. intros H. apply H. reflexivity.
Qed.
(** only one part is finite: the square of huge + 0.1i overflows in the real part, its imaginary part is a number *)
Example C99_one_part_ex : let m : CSR (cplx f64) := mkCSR 1 1 [0; 1]%Z [0]%Z [Cx huge f01] in wf_csr U8 m /\
  Forall (cplx_val (float_val 53 1024)) (csr_values m) /\
  exists r, CSR_mat_mat U8 m m = Ok r /\ ~ float_fin (cx_re (csr_val r 0 0)) /\ float_fin (cx_im (csr_val r 0 0)) /\ ~ float_real (cx_im (csr_val r 0 0)) == 0.
Proof.
  split; [check|]. split; [repeat constructor|]. eexists. split; [vm_compute; reflexivity|]. split; [intros H; exact H|]. split; [exact Logic.I|vm_compute; discriminate].
Qed.
(** 0.1 + 0.2i three times at one position, in a coordinate matrix: both parts are rounded *)
Definition ex_c : Coo (cplx f64) := mkCoo 2 2 [1; 0; 1; 1]%Z [0; 1; 0; 0]%Z [Cx f01 f02; Cx f1 f1; Cx f01 f02; Cx f01 f02].
Example C99_coo_ex : wf_coo U8 ex_c /\ Forall (cplx_val (float_val 53 1024)) (coo_values ex_c) /\
  ~ float_real (cx_re (coo_val ex_c 1 0)) == qsum (reals float_real (coo_at ex_c 1 0)) /\
  ~ float_real (cx_im (coo_val ex_c 1 0)) == qsum (imags float_real (coo_at ex_c 1 0)) /\
  (exists r, Coo_to_csr U8 ex_c = Ok r /\ csr_at r 1 0 = [coo_val ex_c 1 0]) /\
  (exists r, CSR_add U8 ex_m ex_m = Ok r /\ float_fin (cx_re (csr_val r 0 0)) /\ ~ float_fin (cx_re (csr_val r 1 0)) /\ float_fin (cx_im (csr_val r 1 0))).
Proof.
  split; [check|]. split; [repeat constructor|]. split; [vm_compute; discriminate|]. split; [vm_compute; discriminate|].
  split; (eexists; split; [vm_compute; reflexivity|]); [vm_compute; reflexivity|]. split; [exact Logic.I|]. split; [intros H; exact H|exact Logic.I].
Qed.

Print Assumptions C99_csr_mat_vec.
Print Assumptions C99_csc_mat_vec.
Print Assumptions C99_csr_mat_mat.
Print Assumptions C99_csc_mat_mat.
Print Assumptions C99_coo_to_dense.
Print Assumptions C99_csr_to_dense.
Print Assumptions C99_csc_to_dense.
Print Assumptions C99_coo_to_csr.
Print Assumptions C99_coo_to_csc.
Print Assumptions C99_csr_sum_duplicates.
Print Assumptions C99_csc_sum_duplicates.
Print Assumptions C99_coo_add.
Print Assumptions C99_csr_add.
Print Assumptions C99_csr_sub.
Print Assumptions C99_csc_add.
Print Assumptions C99_csc_subtract.
Print Assumptions C99_f64_mat_vec.
