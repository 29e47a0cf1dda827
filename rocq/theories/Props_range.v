(** When results are finite: C97. *)
From Verif Require Import Rust Scalar Model_kernels Model_matrix Spec SpecRound SpecRange Wp Check Main_float Main_round Main_range.
From Coq Require Import ZArith QArith Qabs List Floats.SpecFloat.
Import ListNotations.
Open Scope nat_scope.

Section Props.
Context {T : Type} {SC : Scalar T} {real : T -> Q} {fin val : T -> Prop} {u eta top : Q}
  (R : Rounded real fin val u eta) (G : Ranged real fin val top).
Variable I : ity.
Notation ok := (good fin val).

(** C97: an element of a matrix-vector product of finite values is finite, unless the magnitudes of its products add up to more than the largest number leaves room for. *)
Theorem C97_csr_mat_vec : forall (m : CSR T) (x : list T), wf_csr I m -> length x = csr_cols m -> Forall ok (csr_values m) -> Forall ok x ->
  exists y, CSR_mat_vec m x = Ok y /\ length y = csr_rows m /\
    forall i, i < csr_rows m -> fits_dot u eta top (csr_terms real m x i) -> ok (nth i y s0).
Proof. exact (c97_csr_mat_vec R G I). Qed.

Theorem C97_csc_mat_vec : forall (m : CSC T) (x : list T), wf_csc I m -> length x = csc_cols m -> Forall ok (csc_values m) -> Forall ok x ->
  exists y, CSC_mat_vec m x = Ok y /\ length y = csc_rows m /\
    forall i, i < csc_rows m -> fits_dot u eta top (csc_terms real m x i) -> ok (nth i y s0).
Proof. exact (c97_csc_mat_vec R G I). Qed.

(** ... likewise the entries of a product of matrices, *)
Theorem C97_csr_mat_mat : forall a b r : CSR T, wf_csr I a -> wf_csr I b -> Forall ok (csr_values a) -> Forall ok (csr_values b) -> CSR_mat_mat I a b = Ok r ->
  forall i k v, i < csr_rows a -> fits_dot u eta top (csr_product_terms real a b i k) -> In v (csr_at r i k) -> ok v.
Proof. exact (c97_csr_mat_mat R G I). Qed.

Theorem C97_csc_mat_mat : forall a b r : CSC T, wf_csc I a -> wf_csc I b -> Forall ok (csc_values a) -> Forall ok (csc_values b) -> CSC_mat_mat I a b = Ok r ->
  forall i k v, k < csc_cols b -> fits_dot u eta top (csc_product_terms real a b i k) -> In v (csc_at r i k) -> ok v.
Proof. exact (c97_csc_mat_mat R G I). Qed.

(** ... the cells of a dense table, *)
Theorem C97_coo_to_dense : forall m : Coo T, wf_coo I m -> Forall ok (coo_values m) ->
  exists d, Coo_to_dense m = Ok d /\ is_table d (coo_rows m) (coo_cols m) (coo_val m) /\
    forall i j, fits_sum u top (map real (coo_at m i j)) -> ok (coo_val m i j).
Proof. exact (c97_coo_to_dense R G I). Qed.

Theorem C97_csr_to_dense : forall m : CSR T, wf_csr I m -> Forall ok (csr_values m) ->
  exists d, CSR_to_dense m = Ok d /\ is_table d (csr_rows m) (csr_cols m) (csr_val m) /\
    forall i j, fits_sum u top (map real (csr_at m i j)) -> ok (csr_val m i j).
Proof. exact (c97_csr_to_dense R G I). Qed.

Theorem C97_csc_to_dense : forall m : CSC T, wf_csc I m -> csc_cols_fit I m -> Forall ok (csc_values m) ->
  exists d, CSC_to_dense I m = Ok d /\ is_table d (csc_rows m) (csc_cols m) (csc_val m) /\
    forall i j, fits_sum u top (map real (csc_at m i j)) -> ok (csc_val m i j).
Proof. exact (c97_csc_to_dense R G I). Qed.

(** ... entries with the same position summed into one, *)
Theorem C97_coo_to_csr : forall m : Coo T, wf_coo I m -> (Z.of_nat (length (coo_values m)) < imax I)%Z -> Forall ok (coo_values m) ->
  exists r, Coo_to_csr I m = Ok r /\
    forall i j v, i < coo_rows m -> In v (csr_at r i j) -> fits_sum u top (map real (coo_at m i j)) -> ok v.
Proof. exact (c97_coo_to_csr R G I). Qed.

Theorem C97_coo_to_csc : forall m : Coo T, wf_coo I m -> (Z.of_nat (length (coo_values m)) < imax I)%Z -> Forall ok (coo_values m) ->
  exists r, Coo_to_csc I m = Ok r /\
    forall i j v, j < coo_cols m -> In v (csc_at r i j) -> fits_sum u top (map real (coo_at m i j)) -> ok v.
Proof. exact (c97_coo_to_csc R G I). Qed.

Theorem C97_csr_sum_duplicates : forall m : CSR T, wf_csr I m -> (Z.of_nat (csr_count m) < imax I)%Z -> Forall ok (csr_values m) ->
  exists r, CSR_sum_duplicates I m = Ok r /\
    forall i j v, In v (csr_at r i j) -> fits_sum u top (map real (csr_at m i j)) -> ok v.
Proof. exact (c97_csr_sum_duplicates R G I). Qed.

Theorem C97_csc_sum_duplicates : forall m : CSC T, wf_csc I m -> (Z.of_nat (csc_count m) < imax I)%Z -> Forall ok (csc_values m) ->
  exists r, CSC_sum_duplicates I m = Ok r /\
    forall i j v, In v (csc_at r i j) -> fits_sum u top (map real (csc_at m i j)) -> ok v.
Proof. exact (c97_csc_sum_duplicates R G I). Qed.

(** ... and the entries of sums and differences. *)
Theorem C97_coo_add : forall a b : Coo T, wf_coo I a -> wf_coo I b -> coo_rows a = coo_rows b -> coo_cols a = coo_cols b ->
  (Z.of_nat (length (coo_values a) + length (coo_values b)) < imax I)%Z -> Forall ok (coo_values a) -> Forall ok (coo_values b) ->
  exists r, Coo_add I a b = Ok r /\
    forall i j v, i < coo_rows a -> In v (csr_at r i j) -> fits_sum u top (map real (coo_at a i j) ++ map real (coo_at b i j)) -> ok v.
Proof. exact (c97_coo_add R G I). Qed.

Theorem C97_csr_add : forall a b r : CSR T, wf_csr I a -> wf_csr I b -> csr_rows b = csr_rows a -> csr_cols b = csr_cols a ->
  Forall ok (csr_values a) -> Forall ok (csr_values b) -> CSR_add I a b = Ok r ->
  forall i j v, i < csr_rows a -> fits_dot u 0 top (map real (csr_at a i j) ++ map real (csr_at b i j)) -> In v (csr_at r i j) -> ok v.
Proof. exact (c97_csr_add R G I). Qed.

Theorem C97_csr_sub : forall a b r : CSR T, wf_csr I a -> wf_csr I b -> csr_rows b = csr_rows a -> csr_cols b = csr_cols a ->
  Forall ok (csr_values a) -> Forall ok (csr_values b) -> CSR_sub I a b = Ok r ->
  forall i j v, i < csr_rows a -> fits_dot u 0 top (map real (csr_at a i j) ++ map real (csr_at b i j)) -> In v (csr_at r i j) -> ok v.
Proof. exact (c97_csr_sub R G I). Qed.

Theorem C97_csc_add : forall a b r : CSC T, wf_csc I a -> wf_csc I b -> csc_rows b = csc_rows a -> csc_cols b = csc_cols a ->
  Forall ok (csc_values a) -> Forall ok (csc_values b) -> CSC_add I a b = Ok r ->
  forall i j v, j < csc_cols a -> fits_dot u 0 top (map real (csc_at a i j) ++ map real (csc_at b i j)) -> In v (csc_at r i j) -> ok v.
Proof. exact (c97_csc_add R G I). Qed.

Theorem C97_csc_subtract : forall a b r : CSC T, wf_csc I a -> wf_csc I b -> csc_rows b = csc_rows a -> csc_cols b = csc_cols a ->
  Forall ok (csc_values a) -> Forall ok (csc_values b) -> CSC_subtract I a b = Ok r ->
  forall i j v, j < csc_cols a -> fits_dot u 0 top (map real (csc_at a i j) ++ map real (csc_at b i j)) -> In v (csc_at r i j) -> ok v.
Proof. exact (c97_csc_subtract R G I). Qed.

End Props.

Open Scope Q_scope.
(** C97: IEEE arithmetic is such arithmetic, up to the largest float of the format. *)
Theorem C97_f64 : @Ranged f64 scalar_f64 float_real float_fin (float_val 53 1024) (inject_Z (2 ^ 53 - 1) * 2 ^ 971).
Proof. exact c97_f64. Qed.
Theorem C97_f32 : @Ranged spec_float scalar_f32 float_real float_fin (float_val 24 128) (inject_Z (2 ^ 24 - 1) * 2 ^ 104).
Proof. exact c97_f32. Qed.

(** C97 for f64, written out: with at most 2^52 products whose magnitudes add up to at most 2^1022, the element is a number,
    and it is within k * (2^-52 * sum |t| + 2^-1074) of the exact sum of the k products t. *)
Theorem C97_f64_mat_vec : forall I (m : CSR f64) (x : list f64), wf_csr I m -> length x = csr_cols m ->
  (forall v, In v (csr_values m ++ x) -> is_number v) ->
  exists y, CSR_mat_vec m x = Ok y /\ length y = csr_rows m /\
    forall i, (i < csr_rows m)%nat -> let t := csr_terms float_real m x i in let k := Z.of_nat (length t) in
      (k <= 2 ^ 52)%Z -> qsum_abs t <= 2 ^ 1022 ->
      is_number (nth i y s0) /\ Qabs (float_real (nth i y s0) - qsum t) <= inject_Z k * (2 ^ (-52) * qsum_abs t + 2 ^ (-1074)).
Proof. exact c97_f64_mat_vec. Qed.
Theorem C97_f64_mat_mat : forall I (a b r : CSR f64), wf_csr I a -> wf_csr I b -> (forall v, In v (csr_values a ++ csr_values b) -> is_number v) -> CSR_mat_mat I a b = Ok r ->
  forall i j v, (i < csr_rows a)%nat -> let t := csr_product_terms float_real a b i j in let k := Z.of_nat (length t) in
    (k <= 2 ^ 52)%Z -> qsum_abs t <= 2 ^ 1022 -> In v (csr_at r i j) ->
    is_number v /\ Qabs (float_real v - qsum t) <= inject_Z k * (2 ^ (-52) * qsum_abs t + 2 ^ (-1074)).
Proof. exact c97_f64_mat_mat. Qed.

(** ** Concrete cases *)
(** 0.1, -0.2, the largest f64, and 1 *)
Definition g01 : f64 := S754_finite false 7205759403792794 (-56).
Definition g02 : f64 := S754_finite true 7205759403792794 (-55).
Definition most : f64 := S754_finite false 9007199254740991 971.
Definition g1 : f64 := S754_finite false 4503599627370496 (-52).
(** row 0 and row 2 leave room, row 1 does not, and overflows *)
Definition gx_m : CSR f64 := mkCSR 3 2 [0; 2; 4; 5]%Z [0; 1; 0; 1; 1]%Z [g01; g02; most; most; most].
Example C97_ex : wf_csr U8 gx_m /\ (forall v, In v (csr_values gx_m ++ [g1; g1]) -> is_number v) /\
  qsum_abs (csr_terms float_real gx_m [g1; g1] 0) <= 2 ^ 1022 /\
  ~ fits_dot (2 ^ (-53)) (2 ^ (-1075)) (float_top 53 1024) (csr_terms float_real gx_m [g1; g1] 1) /\
  exists a b c, CSR_mat_vec gx_m [g1; g1] = Ok [a; b; c] /\ is_number a /\ ~ is_number b /\ c = most.
Proof.
  split; [check|]. split; [intros v Hv; cbn in Hv; repeat (destruct Hv as [<-|Hv]; [split; [reflexivity|exact Logic.I]|]); contradiction|].
  split; [vm_compute; discriminate|]. split; [vm_compute; intros H; apply H; reflexivity|].
  eexists _, _, _. split; [vm_compute; reflexivity|]. split; [split; [reflexivity|exact Logic.I]|]. split; [intros [_ H]; exact H|reflexivity].
Qed.
(** the bound is tight for a single stored value: the largest float is kept, in the dense table and in a converted matrix; two of them overflow *)
Definition gx_c : Coo f64 := mkCoo 2 2 [1; 0; 1]%Z [0; 1; 0]%Z [most; most; g01].
Example C97_coo_ex : wf_coo U8 gx_c /\ Forall (good float_fin (float_val 53 1024)) (coo_values gx_c) /\
  fits_sum (2 ^ (-53)) (float_top 53 1024) (map float_real (coo_at gx_c 0 1)) /\ coo_val gx_c 0 1 = most /\
  ~ fits_sum (2 ^ (-53)) (float_top 53 1024) (map float_real (coo_at gx_c 1 0)) /\
  ~ float_fin (sadd most most).
Proof.
  split; [check|]. split; [repeat constructor|]. split; [vm_compute; discriminate|]. split; [reflexivity|].
  split; [vm_compute; intros H; apply H; reflexivity|]. intros H; exact H.
Qed.
(** a product and a sum whose entries are finite *)
Definition gx_a : CSR f64 := mkCSR 2 2 [0; 2; 3]%Z [0; 1; 1]%Z [g01; g02; g1].
Example C97_product_ex : wf_csr U8 gx_a /\ (forall v, In v (csr_values gx_a ++ csr_values gx_a) -> is_number v) /\
  (exists r v, CSR_mat_mat U8 gx_a gx_a = Ok r /\ csr_at r 0 1 = [v] /\ length (csr_product_terms float_real gx_a gx_a 0 1) = 2%nat /\
    qsum_abs (csr_product_terms float_real gx_a gx_a 0 1) <= 2 ^ 1022 /\ ~ float_real v == qsum (csr_product_terms float_real gx_a gx_a 0 1)) /\
  (exists r v, CSR_add U8 gx_a gx_a = Ok r /\ csr_at r 0 1 = [v] /\
    fits_dot (2 ^ (-53)) 0 (float_top 53 1024) (map float_real (csr_at gx_a 0 1) ++ map float_real (csr_at gx_a 0 1))).
Proof.
  split; [check|]. split; [intros v Hv; cbn in Hv; repeat (destruct Hv as [<-|Hv]; [split; [reflexivity|exact Logic.I]|]); contradiction|].
  split; (eexists _, _; split; [vm_compute; reflexivity|]; split; [reflexivity|]).
  - split; [reflexivity|]. split; [vm_compute; discriminate|]. vm_compute. discriminate.
  - vm_compute. discriminate.
Qed.

Print Assumptions C97_csr_mat_vec.
Print Assumptions C97_csc_mat_vec.
Print Assumptions C97_csr_mat_mat.
Print Assumptions C97_csc_mat_mat.
Print Assumptions C97_coo_to_dense.
Print Assumptions C97_csr_to_dense.
Print Assumptions C97_csc_to_dense.
Print Assumptions C97_coo_to_csr.
Print Assumptions C97_coo_to_csc.
Print Assumptions C97_csr_sum_duplicates.
Print Assumptions C97_csc_sum_duplicates.
Print Assumptions C97_coo_add.
Print Assumptions C97_csr_add.
Print Assumptions C97_csr_sub.
Print Assumptions C97_csc_add.
Print Assumptions C97_csc_subtract.
Print Assumptions C97_f64.
Print Assumptions C97_f32.
Print Assumptions C97_f64_mat_vec.
Print Assumptions C97_f64_mat_mat.
