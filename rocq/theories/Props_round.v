(** Rounding errors: C95. *)
From Verif Require Import Rust Scalar Model_kernels Model_matrix Spec SpecRound Wp Check Main_float Main_round.
From Coq Require Import ZArith QArith Qabs List Floats.SpecFloat.
Import ListNotations.
Open Scope nat_scope.

Section Props.
Context {T : Type} {SC : Scalar T} {real : T -> Q} {fin val : T -> Prop} {u eta : Q} (R : Rounded real fin val u eta).
Variable I : ity.

(** C95: every finite element of a matrix-vector product is as close to the exact sum of products as one rounded product and one rounded addition per stored entry leave it. *)
Theorem C95_csr_mat_vec : forall (m : CSR T) (x : list T), wf_csr I m -> length x = csr_cols m -> Forall val (csr_values m) -> Forall val x ->
  exists y, CSR_mat_vec m x = Ok y /\ length y = csr_rows m /\
    forall i, i < csr_rows m -> fin (nth i y s0) -> near_dot u eta (real (nth i y s0)) (csr_terms real m x i).
Proof. exact (c95_csr_mat_vec R I). Qed.

Theorem C95_csc_mat_vec : forall (m : CSC T) (x : list T), wf_csc I m -> length x = csc_cols m -> Forall val (csc_values m) -> Forall val x ->
  exists y, CSC_mat_vec m x = Ok y /\ length y = csc_rows m /\
    forall i, i < csc_rows m -> fin (nth i y s0) -> near_dot u eta (real (nth i y s0)) (csc_terms real m x i).
Proof. exact (c95_csc_mat_vec R I). Qed.

(** ... likewise for products of matrices, where dropping a zero does no harm; *)
Theorem C95_csr_mat_mat : forall a b r : CSR T, wf_csr I a -> wf_csr I b -> Forall val (csr_values a) -> Forall val (csr_values b) -> CSR_mat_mat I a b = Ok r ->
  forall i k, i < csr_rows a -> fin (csr_val r i k) -> near_dot u eta (real (csr_val r i k)) (csr_product_terms real a b i k).
Proof. exact (c95_csr_mat_mat R I). Qed.

Theorem C95_csc_mat_mat : forall a b r : CSC T, wf_csc I a -> wf_csc I b -> Forall val (csc_values a) -> Forall val (csc_values b) -> CSC_mat_mat I a b = Ok r ->
  forall i k, k < csc_cols b -> fin (csc_val r i k) -> near_dot u eta (real (csc_val r i k)) (csc_product_terms real a b i k).
Proof. exact (c95_csc_mat_mat R I). Qed.

(** ... for a cell of a dense table, which is a sum without products; *)
Theorem C95_coo_to_dense : forall m : Coo T, wf_coo I m -> Forall val (coo_values m) ->
  exists d, Coo_to_dense m = Ok d /\ is_table d (coo_rows m) (coo_cols m) (coo_val m) /\
    forall i j, fin (coo_val m i j) -> near_sum u (real (coo_val m i j)) (map real (coo_at m i j)).
Proof. exact (c95_coo_to_dense R I). Qed.

Theorem C95_csr_to_dense : forall m : CSR T, wf_csr I m -> Forall val (csr_values m) ->
  exists d, CSR_to_dense m = Ok d /\ is_table d (csr_rows m) (csr_cols m) (csr_val m) /\
    forall i j, fin (csr_val m i j) -> near_sum u (real (csr_val m i j)) (map real (csr_at m i j)).
Proof. exact (c95_csr_to_dense R I). Qed.

Theorem C95_csc_to_dense : forall m : CSC T, wf_csc I m -> csc_cols_fit I m -> Forall val (csc_values m) ->
  exists d, CSC_to_dense I m = Ok d /\ is_table d (csc_rows m) (csc_cols m) (csc_val m) /\
    forall i j, fin (csc_val m i j) -> near_sum u (real (csc_val m i j)) (map real (csc_at m i j)).
Proof. exact (c95_csc_to_dense R I). Qed.

(** ... for entries with the same position summed into one; *)
Theorem C95_coo_to_csr : forall m : Coo T, wf_coo I m -> (Z.of_nat (length (coo_values m)) < imax I)%Z -> Forall val (coo_values m) ->
  exists r, Coo_to_csr I m = Ok r /\
    forall i j v, i < coo_rows m -> In v (csr_at r i j) -> fin v -> near_sum u (real v) (map real (coo_at m i j)).
Proof. exact (c95_coo_to_csr R I). Qed.

Theorem C95_coo_to_csc : forall m : Coo T, wf_coo I m -> (Z.of_nat (length (coo_values m)) < imax I)%Z -> Forall val (coo_values m) ->
  exists r, Coo_to_csc I m = Ok r /\
    forall i j v, j < coo_cols m -> In v (csc_at r i j) -> fin v -> near_sum u (real v) (map real (coo_at m i j)).
Proof. exact (c95_coo_to_csc R I). Qed.

Theorem C95_csr_sum_duplicates : forall m : CSR T, wf_csr I m -> (Z.of_nat (csr_count m) < imax I)%Z -> Forall val (csr_values m) ->
  exists r, CSR_sum_duplicates I m = Ok r /\
    forall i j v, In v (csr_at r i j) -> fin v -> near_sum u (real v) (map real (csr_at m i j)).
Proof. exact (c95_csr_sum_duplicates R I). Qed.

Theorem C95_csc_sum_duplicates : forall m : CSC T, wf_csc I m -> (Z.of_nat (csc_count m) < imax I)%Z -> Forall val (csc_values m) ->
  exists r, CSC_sum_duplicates I m = Ok r /\
    forall i j v, In v (csc_at r i j) -> fin v -> near_sum u (real v) (map real (csc_at m i j)).
Proof. exact (c95_csc_sum_duplicates R I). Qed.

(** ... and for sums and differences of matrices. *)
Theorem C95_coo_add : forall a b : Coo T, wf_coo I a -> wf_coo I b -> coo_rows a = coo_rows b -> coo_cols a = coo_cols b ->
  (Z.of_nat (length (coo_values a) + length (coo_values b)) < imax I)%Z -> Forall val (coo_values a) -> Forall val (coo_values b) ->
  exists r, Coo_add I a b = Ok r /\
    forall i j v, i < coo_rows a -> In v (csr_at r i j) -> fin v -> near_sum u (real v) (map real (coo_at a i j) ++ map real (coo_at b i j)).
Proof. exact (c95_coo_add R I). Qed.

Theorem C95_csr_add : forall a b r : CSR T, wf_csr I a -> wf_csr I b -> csr_rows b = csr_rows a -> csr_cols b = csr_cols a ->
  Forall val (csr_values a) -> Forall val (csr_values b) -> CSR_add I a b = Ok r ->
  forall i j, i < csr_rows a -> fin (csr_val r i j) -> near_dot u 0 (real (csr_val r i j)) (map real (csr_at a i j) ++ map real (csr_at b i j)).
Proof. exact (c95_csr_add R I). Qed.

Theorem C95_csr_sub : forall a b r : CSR T, wf_csr I a -> wf_csr I b -> csr_rows b = csr_rows a -> csr_cols b = csr_cols a ->
  Forall val (csr_values a) -> Forall val (csr_values b) -> CSR_sub I a b = Ok r ->
  forall i j, i < csr_rows a -> fin (csr_val r i j) -> near_dot u 0 (real (csr_val r i j)) (map real (csr_at a i j) ++ map Qopp (map real (csr_at b i j))).
Proof. exact (c95_csr_sub R I). Qed.

Theorem C95_csc_add : forall a b r : CSC T, wf_csc I a -> wf_csc I b -> csc_rows b = csc_rows a -> csc_cols b = csc_cols a ->
  Forall val (csc_values a) -> Forall val (csc_values b) -> CSC_add I a b = Ok r ->
  forall i j, j < csc_cols a -> fin (csc_val r i j) -> near_dot u 0 (real (csc_val r i j)) (map real (csc_at a i j) ++ map real (csc_at b i j)).
Proof. exact (c95_csc_add R I). Qed.

Theorem C95_csc_subtract : forall a b r : CSC T, wf_csc I a -> wf_csc I b -> csc_rows b = csc_rows a -> csc_cols b = csc_cols a ->
  Forall val (csc_values a) -> Forall val (csc_values b) -> CSC_subtract I a b = Ok r ->
  forall i j, j < csc_cols a -> fin (csc_val r i j) -> near_dot u 0 (real (csc_val r i j)) (map real (csc_at a i j) ++ map Qopp (map real (csc_at b i j))).
Proof. exact (c95_csc_subtract R I). Qed.

End Props.


Open Scope Q_scope.
(** C95: IEEE arithmetic is such arithmetic: f64 with relative error 2^-53 and, for products, absolute error 2^-1075; f32 with 2^-24 and 2^-150. *)
Theorem C95_f64 : @Rounded f64 scalar_f64 float_real float_fin (float_val 53 1024) (2 ^ (-53)) (2 ^ (-1075)).
Proof. exact c95_f64. Qed.
Theorem C95_f32 : @Rounded spec_float scalar_f32 float_real float_fin (float_val 24 128) (2 ^ (-24)) (2 ^ (-150)).
Proof. exact c95_f32. Qed.

(** C95 for f64, written out: whatever the stored values and the vector are, a finite element of the product is this close to the exact one. *)
Theorem C95_f64_mat_vec : forall I (m : CSR f64) (x : list f64), wf_csr I m -> length x = csr_cols m ->
  (forall v, In v (csr_values m) \/ In v x -> valid_binary 53 1024 v = true) ->
  exists y, CSR_mat_vec m x = Ok y /\ length y = csr_rows m /\
    forall i, (i < csr_rows m)%nat -> float_fin (nth i y s0) ->
      let t := csr_terms float_real m x i in let k := Z.of_nat (length t) in
      Qabs (float_real (nth i y s0) - qsum t) <= ((1 + 2 ^ (-53)) ^ k - 1) * qsum_abs t + inject_Z k * (1 + 2 ^ (-53)) ^ k * 2 ^ (-1075).
Proof. exact c95_f64_mat_vec. Qed.

(** ** Concrete cases *)
(** 0.1, 0.2, 0.3 and 1 as f64 *)
Definition f01 : f64 := S754_finite false 7205759403792794 (-56).
Definition f02 : f64 := S754_finite false 7205759403792794 (-55).
Definition f03 : f64 := S754_finite false 5404319552844595 (-54).
Definition f1 : f64 := S754_finite false 4503599627370496 (-52).
(** 2^-600, and a value near the largest *)
Definition tiny : f64 := S754_finite false 4503599627370496 (-652).
Definition huge : f64 := S754_finite false 4503599627370496 971.
Definition ex_m : CSR f64 := mkCSR 3 3 [0; 3; 4; 6]%Z [0; 1; 2; 0; 1; 1]%Z [f01; f02; f03; tiny; huge; huge].
Definition ex_x : list f64 := [f1; f1; f1].
(** the first element is rounded: 0.1 + 0.2 + 0.3 is not the sum of the three numbers; the last one overflows *)
Example C95_ex : wf_csr U8 ex_m /\ length ex_x = csr_cols ex_m /\ forallb (valid_binary 53 1024) (csr_values ex_m ++ ex_x) = true /\
  exists a b c, CSR_mat_vec ex_m ex_x = Ok [a; b; c] /\ float_fin a /\ float_fin b /\ ~ float_fin c /\
    ~ float_real a == qsum (csr_terms float_real ex_m ex_x 0) /\ float_real b == qsum (csr_terms float_real ex_m ex_x 1).
Proof.
  split; [check|]. split; [reflexivity|]. split; [reflexivity|].
  eexists _, _, _. split; [vm_compute; reflexivity|]. split; [exact Logic.I|]. split; [exact Logic.I|]. split; [intros H; exact H|]. split; [vm_compute; discriminate|vm_compute; reflexivity].
Qed.
(** a product too small for the format: the absolute error is needed *)
Example C95_tiny_ex : let m : CSR f64 := mkCSR 1 1 [0; 1]%Z [0]%Z [tiny] in wf_csr U8 m /\
  exists a, CSR_mat_vec m [tiny] = Ok [a] /\ float_fin a /\ near_dot (2 ^ (-53)) (2 ^ (-1075)) (float_real a) (csr_terms float_real m [tiny] 0) /\
    ~ near_dot (2 ^ (-53)) 0 (float_real a) (csr_terms float_real m [tiny] 0).
Proof.
  split; [check|]. eexists. split; [vm_compute; reflexivity|]. split; [exact Logic.I|]. split.
  - vm_compute. discriminate.
  - vm_compute. intros H. apply H. reflexivity.
Qed.
(** integers that do not overflow are not rounded at all *)
Example C95_exact_ex : @Rounded Z scalar_Z inject_Z (fun _ => True) (fun _ => True) 0 0.
Proof.
  assert (E : forall a b, a == b -> off 0 0 a b).
  { intros a b H. unfold off. rewrite H. assert (Z : b - b == 0) by ring. rewrite Z. discriminate. }
  constructor; try discriminate; cbn [s0 sadd ssub smul seqb scalar_Z].
  - repeat split.
  - intros x H. apply Z.eqb_eq in H. subst. repeat split.
  - intros x _. split; [exact Logic.I|]. intros _. split; [exact Logic.I|reflexivity].
  - intros x y _ _. split; [exact Logic.I|]. intros _. repeat split. apply E. rewrite inject_Z_plus. reflexivity.
  - intros x y _ _. split; [exact Logic.I|]. intros _. repeat split. apply E. unfold Z.sub. rewrite inject_Z_plus, inject_Z_opp. reflexivity.
  - intros x y _ _. split; [exact Logic.I|]. intros _. repeat split. apply E. rewrite inject_Z_mult. reflexivity.
Qed.
(** a product and a sum of f64 matrices *)
Example C95_product_ex : wf_csr U8 ex_m /\ Forall (float_val 53 1024) (csr_values ex_m) /\
  (exists r, CSR_mat_mat U8 ex_m ex_m = Ok r /\ float_fin (csr_val r 0 0) /\
    ~ float_real (csr_val r 0 0) == qsum (csr_product_terms float_real ex_m ex_m 0 0)) /\
  (exists r, CSR_add U8 ex_m ex_m = Ok r /\ float_fin (csr_val r 0 2) /\ ~ float_fin (csr_val r 2 1)).
Proof.
  split; [check|]. split; [repeat constructor|].
  split; (eexists; split; [vm_compute; reflexivity|]).
  - split; [exact Logic.I|]. vm_compute. discriminate.
  - split; [exact Logic.I|]. intros H; exact H.
Qed.
(** 0.1 three times at one position: the sum is rounded, in the dense table and in the converted matrix *)
Definition ex_c : Coo f64 := mkCoo 2 2 [1; 0; 1; 1]%Z [0; 1; 0; 0]%Z [f01; f1; f01; f01].
Example C95_coo_ex : wf_coo U8 ex_c /\ Forall (float_val 53 1024) (coo_values ex_c) /\ float_fin (coo_val ex_c 1 0) /\
  ~ float_real (coo_val ex_c 1 0) == qsum (map float_real (coo_at ex_c 1 0)) /\
  exists r, Coo_to_csr U8 ex_c = Ok r /\ csr_at r 1 0 = [coo_val ex_c 1 0].
Proof.
  split; [check|]. split; [repeat constructor|]. split; [exact Logic.I|]. split; [vm_compute; discriminate|].
  eexists; split; vm_compute; reflexivity.
Qed.

Print Assumptions C95_csr_mat_vec.
Print Assumptions C95_csc_mat_vec.
Print Assumptions C95_csr_mat_mat.
Print Assumptions C95_csc_mat_mat.
Print Assumptions C95_coo_to_dense.
Print Assumptions C95_csr_to_dense.
Print Assumptions C95_csc_to_dense.
Print Assumptions C95_coo_to_csr.
Print Assumptions C95_coo_to_csc.
Print Assumptions C95_csr_sum_duplicates.
Print Assumptions C95_csc_sum_duplicates.
Print Assumptions C95_coo_add.
Print Assumptions C95_csr_add.
Print Assumptions C95_csr_sub.
Print Assumptions C95_csc_add.
Print Assumptions C95_csc_subtract.
Print Assumptions C95_f64.
Print Assumptions C95_f32.
Print Assumptions C95_f64_mat_vec.
