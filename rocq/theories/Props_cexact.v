(** Complex whole numbers stored as floats: C96. *)
From Verif Require Import Rust Scalar Model_kernels Model_matrix Spec SpecRound SpecExact SpecComplex SpecCexact Wp Check Main_float Main_exact Main_cexact.
From Coq Require Import ZArith QArith Qabs List Floats.SpecFloat.
Import ListNotations.
Open Scope nat_scope.

Section Props.
Context {T : Type} {SC : Scalar T} {real : T -> Q} {fin : T -> Prop} {unit bound : Q} (R : ExactBelow real fin unit bound).
Variable I : ity.

(** C96 for complex numbers: each part of an element of a product is exact if the real products entering that part are whole numbers of
    units and together at most the bound. *)
Theorem C96_complex_csr_mat_vec : forall (m : CSR (cplx T)) (x : list (cplx T)), wf_csr I m -> length x = csr_cols m ->
  exists y, CSR_mat_vec m x = Ok y /\ length y = csr_rows m /\
    forall i, i < csr_rows m -> (forall e, In e (csr_row m i) -> cplx_fin fin (snd e) /\ cplx_fin fin (nth (fst e) x s0)) ->
      exact_parts real fin unit bound (nth i y s0) (csr_cterms (re_pair real) m x i) (csr_cterms (im_pair real) m x i).
Proof. exact (c96_complex_csr_mat_vec R I). Qed.

Theorem C96_complex_csc_mat_vec : forall (m : CSC (cplx T)) (x : list (cplx T)), wf_csc I m -> length x = csc_cols m ->
  exists y, CSC_mat_vec m x = Ok y /\ length y = csc_rows m /\
    forall i, i < csc_rows m -> (forall j, j < csc_cols m -> csc_at m i j <> [] -> Forall (cplx_fin fin) (csc_at m i j) /\ cplx_fin fin (nth j x s0)) ->
      exact_parts real fin unit bound (nth i y s0) (csc_cterms (re_pair real) m x i) (csc_cterms (im_pair real) m x i).
Proof. exact (c96_complex_csc_mat_vec R I). Qed.

Theorem C96_complex_csr_mat_mat : forall a b r : CSR (cplx T), wf_csr I a -> wf_csr I b -> CSR_mat_mat I a b = Ok r ->
  forall i k, i < csr_rows a -> (forall e, In e (csr_row a i) -> csr_at b (fst e) k <> [] -> cplx_fin fin (snd e) /\ Forall (cplx_fin fin) (csr_at b (fst e) k)) ->
    exact_parts real fin unit bound (csr_val r i k) (csr_product_cterms (re_pair real) a b i k) (csr_product_cterms (im_pair real) a b i k).
Proof. exact (c96_complex_csr_mat_mat R I). Qed.

Theorem C96_complex_csc_mat_mat : forall a b r : CSC (cplx T), wf_csc I a -> wf_csc I b -> CSC_mat_mat I a b = Ok r ->
  forall i k, k < csc_cols b -> (forall e, In e (csc_col b k) -> csc_at a i (fst e) <> [] -> cplx_fin fin (snd e) /\ Forall (cplx_fin fin) (csc_at a i (fst e))) ->
    exact_parts real fin unit bound (csc_val r i k) (csc_product_cterms (re_pair real) a b i k) (csc_product_cterms (im_pair real) a b i k).
Proof. exact (c96_complex_csc_mat_mat R I). Qed.

(** ... and each part of a sum of stored values or of a sum or difference of matrices, if the parts are whole numbers of units and together at most the bound. *)
Theorem C96_complex_coo_to_dense : forall m : Coo (cplx T), wf_coo I m -> 
  exists d, Coo_to_dense m = Ok d /\ is_table d (coo_rows m) (coo_cols m) (coo_val m) /\
    forall i j, exact_sums real fin unit bound (coo_val m i j) (coo_at m i j) [].
Proof. exact (c96_complex_coo_to_dense R I). Qed.

Theorem C96_complex_csr_to_dense : forall m : CSR (cplx T), wf_csr I m -> 
  exists d, CSR_to_dense m = Ok d /\ is_table d (csr_rows m) (csr_cols m) (csr_val m) /\
    forall i j, exact_sums real fin unit bound (csr_val m i j) (csr_at m i j) [].
Proof. exact (c96_complex_csr_to_dense R I). Qed.

Theorem C96_complex_csc_to_dense : forall m : CSC (cplx T), wf_csc I m -> csc_cols_fit I m ->
  exists d, CSC_to_dense I m = Ok d /\ is_table d (csc_rows m) (csc_cols m) (csc_val m) /\
    forall i j, exact_sums real fin unit bound (csc_val m i j) (csc_at m i j) [].
Proof. exact (c96_complex_csc_to_dense R I). Qed.

Theorem C96_complex_coo_to_csr : forall m : Coo (cplx T), wf_coo I m -> (Z.of_nat (length (coo_values m)) < imax I)%Z ->
  exists r, Coo_to_csr I m = Ok r /\ forall i j v, i < coo_rows m -> In v (csr_at r i j) -> exact_sums real fin unit bound v (coo_at m i j) [].
Proof. exact (c96_complex_coo_to_csr R I). Qed.

Theorem C96_complex_coo_to_csc : forall m : Coo (cplx T), wf_coo I m -> (Z.of_nat (length (coo_values m)) < imax I)%Z ->
  exists r, Coo_to_csc I m = Ok r /\ forall i j v, j < coo_cols m -> In v (csc_at r i j) -> exact_sums real fin unit bound v (coo_at m i j) [].
Proof. exact (c96_complex_coo_to_csc R I). Qed.

Theorem C96_complex_csr_sum_duplicates : forall m : CSR (cplx T), wf_csr I m -> (Z.of_nat (csr_count m) < imax I)%Z ->
  exists r, CSR_sum_duplicates I m = Ok r /\ forall i j v, In v (csr_at r i j) -> exact_sums real fin unit bound v (csr_at m i j) [].
Proof. exact (c96_complex_csr_sum_duplicates R I). Qed.

Theorem C96_complex_csc_sum_duplicates : forall m : CSC (cplx T), wf_csc I m -> (Z.of_nat (csc_count m) < imax I)%Z ->
  exists r, CSC_sum_duplicates I m = Ok r /\ forall i j v, In v (csc_at r i j) -> exact_sums real fin unit bound v (csc_at m i j) [].
Proof. exact (c96_complex_csc_sum_duplicates R I). Qed.

Theorem C96_complex_csr_add : forall a b r : CSR (cplx T), wf_csr I a -> wf_csr I b -> csr_rows b = csr_rows a -> csr_cols b = csr_cols a -> CSR_add I a b = Ok r ->
  forall i j, i < csr_rows a -> exact_sums real fin unit bound (csr_val r i j) (csr_at a i j ++ csr_at b i j) [].
Proof. exact (c96_complex_csr_add R I). Qed.

Theorem C96_complex_csr_sub : forall a b r : CSR (cplx T), wf_csr I a -> wf_csr I b -> csr_rows b = csr_rows a -> csr_cols b = csr_cols a -> CSR_sub I a b = Ok r ->
  forall i j, i < csr_rows a -> exact_sums real fin unit bound (csr_val r i j) (csr_at a i j) (csr_at b i j).
Proof. exact (c96_complex_csr_sub R I). Qed.

Theorem C96_complex_csc_add : forall a b r : CSC (cplx T), wf_csc I a -> wf_csc I b -> csc_rows b = csc_rows a -> csc_cols b = csc_cols a -> CSC_add I a b = Ok r ->
  forall i j, j < csc_cols a -> exact_sums real fin unit bound (csc_val r i j) (csc_at a i j ++ csc_at b i j) [].
Proof. exact (c96_complex_csc_add R I). Qed.

Theorem C96_complex_csc_subtract : forall a b r : CSC (cplx T), wf_csc I a -> wf_csc I b -> csc_rows b = csc_rows a -> csc_cols b = csc_cols a -> CSC_subtract I a b = Ok r ->
  forall i j, j < csc_cols a -> exact_sums real fin unit bound (csc_val r i j) (csc_at a i j) (csc_at b i j).
Proof. exact (c96_complex_csc_subtract R I). Qed.

Theorem C96_complex_coo_add : forall a b : Coo (cplx T), wf_coo I a -> wf_coo I b -> coo_rows a = coo_rows b -> coo_cols a = coo_cols b ->
  (Z.of_nat (length (coo_values a) + length (coo_values b)) < imax I)%Z ->
  exists r, Coo_add I a b = Ok r /\ forall i j v, i < coo_rows a -> In v (csr_at r i j) -> exact_sums real fin unit bound v (coo_at a i j ++ coo_at b i j) [].
Proof. exact (c96_complex_coo_add R I). Qed.

End Props.

Open Scope Q_scope.
(** ** Concrete cases *)
Definition gauss (a b : Z) : cplx f64 := Cx (f64_of_Z a) (f64_of_Z b).
Definition ex_m : CSR (cplx f64) := mkCSR 2 2 [0; 2; 3]%Z [0; 1; 0]%Z [gauss 3 (-2); gauss 1 4; gauss (2 ^ 52) 1].
Definition ex_x : list (cplx f64) := [gauss 5 1; gauss (-1) 2].
Definition units := 2 ^ 0.
Definition most := 2 ^ 53.
(** (3 - 2i)(5 + i) + (1 + 4i)(-1 + 2i) = 17 - 7i - 9 - 2i = 8 - 9i; the real part of the second element is too large for the theorem *)
Example C96_complex_ex : wf_csr U8 ex_m /\ length ex_x = csr_cols ex_m /\
  (forall e, In e (csr_row ex_m 0) -> cplx_fin float_fin (snd e) /\ cplx_fin float_fin (nth (fst e) ex_x s0)) /\
  small_pairs units most (csr_cterms (re_pair float_real) ex_m ex_x 0) /\ small_pairs units most (csr_cterms (im_pair float_real) ex_m ex_x 0) /\
  ~ small_pairs units most (csr_cterms (re_pair float_real) ex_m ex_x 1) /\
  exists b, CSR_mat_vec ex_m ex_x = Ok [gauss 8 (-9); b].
Proof.
  split; [check|]. split; [reflexivity|].
  split; [intros e [<-|[<-|[]]]; repeat split|].
  split; [split; [|vm_compute; discriminate]; constructor; [split; [exists 15%Z|exists 2%Z]|constructor; [split; [exists (-1)%Z|exists (-8)%Z]|constructor]]; vm_compute; reflexivity|].
  split; [split; [|vm_compute; discriminate]; constructor; [split; [exists 3%Z|exists (-10)%Z]|constructor; [split; [exists 2%Z|exists (-4)%Z]|constructor]]; vm_compute; reflexivity|].
  split; [intros [_ H]; vm_compute in H; apply H; reflexivity|].
  eexists. vm_compute. reflexivity.
Qed.
(** the same for a matrix product *)
Example C96_complex_product_ex : let a : CSR (cplx f64) := mkCSR 1 1 [0; 1]%Z [0]%Z [gauss 1 1] in wf_csr U8 a /\
  small_pairs units most (csr_product_cterms (re_pair float_real) a a 0 0) /\ small_pairs units most (csr_product_cterms (im_pair float_real) a a 0 0) /\
  exists r, CSR_mat_mat U8 a a = Ok r /\ csr_val r 0 0 = gauss 0 2 /\
    @ExactBelow f64 scalar_f64 float_real float_fin units most.
Proof.
  split; [check|].
  split; [split; [|vm_compute; discriminate]; constructor; [split; [exists 1%Z|exists (-1)%Z]|constructor]; vm_compute; reflexivity|].
  split; [split; [|vm_compute; discriminate]; constructor; [split; [exists 1%Z|exists 1%Z]|constructor]; vm_compute; reflexivity|].
  eexists. split; [vm_compute; reflexivity|]. split; [vm_compute; reflexivity|]. apply (c96_f64 0). split; discriminate.
Qed.

(** and for a difference: the parts 2^52 + 1 and 2 do not round *)
Example C96_complex_sub_ex : let a : CSR (cplx f64) := mkCSR 1 1 [0; 1]%Z [0]%Z [gauss (2 ^ 52) 3] in let b : CSR (cplx f64) := mkCSR 1 1 [0; 1]%Z [0]%Z [gauss (-1) 1] in
  wf_csr U8 a /\ wf_csr U8 b /\ small_sum units most (reals float_real (csr_at a 0 0) ++ map Qopp (reals float_real (csr_at b 0 0))) /\
  exists r, CSR_sub U8 a b = Ok r /\ csr_val r 0 0 = gauss (2 ^ 52 + 1) 2.
Proof.
  split; [check|]. split; [check|].
  split; [split; [|vm_compute; discriminate]; constructor; [exists (2 ^ 52)%Z|constructor; [exists 1%Z|constructor]]; vm_compute; reflexivity|].
  eexists. split; vm_compute; reflexivity.
Qed.
(** and for values at one position of a coordinate matrix *)
Example C96_complex_coo_ex : let m : Coo (cplx f64) := mkCoo 1 2 [0; 0; 0]%Z [1; 1; 0]%Z [gauss 1 (-7); gauss 2 7; gauss 9 9] in
  wf_coo U8 m /\ small_sum units most (imags float_real (coo_at m 0 1)) /\ exists r, Coo_to_csr U8 m = Ok r /\ csr_at r 0 1 = [gauss 3 0].
Proof.
  split; [check|]. split; [split; [|vm_compute; discriminate]; constructor; [exists (-7)%Z|constructor; [exists 7%Z|constructor]]; vm_compute; reflexivity|].
  eexists. split; vm_compute; reflexivity.
Qed.

Print Assumptions C96_complex_csr_mat_vec.
Print Assumptions C96_complex_csc_mat_vec.
Print Assumptions C96_complex_csr_mat_mat.
Print Assumptions C96_complex_csc_mat_mat.
Print Assumptions C96_complex_coo_to_dense.
Print Assumptions C96_complex_csr_to_dense.
Print Assumptions C96_complex_csc_to_dense.
Print Assumptions C96_complex_coo_to_csr.
Print Assumptions C96_complex_coo_to_csc.
Print Assumptions C96_complex_csr_sum_duplicates.
Print Assumptions C96_complex_csc_sum_duplicates.
Print Assumptions C96_complex_csr_add.
Print Assumptions C96_complex_csr_sub.
Print Assumptions C96_complex_csc_add.
Print Assumptions C96_complex_csc_subtract.
Print Assumptions C96_complex_coo_add.
