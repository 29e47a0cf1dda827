(** Floating-point results without rounding: C96. *)
From Verif Require Import Rust Scalar Model_kernels Model_matrix Spec SpecRound SpecExact SpecHom Wp Check Main_float Main_round Main_exact.
From Coq Require Import ZArith QArith Qabs List Floats.SpecFloat.
Import ListNotations.
Open Scope nat_scope.

Section Props.
Context {T : Type} {SC : Scalar T} {real : T -> Q} {fin : T -> Prop} {unit bound : Q} (R : ExactBelow real fin unit bound).
Variable I : ity.

(** C96: an element of a matrix-vector product is exact if the products that make it up are whole numbers of units and the sum of their absolute values is at most the bound; *)
Theorem C96_csr_mat_vec : forall (m : CSR T) (x : list T), wf_csr I m -> length x = csr_cols m ->
  exists y, CSR_mat_vec m x = Ok y /\ length y = csr_rows m /\
    forall i, i < csr_rows m -> (forall e, In e (csr_row m i) -> fin (snd e) /\ fin (nth (fst e) x s0)) ->
      small_sum unit bound (csr_terms real m x i) -> is_sum real fin (nth i y s0) (csr_terms real m x i).
Proof. exact (c96_csr_mat_vec R I). Qed.

Theorem C96_csc_mat_vec : forall (m : CSC T) (x : list T), wf_csc I m -> length x = csc_cols m ->
  exists y, CSC_mat_vec m x = Ok y /\ length y = csc_rows m /\
    forall i, i < csc_rows m -> (forall j, j < csc_cols m -> csc_at m i j <> [] -> Forall fin (csc_at m i j) /\ fin (nth j x s0)) ->
      small_sum unit bound (csc_terms real m x i) -> is_sum real fin (nth i y s0) (csc_terms real m x i).
Proof. exact (c96_csc_mat_vec R I). Qed.

(** ... so is an element of a product of matrices; *)
Theorem C96_csr_mat_mat : forall a b r : CSR T, wf_csr I a -> wf_csr I b -> CSR_mat_mat I a b = Ok r ->
  forall i k, i < csr_rows a -> (forall e, In e (csr_row a i) -> csr_at b (fst e) k <> [] -> fin (snd e) /\ Forall fin (csr_at b (fst e) k)) ->
    small_sum unit bound (csr_product_terms real a b i k) -> is_sum real fin (csr_val r i k) (csr_product_terms real a b i k).
Proof. exact (c96_csr_mat_mat R I). Qed.

Theorem C96_csc_mat_mat : forall a b r : CSC T, wf_csc I a -> wf_csc I b -> CSC_mat_mat I a b = Ok r ->
  forall i k, k < csc_cols b -> (forall e, In e (csc_col b k) -> csc_at a i (fst e) <> [] -> fin (snd e) /\ Forall fin (csc_at a i (fst e))) ->
    small_sum unit bound (csc_product_terms real a b i k) -> is_sum real fin (csc_val r i k) (csc_product_terms real a b i k).
Proof. exact (c96_csc_mat_mat R I). Qed.

(** ... a cell of a dense table, the values stored at the cell being the summands; *)
Theorem C96_coo_to_dense : forall m : Coo T, wf_coo I m -> 
  exists d, Coo_to_dense m = Ok d /\ is_table d (coo_rows m) (coo_cols m) (coo_val m) /\
    forall i j, Forall fin (coo_at m i j) -> small_sum unit bound (map real (coo_at m i j)) -> is_sum real fin (coo_val m i j) (map real (coo_at m i j)).
Proof. exact (c96_coo_to_dense R I). Qed.

Theorem C96_csr_to_dense : forall m : CSR T, wf_csr I m -> 
  exists d, CSR_to_dense m = Ok d /\ is_table d (csr_rows m) (csr_cols m) (csr_val m) /\
    forall i j, Forall fin (csr_at m i j) -> small_sum unit bound (map real (csr_at m i j)) -> is_sum real fin (csr_val m i j) (map real (csr_at m i j)).
Proof. exact (c96_csr_to_dense R I). Qed.

Theorem C96_csc_to_dense : forall m : CSC T, wf_csc I m -> csc_cols_fit I m -> 
  exists d, CSC_to_dense I m = Ok d /\ is_table d (csc_rows m) (csc_cols m) (csc_val m) /\
    forall i j, Forall fin (csc_at m i j) -> small_sum unit bound (map real (csc_at m i j)) -> is_sum real fin (csc_val m i j) (map real (csc_at m i j)).
Proof. exact (c96_csc_to_dense R I). Qed.

(** ... entries with the same position summed into one; *)
Theorem C96_coo_to_csr : forall m : Coo T, wf_coo I m -> (Z.of_nat (length (coo_values m)) < imax I)%Z ->
  exists r, Coo_to_csr I m = Ok r /\
    forall i j v, i < coo_rows m -> In v (csr_at r i j) -> Forall fin (coo_at m i j) -> small_sum unit bound (map real (coo_at m i j)) ->
      is_sum real fin v (map real (coo_at m i j)).
Proof. exact (c96_coo_to_csr R I). Qed.

Theorem C96_coo_to_csc : forall m : Coo T, wf_coo I m -> (Z.of_nat (length (coo_values m)) < imax I)%Z ->
  exists r, Coo_to_csc I m = Ok r /\
    forall i j v, j < coo_cols m -> In v (csc_at r i j) -> Forall fin (coo_at m i j) -> small_sum unit bound (map real (coo_at m i j)) ->
      is_sum real fin v (map real (coo_at m i j)).
Proof. exact (c96_coo_to_csc R I). Qed.

Theorem C96_csr_sum_duplicates : forall m : CSR T, wf_csr I m -> (Z.of_nat (csr_count m) < imax I)%Z ->
  exists r, CSR_sum_duplicates I m = Ok r /\
    forall i j v, In v (csr_at r i j) -> Forall fin (csr_at m i j) -> small_sum unit bound (map real (csr_at m i j)) ->
      is_sum real fin v (map real (csr_at m i j)).
Proof. exact (c96_csr_sum_duplicates R I). Qed.

Theorem C96_csc_sum_duplicates : forall m : CSC T, wf_csc I m -> (Z.of_nat (csc_count m) < imax I)%Z ->
  exists r, CSC_sum_duplicates I m = Ok r /\
    forall i j v, In v (csc_at r i j) -> Forall fin (csc_at m i j) -> small_sum unit bound (map real (csc_at m i j)) ->
      is_sum real fin v (map real (csc_at m i j)).
Proof. exact (c96_csc_sum_duplicates R I). Qed.

Theorem C96_coo_add : forall a b : Coo T, wf_coo I a -> wf_coo I b -> coo_rows a = coo_rows b -> coo_cols a = coo_cols b ->
  (Z.of_nat (length (coo_values a) + length (coo_values b)) < imax I)%Z ->
  exists r, Coo_add I a b = Ok r /\
    forall i j v, i < coo_rows a -> In v (csr_at r i j) -> Forall fin (coo_at a i j) -> Forall fin (coo_at b i j) ->
      small_sum unit bound (map real (coo_at a i j) ++ map real (coo_at b i j)) -> is_sum real fin v (map real (coo_at a i j) ++ map real (coo_at b i j)).
Proof. exact (c96_coo_add R I). Qed.

(** ... and sums and differences of matrices. *)
Theorem C96_csr_add : forall a b r : CSR T, wf_csr I a -> wf_csr I b -> csr_rows b = csr_rows a -> csr_cols b = csr_cols a -> CSR_add I a b = Ok r ->
  forall i j, i < csr_rows a -> Forall fin (csr_at a i j) -> Forall fin (csr_at b i j) ->
    small_sum unit bound (map real (csr_at a i j) ++ map real (csr_at b i j)) -> is_sum real fin (csr_val r i j) (map real (csr_at a i j) ++ map real (csr_at b i j)).
Proof. exact (c96_csr_add R I). Qed.

Theorem C96_csr_sub : forall a b r : CSR T, wf_csr I a -> wf_csr I b -> csr_rows b = csr_rows a -> csr_cols b = csr_cols a -> CSR_sub I a b = Ok r ->
  forall i j, i < csr_rows a -> Forall fin (csr_at a i j) -> Forall fin (csr_at b i j) ->
    small_sum unit bound (map real (csr_at a i j) ++ map Qopp (map real (csr_at b i j))) -> is_sum real fin (csr_val r i j) (map real (csr_at a i j) ++ map Qopp (map real (csr_at b i j))).
Proof. exact (c96_csr_sub R I). Qed.

Theorem C96_csc_add : forall a b r : CSC T, wf_csc I a -> wf_csc I b -> csc_rows b = csc_rows a -> csc_cols b = csc_cols a -> CSC_add I a b = Ok r ->
  forall i j, j < csc_cols a -> Forall fin (csc_at a i j) -> Forall fin (csc_at b i j) ->
    small_sum unit bound (map real (csc_at a i j) ++ map real (csc_at b i j)) -> is_sum real fin (csc_val r i j) (map real (csc_at a i j) ++ map real (csc_at b i j)).
Proof. exact (c96_csc_add R I). Qed.

Theorem C96_csc_subtract : forall a b r : CSC T, wf_csc I a -> wf_csc I b -> csc_rows b = csc_rows a -> csc_cols b = csc_cols a -> CSC_subtract I a b = Ok r ->
  forall i j, j < csc_cols a -> Forall fin (csc_at a i j) -> Forall fin (csc_at b i j) ->
    small_sum unit bound (map real (csc_at a i j) ++ map Qopp (map real (csc_at b i j))) -> is_sum real fin (csc_val r i j) (map real (csc_at a i j) ++ map Qopp (map real (csc_at b i j))).
Proof. exact (c96_csc_subtract R I). Qed.

End Props.


Open Scope Q_scope.
(** C96: f64 arithmetic is exact up to 2^53 units, for every unit 2^g between the smallest float and 2^916; f32 up to 2^24 units. *)
Theorem C96_f64 : forall g, (-1074 <= g <= 916)%Z -> @ExactBelow f64 scalar_f64 float_real float_fin (2 ^ g) (2 ^ (53 + g)).
Proof. exact c96_f64. Qed.
Theorem C96_f32 : forall g, (-149 <= g <= 78)%Z -> @ExactBelow spec_float scalar_f32 float_real float_fin (2 ^ g) (2 ^ (24 + g)).
Proof. exact c96_f32. Qed.

(** C96 for integers: a matrix-vector product computed in f64 is the one computed in integers, in every row whose products have absolute
    values with a sum of at most 2^53. *)
Theorem C96_integers : forall I (m : CSR Z) (x : list Z), wf_csr I m -> length x = csr_cols m ->
  (forall z, In z (csr_values m) \/ In z x -> (Z.abs z <= 2 ^ 53)%Z) ->
  exists y yf, CSR_mat_vec m x = Ok y /\ CSR_mat_vec (csr_map f64_of_Z m) (map f64_of_Z x) = Ok yf /\
    forall i, (i < csr_rows m)%nat -> (row_weight m x i <= 2 ^ 53)%Z ->
      float_fin (nth i yf s0) /\ float_real (nth i yf s0) == inject_Z (nth i y 0%Z).
Proof. exact c96_integers. Qed.

(** ** Concrete cases *)
(** a row of weight exactly 2^53, and a row of weight 2^53 + 1, where the result is wrong *)
Definition ex_m : CSR Z := mkCSR 3 2 [0; 2; 4; 6]%Z [0; 1; 0; 1; 1; 0]%Z [9007199254740991; 1; 9007199254740992; 1; 7; -5]%Z.
Definition ex_x : list Z := [1; 1]%Z.
Example C96_ex : wf_csr U8 ex_m /\ length ex_x = csr_cols ex_m /\ forallb (fun z => Z.abs z <=? 2 ^ 53)%Z (csr_values ex_m ++ ex_x) = true /\
  map (row_weight ex_m ex_x) [0; 1; 2]%nat = [2 ^ 53; 2 ^ 53 + 1; 12]%Z /\
  exists a b c, CSR_mat_vec (csr_map f64_of_Z ex_m) (map f64_of_Z ex_x) = Ok [a; b; c] /\ CSR_mat_vec ex_m ex_x = Ok [2 ^ 53; 2 ^ 53 + 1; 2]%Z /\
    float_real a == inject_Z (2 ^ 53) /\ ~ float_real b == inject_Z (2 ^ 53 + 1) /\ float_real c == 2.
Proof.
  split; [check|]. split; [reflexivity|]. split; [reflexivity|]. split; [reflexivity|].
  eexists _, _, _. split; [vm_compute; reflexivity|]. split; [reflexivity|]. split; [vm_compute; reflexivity|]. split; [vm_compute; discriminate|vm_compute; reflexivity].
Qed.
(** quarters: 0.25 + 0.5 - 0.75 and products of quarters, units of 1/16 *)
Definition q (n : positive) : f64 := match n with 1%positive => S754_finite false 4503599627370496 (-54) | 2%positive => S754_finite false 4503599627370496 (-53) | _ => S754_finite true 6755399441055744 (-53) end.
Definition ex_q : CSR f64 := mkCSR 2 2 [0; 2; 4]%Z [0; 1; 1; 0]%Z [q 1; q 2; q 3; q 1].
Example C96_quarters_ex : wf_csr U8 ex_q /\ small_sum (2 ^ (-4)) (2 ^ (53 + -4)) (csr_product_terms float_real ex_q ex_q 0 1) /\
  small_sum (2 ^ (-2)) (2 ^ (53 + -2)) (map float_real (csr_at ex_q 0 1) ++ map Qopp (map float_real (csr_at ex_q 0 1))) /\
  exists r, CSR_mat_mat U8 ex_q ex_q = Ok r /\ float_real (csr_val r 0 1) == -(1#4) /\ qsum (csr_product_terms float_real ex_q ex_q 0 1) == -(1#4).
Proof.
  split; [check|]. split.
  - split; [|vm_compute; discriminate]. constructor; [exists 2%Z; vm_compute; reflexivity|]. constructor; [exists (-6)%Z; vm_compute; reflexivity|constructor].
  - split.
    + split; [|vm_compute; discriminate]. constructor; [exists 2%Z; vm_compute; reflexivity|]. constructor; [exists (-2)%Z; vm_compute; reflexivity|constructor].
    + eexists. split; [vm_compute; reflexivity|]. split; vm_compute; reflexivity.
Qed.

Print Assumptions C96_csr_mat_vec.
Print Assumptions C96_csc_mat_vec.
Print Assumptions C96_csr_mat_mat.
Print Assumptions C96_csc_mat_mat.
Print Assumptions C96_coo_to_dense.
Print Assumptions C96_csr_to_dense.
Print Assumptions C96_csc_to_dense.
Print Assumptions C96_coo_to_csr.
Print Assumptions C96_coo_to_csc.
Print Assumptions C96_csr_sum_duplicates.
Print Assumptions C96_csc_sum_duplicates.
Print Assumptions C96_coo_add.
Print Assumptions C96_csr_add.
Print Assumptions C96_csr_sub.
Print Assumptions C96_csc_add.
Print Assumptions C96_csc_subtract.
Print Assumptions C96_f64.
Print Assumptions C96_f32.
Print Assumptions C96_integers.
