(** Laws that tie several operations together: C53; capacity: C55; products of mixed formats: C60;
    order of insertion: C61. *)
From Verif Require Import Rust Scalar Model_kernels Model_matrix Spec SpecMore Wp Check Props_arith Main_laws.

Section Props.
Context {T : Type} {SC : Scalar T}.
Variable I : ity.

(** C53, transposition of a product: for any scalars (floats included) the transposed factors multiplied in
    the other order give the very arrays of the transposed product. *)
Theorem C53_csr_transpose_product : forall a b : CSR T,
  wf_csr I a -> wf_csr I b -> csr_cols a = csr_rows b -> (Z.of_nat (product_count a b) <= imax I)%Z ->
  exists p ta tb tp, CSR_mat_mat I a b = Ok p /\ CSR_t a = Ok ta /\ CSR_t b = Ok tb /\ CSR_t p = Ok tp /\
    CSC_mat_mat I tb ta = Ok tp.
Proof. exact (c53_csr_transpose_product I). Qed.
Theorem C53_csc_transpose_product : forall a b : CSC T,
  wf_csc I a -> wf_csc I b -> csc_cols a = csc_rows b -> (Z.of_nat (csc_product_count a b) <= imax I)%Z ->
  exists p ta tb tp, CSC_mat_mat I a b = Ok p /\ CSC_t a = Ok ta /\ CSC_t b = Ok tb /\ CSC_t p = Ok tp /\
    CSR_mat_mat I tb ta = Ok tp.
Proof. exact (c53_csc_transpose_product I). Qed.
(** C55 (positive part): results of to_csr/to_csc, of the conversions between the compressed formats, of
    from_dense, with_diagonal and select hold exactly nnz() indices and values, and so does sum_duplicates of
    a matrix that does. *)
Theorem C55_conversions_exact :
  (forall (m : Coo T) r, wf_coo I m -> (Z.of_nat (length (coo_values m)) < imax I)%Z -> Coo_to_csr I m = Ok r -> csr_exact r) /\
  (forall (m : Coo T) r, wf_coo I m -> (Z.of_nat (length (coo_values m)) < imax I)%Z -> Coo_to_csc I m = Ok r -> csc_exact r) /\
  (forall (m : CSR T) r, wf_csr I m -> csr_rows_fit I m -> CSR_to_csc I m = Ok r -> csc_exact r) /\
  (forall (m : CSC T) r, wf_csc I m -> csc_cols_fit I m -> CSC_to_csr I m = Ok r -> csr_exact r).
Proof. exact (c55_conversions_exact I). Qed.
Theorem C55_construction_exact :
  (forall (a : list (list T)) c r, a <> [] -> rectangular c a -> nz_cols_fit I c a -> (Z.of_nat (nz_count a) <= imax I)%Z ->
     CSR_from_dense I a = Ok r -> csr_exact r) /\
  (forall (a : list (list T)) c r, a <> [] -> rectangular c a -> nz_rows_fit I c a -> (Z.of_nat (nz_count a) <= imax I)%Z ->
     CSC_from_dense I a = Ok r -> csc_exact r) /\
  (forall (d : list T) r, (Z.of_nat (length d) <= imax I)%Z -> CSR_with_diagonal I d = Ok r -> csr_exact r) /\
  (forall (d : list T) r, (Z.of_nat (length d) <= imax I)%Z -> CSC_with_diagonal I d = Ok r -> csc_exact r).
Proof. exact (c55_construction_exact I). Qed.
(** C55: what sums, differences and products leave unused behind the last entry is zero: index 0, value 0. *)
Theorem C55_unused_is_zero :
  (forall a b r : CSR T, CSR_add I a b = Ok r \/ CSR_sub I a b = Ok r \/ CSR_mat_mat I a b = Ok r ->
     filled 0%Z (csr_count r) (csr_colidx r) /\ filled s0 (csr_count r) (csr_values r)) /\
  (forall a b r : CSC T, CSC_op_add I a b = Ok r \/ CSC_mat_mat I a b = Ok r ->
     filled 0%Z (csc_count r) (csc_rowidx r) /\ filled s0 (csc_count r) (csc_values r)).
Proof. exact (c55_unused_is_zero I). Qed.

Theorem C55_select_exact : forall (m : CSR T) rs cs r,
  wf_csr I m -> (Z.of_nat (csr_count m) < imax I)%Z -> (Z.of_nat (csr_rows m) <= imax I)%Z -> (Z.of_nat (csr_cols m) <= imax I)%Z ->
  let rl := picked (csr_rows m) rs in let cl := picked (csr_cols m) cs in
  (Z.of_nat (length cl) <= imax I + 1)%Z ->
  (Z.of_nat (list_sum (map (fun i => list_sum (map (fun j => length (csr_at m i j)) cl)) rl)) <= imax I)%Z ->
  CSR_select I m rs cs = Ok r -> csr_exact r.
Proof. exact (c55_select_exact I). Qed.
Theorem C55_sum_duplicates_exact :
  (forall m r : CSR T, wf_csr I m -> (Z.of_nat (csr_count m) < imax I)%Z -> csr_exact m -> CSR_sum_duplicates I m = Ok r -> csr_exact r) /\
  (forall m r : CSC T, wf_csc I m -> (Z.of_nat (csc_count m) < imax I)%Z -> csc_exact m -> CSC_sum_duplicates I m = Ok r -> csc_exact r).
Proof. exact (c55_sum_duplicates_exact I). Qed.
(** C60: CSC * CSR first converts the right factor; same cells as the product of two CSC matrices.
    [mixed_count a b] is the number of positions met by stored entries (i, j) of [a] and (j, k) of [b]. *)
Theorem C60_csc_mul_csr : forall (a : CSC T) (b : CSR T),
  wf_csc I a -> wf_csr I b -> csr_rows_fit I b -> csc_cols a = csr_rows b ->
  (Z.of_nat (mixed_count a b) <= imax I)%Z ->
  exists r, CSC_mul_csr I a b = Ok r /\
    wf_csc I r /\ csc_rows r = csc_rows a /\ csc_cols r = csr_cols b /\ csc_nodup r /\ csc_nonzero r /\
    forall i k, i < csc_rows a -> k < csr_cols b ->
      let prods := flat_map (fun j => flat_map (fun v => map (fun u => smul v u) (csc_at a i j)) (csr_at b j k)) (seq 0 (csr_rows b)) in
      csc_at r i k = keep prods (sum0 prods).
Proof. exact (c60_csc_mul_csr I). Qed.
End Props.

Section Ring.
Context {T : Type} {SC : Scalar T} {SN : ScalarNeg T} {ER : ExactRing T}.
Variable I : ity.

(** (A + B) x = A x + B x *)
Theorem C53_add_mat_vec : forall (a b : CSR T) x, wf_csr I a -> wf_csr I b -> csr_rows b = csr_rows a -> csr_cols b = csr_cols a ->
  (Z.of_nat (csr_count a + csr_count b) < imax I)%Z -> length x = csr_cols a ->
  exists s ya yb, CSR_add I a b = Ok s /\ CSR_mat_vec a x = Ok ya /\ CSR_mat_vec b x = Ok yb /\ CSR_mat_vec s x = Ok (vplus ya yb).
Proof. exact (c53_add_mat_vec I). Qed.
(** A (x + y) = A x + A y *)
Theorem C53_mat_vec_additive : forall (a : CSR T) x y, wf_csr I a -> length x = csr_cols a -> length y = csr_cols a ->
  exists u v, CSR_mat_vec a x = Ok u /\ CSR_mat_vec a y = Ok v /\ CSR_mat_vec a (vplus x y) = Ok (vplus u v).
Proof. exact (c53_mat_vec_additive I). Qed.
(** (A B) x = A (B x) *)
Theorem C53_mat_mat_vec : forall (a b : CSR T) x, wf_csr I a -> wf_csr I b -> csr_cols a = csr_rows b ->
  (Z.of_nat (product_count a b) <= imax I)%Z -> length x = csr_cols b ->
  exists p y z, CSR_mat_mat I a b = Ok p /\ CSR_mat_vec b x = Ok y /\ CSR_mat_vec a y = Ok z /\ CSR_mat_vec p x = Ok z.
Proof. exact (c53_mat_mat_vec I). Qed.
(** A + B = B + A, cell by cell what is stored *)
Theorem C53_add_comm : forall (a b : CSR T), wf_csr I a -> wf_csr I b -> csr_rows b = csr_rows a -> csr_cols b = csr_cols a ->
  (Z.of_nat (csr_count a + csr_count b) < imax I)%Z ->
  exists s t, CSR_add I a b = Ok s /\ CSR_add I b a = Ok t /\ csr_same s t /\ forall i j, i < csr_rows a -> csr_at s i j = csr_at t i j.
Proof. exact (c53_add_comm I). Qed.
(** (A + B) + C = A + (B + C) *)
Theorem C53_add_assoc : forall (a b c : CSR T), wf_csr I a -> wf_csr I b -> wf_csr I c ->
  csr_rows b = csr_rows a -> csr_cols b = csr_cols a -> csr_rows c = csr_rows a -> csr_cols c = csr_cols a ->
  (Z.of_nat (csr_count a + csr_count b + csr_count c) < imax I)%Z ->
  exists ab bc s t, CSR_add I a b = Ok ab /\ CSR_add I b c = Ok bc /\ CSR_add I ab c = Ok s /\ CSR_add I a bc = Ok t /\ csr_same s t.
Proof. exact (c53_add_assoc I). Qed.
(** (A - B) + B = A *)
Theorem C53_sub_add : forall (a b : CSR T), wf_csr I a -> wf_csr I b -> csr_rows b = csr_rows a -> csr_cols b = csr_cols a ->
  (Z.of_nat (csr_count a + 2 * csr_count b) < imax I)%Z ->
  exists d s, CSR_sub I a b = Ok d /\ CSR_add I d b = Ok s /\ csr_same s a.
Proof. exact (c53_sub_add I). Qed.
(** A + (-A) and A - A store nothing *)
Theorem C53_add_neg : forall (a : CSR T), wf_csr I a -> (Z.of_nat (csr_count a + csr_count a) < imax I)%Z ->
  exists n s d, CSR_neg a = Ok n /\ CSR_add I a n = Ok s /\ CSR_sub I a a = Ok d /\ CSR_nnz s = Ok 0 /\ CSR_nnz d = Ok 0.
Proof. exact (c53_add_neg I). Qed.
(** (A B) C = A (B C) *)
Theorem C53_product_assoc : forall (a b c ab bc : CSR T), wf_csr I a -> wf_csr I b -> wf_csr I c ->
  csr_cols a = csr_rows b -> csr_cols b = csr_rows c ->
  (Z.of_nat (product_count a b) <= imax I)%Z -> (Z.of_nat (product_count b c) <= imax I)%Z ->
  CSR_mat_mat I a b = Ok ab -> CSR_mat_mat I b c = Ok bc ->
  (Z.of_nat (product_count ab c) <= imax I)%Z -> (Z.of_nat (product_count a bc) <= imax I)%Z ->
  exists s t, CSR_mat_mat I ab c = Ok s /\ CSR_mat_mat I a bc = Ok t /\ csr_same s t.
Proof. exact (c53_product_assoc I). Qed.
(** A (B + C) = A B + A C and (B + C) A = B A + C A *)
Theorem C53_distributes : forall (a b c s : CSR T), wf_csr I a -> wf_csr I b -> wf_csr I c ->
  csr_cols a = csr_rows b -> csr_rows c = csr_rows b -> csr_cols c = csr_cols b ->
  (Z.of_nat (csr_count b + csr_count c) < imax I)%Z -> CSR_add I b c = Ok s ->
  (Z.of_nat (product_count a s) <= imax I)%Z -> (Z.of_nat (product_count a b + product_count a c) < imax I)%Z ->
  exists ab ac l r, CSR_mat_mat I a b = Ok ab /\ CSR_mat_mat I a c = Ok ac /\ CSR_mat_mat I a s = Ok l /\ CSR_add I ab ac = Ok r /\ csr_same l r.
Proof. exact (c53_distributes I). Qed.
Theorem C53_distributes_right : forall (a b c s : CSR T), wf_csr I a -> wf_csr I b -> wf_csr I c ->
  csr_cols b = csr_rows a -> csr_rows c = csr_rows b -> csr_cols c = csr_cols b ->
  (Z.of_nat (csr_count b + csr_count c) < imax I)%Z -> CSR_add I b c = Ok s ->
  (Z.of_nat (product_count s a) <= imax I)%Z -> (Z.of_nat (product_count b a + product_count c a) < imax I)%Z ->
  exists ba ca l r, CSR_mat_mat I b a = Ok ba /\ CSR_mat_mat I c a = Ok ca /\ CSR_mat_mat I s a = Ok l /\ CSR_add I ba ca = Ok r /\ csr_same l r.
Proof. exact (c53_distributes_right I). Qed.
(** with_diagonal of ones is neutral on both sides *)
Theorem C53_identity : forall (a : CSR T), wf_csr I a -> (Z.of_nat (csr_rows a) <= imax I)%Z -> (Z.of_nat (csr_cols a) <= imax I)%Z ->
  exists il ir, CSR_with_diagonal I (repeat s1 (csr_rows a)) = Ok il /\ CSR_with_diagonal I (repeat s1 (csr_cols a)) = Ok ir /\
    ((Z.of_nat (product_count il a) <= imax I)%Z -> exists p, CSR_mat_mat I il a = Ok p /\ csr_same p a) /\
    ((Z.of_nat (product_count a ir) <= imax I)%Z -> exists p, CSR_mat_mat I a ir = Ok p /\ csr_same p a).
Proof. exact (c53_identity I). Qed.

(** C61: over an exact ring the order of insertion into a coordinate matrix does not matter at all: permuted
    entries convert to the very same arrays. *)
Theorem C61_insertion_order : forall m1 m2 : Coo T, wf_coo I m1 -> wf_coo I m2 -> coo_rows m1 = coo_rows m2 -> coo_cols m1 = coo_cols m2 ->
  (Z.of_nat (length (coo_values m1)) < imax I)%Z -> Permutation (coo_entries m1) (coo_entries m2) ->
  Coo_to_csr I m1 = Coo_to_csr I m2 /\ Coo_to_csc I m1 = Coo_to_csc I m2 /\ Coo_to_dense m1 = Coo_to_dense m2.
Proof. exact (c61_insertion_order I). Qed.
End Ring.

(** ** Concrete cases *)
Definition ex_d : CSR Z := mkCSR 2 3 [0; 2; 3]%Z [0; 2; 1]%Z [5; -4; 6]%Z.
Example ex_laws_wf : wf_csr I8 ex_a /\ wf_csr I8 ex_b /\ wf_csr I8 ex_c /\ wf_csr I8 ex_d /\ csr_rows_fit I8 ex_c /\
  (Z.of_nat (csr_count ex_a + 2 * csr_count ex_b) < imax I8)%Z /\ (Z.of_nat (csr_count ex_a + csr_count ex_b + csr_count ex_d) < imax I8)%Z.
Proof. sp; check. Qed.
Example C53_transpose_ex : exists p ta tc tp, CSR_mat_mat I8 ex_a ex_c = Ok p /\ CSR_t ex_a = Ok ta /\ CSR_t ex_c = Ok tc /\ CSR_t p = Ok tp /\
  CSC_mat_mat I8 tc ta = Ok tp /\ csc_entries tp = [(1, 0, 14%Z)].
Proof. eexists _, _, _, _. repeat (split; [reflexivity|]). reflexivity. Qed.
Example C53_vec_ex : exists s, CSR_add I8 ex_a ex_b = Ok s /\ CSR_mat_vec ex_a [1; 10; 100]%Z = Ok [402; 40]%Z /\
  CSR_mat_vec ex_b [1; 10; 100]%Z = Ok [-400; 540]%Z /\ CSR_mat_vec s [1; 10; 100]%Z = Ok [2; 580]%Z.
Proof. eexists. repeat (split; [reflexivity|]). reflexivity. Qed.
Example C53_assoc_ex : exists p q s, CSR_mat_mat I8 ex_a ex_c = Ok p /\ CSR_mat_mat I8 ex_c ex_d = Ok q /\
  CSR_mat_mat I8 p ex_d = Ok s /\ (product_count p ex_d <= 127) /\ (product_count ex_a q <= 127) /\ csr_entries s = [(0, 1, 84%Z)].
Proof. eexists _, _, _. repeat (split; [reflexivity|]). split; [vm_compute; lia|]. split; [vm_compute; lia|]. reflexivity. Qed.
Example C53_sub_add_ex : exists d s, CSR_sub I8 ex_a ex_b = Ok d /\ CSR_add I8 d ex_b = Ok s /\ csr_entries s = [(0, 0, 2%Z); (0, 2, 4%Z); (1, 1, 4%Z)].
Proof. eexists _, _. repeat (split; [reflexivity|]). reflexivity. Qed.
Example C55_unused_ex : exists r, CSR_sub I8 ex_a ex_a = Ok r /\ csr_count r = 0 /\ csr_colidx r <> [] /\
  csr_colidx r = repeat 0%Z (length (csr_colidx r)) /\ csr_values r = repeat 0%Z (length (csr_values r)).
Proof. eexists. split; [reflexivity|]. repeat (split; [reflexivity||discriminate|]). reflexivity. Qed.
Example C55_ex : csr_exact (mkCSR 2 3 [0; 1; 2]%Z [0; 2]%Z [8; 9]%Z) /\ CSR_from_dense I8 [[8; 0; 0]; [0; 0; 9]]%Z = Ok (mkCSR 2 3 [0; 1; 2] [0; 2] [8; 9])%Z /\
  ~ csr_exact (mkCSR 2 3 [0; 1; 1]%Z [0; 2]%Z [8; 9]%Z).
Proof. split; [exists 2; sp|]. split; [reflexivity|]. intros (n & E & L & _). cbn in E. injection E as <-. discriminate. Qed.
Example C60_ex : let a := mkCSC 2 3 [1; 0; 0; 1]%Z [0; 2; 3; 4]%Z [1; 2; 3; 4]%Z in wf_csc I8 a /\ mixed_count a ex_c = 4 /\
  exists r, CSC_mul_csr I8 a ex_c = Ok r /\ csc_entries r = [(0, 0, 8%Z); (1, 0, (-4)%Z); (0, 1, 10%Z); (1, 1, 9%Z)].
Proof. cbv zeta. split; [check|]. split; [reflexivity|]. eexists. split; reflexivity. Qed.
Example C61_ex : let m1 := mkCoo 2 2 [0; 1; 0]%Z [1; 0; 1]%Z [5; 4; 7]%Z in let m2 := mkCoo 2 2 [0; 1; 0]%Z [1; 0; 1]%Z [7; 4; 5]%Z in
  wf_coo U8 m1 /\ wf_coo U8 m2 /\ Permutation (coo_entries m1) (coo_entries m2) /\ Coo_to_csr U8 m2 = Ok (mkCSR 2 2 [0; 1; 2] [1; 0] [12; 4])%Z.
Proof. cbv zeta. split; [check|]. split; [check|]. split; [|reflexivity]. cbn. eapply perm_trans; [apply perm_swap|]. eapply perm_trans; [apply perm_skip, perm_swap|]. apply perm_swap. Qed.

Print Assumptions C53_csr_transpose_product.
Print Assumptions C53_csc_transpose_product.
Print Assumptions C55_conversions_exact.
Print Assumptions C55_construction_exact.
Print Assumptions C55_unused_is_zero.
Print Assumptions C55_select_exact.
Print Assumptions C55_sum_duplicates_exact.
Print Assumptions C60_csc_mul_csr.
Print Assumptions C53_add_mat_vec.
Print Assumptions C53_mat_vec_additive.
Print Assumptions C53_mat_mat_vec.
Print Assumptions C53_add_comm.
Print Assumptions C53_add_assoc.
Print Assumptions C53_sub_add.
Print Assumptions C53_add_neg.
Print Assumptions C53_product_assoc.
Print Assumptions C53_distributes.
Print Assumptions C53_distributes_right.
Print Assumptions C53_identity.
Print Assumptions C61_insertion_order.
