(** C91: integer scalars in a build with overflow checks: when conversions, sums and products of matrices panic. *)
From Verif Require Import Rust Debug Scalar Model_kernels Model_matrix Model_dok Model_checked Spec SpecBoundary SpecChecked Check Main_overflow.

Section Props.
Context {T : Type} {SC : Scalar T} {CK : Checked T} {L : CheckedLaw True T}.
Variable I : ity.
(** C91: merging the entries of one position overflows *)
Theorem C91_csr_sum_duplicates : forall m : CSR T, wf_csr I m ->
  panics_iff (exists i j, i < csr_rows m /\ dup_overflows (csr_at m i j)) (CSR_sum_duplicates_ck I m) (CSR_sum_duplicates I m).
Proof. exact (c91_csr_sum_duplicates I). Qed.
Theorem C91_csc_sum_duplicates : forall m : CSC T, wf_csc I m ->
  panics_iff (exists i j, j < csc_cols m /\ dup_overflows (csc_at m i j)) (CSC_sum_duplicates_ck I m) (CSC_sum_duplicates I m).
Proof. exact (c91_csc_sum_duplicates I). Qed.
Theorem C91_coo_to_csr : forall m : Coo T, wf_coo I m ->
  panics_iff (exists i j, dup_overflows (coo_at m i j)) (Coo_to_csr_ck I m) (Coo_to_csr I m).
Proof. exact (c91_coo_to_csr I). Qed.
Theorem C91_coo_to_csc : forall m : Coo T, wf_coo I m ->
  panics_iff (exists i j, dup_overflows (coo_at m i j)) (Coo_to_csc_ck I m) (Coo_to_csc I m).
Proof. exact (c91_coo_to_csc I). Qed.
Theorem C91_coo_add : forall a b : Coo T, wf_coo I a -> wf_coo I b ->
  panics_iff (coo_rows a = coo_rows b /\ coo_cols a = coo_cols b /\ exists i j, dup_overflows (coo_at a i j ++ coo_at b i j)) (Coo_add_ck I a b) (Coo_add I a b).
Proof. exact (c91_coo_add I). Qed.
(** C91: functions that go through a coordinate matrix *)
Theorem C91_csr_h_stack : forall a b : CSR T, wf_csr I a -> wf_csr I b -> csr_tight a -> csr_tight b -> csr_rows_fit I a -> csr_rows_fit I b ->
  csr_rows a = csr_rows b -> (Z.of_nat (csr_cols a + csr_cols b) <= Z.min (imax I + 1) (imax Usize))%Z ->
  panics_iff (exists i j, i < csr_rows a /\ (dup_overflows (csr_at a i j) \/ dup_overflows (csr_at b i j))) (CSR_h_stack_ck I a b) (CSR_h_stack I a b).
Proof. exact (c91_csr_h_stack I). Qed.
Theorem C91_csc_compose : forall a b c d : CSC T, wf_csc I a -> wf_csc I b -> wf_csc I c -> wf_csc I d ->
  csc_rows a = csc_rows b -> csc_rows c = csc_rows d -> csc_cols a + csc_cols b = csc_cols c + csc_cols d ->
  (Z.of_nat (csc_cols a + csc_cols b) <= Z.min (imax I + 1) (imax Usize))%Z -> (Z.of_nat (csc_rows a + csc_rows c) <= Z.min (imax I + 1) (imax Usize))%Z ->
  panics_iff (exists m i j, In m [a; b; c; d] /\ j < csc_cols m /\ dup_overflows (csc_at m i j)) (CSC_compose_ck I a b c d) (CSC_compose I a b c d).
Proof. exact (c91_csc_compose I). Qed.
(** C91: a dictionary has one value per position, nothing is added *)
Theorem C91_dok_convert : forall (d : DoK T) order, wf_dok I d -> Permutation order (dok_values d) -> seqb (T := T) s0 s0 = true ->
  DoK_to_csr_ck I d order = DoK_to_csr I d order /\ DoK_to_csc_ck I d order = DoK_to_csc I d order.
Proof. exact (c91_dok_convert I). Qed.
(** C91: the element-wise kernels *)
Theorem C91_kernels : forall (SO : ScalarOrd T),
  kernel_overflow I cadd (csr_add_csr_ck I) (csr_add_csr I) /\ kernel_overflow I csub (csr_sub_csr_ck I) (csr_sub_csr I) /\
  kernel_overflow I cmul (csr_mul_csr_ck I) (csr_mul_csr I) /\
  ((forall u v, sdiv u v = Panic \/ exists q, sdiv u v = Ok q) -> kernel_overflow I cdiv (csr_div_csr_ck I) (csr_div_csr I)) /\
  kernel_overflow I (fun u v => Ok (seqb u v)) (csr_eq_csr_ck I) (csr_eq_csr I) /\
  kernel_overflow I (fun u v => Ok (negb (seqb u v))) (csr_ne_csr_ck I) (csr_ne_csr I) /\
  kernel_overflow I (fun u v => Ok (sltb u v)) (csr_lt_csr_ck I) (csr_lt_csr I) /\
  kernel_overflow I (fun u v => Ok (sltb v u)) (csr_gt_csr_ck I) (csr_gt_csr I) /\
  kernel_overflow I (fun u v => Ok (sleb u v)) (csr_le_csr_ck I) (csr_le_csr I) /\
  kernel_overflow I (fun u v => Ok (sleb v u)) (csr_ge_csr_ck I) (csr_ge_csr I) /\
  kernel_overflow I (fun u v => Ok (if sltb v u then u else v)) (csr_max_csr_ck I) (csr_max_csr I) /\
  kernel_overflow I (fun u v => Ok (if sltb u v then u else v)) (csr_min_csr_ck I) (csr_min_csr I).
Proof. exact (c91_kernels I). Qed.
(** C91: sums and differences *)
Theorem C91_csr_sums : forall a b : CSR T, wf_csr I a -> wf_csr I b -> csr_rows b = csr_rows a -> csr_cols b = csr_cols a ->
  panics_iff (csr_op_overflows cadd a b) (CSR_add_ck I a b) (CSR_add I a b) /\
  panics_iff (csr_op_overflows csub a b) (CSR_sub_ck I a b) (CSR_sub I a b).
Proof. exact (c91_csr_sums I). Qed.
Theorem C91_csc_sums : forall a b : CSC T, wf_csc I a -> wf_csc I b -> csc_rows b = csc_rows a -> csc_cols b = csc_cols a ->
  panics_iff (csc_op_overflows cadd a b) (CSC_add_ck I a b) (CSC_add I a b) /\
  panics_iff (csc_op_overflows csub a b) (CSC_subtract_ck I a b) (CSC_subtract I a b) /\
  panics_iff (csc_op_overflows cadd a b) (CSC_op_add_ck I a b) (CSC_op_add I a b) /\
  panics_iff (csc_op_overflows csub a b) (CSC_op_sub_ck I a b) (CSC_op_sub I a b).
Proof. exact (c91_csc_sums I). Qed.
(** C91: products *)
Theorem C91_csr_product : forall a b : CSR T, wf_csr I a -> wf_csr I b -> csr_cols a = csr_rows b ->
  panics_iff (csr_product_overflows a b) (CSR_mat_mat_ck I a b) (CSR_mat_mat I a b) /\
  panics_iff (csr_product_overflows a b) (CSR_mul_ck I a b) (CSR_mul I a b).
Proof. exact (c91_csr_product I). Qed.
Theorem C91_csc_product : forall a b : CSC T, wf_csc I a -> wf_csc I b -> csc_cols a = csc_rows b ->
  panics_iff (csc_product_overflows a b) (CSC_mat_mat_ck I a b) (CSC_mat_mat I a b) /\
  panics_iff (csc_product_overflows a b) (CSC_mul_ck I a b) (CSC_mul I a b).
Proof. exact (c91_csc_product I). Qed.
Theorem C91_mixed_product : forall (a : CSC T) (b : CSR T), wf_csc I a -> wf_csr I b -> csc_cols a = csr_rows b ->
  panics_iff (mixed_product_overflows a b) (CSC_mul_csr_ck I a b) (CSC_mul_csr I a b).
Proof. exact (c91_mixed_product I). Qed.
End Props.
(** C91: what overflowing while merging means for the primitive integer types *)
Theorem C91_int : forall J (l : list Z), Forall (in_ity J) l ->
  (@dup_overflows Z _ (int_checked J) l <-> exists p q, l = p ++ q /\ ~ in_ity J (fold_right Z.add 0%Z p)).
Proof. exact c91_int. Qed.

(** ** Concrete cases, scalars i8 *)
(** merging 100, 100 and -100 overflows in this order, though 100 is a value of i8; in another order it does not *)
Example C91_merge_ex : let m v w := mkCoo 2 2 [1; 0; 1; 1]%Z [1; 0; 1; 1]%Z [v; 5; 100; w]%Z in
  wf_coo I32 (m 100 (-100))%Z /\ @dup_overflows Z _ (int_checked I8) (coo_at (m 100 (-100))%Z 1 1) /\
  @Coo_to_csr_ck Debug Z _ (int_checked I8) I32 (m 100 (-100))%Z = Panic /\
  ~ (exists i j, @dup_overflows Z _ (int_checked I8) (coo_at (m (-100) 100)%Z i j)) /\
  @Coo_to_csr_ck Debug Z _ (int_checked I8) I32 (m (-100) 100)%Z = Ok (mkCSR 2 2 [0; 1; 2] [0; 1] [5; 100])%Z.
Proof.
  split; [check|]. split; [exists 100%Z, [], 100%Z, [-100]%Z; split; reflexivity|]. split; [reflexivity|]. split; [|reflexivity].
  intros (i & j & u & p & v & q & E & H).
  destruct i as [|[|i]]; destruct j as [|[|j]]; cbn in E; try discriminate; injection E; intros; subst; try (destruct p; discriminate).
  destruct p as [|a [|b [|c p]]]; cbn in *; try discriminate; injection E; intros; subst; cbn in *; discriminate.
Qed.
Example C91_merge_int_ex : Forall (in_ity I8) [100; 100; -100]%Z /\ ~ in_ity I8 (100 + 100).
Proof. split; [repeat constructor; unfold in_ity; cbn; lia|unfold in_ity; cbn; lia]. Qed.
Example C91_sum_ex : let a := row3 100 0 3 in let b := row3 27 (-128) 4 in let c := row3 28 (-128) 4 in
  wf_csr I32 a /\ wf_csr I32 b /\ csr_canonical a /\ csr_canonical b /\
  @CSR_add_ck Debug Z _ (int_checked I8) I32 a b = CSR_add I32 a b /\ @CSR_add_ck Debug Z _ (int_checked I8) I32 a c = Panic /\
  @CSR_sub_ck Debug Z _ (int_checked I8) I32 a b = Panic /\ @csr_op_overflows Z _ (int_checked I8) Z (@csub Z (int_checked I8)) a b /\
  (exists r, CSR_add I32 a b = Ok r /\ csr_val r 0 0 = 127%Z).
Proof.
  assert (C : forall a b c, csr_canonical (row3 a b c)).
  { intros a b c i Hi. cbn in Hi. assert (i = 0) by lia. subst i. cbn. repeat constructor. }
  split; [check|]. split; [check|]. split; [apply C|]. split; [apply C|]. split; [reflexivity|]. split; [reflexivity|]. split; [reflexivity|]. split.
  - exists 0, 1. split; [cbn; lia|]. split; [discriminate|]. left. split; [split; apply C|reflexivity].
  - eexists. split; reflexivity.
Qed.
(** entries of one position are added up first if an operand is not canonical: [100 + 100 - 100] overflows in the operand, its sum with 0 would fit *)
Example C91_noncanonical_ex : let a := mkCSR 1 3 [0; 3]%Z [1; 1; 1]%Z [100; 100; -100]%Z in
  wf_csr I32 a /\ @CSR_add_ck Debug Z _ (int_checked I8) I32 a (row3 0 0 0) = Panic /\
  @CSR_add_ck Debug Z _ (int_checked I16) I32 a (row3 0 0 0) = CSR_add I32 a (row3 0 0 0) /\
  @csr_lt_csr_ck Debug Z _ (int_checked I8) I32 _ 1 3 (csr_rowptr a) (csr_colidx a) (csr_values a) [0; 0]%Z [] [] [0; 0]%Z [0; 0; 0]%Z [false; false; false] = Panic.
Proof. split; [check|]. repeat split. Qed.
Example C91_product_ex : let a := row3 10 10 1 in let b v := mkCSR 3 1 [0; 1; 2; 3]%Z [0; 0; 0]%Z [6; 6; v]%Z in
  wf_csr I32 a /\ wf_csr I32 (b 8)%Z /\ csr_products a (b 8)%Z 0 0 = [60; 60; 8]%Z /\
  @CSR_mat_mat_ck Debug Z _ (int_checked I8) I32 a (b 8)%Z = Panic /\ @csr_product_overflows Z _ (int_checked I8) a (b 8)%Z /\
  @CSR_mat_mat_ck Debug Z _ (int_checked I8) I32 a (b 7)%Z = CSR_mat_mat I32 a (b 7)%Z.
Proof.
  split; [check|]. split; [check|]. split; [reflexivity|]. split; [reflexivity|]. split; [|reflexivity].
  exists 0, 0. split; [cbn; lia|]. right. exists [60; 60]%Z, 8%Z, []. split; reflexivity.
Qed.

Print Assumptions C91_csr_sum_duplicates.
Print Assumptions C91_csc_sum_duplicates.
Print Assumptions C91_coo_to_csr.
Print Assumptions C91_coo_to_csc.
Print Assumptions C91_coo_add.
Print Assumptions C91_csr_h_stack.
Print Assumptions C91_csc_compose.
Print Assumptions C91_dok_convert.
Print Assumptions C91_kernels.
Print Assumptions C91_csr_sums.
Print Assumptions C91_csc_sums.
Print Assumptions C91_csr_product.
Print Assumptions C91_csc_product.
Print Assumptions C91_mixed_product.
Print Assumptions C91_int.
