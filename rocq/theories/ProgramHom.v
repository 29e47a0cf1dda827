(** A program on checked scalars commutes with a map of scalars that commutes with the checked operations. *)
From Verif Require Import Rust Debug Scalar Model_kernels Model_matrix Model_dok Model_checked Spec SpecPipe SpecHom SpecProgram HomProofs HomAll HomChecked Main_hom.

Ltac kc L := eapply L; solve [eassumption | reflexivity].
Ltac hk := match goal with
  | |- _ = rmap _ (@CSR_sum_duplicates_ck _ _ _ _ _ _) => kc @hom_CSR_sum_duplicates_ck
  | |- _ = rmap _ (@CSC_sum_duplicates_ck _ _ _ _ _ _) => kc @hom_CSC_sum_duplicates_ck
  | |- _ = rmap _ (@Coo_to_csc_ck _ _ _ _ _ _) => kc @hom_Coo_to_csc_ck
  | |- _ = rmap _ (@Coo_to_csr_ck _ _ _ _ _ _) => kc @hom_Coo_to_csr_ck
  | |- _ = rmap _ (@Coo_to_dense_ck _ _ _ _) => kc @hom_Coo_to_dense_ck
  | |- _ = rmap _ (@CSR_to_dense_ck _ _ _ _) => kc @hom_CSR_to_dense_ck
  | |- _ = rmap _ (@CSC_to_dense_ck _ _ _ _ _ _) => kc @hom_CSC_to_dense_ck
  | |- _ = rmap _ (@Coo_diagonal_ck _ _ _ _) => kc @hom_Coo_diagonal_ck
  | |- _ = rmap _ (@CSR_diagonal_ck _ _ _ _ _) => kc @hom_CSR_diagonal_ck
  | |- _ = rmap _ (@CSC_diagonal_ck _ _ _ _ _) => kc @hom_CSC_diagonal_ck
  | |- _ = rmap _ (@CSR_h_stack_ck _ _ _ _ _ _ _) => kc @hom_CSR_h_stack_ck
  | |- _ = rmap _ (@CSC_compose_ck _ _ _ _ _ _ _ _ _) => kc @hom_CSC_compose_ck
  | |- _ = rmap _ (@CSR_mat_vec_ck _ _ _ _ _) => kc @hom_CSR_mat_vec_ck
  | |- _ = rmap _ (@CSC_mat_vec_ck _ _ _ _ _) => kc @hom_CSC_mat_vec_ck
  | |- _ = rmap _ (@CSR_add_ck _ _ _ _ _ _ _) => kc @hom_CSR_add_ck
  | |- _ = rmap _ (@CSR_sub_ck _ _ _ _ _ _ _) => kc @hom_CSR_sub_ck
  | |- _ = rmap _ (@CSR_mul_ck _ _ _ _ _ _ _) => kc @hom_CSR_mul_ck
  | |- _ = rmap _ (@CSC_subtract_ck _ _ _ _ _ _ _) => kc @hom_CSC_subtract_ck
  | |- _ = rmap _ (@CSC_op_add_ck _ _ _ _ _ _ _) => kc @hom_CSC_op_add_ck
  | |- _ = rmap _ (@CSC_mul_ck _ _ _ _ _ _ _) => kc @hom_CSC_mul_ck
  | |- _ = rmap _ (@CSC_mul_csr_ck _ _ _ _ _ _ _) => kc @hom_CSC_mul_csr_ck
  | |- _ = rmap _ (@Coo_add_ck _ _ _ _ _ _ _) => kc @hom_Coo_add_ck
  | |- _ = rmap _ (@CSR_mul_scalar_ck _ _ _ _ _) => kc @hom_CSR_mul_scalar_ck
  | |- _ = rmap _ (@CSR_scalar_mul_ck _ _ _ _ _) => kc @hom_CSR_scalar_mul_ck
  | |- _ = rmap _ (@Coo_neg_ck _ _ _) => kc @hom_Coo_neg_ck
  | |- _ = rmap _ (@CSR_neg_ck _ _ _ _) => kc @hom_CSR_neg_ck
  | |- _ = rmap _ (@CSC_neg_ck _ _ _ _) => kc @hom_CSC_neg_ck
  | |- _ = rmap _ (@DoK_add_ck _ _ _ _ _ _ _ _) => kc @hom_DoK_add_ck
  | |- _ = rmap _ (@DoK_sub_ck _ _ _ _ _ _ _ _) => kc @hom_DoK_sub_ck
  | |- _ = rmap _ (@DoK_to_csc_ck _ _ _ _ _ _ _) => kc @hom_DoK_to_csc_ck
  | |- _ = rmap _ (@DoK_to_csr_ck _ _ _ _ _ _ _) => kc @hom_DoK_to_csr_ck
  | |- _ = rmap _ (@Coo_new _ _ _ _ _ _) => kc @hom_Coo_new
  | |- _ = rmap _ (@CSR_new _ _ _ _ _ _ _) => kc @hom_CSR_new
  | |- _ = rmap _ (@CSC_new _ _ _ _ _ _ _) => kc @hom_CSC_new
  | |- _ = rmap _ (@CSR_t _ _ _) => kc @hom_CSR_t
  | |- _ = rmap _ (@CSC_t _ _ _) => kc @hom_CSC_t
  | |- _ = rmap _ (@CSR_sort_indexes _ _ _ _) => kc @hom_CSR_sort_indexes
  | |- _ = rmap _ (@CSC_sort_indexes _ _ _ _) => kc @hom_CSC_sort_indexes
  | |- _ = rmap _ (@CSR_to_coo _ _ _) => kc @hom_CSR_to_coo
  | |- _ = rmap _ (@CSR_to_csc _ _ _ _ _) => kc @hom_CSR_to_csc
  | |- _ = rmap _ (@CSC_to_csr _ _ _ _ _) => kc @hom_CSC_to_csr
  | |- _ = rmap _ (@CSC_to_coo _ _ _ _ _) => kc @hom_CSC_to_coo
  | |- _ = rmap _ (@Coo_from_dense _ _ _ _) => kc @hom_Coo_from_dense
  | |- _ = rmap _ (@CSR_from_dense _ _ _ _ _) => kc @hom_CSR_from_dense
  | |- _ = rmap _ (@CSC_from_dense _ _ _ _ _) => kc @hom_CSC_from_dense
  | |- _ = rmap _ (@Coo_with_diagonal _ _ _ _) => kc @hom_Coo_with_diagonal
  | |- _ = rmap _ (@Coo_identity _ _ _ _) => kc @hom_Coo_identity
  | |- _ = rmap _ (@CSR_with_diagonal _ _ _) => kc @hom_CSR_with_diagonal
  | |- _ = rmap _ (@CSC_with_diagonal _ _ _) => kc @hom_CSC_with_diagonal
  | |- _ = rmap _ (@Coo_upper _ _ _ _ _) => kc @hom_Coo_upper
  | |- _ = rmap _ (@Coo_v_stack _ _ _ _ _) => kc @hom_Coo_v_stack
  | |- _ = rmap _ (@Coo_v_stack3 _ _ _ _ _ _) => kc @hom_Coo_v_stack3
  | |- _ = rmap _ (@Coo_h_stack _ _ _ _ _) => kc @hom_Coo_h_stack
  | |- _ = rmap _ (@Coo_h_stack3 _ _ _ _ _ _) => kc @hom_Coo_h_stack3
  | |- _ = rmap _ (@Coo_compose _ _ _ _ _ _ _) => kc @hom_Coo_compose
  | |- _ = rmap _ (@Coo_compose3 _ _ _ _ _ _ _ _ _ _ _ _) => kc @hom_Coo_compose3
  | |- _ = rmap _ (@CSR_select _ _ _ _ _ _ _) => kc @hom_CSR_select
  | |- _ = rmap _ (@CSC_select _ _ _ _ _ _ _) => kc @hom_CSC_select
  | |- _ = rmap _ (@CSR_get _ _ _ _ _) => kc @hom_CSR_get
  | |- _ = rmap _ (@DoK_from_dense _ _ _ _) => kc @hom_DoK_from_dense
  | |- _ = rmap _ (@DoK_to_dense _ _ _ _) => kc @hom_DoK_to_dense
  | |- _ = rmap _ (@DoK_to_coo _ _ _) => kc @hom_DoK_to_coo
  | |- _ = rmap _ (@DoK_set _ _ _ _ _ _ _) => kc @hom_DoK_set
  end.
Section Program.
Context {T U : Type} {ST : Scalar T} {SU : Scalar U} {NT : ScalarNeg T} {NU : ScalarNeg U}.
Context {CT : Checked T} {CU : Checked U} {CNT : CheckedNeg T} {CNU : CheckedNeg U}.
Variable I : ity.
Variable h : T -> U.
Context (K0 : h s0 = s0) (K1 : h s1 = s1) (Keq : keeps_eq h).
Context (Kadd : forall x y, cadd (h x) (h y) = rmap h (cadd x y)) (Ksub : forall x y, csub (h x) (h y) = rmap h (csub x y)) (Kmul : forall x y, cmul (h x) (h y) = rmap h (cmul x y)).
Context (Kneg : forall x, cneg (h x) = rmap h (cneg x)).
Ltac call := intros; cbn [option_map]; try reflexivity; apply f_equal;
  match goal with
  | |- coo _ = _ => apply hom_coo; hk
  | |- csr _ = _ => apply hom_csr; hk
  | |- csc _ = _ => apply hom_csc; hk
  | |- dok _ = _ => apply hom_dok; hk
  | |- Ok _ = rmap _ (Ok _) => cbn [rmap mat_map]; unfold Coo_push, Coo_extend, coo_map; cbn [coo_rows coo_cols coo_rowidx coo_colidx coo_values]; now rewrite map_app
  end.
Lemma hom_make_ck f k : do_make I f (maker_map h k) = option_map (rmap (mat_map h)) (do_make I f k).
Proof. destruct k, f; cbn [maker_map do_make]; call. Qed.
Lemma hom_unary_ck u m : do_unary_ck I (unary_map h u) (mat_map h m) = option_map (rmap (mat_map h)) (do_unary_ck I u m).
Proof. destruct u as [[]|? []| | | | | |], m; cbn [unary_map mat_map do_unary_ck do_unary]; call. Qed.
Lemma hom_inplace_ck p m : do_inplace_ck I (inplace_map h p) (mat_map h m) = option_map (rmap (mat_map h)) (do_inplace_ck I p m).
Proof. destruct p as [| | | |[]], m; cbn [inplace_map dok_op_map mat_map do_inplace_ck do_inplace dok_apply]; call. Qed.
Lemma hom_binary_ck b x y : do_binary_ck I b (mat_map h x) (mat_map h y) = option_map (rmap (mat_map h)) (do_binary_ck I b x y).
Proof. destruct b, x, y; cbn [mat_map do_binary_ck do_binary]; call. Qed.
Lemma hom_blocks_ck k ms : do_blocks_ck I k (map (mat_map h) ms) = option_map (rmap (mat_map h)) (do_blocks_ck I k ms).
Proof.
  destruct k; repeat (match goal with |- context [map _ ?l] => is_var l; destruct l as [|[] l] end; cbn [map mat_map]; try reflexivity); cbn [map mat_map do_blocks_ck do_blocks]; call.
Qed.
Lemma hom_step_ck st c : step_ck I (map (mat_map h) st) (call_map h c) = rmap (map (mat_map h)) (step_ck I st c).
Proof.
  destruct c as [f k|u v|p v|b v w|k vs]; cbn [call_map step_ck].
  - rewrite hom_make_ck. apply hom_new.
  - rewrite <- hom_new. f_equal. rewrite nth_error_map. destruct (nth_error st v); cbn [option_map obind]; [apply hom_unary_ck|reflexivity].
  - rewrite <- hom_set. f_equal. rewrite nth_error_map. destruct (nth_error st v); cbn [option_map obind]; [apply hom_inplace_ck|reflexivity].
  - rewrite <- hom_new. f_equal. rewrite !nth_error_map. destruct (nth_error st v); cbn [option_map obind]; [|reflexivity]. destruct (nth_error st w); cbn [option_map obind]; [apply hom_binary_ck|reflexivity].
  - rewrite <- hom_new. f_equal. rewrite hom_vars. destruct (vars st vs); cbn [option_map obind]; [apply hom_blocks_ck|reflexivity].
Qed.
Lemma hom_run_ck cs : forall st, run_ck I (map (mat_map h) st) (map (call_map h) cs) = rmap (map (mat_map h)) (run_ck I st cs).
Proof.
  induction cs as [|c cs IH]; intros st; cbn [run_ck map]; [reflexivity|]. rewrite hom_step_ck. destruct (step_ck I st c); cbn [rmap bind]; [apply IH| | |]; reflexivity.
Qed.
Lemma hom_look_ck o m : do_look_ck I (look_map h o) (mat_map h m) = option_map (rmap (answer_map h)) (do_look_ck I o m).
Proof.
  destruct o, m; cbn [look_map mat_map do_look_ck do_look option_map]; try reflexivity; apply f_equal;
    match goal with
    | |- tab _ = _ => apply hom_tab; hk
    | |- vec _ = _ => apply hom_vec; hk
    | |- elem _ = _ => apply hom_elem; hk
    | |- Ok _ = _ => cbn [rmap answer_map]; do 2 apply f_equal; apply hom_DoK_get, K0
    end.
Qed.
End Program.
