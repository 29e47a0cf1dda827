(** Replacing the values of a matrix: C87, C88. *)
From Verif Require Import Rust Scalar Model_kernels Model_matrix Model_graph Model_dok Model_text Spec SpecPipe SpecHom Wp Check Main_hom.

(** C87: operations that only move values commute with any function [h] of the values. *)
Theorem C87_moved : forall {T U : Type} {ST : Scalar T} {SU : Scalar U} (bd : Build) (I F : ity) (h : T -> U),
  (forall m n p j x, Coo_new m n p j (map h x) = rmap (coo_map h) (Coo_new m n p j x)) /\
  (forall m n p j x, CSR_new m n p j (map h x) = rmap (csr_map h) (CSR_new m n p j x)) /\
  (forall m n p j x, CSC_new m n p j (map h x) = rmap (csc_map h) (CSC_new m n p j x)) /\
  (forall a i j v, Coo_push (coo_map h a) i j (h v) = coo_map h (Coo_push a i j v)) /\
  (forall a p j x, Coo_extend (coo_map h a) p j (map h x) = coo_map h (Coo_extend a p j x)) /\
  (forall a, Coo_nnz (coo_map h a) = Coo_nnz a) /\
  (forall a, CSR_nnz (csr_map h a) = CSR_nnz a) /\
  (forall a, CSC_nnz (csc_map h a) = CSC_nnz a) /\
  (forall d, DoK_nnz (dok_map h d) = DoK_nnz d) /\
  (forall a, Coo_t (coo_map h a) = coo_map h (Coo_t a)) /\
  (forall a, CSR_t (csr_map h a) = rmap (csc_map h) (CSR_t a)) /\
  (forall a, CSC_t (csc_map h a) = rmap (csr_map h) (CSC_t a)) /\
  (forall a, CSR_has_canonical_format I (csr_map h a) = CSR_has_canonical_format I a) /\
  (forall a, CSR_has_sorted_indexes I (csr_map h a) = CSR_has_sorted_indexes I a) /\
  (forall a, CSC_has_canonical_format I (csc_map h a) = CSC_has_canonical_format I a) /\
  (forall a, CSC_has_sorted_indexes I (csc_map h a) = CSC_has_sorted_indexes I a) /\
  (forall a, CSC_prune (csc_map h a) = rmap (csc_map h) (CSC_prune a)) /\
  (forall a, CSR_to_coo I (csr_map h a) = rmap (coo_map h) (CSR_to_coo I a)) /\
  (forall d order, DoK_to_coo (dok_map h d) (order_map h order) = rmap (coo_map h) (DoK_to_coo d order)) /\
  (forall x, CSR_with_diagonal I (map h x) = rmap (csr_map h) (CSR_with_diagonal I x)) /\
  (forall x, CSC_with_diagonal I (map h x) = rmap (csc_map h) (CSC_with_diagonal I x)) /\
  (forall a i, Coo_upper I (coo_map h a) i = rmap (coo_map h) (Coo_upper I a i)) /\
  (forall a b, Coo_v_stack I (coo_map h a) (coo_map h b) = rmap (coo_map h) (Coo_v_stack I a b)) /\
  (forall a b c, Coo_v_stack3 I (coo_map h a) (coo_map h b) (coo_map h c) = rmap (coo_map h) (Coo_v_stack3 I a b c)) /\
  (forall a b, Coo_h_stack I (coo_map h a) (coo_map h b) = rmap (coo_map h) (Coo_h_stack I a b)) /\
  (forall a b c, Coo_h_stack3 I (coo_map h a) (coo_map h b) (coo_map h c) = rmap (coo_map h) (Coo_h_stack3 I a b c)) /\
  (forall a b c d, Coo_compose I (coo_map h a) (coo_map h b) (coo_map h c) (coo_map h d) = rmap (coo_map h) (Coo_compose I a b c d)) /\
  (forall a b c d e f g k l, Coo_compose3 I (coo_map h a) (coo_map h b) (coo_map h c) (coo_map h d) (coo_map h e) (coo_map h f) (coo_map h g) (coo_map h k) (coo_map h l) = rmap (coo_map h) (Coo_compose3 I a b c d e f g k l)) /\
  (forall a e kind, connected_components I (csr_map h a) e kind = connected_components I a e kind) /\
  (forall a m e, depth_first_order I (csr_map h a) m e = depth_first_order I a m e) /\
  (forall a, CSR_connected_components I F (csr_map h a) = CSR_connected_components I F a).
Proof. exact @c87_moved. Qed.
(** Operations that put zeros into fresh arrays: any [h] with [h 0 = 0]. *)
Theorem C87_filled : forall {T U : Type} {ST : Scalar T} {SU : Scalar U} (bd : Build) (I : ity) (h : T -> U),
  h s0 = s0 ->
  (forall a, CSR_sort_indexes (csr_map h a) = rmap (csr_map h) (CSR_sort_indexes a)) /\
  (forall a, CSC_sort_indexes (csc_map h a) = rmap (csc_map h) (CSC_sort_indexes a)) /\
  (forall a, CSR_prune (csr_map h a) = rmap (csr_map h) (CSR_prune a)) /\
  (forall a, CSR_to_csc I (csr_map h a) = rmap (csc_map h) (CSR_to_csc I a)) /\
  (forall a, CSC_to_csr I (csc_map h a) = rmap (csr_map h) (CSC_to_csr I a)) /\
  (forall a, CSC_to_coo I (csc_map h a) = rmap (coo_map h) (CSC_to_coo I a)) /\
  (forall x, Coo_with_diagonal I (map h x) = rmap (coo_map h) (Coo_with_diagonal I x)) /\
  (forall a rs cs, CSR_select I (csr_map h a) rs cs = rmap (csr_map h) (CSR_select I a rs cs)) /\
  (forall a rs cs, CSC_select I (csc_map h a) rs cs = rmap (csc_map h) (CSC_select I a rs cs)) /\
  (forall a i j, CSR_get (csr_map h a) i j = rmap h (CSR_get a i j)) /\
  (forall d i j, DoK_get (dok_map h d) i j = h (DoK_get d i j)) /\
  (forall d order, DoK_to_dense (dok_map h d) (order_map h order) = rmap (map (map h)) (DoK_to_dense d order)).
Proof. exact @c87_filled. Qed.
(** Operations that add values up: any [h] that keeps 0 and sums. *)
Theorem C87_summed : forall {T U : Type} {ST : Scalar T} {SU : Scalar U} (bd : Build) (I : ity) (h : T -> U),
  h s0 = s0 ->
  (forall x y, h (sadd x y) = sadd (h x) (h y)) ->
  (forall a, CSR_sum_duplicates I (csr_map h a) = rmap (csr_map h) (CSR_sum_duplicates I a)) /\
  (forall a, CSC_sum_duplicates I (csc_map h a) = rmap (csc_map h) (CSC_sum_duplicates I a)) /\
  (forall a, Coo_to_csr I (coo_map h a) = rmap (csr_map h) (Coo_to_csr I a)) /\
  (forall a, Coo_to_csc I (coo_map h a) = rmap (csc_map h) (Coo_to_csc I a)) /\
  (forall d order, DoK_to_csr I (dok_map h d) (order_map h order) = rmap (csr_map h) (DoK_to_csr I d order)) /\
  (forall d order, DoK_to_csc I (dok_map h d) (order_map h order) = rmap (csc_map h) (DoK_to_csc I d order)) /\
  (forall a, Coo_to_dense (coo_map h a) = rmap (map (map h)) (Coo_to_dense a)) /\
  (forall a, CSR_to_dense (csr_map h a) = rmap (map (map h)) (CSR_to_dense a)) /\
  (forall a, CSC_to_dense I (csc_map h a) = rmap (map (map h)) (CSC_to_dense I a)) /\
  (forall a, Coo_diagonal (coo_map h a) = rmap (map h) (Coo_diagonal a)) /\
  (forall a, CSR_diagonal (csr_map h a) = rmap (map h) (CSR_diagonal a)) /\
  (forall a, CSC_diagonal (csc_map h a) = rmap (map h) (CSC_diagonal a)) /\
  (forall a b, CSR_h_stack I (csr_map h a) (csr_map h b) = rmap (csr_map h) (CSR_h_stack I a b)) /\
  (forall a b c d, CSC_compose I (csc_map h a) (csc_map h b) (csc_map h c) (csc_map h d) = rmap (csc_map h) (CSC_compose I a b c d)) /\
  (forall a b, Coo_add I (coo_map h a) (coo_map h b) = rmap (csr_map h) (Coo_add I a b)).
Proof. exact @c87_summed. Qed.
(** Products with vectors and numbers, negation: no value is compared with zero. *)
Theorem C87_linear : forall {T U : Type} {ST : Scalar T} {SU : Scalar U} {NT : ScalarNeg T} {NU : ScalarNeg U} (bd : Build) (I : ity) (h : T -> U),
  keeps_ring h ->
  keeps_neg h ->
  (forall a x, CSR_mat_vec (csr_map h a) (map h x) = rmap (map h) (CSR_mat_vec a x)) /\
  (forall a x, CSC_mat_vec (csc_map h a) (map h x) = rmap (map h) (CSC_mat_vec a x)) /\
  (forall a v, CSR_mul_scalar (csr_map h a) (h v) = rmap (csr_map h) (CSR_mul_scalar a v)) /\
  (forall v a, CSR_scalar_mul (h v) (csr_map h a) = rmap (csr_map h) (CSR_scalar_mul v a)) /\
  (forall a v, CSC_mul_scalar (csc_map h a) (h v) = rmap (csc_map h) (CSC_mul_scalar a v)) /\
  (forall v a, CSC_scalar_mul (h v) (csc_map h a) = rmap (csc_map h) (CSC_scalar_mul v a)) /\
  (forall a, Coo_neg (coo_map h a) = rmap (coo_map h) (Coo_neg a)) /\
  (forall a, CSR_neg (csr_map h a) = rmap (csr_map h) (CSR_neg a)) /\
  (forall a, CSC_neg (csc_map h a) = rmap (csc_map h) (CSC_neg a)) /\
  (forall m, Coo_identity I m = rmap (coo_map h) (Coo_identity I m)).
Proof. exact @c87_linear. Qed.
(** Operations that leave out zero results: [h] must also keep == . *)
Theorem C87_tested : forall {T U : Type} {ST : Scalar T} {SU : Scalar U} (bd : Build) (I : ity) (h : T -> U),
  keeps_ring h ->
  keeps_eq h ->
  (forall a b, CSR_mat_mat I (csr_map h a) (csr_map h b) = rmap (csr_map h) (CSR_mat_mat I a b)) /\
  (forall a b, CSC_mat_mat I (csc_map h a) (csc_map h b) = rmap (csc_map h) (CSC_mat_mat I a b)) /\
  (forall a b, CSR_mul I (csr_map h a) (csr_map h b) = rmap (csr_map h) (CSR_mul I a b)) /\
  (forall a b, CSC_mul I (csc_map h a) (csc_map h b) = rmap (csc_map h) (CSC_mul I a b)) /\
  (forall a b, CSC_mul_csr I (csc_map h a) (csr_map h b) = rmap (csc_map h) (CSC_mul_csr I a b)) /\
  (forall a b, CSR_add I (csr_map h a) (csr_map h b) = rmap (csr_map h) (CSR_add I a b)) /\
  (forall a b, CSR_sub I (csr_map h a) (csr_map h b) = rmap (csr_map h) (CSR_sub I a b)) /\
  (forall a b, CSC_add I (csc_map h a) (csc_map h b) = rmap (csc_map h) (CSC_add I a b)) /\
  (forall a b, CSC_subtract I (csc_map h a) (csc_map h b) = rmap (csc_map h) (CSC_subtract I a b)) /\
  (forall a b, CSC_op_add I (csc_map h a) (csc_map h b) = rmap (csc_map h) (CSC_op_add I a b)) /\
  (forall a b, CSC_op_sub I (csc_map h a) (csc_map h b) = rmap (csc_map h) (CSC_op_sub I a b)) /\
  (forall t, Coo_from_dense I ((map (map h)) t) = rmap (coo_map h) (Coo_from_dense I t)) /\
  (forall t, CSR_from_dense I ((map (map h)) t) = rmap (csr_map h) (CSR_from_dense I t)) /\
  (forall t, CSC_from_dense I ((map (map h)) t) = rmap (csc_map h) (CSC_from_dense I t)) /\
  (forall t, DoK_from_dense I ((map (map h)) t) = rmap (dok_map h) (DoK_from_dense I t)) /\
  (forall d i j v, DoK_set I (dok_map h d) i j (h v) = rmap (dok_map h) (DoK_set I d i j v)) /\
  (forall d i j v, DoK_add I (dok_map h d) i j (h v) = rmap (dok_map h) (DoK_add I d i j v)) /\
  (forall d i j v, DoK_sub I (dok_map h d) i j (h v) = rmap (dok_map h) (DoK_sub I d i j v)).
Proof. exact @c87_tested. Qed.
(** The kernels on plain arrays. *)
Theorem C87_kernels : forall {T U : Type} {ST : Scalar T} {SU : Scalar U} (bd : Build) (I : ity) (h : T -> U),
  keeps_ring h ->
  keeps_eq h ->
  (forall m v x n y l, axpy m (h v) (map h x) n (map h y) l = rmap (map h) (axpy m v x n y l)) /\
  (forall i m n p j x y, csr_diagonal i m n p j (map h x) (map h y) = rmap (map h) (csr_diagonal i m n p j x y)) /\
  (forall m n p j x y, csr_scale_rows m n p j (map h x) (map h y) = rmap (map h) (csr_scale_rows m n p j x y)) /\
  (forall m n p j x y, csr_scale_columns m n p j (map h x) (map h y) = rmap (map h) (csr_scale_columns m n p j x y)) /\
  (forall m n p j x t, csr_todense m n p j (map h x) ((map (map h)) t) = rmap (map (map h)) (csr_todense m n p j x t)) /\
  (forall m p j x, csr_sort_indices m p j (map h x) = rmap (arrays_map h) (csr_sort_indices m p j x)) /\
  (forall m n p j x q k y, csr_tocsc I m n p j (map h x) q k (map h y) = rmap (arrays_map h) (csr_tocsc I m n p j x q k y)) /\
  (forall m n p j x q k y, csr_tocoo I m n p j (map h x) q k (map h y) = rmap (arrays_map h) (csr_tocoo I m n p j x q k y)) /\
  (forall m n p j x, csr_sum_duplicates I m n p j (map h x) = rmap (arrays_map h) (csr_sum_duplicates I m n p j x)) /\
  (forall m n p j x, csr_eliminate_zeros I m n p j (map h x) = rmap (arrays_map h) (csr_eliminate_zeros I m n p j x)) /\
  (forall m n p j x y z, csr_matvec m n p j (map h x) (map h y) (map h z) = rmap (map h) (csr_matvec m n p j x y z)) /\
  (forall m n l p j x y z, csr_matvecs m n l p j (map h x) (map h y) (map h z) = rmap (map h) (csr_matvecs m n l p j x y z)) /\
  (forall m n p j x q k y r l z, csr_matmat I m n p j (map h x) q k (map h y) r l (map h z) = rmap (arrays_map h) (csr_matmat I m n p j x q k y r l z)) /\
  (forall m n p j x q k r l y, csr_select I m n p j (map h x) q k r l (map h y) = rmap (arrays_map h) (csr_select I m n p j x q k r l y)) /\
  (forall m n p j x i k l u0 q r y, get_csr_submatrix I m n p j (map h x) i k l u0 q r (map h y) = rmap (arrays_map h) (get_csr_submatrix I m n p j x i k l u0 q r y)) /\
  (forall m sel p j x q y, csr_row_index m sel p j (map h x) q (map h y) = rmap (arrays_map h) (csr_row_index m sel p j x q y)) /\
  (forall m n l u0 p j x q y, csr_row_slice m n l u0 p j (map h x) q (map h y) = rmap (arrays_map h) (csr_row_slice m n l u0 p j x q y)) /\
  (forall p j m q x k y, csr_column_index2 p j m q (map h x) k (map h y) = rmap (arrays_map h) (csr_column_index2 p j m q x k y)) /\
  (forall m n l p j x q k y, coo_tocsr I m n l p j (map h x) q k (map h y) = rmap (arrays_map h) (coo_tocsr I m n l p j x q k y)) /\
  (forall m n l p j x y e, coo_todense m n l p j (map h x) (map h y) e = rmap (map h) (coo_todense m n l p j x y e)) /\
  (forall m p j x y z, coo_matvec m p j (map h x) (map h y) (map h z) = rmap (map h) (coo_matvec m p j x y z)) /\
  (forall m n p j x y z, csc_matvec m n p j (map h x) (map h y) (map h z) = rmap (map h) (csc_matvec m n p j x y z)) /\
  (forall m n l p j x y z, csc_matvecs m n l p j (map h x) (map h y) (map h z) = rmap (map h) (csc_matvecs m n l p j x y z)) /\
  (forall i m n p j x y, csc_diagonal i m n p j (map h x) (map h y) = rmap (map h) (csc_diagonal i m n p j x y)) /\
  (forall m n p j x q k y, csc_tocsr I m n p j (map h x) q k (map h y) = rmap (arrays_map h) (csc_tocsr I m n p j x q k y)) /\
  (forall m n p j x q k y r l z, csc_matmat I m n p j (map h x) q k (map h y) r l (map h z) = rmap (arrays_map h) (csc_matmat I m n p j x q k y r l z)) /\
  (forall m n p j x q k y r l u0, csr_ne_csr I m n p j (map h x) q k (map h y) r l u0 = csr_ne_csr I m n p j x q k y r l u0) /\
  (forall m n p j x q k y r l u0, csr_eq_csr I m n p j (map h x) q k (map h y) r l u0 = csr_eq_csr I m n p j x q k y r l u0) /\
  (forall m n p j x q k y r l z, csr_mul_csr I m n p j (map h x) q k (map h y) r l (map h z) = rmap (arrays_map h) (csr_mul_csr I m n p j x q k y r l z)) /\
  (forall m n p j x q k y r l z, csr_add_csr I m n p j (map h x) q k (map h y) r l (map h z) = rmap (arrays_map h) (csr_add_csr I m n p j x q k y r l z)) /\
  (forall m n p j x q k y r l z, csr_sub_csr I m n p j (map h x) q k (map h y) r l (map h z) = rmap (arrays_map h) (csr_sub_csr I m n p j x q k y r l z)).
Proof. exact @c87_kernels. Qed.
(** Division. *)
Theorem C87_kernels_div : forall {T U : Type} {ST : Scalar T} {SU : Scalar U} (bd : Build) (I : ity) (h : T -> U),
  keeps_ring h ->
  keeps_eq h ->
  (forall x y, sdiv (h x) (h y) = rmap h (sdiv x y)) ->
  (forall m n p j x q k y r l z, csr_div_csr I m n p j (map h x) q k (map h y) r l (map h z) = rmap (arrays_map h) (csr_div_csr I m n p j x q k y r l z)).
Proof. exact @c87_kernels_div. Qed.
(** Comparison. *)
Theorem C87_kernels_ord : forall {T U : Type} {ST : Scalar T} {SU : Scalar U} {OT : ScalarOrd T} {OU : ScalarOrd U} (bd : Build) (I : ity) (h : T -> U),
  keeps_ring h ->
  keeps_eq h ->
  (forall x y, sltb (h x) (h y) = sltb x y) ->
  (forall x y, sleb (h x) (h y) = sleb x y) ->
  (forall m n p j x q k y r l u0, csr_lt_csr I m n p j (map h x) q k (map h y) r l u0 = csr_lt_csr I m n p j x q k y r l u0) /\
  (forall m n p j x q k y r l u0, csr_le_csr I m n p j (map h x) q k (map h y) r l u0 = csr_le_csr I m n p j x q k y r l u0) /\
  (forall m n p j x q k y r l u0, csr_gt_csr I m n p j (map h x) q k (map h y) r l u0 = csr_gt_csr I m n p j x q k y r l u0) /\
  (forall m n p j x q k y r l u0, csr_ge_csr I m n p j (map h x) q k (map h y) r l u0 = csr_ge_csr I m n p j x q k y r l u0) /\
  (forall m n p j x q k y r l z, csr_max_csr I m n p j (map h x) q k (map h y) r l (map h z) = rmap (arrays_map h) (csr_max_csr I m n p j x q k y r l z)) /\
  (forall m n p j x q k y r l z, csr_min_csr I m n p j (map h x) q k (map h y) r l (map h z) = rmap (arrays_map h) (csr_min_csr I m n p j x q k y r l z)).
Proof. exact @c87_kernels_ord. Qed.

(** The texts: the text of the replaced values is the text with the replaced values' texts. *)
Theorem C87_text : forall {T U : Type} (bd : Build) (h : T -> U) (show : U -> String.string) (align : String.string -> String.string),
  (forall a, Coo_to_string show (coo_map h a) = Coo_to_string (fun x => show (h x)) a) /\
  (forall a, CSR_to_string show (csr_map h a) = CSR_to_string (fun x => show (h x)) a) /\
  (forall a, CSC_to_string show (csc_map h a) = CSC_to_string (fun x => show (h x)) a) /\
  (forall order, DoK_to_string show (order_map h order) = DoK_to_string (fun x => show (h x)) order) /\
  (forall a, CSR_to_table show align (csr_map h a) = CSR_to_table (fun x => show (h x)) align a).
Proof. exact @c87_text. Qed.

Section Program.
Context {T U : Type} {ST : Scalar T} {SU : Scalar U} {NT : ScalarNeg T} {NU : ScalarNeg U}.
Variables (I : ity) (h : T -> U).
(** If [h] preserves the operations and [==], any program of calls on the replaced values does what it does on the
    original ones: it fails where that fails, and otherwise holds the same arrays with the values replaced. *)
Theorem C87_program : keeps_ring h -> keeps_neg h -> keeps_eq h -> forall (cs : list (call T)) (st : list (mat T)),
  run I (map (mat_map h) st) (map (call_map h) cs) = rmap (map (mat_map h)) (run I st cs).
Proof. exact (c87_program I h). Qed.
(** The readings of a matrix likewise; they do not compare. *)
Theorem C87_look : keeps_ring h -> forall (o : look T) (m : mat T),
  do_look I (look_map h o) (mat_map h m) = option_map (rmap (answer_map h)) (do_look I o m).
Proof. exact (c87_look I h). Qed.

Context {RT : ExactRing T} {RU : ExactRing U}.
(** C88: between rings the operations are enough. The two programs may store and drop different zeros, but every matrix
    of the one holds the replaced values of the other. *)
Theorem C88_history : keeps_ring h -> forall cs : list (call T), calls_ok I [] cs -> calls_ok I [] (map (call_map h) cs) ->
  exists st st', run I [] cs = Ok st /\ run I [] (map (call_map h) cs) = Ok st' /\
    Forall2 (fun m m' => mat_rows m' = mat_rows m /\ mat_cols m' = mat_cols m /\ forall i j, i < mat_rows m -> j < mat_cols m -> mat_val m' i j = h (mat_val m i j)) st st'.
Proof. exact (c88_history I h). Qed.
Theorem C88_look : keeps_ring h -> forall (cs : list (call T)) st st' v m m' o, calls_ok I [] cs -> calls_ok I [] (map (call_map h) cs) ->
  run I [] cs = Ok st -> run I [] (map (call_map h) cs) = Ok st' -> nth_error st v = Some m -> nth_error st' v = Some m' -> look_ok I o m -> look_ok I (look_map h o) m' ->
  exists a, do_look I o m = Some (Ok a) /\ do_look I (look_map h o) m' = Some (Ok (answer_map h a)).
Proof. exact (c88_look I h). Qed.
End Program.

(** Machine integers: reduction modulo 2^64 preserves the operations, so a program in integers that wrap round ends with
    the remainders of the exact results, whatever overflowed on the way. *)
Theorem C88_wrap : forall (I : ity) (cs : list (call Z)), calls_ok I [] cs -> calls_ok I [] (map (call_map wrap) cs) ->
  exists st st', run I [] cs = Ok st /\ run I [] (map (call_map wrap) cs) = Ok st' /\
    Forall2 (fun m m' => mat_rows m' = mat_rows m /\ mat_cols m' = mat_cols m /\ forall i j, i < mat_rows m -> j < mat_cols m -> wval (mat_val m' i j) = (mat_val m i j mod 2 ^ 64)%Z) st st'.
Proof. exact c88_wrap. Qed.

Section Conj.
Context {F C : Type} {SC : Scalar C} {CO : ComplexOps F C}.
(** Complex conjugation, where it preserves the operations: the conjugate of a product, sum or difference is the
    product, sum or difference of the conjugates, with the same arrays. *)
Theorem C87_conj_csr : forall (bd : Build) (I : ity), keeps_ring (cconj (F := F) : C -> C) -> keeps_eq (cconj (F := F) : C -> C) ->
  forall a b a' b' r : CSR C, CSR_conj (F := F) a = Ok a' -> CSR_conj (F := F) b = Ok b' ->
  (CSR_mat_mat I a b = Ok r -> exists r', CSR_conj (F := F) r = Ok r' /\ CSR_mat_mat I a' b' = Ok r') /\
  (CSR_add I a b = Ok r -> exists r', CSR_conj (F := F) r = Ok r' /\ CSR_add I a' b' = Ok r') /\
  (CSR_sub I a b = Ok r -> exists r', CSR_conj (F := F) r = Ok r' /\ CSR_sub I a' b' = Ok r').
Proof. exact c87_conj_csr. Qed.
Theorem C87_conj_csc : forall (bd : Build) (I : ity), keeps_ring (cconj (F := F) : C -> C) -> keeps_eq (cconj (F := F) : C -> C) ->
  forall a b a' b' r : CSC C, CSC_conj (F := F) a = Ok a' -> CSC_conj (F := F) b = Ok b' ->
  (CSC_mat_mat I a b = Ok r -> exists r', CSC_conj (F := F) r = Ok r' /\ CSC_mat_mat I a' b' = Ok r') /\
  (CSC_add I a b = Ok r -> exists r', CSC_conj (F := F) r = Ok r' /\ CSC_add I a' b' = Ok r') /\
  (CSC_subtract I a b = Ok r -> exists r', CSC_conj (F := F) r = Ok r' /\ CSC_subtract I a' b' = Ok r').
Proof. exact c87_conj_csc. Qed.
End Conj.

(** Without [==]: the arrays of a product can differ. Reduction modulo 2^64 preserves the operations, but 2^32 * 2^32
    is stored in integers and dropped in machine integers. *)
Theorem C87_wrap_refuted : exists a b : CSR Z, keeps_ring wrap /\ CSR_mat_mat U64 (csr_map wrap a) (csr_map wrap b) <> rmap (csr_map wrap) (CSR_mat_mat U64 a b).
Proof. exact c87_wrap_refuted. Qed.

(** Maps that preserve the operations and [==]: conjugation of Gaussian integers, integers as Gaussian integers; one
    that preserves the operations only: reduction modulo 2^64. *)
Example C87_maps_ex :
  keeps_ring (cconj : gint -> gint) /\ keeps_neg (cconj : gint -> gint) /\ keeps_eq (cconj : gint -> gint) /\
  keeps_ring (fun z => G z 0) /\ keeps_neg (fun z => G z 0) /\ keeps_eq (fun z => G z 0) /\
  keeps_ring wrap /\ ~ keeps_eq wrap.
Proof.
  repeat (split; [first [apply gconj_keeps|apply greal_keeps|apply wrap_keeps]|]). intros H. specialize (H 0%Z wmod). vm_compute in H. discriminate H.
Qed.
Example C87_conj_ex :
  CSR_conj (mkCSR 2 2 [0; 2; 3]%Z [0; 1; 1]%Z [G 1 2; G 0 1; G 3 (-1)]) = Ok (mkCSR 2 2 [0; 2; 3]%Z [0; 1; 1]%Z [G 1 (-2); G 0 (-1); G 3 1]) /\
  CSR_mat_mat I32 (mkCSR 2 2 [0; 2; 3]%Z [0; 1; 1]%Z [G 1 2; G 0 1; G 3 (-1)]) (mkCSR 2 2 [0; 2; 3]%Z [0; 1; 1]%Z [G 1 2; G 0 1; G 3 (-1)]) =
    Ok (mkCSR 2 2 [0; 2; 3]%Z [1; 0; 1]%Z [G (-1) 4; G (-3) 4; G 8 (-6)]) /\
  CSR_mat_mat I32 (mkCSR 2 2 [0; 2; 3]%Z [0; 1; 1]%Z [G 1 (-2); G 0 (-1); G 3 1]) (mkCSR 2 2 [0; 2; 3]%Z [0; 1; 1]%Z [G 1 (-2); G 0 (-1); G 3 1]) =
    Ok (mkCSR 2 2 [0; 2; 3]%Z [1; 0; 1]%Z [G (-1) (-4); G (-3) (-4); G 8 6]).
Proof. repeat split; vm_compute; reflexivity. Qed.
(** [0] and [+] only, as for the real part: duplicates are summed alike, (1+2i) + (3-4i) + ... *)
Example C87_summed_ex :
  Coo_to_csr I32 (mkCoo 2 2 [1; 0; 1] [0; 1; 0] [G 1 2; G 5 6; G 3 (-4)])%Z = Ok (mkCSR 2 2 [0; 1; 2] [1; 0] [G 5 6; G 4 (-2)])%Z /\
  Coo_to_csr I32 (coo_map gre (mkCoo 2 2 [1; 0; 1] [0; 1; 0] [G 1 2; G 5 6; G 3 (-4)]))%Z = Ok (mkCSR 2 2 [0; 1; 2] [1; 0] [5; 4])%Z.
Proof. repeat split; vm_compute; reflexivity. Qed.

(** A program in which numbers overflow: A = [[2^40, 3], [0, 5]]; B = A A, with 2^80 in it; B - A. *)
Definition wrap_calls : list (call Z) := [CMake FCsr (MDense [[2 ^ 40; 3]; [0; 5]]%Z); CBin BMul 0 0; CBin BSub 1 0].
Ltac calls := repeat match goal with
  | |- calls_ok _ _ [] => exact Logic.I
  | |- calls_ok _ _ (_ :: _) => split; [|match goal with |- context [step ?i ?st ?c] => let v := eval vm_compute in (step i st c) in replace (step i st c) with v by (vm_compute; reflexivity) end; cbv iota]
  | |- call_ok _ _ (CMake _ _) => split; [discriminate|]
  | |- call_ok _ _ (CBin _ _ _) => eexists _, _; split; [reflexivity|]; split; [reflexivity|]; split; [vm_compute; discriminate|]; vm_compute; sp; congruence
  end.
Example C88_ex : calls_ok I32 [] wrap_calls /\ calls_ok I32 [] (map (call_map wrap) wrap_calls) /\
  exists st st', run I32 [] wrap_calls = Ok st /\ run I32 [] (map (call_map wrap) wrap_calls) = Ok st' /\
    map (fun m => map (fun j => mat_val m 0 j) [0; 1]) st = [[2 ^ 40; 3]; [2 ^ 80; 3 * 2 ^ 40 + 15]; [2 ^ 80 - 2 ^ 40; 3 * 2 ^ 40 + 12]]%Z /\
    map (fun m => map (fun j => wval (mat_val m 0 j)) [0; 1]) st' = [[2 ^ 40; 3]; [0; 3 * 2 ^ 40 + 15]; [2 ^ 64 - 2 ^ 40; 3 * 2 ^ 40 + 12]]%Z.
Proof.
  split; [unfold wrap_calls; calls|split; [unfold wrap_calls; cbn [map call_map maker_map]; calls|]].
  3: { eexists _, _. split; [vm_compute; reflexivity|]. split; [vm_compute; reflexivity|]. split; vm_compute; reflexivity. }
  all: try (split; [discriminate|]; exists 2; sp; try (vm_compute; congruence); repeat constructor).
Qed.

Print Assumptions C87_moved.
Print Assumptions C87_filled.
Print Assumptions C87_summed.
Print Assumptions C87_linear.
Print Assumptions C87_tested.
Print Assumptions C87_kernels.
Print Assumptions C87_kernels_div.
Print Assumptions C87_kernels_ord.
Print Assumptions C87_text.
Print Assumptions C87_program.
Print Assumptions C87_look.
Print Assumptions C88_history.
Print Assumptions C88_look.
Print Assumptions C88_wrap.
Print Assumptions C87_conj_csr.
Print Assumptions C87_conj_csc.
Print Assumptions C87_wrap_refuted.
