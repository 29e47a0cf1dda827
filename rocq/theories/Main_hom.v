(** C87, C88: maps of scalars. *)
From Verif Require Import Rust Scalar Model_kernels Model_matrix Model_graph Model_dok Model_text Spec SpecPipe SpecHom HomProofs HomAll Main_pipe.

(** the graph searches read no value: both matrices have the same pattern *)
#[local] Instance scalar_unit : Scalar unit := { s0 := tt; s1 := tt; sadd _ _ := tt; ssub _ _ := tt; smul _ _ := tt; sdiv _ _ := Ok tt; seqb _ _ := true }.
Lemma csr_map_unit {T U} (h : T -> U) (g : CSR T) : csr_map (fun _ => tt) (csr_map h g) = csr_map (fun _ => tt) g.
Proof. unfold csr_map. cbn. now rewrite map_map. Qed.
Lemma hom_connected_components_any {T U} {ST : Scalar T} {SU : Scalar U} (b : Build) (I : ity) (h : T -> U) g d k : connected_components I (csr_map h g) d k = connected_components I g d k.
Proof.
  assert (E : forall X (SX : Scalar X) (g : CSR X), connected_components I (csr_map (fun _ => tt) g) d k = connected_components I g d k).
  { intros X SX g'. etransitivity; [eapply (hom_connected_components (fun _ : X => tt)); reflexivity|symmetry; apply rmap_id]. }
  rewrite <- (E U), <- (E T), csr_map_unit. reflexivity.
Qed.
Lemma hom_depth_first_order_any {T U} {ST : Scalar T} {SU : Scalar U} (b : Build) (I : ity) (h : T -> U) g d k : depth_first_order I (csr_map h g) d k = depth_first_order I g d k.
Proof.
  assert (E : forall X (SX : Scalar X) (g : CSR X), depth_first_order I (csr_map (fun _ => tt) g) d k = depth_first_order I g d k).
  { intros X SX g'. etransitivity; [eapply (hom_depth_first_order (fun _ : X => tt)); reflexivity|symmetry; apply rmap_id]. }
  rewrite <- (E U), <- (E T), csr_map_unit. reflexivity.
Qed.
Ltac k1 L := eapply L; solve [eassumption | reflexivity | match goal with H : keeps_ring _ |- _ => apply H end].
Ltac k2 L := etransitivity; [|symmetry; apply rmap_id]; k1 L.
Lemma c87_moved : forall {T U : Type} {ST : Scalar T} {SU : Scalar U} (bd : Build) (I F : ity) (h : T -> U),
  (forall m n p j x, Coo_new m n p j (map h x) = rmap (coo_map h) (Coo_new m n p j x)) /\
  (forall m n p j x, CSR_new m n p j (map h x) = rmap (csr_map h) (CSR_new m n p j x)) /\
  (forall m n p j x, CSC_new m n p j (map h x) = rmap (csc_map h) (CSC_new m n p j x)) /\
  (forall a i j v, Coo_push (coo_map h a) i j (h v) = coo_map h (Coo_push a i j v)) /\
  (forall a p j x, Coo_extend (coo_map h a) p j (map h x) = coo_map h (Coo_extend a p j x)) /\
  (forall a, Coo_nnz (coo_map h a) = Coo_nnz a) /\
  (forall a, CSR_nnz (csr_map h a) = CSR_nnz a) /\
  (forall a, CSC_nnz (csc_map h a) = CSC_nnz a) /\
  (forall d, DoK_nnz (dok_map h d) = DoK_nnz d) /\
  (forall a, Coo_t (coo_map h a) = coo_map h (Coo_t a)) /\
  (forall a, CSR_t (csr_map h a) = rmap (csc_map h) (CSR_t a)) /\
  (forall a, CSC_t (csc_map h a) = rmap (csr_map h) (CSC_t a)) /\
  (forall a, CSR_has_canonical_format I (csr_map h a) = CSR_has_canonical_format I a) /\
  (forall a, CSR_has_sorted_indexes I (csr_map h a) = CSR_has_sorted_indexes I a) /\
  (forall a, CSC_has_canonical_format I (csc_map h a) = CSC_has_canonical_format I a) /\
  (forall a, CSC_has_sorted_indexes I (csc_map h a) = CSC_has_sorted_indexes I a) /\
  (forall a, CSC_prune (csc_map h a) = rmap (csc_map h) (CSC_prune a)) /\
  (forall a, CSR_to_coo I (csr_map h a) = rmap (coo_map h) (CSR_to_coo I a)) /\
  (forall d order, DoK_to_coo (dok_map h d) (order_map h order) = rmap (coo_map h) (DoK_to_coo d order)) /\
  (forall x, CSR_with_diagonal I (map h x) = rmap (csr_map h) (CSR_with_diagonal I x)) /\
  (forall x, CSC_with_diagonal I (map h x) = rmap (csc_map h) (CSC_with_diagonal I x)) /\
  (forall a i, Coo_upper I (coo_map h a) i = rmap (coo_map h) (Coo_upper I a i)) /\
  (forall a b, Coo_v_stack I (coo_map h a) (coo_map h b) = rmap (coo_map h) (Coo_v_stack I a b)) /\
  (forall a b c, Coo_v_stack3 I (coo_map h a) (coo_map h b) (coo_map h c) = rmap (coo_map h) (Coo_v_stack3 I a b c)) /\
  (forall a b, Coo_h_stack I (coo_map h a) (coo_map h b) = rmap (coo_map h) (Coo_h_stack I a b)) /\
  (forall a b c, Coo_h_stack3 I (coo_map h a) (coo_map h b) (coo_map h c) = rmap (coo_map h) (Coo_h_stack3 I a b c)) /\
  (forall a b c d, Coo_compose I (coo_map h a) (coo_map h b) (coo_map h c) (coo_map h d) = rmap (coo_map h) (Coo_compose I a b c d)) /\
  (forall a b c d e f g k l, Coo_compose3 I (coo_map h a) (coo_map h b) (coo_map h c) (coo_map h d) (coo_map h e) (coo_map h f) (coo_map h g) (coo_map h k) (coo_map h l) = rmap (coo_map h) (Coo_compose3 I a b c d e f g k l)) /\
  (forall a e kind, connected_components I (csr_map h a) e kind = connected_components I a e kind) /\
  (forall a m e, depth_first_order I (csr_map h a) m e = depth_first_order I a m e) /\
  (forall a, CSR_connected_components I F (csr_map h a) = CSR_connected_components I F a).
Proof.
  intros. repeat apply Logic.conj; [intros; k1 @hom_Coo_new | intros; k1 @hom_CSR_new | intros; k1 @hom_CSC_new | intros; k1 @hom_Coo_push | intros; k1 @hom_Coo_extend | intros; k1 @hom_Coo_nnz | intros; k2 @hom_CSR_nnz | intros; k2 @hom_CSC_nnz | intros; k1 @hom_DoK_nnz | intros; k1 @hom_Coo_t | intros; k1 @hom_CSR_t | intros; k1 @hom_CSC_t | intros; k2 @hom_CSR_has_canonical_format | intros; k2 @hom_CSR_has_sorted_indexes | intros; k2 @hom_CSC_has_canonical_format | intros; k2 @hom_CSC_has_sorted_indexes | intros; k1 @hom_CSC_prune | intros; k1 @hom_CSR_to_coo | intros; k1 @hom_DoK_to_coo | intros; k1 @hom_CSR_with_diagonal | intros; k1 @hom_CSC_with_diagonal | intros; k1 @hom_Coo_upper | intros; k1 @hom_Coo_v_stack | intros; k1 @hom_Coo_v_stack3 | intros; k1 @hom_Coo_h_stack | intros; k1 @hom_Coo_h_stack3 | intros; k1 @hom_Coo_compose | intros; k1 @hom_Coo_compose3 | intros; k1 @hom_connected_components_any | intros; k1 @hom_depth_first_order_any | intros; k2 @hom_CSR_connected_components].
Qed.
Lemma c87_filled : forall {T U : Type} {ST : Scalar T} {SU : Scalar U} (bd : Build) (I : ity) (h : T -> U),
  h s0 = s0 ->
  (forall a, CSR_sort_indexes (csr_map h a) = rmap (csr_map h) (CSR_sort_indexes a)) /\
  (forall a, CSC_sort_indexes (csc_map h a) = rmap (csc_map h) (CSC_sort_indexes a)) /\
  (forall a, CSR_prune (csr_map h a) = rmap (csr_map h) (CSR_prune a)) /\
  (forall a, CSR_to_csc I (csr_map h a) = rmap (csc_map h) (CSR_to_csc I a)) /\
  (forall a, CSC_to_csr I (csc_map h a) = rmap (csr_map h) (CSC_to_csr I a)) /\
  (forall a, CSC_to_coo I (csc_map h a) = rmap (coo_map h) (CSC_to_coo I a)) /\
  (forall x, Coo_with_diagonal I (map h x) = rmap (coo_map h) (Coo_with_diagonal I x)) /\
  (forall a rs cs, CSR_select I (csr_map h a) rs cs = rmap (csr_map h) (CSR_select I a rs cs)) /\
  (forall a rs cs, CSC_select I (csc_map h a) rs cs = rmap (csc_map h) (CSC_select I a rs cs)) /\
  (forall a i j, CSR_get (csr_map h a) i j = rmap h (CSR_get a i j)) /\
  (forall d i j, DoK_get (dok_map h d) i j = h (DoK_get d i j)) /\
  (forall d order, DoK_to_dense (dok_map h d) (order_map h order) = rmap (map (map h)) (DoK_to_dense d order)).
Proof.
  intros. repeat apply Logic.conj; [intros; k1 @hom_CSR_sort_indexes | intros; k1 @hom_CSC_sort_indexes | intros; k1 @hom_CSR_prune | intros; k1 @hom_CSR_to_csc | intros; k1 @hom_CSC_to_csr | intros; k1 @hom_CSC_to_coo | intros; k1 @hom_Coo_with_diagonal | intros; k1 @hom_CSR_select | intros; k1 @hom_CSC_select | intros; k1 @hom_CSR_get | intros; k1 @hom_DoK_get | intros; k1 @hom_DoK_to_dense].
Qed.
Lemma c87_summed : forall {T U : Type} {ST : Scalar T} {SU : Scalar U} (bd : Build) (I : ity) (h : T -> U),
  h s0 = s0 ->
  (forall x y, h (sadd x y) = sadd (h x) (h y)) ->
  (forall a, CSR_sum_duplicates I (csr_map h a) = rmap (csr_map h) (CSR_sum_duplicates I a)) /\
  (forall a, CSC_sum_duplicates I (csc_map h a) = rmap (csc_map h) (CSC_sum_duplicates I a)) /\
  (forall a, Coo_to_csr I (coo_map h a) = rmap (csr_map h) (Coo_to_csr I a)) /\
  (forall a, Coo_to_csc I (coo_map h a) = rmap (csc_map h) (Coo_to_csc I a)) /\
  (forall d order, DoK_to_csr I (dok_map h d) (order_map h order) = rmap (csr_map h) (DoK_to_csr I d order)) /\
  (forall d order, DoK_to_csc I (dok_map h d) (order_map h order) = rmap (csc_map h) (DoK_to_csc I d order)) /\
  (forall a, Coo_to_dense (coo_map h a) = rmap (map (map h)) (Coo_to_dense a)) /\
  (forall a, CSR_to_dense (csr_map h a) = rmap (map (map h)) (CSR_to_dense a)) /\
  (forall a, CSC_to_dense I (csc_map h a) = rmap (map (map h)) (CSC_to_dense I a)) /\
  (forall a, Coo_diagonal (coo_map h a) = rmap (map h) (Coo_diagonal a)) /\
  (forall a, CSR_diagonal (csr_map h a) = rmap (map h) (CSR_diagonal a)) /\
  (forall a, CSC_diagonal (csc_map h a) = rmap (map h) (CSC_diagonal a)) /\
  (forall a b, CSR_h_stack I (csr_map h a) (csr_map h b) = rmap (csr_map h) (CSR_h_stack I a b)) /\
  (forall a b c d, CSC_compose I (csc_map h a) (csc_map h b) (csc_map h c) (csc_map h d) = rmap (csc_map h) (CSC_compose I a b c d)) /\
  (forall a b, Coo_add I (coo_map h a) (coo_map h b) = rmap (csr_map h) (Coo_add I a b)).
Proof.
  intros. repeat apply Logic.conj; [intros; k1 @hom_CSR_sum_duplicates | intros; k1 @hom_CSC_sum_duplicates | intros; k1 @hom_Coo_to_csr | intros; k1 @hom_Coo_to_csc | intros; k1 @hom_DoK_to_csr | intros; k1 @hom_DoK_to_csc | intros; k1 @hom_Coo_to_dense | intros; k1 @hom_CSR_to_dense | intros; k1 @hom_CSC_to_dense | intros; k1 @hom_Coo_diagonal | intros; k1 @hom_CSR_diagonal | intros; k1 @hom_CSC_diagonal | intros; k1 @hom_CSR_h_stack | intros; k1 @hom_CSC_compose | intros; k1 @hom_Coo_add].
Qed.
Lemma c87_linear : forall {T U : Type} {ST : Scalar T} {SU : Scalar U} {NT : ScalarNeg T} {NU : ScalarNeg U} (bd : Build) (I : ity) (h : T -> U),
  keeps_ring h ->
  keeps_neg h ->
  (forall a x, CSR_mat_vec (csr_map h a) (map h x) = rmap (map h) (CSR_mat_vec a x)) /\
  (forall a x, CSC_mat_vec (csc_map h a) (map h x) = rmap (map h) (CSC_mat_vec a x)) /\
  (forall a v, CSR_mul_scalar (csr_map h a) (h v) = rmap (csr_map h) (CSR_mul_scalar a v)) /\
  (forall v a, CSR_scalar_mul (h v) (csr_map h a) = rmap (csr_map h) (CSR_scalar_mul v a)) /\
  (forall a v, CSC_mul_scalar (csc_map h a) (h v) = rmap (csc_map h) (CSC_mul_scalar a v)) /\
  (forall v a, CSC_scalar_mul (h v) (csc_map h a) = rmap (csc_map h) (CSC_scalar_mul v a)) /\
  (forall a, Coo_neg (coo_map h a) = rmap (coo_map h) (Coo_neg a)) /\
  (forall a, CSR_neg (csr_map h a) = rmap (csr_map h) (CSR_neg a)) /\
  (forall a, CSC_neg (csc_map h a) = rmap (csc_map h) (CSC_neg a)) /\
  (forall m, Coo_identity I m = rmap (coo_map h) (Coo_identity I m)).
Proof.
  intros. repeat apply Logic.conj; [intros; k1 @hom_CSR_mat_vec | intros; k1 @hom_CSC_mat_vec | intros; k1 @hom_CSR_mul_scalar | intros; k1 @hom_CSR_scalar_mul | intros; k1 @hom_CSC_mul_scalar | intros; k1 @hom_CSC_scalar_mul | intros; k1 @hom_Coo_neg | intros; k1 @hom_CSR_neg | intros; k1 @hom_CSC_neg | intros; k1 @hom_Coo_identity].
Qed.
Lemma c87_tested : forall {T U : Type} {ST : Scalar T} {SU : Scalar U} (bd : Build) (I : ity) (h : T -> U),
  keeps_ring h ->
  keeps_eq h ->
  (forall a b, CSR_mat_mat I (csr_map h a) (csr_map h b) = rmap (csr_map h) (CSR_mat_mat I a b)) /\
  (forall a b, CSC_mat_mat I (csc_map h a) (csc_map h b) = rmap (csc_map h) (CSC_mat_mat I a b)) /\
  (forall a b, CSR_mul I (csr_map h a) (csr_map h b) = rmap (csr_map h) (CSR_mul I a b)) /\
  (forall a b, CSC_mul I (csc_map h a) (csc_map h b) = rmap (csc_map h) (CSC_mul I a b)) /\
  (forall a b, CSC_mul_csr I (csc_map h a) (csr_map h b) = rmap (csc_map h) (CSC_mul_csr I a b)) /\
  (forall a b, CSR_add I (csr_map h a) (csr_map h b) = rmap (csr_map h) (CSR_add I a b)) /\
  (forall a b, CSR_sub I (csr_map h a) (csr_map h b) = rmap (csr_map h) (CSR_sub I a b)) /\
  (forall a b, CSC_add I (csc_map h a) (csc_map h b) = rmap (csc_map h) (CSC_add I a b)) /\
  (forall a b, CSC_subtract I (csc_map h a) (csc_map h b) = rmap (csc_map h) (CSC_subtract I a b)) /\
  (forall a b, CSC_op_add I (csc_map h a) (csc_map h b) = rmap (csc_map h) (CSC_op_add I a b)) /\
  (forall a b, CSC_op_sub I (csc_map h a) (csc_map h b) = rmap (csc_map h) (CSC_op_sub I a b)) /\
  (forall t, Coo_from_dense I ((map (map h)) t) = rmap (coo_map h) (Coo_from_dense I t)) /\
  (forall t, CSR_from_dense I ((map (map h)) t) = rmap (csr_map h) (CSR_from_dense I t)) /\
  (forall t, CSC_from_dense I ((map (map h)) t) = rmap (csc_map h) (CSC_from_dense I t)) /\
  (forall t, DoK_from_dense I ((map (map h)) t) = rmap (dok_map h) (DoK_from_dense I t)) /\
  (forall d i j v, DoK_set I (dok_map h d) i j (h v) = rmap (dok_map h) (DoK_set I d i j v)) /\
  (forall d i j v, DoK_add I (dok_map h d) i j (h v) = rmap (dok_map h) (DoK_add I d i j v)) /\
  (forall d i j v, DoK_sub I (dok_map h d) i j (h v) = rmap (dok_map h) (DoK_sub I d i j v)).
Proof.
  intros. repeat apply Logic.conj; [intros; k1 @hom_CSR_mat_mat | intros; k1 @hom_CSC_mat_mat | intros; k1 @hom_CSR_mul | intros; k1 @hom_CSC_mul | intros; k1 @hom_CSC_mul_csr | intros; k1 @hom_CSR_add | intros; k1 @hom_CSR_sub | intros; k1 @hom_CSC_add | intros; k1 @hom_CSC_subtract | intros; k1 @hom_CSC_op_add | intros; k1 @hom_CSC_op_sub | intros; k1 @hom_Coo_from_dense | intros; k1 @hom_CSR_from_dense | intros; k1 @hom_CSC_from_dense | intros; k1 @hom_DoK_from_dense | intros; k1 @hom_DoK_set | intros; k1 @hom_DoK_add | intros; k1 @hom_DoK_sub].
Qed.
Lemma c87_kernels : forall {T U : Type} {ST : Scalar T} {SU : Scalar U} (bd : Build) (I : ity) (h : T -> U),
  keeps_ring h ->
  keeps_eq h ->
  (forall m v x n y l, axpy m (h v) (map h x) n (map h y) l = rmap (map h) (axpy m v x n y l)) /\
  (forall i m n p j x y, csr_diagonal i m n p j (map h x) (map h y) = rmap (map h) (csr_diagonal i m n p j x y)) /\
  (forall m n p j x y, csr_scale_rows m n p j (map h x) (map h y) = rmap (map h) (csr_scale_rows m n p j x y)) /\
  (forall m n p j x y, csr_scale_columns m n p j (map h x) (map h y) = rmap (map h) (csr_scale_columns m n p j x y)) /\
  (forall m n p j x t, csr_todense m n p j (map h x) ((map (map h)) t) = rmap (map (map h)) (csr_todense m n p j x t)) /\
  (forall m p j x, csr_sort_indices m p j (map h x) = rmap (arrays_map h) (csr_sort_indices m p j x)) /\
  (forall m n p j x q k y, csr_tocsc I m n p j (map h x) q k (map h y) = rmap (arrays_map h) (csr_tocsc I m n p j x q k y)) /\
  (forall m n p j x q k y, csr_tocoo I m n p j (map h x) q k (map h y) = rmap (arrays_map h) (csr_tocoo I m n p j x q k y)) /\
  (forall m n p j x, csr_sum_duplicates I m n p j (map h x) = rmap (arrays_map h) (csr_sum_duplicates I m n p j x)) /\
  (forall m n p j x, csr_eliminate_zeros I m n p j (map h x) = rmap (arrays_map h) (csr_eliminate_zeros I m n p j x)) /\
  (forall m n p j x y z, csr_matvec m n p j (map h x) (map h y) (map h z) = rmap (map h) (csr_matvec m n p j x y z)) /\
  (forall m n l p j x y z, csr_matvecs m n l p j (map h x) (map h y) (map h z) = rmap (map h) (csr_matvecs m n l p j x y z)) /\
  (forall m n p j x q k y r l z, csr_matmat I m n p j (map h x) q k (map h y) r l (map h z) = rmap (arrays_map h) (csr_matmat I m n p j x q k y r l z)) /\
  (forall m n p j x q k r l y, csr_select I m n p j (map h x) q k r l (map h y) = rmap (arrays_map h) (csr_select I m n p j x q k r l y)) /\
  (forall m n p j x i k l u0 q r y, get_csr_submatrix I m n p j (map h x) i k l u0 q r (map h y) = rmap (arrays_map h) (get_csr_submatrix I m n p j x i k l u0 q r y)) /\
  (forall m sel p j x q y, csr_row_index m sel p j (map h x) q (map h y) = rmap (arrays_map h) (csr_row_index m sel p j x q y)) /\
  (forall m n l u0 p j x q y, csr_row_slice m n l u0 p j (map h x) q (map h y) = rmap (arrays_map h) (csr_row_slice m n l u0 p j x q y)) /\
  (forall p j m q x k y, csr_column_index2 p j m q (map h x) k (map h y) = rmap (arrays_map h) (csr_column_index2 p j m q x k y)) /\
  (forall m n l p j x q k y, coo_tocsr I m n l p j (map h x) q k (map h y) = rmap (arrays_map h) (coo_tocsr I m n l p j x q k y)) /\
  (forall m n l p j x y e, coo_todense m n l p j (map h x) (map h y) e = rmap (map h) (coo_todense m n l p j x y e)) /\
  (forall m p j x y z, coo_matvec m p j (map h x) (map h y) (map h z) = rmap (map h) (coo_matvec m p j x y z)) /\
  (forall m n p j x y z, csc_matvec m n p j (map h x) (map h y) (map h z) = rmap (map h) (csc_matvec m n p j x y z)) /\
  (forall m n l p j x y z, csc_matvecs m n l p j (map h x) (map h y) (map h z) = rmap (map h) (csc_matvecs m n l p j x y z)) /\
  (forall i m n p j x y, csc_diagonal i m n p j (map h x) (map h y) = rmap (map h) (csc_diagonal i m n p j x y)) /\
  (forall m n p j x q k y, csc_tocsr I m n p j (map h x) q k (map h y) = rmap (arrays_map h) (csc_tocsr I m n p j x q k y)) /\
  (forall m n p j x q k y r l z, csc_matmat I m n p j (map h x) q k (map h y) r l (map h z) = rmap (arrays_map h) (csc_matmat I m n p j x q k y r l z)) /\
  (forall m n p j x q k y r l u0, csr_ne_csr I m n p j (map h x) q k (map h y) r l u0 = csr_ne_csr I m n p j x q k y r l u0) /\
  (forall m n p j x q k y r l u0, csr_eq_csr I m n p j (map h x) q k (map h y) r l u0 = csr_eq_csr I m n p j x q k y r l u0) /\
  (forall m n p j x q k y r l z, csr_mul_csr I m n p j (map h x) q k (map h y) r l (map h z) = rmap (arrays_map h) (csr_mul_csr I m n p j x q k y r l z)) /\
  (forall m n p j x q k y r l z, csr_add_csr I m n p j (map h x) q k (map h y) r l (map h z) = rmap (arrays_map h) (csr_add_csr I m n p j x q k y r l z)) /\
  (forall m n p j x q k y r l z, csr_sub_csr I m n p j (map h x) q k (map h y) r l (map h z) = rmap (arrays_map h) (csr_sub_csr I m n p j x q k y r l z)).
Proof.
  intros. repeat apply Logic.conj; [intros; k1 @hom_axpy | intros; k1 @hom_csr_diagonal | intros; k1 @hom_csr_scale_rows | intros; k1 @hom_csr_scale_columns | intros; k1 @hom_csr_todense | intros; k1 @hom_csr_sort_indices | intros; k1 @hom_csr_tocsc | intros; k1 @hom_csr_tocoo | intros; k1 @hom_csr_sum_duplicates | intros; k1 @hom_csr_eliminate_zeros | intros; k1 @hom_csr_matvec | intros; k1 @hom_csr_matvecs | intros; k1 @hom_csr_matmat | intros; k1 @hom_csr_select | intros; k1 @hom_get_csr_submatrix | intros; k1 @hom_csr_row_index | intros; k1 @hom_csr_row_slice | intros; k1 @hom_csr_column_index2 | intros; k1 @hom_coo_tocsr | intros; k1 @hom_coo_todense | intros; k1 @hom_coo_matvec | intros; k1 @hom_csc_matvec | intros; k1 @hom_csc_matvecs | intros; k1 @hom_csc_diagonal | intros; k1 @hom_csc_tocsr | intros; k1 @hom_csc_matmat | intros; k2 @hom_csr_ne_csr | intros; k2 @hom_csr_eq_csr | intros; k1 @hom_csr_mul_csr | intros; k1 @hom_csr_add_csr | intros; k1 @hom_csr_sub_csr].
Qed.
Lemma c87_kernels_div : forall {T U : Type} {ST : Scalar T} {SU : Scalar U} (bd : Build) (I : ity) (h : T -> U),
  keeps_ring h ->
  keeps_eq h ->
  (forall x y, sdiv (h x) (h y) = rmap h (sdiv x y)) ->
  (forall m n p j x q k y r l z, csr_div_csr I m n p j (map h x) q k (map h y) r l (map h z) = rmap (arrays_map h) (csr_div_csr I m n p j x q k y r l z)).
Proof.
  intros. idtac; [intros; k1 @hom_csr_div_csr].
Qed.
Lemma c87_kernels_ord : forall {T U : Type} {ST : Scalar T} {SU : Scalar U} {OT : ScalarOrd T} {OU : ScalarOrd U} (bd : Build) (I : ity) (h : T -> U),
  keeps_ring h ->
  keeps_eq h ->
  (forall x y, sltb (h x) (h y) = sltb x y) ->
  (forall x y, sleb (h x) (h y) = sleb x y) ->
  (forall m n p j x q k y r l u0, csr_lt_csr I m n p j (map h x) q k (map h y) r l u0 = csr_lt_csr I m n p j x q k y r l u0) /\
  (forall m n p j x q k y r l u0, csr_le_csr I m n p j (map h x) q k (map h y) r l u0 = csr_le_csr I m n p j x q k y r l u0) /\
  (forall m n p j x q k y r l u0, csr_gt_csr I m n p j (map h x) q k (map h y) r l u0 = csr_gt_csr I m n p j x q k y r l u0) /\
  (forall m n p j x q k y r l u0, csr_ge_csr I m n p j (map h x) q k (map h y) r l u0 = csr_ge_csr I m n p j x q k y r l u0) /\
  (forall m n p j x q k y r l z, csr_max_csr I m n p j (map h x) q k (map h y) r l (map h z) = rmap (arrays_map h) (csr_max_csr I m n p j x q k y r l z)) /\
  (forall m n p j x q k y r l z, csr_min_csr I m n p j (map h x) q k (map h y) r l (map h z) = rmap (arrays_map h) (csr_min_csr I m n p j x q k y r l z)).
Proof.
  intros. repeat apply Logic.conj; [intros; k2 @hom_csr_lt_csr | intros; k2 @hom_csr_le_csr | intros; k2 @hom_csr_gt_csr | intros; k2 @hom_csr_ge_csr | intros; k1 @hom_csr_max_csr | intros; k1 @hom_csr_min_csr].
Qed.

(** ** Texts *)
Lemma c87_text : forall {T U : Type} (bd : Build) (h : T -> U) (show : U -> String.string) (align : String.string -> String.string),
  (forall a, Coo_to_string show (coo_map h a) = Coo_to_string (fun x => show (h x)) a) /\
  (forall a, CSR_to_string show (csr_map h a) = CSR_to_string (fun x => show (h x)) a) /\
  (forall a, CSC_to_string show (csc_map h a) = CSC_to_string (fun x => show (h x)) a) /\
  (forall order, DoK_to_string show (order_map h order) = DoK_to_string (fun x => show (h x)) order) /\
  (forall a, CSR_to_table show align (csr_map h a) = CSR_to_table (fun x => show (h x)) align a).
Proof.
  intros. repeat apply Logic.conj; intros; (etransitivity; [|symmetry; apply rmap_id]);
    [apply hom_Coo_to_string|apply hom_CSR_to_string|apply hom_CSC_to_string|apply hom_DoK_to_string|apply hom_CSR_to_table].
Qed.

(** ** Programs *)
Ltac hk := match goal with
  | |- _ = rmap _ (@Coo_new _ _ _ _ _ _) => k1 @hom_Coo_new
  | |- _ = rmap _ (@CSR_new _ _ _ _ _ _ _) => k1 @hom_CSR_new
  | |- _ = rmap _ (@CSC_new _ _ _ _ _ _ _) => k1 @hom_CSC_new
  | |- _ = rmap _ (@CSR_t _ _ _) => k1 @hom_CSR_t
  | |- _ = rmap _ (@CSC_t _ _ _) => k1 @hom_CSC_t
  | |- _ = rmap _ (@CSC_prune _ _ _) => k1 @hom_CSC_prune
  | |- _ = rmap _ (@CSR_to_coo _ _ _) => k1 @hom_CSR_to_coo
  | |- _ = rmap _ (@DoK_to_coo _ _ _) => k1 @hom_DoK_to_coo
  | |- _ = rmap _ (@CSR_with_diagonal _ _ _) => k1 @hom_CSR_with_diagonal
  | |- _ = rmap _ (@CSC_with_diagonal _ _ _) => k1 @hom_CSC_with_diagonal
  | |- _ = rmap _ (@Coo_upper _ _ _ _ _) => k1 @hom_Coo_upper
  | |- _ = rmap _ (@Coo_v_stack _ _ _ _ _) => k1 @hom_Coo_v_stack
  | |- _ = rmap _ (@Coo_v_stack3 _ _ _ _ _ _) => k1 @hom_Coo_v_stack3
  | |- _ = rmap _ (@Coo_h_stack _ _ _ _ _) => k1 @hom_Coo_h_stack
  | |- _ = rmap _ (@Coo_h_stack3 _ _ _ _ _ _) => k1 @hom_Coo_h_stack3
  | |- _ = rmap _ (@Coo_compose _ _ _ _ _ _ _) => k1 @hom_Coo_compose
  | |- _ = rmap _ (@Coo_compose3 _ _ _ _ _ _ _ _ _ _ _ _) => k1 @hom_Coo_compose3
  | |- _ = rmap _ (@CSR_sort_indexes _ _ _ _) => k1 @hom_CSR_sort_indexes
  | |- _ = rmap _ (@CSC_sort_indexes _ _ _ _) => k1 @hom_CSC_sort_indexes
  | |- _ = rmap _ (@CSR_prune _ _ _ _) => k1 @hom_CSR_prune
  | |- _ = rmap _ (@CSR_to_csc _ _ _ _ _) => k1 @hom_CSR_to_csc
  | |- _ = rmap _ (@CSC_to_csr _ _ _ _ _) => k1 @hom_CSC_to_csr
  | |- _ = rmap _ (@CSC_to_coo _ _ _ _ _) => k1 @hom_CSC_to_coo
  | |- _ = rmap _ (@Coo_with_diagonal _ _ _ _) => k1 @hom_Coo_with_diagonal
  | |- _ = rmap _ (@CSR_select _ _ _ _ _ _ _) => k1 @hom_CSR_select
  | |- _ = rmap _ (@CSC_select _ _ _ _ _ _ _) => k1 @hom_CSC_select
  | |- _ = rmap _ (@CSR_get _ _ _ _ _) => k1 @hom_CSR_get
  | |- _ = rmap _ (@DoK_to_dense _ _ _ _) => k1 @hom_DoK_to_dense
  | |- _ = rmap _ (@CSR_sum_duplicates _ _ _ _ _) => k1 @hom_CSR_sum_duplicates
  | |- _ = rmap _ (@CSC_sum_duplicates _ _ _ _ _) => k1 @hom_CSC_sum_duplicates
  | |- _ = rmap _ (@Coo_to_csr _ _ _ _ _) => k1 @hom_Coo_to_csr
  | |- _ = rmap _ (@Coo_to_csc _ _ _ _ _) => k1 @hom_Coo_to_csc
  | |- _ = rmap _ (@DoK_to_csr _ _ _ _ _ _) => k1 @hom_DoK_to_csr
  | |- _ = rmap _ (@DoK_to_csc _ _ _ _ _ _) => k1 @hom_DoK_to_csc
  | |- _ = rmap _ (@Coo_to_dense _ _ _) => k1 @hom_Coo_to_dense
  | |- _ = rmap _ (@CSR_to_dense _ _ _) => k1 @hom_CSR_to_dense
  | |- _ = rmap _ (@CSC_to_dense _ _ _ _ _) => k1 @hom_CSC_to_dense
  | |- _ = rmap _ (@Coo_diagonal _ _ _) => k1 @hom_Coo_diagonal
  | |- _ = rmap _ (@CSR_diagonal _ _ _ _) => k1 @hom_CSR_diagonal
  | |- _ = rmap _ (@CSC_diagonal _ _ _ _) => k1 @hom_CSC_diagonal
  | |- _ = rmap _ (@CSR_h_stack _ _ _ _ _ _) => k1 @hom_CSR_h_stack
  | |- _ = rmap _ (@CSC_compose _ _ _ _ _ _ _ _) => k1 @hom_CSC_compose
  | |- _ = rmap _ (@Coo_add _ _ _ _ _ _) => k1 @hom_Coo_add
  | |- _ = rmap _ (@CSR_mat_vec _ _ _ _) => k1 @hom_CSR_mat_vec
  | |- _ = rmap _ (@CSC_mat_vec _ _ _ _) => k1 @hom_CSC_mat_vec
  | |- _ = rmap _ (@CSR_mul_scalar _ _ _ _ _) => k1 @hom_CSR_mul_scalar
  | |- _ = rmap _ (@CSR_scalar_mul _ _ _ _ _) => k1 @hom_CSR_scalar_mul
  | |- _ = rmap _ (@CSC_mul_scalar _ _ _ _ _) => k1 @hom_CSC_mul_scalar
  | |- _ = rmap _ (@CSC_scalar_mul _ _ _ _ _) => k1 @hom_CSC_scalar_mul
  | |- _ = rmap _ (@Coo_neg _ _ _) => k1 @hom_Coo_neg
  | |- _ = rmap _ (@CSR_neg _ _ _ _) => k1 @hom_CSR_neg
  | |- _ = rmap _ (@CSC_neg _ _ _ _) => k1 @hom_CSC_neg
  | |- _ = rmap _ (@Coo_identity _ _ _ _) => k1 @hom_Coo_identity
  | |- _ = rmap _ (@CSR_mat_mat _ _ _ _ _ _) => k1 @hom_CSR_mat_mat
  | |- _ = rmap _ (@CSC_mat_mat _ _ _ _ _ _) => k1 @hom_CSC_mat_mat
  | |- _ = rmap _ (@CSR_mul _ _ _ _ _ _) => k1 @hom_CSR_mul
  | |- _ = rmap _ (@CSC_mul _ _ _ _ _ _) => k1 @hom_CSC_mul
  | |- _ = rmap _ (@CSC_mul_csr _ _ _ _ _ _) => k1 @hom_CSC_mul_csr
  | |- _ = rmap _ (@CSR_add _ _ _ _ _ _) => k1 @hom_CSR_add
  | |- _ = rmap _ (@CSR_sub _ _ _ _ _ _) => k1 @hom_CSR_sub
  | |- _ = rmap _ (@CSC_add _ _ _ _ _ _) => k1 @hom_CSC_add
  | |- _ = rmap _ (@CSC_subtract _ _ _ _ _ _) => k1 @hom_CSC_subtract
  | |- _ = rmap _ (@CSC_op_add _ _ _ _ _ _) => k1 @hom_CSC_op_add
  | |- _ = rmap _ (@CSC_op_sub _ _ _ _ _ _) => k1 @hom_CSC_op_sub
  | |- _ = rmap _ (@Coo_from_dense _ _ _ _) => k1 @hom_Coo_from_dense
  | |- _ = rmap _ (@CSR_from_dense _ _ _ _ _) => k1 @hom_CSR_from_dense
  | |- _ = rmap _ (@CSC_from_dense _ _ _ _ _) => k1 @hom_CSC_from_dense
  | |- _ = rmap _ (@DoK_from_dense _ _ _ _) => k1 @hom_DoK_from_dense
  | |- _ = rmap _ (@DoK_set _ _ _ _ _ _ _) => k1 @hom_DoK_set
  | |- _ = rmap _ (@DoK_add _ _ _ _ _ _ _) => k1 @hom_DoK_add
  | |- _ = rmap _ (@DoK_sub _ _ _ _ _ _ _) => k1 @hom_DoK_sub
  end.
Section Program.
Context {T U : Type} {ST : Scalar T} {SU : Scalar U} {NT : ScalarNeg T} {NU : ScalarNeg U}.
Variable I : ity.
Variable h : T -> U.
Hypotheses (HR : keeps_ring h) (HN : keeps_neg h) (HE : keeps_eq h).

Lemma hom_dok_apply d o : dok_apply I (dok_map h d) (dok_op_map h o) = rmap (dok_map h) (dok_apply I d o).
Proof. destruct o; cbn [dok_op_map dok_apply]; hk. Qed.
Lemma hom_coo r r' : r' = rmap (coo_map h) r -> coo r' = rmap (mat_map h) (coo r).
Proof. intros ->. destruct r; reflexivity. Qed.
Lemma hom_csr r r' : r' = rmap (csr_map h) r -> csr r' = rmap (mat_map h) (csr r).
Proof. intros ->. destruct r; reflexivity. Qed.
Lemma hom_csc r r' : r' = rmap (csc_map h) r -> csc r' = rmap (mat_map h) (csc r).
Proof. intros ->. destruct r; reflexivity. Qed.
Lemma hom_dok r r' : r' = rmap (dok_map h) r -> dok r' = rmap (mat_map h) (dok r).
Proof. intros ->. destruct r; reflexivity. Qed.
Ltac call := intros; cbn [option_map]; try reflexivity; apply f_equal;
  match goal with
  | |- coo _ = _ => apply hom_coo; hk
  | |- csr _ = _ => apply hom_csr; hk
  | |- csc _ = _ => apply hom_csc; hk
  | |- dok _ = _ => apply hom_dok; first [apply hom_dok_apply | hk]
  | |- Ok _ = rmap _ (Ok _) => cbn [rmap mat_map]; unfold Coo_push, Coo_extend, coo_map; cbn [coo_rows coo_cols coo_rowidx coo_colidx coo_values]; now rewrite map_app
  end.
Lemma hom_make f k : do_make I f (maker_map h k) = option_map (rmap (mat_map h)) (do_make I f k).
Proof. destruct k, f; cbn [maker_map do_make]; call. Qed.
Lemma hom_unary u m : do_unary I (unary_map h u) (mat_map h m) = option_map (rmap (mat_map h)) (do_unary I u m).
Proof. destruct u as [[]|? []| | | | | |], m; cbn [unary_map mat_map do_unary]; call. Qed.
Lemma hom_inplace p m : do_inplace I (inplace_map h p) (mat_map h m) = option_map (rmap (mat_map h)) (do_inplace I p m).
Proof. destruct p, m; cbn [inplace_map mat_map do_inplace]; call. Qed.
Lemma hom_binary b x y : do_binary I b (mat_map h x) (mat_map h y) = option_map (rmap (mat_map h)) (do_binary I b x y).
Proof. destruct b, x, y; cbn [mat_map do_binary]; call. Qed.
Lemma hom_blocks k ms : do_blocks I k (map (mat_map h) ms) = option_map (rmap (mat_map h)) (do_blocks I k ms).
Proof.
  destruct k; repeat (match goal with |- context [map _ ?l] => is_var l; destruct l as [|[] l] end; cbn [map mat_map]; try reflexivity); cbn [map mat_map do_blocks]; call.
Qed.
Lemma hom_new st r : new_var (map (mat_map h) st) (option_map (rmap (mat_map h)) r) = rmap (map (mat_map h)) (new_var st r).
Proof. destruct r as [[]|]; cbn; try reflexivity. now rewrite map_app. Qed.
Lemma hom_set st v r : set_var (map (mat_map h) st) v (option_map (rmap (mat_map h)) r) = rmap (map (mat_map h)) (set_var st v r).
Proof. destruct r as [[]|]; cbn; try reflexivity. now rewrite map_upd. Qed.
Lemma hom_vars st vs : vars (map (mat_map h) st) vs = option_map (map (mat_map h)) (vars st vs).
Proof.
  induction vs as [|v vs IH]; cbn [vars]; [reflexivity|]. rewrite nth_error_map. destruct (nth_error st v); cbn [option_map obind]; [|reflexivity]. rewrite IH. destruct (vars st vs); reflexivity.
Qed.
Lemma hom_step st c : step I (map (mat_map h) st) (call_map h c) = rmap (map (mat_map h)) (step I st c).
Proof.
  destruct c as [f k|u v|p v|b v w|k vs]; cbn [call_map step].
  - rewrite hom_make. apply hom_new.
  - rewrite <- hom_new. f_equal. rewrite nth_error_map. destruct (nth_error st v); cbn [option_map obind]; [apply hom_unary|reflexivity].
  - rewrite <- hom_set. f_equal. rewrite nth_error_map. destruct (nth_error st v); cbn [option_map obind]; [apply hom_inplace|reflexivity].
  - rewrite <- hom_new. f_equal. rewrite !nth_error_map. destruct (nth_error st v); cbn [option_map obind]; [|reflexivity]. destruct (nth_error st w); cbn [option_map obind]; [apply hom_binary|reflexivity].
  - rewrite <- hom_new. f_equal. rewrite hom_vars. destruct (vars st vs); cbn [option_map obind]; [apply hom_blocks|reflexivity].
Qed.
Lemma c87_program : forall (cs : list (call T)) (st : list (mat T)), run I (map (mat_map h) st) (map (call_map h) cs) = rmap (map (mat_map h)) (run I st cs).
Proof.
  induction cs as [|c cs IH]; intros st; cbn [run map]; [reflexivity|]. rewrite hom_step. destruct (step I st c); cbn [rmap bind]; [apply IH| | |]; reflexivity.
Qed.
Lemma hom_tab r r' : r' = rmap (map (map h)) r -> tab r' = rmap (answer_map h) (tab r).
Proof. intros ->. destruct r; reflexivity. Qed.
Lemma hom_vec r r' : r' = rmap (map h) r -> vec r' = rmap (answer_map h) (vec r).
Proof. intros ->. destruct r; reflexivity. Qed.
Lemma hom_elem r r' : r' = rmap h r -> elem r' = rmap (answer_map h) (elem r).
Proof. intros ->. destruct r; reflexivity. Qed.
Lemma c87_look : forall (o : look T) (m : mat T), do_look I (look_map h o) (mat_map h m) = option_map (rmap (answer_map h)) (do_look I o m).
Proof.
  intros [] []; cbn [look_map mat_map do_look option_map]; try reflexivity; apply f_equal;
    match goal with
    | |- tab _ = _ => apply hom_tab; hk
    | |- vec _ = _ => apply hom_vec; hk
    | |- elem _ = _ => apply hom_elem; hk
    | |- Ok _ = _ => cbn [rmap answer_map]; do 2 apply f_equal; apply hom_DoK_get, HR
    end.
Qed.
End Program.

(** ** Maps between exact rings: tables commute, even if h merges numbers *)
Section Values.
Context {T U : Type} {ST : Scalar T} {SU : Scalar U}.
Variable h : T -> U.
Hypothesis HR : keeps_ring h.

Lemma h_sum0 l : sum0 (map h l) = h (sum0 l).
Proof.
  unfold sum0. rewrite <- (keeps_0 h HR). generalize (@s0 T ST) as z. induction l as [|x l IH]; intros z; cbn [map fold_left]; [reflexivity|]. rewrite <- (keeps_add h HR). apply IH.
Qed.
Lemma map_comb {A} (l : list A) (x : list T) : combine l (map h x) = map (fun e => (fst e, h (snd e))) (combine l x).
Proof. revert x. induction l as [|a l IH]; intros [|b x]; cbn; try reflexivity. now rewrite IH. Qed.
Lemma map_row p j x i : crow p j (map h x) i = map (fun e => (fst e, h (snd e))) (crow p j x i).
Proof. unfold crow, part. now rewrite skipn_map, firstn_map, map_comb. Qed.
Lemma map_at (l : list (nat * T)) c : at_ c (map (fun e => (fst e, h (snd e))) l) = map h (at_ c l).
Proof. unfold at_. induction l as [|[a v] l IH]; cbn [map filter fst snd]; [reflexivity|]. destruct (a =? c); cbn [map fst snd]; now rewrite IH. Qed.
Lemma h_csr_val m i j : csr_val (csr_map h m) i j = h (csr_val m i j).
Proof. unfold csr_val, csr_at, csr_row, csr_map. cbn. now rewrite map_row, map_at, h_sum0. Qed.
Lemma h_csc_val m i j : csc_val (csc_map h m) i j = h (csc_val m i j).
Proof. unfold csc_val, csc_at, csc_col, csc_map. cbn. now rewrite map_row, map_at, h_sum0. Qed.
Lemma h_coo_val m i j : coo_val (coo_map h m) i j = h (coo_val m i j).
Proof.
  unfold coo_val, coo_at, coo_entries, coo_map. cbn [coo_rowidx coo_colidx coo_values]. rewrite map_comb, <- h_sum0. apply (f_equal sum0).
  induction (combine (combine _ _) _) as [|[[a b] v] l IH]; cbn [map filter fst snd]; [reflexivity|]. destruct (_ && _); cbn [map fst snd]; now rewrite IH.
Qed.
Lemma h_rsum n f g : (forall i, g i = h (f i)) -> rsum n g = h (rsum n f).
Proof. intros H. unfold rsum. rewrite <- h_sum0, map_map. f_equal. apply map_ext, H. Qed.

(** tables *)
Definition trel (t : table T) (t' : table U) : Prop := t_rows t' = t_rows t /\ t_cols t' = t_cols t /\ forall i j, t_at t' i j = h (t_at t i j).
Context {NT : ScalarNeg T} {NU : ScalarNeg U}.
Hypothesis HN : keeps_neg h.
Ltac k := rewrite ?(keeps_0 h HR), ?(keeps_1 h HR), ?(keeps_add h HR), ?(keeps_sub h HR), ?(keeps_mul h HR), ?HN.
Ltac tr := repeat match goal with H : trel _ _ |- _ => destruct H as (? & ? & ?) end.
Lemma h_tcell a i j : tcell (map (map h) a) i j = h (tcell a i j).
Proof. unfold tcell. rewrite <- (map_nth h), (keeps_0 h HR). f_equal. change (@nil U) with (map h []). now rewrite map_nth. Qed.
Lemma trel_make k : trel (table_make k) (table_make (maker_map h k)).
Proof.
  destruct k; cbn [maker_map table_make]; repeat split; cbn [t_rows t_cols t_at]; rewrite ?map_length; try reflexivity; try (intros i0 j0).
  - now k.
  - destruct a; cbn [hd map]; [reflexivity|apply map_length].
  - apply h_tcell.
  - destruct (i0 =? j0); [|now k]. rewrite <- (map_nth h). now k.
  - destruct (i0 =? j0); now k.
  - apply (h_coo_val (mkCoo _ _ _ _ _)).
  - apply (h_csr_val (mkCSR _ _ _ _ _)).
  - apply (h_csc_val (mkCSC _ _ _ _ _)).
Qed.
Lemma trel_unary u t t' : trel t t' -> trel (table_unary u t) (table_unary (unary_map h u) t').
Proof.
  intros H. destruct u; cbn [unary_map table_unary]; [exact H|exact H|..]; destruct H as (H1 & H2 & H3); repeat split; cbn [t_rows t_cols t_at]; rewrite ?H1, ?H2; try reflexivity; intros a b; rewrite ?H3; try now k.
  destruct (_ <=? _)%Z; [reflexivity|now k].
Qed.
Lemma trel_over x y x' y' : trel x x' -> trel y y' -> trel (table_over x y) (table_over x' y').
Proof. intros (A1 & A2 & A3) (B1 & B2 & B3). repeat split; cbn [table_over t_rows t_cols t_at]; try congruence. intros i j. rewrite A1. destruct (i <? t_rows x); auto. Qed.
Lemma trel_beside x y x' y' : trel x x' -> trel y y' -> trel (table_beside x y) (table_beside x' y').
Proof. intros (A1 & A2 & A3) (B1 & B2 & B3). repeat split; cbn [table_beside t_rows t_cols t_at]; try congruence. intros i j. rewrite A2. destruct (j <? t_cols x); auto. Qed.
Lemma trel_binary b x y x' y' : trel x x' -> trel y y' -> trel (table_binary b x y) (table_binary b x' y').
Proof.
  intros X Y. destruct b; cbn [table_binary]; [| | |now apply trel_over|now apply trel_beside];
    destruct X as (A1 & A2 & A3), Y as (B1 & B2 & B3); repeat split; cbn [t_rows t_cols t_at]; try congruence; intros i j; rewrite ?A3, ?B3, ?A2; try now k.
  apply h_rsum. intros l. rewrite A3, B3. now k.
Qed.
Lemma trel_none : trel no_table no_table.
Proof. repeat split. intros. cbn. now k. Qed.
Lemma trel_blocks k ts ts' : Forall2 trel ts ts' -> trel (table_blocks k ts) (table_blocks k ts').
Proof.
  intros H. destruct k; repeat (match goal with H : Forall2 _ _ _ |- _ => inversion H; clear H; subst end; cbn [table_blocks]; try apply trel_none); repeat (apply trel_over || apply trel_beside); assumption.
Qed.
Lemma trel_change t t' i j f f' : trel t t' -> (forall x, f' (h x) = h (f x)) -> trel (table_change t i j f) (table_change t' i j f').
Proof. intros (A1 & A2 & A3) H. repeat split; cbn [table_change t_rows t_cols t_at]; auto. intros a b. destruct (_ && _); rewrite A3; auto. Qed.
Lemma trel_extend i j x : forall t t', trel t t' -> trel (table_extend t i j x) (table_extend t' i j (map h x)).
Proof.
  revert j x. induction i as [|a i IH]; intros [|b j] [|v x] t t' H; cbn [table_extend map]; try exact H. apply IH. apply trel_change; [exact H|]. intros w. now k.
Qed.
Lemma trel_inplace p t t' : trel t t' -> trel (table_inplace p t) (table_inplace (inplace_map h p) t').
Proof.
  intros H. destruct p as [| | | |[]]; cbn [inplace_map dok_op_map table_inplace]; try exact H; try (apply trel_change; [exact H|intros w; now k]). now apply trel_extend.
Qed.
Lemma trel_nth ts ts' v : Forall2 trel ts ts' -> trel (nth v ts no_table) (nth v ts' no_table).
Proof. intros H. revert v. induction H; intros [|v]; cbn; auto using trel_none. Qed.
Lemma trel_upd ts ts' v t t' : Forall2 trel ts ts' -> trel t t' -> Forall2 trel (upd ts v t) (upd ts' v t').
Proof. intros H. revert v. induction H; intros [|v] Ht; cbn; constructor; auto. Qed.
Lemma trel_step ts ts' c : Forall2 trel ts ts' -> Forall2 trel (table_step ts c) (table_step ts' (call_map h c)).
Proof.
  intros H. destruct c; cbn [call_map table_step].
  - apply Forall2_app; [exact H|]. repeat constructor; apply trel_make.
  - apply Forall2_app; [exact H|]. constructor; [|constructor]. now apply trel_unary, trel_nth.
  - apply trel_upd; [exact H|]. now apply trel_inplace, trel_nth.
  - apply Forall2_app; [exact H|]. constructor; [|constructor]. apply trel_binary; now apply trel_nth.
  - apply Forall2_app; [exact H|]. constructor; [|constructor]. apply trel_blocks. induction vs; cbn; constructor; auto. now apply trel_nth.
Qed.
Lemma trel_run cs : forall ts ts', Forall2 trel ts ts' -> Forall2 trel (table_run ts cs) (table_run ts' (map (call_map h) cs)).
Proof. unfold table_run. induction cs as [|c cs IH]; intros ts ts' H; cbn [fold_left map]; [exact H|]. apply IH, trel_step, H. Qed.
Lemma trel_look o t t' : trel t t' -> table_look (look_map h o) t' = answer_map h (table_look o t).
Proof.
  intros (A1 & A2 & A3). destruct o; cbn [look_map table_look answer_map]; rewrite ?A1, ?A2, ?map_map; f_equal; try (apply map_ext; intros i); rewrite ?map_map; try (apply map_ext; intros j'); auto.
  apply h_rsum. intros j. rewrite A3. k. rewrite <- (map_nth h). now k.
Qed.
End Values.

Section Rings.
Context {T U : Type} {ST : Scalar T} {SU : Scalar U} {NT : ScalarNeg T} {NU : ScalarNeg U} {RT : ExactRing T} {RU : ExactRing U}.
Variable I : ity.
Variable h : T -> U.
Hypothesis HR : keeps_ring h.
Lemma ring_keeps_neg : keeps_neg h.
Proof.
  intros x. assert (A : forall (V : Type) (SV : Scalar V) (NV : ScalarNeg V) (RV : ExactRing V) (y : V), sneg y = ssub s0 y).
  { intros V SV NV RV y. rewrite (Rsub_def er_ring). now rewrite (Radd_0_l er_ring). }
  now rewrite (A T ST NT RT), (A U SU NU RU), (keeps_sub h HR), (keeps_0 h HR).
Qed.
Lemma c88_history : forall cs : list (call T), calls_ok I [] cs -> calls_ok I [] (map (call_map h) cs) ->
  exists st st', run I [] cs = Ok st /\ run I [] (map (call_map h) cs) = Ok st' /\
    Forall2 (fun m m' => mat_rows m' = mat_rows m /\ mat_cols m' = mat_cols m /\ forall i j, i < mat_rows m -> j < mat_cols m -> mat_val m' i j = h (mat_val m i j)) st st'.
Proof.
  intros cs H H'. destruct (c62_history I cs H) as (st & E & F). destruct (c62_history I _ H') as (st' & E' & F'). exists st, st'. split; [exact E|]. split; [exact E'|].
  assert (R := trel_run h HR ring_keeps_neg cs [] [] (Forall2_nil _)). clear E E' H H'.
  revert st' F' R. generalize (table_run [] (map (call_map h) cs)) as ts'. induction F as [|m t st ts (A1 & A2 & A3) F IH]; intros ts' st' F' R; inversion R as [|? y ? l' HT RR]; subst; inversion F' as [|m' ? st0 ? HH FF]; subst; constructor.
  - destruct HT as (B1 & B2 & B3), HH as (C1 & C2 & C3). repeat split; try congruence. intros i j Hi Hj. rewrite C3, B3, A3 by congruence. reflexivity.
  - eapply IH; eassumption.
Qed.
Lemma c88_look : forall (cs : list (call T)) st st' v m m' o, calls_ok I [] cs -> calls_ok I [] (map (call_map h) cs) ->
  run I [] cs = Ok st -> run I [] (map (call_map h) cs) = Ok st' -> nth_error st v = Some m -> nth_error st' v = Some m' -> look_ok I o m -> look_ok I (look_map h o) m' ->
  exists a, do_look I o m = Some (Ok a) /\ do_look I (look_map h o) m' = Some (Ok (answer_map h a)).
Proof.
  intros cs st st' v m m' o H H' E E' Hm Hm' L L'. exists (table_look o (nth v (table_run [] cs) no_table)). split; [apply (c62_look I cs st); assumption|].
  rewrite (c62_look I (map (call_map h) cs) st' v m' (look_map h o)) by assumption. do 2 f_equal. apply (trel_look h HR). apply (trel_nth h HR). apply (trel_run h HR ring_keeps_neg). constructor.
Qed.
End Rings.

(** ** Maps *)
Lemma wrap_keeps : keeps_ring wrap.
Proof.
  constructor; try reflexivity; intros; apply w64_eq; cbn [sadd ssub smul scalar_w64 scalar_Z]; rewrite !wval_wrap; [apply Zplus_mod|apply Zminus_mod|apply Zmult_mod].
Qed.
Lemma gconj_keeps : keeps_ring (cconj : gint -> gint) /\ keeps_neg (cconj : gint -> gint) /\ keeps_eq (cconj : gint -> gint).
Proof.
  split; [|split].
  - constructor; try reflexivity; intros [a b] [c d]; cbn -[Z.add Z.mul Z.sub Z.opp]; unfold gmul; cbn -[Z.add Z.mul Z.sub Z.opp]; f_equal; ring.
  - intros [a b]. cbn. f_equal.
  - intros [a b] [c d]. cbn. f_equal. apply Bool.eq_true_iff_eq. rewrite !Z.eqb_eq. lia.
Qed.
Lemma greal_keeps : keeps_ring (fun z => G z 0) /\ keeps_neg (fun z => G z 0) /\ keeps_eq (fun z => G z 0).
Proof.
  split; [|split].
  - constructor; try reflexivity; intros a b; cbn -[Z.add Z.mul Z.sub Z.opp]; unfold gmul; cbn -[Z.add Z.mul Z.sub Z.opp]; f_equal; ring.
  - intros a. reflexivity.
  - intros a b. cbn. apply andb_true_r.
Qed.

(** ** Complex conjugation *)
Lemma bind_made {A B} (m : res A) (k : A -> res B) r : bind m k = Ok r -> exists a, m = Ok a /\ k a = Ok r.
Proof. destruct m as [a| | |]; cbn; intros E; try discriminate. now exists a. Qed.
Section Conj.
Context {F C : Type} {SC : Scalar C} {CO : ComplexOps F C}.
Variables (bd : Build) (I : ity).
Notation cj := (cconj (F := F) : C -> C).
Lemma bad_length_not_ok {A} (b : Build) len n (r : A) : @bad_length b A len n = Ok r -> False.
Proof. unfold bad_length. destruct (Z.eqb _ _); [destruct b; [|destruct (len =? 0)]|]; discriminate. Qed.
Lemma csr_new_made m n p j (x : list C) r : CSR_new m n p j x = Ok r -> CSR_conj (F := F) r = Ok (csr_map cj r).
Proof.
  intros E. assert (Er : r = mkCSR m n p j x). { unfold CSR_new in E. repeat match type of E with bad_length _ _ = _ => destruct (bad_length_not_ok _ _ _ _ E) | (if ?b then _ else _) = _ => destruct b; [try discriminate|] | bind ?b _ = _ => destruct b; cbn [bind] in E; try discriminate end. now injection E as <-. }
  subst r. unfold CSR_conj. cbn [csr_rows csr_cols csr_rowptr csr_colidx csr_values].
  replace (CSR_new m n p j (map cj x)) with (rmap (csr_map cj) (CSR_new m n p j x)); [now rewrite E|]. symmetry. eapply (hom_CSR_new cj); reflexivity.
Qed.
Lemma csc_new_made m n j p (x : list C) r : CSC_new m n j p x = Ok r -> CSC_conj (F := F) r = Ok (csc_map cj r).
Proof.
  intros E. assert (Er : r = mkCSC m n j p x). { unfold CSC_new in E. repeat match type of E with bad_length _ _ = _ => destruct (bad_length_not_ok _ _ _ _ E) | (if ?b then _ else _) = _ => destruct b; [try discriminate|] | bind ?b _ = _ => destruct b; cbn [bind] in E; try discriminate end. now injection E as <-. }
  subst r. unfold CSC_conj. cbn [csc_rows csc_cols csc_rowidx csc_colptr csc_values].
  replace (CSC_new m n j p (map cj x)) with (rmap (csc_map cj) (CSC_new m n j p x)); [now rewrite E|]. symmetry. eapply (hom_CSC_new cj); reflexivity.
Qed.
Lemma csr_conj_is a a' : CSR_conj (F := F) a = Ok a' -> a' = csr_map cj a.
Proof.
  unfold CSR_conj. replace (CSR_new _ _ _ _ _) with (rmap (csr_map cj) (CSR_new (csr_rows a) (csr_cols a) (csr_rowptr a) (csr_colidx a) (csr_values a))) by (symmetry; eapply (hom_CSR_new cj); reflexivity).
  destruct (CSR_new _ _ _ _ _) as [r| | |] eqn:E; cbn [rmap unwrap]; try discriminate. intros [= <-]. f_equal.
  unfold CSR_new in E. repeat match type of E with bad_length _ _ = _ => destruct (bad_length_not_ok _ _ _ _ E) | (if ?b then _ else _) = _ => destruct b; [try discriminate|] | bind ?b _ = _ => destruct b; cbn [bind] in E; try discriminate end. injection E as <-. now destruct a.
Qed.
Lemma csc_conj_is a a' : CSC_conj (F := F) a = Ok a' -> a' = csc_map cj a.
Proof.
  unfold CSC_conj. replace (CSC_new _ _ _ _ _) with (rmap (csc_map cj) (CSC_new (csc_rows a) (csc_cols a) (csc_rowidx a) (csc_colptr a) (csc_values a))) by (symmetry; eapply (hom_CSC_new cj); reflexivity).
  destruct (CSC_new _ _ _ _ _) as [r| | |] eqn:E; cbn [rmap unwrap]; try discriminate. intros [= <-]. f_equal.
  unfold CSC_new in E. repeat match type of E with bad_length _ _ = _ => destruct (bad_length_not_ok _ _ _ _ E) | (if ?b then _ else _) = _ => destruct b; [try discriminate|] | bind ?b _ = _ => destruct b; cbn [bind] in E; try discriminate end. injection E as <-. now destruct a.
Qed.
Lemma unwrap_ok {A} (m : res A) r : unwrap m = Ok r -> m = Ok r.
Proof. destruct m; cbn; congruence. Qed.
Ltac made := intros E; repeat match type of E with
  | (if ?b then _ else _) = Ok _ => destruct b; try discriminate E
  | bind _ _ = Ok _ => let H := fresh in apply bind_made in E as (? & H & E); clear H
  | (let '(_, _) := ?x in _) = Ok _ => destruct x
  | unwrap _ = Ok _ => apply unwrap_ok in E
  end; first [eapply csr_new_made; exact E | eapply csc_new_made; exact E].
Hypotheses (HR : keeps_ring cj) (HE : keeps_eq cj).
Lemma c87_conj_csr : forall a b a' b' r : CSR C, CSR_conj (F := F) a = Ok a' -> CSR_conj (F := F) b = Ok b' ->
  (CSR_mat_mat I a b = Ok r -> exists r', CSR_conj (F := F) r = Ok r' /\ CSR_mat_mat I a' b' = Ok r') /\
  (CSR_add I a b = Ok r -> exists r', CSR_conj (F := F) r = Ok r' /\ CSR_add I a' b' = Ok r') /\
  (CSR_sub I a b = Ok r -> exists r', CSR_conj (F := F) r = Ok r' /\ CSR_sub I a' b' = Ok r').
Proof.
  intros a b a' b' r Ha Hb. apply csr_conj_is in Ha, Hb. subst a' b'.
  destruct (c87_tested bd I cj HR HE) as (M & _ & _ & _ & _ & A & S & _).
  specialize (M a b). specialize (A a b). specialize (S a b).
  split; [|split]; intros E; exists (csr_map cj r); (split; [|rewrite E in M || rewrite E in A || rewrite E in S; assumption]); clear M A S; revert E; [unfold CSR_mat_mat|unfold CSR_add|unfold CSR_sub]; cbv zeta; made.
Qed.
Lemma c87_conj_csc : forall a b a' b' r : CSC C, CSC_conj (F := F) a = Ok a' -> CSC_conj (F := F) b = Ok b' ->
  (CSC_mat_mat I a b = Ok r -> exists r', CSC_conj (F := F) r = Ok r' /\ CSC_mat_mat I a' b' = Ok r') /\
  (CSC_add I a b = Ok r -> exists r', CSC_conj (F := F) r = Ok r' /\ CSC_add I a' b' = Ok r') /\
  (CSC_subtract I a b = Ok r -> exists r', CSC_conj (F := F) r = Ok r' /\ CSC_subtract I a' b' = Ok r').
Proof.
  intros a b a' b' r Ha Hb. apply csc_conj_is in Ha, Hb. subst a' b'.
  destruct (c87_tested bd I cj HR HE) as (_ & M & _ & _ & _ & _ & _ & A & S & _).
  specialize (M a b). specialize (A a b). specialize (S a b).
  split; [|split]; intros E; exists (csc_map cj r); (split; [|rewrite E in M || rewrite E in A || rewrite E in S; assumption]); clear M A S; revert E; [unfold CSC_mat_mat|unfold CSC_add|unfold CSC_subtract]; cbv zeta; made.
Qed.
End Conj.
Lemma c88_wrap : forall (I : ity) (cs : list (call Z)), calls_ok I [] cs -> calls_ok I [] (map (call_map wrap) cs) ->
  exists st st', run I [] cs = Ok st /\ run I [] (map (call_map wrap) cs) = Ok st' /\
    Forall2 (fun m m' => mat_rows m' = mat_rows m /\ mat_cols m' = mat_cols m /\ forall i j, i < mat_rows m -> j < mat_cols m -> wval (mat_val m' i j) = (mat_val m i j mod 2 ^ 64)%Z) st st'.
Proof.
  intros I cs H H'. destruct (c88_history I wrap wrap_keeps cs H H') as (st & st' & E & E' & F). exists st, st'. split; [exact E|]. split; [exact E'|].
  clear E E' H H'. induction F as [|m m' st st' (A & B & D) F IH]; constructor; [|exact IH]. repeat split; try assumption. intros i j Hi Hj. rewrite D by assumption. apply wval_wrap.
Qed.
Lemma c87_wrap_refuted : exists a b : CSR Z, keeps_ring wrap /\ CSR_mat_mat U64 (csr_map wrap a) (csr_map wrap b) <> rmap (csr_map wrap) (CSR_mat_mat U64 a b).
Proof.
  exists (mkCSR 1 1 [0; 1] [0] [2 ^ 32])%Z, (mkCSR 1 1 [0; 1] [0] [2 ^ 32])%Z. split; [apply wrap_keeps|]. intros H.
  apply (f_equal (fun r => match r with Ok a => csr_rowptr a | _ => [] end)) in H. vm_compute in H. discriminate H.
Qed.
