{
 "claims": [
  {
   "property": "C01",
   "status": "proved",
   "theorems": [
    "C01_coo_to_csr"
   ],
   "note": "full statement proved (Props_convert.v)"
  },
  {
   "property": "C02",
   "status": "proved",
   "theorems": [
    "C02_coo_to_csc"
   ],
   "note": "full statement proved (Props_convert.v)"
  },
  {
   "property": "C03",
   "status": "proved",
   "theorems": [
    "C03_csr_to_csc",
    "C03_csr_unfit"
   ],
   "note": "full statement proved (Props_convert.v, Props_fit.v)"
  },
  {
   "property": "C04",
   "status": "proved",
   "theorems": [
    "C04_csc_to_csr",
    "C04_csc_unfit"
   ],
   "note": "full statement proved (Props_convert.v, Props_fit.v)"
  },
  {
   "property": "C05",
   "status": "proved",
   "theorems": [
    "C05_csr_round_trip",
    "C05_csc_round_trip"
   ],
   "note": "full statement proved (Props_convert.v)"
  },
  {
   "property": "C06",
   "status": "proved",
   "theorems": [
    "C06_csr_to_coo",
    "C06_csr_to_coo_surplus"
   ],
   "note": "full statement proved (Props_linear.v)"
  },
  {
   "property": "C07",
   "status": "proved",
   "theorems": [
    "C07_csc_to_coo"
   ],
   "note": "full statement proved (Props_linear.v)"
  },
  {
   "property": "C08",
   "status": "proved",
   "theorems": [
    "C08_coo_transpose",
    "C08_csr_transpose",
    "C08_csc_transpose"
   ],
   "note": "full statement proved (Props_convert.v)"
  },
  {
   "property": "C09",
   "status": "proved",
   "theorems": [
    "C09_coo_to_dense",
    "C09_csr_to_dense",
    "C09_csc_to_dense"
   ],
   "note": "full statement proved (Props_linear.v)"
  },
  {
   "property": "C10",
   "status": "proved",
   "theorems": [
    "C10_dok_from_dense",
    "C10_csr_from_dense",
    "C10_csc_from_dense",
    "C10_coo_from_dense",
    "C10_round_trip"
   ],
   "note": "full statement proved (Props_dok.v, Props_struct.v)"
  },
  {
   "property": "C11",
   "status": "proved",
   "theorems": [
    "C11_csr_exact",
    "C11_csc_exact",
    "C11_csr_has_canonical_format",
    "C11_csc_has_canonical_format"
   ],
   "note": "full statement proved (Props_boundary.v, Props_convert.v)"
  },
  {
   "property": "C12",
   "status": "proved",
   "theorems": [
    "C12_csr_has_sorted_indexes",
    "C12_csc_has_sorted_indexes"
   ],
   "note": "complete: answer for a non-empty first row (column), panic for every empty one (Props_convert.v)"
  },
  {
   "property": "C13",
   "status": "proved",
   "theorems": [
    "C13_csr_sort_indexes",
    "C13_csc_sort_indexes"
   ],
   "note": "full statement proved (Props_convert.v)"
  },
  {
   "property": "C14",
   "status": "proved",
   "theorems": [
    "C14_csr_exact",
    "C14_csc_exact",
    "C14_csr_sum_duplicates",
    "C14_csc_sum_duplicates"
   ],
   "note": "full statement proved (Props_boundary.v, Props_convert.v)"
  },
  {
   "property": "C15",
   "status": "proved",
   "theorems": [
    "C15_csr_mat_vec",
    "C15_csr_mat_vec_ring"
   ],
   "note": "full statement proved (Props_linear.v)"
  },
  {
   "property": "C16",
   "status": "proved",
   "theorems": [
    "C16_csc_mat_vec",
    "C16_mat_vec_formats_agree",
    "C16_csc_mat_vec_ring"
   ],
   "note": "full statement proved (Props_linear.v)"
  },
  {
   "property": "C17",
   "status": "proved",
   "theorems": [
    "C17_csr_mat_mat_error",
    "C17_csr_mat_mat",
    "C17_csr_product",
    "C17_csr_mat_mat_exact",
    "C17_csr_product_any"
   ],
   "note": "full statement proved (Props_arith.v, Props_product.v)"
  },
  {
   "property": "C18",
   "status": "proved",
   "theorems": [
    "C18_csc_mat_mat_error",
    "C18_csc_mat_mat",
    "C18_csc_product",
    "C18_csc_mat_mat_exact",
    "C18_csc_product_any"
   ],
   "note": "full statement proved (Props_arith.v, Props_product.v)"
  },
  {
   "property": "C19",
   "status": "proved",
   "theorems": [
    "C19_csr_add_exact",
    "C19_csr_sub_exact",
    "C19_csr_add",
    "C19_csr_sub",
    "C19_csr_entrywise",
    "C19_csr_sum"
   ],
   "note": "full statement proved (Props_addition.v, Props_arith.v)"
  },
  {
   "property": "C20",
   "status": "proved",
   "theorems": [
    "C20_csc_add_exact",
    "C20_csc_subtract_exact",
    "C20_csc_op_add_exact",
    "C20_csc_error",
    "C20_csc_add",
    "C20_csc_subtract",
    "C20_csc_op_add",
    "C20_csc_entrywise",
    "C20_csc_sum"
   ],
   "note": "full statement proved (Props_addition.v, Props_arith.v)"
  },
  {
   "property": "C21",
   "status": "proved",
   "theorems": [
    "C21_csc_op_sub_refuted",
    "C21_csc_op_sub_exchanged"
   ],
   "note": "the property states the defect; panic proved for all operands of equal size whose total entry count is not cols+1 (Props_arith.v)"
  },
  {
   "property": "C22",
   "status": "proved",
   "theorems": [
    "C22_csc_scale_refuted",
    "C22_csc_scale_exchanged",
    "C22_csc_scale_wrong_refuted"
   ],
   "note": "the property states the defect; panic proved for all matrices whose rowidx length is not cols+1, witness for a wrong result otherwise (Props_struct.v)"
  },
  {
   "property": "C23",
   "status": "proved",
   "theorems": [
    "C23_coo_neg",
    "C23_csr_neg",
    "C23_csc_neg",
    "C23_csr_scale"
   ],
   "note": "full statement proved (Props_struct.v)"
  },
  {
   "property": "C24",
   "status": "proved",
   "theorems": [
    "C24_coo_add"
   ],
   "note": "full statement proved (Props_struct.v)"
  },
  {
   "property": "C25",
   "status": "proved",
   "theorems": [
    "C25_v_stack",
    "C25_h_stack",
    "C25_v_stack3",
    "C25_h_stack3",
    "C25_compose",
    "C25_compose3"
   ],
   "note": "full statement proved (Props_struct.v)"
  },
  {
   "property": "C26",
   "status": "proved",
   "theorems": [
    "C26_csr_h_stack",
    "C26_csc_compose"
   ],
   "note": "the CSR case needs arguments without unused capacity (see C06, C55) (Props_struct.v)"
  },
  {
   "property": "C27",
   "status": "proved",
   "theorems": [
    "C27_upper"
   ],
   "note": "both directions: success when every row+k fits, panic as soon as one does not (Props_struct.v)"
  },
  {
   "property": "C28",
   "status": "proved",
   "theorems": [
    "C28_coo_diagonal",
    "C28_csr_diagonal",
    "C28_csc_diagonal"
   ],
   "note": "full statement proved (Props_linear.v)"
  },
  {
   "property": "C29",
   "status": "proved",
   "theorems": [
    "C29_csr_kth_diagonal",
    "C29_csc_kth_diagonal"
   ],
   "note": "full statement proved (Props_linear.v)"
  },
  {
   "property": "C30",
   "status": "proved",
   "theorems": [
    "C30_coo_with_diagonal",
    "C30_coo_identity",
    "C30_csr_with_diagonal",
    "C30_csc_with_diagonal"
   ],
   "note": "full statement proved (Props_struct.v)"
  },
  {
   "property": "C31",
   "status": "proved",
   "theorems": [
    "C31_csr_select_refuses",
    "C31_csc_select_refuses",
    "C31_csr_select",
    "C31_csc_select",
    "C31_oversized"
   ],
   "note": "for dimensions that fit the index type; beyond that the panic is proved for all matrices (Props_select.v)"
  },
  {
   "property": "C32",
   "status": "proved",
   "theorems": [
    "C32_csr_get",
    "C32_csr_get_negative",
    "C32_csr_get_dense",
    "C32_duplicates_refuted"
   ],
   "note": "with duplicates the first stored value is read; agreement with to_dense is refuted for that case by a witness (Props_select.v)"
  },
  {
   "property": "C33",
   "status": "proved",
   "theorems": [
    "C33_history",
    "C33_history_from",
    "C33_nnz",
    "C33_dims"
   ],
   "note": "for dimensions that fit the index type; beyond that a panic is proved for every write in range (Props_dok.v)"
  },
  {
   "property": "C34",
   "status": "proved",
   "theorems": [
    "C34_to_dense",
    "C34_to_coo",
    "C34_to_csr",
    "C34_to_csc"
   ],
   "note": "full statement proved (Props_dok.v)"
  },
  {
   "property": "C35",
   "status": "proved",
   "theorems": [
    "C35_weak_unfit",
    "C35_not_square",
    "C35_weak_components"
   ],
   "note": "full statement proved (Props_fit.v, Props_graph.v)"
  },
  {
   "property": "C36",
   "status": "proved",
   "theorems": [
    "C36_strong_components",
    "C36_empty_refuted",
    "C36_duplicates_refuted",
    "C36_duplicates_wrong_refuted"
   ],
   "note": "both restrictions shown necessary: panic for the empty matrix, with a repeated position, witnesses of a panic and of wrong labels (Props_graph.v)"
  },
  {
   "property": "C37",
   "status": "proved",
   "theorems": [
    "C37_undirected_unfit",
    "C37_depth_first_order",
    "C37_not_square",
    "C37_start_refuted"
   ],
   "note": "a start node out of range panics (proved for all such nodes) (Props_fit.v, Props_graph.v)"
  },
  {
   "property": "C38",
   "status": "proved",
   "theorems": [
    "C38_flags",
    "C38_symmetric",
    "C38_not_square",
    "C38_no_entries"
   ],
   "note": "full statement proved (Props_graph.v)"
  },
  {
   "property": "C39",
   "status": "proved",
   "theorems": [
    "C39_submatrix",
    "C39_submatrix_rejects"
   ],
   "note": "full statement proved (Props_select.v)"
  },
  {
   "property": "C40",
   "status": "proved",
   "theorems": [
    "C40_row_index",
    "C40_row_slice",
    "C40_row_slice_step0"
   ],
   "note": "the loop bound (fuel) is any number above stop - start; with step 0 no bound suffices (Props_select.v)"
  },
  {
   "property": "C41",
   "status": "proved",
   "theorems": [
    "C41_column_index"
   ],
   "note": "full statement proved (Props_select.v)"
  },
  {
   "property": "C42",
   "status": "proved",
   "theorems": [
    "C42_eliminate_zeros"
   ],
   "note": "full statement proved (Props_linear.v)"
  },
  {
   "property": "C43",
   "status": "proved",
   "theorems": [
    "C43_scale_rows",
    "C43_scale_columns"
   ],
   "note": "full statement proved (Props_linear.v)"
  },
  {
   "property": "C44",
   "status": "proved",
   "theorems": [
    "C44_coo_todense",
    "C44_coo_matvec"
   ],
   "note": "full statement proved (Props_linear.v)"
  },
  {
   "property": "C45",
   "status": "proved",
   "theorems": [
    "C45_csr_matvecs",
    "C45_csc_matvecs"
   ],
   "note": "full statement proved (Props_linear.v)"
  },
  {
   "property": "C46",
   "status": "proved",
   "theorems": [
    "C46_exact",
    "C46_div_exact",
    "C46_kernels_exact",
    "C46_csr_binop_csr",
    "C46_total",
    "C46_algorithms_agree",
    "C46_kernels",
    "C46_div",
    "C46_comparison_complete",
    "C46_eq_le_ge_refuted",
    "C46_div_refuted",
    "C46_div_integer",
    "C46_div_w64"
   ],
   "note": "proved for all operations; eq/le/ge on cells empty in both operands and integer division by an absent entry are refuted (the latter for all inputs) (Props_addition.v, Props_arith.v)"
  },
  {
   "property": "C47",
   "status": "proved",
   "theorems": [
    "C47_csr_matmat_maxnnz",
    "C47_csc_matmat_maxnnz"
   ],
   "note": "full statement proved (Props_arith.v)"
  },
  {
   "property": "C48",
   "status": "proved",
   "theorems": [
    "C48_count_diagonals"
   ],
   "note": "exact count without entries below the diagonal; a panic proved for every matrix with one (Props_select.v)"
  },
  {
   "property": "C49",
   "status": "proved",
   "theorems": [
    "C49_coo_new",
    "C49_csr_new",
    "C49_csc_new"
   ],
   "note": "full statement proved (Props_struct.v)"
  },
  {
   "property": "C50",
   "status": "proved",
   "theorems": [
    "C50_history",
    "C50_prefix",
    "C50_look"
   ],
   "note": "full statement proved (Props_pipe.v)"
  },
  {
   "property": "C51",
   "status": "proved",
   "theorems": [
    "C51_to_csr_exact",
    "C51_to_csc_exact",
    "C51_index_values",
    "C51_from_usize",
    "C51_coo_overflow",
    "C51_from_dense_overflow",
    "C51_with_diagonal_overflow",
    "C51_v_stack",
    "C51_h_stack",
    "C51_boundary_refuted"
   ],
   "note": "panic proved for every size above the limit; success below it is in C01, C02, C10, C30; for the stacks and for to_csr/to_csc the exact condition for a panic (Props_boundary.v) (Props_boundary.v, Props_index.v, Props_struct.v)"
  },
  {
   "property": "C52",
   "status": "proved",
   "theorems": [
    "C52_coo_parts",
    "C52_csr_parts",
    "C52_csc_parts",
    "C52_csr_embed",
    "C52_coo_h",
    "C52_csr_h",
    "C52_csc_h"
   ],
   "note": "full statement proved (Props_struct.v)"
  },
  {
   "property": "C53",
   "status": "proved",
   "theorems": [
    "C53_complex_ring",
    "C53_csr_transpose_product",
    "C53_csc_transpose_product",
    "C53_add_mat_vec",
    "C53_mat_vec_additive",
    "C53_mat_mat_vec",
    "C53_add_comm",
    "C53_add_assoc",
    "C53_sub_add",
    "C53_add_neg",
    "C53_product_assoc",
    "C53_distributes",
    "C53_distributes_right",
    "C53_identity",
    "C53_csr_transpose_product_any",
    "C53_add_mat_vec_any",
    "C53_mat_mat_vec_any",
    "C53_add_comm_any",
    "C53_add_assoc_any",
    "C53_sub_add_any",
    "C53_product_assoc_any",
    "C53_distributes_any",
    "C53_distributes_right_any"
   ],
   "note": "full statement proved (Props_cring.v, Props_laws.v, Props_product.v)"
  },
  {
   "property": "C54",
   "status": "proved",
   "theorems": [
    "C54_csr_add_few",
    "C54_csr_add_sticks_out",
    "C54_csr_add",
    "C54_csr_sub_few",
    "C54_csr_sub_sticks_out",
    "C54_csr_sub",
    "C54_csc_op_add_few",
    "C54_csc_op_add_sticks_out",
    "C54_csc_op_add"
   ],
   "note": "complete description for CSR +, CSR - and CSC + (Props_arith.v)"
  },
  {
   "property": "C55",
   "status": "proved",
   "theorems": [
    "C55_csr_add_capacity",
    "C55_csr_mat_mat_capacity",
    "C55_csr_add_refuted",
    "C55_csr_mat_mat_refuted",
    "C55_conversions_exact",
    "C55_construction_exact",
    "C55_unused_is_zero",
    "C55_select_exact",
    "C55_sum_duplicates_exact"
   ],
   "note": "proved for the listed operations; for sums and products the exact capacity is proved and witnesses refute the claim (Props_arith.v, Props_laws.v)"
  },
  {
   "property": "C56",
   "status": "proved",
   "theorems": [
    "C56_push_extend",
    "C56_one_call",
    "C56_extend_refuted"
   ],
   "note": "proved for all sequences of push and equal-length extend; unequal extend refuted by a witness (Props_struct.v)"
  },
  {
   "property": "C57",
   "status": "proved",
   "theorems": [
    "C57_coo_to_string",
    "C57_csc_to_string",
    "C57_csr_to_string",
    "C57_dok_to_string",
    "C57_table",
    "C57_to_table"
   ],
   "note": "the text handed to the TabWriter; its alignment is an arbitrary function of that text (Props_text.v)"
  },
  {
   "property": "C58",
   "status": "proved",
   "theorems": [
    "C58_imaginary_parts_refuted",
    "C58_real_parts"
   ],
   "note": "the property states the defect, proved for every successful run and every behaviour of ARPACK that keeps the buffer lengths (Props_eigen.v)"
  },
  {
   "property": "C59",
   "status": "proved",
   "theorems": [
    "C59_csr_unique",
    "C59_csc_unique",
    "C59_to_csr_order"
   ],
   "note": "full statement proved (Props_dok.v)"
  },
  {
   "property": "C60",
   "status": "proved",
   "theorems": [
    "C60_csc_mul_csr",
    "C60_csc_mul_csr_exact"
   ],
   "note": "full statement proved (Props_laws.v, Props_product.v)"
  },
  {
   "property": "C61",
   "status": "proved",
   "theorems": [
    "C61_insertion_order"
   ],
   "note": "full statement proved (Props_laws.v)"
  },
  {
   "property": "C62",
   "status": "proved",
   "theorems": [
    "C62_history",
    "C62_look"
   ],
   "note": "full statement proved (Props_pipe.v)"
  },
  {
   "property": "C63",
   "status": "proved",
   "theorems": [
    "C63_coo_text_determines",
    "C63_csr_text_determines",
    "C63_csc_text_determines",
    "C63_integers"
   ],
   "note": "full statement proved (Props_text.v)"
  },
  {
   "property": "C64",
   "status": "proved",
   "theorems": [
    "C64_complex_sign_refuted",
    "C64_complex_nonnegative"
   ],
   "note": "the property states the defect, proved for all values (Props_text.v)"
  },
  {
   "property": "C65",
   "status": "proved",
   "theorems": [
    "C65_vectors",
    "C65_real_vectors_refuted"
   ],
   "note": "complete description of the returned matrix (Props_eigen.v)"
  },
  {
   "property": "C66",
   "status": "proved",
   "theorems": [
    "C66_vector_buffer_refuted",
    "C66_workspace_refuted",
    "C66_other_arguments"
   ],
   "note": "the property states the defect, proved for all nev >= 1 and all n + 1 < 2^31 (Props_eigen.v)"
  },
  {
   "property": "C67",
   "status": "proved",
   "theorems": [
    "C67_dnaupd_arguments",
    "C67_first_call",
    "C67_large_refuted",
    "C67_no_eigenvalues_refuted"
   ],
   "note": "nev = 0 and sizes whose 32-bit cast is wrong are refuted for all matrices (Props_eigen.v)"
  },
  {
   "property": "C68",
   "status": "proved",
   "theorems": [
    "C68_product",
    "C68_product_elsewhere_refuted",
    "C68_other_requests_refuted"
   ],
   "note": "both sides proved for all matrices and locations (Props_eigen.v)"
  },
  {
   "property": "C69",
   "status": "proved",
   "theorems": [
    "C69_argument_errors",
    "C69_empty_matrix_refuted"
   ],
   "note": "both sides proved for all matrices (Props_eigen.v)"
  },
  {
   "property": "C70",
   "status": "proved",
   "theorems": [
    "C70_coo_conversions",
    "C70_csr_to_csc",
    "C70_csc_to_csr",
    "C70_to_dense",
    "C70_diagonal"
   ],
   "note": "full statement proved (Props_more.v)"
  },
  {
   "property": "C71",
   "status": "proved",
   "theorems": [
    "C71_from_dense"
   ],
   "note": "tables whose number of non-zeros is below the largest index (Props_more.v)"
  },
  {
   "property": "C72",
   "status": "proved",
   "theorems": [
    "C72_csr_select_all",
    "C72_csc_select_all",
    "C72_csr_select_select",
    "C72_csc_select_select"
   ],
   "note": "full statement proved (Props_more.v)"
  },
  {
   "property": "C73",
   "status": "proved",
   "theorems": [
    "C73_v_stack",
    "C73_h_stack",
    "C73_compose"
   ],
   "note": "full statement proved (Props_more.v)"
  },
  {
   "property": "C74",
   "status": "proved",
   "theorems": [
    "C74_csr_with_diagonal",
    "C74_csc_with_diagonal"
   ],
   "note": "full statement proved (Props_more.v)"
  },
  {
   "property": "C75",
   "status": "proved",
   "theorems": [
    "C75_csr_h_product"
   ],
   "note": "the product of two CSR matrices; stated for exact complex scalars, since conjugating 0 changes the sign of a float zero (Props_more.v)"
  },
  {
   "property": "C76",
   "status": "proved",
   "theorems": [
    "C76_complex_comm",
    "C76_csr_add_comm",
    "C76_csc_add_comm",
    "C76_f64_comm"
   ],
   "note": "binary64 addition is shown commutative for the floats of Coq's SpecFloat (Props_cring.v, Props_more.v)"
  },
  {
   "property": "C77",
   "status": "proved",
   "theorems": [
    "C77_edge",
    "C77_order"
   ],
   "note": "for the graphs on which the strong components are computed (C36) (Props_graph.v)"
  },
  {
   "property": "C78",
   "status": "proved",
   "theorems": [
    "C78_weak_unique",
    "C78_transposed_weak",
    "C78_transposed_strong",
    "C78_strong_refines_weak",
    "C78_flags_agree"
   ],
   "note": "full statement proved (Props_graph.v)"
  },
  {
   "property": "C79",
   "status": "proved",
   "theorems": [
    "C79_undirected",
    "C79_directed"
   ],
   "note": "the directed part for rows that store no column twice (C36) (Props_graph.v)"
  },
  {
   "property": "C80",
   "status": "proved",
   "theorems": [
    "C80_csr_matvec",
    "C80_csr_matvecs",
    "C80_csc_matvec",
    "C80_csc_matvecs",
    "C80_coo_matvec",
    "C80_coo_todense",
    "C80_csr_todense",
    "C80_csr_diagonal",
    "C80_csc_diagonal",
    "C80_expandptr",
    "C80_csr_scale_rows",
    "C80_csr_scale_columns",
    "C80_csr_tocoo",
    "C80_coo_tocsr",
    "C80_csr_tocsc",
    "C80_csc_tocsr",
    "C80_csr_sort_indices",
    "C80_csr_sum_duplicates",
    "C80_csr_eliminate_zeros",
    "C80_csr_matmat_maxnnz",
    "C80_csc_matmat_maxnnz",
    "C80_csr_matmat",
    "C80_csc_matmat",
    "C80_csr_has_sorted_indices",
    "C80_csr_has_canonical_format",
    "C80_csr_count_diagonals",
    "C80_csr_select",
    "C80_get_csr_submatrix",
    "C80_csr_row_index",
    "C80_csr_row_slice",
    "C80_csr_column_index1",
    "C80_csr_column_index2",
    "C80_csr_binop_csr",
    "C80_cs_graph_components"
   ],
   "note": "full statement proved (Props_frame.v)"
  },
  {
   "property": "C81",
   "status": "proved",
   "theorems": [
    "C81_csr_matvec",
    "C81_csc_matvec",
    "C81_csr_todense",
    "C81_csr_tocoo",
    "C81_expandptr",
    "C81_csr_tocsc",
    "C81_csc_tocsr",
    "C81_coo_tocsr",
    "C81_cs_graph_components"
   ],
   "note": "full statement proved (Props_frame.v)"
  },
  {
   "property": "C82",
   "status": "proved",
   "theorems": [
    "C82_csr_nnz",
    "C82_csc_nnz",
    "C82_coo_nnz",
    "C82_csr_positions",
    "C82_csc_positions",
    "C82_csc_prune"
   ],
   "note": "full statement proved (Props_ends.v)"
  },
  {
   "property": "C83",
   "status": "proved",
   "theorems": [
    "C83_row_kernels",
    "C83_col_coord_kernels",
    "C83_csr",
    "C83_csc",
    "C83_coo",
    "C83_dok",
    "C83_op_kernels",
    "C83_row_slice",
    "C83_row_slice_release",
    "C83_graph"
   ],
   "note": "that no run exhausts the fuel of the model's while loops. Strong components with repeated entries in a row are left open (no run of many random ones failed to end); the division kernel and csr_binop_csr under the condition that the operation itself returns (Props_ends.v)"
  },
  {
   "property": "C84",
   "status": "proved",
   "theorems": [
    "C84_index_add",
    "C84_index_sub",
    "C84_wraps_unique",
    "C84_usize_sub",
    "C84_usize_add",
    "C84_kernels",
    "C84_csr",
    "C84_csc",
    "C84_coo",
    "C84_dok",
    "C84_rest",
    "C84_row_slice",
    "C84_signed",
    "C84_complex",
    "C84_eigs"
   ],
   "note": "for each function of the model that adds or subtracts indices; the remaining ones have no such operation (Props_index.v, Props_release.v)"
  },
  {
   "property": "C85",
   "status": "proved",
   "theorems": [
    "C85_coo_overflow",
    "C85_from_dense",
    "C85_upper",
    "C85_v_stack",
    "C85_h_stack",
    "C85_v_stack_wrong",
    "C85_csr_has_sorted_indexes",
    "C85_csc_has_sorted_indexes",
    "C85_count_diagonals",
    "C85_row_slice",
    "C85_strong_empty",
    "C85_mat_mat_wrong",
    "C85_add_wrong"
   ],
   "note": "the loss of entries in products and sums is shown by witnesses with u8 indices (Props_release.v)"
  },
  {
   "property": "C86",
   "status": "proved",
   "theorems": [
    "C86_csr_mat_vec",
    "C86_csc_mat_vec",
    "C86_csr_to_dense",
    "C86_csr_diagonal",
    "C86_csc_diagonal",
    "C86_wf_readable",
    "C86_coo_to_dense",
    "C86_coo_to_csr",
    "C86_coo_to_csc",
    "C86_coo_to_csr_rows",
    "C86_coo_to_csc_cols",
    "C86_csr_to_coo",
    "C86_csc_to_coo",
    "C86_csr_prune",
    "C86_csc_prune",
    "C86_csr_to_csc_refuted"
   ],
   "note": "Coo::to_csr and to_csc for fewer entries than the largest index (Props_arrays.v)"
  },
  {
   "property": "C87",
   "status": "proved",
   "theorems": [
    "C87_complex_conj",
    "C87_complex_f64_refuted",
    "C87_moved",
    "C87_filled",
    "C87_summed",
    "C87_linear",
    "C87_tested",
    "C87_kernels",
    "C87_kernels_div",
    "C87_kernels_ord",
    "C87_text",
    "C87_program",
    "C87_look",
    "C87_conj_csr",
    "C87_conj_csc",
    "C87_wrap_refuted"
   ],
   "note": "C87_wrap_refuted shows that the condition on == cannot be dropped (Props_cring.v, Props_hom.v)"
  },
  {
   "property": "C88",
   "status": "proved",
   "theorems": [
    "C88_complex_ring",
    "C88_complex_wrap",
    "C88_history",
    "C88_look",
    "C88_wrap"
   ],
   "note": "machine integers are those of release builds, which wrap round; for checked builds see C89 (Props_cring.v, Props_hom.v)"
  },
  {
   "property": "C89",
   "status": "proved",
   "theorems": [
    "C89_kernels",
    "C89_comparisons",
    "C89_matrices",
    "C89_negation",
    "C89_int",
    "C89_plain",
    "C89_plain_same"
   ],
   "note": "full statement proved (Props_checked.v)"
  },
  {
   "property": "C90",
   "status": "proved",
   "theorems": [
    "C90_csr_mat_vec",
    "C90_csc_mat_vec",
    "C90_coo_to_dense",
    "C90_csr_to_dense",
    "C90_csc_to_dense",
    "C90_coo_diagonal",
    "C90_csr_diagonal",
    "C90_csc_diagonal",
    "C90_scale",
    "C90_negation",
    "C90_dok",
    "C90_int"
   ],
   "note": "full statement proved (Props_checked.v)"
  },
  {
   "property": "C91",
   "status": "proved",
   "theorems": [
    "C91_csr_sum_duplicates",
    "C91_csc_sum_duplicates",
    "C91_coo_to_csr",
    "C91_coo_to_csc",
    "C91_coo_add",
    "C91_csr_h_stack",
    "C91_csc_compose",
    "C91_dok_convert",
    "C91_kernels",
    "C91_csr_sums",
    "C91_csc_sums",
    "C91_csr_product",
    "C91_csc_product",
    "C91_mixed_product",
    "C91_int"
   ],
   "note": "full statement proved (Props_overflow.v)"
  },
  {
   "property": "C92",
   "status": "proved",
   "theorems": [
    "C92_csr_matvec",
    "C92_csc_matvec",
    "C92_coo_matvec",
    "C92_csr_matvecs",
    "C92_csc_matvecs",
    "C92_csr_todense",
    "C92_coo_todense",
    "C92_csr_kth_diagonal",
    "C92_csc_kth_diagonal",
    "C92_scale_rows",
    "C92_scale_columns",
    "C92_int"
   ],
   "note": "full statement proved (Props_buffer_overflow.v)"
  },
  {
   "property": "C93",
   "status": "proved",
   "theorems": [
    "C93_history",
    "C93_look",
    "C93_range",
    "C93_answers",
    "C93_unsigned",
    "C93_unsigned_look",
    "C93_signed_refuted"
   ],
   "note": "C93_signed_refuted shows that the condition for unsigned types does not suffice for signed ones (Props_program.v)"
  },
  {
   "property": "C94",
   "status": "proved",
   "theorems": [
    "C94_same",
    "C94_look_same",
    "C94_checked",
    "C94_checked_look",
    "C94_history",
    "C94_tables",
    "C94_look",
    "C94_wrap"
   ],
   "note": "full statement proved (Props_build.v)"
  },
  {
   "property": "C95",
   "status": "proved",
   "theorems": [
    "C95_csr_mat_vec",
    "C95_csc_mat_vec",
    "C95_csr_mat_mat",
    "C95_csc_mat_mat",
    "C95_coo_to_dense",
    "C95_csr_to_dense",
    "C95_csc_to_dense",
    "C95_coo_to_csr",
    "C95_coo_to_csc",
    "C95_csr_sum_duplicates",
    "C95_csc_sum_duplicates",
    "C95_coo_add",
    "C95_csr_add",
    "C95_csr_sub",
    "C95_csc_add",
    "C95_csc_subtract",
    "C95_f64",
    "C95_f32",
    "C95_f64_mat_vec"
   ],
   "note": "full statement proved (Props_round.v)"
  },
  {
   "property": "C96",
   "status": "proved",
   "theorems": [
    "C96_complex_csr_mat_vec",
    "C96_complex_csc_mat_vec",
    "C96_complex_csr_mat_mat",
    "C96_complex_csc_mat_mat",
    "C96_complex_coo_to_dense",
    "C96_complex_csr_to_dense",
    "C96_complex_csc_to_dense",
    "C96_complex_coo_to_csr",
    "C96_complex_coo_to_csc",
    "C96_complex_csr_sum_duplicates",
    "C96_complex_csc_sum_duplicates",
    "C96_complex_csr_add",
    "C96_complex_csr_sub",
    "C96_complex_csc_add",
    "C96_complex_csc_subtract",
    "C96_complex_coo_add",
    "C96_csr_mat_vec",
    "C96_csc_mat_vec",
    "C96_csr_mat_mat",
    "C96_csc_mat_mat",
    "C96_coo_to_dense",
    "C96_csr_to_dense",
    "C96_csc_to_dense",
    "C96_coo_to_csr",
    "C96_coo_to_csc",
    "C96_csr_sum_duplicates",
    "C96_csc_sum_duplicates",
    "C96_coo_add",
    "C96_csr_add",
    "C96_csr_sub",
    "C96_csc_add",
    "C96_csc_subtract",
    "C96_f64",
    "C96_f32",
    "C96_integers"
   ],
   "note": "full statement proved (Props_cexact.v, Props_exact.v)"
  },
  {
   "property": "C97",
   "status": "proved",
   "theorems": [
    "C97_complex_csr_mat_vec",
    "C97_complex_csc_mat_vec",
    "C97_complex_csr_mat_mat",
    "C97_complex_csc_mat_mat",
    "C97_complex_coo_to_dense",
    "C97_complex_csr_to_dense",
    "C97_complex_csc_to_dense",
    "C97_complex_coo_to_csr",
    "C97_complex_coo_to_csc",
    "C97_complex_csr_sum_duplicates",
    "C97_complex_csc_sum_duplicates",
    "C97_complex_coo_add",
    "C97_complex_csr_add",
    "C97_complex_csr_sub",
    "C97_complex_csc_add",
    "C97_complex_csc_subtract",
    "C97_csr_mat_vec",
    "C97_csc_mat_vec",
    "C97_csr_mat_mat",
    "C97_csc_mat_mat",
    "C97_coo_to_dense",
    "C97_csr_to_dense",
    "C97_csc_to_dense",
    "C97_coo_to_csr",
    "C97_coo_to_csc",
    "C97_csr_sum_duplicates",
    "C97_csc_sum_duplicates",
    "C97_coo_add",
    "C97_csr_add",
    "C97_csr_sub",
    "C97_csc_add",
    "C97_csc_subtract",
    "C97_f64",
    "C97_f32",
    "C97_f64_mat_vec",
    "C97_f64_mat_mat"
   ],
   "note": "full statement proved (Props_crange.v, Props_range.v)"
  },
  {
   "property": "C98",
   "status": "proved",
   "theorems": [
    "C98_csr_to_csc",
    "C98_csc_to_csr",
    "C98_csr_to_coo",
    "C98_csc_to_coo",
    "C98_csr_sort_indexes",
    "C98_csc_sort_indexes",
    "C98_mat_vec",
    "C98_coo_to_csr",
    "C98_coo_to_csc",
    "C98_csr_sum_duplicates",
    "C98_csc_sum_duplicates",
    "C98_mat_mat",
    "C98_add",
    "C98_sub",
    "C98_f64",
    "C98_f32",
    "C98_mat_mat_refuted",
    "C98_complex_zero",
    "C98_complex_mul",
    "C98_complex_f64",
    "C98_complex_f32",
    "C98_complex_f64_coo_to_csr",
    "C98_complex_f64_mat_mat"
   ],
   "note": "C98_mat_mat_refuted shows that the condition on the first factor is needed; NaN payloads are not modelled (Props_bits.v, Props_cbits.v)"
  },
  {
   "property": "C99",
   "status": "proved",
   "theorems": [
    "C99_csr_mat_vec",
    "C99_csc_mat_vec",
    "C99_csr_mat_mat",
    "C99_csc_mat_mat",
    "C99_coo_to_dense",
    "C99_csr_to_dense",
    "C99_csc_to_dense",
    "C99_coo_to_csr",
    "C99_coo_to_csc",
    "C99_csr_sum_duplicates",
    "C99_csc_sum_duplicates",
    "C99_coo_add",
    "C99_csr_add",
    "C99_csr_sub",
    "C99_csc_add",
    "C99_csc_subtract",
    "C99_f64_mat_vec"
   ],
   "note": "the formulas of num_complex, a dependency that is not in the repository, are assumed (Props_complex.v)"
  }
 ]
}
