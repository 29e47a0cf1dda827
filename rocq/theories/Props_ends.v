(** Counting and pruning, and termination: C82, C83. *)
From Coq Require Import String.
From Verif Require Import Rust Scalar Model_kernels Model_matrix Model_graph Model_dok Model_text Spec SpecMore SpecGraph Wp Check Main_ends.

(** C82: nnz() is the number of stored entries; if no position is stored twice, the number of occupied positions.
    prune() drops the unused capacity and nothing else. (The dictionary's count is C33_nnz.) *)
Section Count.
Context {T : Type} {SC : Scalar T}.
Variable I : ity.
Theorem C82_csr_nnz : forall m : CSR T, wf_csr I m -> CSR_nnz m = Ok (length (csr_entries m)).
Proof. exact (c82_csr_nnz I). Qed.
Theorem C82_csc_nnz : forall m : CSC T, wf_csc I m -> CSC_nnz m = Ok (length (csc_entries m)).
Proof. exact (c82_csc_nnz I). Qed.
Theorem C82_coo_nnz : forall m : Coo T, wf_coo I m -> Coo_nnz m = length (coo_entries m).
Proof. exact (c82_coo_nnz I). Qed.
Theorem C82_csr_positions : forall m : CSR T, wf_csr I m -> csr_nodup m ->
  CSR_nnz m = Ok (length (filter (fun q => occupied (csr_at m (fst q) (snd q))) (list_prod (seq 0 (csr_rows m)) (seq 0 (csr_cols m))))).
Proof. exact (c82_csr_positions I). Qed.
Theorem C82_csc_positions : forall m : CSC T, wf_csc I m -> csc_nodup m ->
  CSC_nnz m = Ok (length (filter (fun q => occupied (csc_at m (snd q) (fst q))) (list_prod (seq 0 (csc_cols m)) (seq 0 (csc_rows m))))).
Proof. exact (c82_csc_positions I). Qed.
Theorem C82_csc_prune : forall m : CSC T, wf_csc I m -> exists r, CSC_prune m = Ok r /\ wf_csc I r /\ csc_tight r /\ csc_rows r = csc_rows m /\ csc_cols r = csc_cols m /\
  (forall j, j < csc_cols m -> csc_col r j = csc_col m j) /\ (csc_tight m -> r = m).
Proof. exact (c82_csc_prune I). Qed.
End Count.

(** C83: every call comes to an end, whatever the arguments: the arrays need not be those of a matrix (pointers may
    decrease or point outside, indices may be out of range, lengths may disagree). The arguments n are sizes, p index arrays,
    x value arrays. *)
Section Ends.
Context {T : Type} {SC : Scalar T} {SO : ScalarOrd T}.
Variable I : ity.
Variable b : Build.
Theorem C83_row_kernels : forall (i1 i2 i3 i4 : Z) (n1 n2 n3 : nat) (p1 p2 p3 p4 p5 p6 : list Z) (x1 x2 x3 : list T) (m1 : list (list T)) (w1 : list bool) (l1 : list nat),
  ends (csr_diagonal (BD:=b) i1 n1 n2 p1 p2 x1 x2) /\ ends (csr_scale_rows n1 n2 p1 p2 x1 x2) /\
  ends (csr_scale_columns n1 n2 p1 p2 x1 x2) /\ ends (csr_todense n1 n2 p1 p2 x1 m1) /\
  ends (csr_has_sorted_indices (BD:=b) I n1 p1 p2) /\ ends (csr_has_canonical_format (BD:=b) I n1 p1 p2) /\
  ends (csr_sort_indices (BD:=b) n1 p1 p2 x1) /\ ends (csr_tocsc (BD:=b) I n1 n2 p1 p2 x1 p3 p4 x2) /\
  ends (csr_matmat_maxnnz n1 n2 p1 p2 p3 p4) /\ ends (csr_matmat (BD:=b) I n1 n2 p1 p2 x1 p3 p4 x2 p5 p6 x3) /\
  ends (csr_ne_csr (BD:=b) I n1 n2 p1 p2 x1 p3 p4 x2 p5 p6 w1) /\ ends (csr_eq_csr (BD:=b) I n1 n2 p1 p2 x1 p3 p4 x2 p5 p6 w1) /\
  ends (csr_mul_csr (BD:=b) I n1 n2 p1 p2 x1 p3 p4 x2 p5 p6 x3) /\ ends (csr_add_csr (BD:=b) I n1 n2 p1 p2 x1 p3 p4 x2 p5 p6 x3) /\
  ends (csr_sub_csr (BD:=b) I n1 n2 p1 p2 x1 p3 p4 x2 p5 p6 x3) /\ ends (csr_lt_csr (BD:=b) I n1 n2 p1 p2 x1 p3 p4 x2 p5 p6 w1) /\
  ends (csr_le_csr (BD:=b) I n1 n2 p1 p2 x1 p3 p4 x2 p5 p6 w1) /\ ends (csr_gt_csr (BD:=b) I n1 n2 p1 p2 x1 p3 p4 x2 p5 p6 w1) /\
  ends (csr_ge_csr (BD:=b) I n1 n2 p1 p2 x1 p3 p4 x2 p5 p6 w1) /\ ends (csr_max_csr (BD:=b) I n1 n2 p1 p2 x1 p3 p4 x2 p5 p6 x3) /\
  ends (csr_min_csr (BD:=b) I n1 n2 p1 p2 x1 p3 p4 x2 p5 p6 x3) /\ ends (csr_sum_duplicates I n1 n2 p1 p2 x1) /\
  ends (csr_eliminate_zeros I n1 n2 p1 p2 x1) /\ ends (csr_matvec n1 n2 p1 p2 x1 x2 x3) /\
  ends (csr_matvecs n1 n2 n3 p1 p2 x1 x2 x3) /\ ends (csr_select I n1 n2 p1 p2 x1 p3 p4 p5 p6 x2) /\
  ends (csr_row_index n1 l1 p1 p2 x1 p3 x2) /\ ends (csr_column_index1 (BD:=b) I n1 l1 n2 n3 p1 p2 p3 p4) /\
  ends (csr_column_index2 p1 p2 n1 p3 x1 p4 x2) /\ ends (csr_count_diagonals (BD:=b) n1 p1 p2) /\
  ends (csr_tocoo I n1 n2 p1 p2 x1 p3 p4 x2) /\ ends (get_csr_submatrix (BD:=b) I n1 n2 p1 p2 x1 i1 i2 i3 i4 p3 p4 x2) /\
  ends (expandptr I n1 p1 p2).
Proof. exact (c83_row_kernels I b). Qed.
Theorem C83_col_coord_kernels : forall (n1 n2 n3 : nat) (p1 p2 p3 p4 p5 p6 : list Z) (x1 x2 x3 : list T) (f1 : bool) (i1 : Z),
  ends (coo_tocsr (BD:=b) I n1 n2 n3 p1 p2 x1 p3 p4 x2) /\ ends (coo_todense n1 n2 n3 p1 p2 x1 x2 f1) /\
  ends (coo_matvec n1 p1 p2 x1 x2 x3) /\ ends (csc_matvec n1 n2 p1 p2 x1 x2 x3) /\
  ends (csc_matvecs n1 n2 n3 p1 p2 x1 x2 x3) /\ ends (csc_diagonal (BD:=b) i1 n1 n2 p1 p2 x1 x2) /\
  ends (csc_tocsr (BD:=b) I n1 n2 p1 p2 x1 p3 p4 x2) /\ ends (csc_matmat_maxnnz n1 n2 p1 p2 p3 p4) /\
  ends (csc_matmat (BD:=b) I n1 n2 p1 p2 x1 p3 p4 x2 p5 p6 x3).
Proof. exact (c83_col_coord_kernels I b). Qed.
Theorem C83_csr : forall (a1 a2 : CSR T) (m1 : list (list T)) (x1 : list T) (o1 o2 : option (list Z)) (i1 i2 : Z) (F : ity) (show : T -> string),
  ends (CSR_has_canonical_format (BD:=b) I a1) /\ ends (CSR_has_sorted_indexes (BD:=b) I a1) /\ ends (CSR_sort_indexes (BD:=b) a1) /\
  ends (CSR_sum_duplicates (BD:=b) I a1) /\ ends (CSR_to_coo I a1) /\ ends (CSR_to_csc (BD:=b) I a1) /\ ends (CSR_to_dense a1) /\
  ends (CSR_from_dense (BD:=b) I m1) /\ ends (CSR_with_diagonal I x1) /\ ends (CSR_diagonal (BD:=b) a1) /\
  ends (CSR_h_stack (BD:=b) I a1 a2) /\ ends (CSR_mat_vec a1 x1) /\ ends (CSR_mat_mat (BD:=b) I a1 a2) /\
  ends (CSR_select (BD:=b) I a1 o1 o2) /\ ends (CSR_get a1 i1 i2) /\ ends (CSR_add (BD:=b) I a1 a2) /\ ends (CSR_sub (BD:=b) I a1 a2) /\
  ends (CSR_mul (BD:=b) I a1 a2) /\ ends (CSR_connected_components (BD:=b) I F a1) /\ ends (CSR_to_string show a1).
Proof. exact (c83_csr I b). Qed.
Theorem C83_csc : forall (b1 b2 b3 b4 : CSC T) (m1 : list (list T)) (x1 : list T) (o1 o2 : option (list Z)) (a1 : CSR T) (show : T -> string),
  ends (CSC_has_canonical_format (BD:=b) I b1) /\ ends (CSC_has_sorted_indexes (BD:=b) I b1) /\ ends (CSC_sort_indexes (BD:=b) b1) /\
  ends (CSC_sum_duplicates (BD:=b) I b1) /\ ends (CSC_to_csr (BD:=b) I b1) /\ ends (CSC_to_coo (BD:=b) I b1) /\ ends (CSC_to_dense (BD:=b) I b1) /\
  ends (CSC_from_dense (BD:=b) I m1) /\ ends (CSC_with_diagonal I x1) /\ ends (CSC_diagonal (BD:=b) b1) /\
  ends (CSC_compose (BD:=b) I b1 b2 b3 b4) /\ ends (CSC_mat_vec b1 x1) /\ ends (CSC_mat_mat (BD:=b) I b1 b2) /\
  ends (CSC_select (BD:=b) I b1 o1 o2) /\ ends (CSC_add (BD:=b) I b1 b2) /\ ends (CSC_subtract (BD:=b) I b1 b2) /\
  ends (CSC_op_add (BD:=b) I b1 b2) /\ ends (CSC_op_sub (BD:=b) I b1 b2) /\ ends (CSC_mul (BD:=b) I b1 b2) /\ ends (CSC_mul_csr (BD:=b) I b1 a1) /\
  ends (CSC_to_string show b1).
Proof. exact (c83_csc I b). Qed.
Theorem C83_coo : forall (c1 c2 c3 c4 c5 c6 c7 c8 c9 : Coo T) (m1 : list (list T)) (x1 : list T) (i1 : Z) (show : T -> string),
  ends (Coo_to_csc (BD:=b) I c1) /\ ends (Coo_to_csr (BD:=b) I c1) /\ ends (Coo_to_dense c1) /\ ends (Coo_from_dense I m1) /\
  ends (Coo_with_diagonal I x1) /\ ends (Coo_upper (BD:=b) I c1 i1) /\ ends (Coo_diagonal c1) /\
  ends (Coo_v_stack (BD:=b) I c1 c2) /\ ends (Coo_v_stack3 (BD:=b) I c1 c2 c3) /\ ends (Coo_h_stack (BD:=b) I c1 c2) /\
  ends (Coo_h_stack3 (BD:=b) I c1 c2 c3) /\ ends (Coo_compose (BD:=b) I c1 c2 c3 c4) /\
  ends (Coo_compose3 (BD:=b) I c1 c2 c3 c4 c5 c6 c7 c8 c9) /\ ends (Coo_add (BD:=b) I c1 c2) /\ ends (Coo_to_string show c1).
Proof. exact (c83_coo I b). Qed.
Theorem C83_dok : forall (m1 : list (list T)) (d : DoK T) (order : list (Z * Z * T)) (show : T -> string),
  ends (DoK_from_dense I m1) /\ ends (DoK_to_dense d order) /\ ends (DoK_to_coo d order) /\
  ends (DoK_to_csc (BD:=b) I d order) /\ ends (DoK_to_csr (BD:=b) I d order) /\ ends (DoK_to_string show order).
Proof. exact (c83_dok I b). Qed.
(** the kernels that call a function of the caller's, or the division of the scalar type *)
Theorem C83_op_kernels : forall {T2} {NZ : Nonzero T2} (op : T -> T -> res T2) (n1 n2 : nat) (p1 p2 p3 p4 p5 p6 : list Z) (x1 x2 : list T) (w1 : list T2) (x3 : list T),
  ((forall u v, ends (op u v)) -> ends (csr_binop_csr (BD:=b) I op n1 n2 p1 p2 x1 p3 p4 x2 p5 p6 w1)) /\
  ((forall u v : T, ends (sdiv u v)) -> ends (csr_div_csr (BD:=b) I n1 n2 p1 p2 x1 p3 p4 x2 p5 p6 x3)).
Proof. exact (@c83_op_kernels T SC I b). Qed.
(** slices with a positive step; with step 0 the call runs forever (C40) *)
Theorem C83_row_slice : forall fuel start stop step (p j : list Z) (x : list T) bj bx, 0 < step -> stop - start < fuel -> ends (csr_row_slice (BD:=Debug) fuel start stop step p j x bj bx).
Proof. exact c83_row_slice. Qed.
Theorem C83_row_slice_release : forall fuel start stop step (p j : list Z) (x : list T) bj bx, 0 < step -> (Z.of_nat step <= imax Usize)%Z -> (Z.of_nat (length p) <= 2 ^ 63)%Z -> stop + start + 1 < fuel ->
  ends (csr_row_slice (BD:=Release) fuel start stop step p j x bj bx).
Proof. exact c83_row_slice_release. Qed.
(** the graph functions; for strong components only if no row stores a column twice *)
Theorem C83_graph : forall F n p j flag (g : CSR T) s (directed : bool) conn,
  ends (cs_graph_components (BD:=b) I F n p j flag) /\ ends (depth_first_order (BD:=b) I g s directed) /\
  (directed = false \/ conn = Weak -> ends (connected_components (BD:=b) I g directed conn)) /\
  (wf_csr I g -> csr_nodup g -> ends (connected_components (BD:=b) I g directed conn)).
Proof. exact (c83_graph I b). Qed.
End Ends.

(** three entries in a column-wise matrix with two elements of unused capacity, two of them at one position *)
Definition ex_cap : CSC Z := mkCSC 3 2 [2; 0; 2; 9; 9]%Z [0; 1; 3]%Z [5; 6; 7; 8; 8]%Z.
Example C82_ex : wf_csc I8 ex_cap /\ csc_nodup ex_cap /\ CSC_nnz ex_cap = Ok 3 /\ CSC_prune ex_cap = Ok (mkCSC 3 2 [2; 0; 2]%Z [0; 1; 3]%Z [5; 6; 7]%Z).
Proof. split; [check|]. split; [check|]. split; reflexivity. Qed.
Example C82_csr_ex : wf_csr I8 (mkCSR 2 3 [0; 2; 3]%Z [1; 1; 0]%Z [4; 5; 6]%Z) /\ CSR_nnz (mkCSR 2 3 [0; 2; 3]%Z [1; 1; 0]%Z [4; 5; 6]%Z) = Ok 3.
Proof. split; [check|reflexivity]. Qed.
(** arrays that are no matrix: pointers that decrease, indices out of order and out of range *)
Example C83_ex : csr_sum_duplicates I32 3 2 [2; 4; 1; 4]%Z [7; 7; 0; 0]%Z [1; 2; 3; 4]%Z = Ok ([2; 2; 2; 3], [7; 0; 0; 0], [3; 7; 14; 4])%Z /\
  csr_add_csr I32 2 2 [1; 0; 3]%Z [5; 0; 1]%Z [1; 2; 3]%Z [0; 1; 2]%Z [1; 1]%Z [1; 1]%Z [0; 0; 0]%Z [0; 0; 0; 0]%Z [0; 0; 0; 0]%Z = Panic /\
  connected_components I32 (mkCSR 2 2 [0; 3; 3]%Z [1; 1; 0]%Z [1; 1; 1]%Z) false Weak = Ok (1, [0; 0]) /\
  depth_first_order I32 (mkCSR 2 2 [0; 3; 1]%Z [1; 1; 0]%Z [1; 1; 1]%Z) 0 true = Ok ([0; 1], [None; Some 0]).
Proof. repeat split; vm_compute; reflexivity. Qed.

Print Assumptions C82_csr_nnz.
Print Assumptions C82_csc_nnz.
Print Assumptions C82_coo_nnz.
Print Assumptions C82_csr_positions.
Print Assumptions C82_csc_positions.
Print Assumptions C82_csc_prune.
Print Assumptions C83_row_kernels.
Print Assumptions C83_col_coord_kernels.
Print Assumptions C83_csr.
Print Assumptions C83_csc.
Print Assumptions C83_coo.
Print Assumptions C83_dok.
Print Assumptions C83_op_kernels.
Print Assumptions C83_row_slice.
Print Assumptions C83_row_slice_release.
Print Assumptions C83_graph.
