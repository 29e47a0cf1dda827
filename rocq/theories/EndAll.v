(** No function runs out of fuel, whatever its arguments: one lemma per function that does not have its own in
   EndProofs.v.  The loops are counted ones; the others were treated there. *)
From Verif Require Import Rust Scalar Model_kernels Model_matrix Model_graph Model_dok Model_text SpecMore EndProofs.
Create HintDb ends discriminated.
#[export] Hint Constants Opaque : ends.
#[export] Hint Transparent scc_state dfs_state : ends.
#[export] Hint Resolve ends_canonical_format ends_sum_duplicates ends_eliminate_zeros ends_cc_undirected ends_cs_graph_components ends_dfs_directed ends_dfs_undirected ends_node_unwrap : ends.
Ltac eall f := intros; unfold f; repeat first [en1 | match goal with |- ends (match ?x with _ => _ end _) => destruct x end | solve [auto with ends] | apply ends_binop; intros].
Lemma ends_vinc (bd : Build) (I : ity) (z1 : list Z) (k1 : nat) (i1 : Z) : ends (@vinc bd I z1 k1 i1).
Proof. eall @vinc. Qed.
#[export] Hint Resolve ends_vinc : ends.
Lemma ends_vaddto {T : Type} {_ : Scalar T} (x1 : list T) (k1 : nat) (s1 : T) : ends (@vaddto T _ x1 k1 s1).
Proof. eall @vaddto. Qed.
#[export] Hint Resolve ends_vaddto : ends.
Lemma ends_axpy {T : Type} {_ : Scalar T} (k1 : nat) (s1 : T) (x1 : list T) (k2 : nat) (x2 : list T) (k3 : nat) : ends (@axpy T _ k1 s1 x1 k2 x2 k3).
Proof. eall @axpy. Qed.
#[export] Hint Resolve ends_axpy : ends.
Lemma ends_csr_diagonal (bd : Build) {T : Type} {_ : Scalar T} (i1 : Z) (k1 : nat) (k2 : nat) (z1 : list Z) (z2 : list Z) (x1 : list T) (x2 : list T) : ends (@csr_diagonal bd T _ i1 k1 k2 z1 z2 x1 x2).
Proof. eall @csr_diagonal. Qed.
#[export] Hint Resolve ends_csr_diagonal : ends.
Lemma ends_expandptr (I : ity) (k1 : nat) (z1 : list Z) (z2 : list Z) : ends (@expandptr I k1 z1 z2).
Proof. eall @expandptr. Qed.
#[export] Hint Resolve ends_expandptr : ends.
Lemma ends_csr_scale_rows {T : Type} {_ : Scalar T} (k1 : nat) (k2 : nat) (z1 : list Z) (z2 : list Z) (x1 : list T) (x2 : list T) : ends (@csr_scale_rows T _ k1 k2 z1 z2 x1 x2).
Proof. eall @csr_scale_rows. Qed.
#[export] Hint Resolve ends_csr_scale_rows : ends.
Lemma ends_csr_scale_columns {T : Type} {_ : Scalar T} (k1 : nat) (k2 : nat) (z1 : list Z) (z2 : list Z) (x1 : list T) (x2 : list T) : ends (@csr_scale_columns T _ k1 k2 z1 z2 x1 x2).
Proof. eall @csr_scale_columns. Qed.
#[export] Hint Resolve ends_csr_scale_columns : ends.
Lemma ends_csr_todense {T : Type} {_ : Scalar T} (k1 : nat) (k2 : nat) (z1 : list Z) (z2 : list Z) (x1 : list T) (m1 : list (list T)) : ends (@csr_todense T _ k1 k2 z1 z2 x1 m1).
Proof. eall @csr_todense. Qed.
#[export] Hint Resolve ends_csr_todense : ends.
Lemma ends_csr_has_sorted_indices (bd : Build) (I : ity) (k1 : nat) (z1 : list Z) (z2 : list Z) : ends (@csr_has_sorted_indices bd I k1 z1 z2).
Proof. eall @csr_has_sorted_indices. Qed.
#[export] Hint Resolve ends_csr_has_sorted_indices : ends.
Lemma ends_csr_sort_indices (bd : Build) {T : Type} {_ : Scalar T} (k1 : nat) (z1 : list Z) (z2 : list Z) (x1 : list T) : ends (@csr_sort_indices bd T _ k1 z1 z2 x1).
Proof. eall @csr_sort_indices. Qed.
#[export] Hint Resolve ends_csr_sort_indices : ends.
Lemma ends_csr_tocsc (bd : Build) {T : Type} (I : ity) (k1 : nat) (k2 : nat) (z1 : list Z) (z2 : list Z) (x1 : list T) (z3 : list Z) (z4 : list Z) (x2 : list T) : ends (@csr_tocsc bd T I k1 k2 z1 z2 x1 z3 z4 x2).
Proof. eall @csr_tocsc. Qed.
#[export] Hint Resolve ends_csr_tocsc : ends.
Lemma ends_csr_matmat_maxnnz (k1 : nat) (k2 : nat) (z1 : list Z) (z2 : list Z) (z3 : list Z) (z4 : list Z) : ends (@csr_matmat_maxnnz k1 k2 z1 z2 z3 z4).
Proof. eall @csr_matmat_maxnnz. Qed.
#[export] Hint Resolve ends_csr_matmat_maxnnz : ends.
Lemma ends_csr_matmat (bd : Build) {T : Type} {_ : Scalar T} (I : ity) (k1 : nat) (k2 : nat) (z1 : list Z) (z2 : list Z) (x1 : list T) (z3 : list Z) (z4 : list Z) (x2 : list T) (z5 : list Z) (z6 : list Z) (x3 : list T) : ends (@csr_matmat bd T _ I k1 k2 z1 z2 x1 z3 z4 x2 z5 z6 x3).
Proof. eall @csr_matmat. Qed.
#[export] Hint Resolve ends_csr_matmat : ends.
Lemma ends_csr_ne_csr (bd : Build) {T : Type} {_ : Scalar T} (I : ity) (k1 : nat) (k2 : nat) (z1 : list Z) (z2 : list Z) (x1 : list T) (z3 : list Z) (z4 : list Z) (x2 : list T) (z5 : list Z) (z6 : list Z) (w1 : list bool) : ends (@csr_ne_csr bd T _ I k1 k2 z1 z2 x1 z3 z4 x2 z5 z6 w1).
Proof. eall @csr_ne_csr. Qed.
#[export] Hint Resolve ends_csr_ne_csr : ends.
Lemma ends_csr_eq_csr (bd : Build) {T : Type} {_ : Scalar T} (I : ity) (k1 : nat) (k2 : nat) (z1 : list Z) (z2 : list Z) (x1 : list T) (z3 : list Z) (z4 : list Z) (x2 : list T) (z5 : list Z) (z6 : list Z) (w1 : list bool) : ends (@csr_eq_csr bd T _ I k1 k2 z1 z2 x1 z3 z4 x2 z5 z6 w1).
Proof. eall @csr_eq_csr. Qed.
#[export] Hint Resolve ends_csr_eq_csr : ends.
Lemma ends_csr_mul_csr (bd : Build) {T : Type} {_ : Scalar T} (I : ity) (k1 : nat) (k2 : nat) (z1 : list Z) (z2 : list Z) (x1 : list T) (z3 : list Z) (z4 : list Z) (x2 : list T) (z5 : list Z) (z6 : list Z) (x3 : list T) : ends (@csr_mul_csr bd T _ I k1 k2 z1 z2 x1 z3 z4 x2 z5 z6 x3).
Proof. eall @csr_mul_csr. Qed.
#[export] Hint Resolve ends_csr_mul_csr : ends.
Lemma ends_csr_div_csr (bd : Build) {T : Type} {_ : Scalar T} (I : ity) (k1 : nat) (k2 : nat) (z1 : list Z) (z2 : list Z) (x1 : list T) (z3 : list Z) (z4 : list Z) (x2 : list T) (z5 : list Z) (z6 : list Z) (x3 : list T) : (forall u v : T, ends (sdiv u v)) -> ends (@csr_div_csr bd T _ I k1 k2 z1 z2 x1 z3 z4 x2 z5 z6 x3).
Proof. eall @csr_div_csr. Qed.
#[export] Hint Resolve ends_csr_div_csr : ends.
Lemma ends_csr_add_csr (bd : Build) {T : Type} {_ : Scalar T} (I : ity) (k1 : nat) (k2 : nat) (z1 : list Z) (z2 : list Z) (x1 : list T) (z3 : list Z) (z4 : list Z) (x2 : list T) (z5 : list Z) (z6 : list Z) (x3 : list T) : ends (@csr_add_csr bd T _ I k1 k2 z1 z2 x1 z3 z4 x2 z5 z6 x3).
Proof. eall @csr_add_csr. Qed.
#[export] Hint Resolve ends_csr_add_csr : ends.
Lemma ends_csr_sub_csr (bd : Build) {T : Type} {_ : Scalar T} (I : ity) (k1 : nat) (k2 : nat) (z1 : list Z) (z2 : list Z) (x1 : list T) (z3 : list Z) (z4 : list Z) (x2 : list T) (z5 : list Z) (z6 : list Z) (x3 : list T) : ends (@csr_sub_csr bd T _ I k1 k2 z1 z2 x1 z3 z4 x2 z5 z6 x3).
Proof. eall @csr_sub_csr. Qed.
#[export] Hint Resolve ends_csr_sub_csr : ends.
Lemma ends_csr_lt_csr (bd : Build) {T : Type} {_ : Scalar T} {_ : ScalarOrd T} (I : ity) (k1 : nat) (k2 : nat) (z1 : list Z) (z2 : list Z) (x1 : list T) (z3 : list Z) (z4 : list Z) (x2 : list T) (z5 : list Z) (z6 : list Z) (w1 : list bool) : ends (@csr_lt_csr bd T _ I _ k1 k2 z1 z2 x1 z3 z4 x2 z5 z6 w1).
Proof. eall @csr_lt_csr. Qed.
#[export] Hint Resolve ends_csr_lt_csr : ends.
Lemma ends_csr_le_csr (bd : Build) {T : Type} {_ : Scalar T} {_ : ScalarOrd T} (I : ity) (k1 : nat) (k2 : nat) (z1 : list Z) (z2 : list Z) (x1 : list T) (z3 : list Z) (z4 : list Z) (x2 : list T) (z5 : list Z) (z6 : list Z) (w1 : list bool) : ends (@csr_le_csr bd T _ I _ k1 k2 z1 z2 x1 z3 z4 x2 z5 z6 w1).
Proof. eall @csr_le_csr. Qed.
#[export] Hint Resolve ends_csr_le_csr : ends.
Lemma ends_csr_gt_csr (bd : Build) {T : Type} {_ : Scalar T} {_ : ScalarOrd T} (I : ity) (k1 : nat) (k2 : nat) (z1 : list Z) (z2 : list Z) (x1 : list T) (z3 : list Z) (z4 : list Z) (x2 : list T) (z5 : list Z) (z6 : list Z) (w1 : list bool) : ends (@csr_gt_csr bd T _ I _ k1 k2 z1 z2 x1 z3 z4 x2 z5 z6 w1).
Proof. eall @csr_gt_csr. Qed.
#[export] Hint Resolve ends_csr_gt_csr : ends.
Lemma ends_csr_ge_csr (bd : Build) {T : Type} {_ : Scalar T} {_ : ScalarOrd T} (I : ity) (k1 : nat) (k2 : nat) (z1 : list Z) (z2 : list Z) (x1 : list T) (z3 : list Z) (z4 : list Z) (x2 : list T) (z5 : list Z) (z6 : list Z) (w1 : list bool) : ends (@csr_ge_csr bd T _ I _ k1 k2 z1 z2 x1 z3 z4 x2 z5 z6 w1).
Proof. eall @csr_ge_csr. Qed.
#[export] Hint Resolve ends_csr_ge_csr : ends.
Lemma ends_csr_max_csr (bd : Build) {T : Type} {_ : Scalar T} {_ : ScalarOrd T} (I : ity) (k1 : nat) (k2 : nat) (z1 : list Z) (z2 : list Z) (x1 : list T) (z3 : list Z) (z4 : list Z) (x2 : list T) (z5 : list Z) (z6 : list Z) (x3 : list T) : ends (@csr_max_csr bd T _ I _ k1 k2 z1 z2 x1 z3 z4 x2 z5 z6 x3).
Proof. eall @csr_max_csr. Qed.
#[export] Hint Resolve ends_csr_max_csr : ends.
Lemma ends_csr_min_csr (bd : Build) {T : Type} {_ : Scalar T} {_ : ScalarOrd T} (I : ity) (k1 : nat) (k2 : nat) (z1 : list Z) (z2 : list Z) (x1 : list T) (z3 : list Z) (z4 : list Z) (x2 : list T) (z5 : list Z) (z6 : list Z) (x3 : list T) : ends (@csr_min_csr bd T _ I _ k1 k2 z1 z2 x1 z3 z4 x2 z5 z6 x3).
Proof. eall @csr_min_csr. Qed.
#[export] Hint Resolve ends_csr_min_csr : ends.
Lemma ends_csr_matvec {T : Type} {_ : Scalar T} (k1 : nat) (k2 : nat) (z1 : list Z) (z2 : list Z) (x1 : list T) (x2 : list T) (x3 : list T) : ends (@csr_matvec T _ k1 k2 z1 z2 x1 x2 x3).
Proof. eall @csr_matvec. Qed.
#[export] Hint Resolve ends_csr_matvec : ends.
Lemma ends_csr_matvecs {T : Type} {_ : Scalar T} (k1 : nat) (k2 : nat) (k3 : nat) (z1 : list Z) (z2 : list Z) (x1 : list T) (x2 : list T) (x3 : list T) : ends (@csr_matvecs T _ k1 k2 k3 z1 z2 x1 x2 x3).
Proof. eall @csr_matvecs. Qed.
#[export] Hint Resolve ends_csr_matvecs : ends.
Lemma ends_row_colptrs (z1 : list Z) (k1 : nat) (k2 : nat) : ends (@row_colptrs z1 k1 k2).
Proof. eall @row_colptrs. Qed.
#[export] Hint Resolve ends_row_colptrs : ends.
Lemma ends_csr_select {T : Type} {_ : Scalar T} (I : ity) (k1 : nat) (k2 : nat) (z1 : list Z) (z2 : list Z) (x1 : list T) (z3 : list Z) (z4 : list Z) (z5 : list Z) (z6 : list Z) (x2 : list T) : ends (@csr_select T _ I k1 k2 z1 z2 x1 z3 z4 z5 z6 x2).
Proof. eall @csr_select. Qed.
#[export] Hint Resolve ends_csr_select : ends.
Lemma ends_get_csr_submatrix (bd : Build) {T : Type} {_ : Scalar T} (I : ity) (k1 : nat) (k2 : nat) (z1 : list Z) (z2 : list Z) (x1 : list T) (i1 : Z) (i2 : Z) (i3 : Z) (i4 : Z) (z3 : list Z) (z4 : list Z) (x2 : list T) : ends (@get_csr_submatrix bd T _ I k1 k2 z1 z2 x1 i1 i2 i3 i4 z3 z4 x2).
Proof. eall @get_csr_submatrix. Qed.
#[export] Hint Resolve ends_get_csr_submatrix : ends.
Lemma ends_csr_row_index {T : Type} (k1 : nat) (l1 : list nat) (z1 : list Z) (z2 : list Z) (x1 : list T) (z3 : list Z) (x2 : list T) : ends (@csr_row_index T k1 l1 z1 z2 x1 z3 x2).
Proof. eall @csr_row_index. Qed.
#[export] Hint Resolve ends_csr_row_index : ends.
Lemma ends_csr_column_index1 (bd : Build) (I : ity) (k1 : nat) (l1 : list nat) (k2 : nat) (k3 : nat) (z1 : list Z) (z2 : list Z) (z3 : list Z) (z4 : list Z) : ends (@csr_column_index1 bd I k1 l1 k2 k3 z1 z2 z3 z4).
Proof. eall @csr_column_index1. Qed.
#[export] Hint Resolve ends_csr_column_index1 : ends.
Lemma ends_csr_column_index2 {T : Type} (z1 : list Z) (z2 : list Z) (k1 : nat) (z3 : list Z) (x1 : list T) (z4 : list Z) (x2 : list T) : ends (@csr_column_index2 T z1 z2 k1 z3 x1 z4 x2).
Proof. eall @csr_column_index2. Qed.
#[export] Hint Resolve ends_csr_column_index2 : ends.
Lemma ends_csr_count_diagonals (bd : Build) (k1 : nat) (z1 : list Z) (z2 : list Z) : ends (@csr_count_diagonals bd k1 z1 z2).
Proof. eall @csr_count_diagonals. Qed.
#[export] Hint Resolve ends_csr_count_diagonals : ends.
Lemma ends_csr_tocoo {T : Type} (I : ity) (k1 : nat) (k2 : nat) (z1 : list Z) (z2 : list Z) (x1 : list T) (z3 : list Z) (z4 : list Z) (x2 : list T) : ends (@csr_tocoo T I k1 k2 z1 z2 x1 z3 z4 x2).
Proof. eall @csr_tocoo. Qed.
#[export] Hint Resolve ends_csr_tocoo : ends.
Lemma ends_coo_tocsr (bd : Build) {T : Type} (I : ity) (k1 : nat) (k2 : nat) (k3 : nat) (z1 : list Z) (z2 : list Z) (x1 : list T) (z3 : list Z) (z4 : list Z) (x2 : list T) : ends (@coo_tocsr bd T I k1 k2 k3 z1 z2 x1 z3 z4 x2).
Proof. eall @coo_tocsr. Qed.
#[export] Hint Resolve ends_coo_tocsr : ends.
Lemma ends_coo_todense {T : Type} {_ : Scalar T} (k1 : nat) (k2 : nat) (k3 : nat) (z1 : list Z) (z2 : list Z) (x1 : list T) (x2 : list T) (f1 : bool) : ends (@coo_todense T _ k1 k2 k3 z1 z2 x1 x2 f1).
Proof. eall @coo_todense. Qed.
#[export] Hint Resolve ends_coo_todense : ends.
Lemma ends_coo_matvec {T : Type} {_ : Scalar T} (k1 : nat) (z1 : list Z) (z2 : list Z) (x1 : list T) (x2 : list T) (x3 : list T) : ends (@coo_matvec T _ k1 z1 z2 x1 x2 x3).
Proof. eall @coo_matvec. Qed.
#[export] Hint Resolve ends_coo_matvec : ends.
Lemma ends_csc_matvec {T : Type} {_ : Scalar T} (k1 : nat) (k2 : nat) (z1 : list Z) (z2 : list Z) (x1 : list T) (x2 : list T) (x3 : list T) : ends (@csc_matvec T _ k1 k2 z1 z2 x1 x2 x3).
Proof. eall @csc_matvec. Qed.
#[export] Hint Resolve ends_csc_matvec : ends.
Lemma ends_csc_matvecs {T : Type} {_ : Scalar T} (k1 : nat) (k2 : nat) (k3 : nat) (z1 : list Z) (z2 : list Z) (x1 : list T) (x2 : list T) (x3 : list T) : ends (@csc_matvecs T _ k1 k2 k3 z1 z2 x1 x2 x3).
Proof. eall @csc_matvecs. Qed.
#[export] Hint Resolve ends_csc_matvecs : ends.
Lemma ends_csc_diagonal (bd : Build) {T : Type} {_ : Scalar T} (i1 : Z) (k1 : nat) (k2 : nat) (z1 : list Z) (z2 : list Z) (x1 : list T) (x2 : list T) : ends (@csc_diagonal bd T _ i1 k1 k2 z1 z2 x1 x2).
Proof. eall @csc_diagonal. Qed.
#[export] Hint Resolve ends_csc_diagonal : ends.
Lemma ends_csc_tocsr (bd : Build) {T : Type} (I : ity) (k1 : nat) (k2 : nat) (z1 : list Z) (z2 : list Z) (x1 : list T) (z3 : list Z) (z4 : list Z) (x2 : list T) : ends (@csc_tocsr bd T I k1 k2 z1 z2 x1 z3 z4 x2).
Proof. eall @csc_tocsr. Qed.
#[export] Hint Resolve ends_csc_tocsr : ends.
Lemma ends_csc_matmat_maxnnz (k1 : nat) (k2 : nat) (z1 : list Z) (z2 : list Z) (z3 : list Z) (z4 : list Z) : ends (@csc_matmat_maxnnz k1 k2 z1 z2 z3 z4).
Proof. eall @csc_matmat_maxnnz. Qed.
#[export] Hint Resolve ends_csc_matmat_maxnnz : ends.
Lemma ends_csc_matmat (bd : Build) {T : Type} {_ : Scalar T} (I : ity) (k1 : nat) (k2 : nat) (z1 : list Z) (z2 : list Z) (x1 : list T) (z3 : list Z) (z4 : list Z) (x2 : list T) (z5 : list Z) (z6 : list Z) (x3 : list T) : ends (@csc_matmat bd T _ I k1 k2 z1 z2 x1 z3 z4 x2 z5 z6 x3).
Proof. eall @csc_matmat. Qed.
#[export] Hint Resolve ends_csc_matmat : ends.
Lemma ends_Coo_new {T : Type} (k1 : nat) (k2 : nat) (z1 : list Z) (z2 : list Z) (x1 : list T) : ends (@Coo_new T k1 k2 z1 z2 x1).
Proof. eall @Coo_new. Qed.
#[export] Hint Resolve ends_Coo_new : ends.
Lemma ends_bad_length (bd : Build) {A : Type} (len n : nat) : ends (@bad_length bd A len n).
Proof. unfold bad_length. destruct (Z.eqb _ _); [destruct bd; [|destruct (len =? 0)]|]; discriminate. Qed.
#[export] Hint Resolve ends_bad_length : ends.
Lemma ends_CSR_new (bd : Build) {T : Type} (k1 : nat) (k2 : nat) (z1 : list Z) (z2 : list Z) (x1 : list T) : ends (@CSR_new bd T k1 k2 z1 z2 x1).
Proof. eall @CSR_new. Qed.
#[export] Hint Resolve ends_CSR_new : ends.
Lemma ends_CSC_new (bd : Build) {T : Type} (k1 : nat) (k2 : nat) (z1 : list Z) (z2 : list Z) (x1 : list T) : ends (@CSC_new bd T k1 k2 z1 z2 x1).
Proof. eall @CSC_new. Qed.
#[export] Hint Resolve ends_CSC_new : ends.
Lemma ends_CSR_nnz (bd : Build) {T : Type} (a1 : CSR T) : ends (@CSR_nnz bd T a1).
Proof. eall @CSR_nnz. Qed.
#[export] Hint Resolve ends_CSR_nnz : ends.
Lemma ends_CSC_nnz (bd : Build) {T : Type} (b1 : CSC T) : ends (@CSC_nnz bd T b1).
Proof. eall @CSC_nnz. Qed.
#[export] Hint Resolve ends_CSC_nnz : ends.
Lemma ends_CSR_t (bd : Build) {T : Type} (a1 : CSR T) : ends (@CSR_t bd T a1).
Proof. eall @CSR_t. Qed.
#[export] Hint Resolve ends_CSR_t : ends.
Lemma ends_CSC_t (bd : Build) {T : Type} (b1 : CSC T) : ends (@CSC_t bd T b1).
Proof. eall @CSC_t. Qed.
#[export] Hint Resolve ends_CSC_t : ends.
Lemma ends_CSR_has_canonical_format (bd : Build) {T : Type} (I : ity) (a1 : CSR T) : ends (@CSR_has_canonical_format bd T I a1).
Proof. eall @CSR_has_canonical_format. Qed.
#[export] Hint Resolve ends_CSR_has_canonical_format : ends.
Lemma ends_CSR_has_sorted_indexes (bd : Build) {T : Type} (I : ity) (a1 : CSR T) : ends (@CSR_has_sorted_indexes bd T I a1).
Proof. eall @CSR_has_sorted_indexes. Qed.
#[export] Hint Resolve ends_CSR_has_sorted_indexes : ends.
Lemma ends_CSR_sort_indexes (bd : Build) {T : Type} {_ : Scalar T} (a1 : CSR T) : ends (@CSR_sort_indexes bd T _ a1).
Proof. eall @CSR_sort_indexes. Qed.
#[export] Hint Resolve ends_CSR_sort_indexes : ends.
Lemma ends_CSR_prune (bd : Build) {T : Type} {_ : Scalar T} (a1 : CSR T) : ends (@CSR_prune bd T _ a1).
Proof. eall @CSR_prune. Qed.
#[export] Hint Resolve ends_CSR_prune : ends.
Lemma ends_CSR_sum_duplicates (bd : Build) {T : Type} {_ : Scalar T} (I : ity) (a1 : CSR T) : ends (@CSR_sum_duplicates bd T _ I a1).
Proof. eall @CSR_sum_duplicates. Qed.
#[export] Hint Resolve ends_CSR_sum_duplicates : ends.
Lemma ends_CSC_has_canonical_format (bd : Build) {T : Type} (I : ity) (b1 : CSC T) : ends (@CSC_has_canonical_format bd T I b1).
Proof. eall @CSC_has_canonical_format. Qed.
#[export] Hint Resolve ends_CSC_has_canonical_format : ends.
Lemma ends_CSC_has_sorted_indexes (bd : Build) {T : Type} (I : ity) (b1 : CSC T) : ends (@CSC_has_sorted_indexes bd T I b1).
Proof. eall @CSC_has_sorted_indexes. Qed.
#[export] Hint Resolve ends_CSC_has_sorted_indexes : ends.
Lemma ends_CSC_sort_indexes (bd : Build) {T : Type} {_ : Scalar T} (b1 : CSC T) : ends (@CSC_sort_indexes bd T _ b1).
Proof. eall @CSC_sort_indexes. Qed.
#[export] Hint Resolve ends_CSC_sort_indexes : ends.
Lemma ends_CSC_prune (bd : Build) {T : Type} (b1 : CSC T) : ends (@CSC_prune bd T b1).
Proof. eall @CSC_prune. Qed.
#[export] Hint Resolve ends_CSC_prune : ends.
Lemma ends_CSC_sum_duplicates (bd : Build) {T : Type} {_ : Scalar T} (I : ity) (b1 : CSC T) : ends (@CSC_sum_duplicates bd T _ I b1).
Proof. eall @CSC_sum_duplicates. Qed.
#[export] Hint Resolve ends_CSC_sum_duplicates : ends.
Lemma ends_Coo_to_csc (bd : Build) {T : Type} {_ : Scalar T} (I : ity) (c1 : Coo T) : ends (@Coo_to_csc bd T _ I c1).
Proof. eall @Coo_to_csc. Qed.
#[export] Hint Resolve ends_Coo_to_csc : ends.
Lemma ends_Coo_to_csr (bd : Build) {T : Type} {_ : Scalar T} (I : ity) (c1 : Coo T) : ends (@Coo_to_csr bd T _ I c1).
Proof. eall @Coo_to_csr. Qed.
#[export] Hint Resolve ends_Coo_to_csr : ends.
Lemma ends_Coo_to_dense {T : Type} {_ : Scalar T} (c1 : Coo T) : ends (@Coo_to_dense T _ c1).
Proof. eall @Coo_to_dense. Qed.
#[export] Hint Resolve ends_Coo_to_dense : ends.
Lemma ends_CSR_to_coo {T : Type} (I : ity) (a1 : CSR T) : ends (@CSR_to_coo T I a1).
Proof. eall @CSR_to_coo. Qed.
#[export] Hint Resolve ends_CSR_to_coo : ends.
Lemma ends_CSR_to_csc (bd : Build) {T : Type} {_ : Scalar T} (I : ity) (a1 : CSR T) : ends (@CSR_to_csc bd T _ I a1).
Proof. eall @CSR_to_csc. Qed.
#[export] Hint Resolve ends_CSR_to_csc : ends.
Lemma ends_CSR_to_dense {T : Type} {_ : Scalar T} (a1 : CSR T) : ends (@CSR_to_dense T _ a1).
Proof. eall @CSR_to_dense. Qed.
#[export] Hint Resolve ends_CSR_to_dense : ends.
Lemma ends_CSC_to_csr (bd : Build) {T : Type} {_ : Scalar T} (I : ity) (b1 : CSC T) : ends (@CSC_to_csr bd T _ I b1).
Proof. eall @CSC_to_csr. Qed.
#[export] Hint Resolve ends_CSC_to_csr : ends.
Lemma ends_CSC_to_coo (bd : Build) {T : Type} {_ : Scalar T} (I : ity) (b1 : CSC T) : ends (@CSC_to_coo bd T _ I b1).
Proof. eall @CSC_to_coo. Qed.
#[export] Hint Resolve ends_CSC_to_coo : ends.
Lemma ends_CSC_to_dense (bd : Build) {T : Type} {_ : Scalar T} (I : ity) (b1 : CSC T) : ends (@CSC_to_dense bd T _ I b1).
Proof. eall @CSC_to_dense. Qed.
#[export] Hint Resolve ends_CSC_to_dense : ends.
Lemma ends_Coo_from_dense {T : Type} {_ : Scalar T} (I : ity) (m1 : list (list T)) : ends (@Coo_from_dense T _ I m1).
Proof. eall @Coo_from_dense. Qed.
#[export] Hint Resolve ends_Coo_from_dense : ends.
Lemma ends_CSR_from_dense (bd : Build) {T : Type} {_ : Scalar T} (I : ity) (m1 : list (list T)) : ends (@CSR_from_dense bd T _ I m1).
Proof. eall @CSR_from_dense. Qed.
#[export] Hint Resolve ends_CSR_from_dense : ends.
Lemma ends_CSC_from_dense (bd : Build) {T : Type} {_ : Scalar T} (I : ity) (m1 : list (list T)) : ends (@CSC_from_dense bd T _ I m1).
Proof. eall @CSC_from_dense. Qed.
#[export] Hint Resolve ends_CSC_from_dense : ends.
Lemma ends_fill_iota (I : ity) (z1 : list Z) (k1 : nat) : ends (@fill_iota I z1 k1).
Proof. eall @fill_iota. Qed.
#[export] Hint Resolve ends_fill_iota : ends.
Lemma ends_Coo_with_diagonal {T : Type} {_ : Scalar T} (I : ity) (x1 : list T) : ends (@Coo_with_diagonal T _ I x1).
Proof. eall @Coo_with_diagonal. Qed.
#[export] Hint Resolve ends_Coo_with_diagonal : ends.
Lemma ends_Coo_identity {T : Type} {_ : Scalar T} (I : ity) (k1 : nat) : ends (@Coo_identity T _ I k1).
Proof. eall @Coo_identity. Qed.
#[export] Hint Resolve ends_Coo_identity : ends.
Lemma ends_CSR_with_diagonal {T : Type} (I : ity) (x1 : list T) : ends (@CSR_with_diagonal T I x1).
Proof. eall @CSR_with_diagonal. Qed.
#[export] Hint Resolve ends_CSR_with_diagonal : ends.
Lemma ends_CSC_with_diagonal {T : Type} (I : ity) (x1 : list T) : ends (@CSC_with_diagonal T I x1).
Proof. eall @CSC_with_diagonal. Qed.
#[export] Hint Resolve ends_CSC_with_diagonal : ends.
Lemma ends_Coo_upper (bd : Build) {T : Type} (I : ity) (c1 : Coo T) (i1 : Z) : ends (@Coo_upper bd T I c1 i1).
Proof. eall @Coo_upper. Qed.
#[export] Hint Resolve ends_Coo_upper : ends.
Lemma ends_Coo_diagonal {T : Type} {_ : Scalar T} (c1 : Coo T) : ends (@Coo_diagonal T _ c1).
Proof. eall @Coo_diagonal. Qed.
#[export] Hint Resolve ends_Coo_diagonal : ends.
Lemma ends_CSR_diagonal (bd : Build) {T : Type} {_ : Scalar T} (a1 : CSR T) : ends (@CSR_diagonal bd T _ a1).
Proof. eall @CSR_diagonal. Qed.
#[export] Hint Resolve ends_CSR_diagonal : ends.
Lemma ends_CSC_diagonal (bd : Build) {T : Type} {_ : Scalar T} (b1 : CSC T) : ends (@CSC_diagonal bd T _ b1).
Proof. eall @CSC_diagonal. Qed.
#[export] Hint Resolve ends_CSC_diagonal : ends.
Lemma ends_Coo_v_stack (bd : Build) {T : Type} (I : ity) (c1 : Coo T) (c2 : Coo T) : ends (@Coo_v_stack bd T I c1 c2).
Proof. eall @Coo_v_stack. Qed.
#[export] Hint Resolve ends_Coo_v_stack : ends.
Lemma ends_Coo_v_stack3 (bd : Build) {T : Type} (I : ity) (c1 : Coo T) (c2 : Coo T) (c3 : Coo T) : ends (@Coo_v_stack3 bd T I c1 c2 c3).
Proof. eall @Coo_v_stack3. Qed.
#[export] Hint Resolve ends_Coo_v_stack3 : ends.
Lemma ends_Coo_h_stack (bd : Build) {T : Type} (I : ity) (c1 : Coo T) (c2 : Coo T) : ends (@Coo_h_stack bd T I c1 c2).
Proof. eall @Coo_h_stack. Qed.
#[export] Hint Resolve ends_Coo_h_stack : ends.
Lemma ends_Coo_h_stack3 (bd : Build) {T : Type} (I : ity) (c1 : Coo T) (c2 : Coo T) (c3 : Coo T) : ends (@Coo_h_stack3 bd T I c1 c2 c3).
Proof. eall @Coo_h_stack3. Qed.
#[export] Hint Resolve ends_Coo_h_stack3 : ends.
Lemma ends_Coo_compose (bd : Build) {T : Type} (I : ity) (c1 : Coo T) (c2 : Coo T) (c3 : Coo T) (c4 : Coo T) : ends (@Coo_compose bd T I c1 c2 c3 c4).
Proof. eall @Coo_compose. Qed.
#[export] Hint Resolve ends_Coo_compose : ends.
Lemma ends_Coo_compose3 (bd : Build) {T : Type} (I : ity) (c1 : Coo T) (c2 : Coo T) (c3 : Coo T) (c4 : Coo T) (c5 : Coo T) (c6 : Coo T) (c7 : Coo T) (c8 : Coo T) (c9 : Coo T) : ends (@Coo_compose3 bd T I c1 c2 c3 c4 c5 c6 c7 c8 c9).
Proof. eall @Coo_compose3. Qed.
#[export] Hint Resolve ends_Coo_compose3 : ends.
Lemma ends_CSR_h_stack (bd : Build) {T : Type} {_ : Scalar T} (I : ity) (a1 : CSR T) (a2 : CSR T) : ends (@CSR_h_stack bd T _ I a1 a2).
Proof. eall @CSR_h_stack. Qed.
#[export] Hint Resolve ends_CSR_h_stack : ends.
Lemma ends_CSC_compose (bd : Build) {T : Type} {_ : Scalar T} (I : ity) (b1 : CSC T) (b2 : CSC T) (b3 : CSC T) (b4 : CSC T) : ends (@CSC_compose bd T _ I b1 b2 b3 b4).
Proof. eall @CSC_compose. Qed.
#[export] Hint Resolve ends_CSC_compose : ends.
Lemma ends_CSR_mat_vec {T : Type} {_ : Scalar T} (a1 : CSR T) (x1 : list T) : ends (@CSR_mat_vec T _ a1 x1).
Proof. eall @CSR_mat_vec. Qed.
#[export] Hint Resolve ends_CSR_mat_vec : ends.
Lemma ends_CSC_mat_vec {T : Type} {_ : Scalar T} (b1 : CSC T) (x1 : list T) : ends (@CSC_mat_vec T _ b1 x1).
Proof. eall @CSC_mat_vec. Qed.
#[export] Hint Resolve ends_CSC_mat_vec : ends.
Lemma ends_CSR_mat_mat (bd : Build) {T : Type} {_ : Scalar T} (I : ity) (a1 : CSR T) (a2 : CSR T) : ends (@CSR_mat_mat bd T _ I a1 a2).
Proof. eall @CSR_mat_mat. Qed.
#[export] Hint Resolve ends_CSR_mat_mat : ends.
Lemma ends_CSC_mat_mat (bd : Build) {T : Type} {_ : Scalar T} (I : ity) (b1 : CSC T) (b2 : CSC T) : ends (@CSC_mat_mat bd T _ I b1 b2).
Proof. eall @CSC_mat_mat. Qed.
#[export] Hint Resolve ends_CSC_mat_mat : ends.
Lemma ends_select_indices (I : ity) (k1 : nat) (o1 : option (list Z)) : ends (@select_indices I k1 o1).
Proof. eall @select_indices. Qed.
#[export] Hint Resolve ends_select_indices : ends.
Lemma ends_CSR_select (bd : Build) {T : Type} {_ : Scalar T} (I : ity) (a1 : CSR T) (o1 : option (list Z)) (o2 : option (list Z)) : ends (@CSR_select bd T _ I a1 o1 o2).
Proof. eall @CSR_select. Qed.
#[export] Hint Resolve ends_CSR_select : ends.
Lemma ends_CSC_select (bd : Build) {T : Type} {_ : Scalar T} (I : ity) (b1 : CSC T) (o1 : option (list Z)) (o2 : option (list Z)) : ends (@CSC_select bd T _ I b1 o1 o2).
Proof. eall @CSC_select. Qed.
#[export] Hint Resolve ends_CSC_select : ends.
Lemma ends_CSR_get {T : Type} {_ : Scalar T} (a1 : CSR T) (i1 : Z) (i2 : Z) : ends (@CSR_get T _ a1 i1 i2).
Proof. eall @CSR_get. Qed.
#[export] Hint Resolve ends_CSR_get : ends.
Lemma ends_CSR_add (bd : Build) {T : Type} {_ : Scalar T} (I : ity) (a1 : CSR T) (a2 : CSR T) : ends (@CSR_add bd T _ I a1 a2).
Proof. eall @CSR_add. Qed.
#[export] Hint Resolve ends_CSR_add : ends.
Lemma ends_CSR_sub (bd : Build) {T : Type} {_ : Scalar T} (I : ity) (a1 : CSR T) (a2 : CSR T) : ends (@CSR_sub bd T _ I a1 a2).
Proof. eall @CSR_sub. Qed.
#[export] Hint Resolve ends_CSR_sub : ends.
Lemma ends_CSR_mul (bd : Build) {T : Type} {_ : Scalar T} (I : ity) (a1 : CSR T) (a2 : CSR T) : ends (@CSR_mul bd T _ I a1 a2).
Proof. eall @CSR_mul. Qed.
#[export] Hint Resolve ends_CSR_mul : ends.
Lemma ends_CSC_add (bd : Build) {T : Type} {_ : Scalar T} (I : ity) (b1 : CSC T) (b2 : CSC T) : ends (@CSC_add bd T _ I b1 b2).
Proof. eall @CSC_add. Qed.
#[export] Hint Resolve ends_CSC_add : ends.
Lemma ends_CSC_subtract (bd : Build) {T : Type} {_ : Scalar T} (I : ity) (b1 : CSC T) (b2 : CSC T) : ends (@CSC_subtract bd T _ I b1 b2).
Proof. eall @CSC_subtract. Qed.
#[export] Hint Resolve ends_CSC_subtract : ends.
Lemma ends_CSC_op_add (bd : Build) {T : Type} {_ : Scalar T} (I : ity) (b1 : CSC T) (b2 : CSC T) : ends (@CSC_op_add bd T _ I b1 b2).
Proof. eall @CSC_op_add. Qed.
#[export] Hint Resolve ends_CSC_op_add : ends.
Lemma ends_CSC_op_sub (bd : Build) {T : Type} {_ : Scalar T} (I : ity) (b1 : CSC T) (b2 : CSC T) : ends (@CSC_op_sub bd T _ I b1 b2).
Proof. eall @CSC_op_sub. Qed.
#[export] Hint Resolve ends_CSC_op_sub : ends.
Lemma ends_CSC_mul (bd : Build) {T : Type} {_ : Scalar T} (I : ity) (b1 : CSC T) (b2 : CSC T) : ends (@CSC_mul bd T _ I b1 b2).
Proof. eall @CSC_mul. Qed.
#[export] Hint Resolve ends_CSC_mul : ends.
Lemma ends_CSC_mul_csr (bd : Build) {T : Type} {_ : Scalar T} (I : ity) (b1 : CSC T) (a1 : CSR T) : ends (@CSC_mul_csr bd T _ I b1 a1).
Proof. eall @CSC_mul_csr. Qed.
#[export] Hint Resolve ends_CSC_mul_csr : ends.
Lemma ends_Coo_add (bd : Build) {T : Type} {_ : Scalar T} (I : ity) (c1 : Coo T) (c2 : Coo T) : ends (@Coo_add bd T _ I c1 c2).
Proof. eall @Coo_add. Qed.
#[export] Hint Resolve ends_Coo_add : ends.
Lemma ends_CSR_mul_scalar (bd : Build) {T : Type} {_ : Scalar T} (a1 : CSR T) (s1 : T) : ends (@CSR_mul_scalar bd T _ a1 s1).
Proof. eall @CSR_mul_scalar. Qed.
#[export] Hint Resolve ends_CSR_mul_scalar : ends.
Lemma ends_CSR_scalar_mul (bd : Build) {T : Type} {_ : Scalar T} (s1 : T) (a1 : CSR T) : ends (@CSR_scalar_mul bd T _ s1 a1).
Proof. eall @CSR_scalar_mul. Qed.
#[export] Hint Resolve ends_CSR_scalar_mul : ends.
Lemma ends_CSC_mul_scalar (bd : Build) {T : Type} {_ : Scalar T} (b1 : CSC T) (s1 : T) : ends (@CSC_mul_scalar bd T _ b1 s1).
Proof. eall @CSC_mul_scalar. Qed.
#[export] Hint Resolve ends_CSC_mul_scalar : ends.
Lemma ends_CSC_scalar_mul (bd : Build) {T : Type} {_ : Scalar T} (s1 : T) (b1 : CSC T) : ends (@CSC_scalar_mul bd T _ s1 b1).
Proof. eall @CSC_scalar_mul. Qed.
#[export] Hint Resolve ends_CSC_scalar_mul : ends.
Lemma ends_Coo_neg {T : Type} {_ : ScalarNeg T} (c1 : Coo T) : ends (@Coo_neg T _ c1).
Proof. eall @Coo_neg. Qed.
#[export] Hint Resolve ends_Coo_neg : ends.
Lemma ends_CSR_neg (bd : Build) {T : Type} {_ : ScalarNeg T} (a1 : CSR T) : ends (@CSR_neg bd T _ a1).
Proof. eall @CSR_neg. Qed.
#[export] Hint Resolve ends_CSR_neg : ends.
Lemma ends_CSC_neg (bd : Build) {T : Type} {_ : ScalarNeg T} (b1 : CSC T) : ends (@CSC_neg bd T _ b1).
Proof. eall @CSC_neg. Qed.
#[export] Hint Resolve ends_CSC_neg : ends.
Lemma ends_Coo_conj {F C : Type} {_ : ComplexOps F C} (c1 : Coo C) : ends (@Coo_conj F C _ c1).
Proof. eall @Coo_conj. Qed.
#[export] Hint Resolve ends_Coo_conj : ends.
Lemma ends_Coo_real {F C : Type} {_ : ComplexOps F C} (c1 : Coo C) : ends (@Coo_real F C _ c1).
Proof. eall @Coo_real. Qed.
#[export] Hint Resolve ends_Coo_real : ends.
Lemma ends_Coo_imag {F C : Type} {_ : ComplexOps F C} (c1 : Coo C) : ends (@Coo_imag F C _ c1).
Proof. eall @Coo_imag. Qed.
#[export] Hint Resolve ends_Coo_imag : ends.
Lemma ends_Coo_h {F C : Type} {_ : ComplexOps F C} (c1 : Coo C) : ends (@Coo_h F C _ c1).
Proof. eall @Coo_h. Qed.
#[export] Hint Resolve ends_Coo_h : ends.
Lemma ends_CSR_with_real (bd : Build) {F C : Type} {_ : Scalar F} {_ : ComplexOps F C} (a1 : CSR F) : ends (@CSR_with_real bd F C _ _ a1).
Proof. eall @CSR_with_real. Qed.
#[export] Hint Resolve ends_CSR_with_real : ends.
Lemma ends_CSR_with_imag (bd : Build) {F C : Type} {_ : Scalar F} {_ : ComplexOps F C} (a1 : CSR F) : ends (@CSR_with_imag bd F C _ _ a1).
Proof. eall @CSR_with_imag. Qed.
#[export] Hint Resolve ends_CSR_with_imag : ends.
Lemma ends_CSR_conj (bd : Build) {F C : Type} {_ : ComplexOps F C} (a1 : CSR C) : ends (@CSR_conj bd F C _ a1).
Proof. eall @CSR_conj. Qed.
#[export] Hint Resolve ends_CSR_conj : ends.
Lemma ends_CSR_real (bd : Build) {F C : Type} {_ : ComplexOps F C} (a1 : CSR C) : ends (@CSR_real bd F C _ a1).
Proof. eall @CSR_real. Qed.
#[export] Hint Resolve ends_CSR_real : ends.
Lemma ends_CSR_imag (bd : Build) {F C : Type} {_ : ComplexOps F C} (a1 : CSR C) : ends (@CSR_imag bd F C _ a1).
Proof. eall @CSR_imag. Qed.
#[export] Hint Resolve ends_CSR_imag : ends.
Lemma ends_CSR_h (bd : Build) {F C : Type} {_ : ComplexOps F C} (a1 : CSR C) : ends (@CSR_h bd F C _ a1).
Proof. eall @CSR_h. Qed.
#[export] Hint Resolve ends_CSR_h : ends.
Lemma ends_CSC_conj (bd : Build) {F C : Type} {_ : ComplexOps F C} (b1 : CSC C) : ends (@CSC_conj bd F C _ b1).
Proof. eall @CSC_conj. Qed.
#[export] Hint Resolve ends_CSC_conj : ends.
Lemma ends_CSC_real (bd : Build) {F C : Type} {_ : ComplexOps F C} (b1 : CSC C) : ends (@CSC_real bd F C _ b1).
Proof. eall @CSC_real. Qed.
#[export] Hint Resolve ends_CSC_real : ends.
Lemma ends_CSC_imag (bd : Build) {F C : Type} {_ : ComplexOps F C} (b1 : CSC C) : ends (@CSC_imag bd F C _ b1).
Proof. eall @CSC_imag. Qed.
#[export] Hint Resolve ends_CSC_imag : ends.
Lemma ends_CSC_h (bd : Build) {F C : Type} {_ : ComplexOps F C} (b1 : CSC C) : ends (@CSC_h bd F C _ b1).
Proof. eall @CSC_h. Qed.
#[export] Hint Resolve ends_CSC_h : ends.
Lemma ends_validate_graph {T : Type} (a1 : CSR T) : ends (@validate_graph T a1).
Proof. eall @validate_graph. Qed.
#[export] Hint Resolve ends_validate_graph : ends.
Lemma ends_depth_first_order (bd : Build) {T : Type} {_ : Scalar T} (I : ity) (a1 : CSR T) (k1 : nat) (f1 : bool) : ends (@depth_first_order bd I T _ a1 k1 f1).
Proof. eall @depth_first_order. Qed.
#[export] Hint Resolve ends_depth_first_order : ends.
Lemma ends_CSR_connected_components (bd : Build) {T : Type} (I : ity) (F : ity) (a1 : CSR T) : ends (@CSR_connected_components bd I T F a1).
Proof. eall @CSR_connected_components. Qed.
#[export] Hint Resolve ends_CSR_connected_components : ends.
Lemma ends_DoK_set {T : Type} {_ : Scalar T} (I : ity) (d : DoK T) (i1 : Z) (i2 : Z) (s1 : T) : ends (@DoK_set T _ I d i1 i2 s1).
Proof. eall @DoK_set. Qed.
#[export] Hint Resolve ends_DoK_set : ends.
Lemma ends_DoK_add {T : Type} {_ : Scalar T} (I : ity) (d : DoK T) (i1 : Z) (i2 : Z) (s1 : T) : ends (@DoK_add T _ I d i1 i2 s1).
Proof. eall @DoK_add. Qed.
#[export] Hint Resolve ends_DoK_add : ends.
Lemma ends_DoK_sub {T : Type} {_ : Scalar T} (I : ity) (d : DoK T) (i1 : Z) (i2 : Z) (s1 : T) : ends (@DoK_sub T _ I d i1 i2 s1).
Proof. eall @DoK_sub. Qed.
#[export] Hint Resolve ends_DoK_sub : ends.
Lemma ends_DoK_from_dense {T : Type} {_ : Scalar T} (I : ity) (m1 : list (list T)) : ends (@DoK_from_dense T _ I m1).
Proof. eall @DoK_from_dense. Qed.
#[export] Hint Resolve ends_DoK_from_dense : ends.
Lemma ends_DoK_to_dense {T : Type} {_ : Scalar T} (d : DoK T) (order : list (Z * Z * T)) : ends (@DoK_to_dense T _ d order).
Proof. eall @DoK_to_dense. Qed.
#[export] Hint Resolve ends_DoK_to_dense : ends.
Lemma ends_DoK_to_coo {T : Type} (d : DoK T) (order : list (Z * Z * T)) : ends (@DoK_to_coo T d order).
Proof. eall @DoK_to_coo. Qed.
#[export] Hint Resolve ends_DoK_to_coo : ends.
Lemma ends_DoK_to_csc (bd : Build) {T : Type} {_ : Scalar T} (I : ity) (d : DoK T) (order : list (Z * Z * T)) : ends (@DoK_to_csc bd T _ I d order).
Proof. eall @DoK_to_csc. Qed.
#[export] Hint Resolve ends_DoK_to_csc : ends.
Lemma ends_DoK_to_csr (bd : Build) {T : Type} {_ : Scalar T} (I : ity) (d : DoK T) (order : list (Z * Z * T)) : ends (@DoK_to_csr bd T _ I d order).
Proof. eall @DoK_to_csr. Qed.
#[export] Hint Resolve ends_DoK_to_csr : ends.
Lemma ends_Coo_to_string {T : Type} (show : (T -> String.string)) (c1 : Coo T) : ends (@Coo_to_string T show c1).
Proof. eall @Coo_to_string. Qed.
#[export] Hint Resolve ends_Coo_to_string : ends.
Lemma ends_CSR_to_string {T : Type} (show : (T -> String.string)) (a1 : CSR T) : ends (@CSR_to_string T show a1).
Proof. eall @CSR_to_string. Qed.
#[export] Hint Resolve ends_CSR_to_string : ends.
Lemma ends_CSC_to_string {T : Type} (show : (T -> String.string)) (b1 : CSC T) : ends (@CSC_to_string T show b1).
Proof. eall @CSC_to_string. Qed.
#[export] Hint Resolve ends_CSC_to_string : ends.
Lemma ends_DoK_to_string {T : Type} (show : (T -> String.string)) (order : list (Z * Z * T)) : ends (@DoK_to_string T show order).
Proof. eall @DoK_to_string. Qed.
#[export] Hint Resolve ends_DoK_to_string : ends.
Lemma ends_csr_table_bytes (bd : Build) {T : Type} (show : (T -> String.string)) (k1 : nat) (k2 : nat) (z1 : list Z) (z2 : list Z) (x1 : list T) (f1 : bool) : ends (@csr_table_bytes bd T show k1 k2 z1 z2 x1 f1).
Proof. eall @csr_table_bytes. Qed.
#[export] Hint Resolve ends_csr_table_bytes : ends.
Lemma ends_csr_table (bd : Build) {T : Type} (show : (T -> String.string)) (align : (String.string -> String.string)) (k1 : nat) (k2 : nat) (z1 : list Z) (z2 : list Z) (x1 : list T) (f1 : bool) : ends (@csr_table bd T show align k1 k2 z1 z2 x1 f1).
Proof. eall @csr_table. Qed.
#[export] Hint Resolve ends_csr_table : ends.
Lemma ends_CSR_to_table (bd : Build) {T : Type} (show : (T -> String.string)) (align : (String.string -> String.string)) (a1 : CSR T) : ends (@CSR_to_table bd T show align a1).
Proof. eall @CSR_to_table. Qed.
#[export] Hint Resolve ends_CSR_to_table : ends.
