(** One lemma per function whose arithmetic depends on the build. *)
From Coq Require Import String.
From Verif Require Import Rust Scalar Model_kernels Model_matrix Model_graph Model_dok Model_text Model_eigen SpecMore ReleaseProofs.
Lemma agrees_vinc : forall (a1 : ity) (a2 : list Z) (a3 : nat) (a4 : Z), agrees (@vinc Debug a1 a2 a3 a4) (@vinc Release a1 a2 a3 a4).
Proof. agall @vinc. Qed.
#[export] Hint Resolve agrees_vinc : agrees.
Lemma agrees_csr_diagonal : forall (T : Type) (a2 : Scalar T) (a3 : Z) (a4 : nat) (a5 : nat) (a6 : list Z) (a7 : list Z) (a8 : list T) (a9 : list T), agrees (@csr_diagonal Debug T a2 a3 a4 a5 a6 a7 a8 a9) (@csr_diagonal Release T a2 a3 a4 a5 a6 a7 a8 a9).
Proof. agall @csr_diagonal. Qed.
#[export] Hint Resolve agrees_csr_diagonal : agrees.
Lemma agrees_csr_has_sorted_indices : forall (a1 : ity) (a2 : nat) (a3 : list Z) (a4 : list Z), agrees (@csr_has_sorted_indices Debug a1 a2 a3 a4) (@csr_has_sorted_indices Release a1 a2 a3 a4).
Proof. agall @csr_has_sorted_indices. Qed.
#[export] Hint Resolve agrees_csr_has_sorted_indices : agrees.
Lemma agrees_csr_has_canonical_format : forall (a1 : ity) (a2 : nat) (a3 : list Z) (a4 : list Z), agrees (@csr_has_canonical_format Debug a1 a2 a3 a4) (@csr_has_canonical_format Release a1 a2 a3 a4).
Proof. agall @csr_has_canonical_format. Qed.
#[export] Hint Resolve agrees_csr_has_canonical_format : agrees.
Lemma agrees_csr_sort_indices : forall (T : Type) (a2 : Scalar T) (a3 : nat) (a4 : list Z) (a5 : list Z) (a6 : list T), agrees (@csr_sort_indices Debug T a2 a3 a4 a5 a6) (@csr_sort_indices Release T a2 a3 a4 a5 a6).
Proof. agall @csr_sort_indices. Qed.
#[export] Hint Resolve agrees_csr_sort_indices : agrees.
Lemma agrees_csr_tocsc : forall (T : Type) (a2 : ity) (a3 : nat) (a4 : nat) (a5 : list Z) (a6 : list Z) (a7 : list T) (a8 : list Z) (a9 : list Z) (a10 : list T), agrees (@csr_tocsc Debug T a2 a3 a4 a5 a6 a7 a8 a9 a10) (@csr_tocsc Release T a2 a3 a4 a5 a6 a7 a8 a9 a10).
Proof. agall @csr_tocsc. Qed.
#[export] Hint Resolve agrees_csr_tocsc : agrees.
Lemma agrees_csr_matmat : forall (T : Type) (a2 : Scalar T) (a3 : ity) (a4 : nat) (a5 : nat) (a6 : list Z) (a7 : list Z) (a8 : list T) (a9 : list Z) (a10 : list Z) (a11 : list T) (a12 : list Z) (a13 : list Z) (a14 : list T), agrees (@csr_matmat Debug T a2 a3 a4 a5 a6 a7 a8 a9 a10 a11 a12 a13 a14) (@csr_matmat Release T a2 a3 a4 a5 a6 a7 a8 a9 a10 a11 a12 a13 a14).
Proof. agall @csr_matmat. Qed.
#[export] Hint Resolve agrees_csr_matmat : agrees.
Lemma agrees_binop_scan : forall (T : Type) (a2 : Scalar T) (a3 : ity) (a4 : nat) (a5 : nat) (a6 : list Z) (a7 : list T) (a8 : prod (prod (prod (list Z) (list T)) Z) Z), agrees (@binop_scan Debug T a2 a3 a4 a5 a6 a7 a8) (@binop_scan Release T a2 a3 a4 a5 a6 a7 a8).
Proof. agall @binop_scan. Qed.
#[export] Hint Resolve agrees_binop_scan : agrees.
Lemma agrees_csr_binop_csr_general : forall (T : Type) (a2 : Scalar T) (a3 : ity) (T2 : Type) (a5 : Nonzero T2) (a6 : forall (_ : T) (_ : T), res T2) (a7 : nat) (a8 : nat) (a9 : list Z) (a10 : list Z) (a11 : list T) (a12 : list Z) (a13 : list Z) (a14 : list T) (a15 : list Z) (a16 : list Z) (a17 : list T2), agrees (@csr_binop_csr_general Debug T a2 a3 T2 a5 a6 a7 a8 a9 a10 a11 a12 a13 a14 a15 a16 a17) (@csr_binop_csr_general Release T a2 a3 T2 a5 a6 a7 a8 a9 a10 a11 a12 a13 a14 a15 a16 a17).
Proof. agall @csr_binop_csr_general. Qed.
#[export] Hint Resolve agrees_csr_binop_csr_general : agrees.
Lemma agrees_csr_binop_csr : forall (T : Type) (a2 : Scalar T) (a3 : ity) (T2 : Type) (a5 : Nonzero T2) (a6 : forall (_ : T) (_ : T), res T2) (a7 : nat) (a8 : nat) (a9 : list Z) (a10 : list Z) (a11 : list T) (a12 : list Z) (a13 : list Z) (a14 : list T) (a15 : list Z) (a16 : list Z) (a17 : list T2), agrees (@csr_binop_csr Debug T a2 a3 T2 a5 a6 a7 a8 a9 a10 a11 a12 a13 a14 a15 a16 a17) (@csr_binop_csr Release T a2 a3 T2 a5 a6 a7 a8 a9 a10 a11 a12 a13 a14 a15 a16 a17).
Proof. agall @csr_binop_csr. Qed.
#[export] Hint Resolve agrees_csr_binop_csr : agrees.
Lemma agrees_csr_ne_csr : forall (T : Type) (a2 : Scalar T) (a3 : ity) (a4 : nat) (a5 : nat) (a6 : list Z) (a7 : list Z) (a8 : list T) (a9 : list Z) (a10 : list Z) (a11 : list T) (a12 : list Z) (a13 : list Z) (a14 : list bool), agrees (@csr_ne_csr Debug T a2 a3 a4 a5 a6 a7 a8 a9 a10 a11 a12 a13 a14) (@csr_ne_csr Release T a2 a3 a4 a5 a6 a7 a8 a9 a10 a11 a12 a13 a14).
Proof. agall @csr_ne_csr. Qed.
#[export] Hint Resolve agrees_csr_ne_csr : agrees.
Lemma agrees_csr_eq_csr : forall (T : Type) (a2 : Scalar T) (a3 : ity) (a4 : nat) (a5 : nat) (a6 : list Z) (a7 : list Z) (a8 : list T) (a9 : list Z) (a10 : list Z) (a11 : list T) (a12 : list Z) (a13 : list Z) (a14 : list bool), agrees (@csr_eq_csr Debug T a2 a3 a4 a5 a6 a7 a8 a9 a10 a11 a12 a13 a14) (@csr_eq_csr Release T a2 a3 a4 a5 a6 a7 a8 a9 a10 a11 a12 a13 a14).
Proof. agall @csr_eq_csr. Qed.
#[export] Hint Resolve agrees_csr_eq_csr : agrees.
Lemma agrees_csr_mul_csr : forall (T : Type) (a2 : Scalar T) (a3 : ity) (a4 : nat) (a5 : nat) (a6 : list Z) (a7 : list Z) (a8 : list T) (a9 : list Z) (a10 : list Z) (a11 : list T) (a12 : list Z) (a13 : list Z) (a14 : list T), agrees (@csr_mul_csr Debug T a2 a3 a4 a5 a6 a7 a8 a9 a10 a11 a12 a13 a14) (@csr_mul_csr Release T a2 a3 a4 a5 a6 a7 a8 a9 a10 a11 a12 a13 a14).
Proof. agall @csr_mul_csr. Qed.
#[export] Hint Resolve agrees_csr_mul_csr : agrees.
Lemma agrees_csr_div_csr : forall (T : Type) (a2 : Scalar T) (a3 : ity) (a4 : nat) (a5 : nat) (a6 : list Z) (a7 : list Z) (a8 : list T) (a9 : list Z) (a10 : list Z) (a11 : list T) (a12 : list Z) (a13 : list Z) (a14 : list T), agrees (@csr_div_csr Debug T a2 a3 a4 a5 a6 a7 a8 a9 a10 a11 a12 a13 a14) (@csr_div_csr Release T a2 a3 a4 a5 a6 a7 a8 a9 a10 a11 a12 a13 a14).
Proof. agall @csr_div_csr. Qed.
#[export] Hint Resolve agrees_csr_div_csr : agrees.
Lemma agrees_csr_add_csr : forall (T : Type) (a2 : Scalar T) (a3 : ity) (a4 : nat) (a5 : nat) (a6 : list Z) (a7 : list Z) (a8 : list T) (a9 : list Z) (a10 : list Z) (a11 : list T) (a12 : list Z) (a13 : list Z) (a14 : list T), agrees (@csr_add_csr Debug T a2 a3 a4 a5 a6 a7 a8 a9 a10 a11 a12 a13 a14) (@csr_add_csr Release T a2 a3 a4 a5 a6 a7 a8 a9 a10 a11 a12 a13 a14).
Proof. agall @csr_add_csr. Qed.
#[export] Hint Resolve agrees_csr_add_csr : agrees.
Lemma agrees_csr_sub_csr : forall (T : Type) (a2 : Scalar T) (a3 : ity) (a4 : nat) (a5 : nat) (a6 : list Z) (a7 : list Z) (a8 : list T) (a9 : list Z) (a10 : list Z) (a11 : list T) (a12 : list Z) (a13 : list Z) (a14 : list T), agrees (@csr_sub_csr Debug T a2 a3 a4 a5 a6 a7 a8 a9 a10 a11 a12 a13 a14) (@csr_sub_csr Release T a2 a3 a4 a5 a6 a7 a8 a9 a10 a11 a12 a13 a14).
Proof. agall @csr_sub_csr. Qed.
#[export] Hint Resolve agrees_csr_sub_csr : agrees.
Lemma agrees_csr_lt_csr : forall (T : Type) (a2 : Scalar T) (a3 : ity) (a4 : ScalarOrd T) (a5 : nat) (a6 : nat) (a7 : list Z) (a8 : list Z) (a9 : list T) (a10 : list Z) (a11 : list Z) (a12 : list T) (a13 : list Z) (a14 : list Z) (a15 : list bool), agrees (@csr_lt_csr Debug T a2 a3 a4 a5 a6 a7 a8 a9 a10 a11 a12 a13 a14 a15) (@csr_lt_csr Release T a2 a3 a4 a5 a6 a7 a8 a9 a10 a11 a12 a13 a14 a15).
Proof. agall @csr_lt_csr. Qed.
#[export] Hint Resolve agrees_csr_lt_csr : agrees.
Lemma agrees_csr_le_csr : forall (T : Type) (a2 : Scalar T) (a3 : ity) (a4 : ScalarOrd T) (a5 : nat) (a6 : nat) (a7 : list Z) (a8 : list Z) (a9 : list T) (a10 : list Z) (a11 : list Z) (a12 : list T) (a13 : list Z) (a14 : list Z) (a15 : list bool), agrees (@csr_le_csr Debug T a2 a3 a4 a5 a6 a7 a8 a9 a10 a11 a12 a13 a14 a15) (@csr_le_csr Release T a2 a3 a4 a5 a6 a7 a8 a9 a10 a11 a12 a13 a14 a15).
Proof. agall @csr_le_csr. Qed.
#[export] Hint Resolve agrees_csr_le_csr : agrees.
Lemma agrees_csr_gt_csr : forall (T : Type) (a2 : Scalar T) (a3 : ity) (a4 : ScalarOrd T) (a5 : nat) (a6 : nat) (a7 : list Z) (a8 : list Z) (a9 : list T) (a10 : list Z) (a11 : list Z) (a12 : list T) (a13 : list Z) (a14 : list Z) (a15 : list bool), agrees (@csr_gt_csr Debug T a2 a3 a4 a5 a6 a7 a8 a9 a10 a11 a12 a13 a14 a15) (@csr_gt_csr Release T a2 a3 a4 a5 a6 a7 a8 a9 a10 a11 a12 a13 a14 a15).
Proof. agall @csr_gt_csr. Qed.
#[export] Hint Resolve agrees_csr_gt_csr : agrees.
Lemma agrees_csr_ge_csr : forall (T : Type) (a2 : Scalar T) (a3 : ity) (a4 : ScalarOrd T) (a5 : nat) (a6 : nat) (a7 : list Z) (a8 : list Z) (a9 : list T) (a10 : list Z) (a11 : list Z) (a12 : list T) (a13 : list Z) (a14 : list Z) (a15 : list bool), agrees (@csr_ge_csr Debug T a2 a3 a4 a5 a6 a7 a8 a9 a10 a11 a12 a13 a14 a15) (@csr_ge_csr Release T a2 a3 a4 a5 a6 a7 a8 a9 a10 a11 a12 a13 a14 a15).
Proof. agall @csr_ge_csr. Qed.
#[export] Hint Resolve agrees_csr_ge_csr : agrees.
Lemma agrees_csr_max_csr : forall (T : Type) (a2 : Scalar T) (a3 : ity) (a4 : ScalarOrd T) (a5 : nat) (a6 : nat) (a7 : list Z) (a8 : list Z) (a9 : list T) (a10 : list Z) (a11 : list Z) (a12 : list T) (a13 : list Z) (a14 : list Z) (a15 : list T), agrees (@csr_max_csr Debug T a2 a3 a4 a5 a6 a7 a8 a9 a10 a11 a12 a13 a14 a15) (@csr_max_csr Release T a2 a3 a4 a5 a6 a7 a8 a9 a10 a11 a12 a13 a14 a15).
Proof. agall @csr_max_csr. Qed.
#[export] Hint Resolve agrees_csr_max_csr : agrees.
Lemma agrees_csr_min_csr : forall (T : Type) (a2 : Scalar T) (a3 : ity) (a4 : ScalarOrd T) (a5 : nat) (a6 : nat) (a7 : list Z) (a8 : list Z) (a9 : list T) (a10 : list Z) (a11 : list Z) (a12 : list T) (a13 : list Z) (a14 : list Z) (a15 : list T), agrees (@csr_min_csr Debug T a2 a3 a4 a5 a6 a7 a8 a9 a10 a11 a12 a13 a14 a15) (@csr_min_csr Release T a2 a3 a4 a5 a6 a7 a8 a9 a10 a11 a12 a13 a14 a15).
Proof. agall @csr_min_csr. Qed.
#[export] Hint Resolve agrees_csr_min_csr : agrees.
Lemma agrees_get_csr_submatrix : forall (T : Type) (a2 : Scalar T) (a3 : ity) (a4 : nat) (a5 : nat) (a6 : list Z) (a7 : list Z) (a8 : list T) (a9 : Z) (a10 : Z) (a11 : Z) (a12 : Z) (a13 : list Z) (a14 : list Z) (a15 : list T), agrees (@get_csr_submatrix Debug T a2 a3 a4 a5 a6 a7 a8 a9 a10 a11 a12 a13 a14 a15) (@get_csr_submatrix Release T a2 a3 a4 a5 a6 a7 a8 a9 a10 a11 a12 a13 a14 a15).
Proof. agall @get_csr_submatrix. Qed.
#[export] Hint Resolve agrees_get_csr_submatrix : agrees.
Lemma agrees_csr_column_index1 : forall (a1 : ity) (a2 : nat) (a3 : list nat) (a4 : nat) (a5 : nat) (a6 : list Z) (a7 : list Z) (a8 : list Z) (a9 : list Z), agrees (@csr_column_index1 Debug a1 a2 a3 a4 a5 a6 a7 a8 a9) (@csr_column_index1 Release a1 a2 a3 a4 a5 a6 a7 a8 a9).
Proof. agall @csr_column_index1. Qed.
#[export] Hint Resolve agrees_csr_column_index1 : agrees.
Lemma agrees_csr_count_diagonals : forall (a1 : nat) (a2 : list Z) (a3 : list Z), agrees (@csr_count_diagonals Debug a1 a2 a3) (@csr_count_diagonals Release a1 a2 a3).
Proof. agall @csr_count_diagonals. Qed.
#[export] Hint Resolve agrees_csr_count_diagonals : agrees.
Lemma agrees_coo_tocsr : forall (T : Type) (a2 : ity) (a3 : nat) (a4 : nat) (a5 : nat) (a6 : list Z) (a7 : list Z) (a8 : list T) (a9 : list Z) (a10 : list Z) (a11 : list T), agrees (@coo_tocsr Debug T a2 a3 a4 a5 a6 a7 a8 a9 a10 a11) (@coo_tocsr Release T a2 a3 a4 a5 a6 a7 a8 a9 a10 a11).
Proof. agall @coo_tocsr. Qed.
#[export] Hint Resolve agrees_coo_tocsr : agrees.
Lemma agrees_csc_diagonal : forall (T : Type) (a2 : Scalar T) (a3 : Z) (a4 : nat) (a5 : nat) (a6 : list Z) (a7 : list Z) (a8 : list T) (a9 : list T), agrees (@csc_diagonal Debug T a2 a3 a4 a5 a6 a7 a8 a9) (@csc_diagonal Release T a2 a3 a4 a5 a6 a7 a8 a9).
Proof. agall @csc_diagonal. Qed.
#[export] Hint Resolve agrees_csc_diagonal : agrees.
Lemma agrees_csc_tocsr : forall (T : Type) (a2 : ity) (a3 : nat) (a4 : nat) (a5 : list Z) (a6 : list Z) (a7 : list T) (a8 : list Z) (a9 : list Z) (a10 : list T), agrees (@csc_tocsr Debug T a2 a3 a4 a5 a6 a7 a8 a9 a10) (@csc_tocsr Release T a2 a3 a4 a5 a6 a7 a8 a9 a10).
Proof. agall @csc_tocsr. Qed.
#[export] Hint Resolve agrees_csc_tocsr : agrees.
Lemma agrees_csc_matmat : forall (T : Type) (a2 : Scalar T) (a3 : ity) (a4 : nat) (a5 : nat) (a6 : list Z) (a7 : list Z) (a8 : list T) (a9 : list Z) (a10 : list Z) (a11 : list T) (a12 : list Z) (a13 : list Z) (a14 : list T), agrees (@csc_matmat Debug T a2 a3 a4 a5 a6 a7 a8 a9 a10 a11 a12 a13 a14) (@csc_matmat Release T a2 a3 a4 a5 a6 a7 a8 a9 a10 a11 a12 a13 a14).
Proof. agall @csc_matmat. Qed.
#[export] Hint Resolve agrees_csc_matmat : agrees.
Lemma agrees_bad_length : forall (A : Type) (len n : nat), agrees (@bad_length Debug A len n) (@bad_length Release A len n).
Proof. intros. unfold bad_length. destruct (Z.eqb _ _); [apply agrees_panic | apply agrees_refl]. Qed.
#[export] Hint Resolve agrees_bad_length : agrees.
Lemma agrees_CSR_new : forall (T : Type) (a2 : nat) (a3 : nat) (a4 : list Z) (a5 : list Z) (a6 : list T), agrees (@CSR_new Debug T a2 a3 a4 a5 a6) (@CSR_new Release T a2 a3 a4 a5 a6).
Proof. agall @CSR_new. Qed.
#[export] Hint Resolve agrees_CSR_new : agrees.
Lemma agrees_CSC_new : forall (T : Type) (a2 : nat) (a3 : nat) (a4 : list Z) (a5 : list Z) (a6 : list T), agrees (@CSC_new Debug T a2 a3 a4 a5 a6) (@CSC_new Release T a2 a3 a4 a5 a6).
Proof. agall @CSC_new. Qed.
#[export] Hint Resolve agrees_CSC_new : agrees.
Lemma agrees_CSR_nnz : forall (T : Type) (a2 : CSR T), agrees (@CSR_nnz Debug T a2) (@CSR_nnz Release T a2).
Proof. agall @CSR_nnz. Qed.
#[export] Hint Resolve agrees_CSR_nnz : agrees.
Lemma agrees_CSC_nnz : forall (T : Type) (a2 : CSC T), agrees (@CSC_nnz Debug T a2) (@CSC_nnz Release T a2).
Proof. agall @CSC_nnz. Qed.
#[export] Hint Resolve agrees_CSC_nnz : agrees.
Lemma agrees_CSR_t : forall (T : Type) (a2 : CSR T), agrees (@CSR_t Debug T a2) (@CSR_t Release T a2).
Proof. agall @CSR_t. Qed.
#[export] Hint Resolve agrees_CSR_t : agrees.
Lemma agrees_CSC_t : forall (T : Type) (a2 : CSC T), agrees (@CSC_t Debug T a2) (@CSC_t Release T a2).
Proof. agall @CSC_t. Qed.
#[export] Hint Resolve agrees_CSC_t : agrees.
Lemma agrees_CSR_has_canonical_format : forall (T : Type) (a2 : ity) (a3 : CSR T), agrees (@CSR_has_canonical_format Debug T a2 a3) (@CSR_has_canonical_format Release T a2 a3).
Proof. agall @CSR_has_canonical_format. Qed.
#[export] Hint Resolve agrees_CSR_has_canonical_format : agrees.
Lemma agrees_CSR_has_sorted_indexes : forall (T : Type) (a2 : ity) (a3 : CSR T), agrees (@CSR_has_sorted_indexes Debug T a2 a3) (@CSR_has_sorted_indexes Release T a2 a3).
Proof. agall @CSR_has_sorted_indexes. Qed.
#[export] Hint Resolve agrees_CSR_has_sorted_indexes : agrees.
Lemma agrees_CSR_sort_indexes : forall (T : Type) (a2 : Scalar T) (a3 : CSR T), agrees (@CSR_sort_indexes Debug T a2 a3) (@CSR_sort_indexes Release T a2 a3).
Proof. agall @CSR_sort_indexes. Qed.
#[export] Hint Resolve agrees_CSR_sort_indexes : agrees.
Lemma agrees_CSR_prune : forall (T : Type) (a2 : Scalar T) (a3 : CSR T), agrees (@CSR_prune Debug T a2 a3) (@CSR_prune Release T a2 a3).
Proof. agall @CSR_prune. Qed.
#[export] Hint Resolve agrees_CSR_prune : agrees.
Lemma agrees_CSR_sum_duplicates : forall (T : Type) (a2 : Scalar T) (a3 : ity) (a4 : CSR T), agrees (@CSR_sum_duplicates Debug T a2 a3 a4) (@CSR_sum_duplicates Release T a2 a3 a4).
Proof. agall @CSR_sum_duplicates. Qed.
#[export] Hint Resolve agrees_CSR_sum_duplicates : agrees.
Lemma agrees_CSC_has_canonical_format : forall (T : Type) (a2 : ity) (a3 : CSC T), agrees (@CSC_has_canonical_format Debug T a2 a3) (@CSC_has_canonical_format Release T a2 a3).
Proof. agall @CSC_has_canonical_format. Qed.
#[export] Hint Resolve agrees_CSC_has_canonical_format : agrees.
Lemma agrees_CSC_has_sorted_indexes : forall (T : Type) (a2 : ity) (a3 : CSC T), agrees (@CSC_has_sorted_indexes Debug T a2 a3) (@CSC_has_sorted_indexes Release T a2 a3).
Proof. agall @CSC_has_sorted_indexes. Qed.
#[export] Hint Resolve agrees_CSC_has_sorted_indexes : agrees.
Lemma agrees_CSC_sort_indexes : forall (T : Type) (a2 : Scalar T) (a3 : CSC T), agrees (@CSC_sort_indexes Debug T a2 a3) (@CSC_sort_indexes Release T a2 a3).
Proof. agall @CSC_sort_indexes. Qed.
#[export] Hint Resolve agrees_CSC_sort_indexes : agrees.
Lemma agrees_CSC_prune : forall (T : Type) (a2 : CSC T), agrees (@CSC_prune Debug T a2) (@CSC_prune Release T a2).
Proof. agall @CSC_prune. Qed.
#[export] Hint Resolve agrees_CSC_prune : agrees.
Lemma agrees_CSC_sum_duplicates : forall (T : Type) (a2 : Scalar T) (a3 : ity) (a4 : CSC T), agrees (@CSC_sum_duplicates Debug T a2 a3 a4) (@CSC_sum_duplicates Release T a2 a3 a4).
Proof. agall @CSC_sum_duplicates. Qed.
#[export] Hint Resolve agrees_CSC_sum_duplicates : agrees.
Lemma agrees_Coo_to_csc : forall (T : Type) (a2 : Scalar T) (a3 : ity) (a4 : Coo T), agrees (@Coo_to_csc Debug T a2 a3 a4) (@Coo_to_csc Release T a2 a3 a4).
Proof. agall @Coo_to_csc. Qed.
#[export] Hint Resolve agrees_Coo_to_csc : agrees.
Lemma agrees_Coo_to_csr : forall (T : Type) (a2 : Scalar T) (a3 : ity) (a4 : Coo T), agrees (@Coo_to_csr Debug T a2 a3 a4) (@Coo_to_csr Release T a2 a3 a4).
Proof. agall @Coo_to_csr. Qed.
#[export] Hint Resolve agrees_Coo_to_csr : agrees.
Lemma agrees_CSR_to_csc : forall (T : Type) (a2 : Scalar T) (a3 : ity) (a4 : CSR T), agrees (@CSR_to_csc Debug T a2 a3 a4) (@CSR_to_csc Release T a2 a3 a4).
Proof. agall @CSR_to_csc. Qed.
#[export] Hint Resolve agrees_CSR_to_csc : agrees.
Lemma agrees_CSC_to_csr : forall (T : Type) (a2 : Scalar T) (a3 : ity) (a4 : CSC T), agrees (@CSC_to_csr Debug T a2 a3 a4) (@CSC_to_csr Release T a2 a3 a4).
Proof. agall @CSC_to_csr. Qed.
#[export] Hint Resolve agrees_CSC_to_csr : agrees.
Lemma agrees_CSC_to_coo : forall (T : Type) (a2 : Scalar T) (a3 : ity) (a4 : CSC T), agrees (@CSC_to_coo Debug T a2 a3 a4) (@CSC_to_coo Release T a2 a3 a4).
Proof. agall @CSC_to_coo. Qed.
#[export] Hint Resolve agrees_CSC_to_coo : agrees.
Lemma agrees_CSC_to_dense : forall (T : Type) (a2 : Scalar T) (a3 : ity) (a4 : CSC T), agrees (@CSC_to_dense Debug T a2 a3 a4) (@CSC_to_dense Release T a2 a3 a4).
Proof. agall @CSC_to_dense. Qed.
#[export] Hint Resolve agrees_CSC_to_dense : agrees.
Lemma agrees_CSR_from_dense : forall (T : Type) (a2 : Scalar T) (a3 : ity) (a4 : list (list T)), agrees (@CSR_from_dense Debug T a2 a3 a4) (@CSR_from_dense Release T a2 a3 a4).
Proof. agall @CSR_from_dense. Qed.
#[export] Hint Resolve agrees_CSR_from_dense : agrees.
Lemma agrees_CSC_from_dense : forall (T : Type) (a2 : Scalar T) (a3 : ity) (a4 : list (list T)), agrees (@CSC_from_dense Debug T a2 a3 a4) (@CSC_from_dense Release T a2 a3 a4).
Proof. agall @CSC_from_dense. Qed.
#[export] Hint Resolve agrees_CSC_from_dense : agrees.
Lemma agrees_Coo_upper : forall (T : Type) (a2 : ity) (a3 : Coo T) (a4 : Z), agrees (@Coo_upper Debug T a2 a3 a4) (@Coo_upper Release T a2 a3 a4).
Proof. agall @Coo_upper. Qed.
#[export] Hint Resolve agrees_Coo_upper : agrees.
Lemma agrees_CSR_diagonal : forall (T : Type) (a2 : Scalar T) (a3 : CSR T), agrees (@CSR_diagonal Debug T a2 a3) (@CSR_diagonal Release T a2 a3).
Proof. agall @CSR_diagonal. Qed.
#[export] Hint Resolve agrees_CSR_diagonal : agrees.
Lemma agrees_CSC_diagonal : forall (T : Type) (a2 : Scalar T) (a3 : CSC T), agrees (@CSC_diagonal Debug T a2 a3) (@CSC_diagonal Release T a2 a3).
Proof. agall @CSC_diagonal. Qed.
#[export] Hint Resolve agrees_CSC_diagonal : agrees.
Lemma agrees_Coo_v_stack : forall (T : Type) (a2 : ity) (a3 : Coo T) (a4 : Coo T), agrees (@Coo_v_stack Debug T a2 a3 a4) (@Coo_v_stack Release T a2 a3 a4).
Proof. agall @Coo_v_stack. Qed.
#[export] Hint Resolve agrees_Coo_v_stack : agrees.
Lemma agrees_Coo_v_stack3 : forall (T : Type) (a2 : ity) (a3 : Coo T) (a4 : Coo T) (a5 : Coo T), agrees (@Coo_v_stack3 Debug T a2 a3 a4 a5) (@Coo_v_stack3 Release T a2 a3 a4 a5).
Proof. agall @Coo_v_stack3. Qed.
#[export] Hint Resolve agrees_Coo_v_stack3 : agrees.
Lemma agrees_Coo_h_stack : forall (T : Type) (a2 : ity) (a3 : Coo T) (a4 : Coo T), agrees (@Coo_h_stack Debug T a2 a3 a4) (@Coo_h_stack Release T a2 a3 a4).
Proof. agall @Coo_h_stack. Qed.
#[export] Hint Resolve agrees_Coo_h_stack : agrees.
Lemma agrees_Coo_h_stack3 : forall (T : Type) (a2 : ity) (a3 : Coo T) (a4 : Coo T) (a5 : Coo T), agrees (@Coo_h_stack3 Debug T a2 a3 a4 a5) (@Coo_h_stack3 Release T a2 a3 a4 a5).
Proof. agall @Coo_h_stack3. Qed.
#[export] Hint Resolve agrees_Coo_h_stack3 : agrees.
Lemma agrees_Coo_compose : forall (T : Type) (a2 : ity) (a3 : Coo T) (a4 : Coo T) (a5 : Coo T) (a6 : Coo T), agrees (@Coo_compose Debug T a2 a3 a4 a5 a6) (@Coo_compose Release T a2 a3 a4 a5 a6).
Proof. agall @Coo_compose. Qed.
#[export] Hint Resolve agrees_Coo_compose : agrees.
Lemma agrees_Coo_compose3 : forall (T : Type) (a2 : ity) (a3 : Coo T) (a4 : Coo T) (a5 : Coo T) (a6 : Coo T) (a7 : Coo T) (a8 : Coo T) (a9 : Coo T) (a10 : Coo T) (a11 : Coo T), agrees (@Coo_compose3 Debug T a2 a3 a4 a5 a6 a7 a8 a9 a10 a11) (@Coo_compose3 Release T a2 a3 a4 a5 a6 a7 a8 a9 a10 a11).
Proof. agall @Coo_compose3. Qed.
#[export] Hint Resolve agrees_Coo_compose3 : agrees.
Lemma agrees_CSR_h_stack : forall (T : Type) (a2 : Scalar T) (a3 : ity) (a4 : CSR T) (a5 : CSR T), agrees (@CSR_h_stack Debug T a2 a3 a4 a5) (@CSR_h_stack Release T a2 a3 a4 a5).
Proof. agall @CSR_h_stack. Qed.
#[export] Hint Resolve agrees_CSR_h_stack : agrees.
Lemma agrees_CSC_compose : forall (T : Type) (a2 : Scalar T) (a3 : ity) (a4 : CSC T) (a5 : CSC T) (a6 : CSC T) (a7 : CSC T), agrees (@CSC_compose Debug T a2 a3 a4 a5 a6 a7) (@CSC_compose Release T a2 a3 a4 a5 a6 a7).
Proof. agall @CSC_compose. Qed.
#[export] Hint Resolve agrees_CSC_compose : agrees.
Lemma agrees_CSR_mat_mat : forall (T : Type) (a2 : Scalar T) (a3 : ity) (a4 : CSR T) (a5 : CSR T), agrees (@CSR_mat_mat Debug T a2 a3 a4 a5) (@CSR_mat_mat Release T a2 a3 a4 a5).
Proof. agall @CSR_mat_mat. Qed.
#[export] Hint Resolve agrees_CSR_mat_mat : agrees.
Lemma agrees_CSC_mat_mat : forall (T : Type) (a2 : Scalar T) (a3 : ity) (a4 : CSC T) (a5 : CSC T), agrees (@CSC_mat_mat Debug T a2 a3 a4 a5) (@CSC_mat_mat Release T a2 a3 a4 a5).
Proof. agall @CSC_mat_mat. Qed.
#[export] Hint Resolve agrees_CSC_mat_mat : agrees.
Lemma agrees_CSR_select : forall (T : Type) (a2 : Scalar T) (a3 : ity) (a4 : CSR T) (a5 : option (list Z)) (a6 : option (list Z)), agrees (@CSR_select Debug T a2 a3 a4 a5 a6) (@CSR_select Release T a2 a3 a4 a5 a6).
Proof. agall @CSR_select. Qed.
#[export] Hint Resolve agrees_CSR_select : agrees.
Lemma agrees_CSC_select : forall (T : Type) (a2 : Scalar T) (a3 : ity) (a4 : CSC T) (a5 : option (list Z)) (a6 : option (list Z)), agrees (@CSC_select Debug T a2 a3 a4 a5 a6) (@CSC_select Release T a2 a3 a4 a5 a6).
Proof. agall @CSC_select. Qed.
#[export] Hint Resolve agrees_CSC_select : agrees.
Lemma agrees_CSR_add : forall (T : Type) (a2 : Scalar T) (a3 : ity) (a4 : CSR T) (a5 : CSR T), agrees (@CSR_add Debug T a2 a3 a4 a5) (@CSR_add Release T a2 a3 a4 a5).
Proof. agall @CSR_add. Qed.
#[export] Hint Resolve agrees_CSR_add : agrees.
Lemma agrees_CSR_sub : forall (T : Type) (a2 : Scalar T) (a3 : ity) (a4 : CSR T) (a5 : CSR T), agrees (@CSR_sub Debug T a2 a3 a4 a5) (@CSR_sub Release T a2 a3 a4 a5).
Proof. agall @CSR_sub. Qed.
#[export] Hint Resolve agrees_CSR_sub : agrees.
Lemma agrees_CSR_mul : forall (T : Type) (a2 : Scalar T) (a3 : ity) (a4 : CSR T) (a5 : CSR T), agrees (@CSR_mul Debug T a2 a3 a4 a5) (@CSR_mul Release T a2 a3 a4 a5).
Proof. agall @CSR_mul. Qed.
#[export] Hint Resolve agrees_CSR_mul : agrees.
Lemma agrees_CSC_add : forall (T : Type) (a2 : Scalar T) (a3 : ity) (a4 : CSC T) (a5 : CSC T), agrees (@CSC_add Debug T a2 a3 a4 a5) (@CSC_add Release T a2 a3 a4 a5).
Proof. agall @CSC_add. Qed.
#[export] Hint Resolve agrees_CSC_add : agrees.
Lemma agrees_CSC_subtract : forall (T : Type) (a2 : Scalar T) (a3 : ity) (a4 : CSC T) (a5 : CSC T), agrees (@CSC_subtract Debug T a2 a3 a4 a5) (@CSC_subtract Release T a2 a3 a4 a5).
Proof. agall @CSC_subtract. Qed.
#[export] Hint Resolve agrees_CSC_subtract : agrees.
Lemma agrees_CSC_op_add : forall (T : Type) (a2 : Scalar T) (a3 : ity) (a4 : CSC T) (a5 : CSC T), agrees (@CSC_op_add Debug T a2 a3 a4 a5) (@CSC_op_add Release T a2 a3 a4 a5).
Proof. agall @CSC_op_add. Qed.
#[export] Hint Resolve agrees_CSC_op_add : agrees.
Lemma agrees_CSC_op_sub : forall (T : Type) (a2 : Scalar T) (a3 : ity) (a4 : CSC T) (a5 : CSC T), agrees (@CSC_op_sub Debug T a2 a3 a4 a5) (@CSC_op_sub Release T a2 a3 a4 a5).
Proof. agall @CSC_op_sub. Qed.
#[export] Hint Resolve agrees_CSC_op_sub : agrees.
Lemma agrees_CSC_mul : forall (T : Type) (a2 : Scalar T) (a3 : ity) (a4 : CSC T) (a5 : CSC T), agrees (@CSC_mul Debug T a2 a3 a4 a5) (@CSC_mul Release T a2 a3 a4 a5).
Proof. agall @CSC_mul. Qed.
#[export] Hint Resolve agrees_CSC_mul : agrees.
Lemma agrees_CSC_mul_csr : forall (T : Type) (a2 : Scalar T) (a3 : ity) (a4 : CSC T) (a5 : CSR T), agrees (@CSC_mul_csr Debug T a2 a3 a4 a5) (@CSC_mul_csr Release T a2 a3 a4 a5).
Proof. agall @CSC_mul_csr. Qed.
#[export] Hint Resolve agrees_CSC_mul_csr : agrees.
Lemma agrees_Coo_add : forall (T : Type) (a2 : Scalar T) (a3 : ity) (a4 : Coo T) (a5 : Coo T), agrees (@Coo_add Debug T a2 a3 a4 a5) (@Coo_add Release T a2 a3 a4 a5).
Proof. agall @Coo_add. Qed.
#[export] Hint Resolve agrees_Coo_add : agrees.
Lemma agrees_CSR_mul_scalar : forall (T : Type) (a2 : Scalar T) (a3 : CSR T) (a4 : T), agrees (@CSR_mul_scalar Debug T a2 a3 a4) (@CSR_mul_scalar Release T a2 a3 a4).
Proof. agall @CSR_mul_scalar. Qed.
#[export] Hint Resolve agrees_CSR_mul_scalar : agrees.
Lemma agrees_CSR_scalar_mul : forall (T : Type) (a2 : Scalar T) (a3 : T) (a4 : CSR T), agrees (@CSR_scalar_mul Debug T a2 a3 a4) (@CSR_scalar_mul Release T a2 a3 a4).
Proof. agall @CSR_scalar_mul. Qed.
#[export] Hint Resolve agrees_CSR_scalar_mul : agrees.
Lemma agrees_CSC_mul_scalar : forall (T : Type) (a2 : Scalar T) (a3 : CSC T) (a4 : T), agrees (@CSC_mul_scalar Debug T a2 a3 a4) (@CSC_mul_scalar Release T a2 a3 a4).
Proof. agall @CSC_mul_scalar. Qed.
#[export] Hint Resolve agrees_CSC_mul_scalar : agrees.
Lemma agrees_CSC_scalar_mul : forall (T : Type) (a2 : Scalar T) (a3 : T) (a4 : CSC T), agrees (@CSC_scalar_mul Debug T a2 a3 a4) (@CSC_scalar_mul Release T a2 a3 a4).
Proof. agall @CSC_scalar_mul. Qed.
#[export] Hint Resolve agrees_CSC_scalar_mul : agrees.
Lemma agrees_CSR_neg : forall (T : Type) (a2 : ScalarNeg T) (a3 : CSR T), agrees (@CSR_neg Debug T a2 a3) (@CSR_neg Release T a2 a3).
Proof. agall @CSR_neg. Qed.
#[export] Hint Resolve agrees_CSR_neg : agrees.
Lemma agrees_CSC_neg : forall (T : Type) (a2 : ScalarNeg T) (a3 : CSC T), agrees (@CSC_neg Debug T a2 a3) (@CSC_neg Release T a2 a3).
Proof. agall @CSC_neg. Qed.
#[export] Hint Resolve agrees_CSC_neg : agrees.
Lemma agrees_CSR_with_real : forall (F C : Type) (a2 : Scalar F) (a3 : ComplexOps F C) (a4 : CSR F), agrees (@CSR_with_real Debug F C a2 a3 a4) (@CSR_with_real Release F C a2 a3 a4).
Proof. agall @CSR_with_real. Qed.
#[export] Hint Resolve agrees_CSR_with_real : agrees.
Lemma agrees_CSR_with_imag : forall (F C : Type) (a2 : Scalar F) (a3 : ComplexOps F C) (a4 : CSR F), agrees (@CSR_with_imag Debug F C a2 a3 a4) (@CSR_with_imag Release F C a2 a3 a4).
Proof. agall @CSR_with_imag. Qed.
#[export] Hint Resolve agrees_CSR_with_imag : agrees.
Lemma agrees_CSR_conj : forall (F C : Type) (a2 : ComplexOps F C) (a3 : CSR C), agrees (@CSR_conj Debug F C a2 a3) (@CSR_conj Release F C a2 a3).
Proof. agall @CSR_conj. Qed.
#[export] Hint Resolve agrees_CSR_conj : agrees.
Lemma agrees_CSR_real : forall (F C : Type) (a2 : ComplexOps F C) (a3 : CSR C), agrees (@CSR_real Debug F C a2 a3) (@CSR_real Release F C a2 a3).
Proof. agall @CSR_real. Qed.
#[export] Hint Resolve agrees_CSR_real : agrees.
Lemma agrees_CSR_imag : forall (F C : Type) (a2 : ComplexOps F C) (a3 : CSR C), agrees (@CSR_imag Debug F C a2 a3) (@CSR_imag Release F C a2 a3).
Proof. agall @CSR_imag. Qed.
#[export] Hint Resolve agrees_CSR_imag : agrees.
Lemma agrees_CSR_h : forall (F C : Type) (a2 : ComplexOps F C) (a3 : CSR C), agrees (@CSR_h Debug F C a2 a3) (@CSR_h Release F C a2 a3).
Proof. agall @CSR_h. Qed.
#[export] Hint Resolve agrees_CSR_h : agrees.
Lemma agrees_CSC_conj : forall (F C : Type) (a2 : ComplexOps F C) (a3 : CSC C), agrees (@CSC_conj Debug F C a2 a3) (@CSC_conj Release F C a2 a3).
Proof. agall @CSC_conj. Qed.
#[export] Hint Resolve agrees_CSC_conj : agrees.
Lemma agrees_CSC_real : forall (F C : Type) (a2 : ComplexOps F C) (a3 : CSC C), agrees (@CSC_real Debug F C a2 a3) (@CSC_real Release F C a2 a3).
Proof. agall @CSC_real. Qed.
#[export] Hint Resolve agrees_CSC_real : agrees.
Lemma agrees_CSC_imag : forall (F C : Type) (a2 : ComplexOps F C) (a3 : CSC C), agrees (@CSC_imag Debug F C a2 a3) (@CSC_imag Release F C a2 a3).
Proof. agall @CSC_imag. Qed.
#[export] Hint Resolve agrees_CSC_imag : agrees.
Lemma agrees_CSC_h : forall (F C : Type) (a2 : ComplexOps F C) (a3 : CSC C), agrees (@CSC_h Debug F C a2 a3) (@CSC_h Release F C a2 a3).
Proof. agall @CSC_h. Qed.
#[export] Hint Resolve agrees_CSC_h : agrees.
Lemma agrees_scc_finish : forall (a1 : nat) (a2 : list Z) (a3 : list Z) (a4 : nat) (a5 : scc_state), agrees (@scc_finish Debug a1 a2 a3 a4 a5) (@scc_finish Release a1 a2 a3 a4 a5).
Proof. agall @scc_finish. Qed.
#[export] Hint Resolve agrees_scc_finish : agrees.
Lemma agrees_connected_components_directed : forall (a1 : nat) (a2 : list Z) (a3 : list Z), agrees (@connected_components_directed Debug a1 a2 a3) (@connected_components_directed Release a1 a2 a3).
Proof. agall @connected_components_directed. Qed.
#[export] Hint Resolve agrees_connected_components_directed : agrees.
Lemma agrees_cs_graph_components : forall (a1 : ity) (a2 : ity) (a3 : nat) (a4 : list Z) (a5 : list Z) (a6 : list Z), agrees (@cs_graph_components Debug a1 a2 a3 a4 a5 a6) (@cs_graph_components Release a1 a2 a3 a4 a5 a6).
Proof. agall @cs_graph_components. Qed.
#[export] Hint Resolve agrees_cs_graph_components : agrees.
Lemma agrees_connected_components : forall (a1 : ity) (T : Type) (a3 : Scalar T) (a4 : CSR T) (a5 : bool) (a6 : connection), agrees (@connected_components Debug a1 T a3 a4 a5 a6) (@connected_components Release a1 T a3 a4 a5 a6).
Proof. agall @connected_components. Qed.
#[export] Hint Resolve agrees_connected_components : agrees.
Lemma agrees_depth_first_order : forall (a1 : ity) (T : Type) (a3 : Scalar T) (a4 : CSR T) (a5 : nat) (a6 : bool), agrees (@depth_first_order Debug a1 T a3 a4 a5 a6) (@depth_first_order Release a1 T a3 a4 a5 a6).
Proof. agall @depth_first_order. Qed.
#[export] Hint Resolve agrees_depth_first_order : agrees.
Lemma agrees_CSR_connected_components : forall (a1 : ity) (T : Type) (a3 : ity) (a4 : CSR T), agrees (@CSR_connected_components Debug a1 T a3 a4) (@CSR_connected_components Release a1 T a3 a4).
Proof. agall @CSR_connected_components. Qed.
#[export] Hint Resolve agrees_CSR_connected_components : agrees.
Lemma agrees_DoK_to_csc : forall (T : Type) (a2 : Scalar T) (a3 : ity) (a4 : DoK T) (a5 : list (prod (prod Z Z) T)), agrees (@DoK_to_csc Debug T a2 a3 a4 a5) (@DoK_to_csc Release T a2 a3 a4 a5).
Proof. agall @DoK_to_csc. Qed.
#[export] Hint Resolve agrees_DoK_to_csc : agrees.
Lemma agrees_DoK_to_csr : forall (T : Type) (a2 : Scalar T) (a3 : ity) (a4 : DoK T) (a5 : list (prod (prod Z Z) T)), agrees (@DoK_to_csr Debug T a2 a3 a4 a5) (@DoK_to_csr Release T a2 a3 a4 a5).
Proof. agall @DoK_to_csr. Qed.
#[export] Hint Resolve agrees_DoK_to_csr : agrees.
Lemma agrees_csr_table_bytes : forall (T : Type) (a2 : forall _ : T, String.string) (a3 : nat) (a4 : nat) (a5 : list Z) (a6 : list Z) (a7 : list T) (a8 : bool), agrees (@csr_table_bytes Debug T a2 a3 a4 a5 a6 a7 a8) (@csr_table_bytes Release T a2 a3 a4 a5 a6 a7 a8).
Proof. agall @csr_table_bytes. Qed.
#[export] Hint Resolve agrees_csr_table_bytes : agrees.
Lemma agrees_csr_table : forall (T : Type) (a2 : forall _ : T, String.string) (a3 : forall _ : String.string, String.string) (a4 : nat) (a5 : nat) (a6 : list Z) (a7 : list Z) (a8 : list T) (a9 : bool), agrees (@csr_table Debug T a2 a3 a4 a5 a6 a7 a8 a9) (@csr_table Release T a2 a3 a4 a5 a6 a7 a8 a9).
Proof. agall @csr_table. Qed.
#[export] Hint Resolve agrees_csr_table : agrees.
Lemma agrees_CSR_to_table : forall (T : Type) (a2 : forall _ : T, String.string) (a3 : forall _ : String.string, String.string) (a4 : CSR T), agrees (@CSR_to_table Debug T a2 a3 a4) (@CSR_to_table Release T a2 a3 a4).
Proof. agall @CSR_to_table. Qed.
#[export] Hint Resolve agrees_CSR_to_table : agrees.
Lemma agrees_eigs_product : forall (F : Type) (a2 : Scalar F) (H : Type) (a4 : CSC F) (a5 : nat) (a6 : arpack F H), agrees (@eigs_product Debug F a2 H a4 a5 a6) (@eigs_product Release F a2 H a4 a5 a6).
Proof. agall @eigs_product. Qed.
#[export] Hint Resolve agrees_eigs_product : agrees.
Lemma agrees_eigs_drive : forall (F : Type) (a2 : Scalar F) (H : Type) (a4 : forall (_ : sizes) (_ : arpack F H), arpack F H) (a5 : nat) (a6 : CSC F) (a7 : nat) (a8 : nat) (a9 : H), agrees (@eigs_drive Debug F a2 H a4 a5 a6 a7 a8 a9) (@eigs_drive Release F a2 H a4 a5 a6 a7 a8 a9).
Proof. agall @eigs_drive. Qed.
#[export] Hint Resolve agrees_eigs_drive : agrees.
Lemma agrees_eigs_vectors : forall (F : Type) (a2 : Scalar F) (a3 : ScalarNeg F) (a4 : nat) (a5 : nat) (a6 : list F) (a7 : list F) (a8 : list (list (prod F F))) (a9 : nat), agrees (@eigs_vectors Debug F a2 a3 a4 a5 a6 a7 a8 a9) (@eigs_vectors Release F a2 a3 a4 a5 a6 a7 a8 a9).
Proof. agall @eigs_vectors. Qed.
#[export] Hint Resolve agrees_eigs_vectors : agrees.
Lemma agrees_eigs_post : forall (F : Type) (a2 : Scalar F) (a3 : ScalarNeg F) (a4 : nat) (a5 : nat) (a6 : list F) (a7 : list F) (a8 : list F) (a9 : nat), agrees (@eigs_post Debug F a2 a3 a4 a5 a6 a7 a8 a9) (@eigs_post Release F a2 a3 a4 a5 a6 a7 a8 a9).
Proof. agall @eigs_post. Qed.
#[export] Hint Resolve agrees_eigs_post : agrees.
Lemma agrees_eigs : forall (F : Type) (a2 : Scalar F) (a3 : ScalarNeg F) (H : Type) (a5 : forall (_ : sizes) (_ : arpack F H), arpack F H) (a6 : forall (_ : sizes) (_ : nat) (_ : Z) (_ : list F) (_ : list F) (_ : list F) (_ : list F) (_ : arpack F H), prod (prod (prod (list F) (list F)) (list F)) (arpack F H)) (a7 : nat) (a8 : CSC F) (a9 : nat) (a10 : H), agrees (@eigs Debug F a2 a3 H a5 a6 a7 a8 a9 a10) (@eigs Release F a2 a3 H a5 a6 a7 a8 a9 a10).
Proof. agall @eigs. Qed.
#[export] Hint Resolve agrees_eigs : agrees.
