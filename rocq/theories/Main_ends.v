(** Proofs of the theorems of Props_ends.v, under the same names in lower case. *)
From Coq Require Import String.
From Verif Require Import Rust Scalar Model_kernels Model_matrix Model_graph Model_dok Model_text Spec SpecMore SpecGraph Wp Rep ScatterProofs ConvProofs
  LinProofs TableProofs EndProofs EndAll ReleaseProofs ReleaseAll Main_release Main_graph Main_more.

Section Count.
Context {T : Type} {SC : Scalar T}.
Variable I : ity.
Lemma c82_csr_nnz : forall m : CSR T, wf_csr I m -> CSR_nnz m = Ok (length (csr_entries m)).
Proof. intros m W. destruct (wf_csr_rep _ _ W) as [R HR]. rewrite (csr_entries_count I m W), (csr_rep_count _ _ _ HR). apply (CSR_nnz_rep _ _ _ HR). Qed.
Lemma c82_csc_nnz : forall m : CSC T, wf_csc I m -> CSC_nnz m = Ok (length (csc_entries m)).
Proof. intros m W. destruct (wf_csc_rep _ _ W) as [R HR]. rewrite (csc_entries_count I m W), (csc_rep_count _ _ _ HR). apply (CSC_nnz_rep _ _ _ HR). Qed.
Lemma c82_coo_nnz : forall m : Coo T, wf_coo I m -> Coo_nnz m = length (coo_entries m).
Proof. intros m W. symmetry. apply (coo_entries_length I m W). Qed.
Lemma nodup_at_length (r : list (nat * T)) k : nodup_row r -> length (at_ k r) = if occupied (at_ k r) then 1 else 0.
Proof.
  intros N. rewrite at_length. assert (L := at_length k r). unfold nodup_row in N. rewrite (NoDup_count_occ Nat.eq_dec) in N. specialize (N k). destruct (at_ k r); cbn in *; lia.
Qed.
Lemma c82_csr_positions : forall m : CSR T, wf_csr I m -> csr_nodup m ->
  CSR_nnz m = Ok (length (filter (fun q => occupied (csr_at m (fst q) (snd q))) (list_prod (seq 0 (csr_rows m)) (seq 0 (csr_cols m))))).
Proof.
  intros m W N. rewrite (c82_csr_nnz m W), (csr_entries_count I m W), (csr_count_grid I m W), filter_prod_length. f_equal. apply grid_ext. intros i j Hi Hj. cbn [fst snd]. apply nodup_at_length, N, Hi.
Qed.
Lemma c82_csc_positions : forall m : CSC T, wf_csc I m -> csc_nodup m ->
  CSC_nnz m = Ok (length (filter (fun q => occupied (csc_at m (snd q) (fst q))) (list_prod (seq 0 (csc_cols m)) (seq 0 (csc_rows m))))).
Proof.
  intros m W N. rewrite (c82_csc_nnz m W), (csc_entries_count I m W), (csc_count_grid I m W), filter_prod_length. f_equal. apply grid_ext. intros i j Hi Hj. cbn [fst snd]. apply nodup_at_length, N, Hi.
Qed.
Lemma c82_csc_prune : forall m : CSC T, wf_csc I m -> exists r, CSC_prune m = Ok r /\ wf_csc I r /\ csc_tight r /\ csc_rows r = csc_rows m /\ csc_cols r = csc_cols m /\
  (forall j, j < csc_cols m -> csc_col r j = csc_col m j) /\ (csc_tight m -> r = m).
Proof.
  intros m W. destruct (wf_csc_rep _ _ W) as [R HR]. eexists. split; [apply (CSC_prune_rep I _ _ HR)|]. pose proof HR as [L HC]. pose proof (crep_len_j _ _ _ _ _ _ HC) as Lj. pose proof (crep_len_x _ _ _ _ _ _ HC) as Lx.
  assert (HR' : csc_rep I (mkCSC (csc_rows m) (csc_cols m) (firstn (length (concat R)) (csc_rowidx m)) (csc_colptr m) (firstn (length (concat R)) (csc_values m))) R) by (split; [exact L|apply crep_resize, HC]).
  split; [apply (csc_rep_wf _ _ _ HR')|]. split; [|split; [reflexivity|split; [reflexivity|split]]].
  - unfold csc_tight. rewrite (csc_rep_count _ _ _ HR'). cbn [csc_rowidx csc_values]. rewrite !firstn_length. lia.
  - intros j Hj. rewrite (csc_rep_col _ _ _ _ HR'), (csc_rep_col _ _ _ _ HR). reflexivity.
  - intros [T1 T2]. rewrite (csc_rep_count _ _ _ HR) in T1, T2. rewrite <- T1 at 1. rewrite <- T2 at 1. rewrite !firstn_all. destruct m; reflexivity.
Qed.
End Count.

Section Ends.
Context {T : Type} {SC : Scalar T} {SO : ScalarOrd T}.
Variable I : ity.
Variable b : Build.
Lemma c83_row_kernels : forall (i1 i2 i3 i4 : Z) (n1 n2 n3 : nat) (p1 p2 p3 p4 p5 p6 : list Z) (x1 x2 x3 : list T) (m1 : list (list T)) (w1 : list bool) (l1 : list nat),
  ends (csr_diagonal (BD:=b) i1 n1 n2 p1 p2 x1 x2) /\ ends (csr_scale_rows n1 n2 p1 p2 x1 x2) /\
  ends (csr_scale_columns n1 n2 p1 p2 x1 x2) /\ ends (csr_todense n1 n2 p1 p2 x1 m1) /\
  ends (csr_has_sorted_indices (BD:=b) I n1 p1 p2) /\ ends (csr_has_canonical_format (BD:=b) I n1 p1 p2) /\
  ends (csr_sort_indices (BD:=b) n1 p1 p2 x1) /\ ends (csr_tocsc (BD:=b) I n1 n2 p1 p2 x1 p3 p4 x2) /\
  ends (csr_matmat_maxnnz n1 n2 p1 p2 p3 p4) /\ ends (csr_matmat (BD:=b) I n1 n2 p1 p2 x1 p3 p4 x2 p5 p6 x3) /\
  ends (csr_ne_csr (BD:=b) I n1 n2 p1 p2 x1 p3 p4 x2 p5 p6 w1) /\ ends (csr_eq_csr (BD:=b) I n1 n2 p1 p2 x1 p3 p4 x2 p5 p6 w1) /\
  ends (csr_mul_csr (BD:=b) I n1 n2 p1 p2 x1 p3 p4 x2 p5 p6 x3) /\ ends (csr_add_csr (BD:=b) I n1 n2 p1 p2 x1 p3 p4 x2 p5 p6 x3) /\
  ends (csr_sub_csr (BD:=b) I n1 n2 p1 p2 x1 p3 p4 x2 p5 p6 x3) /\ ends (csr_lt_csr (BD:=b) I n1 n2 p1 p2 x1 p3 p4 x2 p5 p6 w1) /\
  ends (csr_le_csr (BD:=b) I n1 n2 p1 p2 x1 p3 p4 x2 p5 p6 w1) /\ ends (csr_gt_csr (BD:=b) I n1 n2 p1 p2 x1 p3 p4 x2 p5 p6 w1) /\
  ends (csr_ge_csr (BD:=b) I n1 n2 p1 p2 x1 p3 p4 x2 p5 p6 w1) /\ ends (csr_max_csr (BD:=b) I n1 n2 p1 p2 x1 p3 p4 x2 p5 p6 x3) /\
  ends (csr_min_csr (BD:=b) I n1 n2 p1 p2 x1 p3 p4 x2 p5 p6 x3) /\ ends (csr_sum_duplicates I n1 n2 p1 p2 x1) /\
  ends (csr_eliminate_zeros I n1 n2 p1 p2 x1) /\ ends (csr_matvec n1 n2 p1 p2 x1 x2 x3) /\
  ends (csr_matvecs n1 n2 n3 p1 p2 x1 x2 x3) /\ ends (csr_select I n1 n2 p1 p2 x1 p3 p4 p5 p6 x2) /\
  ends (csr_row_index n1 l1 p1 p2 x1 p3 x2) /\ ends (csr_column_index1 (BD:=b) I n1 l1 n2 n3 p1 p2 p3 p4) /\
  ends (csr_column_index2 p1 p2 n1 p3 x1 p4 x2) /\ ends (csr_count_diagonals (BD:=b) n1 p1 p2) /\
  ends (csr_tocoo I n1 n2 p1 p2 x1 p3 p4 x2) /\ ends (get_csr_submatrix (BD:=b) I n1 n2 p1 p2 x1 i1 i2 i3 i4 p3 p4 x2) /\
  ends (expandptr I n1 p1 p2).
Proof. intros. repeat split; auto with ends. Qed.
Lemma c83_col_coord_kernels : forall (n1 n2 n3 : nat) (p1 p2 p3 p4 p5 p6 : list Z) (x1 x2 x3 : list T) (f1 : bool) (i1 : Z),
  ends (coo_tocsr (BD:=b) I n1 n2 n3 p1 p2 x1 p3 p4 x2) /\ ends (coo_todense n1 n2 n3 p1 p2 x1 x2 f1) /\
  ends (coo_matvec n1 p1 p2 x1 x2 x3) /\ ends (csc_matvec n1 n2 p1 p2 x1 x2 x3) /\
  ends (csc_matvecs n1 n2 n3 p1 p2 x1 x2 x3) /\ ends (csc_diagonal (BD:=b) i1 n1 n2 p1 p2 x1 x2) /\
  ends (csc_tocsr (BD:=b) I n1 n2 p1 p2 x1 p3 p4 x2) /\ ends (csc_matmat_maxnnz n1 n2 p1 p2 p3 p4) /\
  ends (csc_matmat (BD:=b) I n1 n2 p1 p2 x1 p3 p4 x2 p5 p6 x3).
Proof. intros. repeat split; auto with ends. Qed.
Lemma c83_csr : forall (a1 a2 : CSR T) (m1 : list (list T)) (x1 : list T) (o1 o2 : option (list Z)) (i1 i2 : Z) (F : ity) (show : (T -> string)),
  ends (CSR_has_canonical_format (BD:=b) I a1) /\ ends (CSR_has_sorted_indexes (BD:=b) I a1) /\ ends (CSR_sort_indexes (BD:=b) a1) /\
  ends (CSR_sum_duplicates (BD:=b) I a1) /\ ends (CSR_to_coo I a1) /\ ends (CSR_to_csc (BD:=b) I a1) /\ ends (CSR_to_dense a1) /\
  ends (CSR_from_dense (BD:=b) I m1) /\ ends (CSR_with_diagonal I x1) /\ ends (CSR_diagonal (BD:=b) a1) /\
  ends (CSR_h_stack (BD:=b) I a1 a2) /\ ends (CSR_mat_vec a1 x1) /\ ends (CSR_mat_mat (BD:=b) I a1 a2) /\
  ends (CSR_select (BD:=b) I a1 o1 o2) /\ ends (CSR_get a1 i1 i2) /\ ends (CSR_add (BD:=b) I a1 a2) /\ ends (CSR_sub (BD:=b) I a1 a2) /\
  ends (CSR_mul (BD:=b) I a1 a2) /\ ends (CSR_connected_components (BD:=b) I F a1) /\ ends (CSR_to_string show a1).
Proof. intros. repeat split; auto with ends. Qed.
Lemma c83_csc : forall (b1 b2 b3 b4 : CSC T) (m1 : list (list T)) (x1 : list T) (o1 o2 : option (list Z)) (a1 : CSR T) (show : (T -> string)),
  ends (CSC_has_canonical_format (BD:=b) I b1) /\ ends (CSC_has_sorted_indexes (BD:=b) I b1) /\ ends (CSC_sort_indexes (BD:=b) b1) /\
  ends (CSC_sum_duplicates (BD:=b) I b1) /\ ends (CSC_to_csr (BD:=b) I b1) /\ ends (CSC_to_coo (BD:=b) I b1) /\ ends (CSC_to_dense (BD:=b) I b1) /\
  ends (CSC_from_dense (BD:=b) I m1) /\ ends (CSC_with_diagonal I x1) /\ ends (CSC_diagonal (BD:=b) b1) /\
  ends (CSC_compose (BD:=b) I b1 b2 b3 b4) /\ ends (CSC_mat_vec b1 x1) /\ ends (CSC_mat_mat (BD:=b) I b1 b2) /\
  ends (CSC_select (BD:=b) I b1 o1 o2) /\ ends (CSC_add (BD:=b) I b1 b2) /\ ends (CSC_subtract (BD:=b) I b1 b2) /\
  ends (CSC_op_add (BD:=b) I b1 b2) /\ ends (CSC_op_sub (BD:=b) I b1 b2) /\ ends (CSC_mul (BD:=b) I b1 b2) /\ ends (CSC_mul_csr (BD:=b) I b1 a1) /\
  ends (CSC_to_string show b1).
Proof. intros. repeat split; auto with ends. Qed.
Lemma c83_coo : forall (c1 c2 c3 c4 c5 c6 c7 c8 c9 : Coo T) (m1 : list (list T)) (x1 : list T) (i1 : Z) (show : (T -> string)),
  ends (Coo_to_csc (BD:=b) I c1) /\ ends (Coo_to_csr (BD:=b) I c1) /\ ends (Coo_to_dense c1) /\ ends (Coo_from_dense I m1) /\
  ends (Coo_with_diagonal I x1) /\ ends (Coo_upper (BD:=b) I c1 i1) /\ ends (Coo_diagonal c1) /\
  ends (Coo_v_stack (BD:=b) I c1 c2) /\ ends (Coo_v_stack3 (BD:=b) I c1 c2 c3) /\ ends (Coo_h_stack (BD:=b) I c1 c2) /\
  ends (Coo_h_stack3 (BD:=b) I c1 c2 c3) /\ ends (Coo_compose (BD:=b) I c1 c2 c3 c4) /\
  ends (Coo_compose3 (BD:=b) I c1 c2 c3 c4 c5 c6 c7 c8 c9) /\ ends (Coo_add (BD:=b) I c1 c2) /\ ends (Coo_to_string show c1).
Proof. intros. repeat split; auto with ends. Qed.
Lemma c83_dok : forall (m1 : list (list T)) (d : DoK T) (order : list (Z * Z * T)) (show : (T -> string)),
  ends (DoK_from_dense I m1) /\ ends (DoK_to_dense d order) /\ ends (DoK_to_coo d order) /\
  ends (DoK_to_csc (BD:=b) I d order) /\ ends (DoK_to_csr (BD:=b) I d order) /\ ends (DoK_to_string show order).
Proof. intros. repeat split; auto with ends. Qed.
Lemma c83_op_kernels : forall {T2} {NZ : Nonzero T2} (op : T -> T -> res T2) (n1 n2 : nat) (p1 p2 p3 p4 p5 p6 : list Z) (x1 x2 : list T) (w1 : list T2) (x3 : list T),
  ((forall u v, ends (op u v)) -> ends (csr_binop_csr (BD:=b) I op n1 n2 p1 p2 x1 p3 p4 x2 p5 p6 w1)) /\
  ((forall u v : T, ends (sdiv u v)) -> ends (csr_div_csr (BD:=b) I n1 n2 p1 p2 x1 p3 p4 x2 p5 p6 x3)).
Proof. intros. split; intros H; [apply ends_binop, H|apply ends_csr_div_csr, H]. Qed.
Lemma c83_row_slice : forall fuel start stop step (p j : list Z) (x : list T) bj bx, 0 < step -> stop - start < fuel -> ends (csr_row_slice (BD:=Debug) fuel start stop step p j x bj bx).
Proof. intros. apply ends_row_slice; [left; assumption|assumption]. Qed.
Lemma c83_row_slice_release : forall fuel start stop step (p j : list Z) (x : list T) bj bx, 0 < step -> (Z.of_nat step <= imax Usize)%Z -> (Z.of_nat (length p) <= 2 ^ 63)%Z -> stop + start + 1 < fuel ->
  ends (csr_row_slice (BD:=Release) fuel start stop step p j x bj bx).
Proof. exact ends_row_slice_release. Qed.
Lemma c83_graph : forall F n p j flag (g : CSR T) s (directed : bool) conn,
  ends (cs_graph_components (BD:=b) I F n p j flag) /\ ends (depth_first_order (BD:=b) I g s directed) /\
  (directed = false \/ conn = Weak -> ends (connected_components (BD:=b) I g directed conn)) /\
  (wf_csr I g -> csr_nodup g -> ends (connected_components (BD:=b) I g directed conn)).
Proof.
  intros F n p j flag g s directed conn. assert (A : directed = false \/ conn = Weak -> ends (connected_components (BD:=b) I g directed conn)).
  { intros H. unfold connected_components. replace (match conn with Weak => false | Strong => directed end) with false by (destruct H as [-> | ->]; [destruct conn|]; reflexivity). cbv iota. eall @validate_graph. }
  split; [auto with ends|]. split; [auto with ends|]. split; [exact A|].
  intros W N. destruct directed; [|auto]. destruct conn; [auto|]. destruct (Nat.eq_dec (csr_rows g) (csr_cols g)) as [E|E].
  - destruct (Nat.eq_dec (csr_rows g) 0) as [Z|Z].
    + destruct b; [|rewrite c85_strong_empty by lia; discriminate]. unfold connected_components, validate_graph. rewrite <- E, Z. discriminate.
    + destruct (c36_strong_components I g W N E ltac:(lia)) as (k & l & X & _). destruct b; [rewrite X; discriminate|]. rewrite (agrees_connected_components I T _ g true Strong); rewrite X; discriminate.
  - unfold connected_components, validate_graph. destruct (Nat.eqb_spec (csr_rows g) (csr_cols g)); [contradiction|]. discriminate.
Qed.
End Ends.
