(** C89, C90: scalars that are machine integers, in a build with overflow checks. *)
From Verif Require Import Rust Debug Scalar Model_kernels Model_matrix Model_dok Model_checked Spec SpecChecked Check Main_checked.

Section Props.
Context {BD : Build} {T : Type} {SC : Scalar T} {CK : Checked T}.
(** C89: the kernels on raw arrays *)
Theorem C89_kernels : forall (P : Prop) {L : CheckedLaw P T},
  (forall v i x, panics_or P (vaddto_ck v i x) (vaddto v i x)) /\
  (forall n a x xo y yo, panics_or P (axpy_ck n a x xo y yo) (axpy n a x xo y yo)) /\
  (forall k n_row n_col a_p a_j a_x y_x, panics_or P (csr_diagonal_ck k n_row n_col a_p a_j a_x y_x) (csr_diagonal k n_row n_col a_p a_j a_x y_x)) /\
  (forall n_row _n_col a_p _a_j a_x x_x, panics_or P (csr_scale_rows_ck n_row _n_col a_p _a_j a_x x_x) (csr_scale_rows n_row _n_col a_p _a_j a_x x_x)) /\
  (forall n_row _n_col a_p a_j a_x x_x, panics_or P (csr_scale_columns_ck n_row _n_col a_p a_j a_x x_x) (csr_scale_columns n_row _n_col a_p a_j a_x x_x)) /\
  (forall n_row _n_col a_p a_j a_x b_x, panics_or P (csr_todense_ck n_row _n_col a_p a_j a_x b_x) (csr_todense n_row _n_col a_p a_j a_x b_x)) /\
  (forall I n_row n_col a_p a_j a_x b_p b_j b_x c_p c_j c_x, panics_or P (csr_matmat_ck I n_row n_col a_p a_j a_x b_p b_j b_x c_p c_j c_x) (csr_matmat I n_row n_col a_p a_j a_x b_p b_j b_x c_p c_j c_x)) /\
  (forall I start end_ x_j x_x st, panics_or P (binop_scan_ck I start end_ x_j x_x st) (binop_scan I start end_ x_j x_x st)) /\
  (forall (T2 : Type) (NZ : Nonzero T2) (op op' : T -> T -> res T2) I n_row n_col a_p a_j a_x b_p b_j b_x c_p c_j c_x, (forall u v, panics_or P (op u v) (op' u v)) ->
     panics_or P (csr_binop_csr_general_ck I op n_row n_col a_p a_j a_x b_p b_j b_x c_p c_j c_x) (csr_binop_csr_general I op' n_row n_col a_p a_j a_x b_p b_j b_x c_p c_j c_x)) /\
  (forall (T2 : Type) (NZ : Nonzero T2) (op op' : T -> T -> res T2) I n_row n_col a_p a_j a_x b_p b_j b_x c_p c_j c_x, (forall u v, panics_or P (op u v) (op' u v)) ->
     panics_or P (csr_binop_csr_ck I op n_row n_col a_p a_j a_x b_p b_j b_x c_p c_j c_x) (csr_binop_csr I op' n_row n_col a_p a_j a_x b_p b_j b_x c_p c_j c_x)) /\
  (forall I n_row n_col a_p a_j (a_x : list T) b_p b_j b_x c_p c_j c_x, panics_or P (csr_ne_csr_ck I n_row n_col a_p a_j a_x b_p b_j b_x c_p c_j c_x) (csr_ne_csr I n_row n_col a_p a_j a_x b_p b_j b_x c_p c_j c_x)) /\
  (forall I n_row n_col a_p a_j (a_x : list T) b_p b_j b_x c_p c_j c_x, panics_or P (csr_eq_csr_ck I n_row n_col a_p a_j a_x b_p b_j b_x c_p c_j c_x) (csr_eq_csr I n_row n_col a_p a_j a_x b_p b_j b_x c_p c_j c_x)) /\
  (forall I n_row n_col a_p a_j a_x b_p b_j b_x c_p c_j c_x, panics_or P (csr_mul_csr_ck I n_row n_col a_p a_j a_x b_p b_j b_x c_p c_j c_x) (csr_mul_csr I n_row n_col a_p a_j a_x b_p b_j b_x c_p c_j c_x)) /\
  (forall I n_row n_col a_p a_j a_x b_p b_j b_x c_p c_j c_x, panics_or P (csr_div_csr_ck I n_row n_col a_p a_j a_x b_p b_j b_x c_p c_j c_x) (csr_div_csr I n_row n_col a_p a_j a_x b_p b_j b_x c_p c_j c_x)) /\
  (forall I n_row n_col a_p a_j a_x b_p b_j b_x c_p c_j c_x, panics_or P (csr_add_csr_ck I n_row n_col a_p a_j a_x b_p b_j b_x c_p c_j c_x) (csr_add_csr I n_row n_col a_p a_j a_x b_p b_j b_x c_p c_j c_x)) /\
  (forall I n_row n_col a_p a_j a_x b_p b_j b_x c_p c_j c_x, panics_or P (csr_sub_csr_ck I n_row n_col a_p a_j a_x b_p b_j b_x c_p c_j c_x) (csr_sub_csr I n_row n_col a_p a_j a_x b_p b_j b_x c_p c_j c_x)) /\
  (forall I n_row _n_col a_p a_j a_x, panics_or P (csr_sum_duplicates_ck I n_row _n_col a_p a_j a_x) (csr_sum_duplicates I n_row _n_col a_p a_j a_x)) /\
  (forall n_row _n_col a_p a_j a_x x_x y_x, panics_or P (csr_matvec_ck n_row _n_col a_p a_j a_x x_x y_x) (csr_matvec n_row _n_col a_p a_j a_x x_x y_x)) /\
  (forall n_row _n_col n_vecs a_p a_j a_x x_x y_x, panics_or P (csr_matvecs_ck n_row _n_col n_vecs a_p a_j a_x x_x y_x) (csr_matvecs n_row _n_col n_vecs a_p a_j a_x x_x y_x)) /\
  (forall n_row n_col nnz a_i a_j a_x b_x fortran, panics_or P (coo_todense_ck n_row n_col nnz a_i a_j a_x b_x fortran) (coo_todense n_row n_col nnz a_i a_j a_x b_x fortran)) /\
  (forall nnz a_i a_j a_x x_x y_x, panics_or P (coo_matvec_ck nnz a_i a_j a_x x_x y_x) (coo_matvec nnz a_i a_j a_x x_x y_x)) /\
  (forall _n_row n_col a_p a_i a_x x_x y_x, panics_or P (csc_matvec_ck _n_row n_col a_p a_i a_x x_x y_x) (csc_matvec _n_row n_col a_p a_i a_x x_x y_x)) /\
  (forall _n_row n_col n_vecs a_p a_i a_x x_x y_x, panics_or P (csc_matvecs_ck _n_row n_col n_vecs a_p a_i a_x x_x y_x) (csc_matvecs _n_row n_col n_vecs a_p a_i a_x x_x y_x)) /\
  (forall k n_row n_col a_p a_j a_x y_x, panics_or P (csc_diagonal_ck k n_row n_col a_p a_j a_x y_x) (csc_diagonal k n_row n_col a_p a_j a_x y_x)) /\
  (forall I n_row n_col a_p a_i a_x b_p b_i b_x c_p c_i c_x, panics_or P (csc_matmat_ck I n_row n_col a_p a_i a_x b_p b_i b_x c_p c_i c_x) (csc_matmat I n_row n_col a_p a_i a_x b_p b_i b_x c_p c_i c_x)).
Proof. exact c89_kernels. Qed.
(** C89: the comparing kernels *)
Theorem C89_comparisons : forall (P : Prop) {L : CheckedLaw P T} {SO : ScalarOrd T},
  (forall I n_row n_col a_p a_j (a_x : list T) b_p b_j b_x c_p c_j c_x, panics_or P (csr_lt_csr_ck I n_row n_col a_p a_j a_x b_p b_j b_x c_p c_j c_x) (csr_lt_csr I n_row n_col a_p a_j a_x b_p b_j b_x c_p c_j c_x)) /\
  (forall I n_row n_col a_p a_j (a_x : list T) b_p b_j b_x c_p c_j c_x, panics_or P (csr_le_csr_ck I n_row n_col a_p a_j a_x b_p b_j b_x c_p c_j c_x) (csr_le_csr I n_row n_col a_p a_j a_x b_p b_j b_x c_p c_j c_x)) /\
  (forall I n_row n_col a_p a_j (a_x : list T) b_p b_j b_x c_p c_j c_x, panics_or P (csr_gt_csr_ck I n_row n_col a_p a_j a_x b_p b_j b_x c_p c_j c_x) (csr_gt_csr I n_row n_col a_p a_j a_x b_p b_j b_x c_p c_j c_x)) /\
  (forall I n_row n_col a_p a_j (a_x : list T) b_p b_j b_x c_p c_j c_x, panics_or P (csr_ge_csr_ck I n_row n_col a_p a_j a_x b_p b_j b_x c_p c_j c_x) (csr_ge_csr I n_row n_col a_p a_j a_x b_p b_j b_x c_p c_j c_x)) /\
  (forall I n_row n_col a_p a_j (a_x : list T) b_p b_j b_x c_p c_j c_x, panics_or P (csr_max_csr_ck I n_row n_col a_p a_j a_x b_p b_j b_x c_p c_j c_x) (csr_max_csr I n_row n_col a_p a_j a_x b_p b_j b_x c_p c_j c_x)) /\
  (forall I n_row n_col a_p a_j (a_x : list T) b_p b_j b_x c_p c_j c_x, panics_or P (csr_min_csr_ck I n_row n_col a_p a_j a_x b_p b_j b_x c_p c_j c_x) (csr_min_csr I n_row n_col a_p a_j a_x b_p b_j b_x c_p c_j c_x)).
Proof. exact c89_comparisons. Qed.
(** C89: the methods and operators of the matrix types *)
Theorem C89_matrices : forall (P : Prop) {L : CheckedLaw P T},
  (forall I m, panics_or P (CSR_sum_duplicates_ck I m) (CSR_sum_duplicates I m)) /\
  (forall I m, panics_or P (CSC_sum_duplicates_ck I m) (CSC_sum_duplicates I m)) /\
  (forall I m, panics_or P (Coo_to_csc_ck I m) (Coo_to_csc I m)) /\
  (forall I m, panics_or P (Coo_to_csr_ck I m) (Coo_to_csr I m)) /\
  (forall m, panics_or P (Coo_to_dense_ck m) (Coo_to_dense m)) /\
  (forall m, panics_or P (CSR_to_dense_ck m) (CSR_to_dense m)) /\
  (forall I m, panics_or P (CSC_to_dense_ck I m) (CSC_to_dense I m)) /\
  (forall m, panics_or P (Coo_diagonal_ck m) (Coo_diagonal m)) /\
  (forall m, panics_or P (CSR_diagonal_ck m) (CSR_diagonal m)) /\
  (forall m, panics_or P (CSC_diagonal_ck m) (CSC_diagonal m)) /\
  (forall I a b, panics_or P (CSR_h_stack_ck I a b) (CSR_h_stack I a b)) /\
  (forall I j11 j12 j21 j22, panics_or P (CSC_compose_ck I j11 j12 j21 j22) (CSC_compose I j11 j12 j21 j22)) /\
  (forall m x, panics_or P (CSR_mat_vec_ck m x) (CSR_mat_vec m x)) /\
  (forall m x, panics_or P (CSC_mat_vec_ck m x) (CSC_mat_vec m x)) /\
  (forall I m x, panics_or P (CSR_mat_mat_ck I m x) (CSR_mat_mat I m x)) /\
  (forall I m x, panics_or P (CSC_mat_mat_ck I m x) (CSC_mat_mat I m x)) /\
  (forall I a b, panics_or P (CSR_add_ck I a b) (CSR_add I a b)) /\
  (forall I a b, panics_or P (CSR_sub_ck I a b) (CSR_sub I a b)) /\
  (forall I a b, panics_or P (CSR_mul_ck I a b) (CSR_mul I a b)) /\
  (forall I a x, panics_or P (CSC_add_ck I a x) (CSC_add I a x)) /\
  (forall I a x, panics_or P (CSC_subtract_ck I a x) (CSC_subtract I a x)) /\
  (forall I a b, panics_or P (CSC_op_add_ck I a b) (CSC_op_add I a b)) /\
  (forall I a b, panics_or P (CSC_op_sub_ck I a b) (CSC_op_sub I a b)) /\
  (forall I a b, panics_or P (CSC_mul_ck I a b) (CSC_mul I a b)) /\
  (forall I a b, panics_or P (CSC_mul_csr_ck I a b) (CSC_mul_csr I a b)) /\
  (forall I a b, panics_or P (Coo_add_ck I a b) (Coo_add I a b)) /\
  (forall m rhs, panics_or P (CSR_mul_scalar_ck m rhs) (CSR_mul_scalar m rhs)) /\
  (forall lhs m, panics_or P (CSR_scalar_mul_ck lhs m) (CSR_scalar_mul lhs m)) /\
  (forall m rhs, panics_or P (CSC_mul_scalar_ck m rhs) (CSC_mul_scalar m rhs)) /\
  (forall lhs m, panics_or P (CSC_scalar_mul_ck lhs m) (CSC_scalar_mul lhs m)) /\
  (forall I d i j v, panics_or P (DoK_add_ck I d i j v) (DoK_add I d i j v)) /\
  (forall I d i j v, panics_or P (DoK_sub_ck I d i j v) (DoK_sub I d i j v)) /\
  (forall I d order, panics_or P (DoK_to_csc_ck I d order) (DoK_to_csc I d order)) /\
  (forall I d order, panics_or P (DoK_to_csr_ck I d order) (DoK_to_csr I d order)).
Proof. exact c89_matrices. Qed.
(** C89: unary minus *)
Theorem C89_negation : forall (P : Prop)  {SN : ScalarNeg T} {CN : CheckedNeg T} {LN : CheckedNegLaw P T},
  (forall (m : Coo T), panics_or P (Coo_neg_ck m) (Coo_neg m)) /\
  (forall (m : CSR T), panics_or P (CSR_neg_ck m) (CSR_neg m)) /\
  (forall (m : CSC T), panics_or P (CSC_neg_ck m) (CSC_neg m)).
Proof. exact c89_negation. Qed.
End Props.

(** C89: the checked operations of the primitive integers are as required, ... *)
Theorem C89_int : forall J, @CheckedLaw True Z _ (int_checked J) /\ @CheckedNegLaw True Z _ (int_checked_neg J).
Proof. exact c89_int. Qed.
(** ... so are operations that never panic, and for them the functions above are those of the other files *)
Theorem C89_plain : forall {T} {SC : Scalar T} {SN : ScalarNeg T}, @CheckedLaw False T _ plain_checked /\ @CheckedNegLaw False T _ plain_checked_neg.
Proof. exact @c89_plain. Qed.
Theorem C89_plain_same : forall {A} (m m' : res A), panics_or False m m' -> m = m'.
Proof. exact @c89_plain_same. Qed.

Section Exact.
Context {T : Type} {SC : Scalar T} {CK : Checked T} {L : CheckedLaw True T}.
Variable I : ity.
(** C90: a product or a partial sum of a row overflows *)
Theorem C90_csr_mat_vec : forall (m : CSR T) (x : list T), wf_csr I m -> length x = csr_cols m ->
  panics_iff (exists i, i < csr_rows m /\
    ((exists e, In e (csr_row m i) /\ cmul (snd e) (nth (fst e) x s0) = Panic) \/
     sum_overflows (map (fun e => smul (snd e) (nth (fst e) x s0)) (csr_row m i))))
    (CSR_mat_vec_ck m x) (CSR_mat_vec m x).
Proof. exact (c90_csr_mat_vec I). Qed.
Theorem C90_csc_mat_vec : forall (m : CSC T) (x : list T), wf_csc I m -> length x = csc_cols m ->
  panics_iff ((exists j e, j < csc_cols m /\ In e (csc_col m j) /\ cmul (snd e) (nth j x s0) = Panic) \/
    (exists i, i < csc_rows m /\ sum_overflows (flat_map (fun j => map (fun v => smul v (nth j x s0)) (csc_at m i j)) (seq 0 (csc_cols m)))))
    (CSC_mat_vec_ck m x) (CSC_mat_vec m x).
Proof. exact (c90_csc_mat_vec I). Qed.
(** C90: adding up the values stored at one position overflows *)
Theorem C90_coo_to_dense : forall m : Coo T, wf_coo I m ->
  panics_iff (exists i j, i < coo_rows m /\ j < coo_cols m /\ sum_overflows (coo_at m i j)) (Coo_to_dense_ck m) (Coo_to_dense m).
Proof. exact (c90_coo_to_dense I). Qed.
Theorem C90_csr_to_dense : forall m : CSR T, wf_csr I m ->
  panics_iff (exists i j, i < csr_rows m /\ j < csr_cols m /\ sum_overflows (csr_at m i j)) (CSR_to_dense_ck m) (CSR_to_dense m).
Proof. exact (c90_csr_to_dense I). Qed.
Theorem C90_csc_to_dense : forall m : CSC T, wf_csc I m -> csc_cols_fit I m ->
  panics_iff (exists i j, i < csc_rows m /\ j < csc_cols m /\ sum_overflows (csc_at m i j)) (CSC_to_dense_ck I m) (CSC_to_dense I m).
Proof. exact (c90_csc_to_dense I). Qed.
Theorem C90_coo_diagonal : forall m : Coo T, wf_coo I m ->
  panics_iff (exists i, i < Nat.min (coo_rows m) (coo_cols m) /\ sum_overflows (coo_at m i i)) (Coo_diagonal_ck m) (Coo_diagonal m).
Proof. exact (c90_coo_diagonal I). Qed.
Theorem C90_csr_diagonal : forall m : CSR T, wf_csr I m ->
  panics_iff (exists i, i < Nat.min (csr_rows m) (csr_cols m) /\ sum_overflows (csr_at m i i)) (CSR_diagonal_ck m) (CSR_diagonal m).
Proof. exact (c90_csr_diagonal I). Qed.
Theorem C90_csc_diagonal : forall m : CSC T, wf_csc I m ->
  panics_iff (exists i, i < Nat.min (csc_rows m) (csc_cols m) /\ sum_overflows (csc_at m i i)) (CSC_diagonal_ck m) (CSC_diagonal m).
Proof. exact (c90_csc_diagonal I). Qed.
(** C90: one operation per stored value; also for values in unused array elements *)
Theorem C90_scale : forall (m : CSR T) (c : CSC T) (s : T),
  panics_iff (exists v, In v (csr_values m) /\ cmul v s = Panic) (CSR_mul_scalar_ck m s) (CSR_mul_scalar m s) /\
  panics_iff (exists v, In v (csr_values m) /\ cmul s v = Panic) (CSR_scalar_mul_ck s m) (CSR_scalar_mul s m) /\
  panics_iff (exists v, In v (csc_values c) /\ cmul v s = Panic) (CSC_mul_scalar_ck c s) (CSC_mul_scalar c s) /\
  panics_iff (exists v, In v (csc_values c) /\ cmul s v = Panic) (CSC_scalar_mul_ck s c) (CSC_scalar_mul s c).
Proof. exact c90_scale. Qed.
Theorem C90_negation : forall {SN : ScalarNeg T} {CN : CheckedNeg T} {LN : CheckedNegLaw True T} (m : CSR T) (c : CSC T) (o : Coo T),
  panics_iff (exists v, In v (csr_values m) /\ cneg v = Panic) (CSR_neg_ck m) (CSR_neg m) /\
  panics_iff (exists v, In v (csc_values c) /\ cneg v = Panic) (CSC_neg_ck c) (CSC_neg c) /\
  panics_iff (exists v, In v (coo_values o) /\ cneg v = Panic) (Coo_neg_ck o) (Coo_neg o).
Proof. exact (@c90_negation T). Qed.
(** C90: [DoK::add], [DoK::sub] *)
Theorem C90_dok : forall (d : DoK T) i j v,
  panics_iff (cadd (DoK_get d i j) v = Panic) (DoK_add_ck I d i j v) (DoK_add I d i j v) /\
  panics_iff (csub (DoK_get d i j) v = Panic) (DoK_sub_ck I d i j v) (DoK_sub I d i j v).
Proof. exact (c90_dok I). Qed.
End Exact.
(** C90: what overflowing means for the primitive integer types *)
Theorem C90_int : forall J (u v : Z) (l : list Z),
  (@cadd Z (int_checked J) u v = Panic <-> ~ in_ity J (u + v)) /\
  (@csub Z (int_checked J) u v = Panic <-> ~ in_ity J (u - v)) /\
  (@cmul Z (int_checked J) u v = Panic <-> ~ in_ity J (u * v)) /\
  (@cdiv Z (int_checked J) u v = Panic <-> v = 0%Z \/ ~ in_ity J (Z.quot u v)) /\
  (@cneg Z (int_checked_neg J) u = Panic <-> ~ in_ity J (- u)) /\
  (@sum_overflows Z _ (int_checked J) l <-> exists p q, l = p ++ q /\ p <> [] /\ ~ in_ity J (fold_right Z.add 0%Z p)).
Proof. exact c90_int. Qed.

(** ** Concrete cases, scalars i8 *)
Example C89_ex : vec3 (row3 100 27 0) [1; 1; 1]%Z = CSR_mat_vec (row3 100 27 0) [1; 1; 1]%Z /\ vec3 (row3 100 27 0) [1; 1; 1]%Z = Ok [127]%Z /\
  vec3 (row3 100 28 0) [1; 1; 1]%Z = Panic /\ CSR_mat_vec (row3 100 28 0) [1; 1; 1]%Z = Ok [128]%Z.
Proof. repeat split. Qed.
Example C89_to_csr_ex : let m := mkCoo 2 2 [1; 0; 1]%Z [1; 0; 1]%Z [100; 5; 100]%Z in
  @Coo_to_csr_ck Debug Z _ (int_checked I8) I32 m = Panic /\ @Coo_to_csr_ck Debug Z _ (int_checked I16) I32 m = Coo_to_csr I32 m /\
  Coo_to_csr I32 m = Ok (mkCSR 2 2 [0; 1; 2] [0; 1] [5; 200])%Z.
Proof. repeat split. Qed.
Example C89_mat_mat_ex : let m := row3 16 0 0 in let t := mkCSR 3 1 [0; 1; 1; 1]%Z [0]%Z [8]%Z in
  @CSR_mat_mat_ck Debug Z _ (int_checked I8) I32 m t = Panic /\ @CSR_mat_mat_ck Debug Z _ (int_checked U8) I32 m t = CSR_mat_mat I32 m t /\
  exists r, CSR_mat_mat I32 m t = Ok r /\ csr_val r 0 0 = 128%Z.
Proof. split; [reflexivity|]. split; [reflexivity|]. eexists. split; reflexivity. Qed.
Example C89_div_ex : @cdiv Z (int_checked I8) (-128)%Z (-1)%Z = Panic /\ @cdiv Z (int_checked I8) (-128)%Z 3%Z = Ok (-42)%Z /\ @cdiv Z (int_checked I8) 1%Z 0%Z = Panic.
Proof. repeat split. Qed.
(** the order matters: a partial sum may overflow though the total fits *)
Example C90_order_ex : vec3 (row3 100 100 (-100)) [1; 1; 1]%Z = Panic /\ vec3 (row3 100 (-100) 100) [1; 1; 1]%Z = Ok [100]%Z /\
  wf_csr I8 (row3 100 100 (-100)) /\ @sum_overflows Z _ (int_checked I8) [100; 100; -100]%Z /\ ~ @sum_overflows Z _ (int_checked I8) [100; -100; 100]%Z.
Proof.
  split; [reflexivity|]. split; [reflexivity|]. split; [|split].
  - check.
  - exists [100]%Z, 100%Z, [-100]%Z. split; reflexivity.
  - intros H. apply (C90_int I8 0 0) in H. destruct H as (p & q & E & Hp & H). apply H. unfold in_ity. cbn.
    destruct p as [|a [|b [|c [|d p]]]]; [contradiction|..]; cbn in E; try discriminate; injection E; intros; subst; cbn; lia.
Qed.
Example C90_dense_ex : let m := mkCoo 1 2 [0; 0; 0]%Z [1; 0; 1]%Z [-100; 1; -29]%Z in
  @Coo_to_dense_ck Z _ (int_checked I8) m = Panic /\ @Coo_to_dense_ck Z _ (int_checked I16) m = Ok [[1; -129]]%Z /\
  @Coo_diagonal_ck Z _ (int_checked I8) m = Ok [1]%Z.
Proof. repeat split. Qed.
Example C90_unary_ex : let m := row3 127 (-128) 0 in
  @CSR_neg_ck Debug Z (int_checked_neg I8) m = Panic /\ @CSR_neg_ck Debug Z (int_checked_neg I16) m = Ok (row3 (-127) 128 0) /\
  @CSR_neg_ck Debug Z (int_checked_neg U8) (row3 1 0 0) = Panic /\ @CSR_mul_scalar_ck Debug Z (int_checked I8) (row3 63 64 0) 2%Z = Panic /\
  @CSR_mul_scalar_ck Debug Z (int_checked I8) (row3 63 (-64) 0) 2%Z = Ok (row3 126 (-128) 0).
Proof. repeat split. Qed.
Example C90_dok_ex : exists d, DoK_add I32 (DoK_new 2 2) 1 1 200%Z = Ok d /\
  @DoK_add_ck Z _ (int_checked U8) I32 d 1 1 55%Z = DoK_add I32 d 1 1 55%Z /\ @DoK_add_ck Z _ (int_checked U8) I32 d 1 1 56%Z = Panic /\
  @DoK_sub_ck Z _ (int_checked U8) I32 d 0 1 1%Z = Panic.
Proof. eexists. repeat split. Qed.

Print Assumptions C89_kernels.
Print Assumptions C89_comparisons.
Print Assumptions C89_matrices.
Print Assumptions C89_negation.
Print Assumptions C89_int.
Print Assumptions C89_plain.
Print Assumptions C89_plain_same.
Print Assumptions C90_csr_mat_vec.
Print Assumptions C90_csc_mat_vec.
Print Assumptions C90_coo_to_dense.
Print Assumptions C90_csr_to_dense.
Print Assumptions C90_csc_to_dense.
Print Assumptions C90_coo_diagonal.
Print Assumptions C90_csr_diagonal.
Print Assumptions C90_csc_diagonal.
Print Assumptions C90_scale.
Print Assumptions C90_negation.
Print Assumptions C90_dok.
Print Assumptions C90_int.
