(** Proofs of the theorems of Props_checked.v, under the same names in lower case. *)
From Verif Require Import Rust Debug Scalar Model_kernels Model_matrix Model_dok Model_checked Spec SpecChecked Wp Rep ScatterProofs CanonProofs
  ConvProofs LinProofs Lin2Proofs BinopExact CheckedProofs CheckedExact Main_convert Main_linear.

Section All.
Context {BD : Build} {T : Type} {SC : Scalar T} {CK : Checked T}.
Lemma c89_kernels : forall (P : Prop) {L : CheckedLaw P T},
  (forall v i x, panics_or P (vaddto_ck v i x) (vaddto v i x)) /\
  (forall n a x xo y yo, panics_or P (axpy_ck n a x xo y yo) (axpy n a x xo y yo)) /\
  (forall k n_row n_col a_p a_j a_x y_x, panics_or P (csr_diagonal_ck k n_row n_col a_p a_j a_x y_x) (csr_diagonal k n_row n_col a_p a_j a_x y_x)) /\
  (forall n_row _n_col a_p _a_j a_x x_x, panics_or P (csr_scale_rows_ck n_row _n_col a_p _a_j a_x x_x) (csr_scale_rows n_row _n_col a_p _a_j a_x x_x)) /\
  (forall n_row _n_col a_p a_j a_x x_x, panics_or P (csr_scale_columns_ck n_row _n_col a_p a_j a_x x_x) (csr_scale_columns n_row _n_col a_p a_j a_x x_x)) /\
  (forall n_row _n_col a_p a_j a_x b_x, panics_or P (csr_todense_ck n_row _n_col a_p a_j a_x b_x) (csr_todense n_row _n_col a_p a_j a_x b_x)) /\
  (forall I n_row n_col a_p a_j a_x b_p b_j b_x c_p c_j c_x, panics_or P (csr_matmat_ck I n_row n_col a_p a_j a_x b_p b_j b_x c_p c_j c_x) (csr_matmat I n_row n_col a_p a_j a_x b_p b_j b_x c_p c_j c_x)) /\
  (forall I start end_ x_j x_x st, panics_or P (binop_scan_ck I start end_ x_j x_x st) (binop_scan I start end_ x_j x_x st)) /\
  (forall (T2 : Type) (NZ : Nonzero T2) (op op' : T -> T -> res T2) I n_row n_col a_p a_j a_x b_p b_j b_x c_p c_j c_x, (forall u v, panics_or P (op u v) (op' u v)) ->
     panics_or P (csr_binop_csr_general_ck I op n_row n_col a_p a_j a_x b_p b_j b_x c_p c_j c_x) (csr_binop_csr_general I op' n_row n_col a_p a_j a_x b_p b_j b_x c_p c_j c_x)) /\
  (forall (T2 : Type) (NZ : Nonzero T2) (op op' : T -> T -> res T2) I n_row n_col a_p a_j a_x b_p b_j b_x c_p c_j c_x, (forall u v, panics_or P (op u v) (op' u v)) ->
     panics_or P (csr_binop_csr_ck I op n_row n_col a_p a_j a_x b_p b_j b_x c_p c_j c_x) (csr_binop_csr I op' n_row n_col a_p a_j a_x b_p b_j b_x c_p c_j c_x)) /\
  (forall I n_row n_col a_p a_j (a_x : list T) b_p b_j b_x c_p c_j c_x, panics_or P (csr_ne_csr_ck I n_row n_col a_p a_j a_x b_p b_j b_x c_p c_j c_x) (csr_ne_csr I n_row n_col a_p a_j a_x b_p b_j b_x c_p c_j c_x)) /\
  (forall I n_row n_col a_p a_j (a_x : list T) b_p b_j b_x c_p c_j c_x, panics_or P (csr_eq_csr_ck I n_row n_col a_p a_j a_x b_p b_j b_x c_p c_j c_x) (csr_eq_csr I n_row n_col a_p a_j a_x b_p b_j b_x c_p c_j c_x)) /\
  (forall I n_row n_col a_p a_j a_x b_p b_j b_x c_p c_j c_x, panics_or P (csr_mul_csr_ck I n_row n_col a_p a_j a_x b_p b_j b_x c_p c_j c_x) (csr_mul_csr I n_row n_col a_p a_j a_x b_p b_j b_x c_p c_j c_x)) /\
  (forall I n_row n_col a_p a_j a_x b_p b_j b_x c_p c_j c_x, panics_or P (csr_div_csr_ck I n_row n_col a_p a_j a_x b_p b_j b_x c_p c_j c_x) (csr_div_csr I n_row n_col a_p a_j a_x b_p b_j b_x c_p c_j c_x)) /\
  (forall I n_row n_col a_p a_j a_x b_p b_j b_x c_p c_j c_x, panics_or P (csr_add_csr_ck I n_row n_col a_p a_j a_x b_p b_j b_x c_p c_j c_x) (csr_add_csr I n_row n_col a_p a_j a_x b_p b_j b_x c_p c_j c_x)) /\
  (forall I n_row n_col a_p a_j a_x b_p b_j b_x c_p c_j c_x, panics_or P (csr_sub_csr_ck I n_row n_col a_p a_j a_x b_p b_j b_x c_p c_j c_x) (csr_sub_csr I n_row n_col a_p a_j a_x b_p b_j b_x c_p c_j c_x)) /\
  (forall I n_row _n_col a_p a_j a_x, panics_or P (csr_sum_duplicates_ck I n_row _n_col a_p a_j a_x) (csr_sum_duplicates I n_row _n_col a_p a_j a_x)) /\
  (forall n_row _n_col a_p a_j a_x x_x y_x, panics_or P (csr_matvec_ck n_row _n_col a_p a_j a_x x_x y_x) (csr_matvec n_row _n_col a_p a_j a_x x_x y_x)) /\
  (forall n_row _n_col n_vecs a_p a_j a_x x_x y_x, panics_or P (csr_matvecs_ck n_row _n_col n_vecs a_p a_j a_x x_x y_x) (csr_matvecs n_row _n_col n_vecs a_p a_j a_x x_x y_x)) /\
  (forall n_row n_col nnz a_i a_j a_x b_x fortran, panics_or P (coo_todense_ck n_row n_col nnz a_i a_j a_x b_x fortran) (coo_todense n_row n_col nnz a_i a_j a_x b_x fortran)) /\
  (forall nnz a_i a_j a_x x_x y_x, panics_or P (coo_matvec_ck nnz a_i a_j a_x x_x y_x) (coo_matvec nnz a_i a_j a_x x_x y_x)) /\
  (forall _n_row n_col a_p a_i a_x x_x y_x, panics_or P (csc_matvec_ck _n_row n_col a_p a_i a_x x_x y_x) (csc_matvec _n_row n_col a_p a_i a_x x_x y_x)) /\
  (forall _n_row n_col n_vecs a_p a_i a_x x_x y_x, panics_or P (csc_matvecs_ck _n_row n_col n_vecs a_p a_i a_x x_x y_x) (csc_matvecs _n_row n_col n_vecs a_p a_i a_x x_x y_x)) /\
  (forall k n_row n_col a_p a_j a_x y_x, panics_or P (csc_diagonal_ck k n_row n_col a_p a_j a_x y_x) (csc_diagonal k n_row n_col a_p a_j a_x y_x)) /\
  (forall I n_row n_col a_p a_i a_x b_p b_i b_x c_p c_i c_x, panics_or P (csc_matmat_ck I n_row n_col a_p a_i a_x b_p b_i b_x c_p c_i c_x) (csc_matmat I n_row n_col a_p a_i a_x b_p b_i b_x c_p c_i c_x)).
Proof. intros. repeat apply Logic.conj; intros; [apply may_vaddto | apply may_axpy | apply may_csr_diagonal | apply may_csr_scale_rows | apply may_csr_scale_columns | apply may_csr_todense | apply may_csr_matmat | apply may_binop_scan | apply may_csr_binop_csr_general; assumption | apply may_csr_binop_csr; assumption | apply may_csr_ne_csr | apply may_csr_eq_csr | apply may_csr_mul_csr | apply may_csr_div_csr | apply may_csr_add_csr | apply may_csr_sub_csr | apply may_csr_sum_duplicates | apply may_csr_matvec | apply may_csr_matvecs | apply may_coo_todense | apply may_coo_matvec | apply may_csc_matvec | apply may_csc_matvecs | apply may_csc_diagonal | apply may_csc_matmat]. Qed.
Lemma c89_comparisons : forall (P : Prop) {L : CheckedLaw P T} {SO : ScalarOrd T},
  (forall I n_row n_col a_p a_j (a_x : list T) b_p b_j b_x c_p c_j c_x, panics_or P (csr_lt_csr_ck I n_row n_col a_p a_j a_x b_p b_j b_x c_p c_j c_x) (csr_lt_csr I n_row n_col a_p a_j a_x b_p b_j b_x c_p c_j c_x)) /\
  (forall I n_row n_col a_p a_j (a_x : list T) b_p b_j b_x c_p c_j c_x, panics_or P (csr_le_csr_ck I n_row n_col a_p a_j a_x b_p b_j b_x c_p c_j c_x) (csr_le_csr I n_row n_col a_p a_j a_x b_p b_j b_x c_p c_j c_x)) /\
  (forall I n_row n_col a_p a_j (a_x : list T) b_p b_j b_x c_p c_j c_x, panics_or P (csr_gt_csr_ck I n_row n_col a_p a_j a_x b_p b_j b_x c_p c_j c_x) (csr_gt_csr I n_row n_col a_p a_j a_x b_p b_j b_x c_p c_j c_x)) /\
  (forall I n_row n_col a_p a_j (a_x : list T) b_p b_j b_x c_p c_j c_x, panics_or P (csr_ge_csr_ck I n_row n_col a_p a_j a_x b_p b_j b_x c_p c_j c_x) (csr_ge_csr I n_row n_col a_p a_j a_x b_p b_j b_x c_p c_j c_x)) /\
  (forall I n_row n_col a_p a_j (a_x : list T) b_p b_j b_x c_p c_j c_x, panics_or P (csr_max_csr_ck I n_row n_col a_p a_j a_x b_p b_j b_x c_p c_j c_x) (csr_max_csr I n_row n_col a_p a_j a_x b_p b_j b_x c_p c_j c_x)) /\
  (forall I n_row n_col a_p a_j (a_x : list T) b_p b_j b_x c_p c_j c_x, panics_or P (csr_min_csr_ck I n_row n_col a_p a_j a_x b_p b_j b_x c_p c_j c_x) (csr_min_csr I n_row n_col a_p a_j a_x b_p b_j b_x c_p c_j c_x)).
Proof. intros. repeat apply Logic.conj; intros; [apply may_csr_lt_csr | apply may_csr_le_csr | apply may_csr_gt_csr | apply may_csr_ge_csr | apply may_csr_max_csr | apply may_csr_min_csr]. Qed.
Lemma c89_matrices : forall (P : Prop) {L : CheckedLaw P T},
  (forall I m, panics_or P (CSR_sum_duplicates_ck I m) (CSR_sum_duplicates I m)) /\
  (forall I m, panics_or P (CSC_sum_duplicates_ck I m) (CSC_sum_duplicates I m)) /\
  (forall I m, panics_or P (Coo_to_csc_ck I m) (Coo_to_csc I m)) /\
  (forall I m, panics_or P (Coo_to_csr_ck I m) (Coo_to_csr I m)) /\
  (forall m, panics_or P (Coo_to_dense_ck m) (Coo_to_dense m)) /\
  (forall m, panics_or P (CSR_to_dense_ck m) (CSR_to_dense m)) /\
  (forall I m, panics_or P (CSC_to_dense_ck I m) (CSC_to_dense I m)) /\
  (forall m, panics_or P (Coo_diagonal_ck m) (Coo_diagonal m)) /\
  (forall m, panics_or P (CSR_diagonal_ck m) (CSR_diagonal m)) /\
  (forall m, panics_or P (CSC_diagonal_ck m) (CSC_diagonal m)) /\
  (forall I a b, panics_or P (CSR_h_stack_ck I a b) (CSR_h_stack I a b)) /\
  (forall I j11 j12 j21 j22, panics_or P (CSC_compose_ck I j11 j12 j21 j22) (CSC_compose I j11 j12 j21 j22)) /\
  (forall m x, panics_or P (CSR_mat_vec_ck m x) (CSR_mat_vec m x)) /\
  (forall m x, panics_or P (CSC_mat_vec_ck m x) (CSC_mat_vec m x)) /\
  (forall I m x, panics_or P (CSR_mat_mat_ck I m x) (CSR_mat_mat I m x)) /\
  (forall I m x, panics_or P (CSC_mat_mat_ck I m x) (CSC_mat_mat I m x)) /\
  (forall I a b, panics_or P (CSR_add_ck I a b) (CSR_add I a b)) /\
  (forall I a b, panics_or P (CSR_sub_ck I a b) (CSR_sub I a b)) /\
  (forall I a b, panics_or P (CSR_mul_ck I a b) (CSR_mul I a b)) /\
  (forall I a x, panics_or P (CSC_add_ck I a x) (CSC_add I a x)) /\
  (forall I a x, panics_or P (CSC_subtract_ck I a x) (CSC_subtract I a x)) /\
  (forall I a b, panics_or P (CSC_op_add_ck I a b) (CSC_op_add I a b)) /\
  (forall I a b, panics_or P (CSC_op_sub_ck I a b) (CSC_op_sub I a b)) /\
  (forall I a b, panics_or P (CSC_mul_ck I a b) (CSC_mul I a b)) /\
  (forall I a b, panics_or P (CSC_mul_csr_ck I a b) (CSC_mul_csr I a b)) /\
  (forall I a b, panics_or P (Coo_add_ck I a b) (Coo_add I a b)) /\
  (forall m rhs, panics_or P (CSR_mul_scalar_ck m rhs) (CSR_mul_scalar m rhs)) /\
  (forall lhs m, panics_or P (CSR_scalar_mul_ck lhs m) (CSR_scalar_mul lhs m)) /\
  (forall m rhs, panics_or P (CSC_mul_scalar_ck m rhs) (CSC_mul_scalar m rhs)) /\
  (forall lhs m, panics_or P (CSC_scalar_mul_ck lhs m) (CSC_scalar_mul lhs m)) /\
  (forall I d i j v, panics_or P (DoK_add_ck I d i j v) (DoK_add I d i j v)) /\
  (forall I d i j v, panics_or P (DoK_sub_ck I d i j v) (DoK_sub I d i j v)) /\
  (forall I d order, panics_or P (DoK_to_csc_ck I d order) (DoK_to_csc I d order)) /\
  (forall I d order, panics_or P (DoK_to_csr_ck I d order) (DoK_to_csr I d order)).
Proof. intros. repeat apply Logic.conj; intros; [apply may_CSR_sum_duplicates | apply may_CSC_sum_duplicates | apply may_Coo_to_csc | apply may_Coo_to_csr | apply may_Coo_to_dense | apply may_CSR_to_dense | apply may_CSC_to_dense | apply may_Coo_diagonal | apply may_CSR_diagonal | apply may_CSC_diagonal | apply may_CSR_h_stack | apply may_CSC_compose | apply may_CSR_mat_vec | apply may_CSC_mat_vec | apply may_CSR_mat_mat | apply may_CSC_mat_mat | apply may_CSR_add | apply may_CSR_sub | apply may_CSR_mul | apply may_CSC_add | apply may_CSC_subtract | apply may_CSC_op_add | apply may_CSC_op_sub | apply may_CSC_mul | apply may_CSC_mul_csr | apply may_Coo_add | apply may_CSR_mul_scalar | apply may_CSR_scalar_mul | apply may_CSC_mul_scalar | apply may_CSC_scalar_mul | apply may_DoK_add | apply may_DoK_sub | apply may_DoK_to_csc | apply may_DoK_to_csr]. Qed.
Lemma c89_negation : forall (P : Prop)  {SN : ScalarNeg T} {CN : CheckedNeg T} {LN : CheckedNegLaw P T},
  (forall (m : Coo T), panics_or P (Coo_neg_ck m) (Coo_neg m)) /\
  (forall (m : CSR T), panics_or P (CSR_neg_ck m) (CSR_neg m)) /\
  (forall (m : CSC T), panics_or P (CSC_neg_ck m) (CSC_neg m)).
Proof. intros. repeat apply Logic.conj; intros; [apply may_Coo_neg | apply may_CSR_neg | apply may_CSC_neg]. Qed.
End All.

Lemma icheck_or J z : icheck J z = Panic \/ icheck J z = Ok z.
Proof. unfold icheck. destruct (_ && _)%bool; auto. Qed.
Lemma icheck_panic J z : icheck J z = Panic <-> ~ in_ity J z.
Proof.
  unfold icheck, in_ity. destruct (Z.leb_spec (imin J) z), (Z.leb_spec z (imax J)); cbn [andb]; split; intros H1; try discriminate; try reflexivity; lia.
Qed.
Lemma c89_int : forall J, @CheckedLaw True Z _ (int_checked J) /\ @CheckedNegLaw True Z _ (int_checked_neg J).
Proof.
  intros J. assert (G : forall z, icheck J z = Panic /\ True \/ icheck J z = Ok z) by (intros z; destruct (icheck_or J z); auto).
  split; constructor; intros; unfold panics_or; [apply G..| |apply G]. cbn. destruct (y =? 0)%Z; cbn [bind]; [auto|apply G].
Qed.
Lemma c89_plain : forall {T} {SC : Scalar T} {SN : ScalarNeg T}, @CheckedLaw False T _ plain_checked /\ @CheckedNegLaw False T _ plain_checked_neg.
Proof. intros. split; constructor; intros; right; reflexivity. Qed.
Lemma c89_plain_same : forall {A} (m m' : res A), panics_or False m m' -> m = m'.
Proof. intros A m m' [[_ []]|H]; exact H. Qed.

(** ** When it panics *)
Section Exact.
Context {T : Type} {SC : Scalar T} {CK : Checked T} {L : CheckedLaw True T}.
Variable I : ity.

Lemma c90_csr_mat_vec : forall (m : CSR T) (x : list T), wf_csr I m -> length x = csr_cols m ->
  panics_iff (exists i, i < csr_rows m /\
    ((exists e, In e (csr_row m i) /\ cmul (snd e) (nth (fst e) x s0) = Panic) \/
     sum_overflows (map (fun e => smul (snd e) (nth (fst e) x s0)) (csr_row m i))))
    (CSR_mat_vec_ck m x) (CSR_mat_vec m x).
Proof.
  intros m x H Hl. destruct (wf_csr_rep _ _ H) as [R HR]. apply exact_of; [apply may_CSR_mat_vec|].
  unfold CSR_mat_vec_ck. rewrite Hl, Nat.eqb_refl. cbn [negb].
  eapply pw_mono; [apply (matvec_exact _ I _ _ _ _ _ _ x (proj2 HR) (proj1 HR) Hl)|].
  - intros i e Hi He Hp. exists i. split; [exact Hi|]. left. exists e. rewrite (csr_rep_row _ _ _ _ HR). auto.
  - intros i Hi Ho. exists i. split; [exact Hi|]. right. rewrite (csr_rep_row _ _ _ _ HR). exact Ho.
  - intros ? G (i & Hi & Hb). destruct (G i Hi) as [G1 G2]. rewrite (csr_rep_row _ _ _ _ HR) in Hb. destruct Hb as [(e & He & Hp)|Ho].
    + apply (G1 e He Hp).
    + apply G2, Ho.
Qed.
Lemma c90_csc_mat_vec : forall (m : CSC T) (x : list T), wf_csc I m -> length x = csc_cols m ->
  panics_iff ((exists j e, j < csc_cols m /\ In e (csc_col m j) /\ cmul (snd e) (nth j x s0) = Panic) \/
    (exists i, i < csc_rows m /\ sum_overflows (flat_map (fun j => map (fun v => smul v (nth j x s0)) (csc_at m i j)) (seq 0 (csc_cols m)))))
    (CSC_mat_vec_ck m x) (CSC_mat_vec m x).
Proof.
  intros m x H Hl. destruct (wf_csc_rep _ _ H) as [R HR]. apply exact_of; [apply may_CSC_mat_vec|].
  unfold CSC_mat_vec_ck. rewrite Hl, Nat.eqb_refl. cbn [negb].
  assert (Ep : forall i, cprods x (flat 0 R) i = flat_map (fun j => map (fun v => smul v (nth j x s0)) (csc_at m i j)) (seq 0 (csc_cols m))).
  { intros i. rewrite cprods_flat, (proj1 HR). apply flat_map_ext_in'. intros j _. rewrite (csc_rep_at _ _ _ _ _ HR), Nat.sub_0_r. reflexivity. }
  eapply pw_mono; [apply (cmatvec_exact _ I _ _ _ _ _ _ x (proj2 HR) (proj1 HR) Hl)|].
  - intros t Ht Hp. left. apply in_flat in Ht as [H1 H2]. exists (fst t), (snd t). rewrite (csc_rep_col _ _ _ _ HR). rewrite Nat.sub_0_r in H2.
    rewrite (proj1 HR) in H1. split; [lia|]. split; [exact H2|exact Hp].
  - intros i Hi Ho. right. exists i. split; [exact Hi|]. rewrite <- Ep. exact Ho.
  - intros ? [G1 G2] [(j & e & Hj & He & Hp)|(i & Hi & Ho)].
    + apply (G1 (j, e)); [|exact Hp]. rewrite flat_seq. apply in_flat_map. exists j. rewrite (proj1 HR). split; [apply in_seq; lia|].
      rewrite Nat.sub_0_r. rewrite (csc_rep_col _ _ _ _ HR) in He. apply in_map, He.
    + apply (G2 i Hi). rewrite Ep. exact Ho.
Qed.

Lemma c90_coo_to_dense : forall m : Coo T, wf_coo I m ->
  panics_iff (exists i j, i < coo_rows m /\ j < coo_cols m /\ sum_overflows (coo_at m i j)) (Coo_to_dense_ck m) (Coo_to_dense m).
Proof.
  intros m H. apply exact_of; [apply may_Coo_to_dense|]. eapply pw_mono; [apply (Coo_to_dense_exact _ I m H)|].
  - intros i k Hi Hk Ho. exists i, k. auto.
  - intros ? G (i & k & Hi & Hk & Ho). apply (G i k Hi Hk Ho).
Qed.
Lemma c90_csr_to_dense : forall m : CSR T, wf_csr I m ->
  panics_iff (exists i j, i < csr_rows m /\ j < csr_cols m /\ sum_overflows (csr_at m i j)) (CSR_to_dense_ck m) (CSR_to_dense m).
Proof.
  intros m H. destruct (wf_csr_rep _ _ H) as [R HR]. apply exact_of; [apply may_CSR_to_dense|].
  eapply pw_mono; [apply (todense_exact _ I _ _ _ _ _ _ (proj2 HR) (proj1 HR))|].
  - intros i k Hi Hk Ho. exists i, k. rewrite (csr_rep_at _ _ _ _ _ HR). auto.
  - intros ? G (i & k & Hi & Hk & Ho). rewrite (csr_rep_at _ _ _ _ _ HR) in Ho. apply (G i k Hi Hk Ho).
Qed.
Lemma c90_csc_to_dense : forall m : CSC T, wf_csc I m -> csc_cols_fit I m ->
  panics_iff (exists i j, i < csc_rows m /\ j < csc_cols m /\ sum_overflows (csc_at m i j)) (CSC_to_dense_ck I m) (CSC_to_dense I m).
Proof.
  intros m H Hf. destruct (c04_csc_to_csr I m H Hf) as (r & E & W & _ & E1 & E2 & _ & A & _).
  unfold CSC_to_dense_ck, CSC_to_dense. rewrite E. cbn [bind]. destruct (c90_csr_to_dense r W) as [G1 G2]. rewrite E1, E2 in G1, G2.
  split; intros Hp.
  - apply G1. destruct Hp as (i & j & Hi & Hj & Ho). exists i, j. rewrite A by assumption. auto.
  - apply G2. intros (i & j & Hi & Hj & Ho). apply Hp. exists i, j. rewrite A in Ho by assumption. auto.
Qed.
Lemma c90_coo_diagonal : forall m : Coo T, wf_coo I m ->
  panics_iff (exists i, i < Nat.min (coo_rows m) (coo_cols m) /\ sum_overflows (coo_at m i i)) (Coo_diagonal_ck m) (Coo_diagonal m).
Proof.
  intros m H. apply exact_of; [apply may_Coo_diagonal|]. eapply pw_mono; [apply (Coo_diagonal_exact _ I m H)|].
  - intros i Hi Ho. exists i. auto.
  - intros ? G (i & Hi & Ho). apply (G i Hi Ho).
Qed.
Lemma c90_csr_diagonal : forall m : CSR T, wf_csr I m ->
  panics_iff (exists i, i < Nat.min (csr_rows m) (csr_cols m) /\ sum_overflows (csr_at m i i)) (CSR_diagonal_ck m) (CSR_diagonal m).
Proof.
  intros m H. destruct (wf_csr_rep _ _ H) as [R HR]. apply exact_of; [apply may_CSR_diagonal|].
  eapply pw_mono; [apply (diagonal_exact _ I _ _ _ _ _ _ (proj2 HR) (proj1 HR))|].
  - intros i Hi Ho. exists i. rewrite (csr_rep_at _ _ _ _ _ HR). auto.
  - intros ? G (i & Hi & Ho). rewrite (csr_rep_at _ _ _ _ _ HR) in Ho. apply (G i Hi Ho).
Qed.
Lemma c90_csc_diagonal : forall m : CSC T, wf_csc I m ->
  panics_iff (exists i, i < Nat.min (csc_rows m) (csc_cols m) /\ sum_overflows (csc_at m i i)) (CSC_diagonal_ck m) (CSC_diagonal m).
Proof.
  intros m H. destruct (wf_csc_rep _ _ H) as [R HR]. apply exact_of; [apply may_CSC_diagonal|]. unfold CSC_diagonal_ck.
  rewrite (Nat.min_comm (csc_rows m)).
  eapply pw_mono; [apply (diagonal_exact _ I _ _ _ _ _ _ (proj2 HR) (proj1 HR))|].
  - intros i Hi Ho. exists i. rewrite (csc_rep_at _ _ _ _ _ HR). auto.
  - intros ? G (i & Hi & Ho). rewrite (csc_rep_at _ _ _ _ _ HR) in Ho. apply (G i Hi Ho).
Qed.

Lemma each_exact {B} (f : T -> res T) (g : T -> T) l (k : list T -> res B) m' :
  (forall v, panics_or True (f v) (Ok (g v))) -> m' = k (map g l) ->
  panics_iff (exists v, In v l /\ f v = Panic) (bind (mapM f l) k) m'.
Proof.
  intros Hf ->. assert (G : forall v, f v = Panic \/ exists w, f v = Ok w) by (intros v; destruct (Hf v) as [[H _]|H]; [auto|right; eauto]).
  destruct (mapM_exact f l G) as [M1 M2]. split; intros H.
  - rewrite (M1 H). reflexivity.
  - destruct (may_mapM (P := True) f g l Hf) as [[E _]|E]; [contradiction (M2 H E)|rewrite E; reflexivity].
Qed.
Lemma c90_scale : forall (m : CSR T) (c : CSC T) (s : T),
  panics_iff (exists v, In v (csr_values m) /\ cmul v s = Panic) (CSR_mul_scalar_ck m s) (CSR_mul_scalar m s) /\
  panics_iff (exists v, In v (csr_values m) /\ cmul s v = Panic) (CSR_scalar_mul_ck s m) (CSR_scalar_mul s m) /\
  panics_iff (exists v, In v (csc_values c) /\ cmul v s = Panic) (CSC_mul_scalar_ck c s) (CSC_mul_scalar c s) /\
  panics_iff (exists v, In v (csc_values c) /\ cmul s v = Panic) (CSC_scalar_mul_ck s c) (CSC_scalar_mul s c).
Proof.
  intros m c s. split; [|split; [|split]].
  1,3: apply (each_exact (fun v => cmul v s) (fun v => smul v s)); [intros v; apply law_mul|reflexivity].
  all: apply (each_exact (fun v => cmul s v) (fun v => smul s v)); [intros v; apply law_mul|reflexivity].
Qed.
Lemma c90_negation : forall {SN : ScalarNeg T} {CN : CheckedNeg T} {LN : CheckedNegLaw True T} (m : CSR T) (c : CSC T) (o : Coo T),
  panics_iff (exists v, In v (csr_values m) /\ cneg v = Panic) (CSR_neg_ck m) (CSR_neg m) /\
  panics_iff (exists v, In v (csc_values c) /\ cneg v = Panic) (CSC_neg_ck c) (CSC_neg c) /\
  panics_iff (exists v, In v (coo_values o) /\ cneg v = Panic) (Coo_neg_ck o) (Coo_neg o).
Proof.
  intros. split; [|split]; (apply (each_exact cneg sneg); [intros v; apply law_neg|reflexivity]).
Qed.
Lemma c90_dok : forall (d : DoK T) i j v,
  panics_iff (cadd (DoK_get d i j) v = Panic) (DoK_add_ck I d i j v) (DoK_add I d i j v) /\
  panics_iff (csub (DoK_get d i j) v = Panic) (DoK_sub_ck I d i j v) (DoK_sub I d i j v).
Proof.
  intros. split; split; intros H; unfold DoK_add_ck, DoK_sub_ck, DoK_add, DoK_sub.
  - rewrite H. reflexivity.
  - destruct (law_add (DoK_get d i j) v) as [[E _]|E]; [contradiction|]. rewrite E. reflexivity.
  - rewrite H. reflexivity.
  - destruct (law_sub (DoK_get d i j) v) as [[E _]|E]; [contradiction|]. rewrite E. reflexivity.
Qed.
End Exact.

Lemma c90_int : forall J (u v : Z) (l : list Z),
  (@cadd Z (int_checked J) u v = Panic <-> ~ in_ity J (u + v)) /\
  (@csub Z (int_checked J) u v = Panic <-> ~ in_ity J (u - v)) /\
  (@cmul Z (int_checked J) u v = Panic <-> ~ in_ity J (u * v)) /\
  (@cdiv Z (int_checked J) u v = Panic <-> v = 0%Z \/ ~ in_ity J (Z.quot u v)) /\
  (@cneg Z (int_checked_neg J) u = Panic <-> ~ in_ity J (- u)) /\
  (@sum_overflows Z _ (int_checked J) l <-> exists p q, l = p ++ q /\ p <> [] /\ ~ in_ity J (fold_right Z.add 0%Z p)).
Proof.
  intros J u v l. cbn. rewrite !icheck_panic. split; [reflexivity|]. split; [reflexivity|]. split; [reflexivity|]. split; [|split; [reflexivity|]].
  - destruct (Z.eqb_spec v 0) as [->|D]; cbn [bind]; [tauto|]. rewrite icheck_panic. tauto.
  - assert (S : forall p : list Z, sum0 p = fold_right Z.add 0%Z p).
    { intros p. unfold sum0. apply (fold_symmetric Z.add); [intros; lia|intros; lia]. }
    split.
    + intros (p & w & q & -> & H). cbn in H. rewrite icheck_panic, S in H. exists (p ++ [w]), q. split; [rewrite <- app_assoc; reflexivity|].
      split; [destruct p; discriminate|]. rewrite fold_right_app. cbn. rewrite Z.add_0_r.
      replace (fold_right Z.add w p) with (fold_right Z.add 0 p + w)%Z; [exact H|]. clear. induction p as [|a p IH]; cbn; [lia|rewrite <- IH; lia].
    + intros (p & q & -> & Hp & H). destruct (exists_last Hp) as (p' & w & ->). exists p', w, q. split; [rewrite <- app_assoc; reflexivity|].
      cbn. rewrite icheck_panic, S. rewrite fold_right_app in H. cbn in H. rewrite Z.add_0_r in H.
      replace (fold_right Z.add 0 p' + w)%Z with (fold_right Z.add w p'); [exact H|]. clear. induction p' as [|a p IH]; cbn; [lia|rewrite IH; lia].
Qed.
