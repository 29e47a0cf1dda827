(** Every function of Model_checked.v panics or does what its namesake does. *)
From Verif Require Import Rust Scalar Model_kernels Model_matrix Model_dok Model_checked SpecChecked.

Section All.
Context {P : Prop}.
Local Notation may := (panics_or P).

Lemma may_refl {A} (m : res A) : may m m.
Proof. right. reflexivity. Qed.
Lemma may_bind {A B} (m m' : res A) (f f' : A -> res B) : may m m' -> (forall a, may (f a) (f' a)) -> may (bind m f) (bind m' f').
Proof. intros [[-> HP] | ->] H; [left; split; [reflexivity|exact HP]|]. destruct m'; cbn [bind]; [apply H|right; reflexivity..]. Qed.
Lemma may_val {A B} (m : res A) a (f : A -> res B) m' : may m (Ok a) -> may (f a) m' -> may (bind m f) m'.
Proof. intros [[-> HP] | ->] H; [left; split; [reflexivity|exact HP]|exact H]. Qed.
Lemma may_unwrap {A} (m m' : res A) : may m m' -> may (unwrap m) (unwrap m').
Proof. intros [[-> HP] | ->]; [left; split; [reflexivity|exact HP]|right; reflexivity]. Qed.
Lemma may_for_range {S} lo hi (f f' : nat -> S -> res S) s : (forall i s, may (f i s) (f' i s)) -> may (for_range lo hi f s) (for_range lo hi f' s).
Proof.
  intros H. unfold for_range. generalize (hi - lo) as n. intros n. revert lo s.
  induction n as [|n IH]; intros lo s; cbn [for_n]; [apply may_refl|]. apply may_bind; [apply H|]. intros a. apply IH.
Qed.
Lemma may_while {S} fuel (c : S -> res bool) (f f' : S -> res S) s : (forall s, may (f s) (f' s)) -> may (while fuel c f s) (while fuel c f' s).
Proof.
  intros H. revert s. induction fuel as [|n IH]; intros s; cbn [while]; [apply may_refl|]. apply may_bind; [apply may_refl|].
  intros [|]; [|apply may_refl]. apply may_bind; [apply H|]. intros a. apply IH.
Qed.
Lemma may_mapM {A B} (f : A -> res B) (g : A -> B) l : (forall a, may (f a) (Ok (g a))) -> may (mapM f l) (Ok (map g l)).
Proof.
  intros H. induction l as [|a l IH]; cbn [mapM map]; [apply may_refl|].
  eapply may_val; [apply H|]. eapply may_val; [exact IH|]. apply may_refl.
Qed.

Context {BD : Build} {T : Type} {SC : Scalar T} {CK : Checked T} {L : CheckedLaw P T}.
Context {SO : ScalarOrd T} {SN : ScalarNeg T} {CN : CheckedNeg T} {LN : CheckedNegLaw P T}.

Create HintDb mays discriminated.
Hint Constants Opaque : mays.
Ltac mays := repeat first
  [ progress intros | progress cbv beta | match goal with |- may ?a ?b => constr_eq a b; exact (may_refl a) end | assumption
  | simple apply law_add | simple apply law_sub | simple apply law_mul | simple apply law_div | apply law_neg
  | solve [eauto 3 with mays]
  | match goal with
    | |- may (bind (cadd _ _) _) _ => eapply may_val; [apply law_add|]
    | |- may (bind (csub _ _) _) _ => eapply may_val; [apply law_sub|]
    | |- may (bind (cmul _ _) _) _ => eapply may_val; [apply law_mul|]
    | |- may (bind (mapM _ _) _) _ => eapply may_val; [apply may_mapM|]
    end
  | apply may_bind; [|let a := fresh "a" in intros a]
  | apply may_unwrap
  | apply may_for_range; let i := fresh "i" in let s := fresh "s" in intros i s
  | apply may_while; let s := fresh "s" in intros s
  | match goal with
    | |- may (let '(_, _) := ?x in _) _ => destruct x
    | |- may (if ?b then _ else _) _ => destruct b
    end ].

Lemma may_vaddto v i x : may (vaddto_ck v i x) (vaddto v i x).
Proof. unfold vaddto_ck, vaddto. mays. Qed.
Hint Resolve may_vaddto : mays.
Lemma may_axpy n a x xo y yo : may (axpy_ck n a x xo y yo) (axpy n a x xo y yo).
Proof. unfold axpy_ck, axpy. mays. Qed.
Hint Resolve may_axpy : mays.
Lemma may_csr_diagonal k n_row n_col a_p a_j a_x y_x : may (csr_diagonal_ck k n_row n_col a_p a_j a_x y_x) (csr_diagonal k n_row n_col a_p a_j a_x y_x).
Proof. unfold csr_diagonal_ck, csr_diagonal. mays. Qed.
Hint Resolve may_csr_diagonal : mays.
Lemma may_csr_scale_rows n_row _n_col a_p _a_j a_x x_x : may (csr_scale_rows_ck n_row _n_col a_p _a_j a_x x_x) (csr_scale_rows n_row _n_col a_p _a_j a_x x_x).
Proof. unfold csr_scale_rows_ck, csr_scale_rows. mays. Qed.
Hint Resolve may_csr_scale_rows : mays.
Lemma may_csr_scale_columns n_row _n_col a_p a_j a_x x_x : may (csr_scale_columns_ck n_row _n_col a_p a_j a_x x_x) (csr_scale_columns n_row _n_col a_p a_j a_x x_x).
Proof. unfold csr_scale_columns_ck, csr_scale_columns. mays. Qed.
Hint Resolve may_csr_scale_columns : mays.
Lemma may_csr_todense n_row _n_col a_p a_j a_x b_x : may (csr_todense_ck n_row _n_col a_p a_j a_x b_x) (csr_todense n_row _n_col a_p a_j a_x b_x).
Proof. unfold csr_todense_ck, csr_todense. mays. Qed.
Hint Resolve may_csr_todense : mays.
Lemma may_csr_matmat I n_row n_col a_p a_j a_x b_p b_j b_x c_p c_j c_x : may (csr_matmat_ck I n_row n_col a_p a_j a_x b_p b_j b_x c_p c_j c_x) (csr_matmat I n_row n_col a_p a_j a_x b_p b_j b_x c_p c_j c_x).
Proof. unfold csr_matmat_ck, csr_matmat. mays. Qed.
Hint Resolve may_csr_matmat : mays.
Lemma may_binop_scan I start end_ x_j x_x st : may (binop_scan_ck I start end_ x_j x_x st) (binop_scan I start end_ x_j x_x st).
Proof. unfold binop_scan_ck, binop_scan. mays. Qed.
Hint Resolve may_binop_scan : mays.
Lemma may_csr_binop_csr_general {T2} {NZ : Nonzero T2} (op op' : T -> T -> res T2) (Hop : forall u v, may (op u v) (op' u v)) I n_row n_col a_p a_j a_x b_p b_j b_x c_p c_j c_x :
  may (csr_binop_csr_general_ck I op n_row n_col a_p a_j a_x b_p b_j b_x c_p c_j c_x) (csr_binop_csr_general I op' n_row n_col a_p a_j a_x b_p b_j b_x c_p c_j c_x).
Proof. unfold csr_binop_csr_general_ck, csr_binop_csr_general. mays. Qed.
Hint Resolve may_csr_binop_csr_general : mays.
Lemma may_csr_binop_csr {T2} {NZ : Nonzero T2} (op op' : T -> T -> res T2) (Hop : forall u v, may (op u v) (op' u v)) I n_row n_col a_p a_j a_x b_p b_j b_x c_p c_j c_x :
  may (csr_binop_csr_ck I op n_row n_col a_p a_j a_x b_p b_j b_x c_p c_j c_x) (csr_binop_csr I op' n_row n_col a_p a_j a_x b_p b_j b_x c_p c_j c_x).
Proof. unfold csr_binop_csr_ck, csr_binop_csr, csr_binop_csr_canonical. mays. Qed.
Hint Resolve may_csr_binop_csr : mays.
Lemma may_csr_ne_csr I n_row n_col a_p a_j (a_x : list T) b_p b_j b_x c_p c_j c_x : may (csr_ne_csr_ck I n_row n_col a_p a_j a_x b_p b_j b_x c_p c_j c_x) (csr_ne_csr I n_row n_col a_p a_j a_x b_p b_j b_x c_p c_j c_x).
Proof. unfold csr_ne_csr_ck, csr_ne_csr. apply may_csr_binop_csr. mays. Qed.
Hint Resolve may_csr_ne_csr : mays.
Lemma may_csr_eq_csr I n_row n_col a_p a_j (a_x : list T) b_p b_j b_x c_p c_j c_x : may (csr_eq_csr_ck I n_row n_col a_p a_j a_x b_p b_j b_x c_p c_j c_x) (csr_eq_csr I n_row n_col a_p a_j a_x b_p b_j b_x c_p c_j c_x).
Proof. unfold csr_eq_csr_ck, csr_eq_csr. apply may_csr_binop_csr. mays. Qed.
Hint Resolve may_csr_eq_csr : mays.
Lemma may_csr_mul_csr I n_row n_col a_p a_j a_x b_p b_j b_x c_p c_j c_x : may (csr_mul_csr_ck I n_row n_col a_p a_j a_x b_p b_j b_x c_p c_j c_x) (csr_mul_csr I n_row n_col a_p a_j a_x b_p b_j b_x c_p c_j c_x).
Proof. unfold csr_mul_csr_ck, csr_mul_csr. apply may_csr_binop_csr. mays. Qed.
Hint Resolve may_csr_mul_csr : mays.
Lemma may_csr_div_csr I n_row n_col a_p a_j a_x b_p b_j b_x c_p c_j c_x : may (csr_div_csr_ck I n_row n_col a_p a_j a_x b_p b_j b_x c_p c_j c_x) (csr_div_csr I n_row n_col a_p a_j a_x b_p b_j b_x c_p c_j c_x).
Proof. unfold csr_div_csr_ck, csr_div_csr. apply may_csr_binop_csr. mays. Qed.
Hint Resolve may_csr_div_csr : mays.
Lemma may_csr_add_csr I n_row n_col a_p a_j a_x b_p b_j b_x c_p c_j c_x : may (csr_add_csr_ck I n_row n_col a_p a_j a_x b_p b_j b_x c_p c_j c_x) (csr_add_csr I n_row n_col a_p a_j a_x b_p b_j b_x c_p c_j c_x).
Proof. unfold csr_add_csr_ck, csr_add_csr. apply may_csr_binop_csr. mays. Qed.
Hint Resolve may_csr_add_csr : mays.
Lemma may_csr_sub_csr I n_row n_col a_p a_j a_x b_p b_j b_x c_p c_j c_x : may (csr_sub_csr_ck I n_row n_col a_p a_j a_x b_p b_j b_x c_p c_j c_x) (csr_sub_csr I n_row n_col a_p a_j a_x b_p b_j b_x c_p c_j c_x).
Proof. unfold csr_sub_csr_ck, csr_sub_csr. apply may_csr_binop_csr. mays. Qed.
Hint Resolve may_csr_sub_csr : mays.
Lemma may_csr_lt_csr I n_row n_col a_p a_j (a_x : list T) b_p b_j b_x c_p c_j c_x : may (csr_lt_csr_ck I n_row n_col a_p a_j a_x b_p b_j b_x c_p c_j c_x) (csr_lt_csr I n_row n_col a_p a_j a_x b_p b_j b_x c_p c_j c_x).
Proof. unfold csr_lt_csr_ck, csr_lt_csr. apply may_csr_binop_csr. mays. Qed.
Hint Resolve may_csr_lt_csr : mays.
Lemma may_csr_le_csr I n_row n_col a_p a_j (a_x : list T) b_p b_j b_x c_p c_j c_x : may (csr_le_csr_ck I n_row n_col a_p a_j a_x b_p b_j b_x c_p c_j c_x) (csr_le_csr I n_row n_col a_p a_j a_x b_p b_j b_x c_p c_j c_x).
Proof. unfold csr_le_csr_ck, csr_le_csr. apply may_csr_binop_csr. mays. Qed.
Hint Resolve may_csr_le_csr : mays.
Lemma may_csr_gt_csr I n_row n_col a_p a_j (a_x : list T) b_p b_j b_x c_p c_j c_x : may (csr_gt_csr_ck I n_row n_col a_p a_j a_x b_p b_j b_x c_p c_j c_x) (csr_gt_csr I n_row n_col a_p a_j a_x b_p b_j b_x c_p c_j c_x).
Proof. unfold csr_gt_csr_ck, csr_gt_csr. apply may_csr_binop_csr. mays. Qed.
Hint Resolve may_csr_gt_csr : mays.
Lemma may_csr_ge_csr I n_row n_col a_p a_j (a_x : list T) b_p b_j b_x c_p c_j c_x : may (csr_ge_csr_ck I n_row n_col a_p a_j a_x b_p b_j b_x c_p c_j c_x) (csr_ge_csr I n_row n_col a_p a_j a_x b_p b_j b_x c_p c_j c_x).
Proof. unfold csr_ge_csr_ck, csr_ge_csr. apply may_csr_binop_csr. mays. Qed.
Hint Resolve may_csr_ge_csr : mays.
Lemma may_csr_max_csr I n_row n_col a_p a_j (a_x : list T) b_p b_j b_x c_p c_j c_x : may (csr_max_csr_ck I n_row n_col a_p a_j a_x b_p b_j b_x c_p c_j c_x) (csr_max_csr I n_row n_col a_p a_j a_x b_p b_j b_x c_p c_j c_x).
Proof. unfold csr_max_csr_ck, csr_max_csr. apply may_csr_binop_csr. mays. Qed.
Hint Resolve may_csr_max_csr : mays.
Lemma may_csr_min_csr I n_row n_col a_p a_j (a_x : list T) b_p b_j b_x c_p c_j c_x : may (csr_min_csr_ck I n_row n_col a_p a_j a_x b_p b_j b_x c_p c_j c_x) (csr_min_csr I n_row n_col a_p a_j a_x b_p b_j b_x c_p c_j c_x).
Proof. unfold csr_min_csr_ck, csr_min_csr. apply may_csr_binop_csr. mays. Qed.
Hint Resolve may_csr_min_csr : mays.
Lemma may_csr_sum_duplicates I n_row _n_col a_p a_j a_x : may (csr_sum_duplicates_ck I n_row _n_col a_p a_j a_x) (csr_sum_duplicates I n_row _n_col a_p a_j a_x).
Proof. unfold csr_sum_duplicates_ck, csr_sum_duplicates. mays. Qed.
Hint Resolve may_csr_sum_duplicates : mays.
Lemma may_csr_matvec n_row _n_col a_p a_j a_x x_x y_x : may (csr_matvec_ck n_row _n_col a_p a_j a_x x_x y_x) (csr_matvec n_row _n_col a_p a_j a_x x_x y_x).
Proof. unfold csr_matvec_ck, csr_matvec. mays. Qed.
Hint Resolve may_csr_matvec : mays.
Lemma may_csr_matvecs n_row _n_col n_vecs a_p a_j a_x x_x y_x : may (csr_matvecs_ck n_row _n_col n_vecs a_p a_j a_x x_x y_x) (csr_matvecs n_row _n_col n_vecs a_p a_j a_x x_x y_x).
Proof. unfold csr_matvecs_ck, csr_matvecs. mays. Qed.
Hint Resolve may_csr_matvecs : mays.
Lemma may_coo_todense n_row n_col nnz a_i a_j a_x b_x fortran : may (coo_todense_ck n_row n_col nnz a_i a_j a_x b_x fortran) (coo_todense n_row n_col nnz a_i a_j a_x b_x fortran).
Proof. unfold coo_todense_ck, coo_todense. mays. Qed.
Hint Resolve may_coo_todense : mays.
Lemma may_coo_matvec nnz a_i a_j a_x x_x y_x : may (coo_matvec_ck nnz a_i a_j a_x x_x y_x) (coo_matvec nnz a_i a_j a_x x_x y_x).
Proof. unfold coo_matvec_ck, coo_matvec. mays. Qed.
Hint Resolve may_coo_matvec : mays.
Lemma may_csc_matvec _n_row n_col a_p a_i a_x x_x y_x : may (csc_matvec_ck _n_row n_col a_p a_i a_x x_x y_x) (csc_matvec _n_row n_col a_p a_i a_x x_x y_x).
Proof. unfold csc_matvec_ck, csc_matvec. mays. Qed.
Hint Resolve may_csc_matvec : mays.
Lemma may_csc_matvecs _n_row n_col n_vecs a_p a_i a_x x_x y_x : may (csc_matvecs_ck _n_row n_col n_vecs a_p a_i a_x x_x y_x) (csc_matvecs _n_row n_col n_vecs a_p a_i a_x x_x y_x).
Proof. unfold csc_matvecs_ck, csc_matvecs. mays. Qed.
Hint Resolve may_csc_matvecs : mays.
Lemma may_csc_diagonal k n_row n_col a_p a_j a_x y_x : may (csc_diagonal_ck k n_row n_col a_p a_j a_x y_x) (csc_diagonal k n_row n_col a_p a_j a_x y_x).
Proof. unfold csc_diagonal_ck, csc_diagonal. mays. Qed.
Hint Resolve may_csc_diagonal : mays.
Lemma may_csc_matmat I n_row n_col a_p a_i a_x b_p b_i b_x c_p c_i c_x : may (csc_matmat_ck I n_row n_col a_p a_i a_x b_p b_i b_x c_p c_i c_x) (csc_matmat I n_row n_col a_p a_i a_x b_p b_i b_x c_p c_i c_x).
Proof. unfold csc_matmat_ck, csc_matmat. mays. Qed.
Hint Resolve may_csc_matmat : mays.
Lemma may_CSR_sum_duplicates I m : may (CSR_sum_duplicates_ck I m) (CSR_sum_duplicates I m).
Proof. unfold CSR_sum_duplicates_ck, CSR_sum_duplicates. mays. Qed.
Hint Resolve may_CSR_sum_duplicates : mays.
Lemma may_CSC_sum_duplicates I m : may (CSC_sum_duplicates_ck I m) (CSC_sum_duplicates I m).
Proof. unfold CSC_sum_duplicates_ck, CSC_sum_duplicates. mays. Qed.
Hint Resolve may_CSC_sum_duplicates : mays.
Lemma may_Coo_to_csc I m : may (Coo_to_csc_ck I m) (Coo_to_csc I m).
Proof. unfold Coo_to_csc_ck, Coo_to_csc. mays. Qed.
Hint Resolve may_Coo_to_csc : mays.
Lemma may_Coo_to_csr I m : may (Coo_to_csr_ck I m) (Coo_to_csr I m).
Proof. unfold Coo_to_csr_ck, Coo_to_csr. mays. Qed.
Hint Resolve may_Coo_to_csr : mays.
Lemma may_Coo_to_dense m : may (Coo_to_dense_ck m) (Coo_to_dense m).
Proof. unfold Coo_to_dense_ck, Coo_to_dense. mays. Qed.
Hint Resolve may_Coo_to_dense : mays.
Lemma may_CSR_to_dense m : may (CSR_to_dense_ck m) (CSR_to_dense m).
Proof. unfold CSR_to_dense_ck, CSR_to_dense. mays. Qed.
Hint Resolve may_CSR_to_dense : mays.
Lemma may_CSC_to_dense I m : may (CSC_to_dense_ck I m) (CSC_to_dense I m).
Proof. unfold CSC_to_dense_ck, CSC_to_dense. mays. Qed.
Hint Resolve may_CSC_to_dense : mays.
Lemma may_Coo_diagonal m : may (Coo_diagonal_ck m) (Coo_diagonal m).
Proof. unfold Coo_diagonal_ck, Coo_diagonal. mays. Qed.
Hint Resolve may_Coo_diagonal : mays.
Lemma may_CSR_diagonal m : may (CSR_diagonal_ck m) (CSR_diagonal m).
Proof. unfold CSR_diagonal_ck, CSR_diagonal. mays. Qed.
Hint Resolve may_CSR_diagonal : mays.
Lemma may_CSC_diagonal m : may (CSC_diagonal_ck m) (CSC_diagonal m).
Proof. unfold CSC_diagonal_ck, CSC_diagonal. mays. Qed.
Hint Resolve may_CSC_diagonal : mays.
Lemma may_CSR_h_stack I a b : may (CSR_h_stack_ck I a b) (CSR_h_stack I a b).
Proof. unfold CSR_h_stack_ck, CSR_h_stack. mays. Qed.
Hint Resolve may_CSR_h_stack : mays.
Lemma may_CSC_compose I j11 j12 j21 j22 : may (CSC_compose_ck I j11 j12 j21 j22) (CSC_compose I j11 j12 j21 j22).
Proof. unfold CSC_compose_ck, CSC_compose. mays. Qed.
Hint Resolve may_CSC_compose : mays.
Lemma may_CSR_mat_vec m x : may (CSR_mat_vec_ck m x) (CSR_mat_vec m x).
Proof. unfold CSR_mat_vec_ck, CSR_mat_vec. mays. Qed.
Hint Resolve may_CSR_mat_vec : mays.
Lemma may_CSC_mat_vec m x : may (CSC_mat_vec_ck m x) (CSC_mat_vec m x).
Proof. unfold CSC_mat_vec_ck, CSC_mat_vec. mays. Qed.
Hint Resolve may_CSC_mat_vec : mays.
Lemma may_CSR_mat_mat I m x : may (CSR_mat_mat_ck I m x) (CSR_mat_mat I m x).
Proof. unfold CSR_mat_mat_ck, CSR_mat_mat. mays. Qed.
Hint Resolve may_CSR_mat_mat : mays.
Lemma may_CSC_mat_mat I m x : may (CSC_mat_mat_ck I m x) (CSC_mat_mat I m x).
Proof. unfold CSC_mat_mat_ck, CSC_mat_mat. mays. Qed.
Hint Resolve may_CSC_mat_mat : mays.
Lemma may_CSR_add I a b : may (CSR_add_ck I a b) (CSR_add I a b).
Proof. unfold CSR_add_ck, CSR_add. mays. Qed.
Hint Resolve may_CSR_add : mays.
Lemma may_CSR_sub I a b : may (CSR_sub_ck I a b) (CSR_sub I a b).
Proof. unfold CSR_sub_ck, CSR_sub. mays. Qed.
Hint Resolve may_CSR_sub : mays.
Lemma may_CSR_mul I a b : may (CSR_mul_ck I a b) (CSR_mul I a b).
Proof. unfold CSR_mul_ck, CSR_mul. mays. Qed.
Hint Resolve may_CSR_mul : mays.
Lemma may_CSC_add I a x : may (CSC_add_ck I a x) (CSC_add I a x).
Proof. unfold CSC_add_ck, CSC_add. mays. Qed.
Hint Resolve may_CSC_add : mays.
Lemma may_CSC_subtract I a x : may (CSC_subtract_ck I a x) (CSC_subtract I a x).
Proof. unfold CSC_subtract_ck, CSC_subtract. mays. Qed.
Hint Resolve may_CSC_subtract : mays.
Lemma may_CSC_op_add I a b : may (CSC_op_add_ck I a b) (CSC_op_add I a b).
Proof. unfold CSC_op_add_ck, CSC_op_add. mays. Qed.
Hint Resolve may_CSC_op_add : mays.
Lemma may_CSC_op_sub I a b : may (CSC_op_sub_ck I a b) (CSC_op_sub I a b).
Proof. unfold CSC_op_sub_ck, CSC_op_sub. mays. Qed.
Hint Resolve may_CSC_op_sub : mays.
Lemma may_CSC_mul I a b : may (CSC_mul_ck I a b) (CSC_mul I a b).
Proof. unfold CSC_mul_ck, CSC_mul. mays. Qed.
Hint Resolve may_CSC_mul : mays.
Lemma may_CSC_mul_csr I a b : may (CSC_mul_csr_ck I a b) (CSC_mul_csr I a b).
Proof. unfold CSC_mul_csr_ck, CSC_mul_csr. mays. Qed.
Hint Resolve may_CSC_mul_csr : mays.
Lemma may_Coo_add I a b : may (Coo_add_ck I a b) (Coo_add I a b).
Proof. unfold Coo_add_ck, Coo_add. mays. Qed.
Hint Resolve may_Coo_add : mays.
Lemma may_CSR_mul_scalar m rhs : may (CSR_mul_scalar_ck m rhs) (CSR_mul_scalar m rhs).
Proof. unfold CSR_mul_scalar_ck, CSR_mul_scalar. eapply may_val; [apply (may_mapM _ (fun v => smul v rhs))|]; mays. Qed.
Hint Resolve may_CSR_mul_scalar : mays.
Lemma may_CSR_scalar_mul lhs m : may (CSR_scalar_mul_ck lhs m) (CSR_scalar_mul lhs m).
Proof. unfold CSR_scalar_mul_ck, CSR_scalar_mul. eapply may_val; [apply (may_mapM _ (fun v => smul lhs v))|]; mays. Qed.
Hint Resolve may_CSR_scalar_mul : mays.
Lemma may_CSC_mul_scalar m rhs : may (CSC_mul_scalar_ck m rhs) (CSC_mul_scalar m rhs).
Proof. unfold CSC_mul_scalar_ck, CSC_mul_scalar. eapply may_val; [apply (may_mapM _ (fun v => smul v rhs))|]; mays. Qed.
Hint Resolve may_CSC_mul_scalar : mays.
Lemma may_CSC_scalar_mul lhs m : may (CSC_scalar_mul_ck lhs m) (CSC_scalar_mul lhs m).
Proof. unfold CSC_scalar_mul_ck, CSC_scalar_mul. eapply may_val; [apply (may_mapM _ (fun v => smul lhs v))|]; mays. Qed.
Hint Resolve may_CSC_scalar_mul : mays.
Lemma may_Coo_neg (m : Coo T) : may (Coo_neg_ck m) (Coo_neg m).
Proof. unfold Coo_neg_ck, Coo_neg. eapply may_val; [apply (may_mapM _ (sneg))|]; mays. Qed.
Hint Resolve may_Coo_neg : mays.
Lemma may_CSR_neg (m : CSR T) : may (CSR_neg_ck m) (CSR_neg m).
Proof. unfold CSR_neg_ck, CSR_neg. eapply may_val; [apply (may_mapM _ (sneg))|]; mays. Qed.
Hint Resolve may_CSR_neg : mays.
Lemma may_CSC_neg (m : CSC T) : may (CSC_neg_ck m) (CSC_neg m).
Proof. unfold CSC_neg_ck, CSC_neg. eapply may_val; [apply (may_mapM _ (sneg))|]; mays. Qed.
Hint Resolve may_CSC_neg : mays.
Lemma may_DoK_add I d i j v : may (DoK_add_ck I d i j v) (DoK_add I d i j v).
Proof. unfold DoK_add_ck, DoK_add. mays. Qed.
Hint Resolve may_DoK_add : mays.
Lemma may_DoK_sub I d i j v : may (DoK_sub_ck I d i j v) (DoK_sub I d i j v).
Proof. unfold DoK_sub_ck, DoK_sub. mays. Qed.
Hint Resolve may_DoK_sub : mays.
Lemma may_DoK_to_csc I d order : may (DoK_to_csc_ck I d order) (DoK_to_csc I d order).
Proof. unfold DoK_to_csc_ck, DoK_to_csc. mays. Qed.
Hint Resolve may_DoK_to_csc : mays.
Lemma may_DoK_to_csr I d order : may (DoK_to_csr_ck I d order) (DoK_to_csr I d order).
Proof. unfold DoK_to_csr_ck, DoK_to_csr. mays. Qed.
Hint Resolve may_DoK_to_csr : mays.
End All.
