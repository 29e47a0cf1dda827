(** A program on checked scalars panics or does what the program on exact ones does. *)
From Verif Require Import Rust Debug Scalar Model_kernels Model_matrix Model_dok Model_checked Spec SpecPipe SpecChecked SpecProgram CheckedProofs.

Section Program.
Context {T : Type} {SC : Scalar T} {SN : ScalarNeg T} {CK : Checked T} {CN : CheckedNeg T}.
Context {P : Prop} {L : CheckedLaw P T} {LN : CheckedNegLaw P T}.
Variable I : ity.
Local Notation may := (panics_or P).
(** both exist and one may panic, or neither exists *)
Definition omay {A} (o o' : option (res A)) : Prop := match o, o' with Some m, Some m' => may m m' | None, None => True | _, _ => False end.
Lemma omay_refl {A} (o : option (res A)) : omay o o.
Proof. destruct o; [apply may_refl|exact Logic.I]. Qed.
Create HintDb pm discriminated.
Hint Constants Opaque : pm.
Hint Resolve may_Coo_to_csr may_Coo_to_csc may_DoK_to_csr may_DoK_to_csc may_Coo_neg may_CSR_neg may_CSC_neg may_CSR_mul_scalar may_CSR_scalar_mul may_CSR_sum_duplicates may_CSC_sum_duplicates may_DoK_add may_DoK_sub may_Coo_add may_CSR_add may_CSC_op_add may_CSR_sub may_CSC_subtract may_CSR_mul may_CSC_mul may_CSC_mul_csr may_CSR_h_stack may_CSC_compose may_Coo_to_dense may_CSR_to_dense may_CSC_to_dense may_CSR_mat_vec may_CSC_mat_vec may_Coo_diagonal may_CSR_diagonal may_CSC_diagonal : pm.
Ltac om := match goal with
  | |- omay ?a ?b => constr_eq a b; apply omay_refl
  | |- omay (Some _) (Some _) => cbn [omay]; unfold coo, csr, csc, dok, tab, vec; apply may_bind; [solve [eauto 2 with pm nocore]|intros; apply may_refl]
  end.
Lemma may_unary u m : omay (do_unary_ck I u m) (do_unary I u m).
Proof. destruct u as [[]|o []| | | | | |], m; cbn [do_unary_ck do_unary]; om. Qed.
Lemma may_inplace p m : omay (do_inplace_ck I p m) (do_inplace I p m).
Proof. destruct p as [| | | |[]], m; cbn [do_inplace_ck do_inplace dok_apply]; om. Qed.
Lemma may_binary b x y : omay (do_binary_ck I b x y) (do_binary I b x y).
Proof. destruct b, x, y; cbn [do_binary_ck do_binary]; om. Qed.
Lemma may_blocks k ms : omay (do_blocks_ck I k ms) (do_blocks I k ms).
Proof. destruct k; try apply omay_refl. destruct ms as [|[] [|[] [|[] [|[] [|]]]]]; cbn [do_blocks_ck do_blocks]; om. Qed.
Lemma may_look o m : omay (do_look_ck I o m) (do_look I o m).
Proof. destruct o, m; cbn [do_look_ck do_look]; om. Qed.

Lemma may_new st o o' : omay o o' -> may (new_var (T:=T) st o) (new_var st o').
Proof. destruct o, o'; cbn [omay]; try contradiction; intros H; cbn [new_var]; [|apply may_refl]. apply may_bind; [exact H|]. intros. apply may_refl. Qed.
Lemma may_set st v o o' : omay o o' -> may (set_var (T:=T) st v o) (set_var st v o').
Proof. destruct o, o'; cbn [omay]; try contradiction; intros H; cbn [set_var]; [|apply may_refl]. apply may_bind; [exact H|]. intros. apply may_refl. Qed.
Lemma omay_obind {A B} (o : option A) (f g : A -> option (res B)) : (forall a, omay (f a) (g a)) -> omay (obind o f) (obind o g).
Proof. intros H. destruct o; [apply H|exact Logic.I]. Qed.
Lemma may_step st c : may (step_ck I st c) (step I st c).
Proof.
  destruct c; cbn [step_ck step].
  - apply may_refl.
  - apply may_new, omay_obind. intros m. apply may_unary.
  - apply may_set, omay_obind. intros m. apply may_inplace.
  - apply may_new, omay_obind. intros x. apply omay_obind. intros y. apply may_binary.
  - apply may_new, omay_obind. intros ms. apply may_blocks.
Qed.
Lemma may_run cs st : may (run_ck I st cs) (run I st cs).
Proof. revert st. induction cs as [|c cs IH]; intros st; cbn [run_ck run]; [apply may_refl|]. apply may_bind; [apply may_step|exact IH]. Qed.
End Program.
