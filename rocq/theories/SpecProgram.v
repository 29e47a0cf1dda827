(** Programs on scalars that are machine integers, in a build with overflow checks (C93): the calls of SpecPipe.v, those that compute
    with scalars taken from Model_checked.v. *)
From Verif Require Import Rust Debug Scalar Model_kernels Model_matrix Model_dok Model_checked Spec SpecPipe SpecChecked.

Section Program.
Context {T : Type} {SC : Scalar T} {SN : ScalarNeg T} {CK : Checked T} {CN : CheckedNeg T}.
Variable I : ity.
Definition do_unary_ck (u : unary T) (m : mat T) : option (res (mat T)) :=
  match u, m with
  | UTo FCsr, MCoo m => Some (csr (Coo_to_csr_ck I m))
  | UTo FCsc, MCoo m => Some (csc (Coo_to_csc_ck I m))
  | UToBy o FCsr, MDok m => Some (csr (DoK_to_csr_ck I m o))
  | UToBy o FCsc, MDok m => Some (csc (DoK_to_csc_ck I m o))
  | UNeg, MCoo m => Some (coo (Coo_neg_ck m))
  | UNeg, MCsr m => Some (csr (CSR_neg_ck m))
  | UNeg, MCsc m => Some (csc (CSC_neg_ck m))
  | UScale s, MCsr m => Some (csr (CSR_mul_scalar_ck m s))
  | UScaled s, MCsr m => Some (csr (CSR_scalar_mul_ck s m))
  | _, _ => do_unary I u m
  end.
Definition do_inplace_ck (p : inplace T) (m : mat T) : option (res (mat T)) :=
  match p, m with
  | PDup, MCsr m => Some (csr (CSR_sum_duplicates_ck I m))
  | PDup, MCsc m => Some (csc (CSC_sum_duplicates_ck I m))
  | PDok (OpAdd i j v), MDok m => Some (dok (DoK_add_ck I m i j v))
  | PDok (OpSub i j v), MDok m => Some (dok (DoK_sub_ck I m i j v))
  | _, _ => do_inplace I p m
  end.
Definition do_binary_ck (b : binary) (x y : mat T) : option (res (mat T)) :=
  match b, x, y with
  | BAdd, MCoo a, MCoo b => Some (csr (Coo_add_ck I a b))
  | BAdd, MCsr a, MCsr b => Some (csr (CSR_add_ck I a b))
  | BAdd, MCsc a, MCsc b => Some (csc (CSC_op_add_ck I a b))
  | BSub, MCsr a, MCsr b => Some (csr (CSR_sub_ck I a b))
  | BSub, MCsc a, MCsc b => Some (csc (CSC_subtract_ck I a b))
  | BMul, MCsr a, MCsr b => Some (csr (CSR_mul_ck I a b))
  | BMul, MCsc a, MCsc b => Some (csc (CSC_mul_ck I a b))
  | BMul, MCsc a, MCsr b => Some (csc (CSC_mul_csr_ck I a b))
  | BBeside, MCsr a, MCsr b => Some (csr (CSR_h_stack_ck I a b))
  | _, _, _ => do_binary I b x y
  end.
Definition do_blocks_ck (k : blocks) (ms : list (mat T)) : option (res (mat T)) :=
  match k, ms with
  | KSquare, [MCsc a; MCsc b; MCsc c; MCsc d] => Some (csc (CSC_compose_ck I a b c d))
  | _, _ => do_blocks I k ms
  end.
Definition step_ck (st : list (mat T)) (c : call T) : res (list (mat T)) :=
  match c with
  | CMake f k => new_var st (do_make I f k)
  | CUn u v => new_var st (obind (nth_error st v) (do_unary_ck u))
  | CIn p v => set_var st v (obind (nth_error st v) (do_inplace_ck p))
  | CBin b v w => new_var st (obind (nth_error st v) (fun x => obind (nth_error st w) (do_binary_ck b x)))
  | CBlk k vs => new_var st (obind (vars st vs) (do_blocks_ck k))
  end.
Fixpoint run_ck (st : list (mat T)) (cs : list (call T)) : res (list (mat T)) :=
  match cs with [] => Ok st | c :: cs' => let* st' := step_ck st c in run_ck st' cs' end.
Definition do_look_ck (o : look T) (m : mat T) : option (res (answer T)) :=
  match o, m with
  | LDense _, MCoo m => Some (tab (Coo_to_dense_ck m))
  | LDense _, MCsr m => Some (tab (CSR_to_dense_ck m))
  | LDense _, MCsc m => Some (tab (CSC_to_dense_ck I m))
  | LVec x, MCsr m => Some (vec (CSR_mat_vec_ck m x))
  | LVec x, MCsc m => Some (vec (CSC_mat_vec_ck m x))
  | LDiag, MCoo m => Some (vec (Coo_diagonal_ck m))
  | LDiag, MCsr m => Some (vec (CSR_diagonal_ck m))
  | LDiag, MCsc m => Some (vec (CSC_diagonal_ck m))
  | _, _ => do_look I o m
  end.
End Program.

(** ** Values of one type: every scalar stored in a matrix, named in a call or returned by a reading is one of the type [J] *)
Section Typed.
Variable J : ity.
Local Notation typed := (Forall (in_ity J)).
Definition mat_typed (m : mat Z) : Prop :=
  match m with MCoo m => typed (coo_values m) | MCsr m => typed (csr_values m) | MCsc m => typed (csc_values m) | MDok m => typed (map snd (dok_values m)) end.
Definition maker_typed (k : maker Z) : Prop :=
  match k with
  | MSize _ _ | MId _ => True
  | MDense a => Forall typed a
  | MDiag d => typed d
  | MNew _ _ _ _ x | MRows _ _ _ _ x | MCols _ _ _ _ x => typed x
  end.
Definition unary_typed (u : unary Z) : Prop :=
  match u with UToBy o _ => typed (map snd o) | UScale s | UScaled s => in_ity J s | _ => True end.
Definition inplace_typed (p : inplace Z) : Prop :=
  match p with PSort | PDup => True | PPush _ _ x => in_ity J x | PExtend _ _ x => typed x | PDok (OpSet _ _ x) | PDok (OpAdd _ _ x) | PDok (OpSub _ _ x) => in_ity J x end.
Definition call_typed (c : call Z) : Prop :=
  match c with CMake _ k => maker_typed k | CUn u _ => unary_typed u | CIn p _ => inplace_typed p | CBin _ _ _ | CBlk _ _ => True end.
Definition look_typed (o : look Z) : Prop := match o with LDense o => typed (map snd o) | LVec x => typed x | LDiag | LGet _ _ => True end.
Definition table_typed (t : table Z) : Prop := forall i j, i < t_rows t -> j < t_cols t -> in_ity J (t_at t i j).
Definition answer_typed (a : answer Z) : Prop := match a with ATable a => Forall typed a | AVec y => typed y | AElem v => in_ity J v end.
End Typed.
