(** The programs of SpecPipe.v in either build (C94). *)
From Verif Require Import Rust Scalar Model_kernels Model_matrix Model_dok Spec SpecPipe.

Section Build.
Context {T : Type} {SC : Scalar T} {SN : ScalarNeg T}.
Variable bd : Build.
Variable I : ity.
(** the model's functions behind the calls; [None]: the library has no such method *)
Definition do_make_in (f : fmt) (k : maker T) : option (res (mat T)) :=
  match k, f with
  | MSize r c, FCoo => Some (Ok (MCoo (Coo_with_size r c)))
  | MSize r c, FCsr => Some (Ok (MCsr (CSR_with_size r c)))
  | MSize r c, FDok => Some (Ok (MDok (DoK_new r c)))
  | MDense a, FCoo => Some (coo (Coo_from_dense I a))
  | MDense a, FCsr => Some (csr (CSR_from_dense (BD:=bd) I a))
  | MDense a, FCsc => Some (csc (CSC_from_dense (BD:=bd) I a))
  | MDense a, FDok => Some (dok (DoK_from_dense I a))
  | MDiag d, FCoo => Some (coo (Coo_with_diagonal I d))
  | MDiag d, FCsr => Some (csr (CSR_with_diagonal I d))
  | MDiag d, FCsc => Some (csc (CSC_with_diagonal I d))
  | MId n, FCoo => Some (coo (Coo_identity I n))
  | MNew r c i j x, FCoo => Some (coo (Coo_new r c i j x))
  | MRows r c p j x, FCsr => Some (csr (CSR_new (BD:=bd) r c p j x))
  | MCols r c j p x, FCsc => Some (csc (CSC_new (BD:=bd) r c j p x))
  | _, _ => None
  end.
Definition do_unary_in (u : unary T) (m : mat T) : option (res (mat T)) :=
  match u, m with
  | UTo FCoo, MCsr m => Some (coo (CSR_to_coo I m))
  | UTo FCoo, MCsc m => Some (coo (CSC_to_coo (BD:=bd) I m))
  | UTo FCsr, MCoo m => Some (csr (Coo_to_csr (BD:=bd) I m))
  | UTo FCsr, MCsc m => Some (csr (CSC_to_csr (BD:=bd) I m))
  | UTo FCsc, MCoo m => Some (csc (Coo_to_csc (BD:=bd) I m))
  | UTo FCsc, MCsr m => Some (csc (CSR_to_csc (BD:=bd) I m))
  | UToBy o FCoo, MDok m => Some (coo (DoK_to_coo m o))
  | UToBy o FCsr, MDok m => Some (csr (DoK_to_csr (BD:=bd) I m o))
  | UToBy o FCsc, MDok m => Some (csc (DoK_to_csc (BD:=bd) I m o))
  | UTrans, MCoo m => Some (Ok (MCoo (Coo_t m)))
  | UTrans, MCsr m => Some (csc (CSR_t (BD:=bd) m))
  | UTrans, MCsc m => Some (csr (CSC_t (BD:=bd) m))
  | UNeg, MCoo m => Some (coo (Coo_neg m))
  | UNeg, MCsr m => Some (csr (CSR_neg (BD:=bd) m))
  | UNeg, MCsc m => Some (csc (CSC_neg (BD:=bd) m))
  | UScale s, MCsr m => Some (csr (CSR_mul_scalar (BD:=bd) m s))
  | UScaled s, MCsr m => Some (csr (CSR_scalar_mul (BD:=bd) s m))
  | UUpper k, MCoo m => Some (coo (Coo_upper (BD:=bd) I m k))
  | USelect rs cs, MCsr m => Some (csr (CSR_select (BD:=bd) I m rs cs))
  | USelect rs cs, MCsc m => Some (csc (CSC_select (BD:=bd) I m rs cs))
  | _, _ => None
  end.
Definition do_inplace_in (p : inplace T) (m : mat T) : option (res (mat T)) :=
  match p, m with
  | PSort, MCsr m => Some (csr (CSR_sort_indexes (BD:=bd) m))
  | PSort, MCsc m => Some (csc (CSC_sort_indexes (BD:=bd) m))
  | PDup, MCsr m => Some (csr (CSR_sum_duplicates (BD:=bd) I m))
  | PDup, MCsc m => Some (csc (CSC_sum_duplicates (BD:=bd) I m))
  | PPush i j x, MCoo m => Some (Ok (MCoo (Coo_push m i j x)))
  | PExtend i j x, MCoo m => Some (Ok (MCoo (Coo_extend m i j x)))
  | PDok o, MDok m => Some (dok (dok_apply I m o))
  | _, _ => None
  end.
Definition do_binary_in (b : binary) (x y : mat T) : option (res (mat T)) :=
  match b, x, y with
  | BAdd, MCoo a, MCoo b => Some (csr (Coo_add (BD:=bd) I a b))
  | BAdd, MCsr a, MCsr b => Some (csr (CSR_add (BD:=bd) I a b))
  | BAdd, MCsc a, MCsc b => Some (csc (CSC_op_add (BD:=bd) I a b))
  | BSub, MCsr a, MCsr b => Some (csr (CSR_sub (BD:=bd) I a b))
  | BSub, MCsc a, MCsc b => Some (csc (CSC_subtract (BD:=bd) I a b))
  | BMul, MCsr a, MCsr b => Some (csr (CSR_mul (BD:=bd) I a b))
  | BMul, MCsc a, MCsc b => Some (csc (CSC_mul (BD:=bd) I a b))
  | BMul, MCsc a, MCsr b => Some (csc (CSC_mul_csr (BD:=bd) I a b))
  | BOver, MCoo a, MCoo b => Some (coo (Coo_v_stack (BD:=bd) I a b))
  | BBeside, MCoo a, MCoo b => Some (coo (Coo_h_stack (BD:=bd) I a b))
  | BBeside, MCsr a, MCsr b => Some (csr (CSR_h_stack (BD:=bd) I a b))
  | _, _, _ => None
  end.
Definition do_blocks_in (k : blocks) (ms : list (mat T)) : option (res (mat T)) :=
  match k, ms with
  | KOver3, [MCoo a; MCoo b; MCoo c] => Some (coo (Coo_v_stack3 (BD:=bd) I a b c))
  | KBeside3, [MCoo a; MCoo b; MCoo c] => Some (coo (Coo_h_stack3 (BD:=bd) I a b c))
  | KSquare, [MCoo a; MCoo b; MCoo c; MCoo d] => Some (coo (Coo_compose (BD:=bd) I a b c d))
  | KSquare, [MCsc a; MCsc b; MCsc c; MCsc d] => Some (csc (CSC_compose (BD:=bd) I a b c d))
  | KSquare3, [MCoo a; MCoo b; MCoo c; MCoo d; MCoo e; MCoo f; MCoo g; MCoo h; MCoo i] => Some (coo (Coo_compose3 (BD:=bd) I a b c d e f g h i))
  | _, _ => None
  end.

Definition step_in (st : list (mat T)) (c : call T) : res (list (mat T)) :=
  match c with
  | CMake f k => new_var st (do_make_in f k)
  | CUn u v => new_var st (obind (nth_error st v) (do_unary_in u))
  | CIn p v => set_var st v (obind (nth_error st v) (do_inplace_in p))
  | CBin b v w => new_var st (obind (nth_error st v) (fun x => obind (nth_error st w) (do_binary_in b x)))
  | CBlk k vs => new_var st (obind (vars st vs) (do_blocks_in k))
  end.
Fixpoint run_in (st : list (mat T)) (cs : list (call T)) : res (list (mat T)) :=
  match cs with [] => Ok st | c :: cs' => let* st' := step_in st c in run_in st' cs' end.


Definition do_look_in (o : look T) (m : mat T) : option (res (answer T)) :=
  match o, m with
  | LDense _, MCoo m => Some (tab (Coo_to_dense m))
  | LDense _, MCsr m => Some (tab (CSR_to_dense m))
  | LDense _, MCsc m => Some (tab (CSC_to_dense (BD:=bd) I m))
  | LDense order, MDok m => Some (tab (DoK_to_dense m order))
  | LVec x, MCsr m => Some (vec (CSR_mat_vec m x))
  | LVec x, MCsc m => Some (vec (CSC_mat_vec m x))
  | LDiag, MCoo m => Some (vec (Coo_diagonal m))
  | LDiag, MCsr m => Some (vec (CSR_diagonal (BD:=bd) m))
  | LDiag, MCsc m => Some (vec (CSC_diagonal (BD:=bd) m))
  | LGet i j, MCsr m => Some (elem (CSR_get m (Z.of_nat i) (Z.of_nat j)))
  | LGet i j, MDok m => Some (Ok (AElem (DoK_get m (Z.of_nat i) (Z.of_nat j))))
  | _, _ => None
  end.
End Build.
