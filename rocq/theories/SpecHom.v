(** Maps of scalars: what they are to preserve, and their action on matrices. *)
From Verif Require Import Rust Scalar Model_kernels Model_matrix Model_dok Spec SpecPipe.

(** zero, one and the ring operations *)
Record keeps_ring {T U} {ST : Scalar T} {SU : Scalar U} (h : T -> U) : Prop := {
  keeps_0 : h s0 = s0;
  keeps_1 : h s1 = s1;
  keeps_add : forall x y, h (sadd x y) = sadd (h x) (h y);
  keeps_sub : forall x y, h (ssub x y) = ssub (h x) (h y);
  keeps_mul : forall x y, h (smul x y) = smul (h x) (h y);
}.
(** comparison with == *)
Definition keeps_eq {T U} {ST : Scalar T} {SU : Scalar U} (h : T -> U) : Prop := forall x y, seqb (h x) (h y) = seqb x y.
Definition keeps_neg {T U} {NT : ScalarNeg T} {NU : ScalarNeg U} (h : T -> U) : Prop := forall x, h (sneg x) = sneg (h x).

(** applied to every value, or to the value of a call *)
Definition rmap {A B} (f : A -> B) (m : res A) : res B := match m with Ok a => Ok (f a) | Err e => Err e | Panic => Panic | NoFuel => NoFuel end.
Definition coo_map {T U} (h : T -> U) (m : Coo T) : Coo U := mkCoo (coo_rows m) (coo_cols m) (coo_rowidx m) (coo_colidx m) (map h (coo_values m)).
Definition csr_map {T U} (h : T -> U) (m : CSR T) : CSR U := mkCSR (csr_rows m) (csr_cols m) (csr_rowptr m) (csr_colidx m) (map h (csr_values m)).
Definition csc_map {T U} (h : T -> U) (m : CSC T) : CSC U := mkCSC (csc_rows m) (csc_cols m) (csc_rowidx m) (csc_colptr m) (map h (csc_values m)).
Definition dok_map {T U} (h : T -> U) (m : DoK T) : DoK U := mkDoK (dok_rows m) (dok_cols m) (map (fun e => (fst e, h (snd e))) (dok_values m)).
(** the index arrays and the values of a kernel's result *)
Definition arrays_map {A T U} (h : T -> U) (r : A * list T) : A * list U := (fst r, map h (snd r)).
(** the order in which a dictionary is visited *)
Definition order_map {K T U} (h : T -> U) (l : list (K * T)) : list (K * U) := map (fun e => (fst e, h (snd e))) l.

(** the calls of a program, with the numbers in them replaced *)
Section Calls.
Context {T U : Type} (h : T -> U).
Definition mat_map (m : mat T) : mat U :=
  match m with MCoo m => MCoo (coo_map h m) | MCsr m => MCsr (csr_map h m) | MCsc m => MCsc (csc_map h m) | MDok m => MDok (dok_map h m) end.
Definition maker_map (k : maker T) : maker U :=
  match k with
  | MSize r c => MSize r c
  | MDense a => MDense (map (map h) a)
  | MDiag d => MDiag (map h d)
  | MId n => MId n
  | MNew r c i j x => MNew r c i j (map h x)
  | MRows r c p j x => MRows r c p j (map h x)
  | MCols r c j p x => MCols r c j p (map h x)
  end.
Definition unary_map (u : unary T) : unary U :=
  match u with
  | UTo f => UTo f
  | UToBy o f => UToBy (order_map h o) f
  | UTrans => UTrans
  | UNeg => UNeg
  | UScale s => UScale (h s)
  | UScaled s => UScaled (h s)
  | UUpper k => UUpper k
  | USelect rs cs => USelect rs cs
  end.
Definition dok_op_map (o : dok_op T) : dok_op U := match o with OpSet i j x => OpSet i j (h x) | OpAdd i j x => OpAdd i j (h x) | OpSub i j x => OpSub i j (h x) end.
Definition inplace_map (p : inplace T) : inplace U :=
  match p with PSort => PSort | PDup => PDup | PPush i j x => PPush i j (h x) | PExtend i j x => PExtend i j (map h x) | PDok o => PDok (dok_op_map o) end.
Definition call_map (c : call T) : call U :=
  match c with
  | CMake f k => CMake f (maker_map k)
  | CUn u v => CUn (unary_map u) v
  | CIn p v => CIn (inplace_map p) v
  | CBin b v w => CBin b v w
  | CBlk k vs => CBlk k vs
  end.
Definition look_map (o : look T) : look U := match o with LDense o => LDense (order_map h o) | LVec x => LVec (map h x) | LDiag => LDiag | LGet i j => LGet i j end.
Definition answer_map (a : answer T) : answer U := match a with ATable a => ATable (map (map h) a) | AVec y => AVec (map h y) | AElem v => AElem (h v) end.
End Calls.
