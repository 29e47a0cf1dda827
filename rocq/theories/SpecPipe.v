(** Histories of calls on matrices of all four formats (C50, C62): the calls, what the library computes for
    them, when they are admissible, and what they mean on plain tables. *)
From Verif Require Import Rust Scalar Model_kernels Model_matrix Model_dok Spec.

Section Pipe.
Context {T : Type} {SC : Scalar T} {SN : ScalarNeg T}.
Variable I : ity.

(** a variable of the user's program *)
Inductive mat : Type := MCoo (m : Coo T) | MCsr (m : CSR T) | MCsc (m : CSC T) | MDok (m : DoK T).
Definition mat_wf (m : mat) : Prop :=
  match m with MCoo m => wf_coo I m | MCsr m => wf_csr I m | MCsc m => wf_csc I m | MDok m => wf_dok I m end.
Definition mat_rows (m : mat) : nat := match m with MCoo m => coo_rows m | MCsr m => csr_rows m | MCsc m => csc_rows m | MDok m => dok_rows m end.
Definition mat_cols (m : mat) : nat := match m with MCoo m => coo_cols m | MCsr m => csr_cols m | MCsc m => csc_cols m | MDok m => dok_cols m end.
(** number of stored entries *)
Definition mat_count (m : mat) : nat :=
  match m with MCoo m => length (coo_values m) | MCsr m => csr_count m | MCsc m => csc_count m | MDok m => DoK_nnz m end.
(** element (i, j) *)
Definition mat_val (m : mat) (i j : nat) : T :=
  match m with MCoo m => coo_val m i j | MCsr m => csr_val m i j | MCsc m => csc_val m i j | MDok m => DoK_get m (Z.of_nat i) (Z.of_nat j) end.

Inductive fmt := FCoo | FCsr | FCsc | FDok.
(** constructors: [with_size] or [DoK::new] (not CSC), [from_dense], [with_diagonal] (not DoK), [Coo::identity],
    [Coo::new], [CSR::new], [CSC::new] *)
Inductive maker : Type :=
  | MSize (r c : nat) | MDense (a : list (list T)) | MDiag (d : list T) | MId (n : nat)
  | MNew (r c : nat) (i j : list Z) (x : list T)
  | MRows (r c : nat) (p j : list Z) (x : list T)
  | MCols (r c : nat) (j p : list Z) (x : list T).
(** methods with one matrix: conversion, conversion of a dictionary that is visited in the given order,
    transposition, negation, products with a scalar (CSR only), [Coo::upper], [select] (CSR, CSC) *)
Inductive unary : Type :=
  | UTo (f : fmt) | UToBy (order : list ((Z * Z) * T)) (f : fmt) | UTrans | UNeg | UScale (s : T) | UScaled (s : T)
  | UUpper (k : Z) | USelect (rs cs : option (list Z)).
(** methods that change a matrix: [sort_indexes], [sum_duplicates] (compressed), [push], [extend] (coordinate),
    [set], [add], [sub] (dictionary) *)
Inductive inplace : Type :=
  | PSort | PDup | PPush (i j : Z) (x : T) | PExtend (i j : list Z) (x : list T) | PDok (o : dok_op T).
(** operations with two matrices: sum (coordinate + coordinate gives CSR), difference (CSR, CSC), product
    (CSR CSR, CSC CSC, CSC CSR), [v_stack] (coordinate), [h_stack] (coordinate, CSR) *)
Inductive binary : Type := BAdd | BSub | BMul | BOver | BBeside.
(** operations with more matrices: [v_stack3], [h_stack3] (coordinate), [compose] (coordinate, CSC), [compose3]
    (coordinate) *)
Inductive blocks : Type := KOver3 | KBeside3 | KSquare | KSquare3.
(** one call; matrices are numbered in the order of their creation *)
Inductive call : Type :=
  | CMake (f : fmt) (k : maker)
  | CUn (u : unary) (v : nat)
  | CIn (p : inplace) (v : nat)
  | CBin (b : binary) (v w : nat)
  | CBlk (k : blocks) (vs : list nat).

Definition coo (r : res (Coo T)) : res mat := let* m := r in Ok (MCoo m).
Definition csr (r : res (CSR T)) : res mat := let* m := r in Ok (MCsr m).
Definition csc (r : res (CSC T)) : res mat := let* m := r in Ok (MCsc m).
Definition dok (r : res (DoK T)) : res mat := let* m := r in Ok (MDok m).

(** the model's functions behind the calls; [None]: the library has no such method *)
Definition do_make (f : fmt) (k : maker) : option (res mat) :=
  match k, f with
  | MSize r c, FCoo => Some (Ok (MCoo (Coo_with_size r c)))
  | MSize r c, FCsr => Some (Ok (MCsr (CSR_with_size r c)))
  | MSize r c, FDok => Some (Ok (MDok (DoK_new r c)))
  | MDense a, FCoo => Some (coo (Coo_from_dense I a))
  | MDense a, FCsr => Some (csr (CSR_from_dense I a))
  | MDense a, FCsc => Some (csc (CSC_from_dense I a))
  | MDense a, FDok => Some (dok (DoK_from_dense I a))
  | MDiag d, FCoo => Some (coo (Coo_with_diagonal I d))
  | MDiag d, FCsr => Some (csr (CSR_with_diagonal I d))
  | MDiag d, FCsc => Some (csc (CSC_with_diagonal I d))
  | MId n, FCoo => Some (coo (Coo_identity I n))
  | MNew r c i j x, FCoo => Some (coo (Coo_new r c i j x))
  | MRows r c p j x, FCsr => Some (csr (CSR_new r c p j x))
  | MCols r c j p x, FCsc => Some (csc (CSC_new r c j p x))
  | _, _ => None
  end.
Definition do_unary (u : unary) (m : mat) : option (res mat) :=
  match u, m with
  | UTo FCoo, MCsr m => Some (coo (CSR_to_coo I m))
  | UTo FCoo, MCsc m => Some (coo (CSC_to_coo I m))
  | UTo FCsr, MCoo m => Some (csr (Coo_to_csr I m))
  | UTo FCsr, MCsc m => Some (csr (CSC_to_csr I m))
  | UTo FCsc, MCoo m => Some (csc (Coo_to_csc I m))
  | UTo FCsc, MCsr m => Some (csc (CSR_to_csc I m))
  | UToBy o FCoo, MDok m => Some (coo (DoK_to_coo m o))
  | UToBy o FCsr, MDok m => Some (csr (DoK_to_csr I m o))
  | UToBy o FCsc, MDok m => Some (csc (DoK_to_csc I m o))
  | UTrans, MCoo m => Some (Ok (MCoo (Coo_t m)))
  | UTrans, MCsr m => Some (csc (CSR_t m))
  | UTrans, MCsc m => Some (csr (CSC_t m))
  | UNeg, MCoo m => Some (coo (Coo_neg m))
  | UNeg, MCsr m => Some (csr (CSR_neg m))
  | UNeg, MCsc m => Some (csc (CSC_neg m))
  | UScale s, MCsr m => Some (csr (CSR_mul_scalar m s))
  | UScaled s, MCsr m => Some (csr (CSR_scalar_mul s m))
  | UUpper k, MCoo m => Some (coo (Coo_upper I m k))
  | USelect rs cs, MCsr m => Some (csr (CSR_select I m rs cs))
  | USelect rs cs, MCsc m => Some (csc (CSC_select I m rs cs))
  | _, _ => None
  end.
Definition do_inplace (p : inplace) (m : mat) : option (res mat) :=
  match p, m with
  | PSort, MCsr m => Some (csr (CSR_sort_indexes m))
  | PSort, MCsc m => Some (csc (CSC_sort_indexes m))
  | PDup, MCsr m => Some (csr (CSR_sum_duplicates I m))
  | PDup, MCsc m => Some (csc (CSC_sum_duplicates I m))
  | PPush i j x, MCoo m => Some (Ok (MCoo (Coo_push m i j x)))
  | PExtend i j x, MCoo m => Some (Ok (MCoo (Coo_extend m i j x)))
  | PDok o, MDok m => Some (dok (dok_apply I m o))
  | _, _ => None
  end.
Definition do_binary (b : binary) (x y : mat) : option (res mat) :=
  match b, x, y with
  | BAdd, MCoo a, MCoo b => Some (csr (Coo_add I a b))
  | BAdd, MCsr a, MCsr b => Some (csr (CSR_add I a b))
  | BAdd, MCsc a, MCsc b => Some (csc (CSC_op_add I a b))
  | BSub, MCsr a, MCsr b => Some (csr (CSR_sub I a b))
  | BSub, MCsc a, MCsc b => Some (csc (CSC_subtract I a b))
  | BMul, MCsr a, MCsr b => Some (csr (CSR_mul I a b))
  | BMul, MCsc a, MCsc b => Some (csc (CSC_mul I a b))
  | BMul, MCsc a, MCsr b => Some (csc (CSC_mul_csr I a b))
  | BOver, MCoo a, MCoo b => Some (coo (Coo_v_stack I a b))
  | BBeside, MCoo a, MCoo b => Some (coo (Coo_h_stack I a b))
  | BBeside, MCsr a, MCsr b => Some (csr (CSR_h_stack I a b))
  | _, _, _ => None
  end.
Definition do_blocks (k : blocks) (ms : list mat) : option (res mat) :=
  match k, ms with
  | KOver3, [MCoo a; MCoo b; MCoo c] => Some (coo (Coo_v_stack3 I a b c))
  | KBeside3, [MCoo a; MCoo b; MCoo c] => Some (coo (Coo_h_stack3 I a b c))
  | KSquare, [MCoo a; MCoo b; MCoo c; MCoo d] => Some (coo (Coo_compose I a b c d))
  | KSquare, [MCsc a; MCsc b; MCsc c; MCsc d] => Some (csc (CSC_compose I a b c d))
  | KSquare3, [MCoo a; MCoo b; MCoo c; MCoo d; MCoo e; MCoo f; MCoo g; MCoo h; MCoo i] => Some (coo (Coo_compose3 I a b c d e f g h i))
  | _, _ => None
  end.

(** one call of the user's program; [NoFuel] where there is no such call *)
Definition new_var (st : list mat) (r : option (res mat)) : res (list mat) :=
  match r with Some r => let* m := r in Ok (st ++ [m]) | None => NoFuel end.
Definition set_var (st : list mat) (v : nat) (r : option (res mat)) : res (list mat) :=
  match r with Some r => let* m := r in Ok (upd st v m) | None => NoFuel end.
Definition obind {A B} (o : option A) (f : A -> option B) : option B := match o with Some a => f a | None => None end.
Fixpoint vars (st : list mat) (vs : list nat) : option (list mat) :=
  match vs with
  | [] => Some []
  | v :: vs' => obind (nth_error st v) (fun m => obind (vars st vs') (fun ms => Some (m :: ms)))
  end.
Definition step (st : list mat) (c : call) : res (list mat) :=
  match c with
  | CMake f k => new_var st (do_make f k)
  | CUn u v => new_var st (obind (nth_error st v) (do_unary u))
  | CIn p v => set_var st v (obind (nth_error st v) (do_inplace p))
  | CBin b v w => new_var st (obind (nth_error st v) (fun x => obind (nth_error st w) (do_binary b x)))
  | CBlk k vs => new_var st (obind (vars st vs) (do_blocks k))
  end.
Fixpoint run (st : list mat) (cs : list call) : res (list mat) :=
  match cs with [] => Ok st | c :: cs' => let* st' := step st c in run st' cs' end.

(** ** Admissible calls: the method exists, sizes match, and what is stored fits the index type *)
Definition index_ok (n : nat) : Prop := (Z.of_nat n <= Z.min (imax I + 1) (imax Usize))%Z.
Definition make_ok (f : fmt) (k : maker) : Prop :=
  do_make f k <> None /\
  match k with
  | MSize r c => index_ok r /\ index_ok c
  | MDense a => a <> [] /\ exists c, rectangular c a /\ index_ok (length a) /\ index_ok c /\ (Z.of_nat (nz_count a) <= imax I)%Z /\
      match f with FDok => (Z.of_nat (length a) <= imax I)%Z /\ (Z.of_nat c <= imax I)%Z | _ => True end
  | MDiag d => (Z.of_nat (length d) <= Z.min (imax I) (imax Usize))%Z
  | MId n => index_ok n
  | MNew r c i j x => index_ok r /\ index_ok c /\ wf_coo I (mkCoo r c i j x)
  | MRows r c p j x => let m := mkCSR r c p j x in index_ok r /\ index_ok c /\ wf_csr I m /\ csr_tight m
  | MCols r c j p x => let m := mkCSC r c j p x in index_ok r /\ index_ok c /\ wf_csc I m /\ csc_tight m
  end.
Definition canonical (m : mat) : Prop :=
  match m with MCsr m => csr_canonical m | MCsc m => csc_canonical m | _ => False end.
(** how many values are stored at (i, j) *)
Definition stored (m : mat) (i j : nat) : nat :=
  match m with MCsr m => length (csr_at m i j) | MCsc m => length (csc_at m i j) | _ => 0 end.
Definition unary_ok (u : unary) (m : mat) : Prop :=
  do_unary u m <> None /\
  match u, m with
  | UTo _, MCoo _ => (Z.of_nat (mat_count m) < imax I)%Z
  | UToBy o f, MDok d => Permutation o (dok_values d) /\ (Z.of_nat (mat_count m) < imax I)%Z
  | UUpper k, MCoo c => forall e, In e (coo_entries c) -> in_ity I (Z.of_nat (fst (fst e)) + k)
  | USelect rs cs, _ =>
      let rl := picked (mat_rows m) rs in let cl := picked (mat_cols m) cs in
      (Z.of_nat (mat_count m) < imax I)%Z /\ (Z.of_nat (mat_rows m) <= imax I)%Z /\ (Z.of_nat (mat_cols m) <= imax I)%Z /\
      canonical m /\ picked_ok (mat_rows m) rs /\ picked_ok (mat_cols m) cs /\ index_ok (length rl) /\ index_ok (length cl) /\
      (Z.of_nat (list_sum (map (fun i => list_sum (map (fun j => stored m i j) cl)) rl)) <= imax I)%Z
  | _, _ => True
  end.
Definition in_size (r c : nat) (i j : Z) : Prop := (0 <= i < Z.of_nat r)%Z /\ (0 <= j < Z.of_nat c)%Z.
Definition inplace_ok (p : inplace) (m : mat) : Prop :=
  do_inplace p m <> None /\
  match p with
  | PSort => True
  | PDup => (Z.of_nat (mat_count m) < imax I)%Z
  | PPush i j _ => in_size (mat_rows m) (mat_cols m) i j
  | PExtend i j x => length i = length x /\ length j = length x /\ Forall2 (in_size (mat_rows m) (mat_cols m)) i j
  | PDok (OpSet i j _) | PDok (OpAdd i j _) | PDok (OpSub i j _) =>
      in_size (mat_rows m) (mat_cols m) i j /\ (Z.of_nat (mat_rows m) <= imax I)%Z /\ (Z.of_nat (mat_cols m) <= imax I)%Z
  end.
(** the number of positions of the product that some pair of entries meets *)
Definition met (x y : mat) : nat :=
  match x, y with
  | MCsr a, MCsr b => product_count a b
  | MCsc a, MCsc b => csc_product_count a b
  | MCsc a, MCsr b => mixed_count a b
  | _, _ => 0
  end.
Definition binary_ok (b : binary) (x y : mat) : Prop :=
  do_binary b x y <> None /\
  match b with
  | BAdd | BSub => mat_rows x = mat_rows y /\ mat_cols x = mat_cols y /\ (Z.of_nat (mat_count x + mat_count y) < imax I)%Z
  | BMul => mat_cols x = mat_rows y /\ (Z.of_nat (met x y) <= imax I)%Z
  | BOver => mat_cols x = mat_cols y /\ index_ok (mat_rows x + mat_rows y)
  | BBeside => mat_rows x = mat_rows y /\ index_ok (mat_cols x + mat_cols y) /\
      match x, y with MCsr a, MCsr b => (Z.of_nat (length (csr_values a) + length (csr_values b)) < imax I)%Z | _, _ => True end
  end.
Definition all_equal (l : list nat) : Prop := match l with [] => True | n :: l' => Forall (fun k => k = n) l' end.
(** a row of blocks next to one another: equal heights *)
Definition width (ms : list mat) : nat := list_sum (map mat_cols ms).
Definition height (ms : list mat) : nat := list_sum (map mat_rows ms).
Definition row_ok (ms : list mat) : Prop := all_equal (map mat_rows ms) /\ index_ok (width ms).
(** rows of blocks below one another: each a row of blocks, equal widths *)
Definition rows_ok (rs : list (list mat)) : Prop :=
  Forall row_ok rs /\ all_equal (map width rs) /\ index_ok (list_sum (map (fun r => mat_rows (hd (MCoo (Coo_with_size 0 0)) r)) rs)).
Definition csc_mat (m : mat) : bool := match m with MCsc _ => true | _ => false end.
Definition blocks_ok (k : blocks) (ms : list mat) : Prop :=
  do_blocks k ms <> None /\
  match k, ms with
  | KOver3, [a; b; c] => rows_ok [[a]; [b]; [c]]
  | KBeside3, [a; b; c] => row_ok [a; b; c]
  | KSquare, [a; b; c; d] => rows_ok [[a; b]; [c; d]] /\ (csc_mat a = true -> (Z.of_nat (list_sum (map mat_count ms)) < imax I)%Z)
  | KSquare3, [a; b; c; d; e; f; g; h; i] => rows_ok [[a; b; c]; [d; e; f]; [g; h; i]]
  | _, _ => True
  end.
Definition call_ok (st : list mat) (c : call) : Prop :=
  match c with
  | CMake f k => make_ok f k
  | CUn u v => exists m, nth_error st v = Some m /\ unary_ok u m
  | CIn p v => exists m, nth_error st v = Some m /\ inplace_ok p m
  | CBin b v w => exists x y, nth_error st v = Some x /\ nth_error st w = Some y /\ binary_ok b x y
  | CBlk k vs => exists ms, vars st vs = Some ms /\ blocks_ok k ms
  end.
(** every call is admissible in the state it is made in *)
Fixpoint calls_ok (st : list mat) (cs : list call) : Prop :=
  match cs with
  | [] => True
  | c :: cs' => call_ok st c /\ match step st c with Ok st' => calls_ok st' cs' | _ => True end
  end.

(** ** The same calls on plain tables: a size and a function *)
Record table : Type := mkTable { t_rows : nat; t_cols : nat; t_at : nat -> nat -> T }.
Definition table_make (k : maker) : table :=
  match k with
  | MSize r c => mkTable r c (fun _ _ => s0)
  | MDense a => mkTable (length a) (length (hd [] a)) (tcell a)
  | MDiag d => mkTable (length d) (length d) (fun i j => if i =? j then nth i d s0 else s0)
  | MId n => mkTable n n (fun i j => if i =? j then s1 else s0)
  | MNew r c i j x => mkTable r c (coo_val (mkCoo r c i j x))
  | MRows r c p j x => mkTable r c (csr_val (mkCSR r c p j x))
  | MCols r c j p x => mkTable r c (csc_val (mkCSC r c j p x))
  end.
Definition table_unary (u : unary) (t : table) : table :=
  match u with
  | UTo _ | UToBy _ _ => t
  | UTrans => mkTable (t_cols t) (t_rows t) (fun i j => t_at t j i)
  | UNeg => mkTable (t_rows t) (t_cols t) (fun i j => sneg (t_at t i j))
  | UScale s => mkTable (t_rows t) (t_cols t) (fun i j => smul (t_at t i j) s)
  | UScaled s => mkTable (t_rows t) (t_cols t) (fun i j => smul s (t_at t i j))
  | UUpper k => mkTable (t_rows t) (t_cols t) (fun i j => if (Z.of_nat i + k <=? Z.of_nat j)%Z then t_at t i j else s0)
  | USelect rs cs => let rl := picked (t_rows t) rs in let cl := picked (t_cols t) cs in
      mkTable (length rl) (length cl) (fun i j => t_at t (nth i rl 0) (nth j cl 0))
  end.
Definition table_over (x y : table) : table :=
  mkTable (t_rows x + t_rows y) (t_cols x) (fun i j => if i <? t_rows x then t_at x i j else t_at y (i - t_rows x) j).
Definition table_beside (x y : table) : table :=
  mkTable (t_rows x) (t_cols x + t_cols y) (fun i j => if j <? t_cols x then t_at x i j else t_at y i (j - t_cols x)).
Definition table_binary (b : binary) (x y : table) : table :=
  match b with
  | BAdd => mkTable (t_rows x) (t_cols x) (fun i j => sadd (t_at x i j) (t_at y i j))
  | BSub => mkTable (t_rows x) (t_cols x) (fun i j => ssub (t_at x i j) (t_at y i j))
  | BMul => mkTable (t_rows x) (t_cols y) (fun i k => rsum (t_cols x) (fun j => smul (t_at x i j) (t_at y j k)))
  | BOver => table_over x y
  | BBeside => table_beside x y
  end.
Definition no_table : table := mkTable 0 0 (fun _ _ => s0).
Definition table_blocks (k : blocks) (ts : list table) : table :=
  match k, ts with
  | KOver3, [a; b; c] => table_over (table_over a b) c
  | KBeside3, [a; b; c] => table_beside (table_beside a b) c
  | KSquare, [a; b; c; d] => table_over (table_beside a b) (table_beside c d)
  | KSquare3, [a; b; c; d; e; f; g; h; i] =>
      table_over (table_over (table_beside (table_beside a b) c) (table_beside (table_beside d e) f)) (table_beside (table_beside g h) i)
  | _, _ => no_table
  end.
(** the table with [f] applied to the element (i, j) *)
Definition table_change (t : table) (i j : Z) (f : T -> T) : table :=
  mkTable (t_rows t) (t_cols t) (fun i' j' => if (i' =? Z.to_nat i) && (j' =? Z.to_nat j) then f (t_at t i' j') else t_at t i' j').
Definition table_push (t : table) (i j : Z) (v : T) : table := table_change t i j (fun w => sadd w v).
Fixpoint table_extend (t : table) (i j : list Z) (x : list T) : table :=
  match i, j, x with a :: i', b :: j', v :: x' => table_extend (table_push t a b v) i' j' x' | _, _, _ => t end.
Definition table_inplace (p : inplace) (t : table) : table :=
  match p with
  | PSort | PDup => t
  | PPush i j v => table_push t i j v
  | PExtend i j x => table_extend t i j x
  | PDok (OpSet i j v) => table_change t i j (fun _ => v)
  | PDok (OpAdd i j v) => table_change t i j (fun w => sadd w v)
  | PDok (OpSub i j v) => table_change t i j (fun w => ssub w v)
  end.
Definition table_step (ts : list table) (c : call) : list table :=
  match c with
  | CMake _ k => ts ++ [table_make k]
  | CUn u v => ts ++ [table_unary u (nth v ts no_table)]
  | CIn p v => upd ts v (table_inplace p (nth v ts no_table))
  | CBin b v w => ts ++ [table_binary b (nth v ts no_table) (nth w ts no_table)]
  | CBlk k vs => ts ++ [table_blocks k (map (fun v => nth v ts no_table) vs)]
  end.
Definition table_run (ts : list table) (cs : list call) : list table := fold_left table_step cs ts.

(** a matrix holds a table *)
Definition holds (m : mat) (t : table) : Prop :=
  mat_rows m = t_rows t /\ mat_cols m = t_cols t /\
  forall i j, i < t_rows t -> j < t_cols t -> mat_val m i j = t_at t i j.

(** ** What a program sees of its matrices: [to_dense], [mat_vec] (CSR, CSC), [diagonal] (not DoK), [get] (CSR, DoK).
    A dictionary is made dense in the given order. *)
Inductive look : Type := LDense (order : list ((Z * Z) * T)) | LVec (x : list T) | LDiag | LGet (i j : nat).
Inductive answer : Type := ATable (a : list (list T)) | AVec (y : list T) | AElem (v : T).
Definition tab (r : res (list (list T))) : res answer := let* a := r in Ok (ATable a).
Definition vec (r : res (list T)) : res answer := let* y := r in Ok (AVec y).
Definition elem (r : res T) : res answer := let* v := r in Ok (AElem v).
Definition do_look (o : look) (m : mat) : option (res answer) :=
  match o, m with
  | LDense _, MCoo m => Some (tab (Coo_to_dense m))
  | LDense _, MCsr m => Some (tab (CSR_to_dense m))
  | LDense _, MCsc m => Some (tab (CSC_to_dense I m))
  | LDense order, MDok m => Some (tab (DoK_to_dense m order))
  | LVec x, MCsr m => Some (vec (CSR_mat_vec m x))
  | LVec x, MCsc m => Some (vec (CSC_mat_vec m x))
  | LDiag, MCoo m => Some (vec (Coo_diagonal m))
  | LDiag, MCsr m => Some (vec (CSR_diagonal m))
  | LDiag, MCsc m => Some (vec (CSC_diagonal m))
  | LGet i j, MCsr m => Some (elem (CSR_get m (Z.of_nat i) (Z.of_nat j)))
  | LGet i j, MDok m => Some (Ok (AElem (DoK_get m (Z.of_nat i) (Z.of_nat j))))
  | _, _ => None
  end.
Definition look_ok (o : look) (m : mat) : Prop :=
  do_look o m <> None /\
  match o, m with
  | LDense order, MDok d => Permutation order (dok_values d)
  | LVec x, _ => length x = mat_cols m
  | LGet i j, MCsr c => i < csr_rows c /\ j < csr_cols c /\ csr_nodup c
  | LGet i j, _ => i < mat_rows m /\ j < mat_cols m
  | _, _ => True
  end.
Definition table_look (o : look) (t : table) : answer :=
  match o with
  | LDense _ => ATable (map (fun i => map (t_at t i) (seq 0 (t_cols t))) (seq 0 (t_rows t)))
  | LVec x => AVec (map (fun i => rsum (t_cols t) (fun j => smul (t_at t i j) (nth j x s0))) (seq 0 (t_rows t)))
  | LDiag => AVec (map (fun i => t_at t i i) (seq 0 (Nat.min (t_rows t) (t_cols t))))
  | LGet i j => AElem (t_at t i j)
  end.
End Pipe.
Arguments mat : clear implicits.
Arguments maker : clear implicits.
Arguments unary : clear implicits.
Arguments call : clear implicits.
Arguments table : clear implicits.
Arguments inplace : clear implicits.
Arguments look : clear implicits.
Arguments answer : clear implicits.
