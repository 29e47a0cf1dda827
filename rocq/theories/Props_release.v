(** C84, C85: builds without overflow checks. *)
From Coq Require Import String.
From Verif Require Import Rust Scalar Model_kernels Model_matrix Model_graph Model_dok Model_text Model_eigen Spec SpecMore SpecGraph Check Main_release.

(** C84. Whatever the build with overflow checks returns, be it a result or an error, the build without them returns too.
    [both f] reads: if [f] does not panic with overflow checks, it gives the same without them.  No argument is assumed well formed. *)
Section Agree.
Context {T : Type} {SC : Scalar T} {SO : ScalarOrd T}.
Variable I : ity.
Theorem C84_kernels : forall (i1 i2 i3 i4 : Z) (n1 n2 n3 : nat) (p1 p2 p3 p4 p5 p6 : list Z) (x1 x2 x3 : list T) (w1 : list bool) (l1 : list nat) (F : ity),
  both (fun b => csr_diagonal (BD:=b) i1 n1 n2 p1 p2 x1 x2) /\ both (fun b => csr_has_sorted_indices (BD:=b) I n1 p1 p2) /\
  both (fun b => csr_has_canonical_format (BD:=b) I n1 p1 p2) /\ both (fun b => csr_sort_indices (BD:=b) n1 p1 p2 x1) /\
  both (fun b => csr_tocsc (BD:=b) I n1 n2 p1 p2 x1 p3 p4 x2) /\ both (fun b => csr_matmat (BD:=b) I n1 n2 p1 p2 x1 p3 p4 x2 p5 p6 x3) /\
  both (fun b => csr_ne_csr (BD:=b) I n1 n2 p1 p2 x1 p3 p4 x2 p5 p6 w1) /\ both (fun b => csr_eq_csr (BD:=b) I n1 n2 p1 p2 x1 p3 p4 x2 p5 p6 w1) /\
  both (fun b => csr_mul_csr (BD:=b) I n1 n2 p1 p2 x1 p3 p4 x2 p5 p6 x3) /\ both (fun b => csr_div_csr (BD:=b) I n1 n2 p1 p2 x1 p3 p4 x2 p5 p6 x3) /\
  both (fun b => csr_add_csr (BD:=b) I n1 n2 p1 p2 x1 p3 p4 x2 p5 p6 x3) /\ both (fun b => csr_sub_csr (BD:=b) I n1 n2 p1 p2 x1 p3 p4 x2 p5 p6 x3) /\
  both (fun b => csr_lt_csr (BD:=b) I n1 n2 p1 p2 x1 p3 p4 x2 p5 p6 w1) /\ both (fun b => csr_le_csr (BD:=b) I n1 n2 p1 p2 x1 p3 p4 x2 p5 p6 w1) /\
  both (fun b => csr_gt_csr (BD:=b) I n1 n2 p1 p2 x1 p3 p4 x2 p5 p6 w1) /\ both (fun b => csr_ge_csr (BD:=b) I n1 n2 p1 p2 x1 p3 p4 x2 p5 p6 w1) /\
  both (fun b => csr_max_csr (BD:=b) I n1 n2 p1 p2 x1 p3 p4 x2 p5 p6 x3) /\ both (fun b => csr_min_csr (BD:=b) I n1 n2 p1 p2 x1 p3 p4 x2 p5 p6 x3) /\
  both (fun b => get_csr_submatrix (BD:=b) I n1 n2 p1 p2 x1 i1 i2 i3 i4 p3 p4 x2) /\
  both (fun b => csr_column_index1 (BD:=b) I n1 l1 n2 n3 p1 p2 p3 p4) /\ both (fun b => csr_count_diagonals (BD:=b) n1 p1 p2) /\
  both (fun b => coo_tocsr (BD:=b) I n1 n2 n3 p1 p2 x1 p3 p4 x2) /\ both (fun b => csc_diagonal (BD:=b) i1 n1 n2 p1 p2 x1 x2) /\
  both (fun b => csc_tocsr (BD:=b) I n1 n2 p1 p2 x1 p3 p4 x2) /\ both (fun b => csc_matmat (BD:=b) I n1 n2 p1 p2 x1 p3 p4 x2 p5 p6 x3) /\
  both (fun b => cs_graph_components (BD:=b) I F n1 p1 p2 p3).
Proof. exact (c84_kernels I). Qed.
Theorem C84_csr : forall (n1 n2 : nat) (p1 p2 : list Z) (x1 : list T) (a1 a2 : CSR T) (m1 : list (list T)) (o1 o2 : option (list Z)) (s1 : T) (F : ity),
  both (fun b => CSR_new (BD:=b) n1 n2 p1 p2 x1) /\ both (fun b => CSR_nnz (BD:=b) a1) /\ both (fun b => CSR_t (BD:=b) a1) /\
  both (fun b => CSR_has_canonical_format (BD:=b) I a1) /\ both (fun b => CSR_has_sorted_indexes (BD:=b) I a1) /\
  both (fun b => CSR_sort_indexes (BD:=b) a1) /\ both (fun b => CSR_sum_duplicates (BD:=b) I a1) /\ both (fun b => CSR_to_csc (BD:=b) I a1) /\
  both (fun b => CSR_from_dense (BD:=b) I m1) /\ both (fun b => CSR_diagonal (BD:=b) a1) /\ both (fun b => CSR_h_stack (BD:=b) I a1 a2) /\
  both (fun b => CSR_mat_mat (BD:=b) I a1 a2) /\ both (fun b => CSR_select (BD:=b) I a1 o1 o2) /\ both (fun b => CSR_add (BD:=b) I a1 a2) /\
  both (fun b => CSR_sub (BD:=b) I a1 a2) /\ both (fun b => CSR_mul (BD:=b) I a1 a2) /\ both (fun b => CSR_mul_scalar (BD:=b) a1 s1) /\
  both (fun b => CSR_scalar_mul (BD:=b) s1 a1) /\ both (fun b => CSR_connected_components (BD:=b) I F a1).
Proof. exact (c84_csr I). Qed.
Theorem C84_csc : forall (n1 n2 : nat) (p1 p2 : list Z) (x1 : list T) (b1 b2 b3 b4 : CSC T) (m1 : list (list T)) (o1 o2 : option (list Z)) (a1 : CSR T) (s1 : T),
  both (fun b => CSC_new (BD:=b) n1 n2 p1 p2 x1) /\ both (fun b => CSC_nnz (BD:=b) b1) /\ both (fun b => CSC_t (BD:=b) b1) /\
  both (fun b => CSC_has_canonical_format (BD:=b) I b1) /\ both (fun b => CSC_has_sorted_indexes (BD:=b) I b1) /\
  both (fun b => CSC_sort_indexes (BD:=b) b1) /\ both (fun b => CSC_prune (BD:=b) b1) /\ both (fun b => CSC_sum_duplicates (BD:=b) I b1) /\
  both (fun b => CSC_to_csr (BD:=b) I b1) /\ both (fun b => CSC_to_coo (BD:=b) I b1) /\ both (fun b => CSC_to_dense (BD:=b) I b1) /\
  both (fun b => CSC_from_dense (BD:=b) I m1) /\ both (fun b => CSC_diagonal (BD:=b) b1) /\ both (fun b => CSC_compose (BD:=b) I b1 b2 b3 b4) /\
  both (fun b => CSC_mat_mat (BD:=b) I b1 b2) /\ both (fun b => CSC_select (BD:=b) I b1 o1 o2) /\ both (fun b => CSC_add (BD:=b) I b1 b2) /\
  both (fun b => CSC_subtract (BD:=b) I b1 b2) /\ both (fun b => CSC_op_add (BD:=b) I b1 b2) /\ both (fun b => CSC_op_sub (BD:=b) I b1 b2) /\
  both (fun b => CSC_mul (BD:=b) I b1 b2) /\ both (fun b => CSC_mul_csr (BD:=b) I b1 a1) /\ both (fun b => CSC_mul_scalar (BD:=b) b1 s1) /\
  both (fun b => CSC_scalar_mul (BD:=b) s1 b1).
Proof. exact (c84_csc I). Qed.
Theorem C84_coo : forall (c1 c2 c3 c4 c5 c6 c7 c8 c9 : Coo T) (i1 : Z),
  both (fun b => Coo_to_csc (BD:=b) I c1) /\ both (fun b => Coo_to_csr (BD:=b) I c1) /\ both (fun b => Coo_upper (BD:=b) I c1 i1) /\
  both (fun b => Coo_v_stack (BD:=b) I c1 c2) /\ both (fun b => Coo_v_stack3 (BD:=b) I c1 c2 c3) /\ both (fun b => Coo_h_stack (BD:=b) I c1 c2) /\
  both (fun b => Coo_h_stack3 (BD:=b) I c1 c2 c3) /\ both (fun b => Coo_compose (BD:=b) I c1 c2 c3 c4) /\
  both (fun b => Coo_compose3 (BD:=b) I c1 c2 c3 c4 c5 c6 c7 c8 c9) /\ both (fun b => Coo_add (BD:=b) I c1 c2).
Proof. exact (c84_coo I). Qed.
Theorem C84_dok : forall (d : DoK T) (order : list (Z * Z * T)),
  both (fun b => DoK_to_csc (BD:=b) I d order) /\ both (fun b => DoK_to_csr (BD:=b) I d order).
Proof. exact (c84_dok I). Qed.
Theorem C84_rest : forall {T2} {NZ : Nonzero T2} (op : T -> T -> res T2) (n1 n2 : nat) (p1 p2 p3 p4 p5 p6 : list Z) (x1 x2 : list T) (w1 : list T2)
    (g : CSR T) (f1 : bool) conn (show : T -> string) (align : string -> string),
  both (fun b => csr_binop_csr (BD:=b) I op n1 n2 p1 p2 x1 p3 p4 x2 p5 p6 w1) /\ both (fun b => connected_components (BD:=b) I g f1 conn) /\
  both (fun b => depth_first_order (BD:=b) I g n1 f1) /\ both (fun b => CSR_to_table (BD:=b) show align g).
Proof. exact (@c84_rest T SC I). Qed.
Theorem C84_row_slice : forall fuel start stop step (p j : list Z) (x : list T) bj bx, both (fun b => csr_row_slice (BD:=b) fuel start stop step p j x bj bx).
Proof. exact c84_row_slice. Qed.
Theorem C84_signed : forall {SN : ScalarNeg T} (a1 : CSR T) (b1 : CSC T), both (fun b => CSR_neg (BD:=b) a1) /\ both (fun b => CSC_neg (BD:=b) b1).
Proof. exact (@c84_signed T). Qed.
Theorem C84_complex : forall {C} {CO : ComplexOps T C} (a1 : CSR T) (a2 : CSR C) (b2 : CSC C),
  both (fun b => CSR_with_real (BD:=b) a1) /\ both (fun b => CSR_with_imag (BD:=b) a1) /\ both (fun b => CSR_conj (BD:=b) a2) /\
  both (fun b => CSR_real (BD:=b) a2) /\ both (fun b => CSR_imag (BD:=b) a2) /\ both (fun b => CSR_h (BD:=b) a2) /\
  both (fun b => CSC_conj (BD:=b) b2) /\ both (fun b => CSC_real (BD:=b) b2) /\ both (fun b => CSC_imag (BD:=b) b2) /\ both (fun b => CSC_h (BD:=b) b2).
Proof. exact (@c84_complex T SC). Qed.
Theorem C84_eigs : forall {SN : ScalarNeg T} {H} dnaupd dneupd fuel (a : CSC T) nev (h : H), both (fun b => eigs (BD:=b) dnaupd dneupd fuel a nev h).
Proof. exact (@c84_eigs T SC). Qed.
End Agree.

(** C85. What remains: calls that panic with overflow checks because an index or a count leaves its type. *)
Section Wrap.
Context {T : Type} {SC : Scalar T}.
Variable I : ity.
(** Conversions from coordinate form still panic, in every build. *)
Theorem C85_coo_overflow : forall b (m : Coo T), (imax I < Z.of_nat (length (coo_values m)))%Z ->
  Coo_to_csr (BD:=b) I m = Panic /\ Coo_to_csc (BD:=b) I m = Panic.
Proof. exact (c85_coo_overflow I). Qed.
(** Dense input is read by conversions that are checked in every build. *)
Theorem C85_from_dense : forall b (a : list (list T)), CSR_from_dense (BD:=b) I a = CSR_from_dense (BD:=Debug) I a /\ CSC_from_dense (BD:=b) I a = CSC_from_dense (BD:=Debug) I a.
Proof. exact (c85_from_dense I). Qed.
(** The upper triangle compares a row plus [k] that has wrapped round. *)
Theorem C85_upper : forall (m : Coo T) k, wf_coo I m ->
  exists r, Coo_upper (BD:=Release) I m k = Ok r /\ wf_coo I r /\ coo_rows r = coo_rows m /\ coo_cols r = coo_cols m /\
    coo_entries r = filter (fun e => iwrap I (Z.of_nat (fst (fst e)) + k) <=? Z.of_nat (snd (fst e)))%Z (coo_entries m).
Proof. exact (c85_upper I). Qed.
(** The stacks give the shifted indices, and the sum of the dimensions, wrapped round ... *)
Theorem C85_v_stack : forall a b : Coo T, coo_cols a = coo_cols b -> (Z.of_nat (coo_rows a) <= imax I)%Z ->
  Coo_v_stack (BD:=Release) I a b = Ok (mkCoo (wrapped_sum (coo_rows a) (coo_rows b)) (coo_cols a)
    (coo_rowidx a ++ map (fun r => iwrap I (r + Z.of_nat (coo_rows a))) (coo_rowidx b)) (coo_colidx a ++ coo_colidx b) (coo_values a ++ coo_values b)).
Proof. exact (c85_v_stack I). Qed.
Theorem C85_h_stack : forall a b : Coo T, wf_coo I a -> wf_coo I b -> coo_rows a = coo_rows b -> (Z.of_nat (coo_cols a) <= imax I)%Z ->
  Coo_h_stack (BD:=Release) I a b = Ok (mkCoo (coo_rows a) (wrapped_sum (coo_cols a) (coo_cols b)) (coo_rowidx a ++ coo_rowidx b)
    (coo_colidx a ++ map (fun c => iwrap I (c + Z.of_nat (coo_cols a))) (coo_colidx b)) (coo_values a ++ coo_values b)).
Proof. exact (c85_h_stack I). Qed.
(** ... so as soon as one of them leaves an unsigned type the stack is well formed and wrong. *)
Theorem C85_v_stack_wrong : unsigned I -> forall a b : Coo T, wf_coo I a -> wf_coo I b -> coo_cols a = coo_cols b -> (Z.of_nat (coo_rows a) <= imax I)%Z -> (Z.of_nat (coo_rows a + coo_rows b) <= imax Usize)%Z ->
  (exists e, In e (coo_entries b) /\ (imax I < Z.of_nat (coo_rows a + fst (fst e)))%Z) ->
  exists r, Coo_v_stack (BD:=Release) I a b = Ok r /\ wf_coo I r /\ coo_rows r = coo_rows a + coo_rows b /\
    coo_entries r <> coo_entries a ++ placed (coo_rows a) 0 (coo_entries b).
Proof. exact (c85_v_stack_wrong I). Qed.
(** The sortedness test with an empty first row: with a signed type it panics in every build; with an unsigned type it compares neighbours over the
    whole array, across the rows, and runs off its end unless it meets a descent. *)
Theorem C85_csr_has_sorted_indexes : forall m : CSR T, wf_csr I m -> 0 < csr_rows m -> csr_row m 0 = [] ->
  (~ unsigned I -> CSR_has_sorted_indexes (BD:=Release) I m = Panic) /\
  (unsigned I -> (Z.of_nat (length (csr_colidx m)) <= imax I)%Z ->
    (descent (csr_colidx m) -> CSR_has_sorted_indexes (BD:=Release) I m = Ok false) /\ (~ descent (csr_colidx m) -> CSR_has_sorted_indexes (BD:=Release) I m = Panic)).
Proof. exact (c85_csr_has_sorted_indexes I). Qed.
Theorem C85_csc_has_sorted_indexes : forall m : CSC T, wf_csc I m -> 0 < csc_cols m -> csc_col m 0 = [] ->
  (~ unsigned I -> CSC_has_sorted_indexes (BD:=Release) I m = Panic) /\
  (unsigned I -> (Z.of_nat (length (csc_rowidx m)) <= imax I)%Z ->
    (descent (csc_rowidx m) -> CSC_has_sorted_indexes (BD:=Release) I m = Ok false) /\ (~ descent (csc_rowidx m) -> CSC_has_sorted_indexes (BD:=Release) I m = Panic)).
Proof. exact (c85_csc_has_sorted_indexes I). Qed.
(** Diagonals are counted right, below the main one too. *)
Theorem C85_count_diagonals : forall m : CSR T, wf_csr I m -> (Z.of_nat (csr_rows m) <= 2 ^ 63)%Z -> (Z.of_nat (csr_cols m) <= 2 ^ 63)%Z ->
  exists ds, NoDup ds /\ csr_count_diagonals (BD:=Release) (csr_rows m) (csr_rowptr m) (csr_colidx m) = Ok (length ds) /\
    forall d : Z, In d ds <-> exists e, In e (csr_entries m) /\ (Z.of_nat (snd (fst e)) - Z.of_nat (fst (fst e)) = d)%Z.
Proof. exact (c85_count_diagonals I). Qed.
(** A row slice whose step is a negative number -d taken as a [usize] walks down to row 0. *)
Theorem C85_row_slice : forall (m : CSR T) start stop step d fuel bj bx, wf_csr I m -> start < stop -> stop <= csr_rows m -> (Z.of_nat (csr_rows m) <= 2 ^ 63)%Z ->
  0 < d -> (Z.of_nat d < 2 ^ 63)%Z -> (Z.of_nat step = 2 ^ 64 - Z.of_nat d)%Z -> start + 1 < fuel ->
  csr_row_slice (BD:=Release) fuel start stop step (csr_rowptr m) (csr_colidx m) (csr_values m) bj bx =
    Ok (bj ++ map (fun e => Z.of_nat (fst e)) (flat_map (csr_row m) (downwards start d)), bx ++ map snd (flat_map (csr_row m) (downwards start d))).
Proof. exact (c85_row_slice I). Qed.
(** Strong components of the empty graph: none. *)
Theorem C85_strong_empty : forall g : CSR T, csr_rows g = 0 -> csr_cols g = 0 -> connected_components (BD:=Release) I g true Strong = Ok (0, []).
Proof. exact (c85_strong_empty I). Qed.
End Wrap.
(** Products and sums whose number of entries leaves the type lose entries in silence. *)
Theorem C85_mat_mat_wrong : exists a b c : CSR Z, wf_csr U8 a /\ wf_csr U8 b /\ csr_cols a = csr_rows b /\
  CSR_mat_mat (BD:=Debug) U8 a b = Panic /\ CSR_mat_mat (BD:=Release) U8 a b = Ok c /\ CSR_nnz (BD:=Release) c = Ok 0 /\ csr_row c 15 = [] /\ meets a b 15 15 = true.
Proof. exact c85_mat_mat_wrong. Qed.
Theorem C85_add_wrong : exists a b c : CSR Z, wf_csr U8 a /\ wf_csr U8 b /\ csr_rows a = csr_rows b /\ csr_cols a = csr_cols b /\
  CSR_add (BD:=Debug) U8 a b = Panic /\ CSR_add (BD:=Release) U8 a b = Ok c /\ CSR_nnz (BD:=Release) c = Ok 0 /\ csr_row c 15 = [] /\ csr_at b 15 15 = [1%Z].
Proof. exact c85_add_wrong. Qed.

(** ** Concrete cases *)
Definition ex_low : CSR Z := mkCSR 3 3 [0; 1; 3; 4]%Z [1; 0; 2; 0]%Z [5; 6; 7; 8]%Z.
Example ex_both : CSR_to_csc (BD:=Debug) U8 ex_low <> Panic /\ CSR_mat_mat (BD:=Debug) U8 ex_low ex_low <> Panic /\
  CSR_mat_mat (BD:=Release) U8 ex_low ex_low = CSR_mat_mat (BD:=Debug) U8 ex_low ex_low.
Proof. repeat split; vm_compute; try discriminate; reflexivity. Qed.
Example ex_both_error : CSR_mat_mat (BD:=Debug) U8 ex_low (ones_row 3) = Err EDim /\ CSR_mat_mat (BD:=Release) U8 ex_low (ones_row 3) = Err EDim.
Proof. split; reflexivity. Qed.
Example ex_coo_overflow : (imax I8 < Z.of_nat (length (coo_values (mkCoo 1 1 (repeat 0%Z 128) (repeat 0%Z 128) (repeat 1%Z 128)))))%Z.
Proof. reflexivity. Qed.
Definition ex_tall : Coo Z := mkCoo 200 1 [0; 199]%Z [0; 0]%Z [1; 2]%Z.
Example ex_stack : unsigned U8 /\ wf_coo U8 ex_tall /\ Coo_v_stack (BD:=Debug) U8 ex_tall ex_tall = Panic /\
  Coo_v_stack (BD:=Release) U8 ex_tall ex_tall = Ok (mkCoo 400 1 [0; 199; 200; 143]%Z [0; 0; 0; 0]%Z [1; 2; 1; 2]%Z) /\
  (exists e, In e (coo_entries ex_tall) /\ (imax U8 < Z.of_nat (coo_rows ex_tall + fst (fst e)))%Z).
Proof. repeat split; try reflexivity; try check. exists (199, 0, 2%Z). split; [right; left; reflexivity|reflexivity]. Qed.
Example ex_upper : Coo_upper (BD:=Release) U8 ex_tall 100 = Ok (mkCoo 200 1 [] [] []) /\
  Coo_upper (BD:=Release) U8 ex_tall 57 = Ok (mkCoo 200 1 [199]%Z [0]%Z [2]%Z) /\ Coo_upper (BD:=Debug) U8 ex_tall 57 = Panic.
Proof. repeat split; reflexivity. Qed.
Definition ex_empty_first : CSR Z := mkCSR 3 3 [0; 0; 2; 3]%Z [1; 2; 0]%Z [5; 6; 7]%Z.
Example ex_sorted_release : wf_csr U8 ex_empty_first /\ csr_row ex_empty_first 0 = [] /\ descent (csr_colidx ex_empty_first) /\
  CSR_has_sorted_indexes (BD:=Release) U8 ex_empty_first = Ok false /\ CSR_has_sorted_indexes (BD:=Release) I8 ex_empty_first = Panic.
Proof. split; [check|]. split; [reflexivity|]. split; [exists 1; split; [cbn; auto|reflexivity]|]. split; reflexivity. Qed.
Example ex_diagonals_release : wf_csr U8 ex_low /\ csr_entries ex_low = [(0, 1, 5%Z); (1, 0, 6%Z); (1, 2, 7%Z); (2, 0, 8%Z)] /\
  csr_count_diagonals (BD:=Debug) 3 (csr_rowptr ex_low) (csr_colidx ex_low) = Panic.
Proof. split; [check|]. split; reflexivity. Qed.
Example ex_downwards : downwards 5 2 = [5; 3; 1] /\ downwards 2 1 = [2; 1; 0].
Proof. split; reflexivity. Qed.
Example ex_strong_empty : connected_components (BD:=Debug) U8 (mkCSR 0 0 [0%Z] [] ([] : list Z)) true Strong = Panic.
Proof. reflexivity. Qed.

Print Assumptions C84_kernels.
Print Assumptions C84_csr.
Print Assumptions C84_csc.
Print Assumptions C84_coo.
Print Assumptions C84_dok.
Print Assumptions C84_rest.
Print Assumptions C84_row_slice.
Print Assumptions C84_signed.
Print Assumptions C84_complex.
Print Assumptions C84_eigs.
Print Assumptions C85_coo_overflow.
Print Assumptions C85_from_dense.
Print Assumptions C85_upper.
Print Assumptions C85_v_stack.
Print Assumptions C85_h_stack.
Print Assumptions C85_v_stack_wrong.
Print Assumptions C85_csr_has_sorted_indexes.
Print Assumptions C85_csc_has_sorted_indexes.
Print Assumptions C85_count_diagonals.
Print Assumptions C85_row_slice.
Print Assumptions C85_strong_empty.
Print Assumptions C85_mat_mat_wrong.
Print Assumptions C85_add_wrong.
