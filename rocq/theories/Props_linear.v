(** Dense and coordinate output, products with vectors, diagonals, scaling:
    C06, C07, C09, C15, C16, C28, C29, C42-C45. *)
From Coq Require Import SpecFloat.
From Verif Require Import Rust Scalar Model_kernels Model_matrix Spec Wp Check Props_convert Main_linear.

Section Props.
Context {T : Type} {SC : Scalar T}.
Variable I : ity.

(** C06: CSR::to_coo lists exactly the stored entries, by rows, if there is no unused capacity. *)
Theorem C06_csr_to_coo : forall m : CSR T,
  wf_csr I m -> csr_rows_fit I m -> csr_tight m ->
  exists r, CSR_to_coo I m = Ok r /\ wf_coo I r /\ coo_rows r = csr_rows m /\ coo_cols r = csr_cols m /\
    coo_entries r = csr_entries m /\ forall i j, i < csr_rows m -> coo_at r i j = csr_at m i j.
Proof. exact (c06_csr_to_coo I). Qed.
(** With unused capacity (vectors of equal length) the surplus turns up as entries of row 0;
    with surplus of different length the call panics. *)
Theorem C06_csr_to_coo_surplus : forall m : CSR T,
  wf_csr I m -> csr_rows_fit I m ->
  (length (csr_colidx m) = length (csr_values m) ->
   exists r, CSR_to_coo I m = Ok r /\
     (coo_rows r = csr_rows m /\ coo_cols r = csr_cols m /\ coo_colidx r = csr_colidx m /\ coo_values r = csr_values m /\
      coo_rowidx r = map (fun e => Z.of_nat (fst (fst e))) (csr_entries m) ++ repeat 0%Z (length (csr_colidx m) - csr_count m)) /\
     coo_entries r = csr_entries m ++
       combine (map (fun z => (0, Z.to_nat z)) (skipn (csr_count m) (csr_colidx m))) (skipn (csr_count m) (csr_values m))) /\
  (length (csr_colidx m) <> length (csr_values m) -> CSR_to_coo I m = Panic).
Proof. exact (c06_csr_to_coo_surplus I). Qed.

(** C07: CSC::to_coo lists exactly the stored entries, by columns, unused capacity or not. *)
Theorem C07_csc_to_coo : forall m : CSC T,
  wf_csc I m -> csc_cols_fit I m ->
  exists r, CSC_to_coo I m = Ok r /\ wf_coo I r /\ coo_rows r = csc_rows m /\ coo_cols r = csc_cols m /\
    coo_entries r = csc_entries m /\ forall i j, j < csc_cols m -> coo_at r i j = csc_at m i j.
Proof. exact (c07_csc_to_coo I). Qed.

(** C09: to_dense is the table of the in-order sums of the stored values. *)
Theorem C09_coo_to_dense : forall m : Coo T, wf_coo I m ->
  exists d, Coo_to_dense m = Ok d /\ is_table d (coo_rows m) (coo_cols m) (coo_val m).
Proof. exact (c09_coo_to_dense I). Qed.
Theorem C09_csr_to_dense : forall m : CSR T, wf_csr I m ->
  exists d, CSR_to_dense m = Ok d /\ is_table d (csr_rows m) (csr_cols m) (csr_val m).
Proof. exact (c09_csr_to_dense I). Qed.
Theorem C09_csc_to_dense : forall m : CSC T, wf_csc I m -> csc_cols_fit I m ->
  exists d, CSC_to_dense I m = Ok d /\ is_table d (csc_rows m) (csc_cols m) (csc_val m).
Proof. exact (c09_csc_to_dense I). Qed.

(** C15: CSR::mat_vec *)
Theorem C15_csr_mat_vec : forall (m : CSR T) (x : list T), wf_csr I m ->
  (length x <> csr_cols m -> CSR_mat_vec m x = Err EDim) /\
  (length x = csr_cols m -> exists y, CSR_mat_vec m x = Ok y /\ length y = csr_rows m /\
     forall i, i < csr_rows m ->
       nth i y s0 = sum0 (map (fun e => smul (snd e) (nth (fst e) x s0)) (csr_row m i))).
Proof. exact (c15_csr_mat_vec I). Qed.

(** C16: CSC::mat_vec; columns are traversed one after the other *)
Theorem C16_csc_mat_vec : forall (m : CSC T) (x : list T), wf_csc I m ->
  (length x <> csc_cols m -> CSC_mat_vec m x = Err EDim) /\
  (length x = csc_cols m -> exists y, CSC_mat_vec m x = Ok y /\ length y = csc_rows m /\
     forall i, i < csc_rows m ->
       nth i y s0 = sum0 (flat_map (fun j => map (fun v => smul v (nth j x s0)) (csc_at m i j)) (seq 0 (csc_cols m)))).
Proof. exact (c16_csc_mat_vec I). Qed.
(** ... and gives bit for bit the result of CSR::mat_vec when the rows are sorted *)
Theorem C16_mat_vec_formats_agree : forall (m : CSR T) (x : list T),
  wf_csr I m -> csr_rows_fit I m -> csr_sorted m -> length x = csr_cols m ->
  exists c y, CSR_to_csc I m = Ok c /\ CSC_mat_vec c x = Ok y /\ CSR_mat_vec m x = Ok y.
Proof. exact (c16_mat_vec_formats_agree I). Qed.

(** C28: the main diagonal *)
Theorem C28_coo_diagonal : forall m : Coo T, wf_coo I m ->
  exists d, Coo_diagonal m = Ok d /\ length d = Nat.min (coo_rows m) (coo_cols m) /\
    forall i, i < Nat.min (coo_rows m) (coo_cols m) -> nth i d s0 = coo_val m i i.
Proof. exact (c28_coo_diagonal I). Qed.
Theorem C28_csr_diagonal : forall m : CSR T, wf_csr I m ->
  exists d, CSR_diagonal m = Ok d /\ length d = Nat.min (csr_rows m) (csr_cols m) /\
    forall i, i < Nat.min (csr_rows m) (csr_cols m) -> nth i d s0 = csr_val m i i.
Proof. exact (c28_csr_diagonal I). Qed.
Theorem C28_csc_diagonal : forall m : CSC T, wf_csc I m ->
  exists d, CSC_diagonal m = Ok d /\ length d = Nat.min (csc_rows m) (csc_cols m) /\
    forall i, i < Nat.min (csc_rows m) (csc_cols m) -> nth i d s0 = csc_val m i i.
Proof. exact (c28_csc_diagonal I). Qed.

(** C29: the k-th diagonal starts at (max(-k,0), max(k,0)); out-of-range k panics *)
Theorem C29_csr_kth_diagonal : forall (m : CSR T) (k : Z) (y : list T), wf_csr I m ->
  let r0 := Z.to_nat (- k) in let c0 := Z.to_nat k in
  let n := Nat.min (csr_rows m - r0) (csr_cols m - c0) in
  let run := csr_diagonal k (csr_rows m) (csr_cols m) (csr_rowptr m) (csr_colidx m) (csr_values m) y in
  ((- Z.of_nat (csr_rows m) <= k <= Z.of_nat (csr_cols m))%Z -> n <= length y ->
     exists y', run = Ok y' /\ length y' = length y /\
       (forall i, i < n -> nth i y' s0 = csr_val m (r0 + i) (c0 + i)) /\
       (forall i, n <= i -> nth i y' s0 = nth i y s0)) /\
  ((k < - Z.of_nat (csr_rows m) \/ Z.of_nat (csr_cols m) < k)%Z -> run = Panic).
Proof. exact (c29_csr_kth_diagonal I). Qed.
Theorem C29_csc_kth_diagonal : forall (m : CSC T) (k : Z) (y : list T), wf_csc I m ->
  let r0 := Z.to_nat (- k) in let c0 := Z.to_nat k in
  let n := Nat.min (csc_rows m - r0) (csc_cols m - c0) in
  let run := csc_diagonal k (csc_rows m) (csc_cols m) (csc_colptr m) (csc_rowidx m) (csc_values m) y in
  ((- Z.of_nat (csc_rows m) <= k <= Z.of_nat (csc_cols m))%Z -> n <= length y ->
     exists y', run = Ok y' /\ length y' = length y /\
       (forall i, i < n -> nth i y' s0 = csc_val m (r0 + i) (c0 + i)) /\
       (forall i, n <= i -> nth i y' s0 = nth i y s0)) /\
  ((k < - Z.of_nat (csc_rows m) \/ Z.of_nat (csc_cols m) < k)%Z -> run = Panic).
Proof. exact (c29_csc_kth_diagonal I). Qed.

(** C42: eliminate_zeros *)
Theorem C42_eliminate_zeros : forall m : CSR T, wf_csr I m ->
  exists p j x, csr_eliminate_zeros I (csr_rows m) (csr_cols m) (csr_rowptr m) (csr_colidx m) (csr_values m) = Ok (p, j, x) /\
    let r := mkCSR (csr_rows m) (csr_cols m) p j x in
    wf_csr I r /\
    forall i, i < csr_rows m -> csr_row r i = filter (fun e => negb (seqb (snd e) s0)) (csr_row m i).
Proof. exact (c42_eliminate_zeros I). Qed.

(** C43: scaling of rows and columns; only the values in use change *)
Theorem C43_scale_rows : forall (m : CSR T) (s : list T), wf_csr I m -> csr_rows m <= length s ->
  exists x, csr_scale_rows (csr_rows m) (csr_cols m) (csr_rowptr m) (csr_colidx m) (csr_values m) s = Ok x /\
    let r := mkCSR (csr_rows m) (csr_cols m) (csr_rowptr m) (csr_colidx m) x in
    length x = length (csr_values m) /\ skipn (csr_count m) x = skipn (csr_count m) (csr_values m) /\
    forall i, i < csr_rows m -> csr_row r i = map (fun e => (fst e, smul (snd e) (nth i s s0))) (csr_row m i).
Proof. exact (c43_scale_rows I). Qed.
Theorem C43_scale_columns : forall (m : CSR T) (s : list T), wf_csr I m -> csr_cols m <= length s ->
  exists x, csr_scale_columns (csr_rows m) (csr_cols m) (csr_rowptr m) (csr_colidx m) (csr_values m) s = Ok x /\
    let r := mkCSR (csr_rows m) (csr_cols m) (csr_rowptr m) (csr_colidx m) x in
    length x = length (csr_values m) /\ skipn (csr_count m) x = skipn (csr_count m) (csr_values m) /\
    forall i, i < csr_rows m -> csr_row r i = map (fun e => (fst e, smul (snd e) (nth (fst e) s s0))) (csr_row m i).
Proof. exact (c43_scale_columns I). Qed.

(** C44: coordinate kernels; slot (i,k) of a dense block is cols*i+k, or rows*k+i with fortran order *)
Theorem C44_coo_todense : forall (m : Coo T) (b : list T) (fortran : bool), wf_coo I m ->
  length b = coo_rows m * coo_cols m ->
  let slot i k := if fortran then coo_rows m * k + i else coo_cols m * i + k in
  exists b', coo_todense (coo_rows m) (coo_cols m) (length (coo_values m)) (coo_rowidx m) (coo_colidx m) (coo_values m) b fortran = Ok b' /\
    length b' = length b /\
    forall i k, i < coo_rows m -> k < coo_cols m ->
      nth (slot i k) b' s0 = fold_left sadd (coo_at m i k) (nth (slot i k) b s0).
Proof. exact (c44_coo_todense I). Qed.
Theorem C44_coo_matvec : forall (m : Coo T) (x y : list T), wf_coo I m ->
  length x = coo_cols m -> length y = coo_rows m ->
  exists y', coo_matvec (length (coo_values m)) (coo_rowidx m) (coo_colidx m) (coo_values m) x y = Ok y' /\
    length y' = length y /\
    forall i, i < coo_rows m -> nth i y' s0 = fold_left sadd
      (map (fun e => smul (snd e) (nth (snd (fst e)) x s0)) (filter (fun e => fst (fst e) =? i) (coo_entries m))) (nth i y s0).
Proof. exact (c44_coo_matvec I). Qed.

(** C45: products with a block of [v] vectors; element (i, q) of a block is at v*i+q *)
Theorem C45_csr_matvecs : forall (m : CSR T) (v : nat) (x y : list T), wf_csr I m ->
  length x = v * csr_cols m -> length y = v * csr_rows m ->
  exists y', csr_matvecs (csr_rows m) (csr_cols m) v (csr_rowptr m) (csr_colidx m) (csr_values m) x y = Ok y' /\
    length y' = length y /\
    forall i q, i < csr_rows m -> q < v -> nth (v * i + q) y' s0 =
      fold_left sadd (map (fun e => smul (snd e) (nth (v * fst e + q) x s0)) (csr_row m i)) (nth (v * i + q) y s0).
Proof. exact (c45_csr_matvecs I). Qed.
Theorem C45_csc_matvecs : forall (m : CSC T) (v : nat) (x y : list T), wf_csc I m ->
  length x = v * csc_cols m -> length y = v * csc_rows m ->
  exists y', csc_matvecs (csc_rows m) (csc_cols m) v (csc_colptr m) (csc_rowidx m) (csc_values m) x y = Ok y' /\
    length y' = length y /\
    forall i q, i < csc_rows m -> q < v -> nth (v * i + q) y' s0 =
      fold_left sadd (flat_map (fun j => map (fun a => smul a (nth (v * j + q) x s0)) (csc_at m i j)) (seq 0 (csc_cols m)))
        (nth (v * i + q) y s0).
Proof. exact (c45_csc_matvecs I). Qed.
End Props.

Section RingProps.
Context {T : Type} {SC : Scalar T} {SN : ScalarNeg T} {ER : ExactRing T}.
Variable I : ity.

(** C15, C16, C44, C45 over an exact commutative ring: the mathematical product *)
Theorem C15_csr_mat_vec_ring : forall (m : CSR T) (x : list T), wf_csr I m -> length x = csr_cols m ->
  exists y, CSR_mat_vec m x = Ok y /\ length y = csr_rows m /\
    forall i, i < csr_rows m -> nth i y s0 = rsum (csr_cols m) (fun j => smul (csr_val m i j) (nth j x s0)).
Proof. exact (c15_csr_mat_vec_ring I). Qed.
Theorem C16_csc_mat_vec_ring : forall (m : CSC T) (x : list T), wf_csc I m -> length x = csc_cols m ->
  exists y, CSC_mat_vec m x = Ok y /\ length y = csc_rows m /\
    forall i, i < csc_rows m -> nth i y s0 = rsum (csc_cols m) (fun j => smul (csc_val m i j) (nth j x s0)).
Proof. exact (c16_csc_mat_vec_ring I). Qed.
End RingProps.

(** ** Concrete cases *)
Example C06_ex : csr_tight ex_csr /\ exists r, CSR_to_coo I8 ex_csr = Ok r /\ coo_rowidx r = [0; 0; 0; 2; 2]%Z.
Proof. split; [split; reflexivity|]. eexists. split; reflexivity. Qed.
Example C06_surplus_ex : let m := mkCSR 2 2 [0; 0; 1]%Z [1; 0]%Z [7; 9]%Z in
  wf_csr I32 m /\ CSR_to_coo I32 m = Ok (mkCoo 2 2 [1; 0] [1; 0] [7; 9])%Z /\ coo_at (mkCoo 2 2 [1; 0] [1; 0] [7; 9])%Z 0 0 = [9%Z] /\ csr_at m 0 0 = [].
Proof. cbn zeta. split; [check|]. sp. Qed.
Example C07_ex : CSC_to_coo I8 ex_csc = Ok (mkCoo 4 3 [3; 0; 3; 1; 0] [0; 0; 0; 2; 2] [1; 2; 3; 4; 5])%Z.
Proof. reflexivity. Qed.
Example C09_ex : CSR_to_dense ex_csr = Ok [[2; 0; 0; 4]; [0; 0; 0; 0]; [5; 4; 0; 0]]%Z /\
  CSC_to_dense I8 ex_csc = Ok [[2; 0; 5]; [0; 0; 4]; [0; 0; 0]; [4; 0; 0]]%Z /\
  Coo_to_dense ex_coo = Ok [[0; 0; 0; 0]; [0; 0; 0; 0]; [6; 5; 0; 0]]%Z.
Proof. sp. Qed.
Example C15_ex : CSR_mat_vec ex_csr [1; 10; 100; 1000]%Z = Ok [4002; 0; 45]%Z /\ CSR_mat_vec ex_csr [1]%Z = Err EDim.
Proof. split; reflexivity. Qed.
Example C16_ex : CSC_mat_vec ex_csc [1; 10; 100]%Z = Ok [502; 400; 0; 4]%Z.
Proof. reflexivity. Qed.
Example C16_agree_ex : csr_sorted (mkCSR 3 4 [0; 3; 3; 5] [0; 3; 3; 0; 1] [2; 1; 3; 5; 4])%Z.
Proof. check. Qed.
Example C28_ex : CSR_diagonal ex_csr = Ok [2; 0; 0]%Z /\ CSC_diagonal ex_csc = Ok [2; 0; 0]%Z /\ Coo_diagonal ex_coo = Ok [0; 0; 0]%Z.
Proof. sp. Qed.
Example C29_ex : csr_diagonal (-2) 3 4 [0; 3; 3; 5]%Z [3; 0; 3; 1; 0]%Z [1; 2; 3; 4; 5]%Z [9; 9]%Z = Ok [5; 9]%Z /\
  csc_diagonal 2 4 3 [0; 3; 3; 5]%Z [3; 0; 3; 1; 0]%Z [1; 2; 3; 4; 5]%Z [9; 9]%Z = Ok [5; 9]%Z /\
  csr_diagonal 5 3 4 [0; 3; 3; 5]%Z [3; 0; 3; 1; 0]%Z [1; 2; 3; 4; 5]%Z [9; 9]%Z = Panic.
Proof. sp. Qed.
Example C42_ex : csr_eliminate_zeros I32 2 3 [0; 2; 4]%Z [2; 0; 1; 1]%Z [0; 5; 0; 6]%Z = Ok ([0; 1; 2], [0; 1; 1; 1], [5; 6; 0; 6])%Z.
Proof. reflexivity. Qed.
Example C43_ex : csr_scale_rows 3 4 [0; 3; 3; 5]%Z [3; 0; 3; 1; 0]%Z [1; 2; 3; 4; 5]%Z [2; 3; 10]%Z = Ok [2; 4; 6; 40; 50]%Z /\
  csr_scale_columns 3 4 [0; 3; 3; 5]%Z [3; 0; 3; 1; 0]%Z [1; 2; 3; 4; 5]%Z [2; 3; 10; 100]%Z = Ok [100; 4; 300; 12; 10]%Z.
Proof. split; reflexivity. Qed.
Example C44_ex : coo_todense 2 3 3 [1; 0; 1]%Z [2; 0; 2]%Z [5; 6; 7]%Z [1; 0; 0; 0; 0; 0]%Z false = Ok [7; 0; 0; 0; 0; 12]%Z /\
  coo_todense 2 3 3 [1; 0; 1]%Z [1; 2; 1]%Z [5; 6; 7]%Z [1; 0; 0; 0; 0; 0]%Z true = Ok [1; 0; 0; 12; 6; 0]%Z /\
  coo_matvec 3 [1; 0; 1]%Z [2; 0; 2]%Z [5; 6; 7]%Z [1; 10; 100]%Z [3; 4]%Z = Ok [9; 1204]%Z.
Proof. sp. Qed.
Example C45_ex : csr_matvecs 2 2 2 [0; 1; 3]%Z [1; 0; 1]%Z [2; 3; 4]%Z [1; 2; 3; 4]%Z [0; 0; 0; 1]%Z = Ok [6; 8; 15; 23]%Z /\
  csc_matvecs 2 2 2 [0; 1; 3]%Z [1; 0; 1]%Z [2; 3; 4]%Z [1; 2; 3; 4]%Z [0; 0; 0; 1]%Z = Ok [9; 12; 14; 21]%Z.
Proof. split; reflexivity. Qed.
(** binary64 scalars meet the law-free theorems too *)
Example C15_f64_ex : exists y, CSR_mat_vec (mkCSR 1 2 [0; 2]%Z [0; 1]%Z [s1; s1 : f64]) [s1; s1] = Ok y /\ y = [sadd (sadd s0 (smul s1 s1)) (smul s1 s1)].
Proof. eexists. split; reflexivity. Qed.
(** the row 0.1 0.2 of binary64 numbers times the vector of two ones is 0.30000000000000004, and 0.1 - 0.1, like an empty cell, is +0 *)
Definition f_tenth : f64 := S754_finite false 7205759403792794 (-56).
Definition f_fifth : f64 := S754_finite false 7205759403792794 (-55).
Example C15_binary64_ex : CSR_mat_vec (mkCSR 1 2 [0; 2]%Z [0; 1]%Z [f_tenth; f_fifth]) [s1; s1] = Ok [S754_finite false 5404319552844596 (-54)] /\
  ssub f_tenth f_tenth = S754_zero false /\ CSR_to_dense (mkCSR 1 2 [0; 1]%Z [0]%Z [f_tenth]) = Ok [[f_tenth; S754_zero false]] /\
  sdiv s1 (S754_zero true : f64) = Ok (S754_infinity true) /\ seqb (S754_nan : f64) S754_nan = false /\ seqb (S754_zero true : f64) (S754_zero false) = true.
Proof. repeat split; vm_compute; reflexivity. Qed.

Print Assumptions C06_csr_to_coo.
Print Assumptions C06_csr_to_coo_surplus.
Print Assumptions C07_csc_to_coo.
Print Assumptions C09_coo_to_dense.
Print Assumptions C09_csr_to_dense.
Print Assumptions C09_csc_to_dense.
Print Assumptions C15_csr_mat_vec.
Print Assumptions C16_csc_mat_vec.
Print Assumptions C16_mat_vec_formats_agree.
Print Assumptions C28_coo_diagonal.
Print Assumptions C28_csr_diagonal.
Print Assumptions C28_csc_diagonal.
Print Assumptions C29_csr_kth_diagonal.
Print Assumptions C29_csc_kth_diagonal.
Print Assumptions C42_eliminate_zeros.
Print Assumptions C43_scale_rows.
Print Assumptions C43_scale_columns.
Print Assumptions C44_coo_todense.
Print Assumptions C44_coo_matvec.
Print Assumptions C45_csr_matvecs.
Print Assumptions C45_csc_matvecs.
Print Assumptions C15_csr_mat_vec_ring.
Print Assumptions C16_csc_mat_vec_ring.
