(** Arrays that pass the length checks of the constructors but need not be those of a matrix: C86. *)
From Verif Require Import Rust Scalar Model_kernels Model_matrix Spec SpecMore Wp Check Main_arrays.

Section Arrays.
Context {T : Type} {SC : Scalar T}.
Variable I : ity.
Variable b : Build.

(** C86: the matrix is arbitrary: pointers may decrease, overlap or start above zero, indices may be out of range or negative,
    arrays may be too short.  A call either returns what the stored rows say, or panics. *)
Theorem C86_csr_mat_vec : forall (m : CSR T) (x : list T), length x = csr_cols m ->
  (csr_readable m -> CSR_mat_vec m x = Ok (map (fun i => sum0 (map (fun e => smul (snd e) (nth (fst e) x s0)) (csr_row m i))) (seq 0 (csr_rows m)))) /\
  (~ csr_readable m -> CSR_mat_vec m x = Panic).
Proof. exact c86_csr_mat_vec. Qed.
Theorem C86_csc_mat_vec : forall (m : CSC T) (x : list T), length x = csc_cols m ->
  (csc_readable m -> CSC_mat_vec m x =
     Ok (map (fun i => sum0 (flat_map (fun j => map (fun v => smul v (nth j x s0)) (csc_at m i j)) (seq 0 (csc_cols m)))) (seq 0 (csc_rows m)))) /\
  (~ csc_readable m -> CSC_mat_vec m x = Panic).
Proof. exact c86_csc_mat_vec. Qed.
Theorem C86_csr_to_dense : forall m : CSR T,
  (csr_readable m -> exists d, CSR_to_dense m = Ok d /\ is_table d (csr_rows m) (csr_cols m) (csr_val m)) /\
  (~ csr_readable m -> CSR_to_dense m = Panic).
Proof. exact c86_csr_to_dense. Qed.
Theorem C86_csr_diagonal : forall m : CSR T, let n := Nat.min (csr_rows m) (csr_cols m) in
  let fine := forall i, i < n -> diagonal_readable (csr_rowptr m) (csr_colidx m) (csr_values m) i in
  (fine -> CSR_diagonal (BD:=b) m = Ok (map (fun i => csr_val m i i) (seq 0 n))) /\ (~ fine -> CSR_diagonal (BD:=b) m = Panic).
Proof. exact (c86_csr_diagonal b). Qed.
Theorem C86_csc_diagonal : forall m : CSC T, let n := Nat.min (csc_rows m) (csc_cols m) in
  let fine := forall i, i < n -> diagonal_readable (csc_colptr m) (csc_rowidx m) (csc_values m) i in
  (fine -> CSC_diagonal (BD:=b) m = Ok (map (fun i => csc_val m i i) (seq 0 n))) /\ (~ fine -> CSC_diagonal (BD:=b) m = Panic).
Proof. exact (c86_csc_diagonal b). Qed.
(** every well-formed matrix is readable *)
Theorem C86_wf_readable : (forall m : CSR T, wf_csr I m -> csr_readable m) /\ (forall m : CSC T, wf_csc I m -> csc_readable m).
Proof. exact (c86_wf_readable I). Qed.

(** Coordinate matrices: a row or column outside the matrix makes to_dense panic.  The conversions check the index they
    group by only: to_csr accepts columns, to_csc rows, of any size, and keeps them. *)
Theorem C86_coo_to_dense : forall m : Coo T, let n := length (coo_values m) in
  let fine := paired m /\ below (coo_rows m) n (coo_rowidx m) /\ below (coo_cols m) n (coo_colidx m) in
  (fine -> exists d, Coo_to_dense m = Ok d /\ is_table d (coo_rows m) (coo_cols m) (coo_val m)) /\ (~ fine -> Coo_to_dense m = Panic).
Proof. exact c86_coo_to_dense. Qed.
Theorem C86_coo_to_csr : forall m : Coo T, let n := length (coo_values m) in
  (Z.of_nat n < imax I)%Z -> (forall k, k < n -> (nth k (coo_rowidx m) 0 <= imax I)%Z) -> (forall k, k < n -> (0 <= nth k (coo_colidx m) 0 <= imax I)%Z) ->
  paired m /\ below (coo_rows m) n (coo_rowidx m) ->
  exists r, Coo_to_csr (BD:=Debug) I m = Ok r /\ csr_tight r /\ csr_rows r = coo_rows m /\ csr_cols r = coo_cols m /\ csr_canonical r /\
    forall i j, i < coo_rows m -> csr_at r i j = dup_sum (coo_at m i j).
Proof. exact (c86_coo_to_csr I). Qed.
Theorem C86_coo_to_csc : forall m : Coo T, let n := length (coo_values m) in
  (Z.of_nat n < imax I)%Z -> (forall k, k < n -> (nth k (coo_colidx m) 0 <= imax I)%Z) -> (forall k, k < n -> (0 <= nth k (coo_rowidx m) 0 <= imax I)%Z) ->
  paired m /\ below (coo_cols m) n (coo_colidx m) ->
  exists r, Coo_to_csc (BD:=Debug) I m = Ok r /\ csc_tight r /\ csc_rows r = coo_rows m /\ csc_cols r = coo_cols m /\ csc_canonical r /\
    forall i j, j < coo_cols m -> csc_at r i j = dup_sum (coo_at m i j).
Proof. exact (c86_coo_to_csc I). Qed.
Theorem C86_coo_to_csr_rows : forall m : Coo T, let n := length (coo_values m) in
  ~ (paired m /\ below (coo_rows m) n (coo_rowidx m)) -> Coo_to_csr (BD:=b) I m = Panic.
Proof. exact (c86_coo_to_csr_rows b I). Qed.
Theorem C86_coo_to_csc_cols : forall m : Coo T, let n := length (coo_values m) in
  ~ (paired m /\ below (coo_cols m) n (coo_colidx m)) -> Coo_to_csc (BD:=b) I m = Panic.
Proof. exact (c86_coo_to_csc_cols b I). Qed.

(** CSR::to_coo gives an entry that several rows contain to the last of them, and one that no row contains to row 0. *)
Theorem C86_csr_to_coo : forall (m : CSR T) (r : Coo T), CSR_to_coo I m = Ok r ->
  coo_rows r = csr_rows m /\ coo_cols r = csr_cols m /\ coo_colidx r = csr_colidx m /\ coo_values r = csr_values m /\ length (coo_rowidx r) = length (csr_colidx m) /\
  forall k, let inside i := ptr (csr_rowptr m) i <= k < ptr (csr_rowptr m) (S i) in
    (exists i, i < csr_rows m /\ inside i /\ (forall i', i < i' < csr_rows m -> ~ inside i') /\ nth k (coo_rowidx r) 0%Z = Z.of_nat i) \/
    ((forall i, i < csr_rows m -> ~ inside i) /\ nth k (coo_rowidx r) 0%Z = 0%Z).
Proof. exact (c86_csr_to_coo I). Qed.
(** CSC::to_coo copies the columns one after another; places left over at the end stay zero. *)
Theorem C86_csc_to_coo : forall (m : CSC T) (r : Coo T), csc_sized m -> CSC_to_coo (BD:=b) I m = Ok r ->
  coo_rows r = csc_rows m /\ coo_cols r = csc_cols m /\ length (coo_values r) = csc_count m /\ exists unused,
    coo_rowidx r = flat_map (seg (csc_colptr m) (csc_rowidx m)) (seq 0 (csc_cols m)) ++ repeat 0%Z unused /\
    coo_colidx r = flat_map (fun j => repeat (Z.of_nat j) (ptr (csc_colptr m) (S j) - ptr (csc_colptr m) j)) (seq 0 (csc_cols m)) ++ repeat 0%Z unused /\
    coo_values r = flat_map (seg (csc_colptr m) (csc_values m)) (seq 0 (csc_cols m)) ++ repeat s0 unused.
Proof. exact (c86_csc_to_coo I b). Qed.
(** CSR::prune repeats the checks of the constructor, and so does CSC::prune. *)
Theorem C86_csr_prune : forall m : CSR T,
  (csr_sized m -> CSR_prune (BD:=b) m =
     Ok (mkCSR (csr_rows m) (csr_cols m) (csr_rowptr m) (firstn (csr_count m) (csr_colidx m)) (firstn (csr_count m) (csr_values m)))) /\
  (length (csr_rowptr m) <> csr_rows m + 1 \/ (0 <= nth (csr_rows m) (csr_rowptr m) 0)%Z /\ (length (csr_colidx m) < csr_count m \/ length (csr_values m) < csr_count m) ->
   CSR_prune (BD:=b) m = Err ELength) /\
  (length (csr_rowptr m) = csr_rows m + 1 -> (nth (csr_rows m) (csr_rowptr m) 0 < 0)%Z -> CSR_prune (BD:=b) m = Panic).
Proof. exact (c86_csr_prune b). Qed.
Theorem C86_csc_prune : forall m : CSC T,
  (csc_sized m -> CSC_prune (BD:=b) m =
     Ok (mkCSC (csc_rows m) (csc_cols m) (firstn (csc_count m) (csc_rowidx m)) (csc_colptr m) (firstn (csc_count m) (csc_values m)))) /\
  (length (csc_colptr m) <> csc_cols m + 1 \/ (0 <= nth (csc_cols m) (csc_colptr m) 0)%Z /\ (length (csc_rowidx m) < csc_count m \/ length (csc_values m) < csc_count m) ->
   CSC_prune (BD:=b) m = Err ELength) /\
  (length (csc_colptr m) = csc_cols m + 1 -> (nth (csc_cols m) (csc_colptr m) 0 < 0)%Z -> CSC_prune (BD:=b) m = Panic).
Proof. exact (c86_csc_prune b). Qed.
End Arrays.

(** Not every conversion of a readable matrix keeps it: with overlapping rows CSR::to_csc returns a valid matrix with
    other elements and no error. *)
Theorem C86_csr_to_csc_refuted : exists (m : CSR Z) r d e, csr_sized m /\ csr_readable m /\
  CSR_to_dense m = Ok d /\ CSR_to_csc I32 m = Ok r /\ wf_csc I32 r /\ CSC_to_dense I32 r = Ok e /\ d <> e.
Proof. exact c86_csr_to_csc_refuted. Qed.

(** Concrete cases *)
Definition ex_overlap : CSR Z := mkCSR 3 2 [1; 3; 2; 4]%Z [1; 0; 0; 1]%Z [5; 6; 7; 8]%Z.
Definition ex_wide : Coo Z := mkCoo 2 2 [0; 1; 1]%Z [1; 9; 9]%Z [4; 5; 6]%Z.
Example C86_ex_readable : CSR_new 3 2 [1; 3; 2; 4]%Z [1; 0; 0; 1]%Z [5; 6; 7; 8]%Z = Ok ex_overlap /\ csr_readable ex_overlap /\ ~ wf_csr I32 ex_overlap /\
  CSR_mat_vec ex_overlap [1; 10]%Z = Ok [13; 0; 87]%Z /\ CSR_to_coo I32 ex_overlap = Ok (mkCoo 3 2 [0; 0; 2; 2]%Z [1; 0; 0; 1]%Z [5; 6; 7; 8]%Z).
Proof. split; [reflexivity|]. split; [unfold csr_readable; apply readb_all; reflexivity|]. split; [intros [_ H _ _ _ _ _]; discriminate|]. split; reflexivity. Qed.
Example C86_ex_csc_to_coo : let m := mkCSC 3 2 [2; 0; 1]%Z [1; 2; 3]%Z [5; 6; 7]%Z in CSC_new 3 2 [2; 0; 1]%Z [1; 2; 3]%Z [5; 6; 7]%Z = Ok m /\ csc_sized m /\
  CSC_to_coo (BD:=Debug) I8 m = Ok (mkCoo 3 2 [0; 1; 0]%Z [0; 1; 0]%Z [6; 7; 0]%Z).
Proof. repeat split; cbn; lia. Qed.
Example C86_ex_prune : CSR_prune (BD:=Debug) (mkCSR 2 2 [0; 1; 2]%Z [0; 1; 1; 0]%Z [5; 6; 7]%Z) = Ok (mkCSR 2 2 [0; 1; 2]%Z [0; 1]%Z [5; 6]%Z) /\
  CSR_prune (BD:=Debug) (mkCSR 2 2 [0; 1; 2]%Z [0]%Z [5; 6]%Z) = Err ELength.
Proof. split; reflexivity. Qed.
Example C86_ex_unreadable : CSR_new 1 2 [0; 2]%Z [1; 2]%Z [3; 4]%Z = Ok (mkCSR 1 2 [0; 2]%Z [1; 2]%Z [3; 4]%Z) /\ ~ csr_readable (mkCSR 1 2 [0; 2]%Z [1; 2]%Z [3; 4]%Z) /\
  CSR_diagonal (mkCSR 1 2 [0; 2]%Z [1; 2]%Z [3; 4]%Z) = Ok [0%Z].
Proof.
  split; [reflexivity|]. split; [|reflexivity]. intros H. destruct (H 0 ltac:(cbn; lia)) as (_ & _ & _ & K). specialize (K 1 ltac:(cbn; lia)). cbn in K. lia.
Qed.
Example C86_ex_wide : paired ex_wide /\ below 2 3 (coo_rowidx ex_wide) /\ ~ below 2 3 (coo_colidx ex_wide) /\
  Coo_to_csr I8 ex_wide = Ok (mkCSR 2 2 [0; 1; 2]%Z [1; 9]%Z [4; 11]%Z) /\ Coo_to_dense ex_wide = Panic /\ Coo_to_csc I8 ex_wide = Panic.
Proof.
  split; [split; cbn; lia|]. split; [intros [|[|[|k]]] H; cbn; lia|]. split; [intros H; specialize (H 1 ltac:(lia)); cbn in H; lia|]. repeat split; reflexivity.
Qed.

Print Assumptions C86_csr_mat_vec.
Print Assumptions C86_csc_mat_vec.
Print Assumptions C86_csr_to_dense.
Print Assumptions C86_csr_diagonal.
Print Assumptions C86_csc_diagonal.
Print Assumptions C86_wf_readable.
Print Assumptions C86_coo_to_dense.
Print Assumptions C86_coo_to_csr.
Print Assumptions C86_coo_to_csc.
Print Assumptions C86_coo_to_csr_rows.
Print Assumptions C86_coo_to_csc_cols.
Print Assumptions C86_csr_to_coo.
Print Assumptions C86_csc_to_coo.
Print Assumptions C86_csr_prune.
Print Assumptions C86_csc_prune.
Print Assumptions C86_csr_to_csc_refuted.
