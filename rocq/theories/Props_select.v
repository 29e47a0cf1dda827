(** Selection, element access, sub-matrices, row and column gathering, diagonal counting:
    C31, C32, C39-C41, C48. *)
From Verif Require Import Rust Scalar Model_kernels Model_matrix Spec Wp Check Props_convert Main_select.

Section Props.
Context {T : Type} {SC : Scalar T}.
Variable I : ity.

(** C31: select refuses a non-canonical matrix and any index out of range ... *)
Theorem C31_csr_select_refuses : forall (m : CSR T) rs cs,
  wf_csr I m -> (Z.of_nat (csr_count m) < imax I)%Z -> (Z.of_nat (csr_rows m) <= imax I)%Z -> (Z.of_nat (csr_cols m) <= imax I)%Z ->
  (~ csr_canonical m -> CSR_select I m rs cs = Err ECanonical) /\
  (csr_canonical m -> ~ (picked_ok (csr_rows m) rs /\ picked_ok (csr_cols m) cs) -> CSR_select I m rs cs = Err ERange).
Proof. exact (c31_csr_select_refuses I). Qed.
Theorem C31_csc_select_refuses : forall (m : CSC T) rs cs,
  wf_csc I m -> (Z.of_nat (csc_count m) < imax I)%Z -> (Z.of_nat (csc_rows m) <= imax I)%Z -> (Z.of_nat (csc_cols m) <= imax I)%Z ->
  (~ csc_canonical m -> CSC_select I m rs cs = Err ECanonical) /\
  (csc_canonical m -> ~ (picked_ok (csc_rows m) rs /\ picked_ok (csc_cols m) cs) -> CSC_select I m rs cs = Err ERange).
Proof. exact (c31_csc_select_refuses I). Qed.
(** ... and otherwise returns the canonical matrix whose (i, j) element is what the source stores at
    (rows[i], cols[j]), provided the result fits the index type. *)
Theorem C31_csr_select : forall (m : CSR T) rs cs,
  wf_csr I m -> (Z.of_nat (csr_count m) < imax I)%Z -> (Z.of_nat (csr_rows m) <= imax I)%Z -> (Z.of_nat (csr_cols m) <= imax I)%Z ->
  csr_canonical m -> picked_ok (csr_rows m) rs -> picked_ok (csr_cols m) cs ->
  let rl := picked (csr_rows m) rs in let cl := picked (csr_cols m) cs in
  (Z.of_nat (length cl) <= imax I + 1)%Z ->
  (Z.of_nat (list_sum (map (fun i => list_sum (map (fun j => length (csr_at m i j)) cl)) rl)) <= imax I)%Z ->
  exists r, CSR_select I m rs cs = Ok r /\ csr_rows r = length rl /\ csr_cols r = length cl /\
    wf_csr I r /\ csr_tight r /\ csr_canonical r /\
    forall i j, i < length rl -> j < length cl -> csr_at r i j = csr_at m (nth i rl 0) (nth j cl 0).
Proof. exact (c31_csr_select I). Qed.
Theorem C31_csc_select : forall (m : CSC T) rs cs,
  wf_csc I m -> (Z.of_nat (csc_count m) < imax I)%Z -> (Z.of_nat (csc_rows m) <= imax I)%Z -> (Z.of_nat (csc_cols m) <= imax I)%Z ->
  csc_canonical m -> picked_ok (csc_rows m) rs -> picked_ok (csc_cols m) cs ->
  let rl := picked (csc_rows m) rs in let cl := picked (csc_cols m) cs in
  (Z.of_nat (length rl) <= imax I + 1)%Z ->
  (Z.of_nat (list_sum (map (fun j => list_sum (map (fun i => length (csc_at m i j)) rl)) cl)) <= imax I)%Z ->
  exists r, CSC_select I m rs cs = Ok r /\ csc_rows r = length rl /\ csc_cols r = length cl /\
    wf_csc I r /\ csc_tight r /\ csc_canonical r /\
    forall i j, i < length rl -> j < length cl -> csc_at r i j = csc_at m (nth i rl 0) (nth j cl 0).
Proof. exact (c31_csc_select I). Qed.

(** C32: get reads the first stored value of the element, zero if there is none; a row that does not
    exist or a negative index panics. *)
Theorem C32_csr_get : forall (m : CSR T) i j, wf_csr I m ->
  (i < csr_rows m -> CSR_get m (Z.of_nat i) (Z.of_nat j) = Ok (hd s0 (csr_at m i j))) /\
  (csr_rows m <= i -> CSR_get m (Z.of_nat i) (Z.of_nat j) = Panic).
Proof. exact (c32_csr_get I). Qed.
Theorem C32_csr_get_negative : forall (m : CSR T) i j, (i < 0 \/ j < 0)%Z -> CSR_get m i j = Panic.
Proof. exact c32_csr_get_negative. Qed.
(** Without duplicates it is the element of the dense table. *)
Theorem C32_csr_get_dense : forall `{!ZeroAdd T} (m : CSR T), wf_csr I m -> csr_nodup m ->
  exists d, CSR_to_dense m = Ok d /\ forall i j, i < csr_rows m -> j < csr_cols m ->
    CSR_get m (Z.of_nat i) (Z.of_nat j) = Ok (nth j (nth i d []) s0).
Proof. exact (fun HZ => c32_csr_get_dense I). Qed.

(** C39: the sub-matrix kernel returns the arrays of the rows [r0, r1), each cut to the columns [a, b),
    whatever the output vectors held before. *)
Theorem C39_submatrix : forall (m : CSR T) (r0 r1 a b : nat) bp bj bx,
  wf_csr I m -> r0 <= r1 <= csr_rows m -> (Z.of_nat r1 <= imax I)%Z ->
  exists p j x, get_csr_submatrix I (csr_rows m) (csr_cols m) (csr_rowptr m) (csr_colidx m) (csr_values m)
      (Z.of_nat r0) (Z.of_nat r1) (Z.of_nat a) (Z.of_nat b) bp bj bx = Ok (p, j, x) /\
    let r := mkCSR (r1 - r0) (b - a) p j x in
    wf_csr I r /\ csr_tight r /\ forall i, i < r1 - r0 -> csr_row r i = cut a b (csr_row m (r0 + i)).
Proof. exact (c39_submatrix I). Qed.
(** Rows given the wrong way round or beyond the last row panic. *)
Theorem C39_submatrix_rejects : forall (m : CSR T) (r0 r1 : nat) a b bp bj bx,
  wf_csr I m -> r1 < r0 \/ (r0 < r1 /\ csr_rows m < r1) ->
  get_csr_submatrix I (csr_rows m) (csr_cols m) (csr_rowptr m) (csr_colidx m) (csr_values m)
    (Z.of_nat r0) (Z.of_nat r1) a b bp bj bx = Panic.
Proof. exact (c39_submatrix_rejects I). Qed.

(** C40: the row kernels append the concatenation of the requested rows. *)
Theorem C40_row_index : forall (m : CSR T) rows bj bx,
  wf_csr I m -> Forall (fun i => i < csr_rows m) rows ->
  csr_row_index (length rows) rows (csr_rowptr m) (csr_colidx m) (csr_values m) bj bx =
    Ok (bj ++ map (fun e => Z.of_nat (fst e)) (flat_map (csr_row m) rows), bx ++ map snd (flat_map (csr_row m) rows)).
Proof. exact (c40_row_index I). Qed.
(** a slice panics (overflow checks) exactly if the row after its last one is no [usize] *)
Theorem C40_row_slice : forall (m : CSR T) start stop step fuel bj bx,
  wf_csr I m -> stop <= csr_rows m -> 0 < step -> stop - start < fuel -> (Z.of_nat start <= imax Usize)%Z ->
  let rows := stepped start stop step in
  ((Z.of_nat (start + length rows * step) <= imax Usize)%Z ->
    csr_row_slice fuel start stop step (csr_rowptr m) (csr_colidx m) (csr_values m) bj bx =
      Ok (bj ++ map (fun e => Z.of_nat (fst e)) (flat_map (csr_row m) rows), bx ++ map snd (flat_map (csr_row m) rows))) /\
  ((imax Usize < Z.of_nat (start + length rows * step))%Z ->
    csr_row_slice fuel start stop step (csr_rowptr m) (csr_colidx m) (csr_values m) bj bx = Panic).
Proof. exact (c40_row_slice I). Qed.
(** Step 0 appends nothing if start <= stop, and never ends from an existing row above stop. *)
Theorem C40_row_slice_step0 : forall (m : CSR T) start stop fuel bj bx, wf_csr I m ->
  (start <= stop -> 0 < fuel -> csr_row_slice fuel start stop 0 (csr_rowptr m) (csr_colidx m) (csr_values m) bj bx = Ok (bj, bx)) /\
  (stop < start -> start < csr_rows m -> (Z.of_nat start <= imax Usize)%Z -> csr_row_slice fuel start stop 0 (csr_rowptr m) (csr_colidx m) (csr_values m) bj bx = NoFuel).
Proof. exact (c40_row_slice_step0 I). Qed.

(** C41: the two column passes, given any ordering of the positions of [cols] by column, build the
    matrix whose column k is column cols[k] of the source. *)
Theorem C41_column_index : forall (m : CSR T) cols order bp bj bx,
  wf_csr I m -> Forall (fun c => c < csr_cols m) cols -> argsort cols order ->
  (Z.of_nat (length cols) <= imax I)%Z ->
  let n := list_sum (map (fun e => count_occ Nat.eq_dec cols (snd (fst e))) (csr_entries m)) in
  (Z.of_nat n <= imax I)%Z -> length bp = csr_rows m + 1 -> length bj = n -> length bx = n ->
  exists offsets p j x,
    csr_column_index1 I (length cols) cols (csr_rows m) (csr_cols m) (csr_rowptr m) (csr_colidx m) (repeat 0%Z (csr_cols m)) bp
      = Ok (offsets, p) /\
    csr_column_index2 (map Z.of_nat order) offsets (csr_count m) (csr_colidx m) (csr_values m) bj bx = Ok (j, x) /\
    let r := mkCSR (csr_rows m) (length cols) p j x in
    wf_csr I r /\ csr_tight r /\
    forall i k, i < csr_rows m -> k < length cols -> csr_at r i k = csr_at m i (nth k cols 0).
Proof. exact (c41_column_index I). Qed.

(** C48: the number of distinct diagonals of a matrix with no entry below the main diagonal; a panic
    for every other matrix. *)
Theorem C48_count_diagonals : forall m : CSR T, wf_csr I m ->
  (Forall (fun e => fst (fst e) <= snd (fst e)) (csr_entries m) ->
   exists ds, NoDup ds /\ csr_count_diagonals (csr_rows m) (csr_rowptr m) (csr_colidx m) = Ok (length ds) /\
     forall d, In d ds <-> exists e, In e (csr_entries m) /\ snd (fst e) = fst (fst e) + d) /\
  (Exists (fun e => snd (fst e) < fst (fst e)) (csr_entries m) ->
   csr_count_diagonals (csr_rows m) (csr_rowptr m) (csr_colidx m) = Panic).
Proof. exact (c48_count_diagonals I). Qed.
(** C31 (limit): when the number of rows does not fit the index type, no list of valid row indices other than the empty
    one is accepted: the call panics while checking the first. *)
Theorem C31_oversized : forall z l cs, (0 <= z)%Z ->
  (forall m : CSR T, wf_csr I m -> (Z.of_nat (csr_count m) < imax I)%Z -> csr_canonical m -> (imax I < Z.of_nat (csr_rows m))%Z -> CSR_select I m (Some (z :: l)) cs = Panic) /\
  (forall m : CSC T, wf_csc I m -> (Z.of_nat (csc_count m) < imax I)%Z -> csc_canonical m -> (imax I < Z.of_nat (csc_rows m))%Z -> CSC_select I m (Some (z :: l)) cs = Panic).
Proof. exact (c31_oversized I). Qed.
End Props.

(** C32 (limit): with duplicates get is not the element of the dense table. *)
Theorem C32_duplicates_refuted : exists (m : CSR Z) i j, wf_csr I32 m /\ i < csr_rows m /\
  CSR_get m (Z.of_nat i) (Z.of_nat j) <> Ok (csr_val m i j).
Proof. exact c32_duplicates_refuted. Qed.

(** Concrete cases *)
Definition ex_sel : CSR Z := mkCSR 3 4 [0; 2; 2; 5]%Z [0; 3; 1; 2; 3]%Z [1; 2; 3; 4; 5]%Z.
Definition ex_selc : CSC Z := mkCSC 4 3 [0; 3; 1; 2; 3]%Z [0; 2; 2; 5]%Z [1; 2; 3; 4; 5]%Z.
Example C31_oversized_ex : let m := mkCSR 256 1 (repeat 0%Z 257) [] ([] : list Z) in wf_csr U8 m /\ csr_canonical m /\ csr_count m = 0 /\ (imax U8 < Z.of_nat (csr_rows m))%Z.
Proof. cbv zeta. split; [apply wf_csr_check; vm_compute; reflexivity|]. split; [apply csr_canonical_check; vm_compute; reflexivity|]. split; [reflexivity|]. cbn. lia. Qed.
Example ex_sel_hyp : wf_csr I8 ex_sel /\ csr_canonical ex_sel /\ picked_ok 3 (Some [2; 0; 2]%Z) /\ picked_ok 4 (Some [3; 3; 1]%Z).
Proof. split; [check|]. split; [check|]. split; repeat constructor; cbn; lia. Qed.
Example ex_selc_hyp : wf_csc I8 ex_selc /\ csc_canonical ex_selc.
Proof. split; check. Qed.
Example C31_ex : CSR_select I8 ex_sel (Some [2; 0; 2]%Z) (Some [3; 3; 1]%Z)
  = Ok (mkCSR 3 3 [0; 3; 5; 8] [0; 1; 2; 0; 1; 0; 1; 2] [5; 5; 3; 2; 2; 5; 5; 3])%Z.
Proof. vm_compute. reflexivity. Qed.
Example C31_csc_ex : CSC_select I8 ex_selc (Some [3; 3; 1]%Z) (Some [2; 0; 2]%Z)
  = Ok (mkCSC 3 3 [0; 1; 2; 0; 1; 0; 1; 2] [0; 3; 5; 8] [5; 5; 3; 2; 2; 5; 5; 3])%Z.
Proof. vm_compute. reflexivity. Qed.
Example C31_none_ex : CSR_select I8 ex_sel None None = Ok ex_sel.
Proof. vm_compute. reflexivity. Qed.
Example C31_errors_ex : CSR_select I8 ex_csr None None = Err ECanonical /\ ~ csr_canonical ex_csr /\
  CSR_select I8 ex_sel (Some [3]%Z) None = Err ERange /\ CSR_select I8 ex_sel (Some [-1]%Z) None = Err ERange.
Proof. split; [vm_compute; reflexivity|]. split; [apply C11_ex|]. split; vm_compute; reflexivity. Qed.
Example C32_ex : CSR_get ex_csr 0 3 = Ok 1%Z /\ csr_at ex_csr 0 3 = [1; 3]%Z /\ CSR_get ex_csr 1 3 = Ok 0%Z /\ CSR_get ex_csr 3 0 = Panic.
Proof. repeat split. Qed.
Example C32_dense_ex : csr_nodup ex_sel /\ CSR_get ex_sel 2 2 = Ok 4%Z.
Proof. split; [check|reflexivity]. Qed.
Example C39_ex : get_csr_submatrix I8 3 4 (csr_rowptr ex_csr) (csr_colidx ex_csr) (csr_values ex_csr) 0 3 1 4 [9]%Z [9; 9; 9; 9; 9; 9]%Z []
  = Ok ([0; 2; 2; 3], [2; 2; 0], [1; 3; 4])%Z.
Proof. vm_compute. reflexivity. Qed.
Example C40_ex : csr_row_index 3 [2; 0; 2] (csr_rowptr ex_sel) (csr_colidx ex_sel) (csr_values ex_sel) [7%Z] []
    = Ok ([7; 1; 2; 3; 0; 3; 1; 2; 3], [3; 4; 5; 1; 2; 3; 4; 5])%Z /\
  stepped 0 3 2 = [0; 2] /\
  csr_row_slice 10 0 3 2 (csr_rowptr ex_sel) (csr_colidx ex_sel) (csr_values ex_sel) [] [] = Ok ([0; 3; 1; 2; 3], [1; 2; 3; 4; 5])%Z /\
  csr_row_slice 1000 2 1 0 (csr_rowptr ex_sel) (csr_colidx ex_sel) (csr_values ex_sel) [] [] = NoFuel.
Proof. repeat split; vm_compute; reflexivity. Qed.
Example C41_ex : argsort [3; 0; 3; 1] [1; 3; 2; 0] /\
  csr_column_index1 I8 4 [3; 0; 3; 1] 3 4 (csr_rowptr ex_csr) (csr_colidx ex_csr) [0; 0; 0; 0]%Z [9; 9; 9; 9]%Z
    = Ok ([1; 2; 2; 4], [0; 5; 5; 7])%Z /\
  csr_column_index2 [1; 3; 2; 0]%Z [1; 2; 2; 4]%Z 5 (csr_colidx ex_csr) (csr_values ex_csr) (repeat 9%Z 7) (repeat 9%Z 7)
    = Ok ([2; 0; 1; 2; 0; 3; 1], [1; 1; 2; 3; 3; 4; 5])%Z.
Proof.
  split; [split|split; vm_compute; reflexivity].
  - apply NoDup_Permutation; [apply lessb_nodup; reflexivity|apply seq_NoDup|]. intros k. rewrite in_seq. cbn. lia.
  - repeat constructor.
Qed.
Definition ex_up : CSR Z := mkCSR 3 4 [0; 3; 4; 6]%Z [3; 0; 3; 2; 2; 3]%Z [1; 2; 3; 4; 5; 6]%Z.
Example C48_ex : wf_csr I8 ex_up /\ Forall (fun e => fst (fst e) <= snd (fst e)) (csr_entries ex_up) /\
  csr_count_diagonals 3 (csr_rowptr ex_up) (csr_colidx ex_up) = Ok 3 /\
  Exists (fun e => snd (fst e) < fst (fst e)) (csr_entries ex_sel) /\ csr_count_diagonals 3 (csr_rowptr ex_sel) (csr_colidx ex_sel) = Panic.
Proof.
  split; [check|]. split; [repeat constructor; cbn; lia|]. split; [reflexivity|]. split; [|reflexivity].
  apply Exists_exists. exists (2, 1, 3%Z). split; [do 2 right; left; reflexivity|cbn; lia].
Qed.

Print Assumptions C31_csr_select_refuses.
Print Assumptions C31_csc_select_refuses.
Print Assumptions C31_csr_select.
Print Assumptions C31_csc_select.
Print Assumptions C32_csr_get.
Print Assumptions C32_csr_get_negative.
Print Assumptions C32_csr_get_dense.
Print Assumptions C39_submatrix.
Print Assumptions C39_submatrix_rejects.
Print Assumptions C40_row_index.
Print Assumptions C40_row_slice.
Print Assumptions C40_row_slice_step0.
Print Assumptions C41_column_index.
Print Assumptions C48_count_diagonals.
Print Assumptions C31_oversized.
Print Assumptions C32_duplicates_refuted.
