(** Dense input, construction, scaling, stacking, triangles, complex parts, overflow:
    C10, C22-C27, C30, C49, C51, C52, C56. *)
From Verif Require Import Rust Scalar Model_kernels Model_matrix Spec Wp Check Props_convert Main_struct.

Section Props.
Context {T : Type} {SC : Scalar T}.
Variable I : ity.

(** C10: from_dense of a rectangular table with at least one row stores exactly the elements that are
    not equal to zero, in canonical order. *)
Theorem C10_csr_from_dense : forall (a : list (list T)) c, a <> [] -> rectangular c a ->
  nz_cols_fit I c a -> (Z.of_nat (nz_count a) <= imax I)%Z ->
  exists r, CSR_from_dense I a = Ok r /\ wf_csr I r /\ csr_tight r /\
    csr_rows r = length a /\ csr_cols r = c /\ csr_canonical r /\ csr_count r = nz_count a /\
    forall i j, i < length a -> j < c -> csr_at r i j = nz (tcell a i j).
Proof. exact (c10_csr_from_dense I). Qed.
Theorem C10_csc_from_dense : forall (a : list (list T)) c, a <> [] -> rectangular c a ->
  nz_rows_fit I c a -> (Z.of_nat (nz_count a) <= imax I)%Z ->
  exists r, CSC_from_dense I a = Ok r /\ wf_csc I r /\ csc_tight r /\
    csc_rows r = length a /\ csc_cols r = c /\ csc_canonical r /\ csc_count r = nz_count a /\
    forall i j, i < length a -> j < c -> csc_at r i j = nz (tcell a i j).
Proof. exact (c10_csc_from_dense I). Qed.
Theorem C10_coo_from_dense : forall (a : list (list T)) c, a <> [] -> rectangular c a ->
  nz_rows_fit I c a -> nz_cols_fit I c a ->
  exists r, Coo_from_dense I a = Ok r /\ wf_coo I r /\ coo_rows r = length a /\ coo_cols r = c /\
    coo_entries r = table_entries (length a) c a /\
    forall i j, i < length a -> j < c -> coo_at r i j = nz (tcell a i j).
Proof. exact (c10_coo_from_dense I). Qed.
(** ... and to_dense gives the table back, with every element equal to zero replaced by zero. *)
Theorem C10_round_trip : forall (HZ : ZeroAddNZ T) (a : list (list T)) c, a <> [] -> rectangular c a ->
  let back d := is_table d (length a) c (fun i j => if seqb (tcell a i j) s0 then s0 else tcell a i j) in
  (nz_cols_fit I c a -> (Z.of_nat (nz_count a) <= imax I)%Z ->
     exists r d, CSR_from_dense I a = Ok r /\ CSR_to_dense r = Ok d /\ back d) /\
  (nz_rows_fit I c a -> (Z.of_nat (nz_count a) <= imax I)%Z -> (Z.of_nat c <= imax I + 1)%Z ->
     exists r d, CSC_from_dense I a = Ok r /\ CSC_to_dense I r = Ok d /\ back d) /\
  (nz_rows_fit I c a -> nz_cols_fit I c a ->
     exists r d, Coo_from_dense I a = Ok r /\ Coo_to_dense r = Ok d /\ back d).
Proof. exact (c10_round_trip I). Qed.

(** C22 (refuted): scaling a CSC matrix with the operator * panics unless the row index vector happens to
    have cols + 1 elements. *)
Theorem C22_csc_scale_refuted : forall (m : CSC T) (s : T),
  wf_csc I m -> length (csc_rowidx m) <> csc_cols m + 1 ->
  CSC_mul_scalar m s = Panic /\ CSC_scalar_mul s m = Panic.
Proof. exact (c22_csc_scale_refuted I). Qed.

(** What it returns when it has: the scaled values under the two index arrays exchanged. *)
Theorem C22_csc_scale_exchanged : forall (m : CSC T) (s : T),
  wf_csc I m -> length (csc_rowidx m) = csc_cols m + 1 -> length (csc_values m) = csc_cols m + 1 ->
  (0 <= last (csc_rowidx m) 0 <= Z.of_nat (csc_cols m + 1))%Z ->
  exists r l, CSC_mul_scalar m s = Ok r /\ CSC_scalar_mul s m = Ok l /\
    csc_rows r = csc_rows m /\ csc_cols r = csc_cols m /\ csc_colptr r = csc_rowidx m /\ csc_rowidx r = csc_colptr m /\
    csc_values r = map (fun v => smul v s) (csc_values m) /\
    csc_rows l = csc_rows m /\ csc_cols l = csc_cols m /\ csc_colptr l = csc_rowidx m /\ csc_rowidx l = csc_colptr m /\
    csc_values l = map (fun v => smul s v) (csc_values m).
Proof. exact (c22_csc_scale_exchanged I). Qed.

(** C24: the sum of two coordinate matrices. *)
Theorem C24_coo_add : forall a b : Coo T, wf_coo I a -> wf_coo I b ->
  (coo_rows a <> coo_rows b \/ coo_cols a <> coo_cols b -> Coo_add I a b = Panic) /\
  (coo_rows a = coo_rows b -> coo_cols a = coo_cols b ->
   (Z.of_nat (length (coo_values a) + length (coo_values b)) < imax I)%Z ->
   exists r, Coo_add I a b = Ok r /\ wf_csr I r /\ csr_tight r /\
     csr_rows r = coo_rows a /\ csr_cols r = coo_cols a /\ csr_canonical r /\
     forall i j, i < coo_rows a -> csr_at r i j = dup_sum (coo_at a i j ++ coo_at b i j)).
Proof. exact (c24_coo_add I). Qed.

(** C25: stacking.  The result lists the entries of the first block followed by those of the second,
    moved down (right) by the number of rows (columns) above (left). *)
Theorem C25_v_stack : forall a b : Coo T, wf_coo I a -> wf_coo I b ->
  (coo_cols a <> coo_cols b -> Coo_v_stack I a b = Err EDim) /\
  (coo_cols a = coo_cols b -> (Z.of_nat (coo_rows a + coo_rows b) <= Z.min (imax I + 1) (imax Usize))%Z ->
   exists r, Coo_v_stack I a b = Ok r /\ wf_coo I r /\ coo_rows r = coo_rows a + coo_rows b /\ coo_cols r = coo_cols a /\
     coo_entries r = coo_entries a ++ placed (coo_rows a) 0 (coo_entries b) /\
     forall i j, coo_at r i j = if i <? coo_rows a then coo_at a i j else coo_at b (i - coo_rows a) j).
Proof. exact (c25_v_stack I). Qed.
Theorem C25_h_stack : forall a b : Coo T, wf_coo I a -> wf_coo I b ->
  (coo_rows a <> coo_rows b -> Coo_h_stack I a b = Err EDim) /\
  (coo_rows a = coo_rows b -> (Z.of_nat (coo_cols a + coo_cols b) <= Z.min (imax I + 1) (imax Usize))%Z ->
   exists r, Coo_h_stack I a b = Ok r /\ wf_coo I r /\ coo_rows r = coo_rows a /\ coo_cols r = coo_cols a + coo_cols b /\
     coo_entries r = coo_entries a ++ placed 0 (coo_cols a) (coo_entries b) /\
     forall i j, coo_at r i j = if j <? coo_cols a then coo_at a i j else coo_at b i (j - coo_cols a)).
Proof. exact (c25_h_stack I). Qed.
Theorem C25_v_stack3 : forall a b c : Coo T, wf_coo I a -> wf_coo I b -> wf_coo I c ->
  (coo_cols a <> coo_cols b \/ coo_cols a <> coo_cols c -> Coo_v_stack3 I a b c = Err EDim) /\
  (coo_cols a = coo_cols b -> coo_cols a = coo_cols c -> (Z.of_nat (coo_rows a + coo_rows b + coo_rows c) <= Z.min (imax I + 1) (imax Usize))%Z ->
   exists r, Coo_v_stack3 I a b c = Ok r /\ wf_coo I r /\ coo_rows r = coo_rows a + coo_rows b + coo_rows c /\ coo_cols r = coo_cols a /\
     coo_entries r = coo_entries a ++ placed (coo_rows a) 0 (coo_entries b) ++ placed (coo_rows a + coo_rows b) 0 (coo_entries c)).
Proof. exact (c25_v_stack3 I). Qed.
Theorem C25_h_stack3 : forall a b c : Coo T, wf_coo I a -> wf_coo I b -> wf_coo I c ->
  (coo_rows a <> coo_rows b \/ coo_rows a <> coo_rows c -> Coo_h_stack3 I a b c = Err EDim) /\
  (coo_rows a = coo_rows b -> coo_rows a = coo_rows c -> (Z.of_nat (coo_cols a + coo_cols b + coo_cols c) <= Z.min (imax I + 1) (imax Usize))%Z ->
   exists r, Coo_h_stack3 I a b c = Ok r /\ wf_coo I r /\ coo_rows r = coo_rows a /\ coo_cols r = coo_cols a + coo_cols b + coo_cols c /\
     coo_entries r = coo_entries a ++ placed 0 (coo_cols a) (coo_entries b) ++ placed 0 (coo_cols a + coo_cols b) (coo_entries c)).
Proof. exact (c25_h_stack3 I). Qed.
(** The four blocks need equal heights in each block row and equal total widths. *)
Theorem C25_compose : forall a00 a01 a10 a11 : Coo T, wf_coo I a00 -> wf_coo I a01 -> wf_coo I a10 -> wf_coo I a11 ->
  let r0 := coo_rows a00 in let c0 := coo_cols a00 in let c1 := coo_cols a10 in
  let fits := coo_rows a00 = coo_rows a01 /\ coo_rows a10 = coo_rows a11 /\ coo_cols a00 + coo_cols a01 = coo_cols a10 + coo_cols a11 in
  (Z.of_nat (coo_cols a00 + coo_cols a01) <= Z.min (imax I + 1) (imax Usize))%Z -> (Z.of_nat (coo_cols a10 + coo_cols a11) <= Z.min (imax I + 1) (imax Usize))%Z -> (Z.of_nat (r0 + coo_rows a10) <= Z.min (imax I + 1) (imax Usize))%Z ->
  (~ fits -> Coo_compose I a00 a01 a10 a11 = Err EDim) /\
  (fits -> exists r, Coo_compose I a00 a01 a10 a11 = Ok r /\ wf_coo I r /\
     coo_rows r = r0 + coo_rows a10 /\ coo_cols r = c0 + coo_cols a01 /\
     coo_entries r = coo_entries a00 ++ placed 0 c0 (coo_entries a01) ++ placed r0 0 (coo_entries a10) ++ placed r0 c1 (coo_entries a11) /\
     forall i j, coo_at r i j =
       if i <? r0 then (if j <? c0 then coo_at a00 i j else coo_at a01 i (j - c0))
       else (if j <? c1 then coo_at a10 (i - r0) j else coo_at a11 (i - r0) (j - c1))).
Proof. exact (c25_compose I). Qed.
Theorem C25_compose3 : forall a00 a01 a02 a10 a11 a12 a20 a21 a22 : Coo T,
  wf_coo I a00 -> wf_coo I a01 -> wf_coo I a02 -> wf_coo I a10 -> wf_coo I a11 -> wf_coo I a12 -> wf_coo I a20 -> wf_coo I a21 -> wf_coo I a22 ->
  let row3 (a b c : Coo T) := coo_entries a ++ placed 0 (coo_cols a) (coo_entries b) ++ placed 0 (coo_cols a + coo_cols b) (coo_entries c) in
  let width (a b c : Coo T) := coo_cols a + coo_cols b + coo_cols c in
  let r0 := coo_rows a00 in let r1 := coo_rows a10 in let r2 := coo_rows a20 in
  let fits := coo_rows a01 = r0 /\ coo_rows a02 = r0 /\ coo_rows a11 = r1 /\ coo_rows a12 = r1 /\ coo_rows a21 = r2 /\ coo_rows a22 = r2 /\
    width a00 a01 a02 = width a10 a11 a12 /\ width a00 a01 a02 = width a20 a21 a22 in
  (Z.of_nat (width a00 a01 a02) <= Z.min (imax I + 1) (imax Usize))%Z -> (Z.of_nat (width a10 a11 a12) <= Z.min (imax I + 1) (imax Usize))%Z -> (Z.of_nat (width a20 a21 a22) <= Z.min (imax I + 1) (imax Usize))%Z ->
  (Z.of_nat (r0 + r1 + r2) <= Z.min (imax I + 1) (imax Usize))%Z ->
  (~ fits -> Coo_compose3 I a00 a01 a02 a10 a11 a12 a20 a21 a22 = Err EDim) /\
  (fits -> exists r, Coo_compose3 I a00 a01 a02 a10 a11 a12 a20 a21 a22 = Ok r /\ wf_coo I r /\
     coo_rows r = r0 + r1 + r2 /\ coo_cols r = width a00 a01 a02 /\
     coo_entries r = row3 a00 a01 a02 ++ placed r0 0 (row3 a10 a11 a12) ++ placed (r0 + r1) 0 (row3 a20 a21 a22)).
Proof. exact (c25_compose3 I). Qed.

(** C26: CSR::h_stack (arguments without unused capacity) and CSC::compose give the canonical matrix of the blocks. *)
Theorem C26_csr_h_stack : forall a b : CSR T, wf_csr I a -> wf_csr I b -> csr_tight a -> csr_tight b -> csr_rows_fit I a -> csr_rows_fit I b ->
  (csr_rows a <> csr_rows b -> CSR_h_stack I a b = Err EDim) /\
  (csr_rows a = csr_rows b -> (Z.of_nat (csr_cols a + csr_cols b) <= Z.min (imax I + 1) (imax Usize))%Z -> (Z.of_nat (csr_count a + csr_count b) < imax I)%Z ->
   exists r, CSR_h_stack I a b = Ok r /\ wf_csr I r /\ csr_tight r /\
     csr_rows r = csr_rows a /\ csr_cols r = csr_cols a + csr_cols b /\ csr_canonical r /\
     forall i j, i < csr_rows a -> csr_at r i j = dup_sum (if j <? csr_cols a then csr_at a i j else csr_at b i (j - csr_cols a))).
Proof. exact (c26_csr_h_stack I). Qed.
Theorem C26_csc_compose : forall a00 a01 a10 a11 : CSC T,
  wf_csc I a00 -> wf_csc I a01 -> wf_csc I a10 -> wf_csc I a11 ->
  let r0 := csc_rows a00 in let c0 := csc_cols a00 in let c1 := csc_cols a10 in
  let fits := csc_rows a00 = csc_rows a01 /\ csc_rows a10 = csc_rows a11 /\ csc_cols a00 + csc_cols a01 = csc_cols a10 + csc_cols a11 in
  (Z.of_nat (csc_cols a00 + csc_cols a01) <= Z.min (imax I + 1) (imax Usize))%Z -> (Z.of_nat (csc_cols a10 + csc_cols a11) <= Z.min (imax I + 1) (imax Usize))%Z -> (Z.of_nat (r0 + csc_rows a10) <= Z.min (imax I + 1) (imax Usize))%Z ->
  (~ fits -> CSC_compose I a00 a01 a10 a11 = Err EDim) /\
  (fits -> (Z.of_nat (csc_count a00 + csc_count a01 + csc_count a10 + csc_count a11) < imax I)%Z ->
   exists r, CSC_compose I a00 a01 a10 a11 = Ok r /\ wf_csc I r /\ csc_tight r /\
     csc_rows r = r0 + csc_rows a10 /\ csc_cols r = c0 + csc_cols a01 /\ csc_canonical r /\
     forall i j, j < c0 + csc_cols a01 -> csc_at r i j = dup_sum
       (if i <? r0 then (if j <? c0 then csc_at a00 i j else csc_at a01 i (j - c0))
        else (if j <? c1 then csc_at a10 (i - r0) j else csc_at a11 (i - r0) (j - c1)))).
Proof. exact (c26_csc_compose I). Qed.

(** C27: upper(k) keeps, in order, exactly the entries with row + k <= col; it panics exactly if some
    row + k is outside the index type. *)
Theorem C27_upper : forall (m : Coo T) (k : Z), wf_coo I m ->
  ((forall e, In e (coo_entries m) -> in_ity I (Z.of_nat (fst (fst e)) + k)) ->
   exists r, Coo_upper I m k = Ok r /\ wf_coo I r /\ coo_rows r = coo_rows m /\ coo_cols r = coo_cols m /\
     coo_entries r = filter (fun e => Z.of_nat (fst (fst e)) + k <=? Z.of_nat (snd (fst e)))%Z (coo_entries m)) /\
  ((exists e, In e (coo_entries m) /\ ~ in_ity I (Z.of_nat (fst (fst e)) + k)) -> Coo_upper I m k = Panic).
Proof. exact (c27_upper I). Qed.

(** C30: with_diagonal and identity; they succeed exactly when the index values needed fit. *)
Theorem C30_coo_with_diagonal : forall d : list T, let n := length d in
  ((Z.of_nat n <= imax I + 1)%Z -> exists r, Coo_with_diagonal I d = Ok r /\ wf_coo I r /\ coo_rows r = n /\ coo_cols r = n /\
     coo_entries r = map (fun i => ((i, i), nth i d s0)) (seq 0 n)) /\
  ((imax I + 1 < Z.of_nat n)%Z -> Coo_with_diagonal I d = Panic).
Proof. exact (c30_coo_with_diagonal I). Qed.
Theorem C30_coo_identity : forall n : nat,
  ((Z.of_nat n <= imax I + 1)%Z -> exists r, Coo_identity I n = Ok r /\ wf_coo I r /\ coo_rows r = n /\ coo_cols r = n /\
     coo_entries r = map (fun i => ((i, i), s1)) (seq 0 n)) /\
  ((imax I + 1 < Z.of_nat n)%Z -> @Coo_identity T _ I n = Panic).
Proof. exact (c30_coo_identity I). Qed.
Theorem C30_csr_with_diagonal : forall d : list T, let n := length d in
  ((Z.of_nat n <= imax I)%Z -> exists r, CSR_with_diagonal I d = Ok r /\ wf_csr I r /\ csr_tight r /\ csr_canonical r /\ csr_rows r = n /\ csr_cols r = n /\
     forall i j, i < n -> csr_at r i j = if i =? j then [nth i d s0] else []) /\
  ((imax I < Z.of_nat n)%Z -> CSR_with_diagonal I d = Panic).
Proof. exact (c30_csr_with_diagonal I). Qed.
Theorem C30_csc_with_diagonal : forall d : list T, let n := length d in
  ((Z.of_nat n <= imax I)%Z -> exists r, CSC_with_diagonal I d = Ok r /\ wf_csc I r /\ csc_tight r /\ csc_canonical r /\ csc_rows r = n /\ csc_cols r = n /\
     forall i j, j < n -> csc_at r i j = if i =? j then [nth i d s0] else []) /\
  ((imax I < Z.of_nat n)%Z -> CSC_with_diagonal I d = Panic).
Proof. exact (c30_csc_with_diagonal I). Qed.

(** C49: what the constructors reject.  [Panic] is the conversion of a negative last pointer,
    or the overflow of the number of rows (columns) plus one. *)
Theorem C49_coo_new : forall r c (i j : list Z) (x : list T), let m := mkCoo r c i j x in
  (coo_sized m -> Coo_new r c i j x = Ok m) /\ (~ coo_sized m -> Coo_new r c i j x = Err ELength).
Proof. exact c49_coo_new. Qed.
Theorem C49_csr_new : forall r c (p j : list Z) (x : list T), let m := mkCSR r c p j x in
  (csr_sized m -> CSR_new r c p j x = Ok m) /\
  (length p <> r + 1 -> (Z.of_nat r < imax Usize)%Z -> CSR_new r c p j x = Err ELength) /\
  (length p = r + 1 -> (0 <= nth r p 0)%Z -> length j < csr_count m \/ length x < csr_count m -> CSR_new r c p j x = Err ELength) /\
  (length p = r + 1 -> (nth r p 0 < 0)%Z -> CSR_new r c p j x = Panic) /\
  (length p <> r + 1 -> Z.of_nat r = imax Usize -> CSR_new r c p j x = Panic).
Proof. exact c49_csr_new. Qed.
Theorem C49_csc_new : forall r c (j p : list Z) (x : list T), let m := mkCSC r c j p x in
  (csc_sized m -> CSC_new r c j p x = Ok m) /\
  (length p <> c + 1 -> (Z.of_nat c < imax Usize)%Z -> CSC_new r c j p x = Err ELength) /\
  (length p = c + 1 -> (0 <= nth c p 0)%Z -> length j < csc_count m \/ length x < csc_count m -> CSC_new r c j p x = Err ELength) /\
  (length p = c + 1 -> (nth c p 0 < 0)%Z -> CSC_new r c j p x = Panic) /\
  (length p <> c + 1 -> Z.of_nat c = imax Usize -> CSC_new r c j p x = Panic).
Proof. exact c49_csc_new. Qed.

(** C51: too many entries, or an index that does not fit, is a panic and never a truncated index.
    (The cases in which everything fits are C01, C02, C10 and C30.) *)
Theorem C51_coo_overflow : forall m : Coo T, (imax I < Z.of_nat (length (coo_values m)))%Z ->
  Coo_to_csr I m = Panic /\ Coo_to_csc I m = Panic.
Proof. exact (c51_coo_overflow I). Qed.
Theorem C51_from_dense_overflow : forall (a : list (list T)) c, a <> [] -> rectangular c a ->
  (~ (nz_cols_fit I c a /\ (Z.of_nat (nz_count a) <= imax I)%Z) -> CSR_from_dense I a = Panic) /\
  (~ (nz_rows_fit I c a /\ (Z.of_nat (nz_count a) <= imax I)%Z) -> CSC_from_dense I a = Panic) /\
  (~ (nz_rows_fit I c a /\ nz_cols_fit I c a) -> Coo_from_dense I a = Panic).
Proof. exact (c51_from_dense_overflow I). Qed.
Theorem C51_with_diagonal_overflow : forall d : list T,
  ((imax I < Z.of_nat (length d))%Z -> CSR_with_diagonal I d = Panic /\ CSC_with_diagonal I d = Panic) /\
  ((imax I + 1 < Z.of_nat (length d))%Z -> Coo_with_diagonal I d = Panic).
Proof. exact (c51_with_diagonal_overflow I). Qed.
(** Stacking panics exactly when the sum of the dimensions does not fit usize or an index of the second matrix, shifted, does not
    fit the index type; in every other case the result is the stack. *)
Theorem C51_v_stack : forall a b : Coo T, wf_coo I a -> wf_coo I b -> coo_cols a = coo_cols b ->
  let too_big := (imax Usize < Z.of_nat (coo_rows a + coo_rows b))%Z \/ exists e, In e (coo_entries b) /\ (imax I < Z.of_nat (coo_rows a + fst (fst e)))%Z in
  (too_big -> Coo_v_stack I a b = Panic) /\
  (~ too_big -> exists r, Coo_v_stack I a b = Ok r /\ wf_coo I r /\ coo_rows r = coo_rows a + coo_rows b /\ coo_cols r = coo_cols a /\
    coo_entries r = coo_entries a ++ placed (coo_rows a) 0 (coo_entries b)).
Proof. exact (c51_v_stack I). Qed.
Theorem C51_h_stack : forall a b : Coo T, wf_coo I a -> wf_coo I b -> coo_rows a = coo_rows b ->
  let too_big := (imax Usize < Z.of_nat (coo_cols a + coo_cols b))%Z \/ exists e, In e (coo_entries b) /\ (imax I < Z.of_nat (coo_cols a + snd (fst e)))%Z in
  (too_big -> Coo_h_stack I a b = Panic) /\
  (~ too_big -> exists r, Coo_h_stack I a b = Ok r /\ wf_coo I r /\ coo_rows r = coo_rows a /\ coo_cols r = coo_cols a + coo_cols b /\
    coo_entries r = coo_entries a ++ placed 0 (coo_cols a) (coo_entries b)).
Proof. exact (c51_h_stack I). Qed.

(** C56: after any sequence of push and of extend with slices of equal length, started on vectors of
    equal length, the lengths are equal and the entries are listed in call order. *)
Theorem C56_push_extend : forall (m : Coo T) calls, coo_sized m -> Forall call_equal calls ->
  let r := fold_left call_apply calls m in
  coo_sized r /\ coo_rows r = coo_rows m /\ coo_cols r = coo_cols m /\
  combine (combine (coo_rowidx r) (coo_colidx r)) (coo_values r) =
    combine (combine (coo_rowidx m) (coo_colidx m)) (coo_values m) ++ flat_map call_entries calls.
Proof. exact c56_push_extend. Qed.
(** One call keeps the vectors equally long exactly if its slices are: a push always, an extend with unequal slices never. *)
Theorem C56_one_call : forall (m : Coo T) c, coo_sized m -> (coo_sized (call_apply m c) <-> call_equal c).
Proof. exact c56_one_call. Qed.
End Props.

(** C23: unary minus and CSR scaling apply to every stored value and change nothing else. *)
Section Neg.
Context {T : Type} {SC : Scalar T} {SN : ScalarNeg T}.
Theorem C23_coo_neg : forall m : Coo T, coo_sized m -> exists r, Coo_neg m = Ok r /\ coo_mapped sneg m r.
Proof. exact c23_coo_neg. Qed.
Theorem C23_csr_neg : forall m : CSR T, csr_sized m -> exists r, CSR_neg m = Ok r /\ csr_mapped sneg m r.
Proof. exact c23_csr_neg. Qed.
Theorem C23_csc_neg : forall m : CSC T, csc_sized m -> exists r, CSC_neg m = Ok r /\ csc_mapped sneg m r.
Proof. exact c23_csc_neg. Qed.
Theorem C23_csr_scale : forall (m : CSR T) (s : T), csr_sized m ->
  (exists r, CSR_mul_scalar m s = Ok r /\ csr_mapped (fun v => smul v s) m r) /\
  (exists r, CSR_scalar_mul s m = Ok r /\ csr_mapped (fun v => smul s v) m r).
Proof. exact c23_csr_scale. Qed.
End Neg.

(** C52: complex parts, embeddings and conjugate transpose. *)
Section Complex.
Context {F C : Type} {SF : Scalar F} {CO : ComplexOps F C}.
Notation conj := (cconj (F := F) (C := C)).
Theorem C52_coo_parts : forall m : Coo C, coo_sized m ->
  (exists r, Coo_conj (F := F) m = Ok r /\ coo_mapped conj m r) /\
  (exists r, Coo_real m = Ok r /\ coo_mapped (cre (F := F)) m r) /\
  (exists r, Coo_imag m = Ok r /\ coo_mapped (cim (F := F)) m r).
Proof. exact c52_coo_parts. Qed.
Theorem C52_csr_parts : forall m : CSR C, csr_sized m ->
  (exists r, CSR_conj (F := F) m = Ok r /\ csr_mapped conj m r) /\
  (exists r, CSR_real m = Ok r /\ csr_mapped (cre (F := F)) m r) /\
  (exists r, CSR_imag m = Ok r /\ csr_mapped (cim (F := F)) m r).
Proof. exact c52_csr_parts. Qed.
Theorem C52_csc_parts : forall m : CSC C, csc_sized m ->
  (exists r, CSC_conj (F := F) m = Ok r /\ csc_mapped conj m r) /\
  (exists r, CSC_real m = Ok r /\ csc_mapped (cre (F := F)) m r) /\
  (exists r, CSC_imag m = Ok r /\ csc_mapped (cim (F := F)) m r).
Proof. exact c52_csc_parts. Qed.
Theorem C52_csr_embed : forall m : CSR F, csr_sized m ->
  (exists r, CSR_with_real (C := C) m = Ok r /\ csr_mapped (fun v => cnew v s0) m r) /\
  (exists r, CSR_with_imag (C := C) m = Ok r /\ csr_mapped (fun v => cnew s0 v) m r).
Proof. exact c52_csr_embed. Qed.
Theorem C52_coo_h : forall m : Coo C, coo_sized m ->
  exists r, Coo_h (F := F) m = Ok r /\ coo_rows r = coo_cols m /\ coo_cols r = coo_rows m /\
    (forall i j, coo_at r j i = map conj (coo_at m i j)) /\
    ((forall v, conj (conj v) = v) -> Coo_h (F := F) r = Ok m).
Proof. exact c52_coo_h. Qed.
Theorem C52_csr_h : forall m : CSR C, csr_sized m ->
  exists r, CSR_h (F := F) m = Ok r /\ csc_rows r = csr_cols m /\ csc_cols r = csr_rows m /\
    (forall i j, csc_at r j i = map conj (csr_at m i j)) /\
    ((forall v, conj (conj v) = v) -> CSC_h (F := F) r = Ok m).
Proof. exact c52_csr_h. Qed.
Theorem C52_csc_h : forall m : CSC C, csc_sized m ->
  exists r, CSC_h (F := F) m = Ok r /\ csr_rows r = csc_cols m /\ csr_cols r = csc_rows m /\
    (forall i j, csr_at r j i = map conj (csc_at m i j)) /\
    ((forall v, conj (conj v) = v) -> CSR_h (F := F) r = Ok m).
Proof. exact c52_csc_h. Qed.
End Complex.

(** C22: when rowidx happens to have cols + 1 elements the operator returns another matrix: the row
    indices are read as column pointers. *)
Theorem C22_csc_scale_wrong_refuted : exists (m : CSC Z) (s : Z), wf_csc I32 m /\
  exists r, CSC_mul_scalar m s = Ok r /\ csc_at m 1 0 = [4%Z] /\ csc_at r 1 0 = [] /\ csc_count r <> csc_count m.
Proof. exact c22_csc_scale_wrong_refuted. Qed.

(** C51: at the very boundary -- as many entries as the largest index -- to_csr panics although every
    index it needs fits the type. *)
Theorem C51_boundary_refuted : exists m : Coo Z, wf_coo I8 m /\ Z.of_nat (length (coo_values m)) = imax I8 /\ Coo_to_csr I8 m = Panic.
Proof. exact c51_boundary_refuted. Qed.

(** C56: extend accepts slices of different lengths. *)
Theorem C56_extend_refuted : exists (m : Coo Z) c, coo_sized m /\ wf_coo I32 m /\ ~ coo_sized (call_apply m c).
Proof. exact c56_extend_refuted. Qed.

(** ** Examples *)
Example C10_ex : let a := [[0; 5; 0]; [7; 0; 0]]%Z in rectangular 3 a /\ nz_rows_fit U8 3 a /\ nz_cols_fit U8 3 a /\
  CSR_from_dense U8 a = Ok (mkCSR 2 3 [0; 1; 2] [1; 0] [5; 7])%Z /\ CSC_from_dense U8 a = Ok (mkCSC 2 3 [1; 0] [0; 1; 2; 2] [7; 5])%Z /\
  Coo_from_dense U8 a = Ok (mkCoo 2 3 [0; 1] [1; 0] [5; 7])%Z.
Proof. cbv zeta. split; [repeat constructor|]. split; [intros i j Hi Hj _; cbn in *; lia|]. split; [intros i j Hi Hj _; cbn in *; lia|]. repeat (split; [reflexivity|]). reflexivity. Qed.
Example C22_ex : wf_csc I8 ex_csc /\ length (csc_rowidx ex_csc) <> csc_cols ex_csc + 1 /\ CSC_mul_scalar ex_csc 2%Z = Panic.
Proof. split; [check|]. split; [discriminate|reflexivity]. Qed.
Example C23_ex : csr_sized ex_csr /\ CSR_neg ex_csr = Ok (mkCSR 3 4 [0; 3; 3; 5] [3; 0; 3; 1; 0] [-1; -2; -3; -4; -5])%Z /\
  CSR_mul_scalar ex_csr 3%Z = Ok (mkCSR 3 4 [0; 3; 3; 5] [3; 0; 3; 1; 0] [3; 6; 9; 12; 15])%Z.
Proof. split; [unfold csr_sized; cbn; lia|]. split; reflexivity. Qed.
Example C24_ex : Coo_add U8 ex_coo ex_coo = Ok (mkCSR 3 4 [0; 1; 1; 3] [3; 0; 1] [0; 12; 10])%Z /\ Coo_add U8 ex_coo (Coo_t ex_coo) = Panic.
Proof. split; reflexivity. Qed.
Example C25_ex : let b := mkCoo 1 4 [0]%Z [2]%Z [9]%Z in wf_coo U8 b /\
  Coo_v_stack U8 ex_coo b = Ok (mkCoo 4 4 [2; 0; 2; 0; 3] [1; 3; 0; 3; 2] [5; 7; 6; -7; 9])%Z /\ Coo_h_stack U8 ex_coo b = Err EDim.
Proof. cbv zeta. split; [check|]. split; reflexivity. Qed.
Example C25_compose_ex : let b := mkCoo 3 1 [1]%Z [0]%Z [9]%Z in let c := mkCoo 1 2 [0]%Z [1]%Z [4]%Z in let d := mkCoo 1 3 [0]%Z [2]%Z [8]%Z in
  wf_coo U8 b /\ wf_coo U8 c /\ wf_coo U8 d /\
  Coo_compose U8 ex_coo b c d = Ok (mkCoo 4 5 [2; 0; 2; 0; 1; 3; 3] [1; 3; 0; 3; 4; 1; 4] [5; 7; 6; -7; 9; 4; 8])%Z.
Proof. cbv zeta. split; [check|]. split; [check|]. split; [check|reflexivity]. Qed.
Example C26_ex : csr_tight ex_csr /\ CSR_h_stack I8 ex_csr ex_csr = Ok (mkCSR 3 8 [0; 4; 4; 8] [0; 3; 4; 7; 0; 1; 4; 5] [2; 4; 2; 4; 5; 4; 5; 4])%Z /\
  exists r, CSC_compose I8 ex_csc ex_csc ex_csc ex_csc = Ok r /\ csc_at r 7 3 = [4%Z].
Proof. split; [split; reflexivity|]. split; [vm_compute; reflexivity|]. eexists. split; [vm_compute; reflexivity|vm_compute; reflexivity]. Qed.
Example C27_ex : Coo_upper U8 ex_coo 1%Z = Ok (mkCoo 3 4 [0; 0] [3; 3] [7; -7])%Z /\ Coo_upper U8 ex_coo (-1)%Z = Panic /\
  Coo_upper I8 ex_coo (-1)%Z = Ok (mkCoo 3 4 [2; 0; 0] [1; 3; 3] [5; 7; -7])%Z.
Proof. repeat split; reflexivity. Qed.
Example C30_ex : CSR_with_diagonal I8 [4; 0; 5]%Z = Ok (mkCSR 3 3 [0; 1; 2; 3] [0; 1; 2] [4; 0; 5])%Z /\
  Coo_identity I8 2 = Ok (mkCoo 2 2 [0; 1] [0; 1] [1; 1])%Z.
Proof. split; reflexivity. Qed.
Example C49_ex : csr_sized ex_csr /\ CSR_new 2 2 [0; 1; 3]%Z [0; 1]%Z [1; 2]%Z = Err ELength /\ CSR_new 2 2 [0; 2]%Z [0; 1]%Z [1; 2]%Z = Err ELength /\
  CSR_new 1 2 [0; -1]%Z [0; 1]%Z [1; 2]%Z = Panic.
Proof. split; [unfold csr_sized; cbn; lia|]. repeat split; reflexivity. Qed.
Example C49_max_ex : forall n, Z.of_nat n = imax Usize -> CSR_new n 1 [0]%Z [0]%Z [5]%Z = Panic /\ CSC_new 1 n [0]%Z [] [5]%Z = Panic /\
  CSR_new (BD:=Release) n 1 [0]%Z [0]%Z [5]%Z = Err ELength /\ CSC_new (BD:=Release) 1 n [] [] [5]%Z = Panic.
Proof.
  intros n E. assert (n <> 0) by (intros ->; discriminate E). destruct n as [|n]; [contradiction|]. unfold CSR_new, CSC_new, bad_length. cbn [length]. rewrite E, Z.eqb_refl.
  replace (S n + 1) with (S (S n)) by lia. repeat split.
Qed.
Example C51_stack_ex : let a := mkCoo 127 1 [] [] [] in let b := mkCoo 200 1 [0]%Z [0]%Z [5]%Z in let c := mkCoo 200 1 [1]%Z [0]%Z [5]%Z in
  wf_coo I8 a /\ wf_coo I8 b /\ wf_coo I8 c /\ Coo_v_stack I8 a b = Ok (mkCoo 327 1 [127]%Z [0]%Z [5]%Z) /\ Coo_v_stack I8 a c = Panic.
Proof. repeat split; try reflexivity; check. Qed.
Example C51_ex : (imax I8 < Z.of_nat (length (repeat 1%Z 128)))%Z /\ CSR_with_diagonal I8 (repeat 1%Z 128) = Panic.
Proof. split; vm_compute; reflexivity. Qed.
Example C52_ex : let m := mkCSR 1 2 [0; 1]%Z [1]%Z [G 2 3] in csr_sized m /\ CSR_h m = Ok (mkCSC 2 1 [1]%Z [0; 1]%Z [G 2 (-3)]).
Proof. cbv zeta. split; [unfold csr_sized; cbn; lia|reflexivity]. Qed.
Example C56_ex : let calls := [CPush 0 1 5; CExtend [1; 0] [1; 1] [6; 7]]%Z in Forall call_equal calls /\
  fold_left call_apply calls (mkCoo 2 2 [] [] []) = mkCoo 2 2 [0; 1; 0]%Z [1; 1; 1]%Z [5; 6; 7]%Z.
Proof. cbv zeta. split; [repeat constructor|reflexivity]. Qed.

Example C22_exchanged_ex : let m := mkCSC 3 1 [0; 2]%Z [0; 2]%Z [3; 4]%Z in
  wf_csc I8 m /\ CSC_mul_scalar m 5%Z = Ok (mkCSC 3 1 [0; 2]%Z [0; 2]%Z [15; 20]%Z) /\
  CSC_mul_scalar (mkCSC 3 1 [2; 1]%Z [0; 2]%Z [3; 4]%Z) 5%Z = Ok (mkCSC 3 1 [0; 2]%Z [2; 1]%Z [15; 20]%Z).
Proof. cbv zeta. split; [check|]. split; reflexivity. Qed.

Print Assumptions C10_csr_from_dense.
Print Assumptions C10_csc_from_dense.
Print Assumptions C10_coo_from_dense.
Print Assumptions C10_round_trip.
Print Assumptions C22_csc_scale_refuted.
Print Assumptions C22_csc_scale_exchanged.
Print Assumptions C24_coo_add.
Print Assumptions C25_v_stack.
Print Assumptions C25_h_stack.
Print Assumptions C25_v_stack3.
Print Assumptions C25_h_stack3.
Print Assumptions C25_compose.
Print Assumptions C25_compose3.
Print Assumptions C26_csr_h_stack.
Print Assumptions C26_csc_compose.
Print Assumptions C27_upper.
Print Assumptions C30_coo_with_diagonal.
Print Assumptions C30_coo_identity.
Print Assumptions C30_csr_with_diagonal.
Print Assumptions C30_csc_with_diagonal.
Print Assumptions C49_coo_new.
Print Assumptions C49_csr_new.
Print Assumptions C49_csc_new.
Print Assumptions C51_coo_overflow.
Print Assumptions C51_from_dense_overflow.
Print Assumptions C51_with_diagonal_overflow.
Print Assumptions C51_v_stack.
Print Assumptions C51_h_stack.
Print Assumptions C56_push_extend.
Print Assumptions C56_one_call.
Print Assumptions C23_coo_neg.
Print Assumptions C23_csr_neg.
Print Assumptions C23_csc_neg.
Print Assumptions C23_csr_scale.
Print Assumptions C52_coo_parts.
Print Assumptions C52_csr_parts.
Print Assumptions C52_csc_parts.
Print Assumptions C52_csr_embed.
Print Assumptions C52_coo_h.
Print Assumptions C52_csr_h.
Print Assumptions C52_csc_h.
Print Assumptions C22_csc_scale_wrong_refuted.
Print Assumptions C51_boundary_refuted.
Print Assumptions C56_extend_refuted.
