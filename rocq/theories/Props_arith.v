(** Sums, differences, products of matrices and element-wise operations:
    C17-C21, C46, C47, C54, C55. *)
From Verif Require Import Rust Scalar Model_kernels Model_matrix Spec SpecMore Wp Check Main_arith.

Section Props.
Context {T : Type} {SC : Scalar T}.
Variable I : ity.

(** C17: mat_mat rejects exactly the factors whose inner dimensions differ; otherwise cell (i, k) of the
    result holds the sum of the products a(i,j) * b(j,k) in storage order, unless there is none or the sum is zero. *)
Theorem C17_csr_mat_mat_error : forall a b : CSR T,
  csr_cols a <> csr_rows b -> CSR_mat_mat I a b = Err EDim.
Proof. exact (c17_csr_mat_mat_error I). Qed.
Theorem C17_csr_mat_mat : forall a b : CSR T,
  wf_csr I a -> wf_csr I b -> csr_cols a = csr_rows b -> (Z.of_nat (product_count a b) <= imax I)%Z ->
  exists r, CSR_mat_mat I a b = Ok r /\ CSR_mul I a b = Ok r /\
    wf_csr I r /\ csr_rows r = csr_rows a /\ csr_cols r = csr_cols b /\ csr_nodup r /\ csr_nonzero r /\
    forall i k, i < csr_rows a -> csr_at r i k = keep (csr_products a b i k) (sum0 (csr_products a b i k)).
Proof. exact (c17_csr_mat_mat I). Qed.

(** C18: the same for CSC. *)
Theorem C18_csc_mat_mat_error : forall a b : CSC T,
  csc_cols a <> csc_rows b -> CSC_mat_mat I a b = Err EDim.
Proof. exact (c18_csc_mat_mat_error I). Qed.
Theorem C18_csc_mat_mat : forall a b : CSC T,
  wf_csc I a -> wf_csc I b -> csc_cols a = csc_rows b -> (Z.of_nat (csc_product_count a b) <= imax I)%Z ->
  exists r, CSC_mat_mat I a b = Ok r /\ CSC_mul I a b = Ok r /\
    wf_csc I r /\ csc_rows r = csc_rows a /\ csc_cols r = csc_cols b /\ csc_nodup r /\ csc_nonzero r /\
    forall i k, k < csc_cols b -> csc_at r i k = keep (csc_products a b i k) (sum0 (csc_products a b i k)).
Proof. exact (c18_csc_mat_mat I). Qed.

(** C19: a + b and a - b are element-wise.  Read cells as in-order sums unless both operands are canonical,
    in which case a cell's only value is taken as it is (this differs only if 0 + v is not v, e.g. for -0.0). *)
Theorem C19_csr_add : forall a b : CSR T,
  wf_csr I a -> wf_csr I b -> csr_rows b = csr_rows a -> csr_cols b = csr_cols a ->
  (Z.of_nat (csr_count a + csr_count b) < imax I)%Z ->
  exists r, CSR_add I a b = Ok r /\
    wf_csr I r /\ csr_rows r = csr_rows a /\ csr_cols r = csr_cols a /\ csr_nodup r /\ csr_nonzero r /\
    (csr_canonical a /\ csr_canonical b -> csr_canonical r) /\
    (~ (csr_canonical a /\ csr_canonical b) -> csr_entrywise sum0 sadd a b r) /\
    (csr_canonical a /\ csr_canonical b -> csr_entrywise (hd s0) sadd a b r).
Proof. exact (c19_csr_add I). Qed.
Theorem C19_csr_sub : forall a b : CSR T,
  wf_csr I a -> wf_csr I b -> csr_rows b = csr_rows a -> csr_cols b = csr_cols a ->
  (Z.of_nat (csr_count a + csr_count b) < imax I)%Z ->
  exists r, CSR_sub I a b = Ok r /\
    wf_csr I r /\ csr_rows r = csr_rows a /\ csr_cols r = csr_cols a /\ csr_nodup r /\ csr_nonzero r /\
    (csr_canonical a /\ csr_canonical b -> csr_canonical r) /\
    (~ (csr_canonical a /\ csr_canonical b) -> csr_entrywise sum0 ssub a b r) /\
    (csr_canonical a /\ csr_canonical b -> csr_entrywise (hd s0) ssub a b r).
Proof. exact (c19_csr_sub I). Qed.

(** C20: CSC::add and CSC::subtract, which also check the dimensions and drop unused capacity; and the operator +. *)
Theorem C20_csc_error : forall a b : CSC T,
  csc_rows b <> csc_rows a \/ csc_cols b <> csc_cols a ->
  CSC_add I a b = Err EDim /\ CSC_subtract I a b = Err EDim.
Proof. exact (c20_csc_error I). Qed.
Theorem C20_csc_add : forall a b : CSC T,
  wf_csc I a -> wf_csc I b -> csc_rows b = csc_rows a -> csc_cols b = csc_cols a ->
  (Z.of_nat (csc_count a + csc_count b) < imax I)%Z ->
  exists r, CSC_add I a b = Ok r /\ csc_tight r /\
    wf_csc I r /\ csc_rows r = csc_rows a /\ csc_cols r = csc_cols a /\ csc_nodup r /\ csc_nonzero r /\
    (csc_canonical a /\ csc_canonical b -> csc_canonical r) /\
    (~ (csc_canonical a /\ csc_canonical b) -> csc_entrywise sum0 sadd a b r) /\
    (csc_canonical a /\ csc_canonical b -> csc_entrywise (hd s0) sadd a b r).
Proof. exact (c20_csc_add I). Qed.
Theorem C20_csc_subtract : forall a b : CSC T,
  wf_csc I a -> wf_csc I b -> csc_rows b = csc_rows a -> csc_cols b = csc_cols a ->
  (Z.of_nat (csc_count a + csc_count b) < imax I)%Z ->
  exists r, CSC_subtract I a b = Ok r /\ csc_tight r /\
    wf_csc I r /\ csc_rows r = csc_rows a /\ csc_cols r = csc_cols a /\ csc_nodup r /\ csc_nonzero r /\
    (csc_canonical a /\ csc_canonical b -> csc_canonical r) /\
    (~ (csc_canonical a /\ csc_canonical b) -> csc_entrywise sum0 ssub a b r) /\
    (csc_canonical a /\ csc_canonical b -> csc_entrywise (hd s0) ssub a b r).
Proof. exact (c20_csc_subtract I). Qed.
Theorem C20_csc_op_add : forall a b : CSC T,
  wf_csc I a -> wf_csc I b -> csc_rows b = csc_rows a -> csc_cols b = csc_cols a ->
  (Z.of_nat (csc_count a + csc_count b) < imax I)%Z ->
  exists r, CSC_op_add I a b = Ok r /\
    wf_csc I r /\ csc_rows r = csc_rows a /\ csc_cols r = csc_cols a /\ csc_nodup r /\ csc_nonzero r /\
    (csc_canonical a /\ csc_canonical b -> csc_canonical r) /\
    (~ (csc_canonical a /\ csc_canonical b) -> csc_entrywise sum0 sadd a b r) /\
    (csc_canonical a /\ csc_canonical b -> csc_entrywise (hd s0) sadd a b r).
Proof. exact (c20_csc_op_add I). Qed.

(** C21 (refuted): the operator - on CSC matrices of the same size panics unless the operands together
    store exactly cols + 1 entries. *)
Theorem C21_csc_op_sub_refuted : forall a b : CSC T,
  wf_csc I a -> wf_csc I b -> csc_rows b = csc_rows a -> csc_cols b = csc_cols a ->
  (Z.of_nat (csc_count a + csc_count b) < imax I)%Z -> csc_count a + csc_count b <> csc_cols a + 1 ->
  CSC_op_sub I a b = Panic.
Proof. exact (c21_csc_op_sub_refuted I). Qed.

(** What it returns otherwise: the difference with its two index arrays exchanged (and the padding left in). *)
Theorem C21_csc_op_sub_exchanged : forall a b : CSC T,
  wf_csc I a -> wf_csc I b -> csc_rows b = csc_rows a -> csc_cols b = csc_cols a ->
  (Z.of_nat (csc_count a + csc_count b) < imax I)%Z ->
  CSC_op_sub I a b = Panic \/
  exists r d, CSC_op_sub I a b = Ok r /\ CSC_subtract I a b = Ok d /\ csc_rows r = csc_rows a /\ csc_cols r = csc_cols a /\
    csc_rowidx r = csc_colptr d /\ firstn (csc_count d) (csc_colptr r) = csc_rowidx d /\ firstn (csc_count d) (csc_values r) = csc_values d /\
    length (csc_colptr r) = csc_cols a + 1 /\ length (csc_values r) = csc_cols a + 1.
Proof. exact (c21_csc_op_sub_exchanged I). Qed.

(** C46: the element-wise kernel for any (possibly failing) operation, writing into the caller's arrays. *)
Section Binop.
Context {T2 : Type} {NZ : Nonzero T2}.
Theorem C46_csr_binop_csr : forall (op : T -> T -> res T2) (g : nat -> nat -> T2) (a b : CSR T) c_p c_j (c_x : list T2),
  wf_csr I a -> wf_csr I b -> csr_rows b = csr_rows a -> csr_cols b = csr_cols a ->
  (Z.of_nat (csr_count a + csr_count b) < imax I)%Z ->
  length c_p = csr_rows a + 1 -> csr_count a + csr_count b <= length c_j -> csr_count a + csr_count b <= length c_x ->
  let read := fun rd => forall i j, i < csr_rows a -> csr_at a i j ++ csr_at b i j <> [] ->
    op (rd (csr_at a i j)) (rd (csr_at b i j)) = Ok (g i j) in
  (~ (csr_canonical a /\ csr_canonical b) -> read sum0) ->
  (csr_canonical a /\ csr_canonical b -> read (hd s0)) ->
  exists p j x, csr_binop_csr I op (csr_rows a) (csr_cols a) (csr_rowptr a) (csr_colidx a) (csr_values a)
      (csr_rowptr b) (csr_colidx b) (csr_values b) c_p c_j c_x = Ok (p, j, x) /\
    let r := mkCSR (csr_rows a) (csr_cols a) p j x in
    wf_csr I r /\ csr_nodup r /\ (csr_canonical a /\ csr_canonical b -> csr_canonical r) /\
    forall i j, i < csr_rows a -> csr_at r i j = keep (csr_at a i j ++ csr_at b i j) (g i j).
Proof. exact (c46_csr_binop_csr I). Qed.
End Binop.

(** C47: the counting pass counts the positions of the product met by stored entries. *)
Theorem C47_csr_matmat_maxnnz : forall a b : CSR T,
  wf_csr I a -> wf_csr I b -> csr_cols a = csr_rows b ->
  csr_matmat_maxnnz (csr_rows a) (csr_cols b) (csr_rowptr a) (csr_colidx a) (csr_rowptr b) (csr_colidx b) = Ok (product_count a b).
Proof. exact (c47_csr_matmat_maxnnz I). Qed.
Theorem C47_csc_matmat_maxnnz : forall a b : CSC T,
  wf_csc I a -> wf_csc I b -> csc_cols a = csc_rows b ->
  csc_matmat_maxnnz (csc_rows a) (csc_cols b) (csc_colptr a) (csc_rowidx a) (csc_colptr b) (csc_rowidx b) = Ok (csc_product_count a b).
Proof. exact (c47_csc_matmat_maxnnz I). Qed.

(** C55 (refuted part): sums and products of CSR matrices keep room for the largest possible result, so
    colidx() and values() are longer than nnz() whenever positions coincide or values cancel. *)
Theorem C55_csr_add_capacity : forall a b : CSR T,
  wf_csr I a -> wf_csr I b -> csr_rows b = csr_rows a -> csr_cols b = csr_cols a ->
  (Z.of_nat (csr_count a + csr_count b) < imax I)%Z ->
  (forall r, CSR_add I a b = Ok r -> length (csr_colidx r) = csr_count a + csr_count b /\ length (csr_values r) = csr_count a + csr_count b) /\
  (forall r, CSR_sub I a b = Ok r -> length (csr_colidx r) = csr_count a + csr_count b /\ length (csr_values r) = csr_count a + csr_count b).
Proof. exact (c55_csr_add_capacity I). Qed.
Theorem C55_csr_mat_mat_capacity : forall a b : CSR T,
  wf_csr I a -> wf_csr I b -> csr_cols a = csr_rows b -> (Z.of_nat (product_count a b) <= imax I)%Z ->
  forall r, CSR_mat_mat I a b = Ok r -> length (csr_colidx r) = product_count a b /\ length (csr_values r) = product_count a b.
Proof. exact (c55_csr_mat_mat_capacity I). Qed.
End Props.

(** C46 for the kernels the crate offers, if zero is neutral (then both ways of reading a cell agree). *)
Section Kernels.
Context {T : Type} {SC : Scalar T} {ZA : ZeroAdd T}.
Variable I : ity.

Theorem C46_total : forall {T2} {NZ : Nonzero T2} (f : T -> T -> T2) (a b : CSR T) c_p c_j (c_x : list T2),
  wf_csr I a -> wf_csr I b -> csr_rows b = csr_rows a -> csr_cols b = csr_cols a ->
  (Z.of_nat (csr_count a + csr_count b) < imax I)%Z ->
  length c_p = csr_rows a + 1 -> csr_count a + csr_count b <= length c_j -> csr_count a + csr_count b <= length c_x ->
  exists p j x, csr_binop_csr I (fun u v => Ok (f u v)) (csr_rows a) (csr_cols a) (csr_rowptr a) (csr_colidx a) (csr_values a)
      (csr_rowptr b) (csr_colidx b) (csr_values b) c_p c_j c_x = Ok (p, j, x) /\
    let r := mkCSR (csr_rows a) (csr_cols a) p j x in wf_csr I r /\ csr_nodup r /\ csr_entrywise sum0 f a b r.
Proof. exact (@c46_total T SC ZA I). Qed.
(** the algorithm for canonical operands and the general one agree on canonical operands *)
Theorem C46_algorithms_agree : forall {T2} {NZ : Nonzero T2} (f : T -> T -> T2) (a b : CSR T) c_p c_j (c_x : list T2),
  wf_csr I a -> wf_csr I b -> csr_canonical a -> csr_canonical b -> csr_rows b = csr_rows a -> csr_cols b = csr_cols a ->
  (Z.of_nat (csr_count a + csr_count b) <= imax I)%Z ->
  length c_p = csr_rows a + 1 -> csr_count a + csr_count b <= length c_j -> csr_count a + csr_count b <= length c_x ->
  exists p j x p' j' x',
    csr_binop_csr_canonical I (fun u v => Ok (f u v)) (csr_rows a) (csr_cols a) (csr_rowptr a) (csr_colidx a) (csr_values a)
      (csr_rowptr b) (csr_colidx b) (csr_values b) c_p c_j c_x = Ok (p, j, x) /\
    csr_binop_csr_general I (fun u v => Ok (f u v)) (csr_rows a) (csr_cols a) (csr_rowptr a) (csr_colidx a) (csr_values a)
      (csr_rowptr b) (csr_colidx b) (csr_values b) c_p c_j c_x = Ok (p', j', x') /\
    forall i k, i < csr_rows a -> at_ k (crow p j x i) = at_ k (crow p' j' x' i).
Proof. exact (@c46_algorithms_agree T SC ZA I). Qed.

(** the crate's kernels *)
Theorem C46_kernels : forall (SO : ScalarOrd T),
  kernel_computes I (csr_ne_csr I) (fun u v => negb (seqb u v)) /\
  kernel_computes I (csr_eq_csr I) seqb /\
  kernel_computes I (csr_lt_csr I) sltb /\ kernel_computes I (csr_gt_csr I) (fun u v => sltb v u) /\
  kernel_computes I (csr_le_csr I) sleb /\ kernel_computes I (csr_ge_csr I) (fun u v => sleb v u) /\
  kernel_computes I (csr_add_csr I) sadd /\ kernel_computes I (csr_sub_csr I) ssub /\
  kernel_computes I (csr_mul_csr I) smul /\
  kernel_computes I (csr_max_csr I) (fun u v => if sltb v u then u else v) /\
  kernel_computes I (csr_min_csr I) (fun u v => if sltb u v then u else v).
Proof. exact (c46_kernels I). Qed.
(** the quotient kernel, whose operation may panic (integer division by zero): it panics as soon as one of
    the quotients it needs does, and stores the quotients otherwise *)
Theorem C46_div : forall (a b : CSR T) c_p c_j c_x,
  wf_csr I a -> wf_csr I b -> csr_rows b = csr_rows a -> csr_cols b = csr_cols a ->
  (Z.of_nat (csr_count a + csr_count b) < imax I)%Z ->
  length c_p = csr_rows a + 1 -> csr_count a + csr_count b <= length c_j -> csr_count a + csr_count b <= length c_x ->
  seqb s0 s0 = true -> seqb s1 s0 = false -> (forall u v, sdiv u v = Panic \/ exists q, sdiv u v = Ok q) ->
  let occupied i k := i < csr_rows a /\ csr_at a i k ++ csr_at b i k <> [] in
  let run := csr_div_csr I (csr_rows a) (csr_cols a) (csr_rowptr a) (csr_colidx a) (csr_values a)
      (csr_rowptr b) (csr_colidx b) (csr_values b) c_p c_j c_x in
  ((exists i k, occupied i k /\ sdiv (csr_val a i k) (csr_val b i k) = Panic) -> run = Panic) /\
  (forall g, (forall i k, occupied i k -> sdiv (csr_val a i k) (csr_val b i k) = Ok (g i k)) ->
   exists p j x, run = Ok (p, j, x) /\
    let r := mkCSR (csr_rows a) (csr_cols a) p j x in wf_csr I r /\ csr_nodup r /\
    forall i k, i < csr_rows a -> csr_at r i k = keep (csr_at a i k ++ csr_at b i k) (g i k)).
Proof. exact (c46_div I). Qed.
(** a comparison that is false on two zeros is thus stored exactly at the positions where it holds ... *)
Theorem C46_comparison_complete : forall K (f : T -> T -> bool) (a b : CSR T) c_p c_j c_x p j x,
  kernel_computes I K f -> f s0 s0 = false ->
  wf_csr I a -> wf_csr I b -> csr_rows b = csr_rows a -> csr_cols b = csr_cols a ->
  (Z.of_nat (csr_count a + csr_count b) < imax I)%Z ->
  length c_p = csr_rows a + 1 -> csr_count a + csr_count b <= length c_j -> csr_count a + csr_count b <= length c_x ->
  K (csr_rows a) (csr_cols a) (csr_rowptr a) (csr_colidx a) (csr_values a)
      (csr_rowptr b) (csr_colidx b) (csr_values b) c_p c_j c_x = Ok (p, j, x) ->
  forall i k, i < csr_rows a ->
    at_ k (crow p j x i) = if f (csr_val a i k) (csr_val b i k) then [true] else [].
Proof. exact (c46_comparison_complete I). Qed.
End Kernels.
(** ... but eq, le and ge, true on two zeros, leave out the positions where neither operand stores anything,
    and the quotient kernel on integers divides by zero where only the first operand stores something. *)
Theorem C46_eq_le_ge_refuted : exists (a b : CSR Z), wf_csr I32 a /\ wf_csr I32 b /\ csr_rows a = csr_rows b /\ csr_cols a = csr_cols b /\
  csr_val a 0 0 = csr_val b 0 0 /\
  (exists p j x, csr_eq_csr I32 1 1 (csr_rowptr a) (csr_colidx a) (csr_values a) (csr_rowptr b) (csr_colidx b) (csr_values b) [0; 0]%Z [] [] = Ok (p, j, x) /\ at_ 0 (crow p j x 0) = []) /\
  (exists p j x, csr_le_csr I32 1 1 (csr_rowptr a) (csr_colidx a) (csr_values a) (csr_rowptr b) (csr_colidx b) (csr_values b) [0; 0]%Z [] [] = Ok (p, j, x) /\ at_ 0 (crow p j x 0) = []) /\
  (exists p j x, csr_ge_csr I32 1 1 (csr_rowptr a) (csr_colidx a) (csr_values a) (csr_rowptr b) (csr_colidx b) (csr_values b) [0; 0]%Z [] [] = Ok (p, j, x) /\ at_ 0 (crow p j x 0) = []).
Proof. exact c46_eq_le_ge_refuted. Qed.
Theorem C46_div_refuted : exists (a b : CSR Z), wf_csr I32 a /\ wf_csr I32 b /\ csr_rows a = csr_rows b /\ csr_cols a = csr_cols b /\
  csr_div_csr I32 1 1 (csr_rowptr a) (csr_colidx a) (csr_values a) (csr_rowptr b) (csr_colidx b) (csr_values b) [0; 0]%Z [0]%Z [0]%Z = Panic.
Proof. exact c46_div_refuted. Qed.
Theorem C46_div_integer : forall (I : ity) (a b : CSR Z) c_p c_j c_x i k,
  wf_csr I a -> wf_csr I b -> csr_rows b = csr_rows a -> csr_cols b = csr_cols a ->
  (Z.of_nat (csr_count a + csr_count b) < imax I)%Z ->
  length c_p = csr_rows a + 1 -> csr_count a + csr_count b <= length c_j -> csr_count a + csr_count b <= length c_x ->
  i < csr_rows a -> csr_at a i k <> [] -> csr_at b i k = [] ->
  csr_div_csr I (csr_rows a) (csr_cols a) (csr_rowptr a) (csr_colidx a) (csr_values a)
      (csr_rowptr b) (csr_colidx b) (csr_values b) c_p c_j c_x = Panic.
Proof. exact c46_div_integer. Qed.
(** ... and on 64-bit integers that wrap round *)
Theorem C46_div_w64 : forall (I : ity) (a b : CSR w64) c_p c_j c_x i k,
  wf_csr I a -> wf_csr I b -> csr_rows b = csr_rows a -> csr_cols b = csr_cols a ->
  (Z.of_nat (csr_count a + csr_count b) < imax I)%Z ->
  length c_p = csr_rows a + 1 -> csr_count a + csr_count b <= length c_j -> csr_count a + csr_count b <= length c_x ->
  i < csr_rows a -> csr_at a i k <> [] -> csr_at b i k = [] ->
  csr_div_csr I (csr_rows a) (csr_cols a) (csr_rowptr a) (csr_colidx a) (csr_values a)
      (csr_rowptr b) (csr_colidx b) (csr_values b) c_p c_j c_x = Panic.
Proof. exact c46_div_w64. Qed.

(** C19, C20 if zero is neutral: one statement for canonical and other operands. *)
Section Neutral.
Context {T : Type} {SC : Scalar T} {ZA : ZeroAdd T}.
Variable I : ity.
Theorem C19_csr_entrywise : forall a b : CSR T,
  wf_csr I a -> wf_csr I b -> csr_rows b = csr_rows a -> csr_cols b = csr_cols a ->
  (Z.of_nat (csr_count a + csr_count b) < imax I)%Z ->
  exists s d, CSR_add I a b = Ok s /\ CSR_sub I a b = Ok d /\ csr_entrywise sum0 sadd a b s /\ csr_entrywise sum0 ssub a b d.
Proof. exact (c19_csr_entrywise I). Qed.
Theorem C20_csc_entrywise : forall a b : CSC T,
  wf_csc I a -> wf_csc I b -> csc_rows b = csc_rows a -> csc_cols b = csc_cols a ->
  (Z.of_nat (csc_count a + csc_count b) < imax I)%Z ->
  exists s d, CSC_add I a b = Ok s /\ CSC_subtract I a b = Ok d /\ csc_entrywise sum0 sadd a b s /\ csc_entrywise sum0 ssub a b d.
Proof. exact (c20_csc_entrywise I). Qed.
End Neutral.

(** C17-C20 over an exact commutative ring: the mathematical sum, difference and product. *)
Section Ring.
Context {T : Type} {SC : Scalar T} {SN : ScalarNeg T} {ER : ExactRing T}.
Variable I : ity.

Theorem C17_csr_product : forall (a b r : CSR T),
  wf_csr I a -> wf_csr I b -> csr_cols a = csr_rows b -> (Z.of_nat (product_count a b) <= imax I)%Z ->
  CSR_mat_mat I a b = Ok r ->
  forall i k, i < csr_rows a -> csr_val r i k = rsum (csr_cols a) (fun j => smul (csr_val a i j) (csr_val b j k)).
Proof. exact (c17_csr_product I). Qed.
Theorem C18_csc_product : forall (a b r : CSC T),
  wf_csc I a -> wf_csc I b -> csc_cols a = csc_rows b -> (Z.of_nat (csc_product_count a b) <= imax I)%Z ->
  CSC_mat_mat I a b = Ok r ->
  forall i k, k < csc_cols b -> csc_val r i k = rsum (csc_cols a) (fun j => smul (csc_val a i j) (csc_val b j k)).
Proof. exact (c18_csc_product I). Qed.
Theorem C19_csr_sum : forall a b : CSR T,
  wf_csr I a -> wf_csr I b -> csr_rows b = csr_rows a -> csr_cols b = csr_cols a ->
  (Z.of_nat (csr_count a + csr_count b) < imax I)%Z ->
  exists s d, CSR_add I a b = Ok s /\ CSR_sub I a b = Ok d /\ forall i j, i < csr_rows a ->
    csr_val s i j = sadd (csr_val a i j) (csr_val b i j) /\ csr_val d i j = ssub (csr_val a i j) (csr_val b i j).
Proof. exact (c19_csr_sum I). Qed.
Theorem C20_csc_sum : forall a b : CSC T,
  wf_csc I a -> wf_csc I b -> csc_rows b = csc_rows a -> csc_cols b = csc_cols a ->
  (Z.of_nat (csc_count a + csc_count b) < imax I)%Z ->
  exists s d, CSC_add I a b = Ok s /\ CSC_subtract I a b = Ok d /\ forall i j, j < csc_cols a ->
    csc_val s i j = sadd (csc_val a i j) (csc_val b i j) /\ csc_val d i j = ssub (csc_val a i j) (csc_val b i j).
Proof. exact (c20_csc_sum I). Qed.
End Ring.

(** C54: + and - on CSR matrices, and + on CSC matrices, do not compare dimensions.  A right operand with
    fewer rows makes them panic.  Otherwise its further rows are ignored, and every cell of the rows of the
    left operand, also in columns that the left operand does not have, is computed as for equal dimensions,
    or the call panics: it panics exactly if the right operand stores something in such a column and the
    operands are not canonical.  The result is well-formed exactly if nothing is left in such a column.
    (For CSC: exchange rows and columns.) *)
Section Mismatch.
Context {T : Type} {SC : Scalar T}.
Variable I : ity.
Theorem C54_csr_add_few : forall a b : CSR T,
  wf_csr I a -> wf_csr I b -> (Z.of_nat (csr_count a + csr_count b) < imax I)%Z -> csr_rows b < csr_rows a -> CSR_add I a b = Panic.
Proof. exact (c54_csr_add_few I). Qed.
Theorem C54_csr_add_sticks_out : forall a b : CSR T,
  wf_csr I a -> wf_csr I b -> (Z.of_nat (csr_count a + csr_count b) < imax I)%Z -> csr_rows a <= csr_rows b ->
  ~ csr_both_canonical a b -> csr_sticks_out a b -> CSR_add I a b = Panic.
Proof. exact (c54_csr_add_sticks_out I). Qed.
Theorem C54_csr_add : forall a b : CSR T,
  wf_csr I a -> wf_csr I b -> (Z.of_nat (csr_count a + csr_count b) < imax I)%Z -> csr_rows a <= csr_rows b ->
  csr_both_canonical a b \/ ~ csr_sticks_out a b ->
  exists r, CSR_add I a b = Ok r /\ csr_rows r = csr_rows a /\ csr_cols r = csr_cols a /\ csr_nodup r /\ csr_nonzero r /\
    (csr_both_canonical a b -> csr_canonical r) /\
    (~ csr_both_canonical a b -> csr_entrywise sum0 sadd a b r) /\
    (csr_both_canonical a b -> csr_entrywise (hd s0) sadd a b r) /\
    (wf_csr I r <-> ~ csr_sticks_out a r).
Proof. exact (c54_csr_add I). Qed.
Theorem C54_csr_sub_few : forall a b : CSR T,
  wf_csr I a -> wf_csr I b -> (Z.of_nat (csr_count a + csr_count b) < imax I)%Z -> csr_rows b < csr_rows a -> CSR_sub I a b = Panic.
Proof. exact (c54_csr_sub_few I). Qed.
Theorem C54_csr_sub_sticks_out : forall a b : CSR T,
  wf_csr I a -> wf_csr I b -> (Z.of_nat (csr_count a + csr_count b) < imax I)%Z -> csr_rows a <= csr_rows b ->
  ~ csr_both_canonical a b -> csr_sticks_out a b -> CSR_sub I a b = Panic.
Proof. exact (c54_csr_sub_sticks_out I). Qed.
Theorem C54_csr_sub : forall a b : CSR T,
  wf_csr I a -> wf_csr I b -> (Z.of_nat (csr_count a + csr_count b) < imax I)%Z -> csr_rows a <= csr_rows b ->
  csr_both_canonical a b \/ ~ csr_sticks_out a b ->
  exists r, CSR_sub I a b = Ok r /\ csr_rows r = csr_rows a /\ csr_cols r = csr_cols a /\ csr_nodup r /\ csr_nonzero r /\
    (csr_both_canonical a b -> csr_canonical r) /\
    (~ csr_both_canonical a b -> csr_entrywise sum0 ssub a b r) /\
    (csr_both_canonical a b -> csr_entrywise (hd s0) ssub a b r) /\
    (wf_csr I r <-> ~ csr_sticks_out a r).
Proof. exact (c54_csr_sub I). Qed.
Theorem C54_csc_op_add_few : forall a b : CSC T,
  wf_csc I a -> wf_csc I b -> (Z.of_nat (csc_count a + csc_count b) < imax I)%Z -> csc_cols b < csc_cols a -> CSC_op_add I a b = Panic.
Proof. exact (c54_csc_op_add_few I). Qed.
Theorem C54_csc_op_add_sticks_out : forall a b : CSC T,
  wf_csc I a -> wf_csc I b -> (Z.of_nat (csc_count a + csc_count b) < imax I)%Z -> csc_cols a <= csc_cols b ->
  ~ csc_both_canonical a b -> csc_sticks_out a b -> CSC_op_add I a b = Panic.
Proof. exact (c54_csc_op_add_sticks_out I). Qed.
Theorem C54_csc_op_add : forall a b : CSC T,
  wf_csc I a -> wf_csc I b -> (Z.of_nat (csc_count a + csc_count b) < imax I)%Z -> csc_cols a <= csc_cols b ->
  csc_both_canonical a b \/ ~ csc_sticks_out a b ->
  exists r, CSC_op_add I a b = Ok r /\ csc_rows r = csc_rows a /\ csc_cols r = csc_cols a /\ csc_nodup r /\ csc_nonzero r /\
    (csc_both_canonical a b -> csc_canonical r) /\
    (~ csc_both_canonical a b -> csc_entrywise sum0 sadd a b r) /\
    (csc_both_canonical a b -> csc_entrywise (hd s0) sadd a b r) /\
    (wf_csc I r <-> ~ csc_sticks_out a r).
Proof. exact (c54_csc_op_add I). Qed.
End Mismatch.
Example C54_columns_ex : exists a b r : CSR Z,
  wf_csr I32 a /\ wf_csr I32 b /\ csr_cols a <> csr_cols b /\ CSR_add I32 a b = Ok r /\ ~ wf_csr I32 r.
Proof.
  exists (mkCSR 1 1 [0; 1]%Z [0]%Z [1]%Z), (mkCSR 1 3 [0; 1]%Z [2]%Z [5]%Z), (mkCSR 1 1 [0; 2]%Z [0; 2]%Z [1; 5]%Z).
  split; [check|]. split; [check|]. split; [discriminate|]. split; [reflexivity|].
  intros H. destruct (wf_idx _ _ _ _ _ _ H 1) as [G _]; [cbn; lia|]. cbn in G. lia.
Qed.
Example C54_rows_ex : let a := mkCSR 1 2 [0; 1]%Z [0]%Z [1]%Z in let b := mkCSR 2 2 [0; 2; 3]%Z [0; 1; 1]%Z [4; 4; 8]%Z in
  wf_csr I32 a /\ wf_csr I32 b /\ csr_at b 1 1 = [8]%Z /\
  CSR_sub I32 a b = Ok (mkCSR 1 2 [0; 2]%Z [0; 1; 0; 0]%Z [-3; -4; 0; 0]%Z) /\ CSR_sub I32 b a = Panic.
Proof. split; [check|]. split; [check|]. repeat split; reflexivity. Qed.
Example C54_unsorted_ex : let a := mkCSR 1 2 [0; 2]%Z [1; 0]%Z [1; 2]%Z in let b := mkCSR 1 3 [0; 1]%Z [2]%Z [5]%Z in
  wf_csr I32 a /\ wf_csr I32 b /\ csr_at b 0 2 = [5]%Z /\ CSR_add I32 a b = Panic.
Proof. split; [check|]. split; [check|]. repeat split; reflexivity. Qed.
Example C54_csc_ex : let a := mkCSC 2 1 [1]%Z [0; 1]%Z [1]%Z in let b := mkCSC 4 2 [1; 3; 0]%Z [0; 2; 3]%Z [4; 6; 8]%Z in
  wf_csc I32 a /\ wf_csc I32 b /\ CSC_op_add I32 a b = Ok (mkCSC 2 1 [1; 3; 0; 0]%Z [0; 2]%Z [5; 6; 0; 0]%Z) /\ CSC_op_add I32 b a = Panic.
Proof. split; [check|]. split; [check|]. repeat split; reflexivity. Qed.
(** C55 (refuted): a sum and a product whose index and value arrays are longer than nnz(). *)
Theorem C55_csr_add_refuted : exists a b r : CSR Z,
  wf_csr I32 a /\ wf_csr I32 b /\ CSR_add I32 a b = Ok r /\ CSR_nnz r = Ok 1 /\ length (csr_colidx r) = 2 /\ length (csr_values r) = 2.
Proof. exact c55_csr_add_refuted. Qed.
Theorem C55_csr_mat_mat_refuted : exists a b r : CSR Z,
  wf_csr I32 a /\ wf_csr I32 b /\ CSR_mat_mat I32 a b = Ok r /\ CSR_nnz r = Ok 0 /\ length (csr_colidx r) = 1 /\ length (csr_values r) = 1.
Proof. exact c55_csr_mat_mat_refuted. Qed.

(** ** Concrete cases *)
Definition ex_a : CSR Z := mkCSR 2 3 [0; 3; 4]%Z [2; 0; 2; 1]%Z [1; 2; 3; 4]%Z.    (* unsorted, duplicates *)
Definition ex_b : CSR Z := mkCSR 2 3 [0; 1; 3]%Z [2; 1; 2]%Z [-4; 4; 5]%Z.         (* canonical *)
Definition ex_c : CSR Z := mkCSR 3 2 [0; 2; 2; 4]%Z [0; 1; 0; 1]%Z [4; 5; -2; 1]%Z.
Example ex_arith_wf : wf_csr I8 ex_a /\ wf_csr I8 ex_b /\ wf_csr I8 ex_c /\ csr_canonical ex_b /\
  (Z.of_nat (csr_count ex_a + csr_count ex_b) < imax I8)%Z /\ (Z.of_nat (product_count ex_a ex_c) <= imax I8)%Z.
Proof. split; [check|]. split; [check|]. split; [check|]. split; [check|]. split; [check|]. vm_compute. discriminate. Qed.
Example C17_ex : exists r, CSR_mat_mat I8 ex_a ex_c = Ok r /\ csr_entries r = [(0, 1, 14%Z)] /\ csr_products ex_a ex_c 0 0 = [-2; 8; -6]%Z.
Proof. eexists. split; [reflexivity|]. split; reflexivity. Qed.
Example C18_ex : let a := mkCSC 3 2 [2; 0; 2; 1]%Z [0; 3; 4]%Z [1; 2; 3; 4]%Z in let b := mkCSC 2 3 [0; 1; 0; 1]%Z [0; 2; 2; 4]%Z [4; 5; -2; 1]%Z in
  wf_csc I8 a /\ wf_csc I8 b /\ csc_product_count a b = 6 /\ exists r, CSC_mat_mat I8 a b = Ok r /\ csc_val r 0 0 = 8%Z /\ csc_val r 1 2 = 4%Z.
Proof. cbv zeta. split; [check|]. split; [check|]. split; [reflexivity|]. eexists. split; [reflexivity|]. split; reflexivity. Qed.
Example C19_ex : exists s d, CSR_add I8 ex_a ex_b = Ok s /\ CSR_sub I8 ex_a ex_b = Ok d /\
  csr_entries s = [(0, 0, 2%Z); (1, 2, 5%Z); (1, 1, 8%Z)] /\ csr_entries d = [(0, 0, 2%Z); (0, 2, 8%Z); (1, 2, (-5)%Z)].
Proof. eexists _, _. split; [reflexivity|]. split; [reflexivity|]. split; reflexivity. Qed.
Example C20_ex : let a := mkCSC 3 2 [2; 0; 2; 1]%Z [0; 3; 4]%Z [1; 2; 3; 4]%Z in let b := mkCSC 3 2 [2; 1; 2]%Z [0; 1; 3]%Z [-4; 4; 5]%Z in
  wf_csc I8 a /\ wf_csc I8 b /\ exists s, CSC_add I8 a b = Ok s /\ csc_entries s = [(0, 0, 2%Z); (2, 1, 5%Z); (1, 1, 8%Z)] /\
  CSC_op_sub I8 a b = Panic.
Proof. cbv zeta. split; [check|]. split; [check|]. eexists. split; [reflexivity|]. split; reflexivity. Qed.
Example C21_ex : let a := mkCSC 2 1 [0]%Z [0; 1]%Z [5]%Z in let b := mkCSC 2 1 [1]%Z [0; 1]%Z [3]%Z in
  wf_csc I8 a /\ wf_csc I8 b /\ CSC_op_sub I8 a b = Ok (mkCSC 2 1 [0; 2]%Z [0; 1]%Z [5; -3]%Z).
Proof. cbv zeta. split; [check|]. split; [check|]. reflexivity. Qed.
Example C46_div_ex : let a := mkCSR 1 2 [0; 2]%Z [0; 1]%Z [7; 9]%Z in let b := mkCSR 1 2 [0; 2]%Z [0; 1]%Z [-2; 3]%Z in
  wf_csr I8 a /\ wf_csr I8 b /\
  csr_div_csr I8 1 2 (csr_rowptr a) (csr_colidx a) (csr_values a) (csr_rowptr b) (csr_colidx b) (csr_values b) [0; 0]%Z (repeat 0%Z 4) (repeat 0%Z 4)
    = Ok ([0; 2]%Z, [0; 1; 0; 0]%Z, [-3; 3; 0; 0]%Z) /\
  csr_div_csr I8 1 2 (csr_rowptr a) (csr_colidx a) (csr_values a) [0; 1]%Z [1]%Z [3]%Z [0; 0]%Z (repeat 0%Z 4) (repeat 0%Z 4) = Panic.
Proof. cbv zeta. split; [check|]. split; [check|]. split; reflexivity. Qed.
Example C46_ex : exists p j x, csr_lt_csr I8 2 3 (csr_rowptr ex_a) (csr_colidx ex_a) (csr_values ex_a) (csr_rowptr ex_b) (csr_colidx ex_b) (csr_values ex_b)
    [0; 0; 0]%Z (repeat 0%Z 7) (repeat false 7) = Ok (p, j, x) /\ csr_entries (mkCSR 2 3 p j x) = [(1, 2, true)].
Proof. eexists _, _, _. split; reflexivity. Qed.
Example C47_ex : product_count ex_a ex_c = 2.
Proof. reflexivity. Qed.

Definition ex_w64 : CSR w64 := mkCSR 1 2 [0; 1]%Z [1]%Z [wrap (-1)].
Definition run_w64 q k y := csr_div_csr I8 1 2 (csr_rowptr ex_w64) (csr_colidx ex_w64) (csr_values ex_w64) q k y [0; 0]%Z (repeat 0%Z 4) (repeat (wrap 0) 4).
Example C46_w64_ex : wf_csr I8 ex_w64 /\ run_w64 [0; 0]%Z [] [] = Panic /\
  match run_w64 [0; 1]%Z [1]%Z [wrap 2] with Ok (p, j, x) => map (fun e => (fst e, wval (snd e))) (crow p j x 0) | _ => [] end = [(1, (2 ^ 63 - 1)%Z)].
Proof. split; [check|]. split; vm_compute; reflexivity. Qed.

Print Assumptions C17_csr_mat_mat_error.
Print Assumptions C17_csr_mat_mat.
Print Assumptions C18_csc_mat_mat_error.
Print Assumptions C18_csc_mat_mat.
Print Assumptions C19_csr_add.
Print Assumptions C19_csr_sub.
Print Assumptions C20_csc_error.
Print Assumptions C20_csc_add.
Print Assumptions C20_csc_subtract.
Print Assumptions C20_csc_op_add.
Print Assumptions C21_csc_op_sub_refuted.
Print Assumptions C21_csc_op_sub_exchanged.
Print Assumptions C46_csr_binop_csr.
Print Assumptions C47_csr_matmat_maxnnz.
Print Assumptions C47_csc_matmat_maxnnz.
Print Assumptions C55_csr_add_capacity.
Print Assumptions C55_csr_mat_mat_capacity.
Print Assumptions C46_total.
Print Assumptions C46_algorithms_agree.
Print Assumptions C46_kernels.
Print Assumptions C46_div.
Print Assumptions C46_comparison_complete.
Print Assumptions C46_eq_le_ge_refuted.
Print Assumptions C46_div_refuted.
Print Assumptions C46_div_integer.
Print Assumptions C46_div_w64.
Print Assumptions C19_csr_entrywise.
Print Assumptions C20_csc_entrywise.
Print Assumptions C17_csr_product.
Print Assumptions C18_csc_product.
Print Assumptions C19_csr_sum.
Print Assumptions C20_csc_sum.
Print Assumptions C54_csr_add_few.
Print Assumptions C54_csr_add_sticks_out.
Print Assumptions C54_csr_add.
Print Assumptions C54_csr_sub_few.
Print Assumptions C54_csr_sub_sticks_out.
Print Assumptions C54_csr_sub.
Print Assumptions C54_csc_op_add_few.
Print Assumptions C54_csc_op_add_sticks_out.
Print Assumptions C54_csc_op_add.
Print Assumptions C55_csr_add_refuted.
Print Assumptions C55_csr_mat_mat_refuted.
