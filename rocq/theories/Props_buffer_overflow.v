(** Integer scalars and overflow checks: when the kernels that add to the caller's arrays, or scale values, panic.
    [csr_matvec_ck] and so on are the kernels with scalar operations that may panic, Model_checked.v. *)
From Verif Require Import Rust Debug Scalar Model_kernels Model_matrix Model_checked Spec SpecChecked Check Main_checked Main_buffer_overflow.

Section Kernels.
Context {T : Type} {SC : Scalar T} {CK : Checked T} {L : CheckedLaw True T}.
Variable I : ity.
(** C92: [y += A x]: a product, or adding the products of a row one by one to the element of [y], overflows *)
Theorem C92_csr_matvec : forall (m : CSR T) (x y : list T), wf_csr I m -> length x = csr_cols m -> length y = csr_rows m ->
  panics_iff (exists i, i < csr_rows m /\
    ((exists e, In e (csr_row m i) /\ cmul (snd e) (nth (fst e) x s0) = Panic) \/
     adds_overflow (nth i y s0) (map (fun e => smul (snd e) (nth (fst e) x s0)) (csr_row m i))))
    (csr_matvec_ck (csr_rows m) (csr_cols m) (csr_rowptr m) (csr_colidx m) (csr_values m) x y)
    (csr_matvec (csr_rows m) (csr_cols m) (csr_rowptr m) (csr_colidx m) (csr_values m) x y).
Proof. exact (c92_csr_matvec I). Qed.
Theorem C92_csc_matvec : forall (m : CSC T) (x y : list T), wf_csc I m -> length x = csc_cols m -> length y = csc_rows m ->
  panics_iff ((exists j e, j < csc_cols m /\ In e (csc_col m j) /\ cmul (snd e) (nth j x s0) = Panic) \/
    (exists i, i < csc_rows m /\ adds_overflow (nth i y s0) (flat_map (fun j => map (fun v => smul v (nth j x s0)) (csc_at m i j)) (seq 0 (csc_cols m)))))
    (csc_matvec_ck (csc_rows m) (csc_cols m) (csc_colptr m) (csc_rowidx m) (csc_values m) x y)
    (csc_matvec (csc_rows m) (csc_cols m) (csc_colptr m) (csc_rowidx m) (csc_values m) x y).
Proof. exact (c92_csc_matvec I). Qed.
Theorem C92_coo_matvec : forall (m : Coo T) (x y : list T), wf_coo I m -> length x = coo_cols m -> length y = coo_rows m ->
  panics_iff ((exists e, In e (coo_entries m) /\ cmul (snd e) (nth (snd (fst e)) x s0) = Panic) \/
    (exists i, i < coo_rows m /\ adds_overflow (nth i y s0)
      (map (fun e => smul (snd e) (nth (snd (fst e)) x s0)) (filter (fun e => fst (fst e) =? i) (coo_entries m)))))
    (coo_matvec_ck (length (coo_values m)) (coo_rowidx m) (coo_colidx m) (coo_values m) x y)
    (coo_matvec (length (coo_values m)) (coo_rowidx m) (coo_colidx m) (coo_values m) x y).
Proof. exact (c92_coo_matvec I). Qed.
(** C92: the same for a block of [v] vectors *)
Theorem C92_csr_matvecs : forall (m : CSR T) (v : nat) (x y : list T), wf_csr I m -> length x = v * csr_cols m -> length y = v * csr_rows m ->
  panics_iff (exists i q, i < csr_rows m /\ q < v /\
    ((exists e, In e (csr_row m i) /\ cmul (snd e) (nth (v * fst e + q) x s0) = Panic) \/
     adds_overflow (nth (v * i + q) y s0) (map (fun e => smul (snd e) (nth (v * fst e + q) x s0)) (csr_row m i))))
    (csr_matvecs_ck (csr_rows m) (csr_cols m) v (csr_rowptr m) (csr_colidx m) (csr_values m) x y)
    (csr_matvecs (csr_rows m) (csr_cols m) v (csr_rowptr m) (csr_colidx m) (csr_values m) x y).
Proof. exact (c92_csr_matvecs I). Qed.
Theorem C92_csc_matvecs : forall (m : CSC T) (v : nat) (x y : list T), wf_csc I m -> length x = v * csc_cols m -> length y = v * csc_rows m ->
  panics_iff (exists q, q < v /\
    ((exists j e, j < csc_cols m /\ In e (csc_col m j) /\ cmul (snd e) (nth (v * j + q) x s0) = Panic) \/
     (exists i, i < csc_rows m /\ adds_overflow (nth (v * i + q) y s0)
        (flat_map (fun j => map (fun a => smul a (nth (v * j + q) x s0)) (csc_at m i j)) (seq 0 (csc_cols m))))))
    (csc_matvecs_ck (csc_rows m) (csc_cols m) v (csc_colptr m) (csc_rowidx m) (csc_values m) x y)
    (csc_matvecs (csc_rows m) (csc_cols m) v (csc_colptr m) (csc_rowidx m) (csc_values m) x y).
Proof. exact (c92_csc_matvecs I). Qed.
(** C92: adding the values stored at one position, one by one, to what the table held there overflows *)
Theorem C92_csr_todense : forall (m : CSR T) d f, wf_csr I m -> is_table d (csr_rows m) (csr_cols m) f ->
  panics_iff (exists i k, i < csr_rows m /\ k < csr_cols m /\ adds_overflow (f i k) (csr_at m i k))
    (csr_todense_ck (csr_rows m) (csr_cols m) (csr_rowptr m) (csr_colidx m) (csr_values m) d)
    (csr_todense (csr_rows m) (csr_cols m) (csr_rowptr m) (csr_colidx m) (csr_values m) d).
Proof. exact (c92_csr_todense I). Qed.
Theorem C92_coo_todense : forall (m : Coo T) (b : list T) (fortran : bool), wf_coo I m -> length b = coo_rows m * coo_cols m ->
  let slot i k := if fortran then coo_rows m * k + i else coo_cols m * i + k in
  panics_iff (exists i k, i < coo_rows m /\ k < coo_cols m /\ adds_overflow (nth (slot i k) b s0) (coo_at m i k))
    (coo_todense_ck (coo_rows m) (coo_cols m) (length (coo_values m)) (coo_rowidx m) (coo_colidx m) (coo_values m) b fortran)
    (coo_todense (coo_rows m) (coo_cols m) (length (coo_values m)) (coo_rowidx m) (coo_colidx m) (coo_values m) b fortran).
Proof. exact (c92_coo_todense I). Qed.
(** C92: the k-th diagonals; what the output held does not matter *)
Theorem C92_csr_kth_diagonal : forall (m : CSR T) (k : Z) (y : list T), wf_csr I m ->
  (- Z.of_nat (csr_rows m) <= k <= Z.of_nat (csr_cols m))%Z ->
  let r0 := Z.to_nat (- k) in let c0 := Z.to_nat k in
  let n := Nat.min (csr_rows m - r0) (csr_cols m - c0) in n <= length y ->
  panics_iff (exists i, i < n /\ sum_overflows (csr_at m (r0 + i) (c0 + i)))
    (csr_diagonal_ck k (csr_rows m) (csr_cols m) (csr_rowptr m) (csr_colidx m) (csr_values m) y)
    (csr_diagonal k (csr_rows m) (csr_cols m) (csr_rowptr m) (csr_colidx m) (csr_values m) y).
Proof. exact (c92_csr_kth_diagonal I). Qed.
Theorem C92_csc_kth_diagonal : forall (m : CSC T) (k : Z) (y : list T), wf_csc I m ->
  (- Z.of_nat (csc_rows m) <= k <= Z.of_nat (csc_cols m))%Z ->
  let r0 := Z.to_nat (- k) in let c0 := Z.to_nat k in
  let n := Nat.min (csc_rows m - r0) (csc_cols m - c0) in n <= length y ->
  panics_iff (exists i, i < n /\ sum_overflows (csc_at m (r0 + i) (c0 + i)))
    (csc_diagonal_ck k (csc_rows m) (csc_cols m) (csc_colptr m) (csc_rowidx m) (csc_values m) y)
    (csc_diagonal k (csc_rows m) (csc_cols m) (csc_colptr m) (csc_rowidx m) (csc_values m) y).
Proof. exact (c92_csc_kth_diagonal I). Qed.
(** C92: a product of a stored value with its factor overflows *)
Theorem C92_scale_rows : forall (m : CSR T) (s : list T), wf_csr I m -> csr_rows m <= length s ->
  panics_iff (exists i e, i < csr_rows m /\ In e (csr_row m i) /\ cmul (snd e) (nth i s s0) = Panic)
    (csr_scale_rows_ck (csr_rows m) (csr_cols m) (csr_rowptr m) (csr_colidx m) (csr_values m) s)
    (csr_scale_rows (csr_rows m) (csr_cols m) (csr_rowptr m) (csr_colidx m) (csr_values m) s).
Proof. exact (c92_scale_rows I). Qed.
Theorem C92_scale_columns : forall (m : CSR T) (s : list T), wf_csr I m -> csr_cols m <= length s ->
  panics_iff (exists i e, i < csr_rows m /\ In e (csr_row m i) /\ cmul (snd e) (nth (fst e) s s0) = Panic)
    (csr_scale_columns_ck (csr_rows m) (csr_cols m) (csr_rowptr m) (csr_colidx m) (csr_values m) s)
    (csr_scale_columns (csr_rows m) (csr_cols m) (csr_rowptr m) (csr_colidx m) (csr_values m) s).
Proof. exact (c92_scale_columns I). Qed.
End Kernels.
(** C92: what this means for the primitive integer types *)
Theorem C92_int : forall J (u : Z) (l : list Z),
  @adds_overflow Z _ (int_checked J) u l <-> exists p q, l = p ++ q /\ p <> [] /\ ~ in_ity J (u + fold_right Z.add 0%Z p).
Proof. exact c92_int. Qed.

(** ** Concrete cases, scalars i8 *)
Example C92_matvec_ex : let m := row3 1 1 (-1) in let y := fun u => @csr_matvec_ck Z (int_checked I8) 1 3 [0; 3]%Z [0; 1; 2]%Z [1; 1; -1]%Z [100; 20; 100]%Z [u]%Z in
  wf_csr I8 m /\ y 7%Z = Ok [27]%Z /\ y 8%Z = Panic /\ csr_matvec 1 3 [0; 3]%Z [0; 1; 2]%Z [1; 1; -1]%Z [100; 20; 100]%Z [8]%Z = Ok [28]%Z /\
  @adds_overflow Z _ (int_checked I8) 8%Z [100; 20; -100]%Z.
Proof. repeat apply Logic.conj; try reflexivity; [check|]. exists [100]%Z, 20%Z, [-100]%Z. split; reflexivity. Qed.
Example C92_csc_ex : let y := fun u => @csc_matvec_ck Z (int_checked I8) 2 2 [0; 1; 2]%Z [1; 1]%Z [50; 2]%Z [2; 13]%Z [0; u]%Z in
  wf_csc I8 (mkCSC 2 2 [1; 1]%Z [0; 1; 2]%Z [50; 2]%Z) /\ y 1%Z = Ok [0; 127]%Z /\ y 2%Z = Panic /\
  @coo_matvec_ck Z (int_checked I8) 2 [1; 1]%Z [0; 1]%Z [50; 2]%Z [2; 13]%Z [0; 1]%Z = Ok [0; 127]%Z /\
  @coo_matvec_ck Z (int_checked I8) 2 [1; 1]%Z [0; 1]%Z [50; 2]%Z [2; 64]%Z [0; -100]%Z = Panic.
Proof. repeat apply Logic.conj; try reflexivity. check. Qed.
Example C92_matvecs_ex : let y := fun a b => @csr_matvecs_ck Z (int_checked I8) 1 2 2 [0; 2]%Z [0; 1]%Z [10; 1]%Z [1; 2; 3; 4]%Z [a; b]%Z in
  wf_csr I8 (mkCSR 1 2 [0; 2]%Z [0; 1]%Z [10; 1]%Z) /\ y 0%Z 103%Z = Ok [13; 127]%Z /\ y 0%Z 104%Z = Panic /\
  @csc_matvecs_ck Z (int_checked I8) 1 2 2 [0; 1; 2]%Z [0; 0]%Z [10; 1]%Z [1; 2; 3; 4]%Z [0; 103]%Z = Ok [13; 127]%Z /\
  @csc_matvecs_ck Z (int_checked I8) 1 2 2 [0; 1; 2]%Z [0; 0]%Z [10; 1]%Z [1; 2; 3; 4]%Z [0; 104]%Z = Panic.
Proof. repeat apply Logic.conj; try reflexivity. check. Qed.
Example C92_dense_ex : let d := fun u => @csr_todense_ck Z (int_checked I8) 1 3 [0; 3]%Z [1; 0; 1]%Z [100; 1; -28]%Z [[0; u; 0]]%Z in
  wf_csr I8 (mkCSR 1 3 [0; 3]%Z [1; 0; 1]%Z [100; 1; -28]%Z) /\ d 27%Z = Ok [[1; 99; 0]]%Z /\ d 28%Z = Panic /\
  @coo_todense_ck Z (int_checked I8) 2 1 2 [1; 1]%Z [0; 0]%Z [100; 27]%Z [5; 0]%Z false = Ok [5; 127]%Z /\
  @coo_todense_ck Z (int_checked I8) 2 1 2 [1; 1]%Z [0; 0]%Z [100; 27]%Z [5; 1]%Z true = Panic.
Proof. repeat apply Logic.conj; try reflexivity. check. Qed.
Example C92_diagonal_ex : let m := mkCSR 2 2 [0; 2; 3]%Z [1; 1; 0]%Z [100; 28; 7]%Z in wf_csr I8 m /\
  @csr_diagonal_ck Debug Z _ (int_checked I8) 1 2 2 [0; 2; 3]%Z [1; 1; 0]%Z [100; 28; 7]%Z [99]%Z = Panic /\
  @csr_diagonal_ck Debug Z _ (int_checked I8) (-1) 2 2 [0; 2; 3]%Z [1; 1; 0]%Z [100; 28; 7]%Z [99]%Z = Ok [7]%Z /\
  @csc_diagonal_ck Debug Z _ (int_checked I8) 1 2 2 [0; 2; 3]%Z [1; 1; 0]%Z [100; 28; 7]%Z [99]%Z = Ok [7]%Z.
Proof. repeat apply Logic.conj; try reflexivity. check. Qed.
(** values in unused array elements are not multiplied *)
Example C92_scale_ex : let m := mkCSR 1 2 [0; 2]%Z [0; 1]%Z [2; 3; 99]%Z in wf_csr I8 m /\
  @csr_scale_rows_ck Z (int_checked I8) 1 2 [0; 2]%Z [0; 1]%Z [2; 3; 99]%Z [42]%Z = Ok [84; 126; 99]%Z /\
  @csr_scale_rows_ck Z (int_checked I8) 1 2 [0; 2]%Z [0; 1]%Z [2; 3; 99]%Z [43]%Z = Panic /\
  @csr_scale_columns_ck Z (int_checked I8) 1 2 [0; 2]%Z [0; 1]%Z [2; 3; 99]%Z [-64; 42]%Z = Ok [-128; 126; 99]%Z /\
  @csr_scale_columns_ck Z (int_checked I8) 1 2 [0; 2]%Z [0; 1]%Z [2; 3; 99]%Z [42; -64]%Z = Panic.
Proof. repeat apply Logic.conj; try reflexivity. check. Qed.

Print Assumptions C92_csr_matvec.
Print Assumptions C92_csc_matvec.
Print Assumptions C92_coo_matvec.
Print Assumptions C92_csr_matvecs.
Print Assumptions C92_csc_matvecs.
Print Assumptions C92_csr_todense.
Print Assumptions C92_coo_todense.
Print Assumptions C92_csr_kth_diagonal.
Print Assumptions C92_csc_kth_diagonal.
Print Assumptions C92_scale_rows.
Print Assumptions C92_scale_columns.
Print Assumptions C92_int.
