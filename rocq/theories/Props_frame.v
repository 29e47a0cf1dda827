(** The public kernels on the caller's buffers: C80, C81. *)
From Verif Require Import Rust Scalar Model_kernels Model_matrix Model_graph Spec Wp Check Main_frame Main_buffers.

(** C80: a kernel that succeeds neither reads nor writes behind the part of an array that it uses. Every array is made
    longer by an arbitrary tail (named t...): the call succeeds again, with the same results, and leaves the tails of the
    arrays it writes as they were. The arrays need not be those of a matrix. (Only the pointer array written by
    csr_tocsc, csc_tocsr and coo_tocsr must have the right length, as the kernel clears all of it; and csr_select uses its two
    index lists whole.) *)
Section Frame.
Context {T : Type} {SC : Scalar T}.
Variable I : ity.
Theorem C80_csr_matvec : forall n c p j (a x y : list T) y' tp tj ta tx ty, csr_matvec n c p j a x y = Ok y' ->
  csr_matvec n c (p ++ tp) (j ++ tj) (a ++ ta) (x ++ tx) (y ++ ty) = Ok (y' ++ ty).
Proof. exact c80_csr_matvec. Qed.
Theorem C80_csr_matvecs : forall n c w p j (a x y : list T) y' tp tj ta tx ty, csr_matvecs n c w p j a x y = Ok y' ->
  csr_matvecs n c w (p ++ tp) (j ++ tj) (a ++ ta) (x ++ tx) (y ++ ty) = Ok (y' ++ ty).
Proof. exact c80_csr_matvecs. Qed.
Theorem C80_csc_matvec : forall n c p j (a x y : list T) y' tp tj ta tx ty, csc_matvec n c p j a x y = Ok y' ->
  csc_matvec n c (p ++ tp) (j ++ tj) (a ++ ta) (x ++ tx) (y ++ ty) = Ok (y' ++ ty).
Proof. exact c80_csc_matvec. Qed.
Theorem C80_csc_matvecs : forall n c w p j (a x y : list T) y' tp tj ta tx ty, csc_matvecs n c w p j a x y = Ok y' ->
  csc_matvecs n c w (p ++ tp) (j ++ tj) (a ++ ta) (x ++ tx) (y ++ ty) = Ok (y' ++ ty).
Proof. exact c80_csc_matvecs. Qed.
Theorem C80_coo_matvec : forall nnz i j (a x y : list T) y' ti tj ta tx ty, coo_matvec nnz i j a x y = Ok y' ->
  coo_matvec nnz (i ++ ti) (j ++ tj) (a ++ ta) (x ++ tx) (y ++ ty) = Ok (y' ++ ty).
Proof. exact c80_coo_matvec. Qed.
Theorem C80_coo_todense : forall n c nnz i j (a b : list T) f b' ti tj ta tb, coo_todense n c nnz i j a b f = Ok b' ->
  coo_todense n c nnz (i ++ ti) (j ++ tj) (a ++ ta) (b ++ tb) f = Ok (b' ++ tb).
Proof. exact c80_coo_todense. Qed.
Theorem C80_csr_todense : forall n c p j (a : list T) d d' tp tj ta td, csr_todense n c p j a d = Ok d' ->
  csr_todense n c (p ++ tp) (j ++ tj) (a ++ ta) (d ++ td) = Ok (d' ++ td).
Proof. exact c80_csr_todense. Qed.
Theorem C80_csr_diagonal : forall k n c p j (a y : list T) y' tp tj ta ty, csr_diagonal k n c p j a y = Ok y' ->
  csr_diagonal k n c (p ++ tp) (j ++ tj) (a ++ ta) (y ++ ty) = Ok (y' ++ ty).
Proof. exact c80_csr_diagonal. Qed.
Theorem C80_csc_diagonal : forall k n c p j (a y : list T) y' tp tj ta ty, csc_diagonal k n c p j a y = Ok y' ->
  csc_diagonal k n c (p ++ tp) (j ++ tj) (a ++ ta) (y ++ ty) = Ok (y' ++ ty).
Proof. exact c80_csc_diagonal. Qed.
Theorem C80_expandptr : forall n p b b' tp tb, expandptr I n p b = Ok b' -> expandptr I n (p ++ tp) (b ++ tb) = Ok (b' ++ tb).
Proof. exact (c80_expandptr I). Qed.
Theorem C80_csr_scale_rows : forall n c p j (a x a' : list T) tp tj ta tx, csr_scale_rows n c p j a x = Ok a' ->
  csr_scale_rows n c (p ++ tp) (j ++ tj) (a ++ ta) (x ++ tx) = Ok (a' ++ ta).
Proof. exact c80_csr_scale_rows. Qed.
Theorem C80_csr_scale_columns : forall n c p j (a x a' : list T) tp tj ta tx, csr_scale_columns n c p j a x = Ok a' ->
  csr_scale_columns n c (p ++ tp) (j ++ tj) (a ++ ta) (x ++ tx) = Ok (a' ++ ta).
Proof. exact c80_csr_scale_columns. Qed.
Theorem C80_csr_tocoo : forall n c p j (a : list T) bi bj bx bi' bj' bx' tp tj ta ti tk tx, csr_tocoo I n c p j a bi bj bx = Ok (bi', bj', bx') ->
  csr_tocoo I n c (p ++ tp) (j ++ tj) (a ++ ta) (bi ++ ti) (bj ++ tk) (bx ++ tx) = Ok (bi' ++ ti, bj' ++ tk, bx' ++ tx).
Proof. exact (c80_csr_tocoo I). Qed.
Theorem C80_coo_tocsr : forall n c nnz i j (a : list T) bp bj bx bp' bj' bx' ti tj ta tk tx, coo_tocsr I n c nnz i j a bp bj bx = Ok (bp', bj', bx') ->
  coo_tocsr I n c nnz (i ++ ti) (j ++ tj) (a ++ ta) bp (bj ++ tk) (bx ++ tx) = Ok (bp', bj' ++ tk, bx' ++ tx).
Proof. exact (c80_coo_tocsr I). Qed.
Theorem C80_csr_tocsc : forall n c p j (a : list T) bp bj bx bp' bj' bx' tp tj ta tk tx, csr_tocsc I n c p j a bp bj bx = Ok (bp', bj', bx') ->
  csr_tocsc I n c (p ++ tp) (j ++ tj) (a ++ ta) bp (bj ++ tk) (bx ++ tx) = Ok (bp', bj' ++ tk, bx' ++ tx).
Proof. exact (c80_csr_tocsc I). Qed.
Theorem C80_csc_tocsr : forall n c p j (a : list T) bp bj bx bp' bj' bx' tp tj ta tk tx, csc_tocsr I n c p j a bp bj bx = Ok (bp', bj', bx') ->
  csc_tocsr I n c (p ++ tp) (j ++ tj) (a ++ ta) bp (bj ++ tk) (bx ++ tx) = Ok (bp', bj' ++ tk, bx' ++ tx).
Proof. exact (c80_csc_tocsr I). Qed.
Theorem C80_csr_sort_indices : forall n p j (a : list T) j' a' tp tj ta, csr_sort_indices n p j a = Ok (j', a') ->
  csr_sort_indices n (p ++ tp) (j ++ tj) (a ++ ta) = Ok (j' ++ tj, a' ++ ta).
Proof. exact c80_csr_sort_indices. Qed.
Theorem C80_csr_sum_duplicates : forall n c p j (a : list T) p' j' a' tp tj ta, csr_sum_duplicates I n c p j a = Ok (p', j', a') ->
  csr_sum_duplicates I n c (p ++ tp) (j ++ tj) (a ++ ta) = Ok (p' ++ tp, j' ++ tj, a' ++ ta).
Proof. exact (c80_csr_sum_duplicates I). Qed.
Theorem C80_csr_eliminate_zeros : forall n c p j (a : list T) p' j' a' tp tj ta, csr_eliminate_zeros I n c p j a = Ok (p', j', a') ->
  csr_eliminate_zeros I n c (p ++ tp) (j ++ tj) (a ++ ta) = Ok (p' ++ tp, j' ++ tj, a' ++ ta).
Proof. exact (c80_csr_eliminate_zeros I). Qed.
Theorem C80_csr_matmat_maxnnz : forall n c ap aj bp bj k tp tj tq tk, csr_matmat_maxnnz n c ap aj bp bj = Ok k ->
  csr_matmat_maxnnz n c (ap ++ tp) (aj ++ tj) (bp ++ tq) (bj ++ tk) = Ok k.
Proof. exact c80_csr_matmat_maxnnz. Qed.
Theorem C80_csc_matmat_maxnnz : forall n c ap aj bp bj k tp tj tq tk, csc_matmat_maxnnz n c ap aj bp bj = Ok k ->
  csc_matmat_maxnnz n c (ap ++ tp) (aj ++ tj) (bp ++ tq) (bj ++ tk) = Ok k.
Proof. exact c80_csc_matmat_maxnnz. Qed.
Theorem C80_csr_matmat : forall n c ap aj (ax : list T) bp bj bx cp cj cx cp' cj' cx' tp tj ta tq tk tb tr tl tx, csr_matmat I n c ap aj ax bp bj bx cp cj cx = Ok (cp', cj', cx') ->
  csr_matmat I n c (ap ++ tp) (aj ++ tj) (ax ++ ta) (bp ++ tq) (bj ++ tk) (bx ++ tb) (cp ++ tr) (cj ++ tl) (cx ++ tx) = Ok (cp' ++ tr, cj' ++ tl, cx' ++ tx).
Proof. exact (c80_csr_matmat I). Qed.
Theorem C80_csc_matmat : forall n c ap aj (ax : list T) bp bj bx cp cj cx cp' cj' cx' tp tj ta tq tk tb tr tl tx, csc_matmat I n c ap aj ax bp bj bx cp cj cx = Ok (cp', cj', cx') ->
  csc_matmat I n c (ap ++ tp) (aj ++ tj) (ax ++ ta) (bp ++ tq) (bj ++ tk) (bx ++ tb) (cp ++ tr) (cj ++ tl) (cx ++ tx) = Ok (cp' ++ tr, cj' ++ tl, cx' ++ tx).
Proof. exact (c80_csc_matmat I). Qed.
Theorem C80_csr_has_sorted_indices : forall n p j b tp tj, csr_has_sorted_indices I n p j = Ok b -> csr_has_sorted_indices I n (p ++ tp) (j ++ tj) = Ok b.
Proof. exact (c80_csr_has_sorted_indices I). Qed.
Theorem C80_csr_has_canonical_format : forall n p j b tp tj, csr_has_canonical_format I n p j = Ok b -> csr_has_canonical_format I n (p ++ tp) (j ++ tj) = Ok b.
Proof. exact (c80_csr_has_canonical_format I). Qed.
Theorem C80_csr_count_diagonals : forall n p j k tp tj, csr_count_diagonals n p j = Ok k -> csr_count_diagonals n (p ++ tp) (j ++ tj) = Ok k.
Proof. exact c80_csr_count_diagonals. Qed.
Theorem C80_csr_select : forall n c p j (a : list T) rs cs bp bj bx r tp tj ta, csr_select I n c p j a rs cs bp bj bx = Ok r ->
  csr_select I n c (p ++ tp) (j ++ tj) (a ++ ta) rs cs bp bj bx = Ok r.
Proof. exact (c80_csr_select I). Qed.
Theorem C80_get_csr_submatrix : forall n c p j (a : list T) r0 r1 c0 c1 bp bj bx r tp tj ta, get_csr_submatrix I n c p j a r0 r1 c0 c1 bp bj bx = Ok r ->
  get_csr_submatrix I n c (p ++ tp) (j ++ tj) (a ++ ta) r0 r1 c0 c1 bp bj bx = Ok r.
Proof. exact (c80_get_csr_submatrix I). Qed.
Theorem C80_csr_row_index : forall n rows p j (a : list T) bj bx r tr tp tj ta, csr_row_index n rows p j a bj bx = Ok r ->
  csr_row_index n (rows ++ tr) (p ++ tp) (j ++ tj) (a ++ ta) bj bx = Ok r.
Proof. exact c80_csr_row_index. Qed.
Theorem C80_csr_row_slice : forall k lo hi st p j (a : list T) bj bx r tp tj ta, csr_row_slice k lo hi st p j a bj bx = Ok r ->
  csr_row_slice k lo hi st (p ++ tp) (j ++ tj) (a ++ ta) bj bx = Ok r.
Proof. exact c80_csr_row_slice. Qed.
Theorem C80_csr_column_index1 : forall k cs n c p j o b o' b' ts tp tj to tb, csr_column_index1 I k cs n c p j o b = Ok (o', b') ->
  csr_column_index1 I k (cs ++ ts) n c (p ++ tp) (j ++ tj) (o ++ to) (b ++ tb) = Ok (o' ++ to, b' ++ tb).
Proof. exact (c80_csr_column_index1 I). Qed.
Theorem C80_csr_column_index2 : forall r o k j (a : list T) bj bx bj' bx' tr to tj ta tk tx, csr_column_index2 r o k j a bj bx = Ok (bj', bx') ->
  csr_column_index2 (r ++ tr) (o ++ to) k (j ++ tj) (a ++ ta) (bj ++ tk) (bx ++ tx) = Ok (bj' ++ tk, bx' ++ tx).
Proof. exact c80_csr_column_index2. Qed.
Theorem C80_csr_binop_csr : forall {T2} {NZ : Nonzero T2} (op : T -> T -> res T2), forall n c ap aj (ax : list T) bp bj bx cp cj cx cp' cj' cx' tp tj ta tq tk tb tr tl tx, csr_binop_csr I op n c ap aj ax bp bj bx cp cj cx = Ok (cp', cj', cx') ->
  csr_binop_csr I op n c (ap ++ tp) (aj ++ tj) (ax ++ ta) (bp ++ tq) (bj ++ tk) (bx ++ tb) (cp ++ tr) (cj ++ tl) (cx ++ tx) = Ok (cp' ++ tr, cj' ++ tl, cx' ++ tx).
Proof. intros T2 NZ op. exact (c80_csr_binop_csr I op). Qed.
Theorem C80_cs_graph_components : forall F n p j flag k flag' tp tj tf, cs_graph_components I F n p j flag = Ok (k, flag') ->
  cs_graph_components I F n (p ++ tp) (j ++ tj) (flag ++ tf) = Ok (k, flag' ++ tf).
Proof. exact (c80_cs_graph_components I). Qed.
End Frame.

(** C81: on buffers of the right size the previous contents are added to by the accumulating kernels, and have no
    influence on the results of the others. *)
Section Buffers.
Context {T : Type} {SC : Scalar T}.
Variable I : ity.
Theorem C81_csr_matvec : forall (m : CSR T) (x y : list T), wf_csr I m -> length x = csr_cols m -> length y = csr_rows m ->
  exists y', csr_matvec (csr_rows m) (csr_cols m) (csr_rowptr m) (csr_colidx m) (csr_values m) x y = Ok y' /\ length y' = csr_rows m /\
    forall i, i < csr_rows m -> nth i y' s0 = fold_left sadd (map (fun e => smul (snd e) (nth (fst e) x s0)) (csr_row m i)) (nth i y s0).
Proof. exact (c81_csr_matvec I). Qed.
Theorem C81_csc_matvec : forall (m : CSC T) (x y : list T), wf_csc I m -> length x = csc_cols m -> length y = csc_rows m ->
  exists y', csc_matvec (csc_rows m) (csc_cols m) (csc_colptr m) (csc_rowidx m) (csc_values m) x y = Ok y' /\ length y' = csc_rows m /\
    forall i, i < csc_rows m -> nth i y' s0 = fold_left sadd (flat_map (fun j => map (fun v => smul v (nth j x s0)) (csc_at m i j)) (seq 0 (csc_cols m))) (nth i y s0).
Proof. exact (c81_csc_matvec I). Qed.
Theorem C81_csr_todense : forall (m : CSR T) d f, wf_csr I m -> is_table d (csr_rows m) (csr_cols m) f ->
  exists d', csr_todense (csr_rows m) (csr_cols m) (csr_rowptr m) (csr_colidx m) (csr_values m) d = Ok d' /\
    is_table d' (csr_rows m) (csr_cols m) (fun i k => fold_left sadd (csr_at m i k) (f i k)).
Proof. exact (c81_csr_todense I). Qed.
Theorem C81_csr_tocoo : forall (m : CSR T) bi bj bx, wf_csr I m -> csr_rows_fit I m -> length bi = csr_count m -> length bj = csr_count m -> length bx = csr_count m ->
  csr_tocoo I (csr_rows m) (csr_cols m) (csr_rowptr m) (csr_colidx m) (csr_values m) bi bj bx =
    Ok (map (fun e => Z.of_nat (fst (fst e))) (csr_entries m), map (fun e => Z.of_nat (snd (fst e))) (csr_entries m), map snd (csr_entries m)).
Proof. exact (c81_csr_tocoo I). Qed.
Theorem C81_expandptr : forall (m : CSR T) b, wf_csr I m -> csr_rows_fit I m -> length b = csr_count m ->
  expandptr I (csr_rows m) (csr_rowptr m) b = Ok (map (fun e => Z.of_nat (fst (fst e))) (csr_entries m)).
Proof. exact (c81_expandptr I). Qed.
Theorem C81_csr_tocsc : forall (m : CSR T) bp bi bx, wf_csr I m -> csr_rows_fit I m -> length bp = csr_cols m + 1 -> length bi = csr_count m -> length bx = csr_count m ->
  exists c, CSR_to_csc I m = Ok c /\
    csr_tocsc I (csr_rows m) (csr_cols m) (csr_rowptr m) (csr_colidx m) (csr_values m) bp bi bx = Ok (csc_colptr c, csc_rowidx c, csc_values c).
Proof. exact (c81_csr_tocsc I). Qed.
Theorem C81_csc_tocsr : forall (m : CSC T) bp bj bx, wf_csc I m -> csc_cols_fit I m -> length bp = csc_rows m + 1 -> length bj = csc_count m -> length bx = csc_count m ->
  exists r, CSC_to_csr I m = Ok r /\
    csc_tocsr I (csc_rows m) (csc_cols m) (csc_colptr m) (csc_rowidx m) (csc_values m) bp bj bx = Ok (csr_rowptr r, csr_colidx r, csr_values r).
Proof. exact (c81_csc_tocsr I). Qed.
Theorem C81_coo_tocsr : forall (m : Coo T) bp bj bx, wf_coo I m -> (Z.of_nat (length (coo_values m)) <= imax I)%Z ->
  length bp = coo_rows m + 1 -> length bj = length (coo_values m) -> length bx = length (coo_values m) ->
  exists p j x, coo_tocsr I (coo_rows m) (coo_cols m) (length (coo_values m)) (coo_rowidx m) (coo_colidx m) (coo_values m) bp bj bx = Ok (p, j, x) /\
    let r := mkCSR (coo_rows m) (coo_cols m) p j x in wf_csr I r /\ csr_tight r /\
    forall i, i < coo_rows m -> csr_row r i = map (fun e => (snd (fst e), snd e)) (filter (fun e => fst (fst e) =? i) (coo_entries m)).
Proof. exact (c81_coo_tocsr I). Qed.
(** the same outcome (also if it is an error or a panic) whatever the flag buffer held before *)
Theorem C81_cs_graph_components : forall F n p j flag flag', length flag = n -> length flag' = n ->
  cs_graph_components I F n p j flag = cs_graph_components I F n p j flag'.
Proof. exact (c81_cs_graph_components I). Qed.
End Buffers.

Example C80_ex : csr_matvec 2 3 [0; 2; 3]%Z [0; 2; 1]%Z [1; 2; 3]%Z [1; 10; 100]%Z [5; 6]%Z = Ok [206; 36]%Z /\
  csr_matvec 2 3 ([0; 2; 3] ++ [77])%Z ([0; 2; 1] ++ [-4])%Z ([1; 2; 3] ++ [8; 8])%Z ([1; 10; 100] ++ [9])%Z ([5; 6] ++ [7; 7])%Z = Ok [206; 36; 7; 7]%Z.
Proof. split; reflexivity. Qed.
Example C80_inputs_ex : csr_sum_duplicates I32 2 3 [0; 3; 4]%Z [1; 1; 2; 0]%Z [1; 2; 3; 4]%Z = Ok ([0; 2; 3], [1; 2; 0; 0], [3; 3; 4; 4])%Z /\
  csr_sum_duplicates I32 2 3 ([0; 3; 4] ++ [-1])%Z ([1; 1; 2; 0] ++ [0; 0])%Z ([1; 2; 3; 4] ++ [6])%Z = Ok ([0; 2; 3; -1], [1; 2; 0; 0; 0; 0], [3; 3; 4; 4; 6])%Z.
Proof. split; reflexivity. Qed.
Definition ex_m : CSR Z := mkCSR 2 3 [0; 3; 4]%Z [2; 0; 2; 1]%Z [1; 2; 3; 4]%Z.
Example C81_ex : wf_csr I8 ex_m /\ csr_rows_fit I8 ex_m /\
  csr_matvec 2 3 [0; 3; 4]%Z [2; 0; 2; 1]%Z [1; 2; 3; 4]%Z [1; 10; 100]%Z [5; 6]%Z = Ok [407; 46]%Z /\
  csr_todense 2 3 [0; 3; 4]%Z [2; 0; 2; 1]%Z [1; 2; 3; 4]%Z [[1; 1; 1]; [1; 1; 1]]%Z = Ok [[3; 1; 5]; [1; 5; 1]]%Z /\
  csr_tocoo I8 2 3 [0; 3; 4]%Z [2; 0; 2; 1]%Z [1; 2; 3; 4]%Z [9; 9; 9; 9]%Z [9; 9; 9; 9]%Z [9; 9; 9; 9]%Z = Ok ([0; 0; 0; 1], [2; 0; 2; 1], [1; 2; 3; 4])%Z /\
  csr_tocsc I8 2 3 [0; 3; 4]%Z [2; 0; 2; 1]%Z [1; 2; 3; 4]%Z [9; 9; 9; 9]%Z [9; 9; 9; 9]%Z [9; 9; 9; 9]%Z = Ok ([0; 1; 2; 4], [0; 1; 0; 0], [2; 4; 1; 3])%Z.
Proof. split; [check|]. split; [check|]. repeat split; reflexivity. Qed.
Definition ex_mc : CSC Z := mkCSC 3 2 [2; 0; 2; 1]%Z [0; 3; 4]%Z [1; 2; 3; 4]%Z.
Example C81_csc_ex : wf_csc I8 ex_mc /\ csc_cols_fit I8 ex_mc /\ csc_matvec 3 2 [0; 3; 4]%Z [2; 0; 2; 1]%Z [1; 2; 3; 4]%Z [1; 10]%Z [5; 6; 7]%Z = Ok [7; 46; 11]%Z.
Proof. split; [check|]. split; [check|]. reflexivity. Qed.
Definition ex_mo : Coo Z := mkCoo 2 3 [1; 0; 1; 1]%Z [2; 0; 2; 1]%Z [1; 2; 3; 4]%Z.
Example C81_coo_ex : wf_coo I8 ex_mo /\ coo_tocsr I8 2 3 4 [1; 0; 1; 1]%Z [2; 0; 2; 1]%Z [1; 2; 3; 4]%Z [9; 9; 9]%Z [9; 9; 9; 9]%Z [9; 9; 9; 9]%Z = Ok ([0; 1; 4], [0; 2; 2; 1], [2; 1; 3; 4])%Z.
Proof. split; [check|]. reflexivity. Qed.

Example C81_components_ex : cs_graph_components I32 I32 4 [0; 1; 2; 2; 3]%Z [1; 0; 3]%Z [7; -1; -2; 9]%Z = Ok (2, [0; 0; -2; 1])%Z /\
  cs_graph_components I32 I32 4 ([0; 1; 2; 2; 3] ++ [5])%Z ([1; 0; 3] ++ [8])%Z ([0; 0; 0; 0] ++ [-1; 6])%Z = Ok (2, [0; 0; -2; 1; -1; 6])%Z.
Proof. split; reflexivity. Qed.

Print Assumptions C80_csr_matvec.
Print Assumptions C80_csr_matvecs.
Print Assumptions C80_csc_matvec.
Print Assumptions C80_csc_matvecs.
Print Assumptions C80_coo_matvec.
Print Assumptions C80_coo_todense.
Print Assumptions C80_csr_todense.
Print Assumptions C80_csr_diagonal.
Print Assumptions C80_csc_diagonal.
Print Assumptions C80_expandptr.
Print Assumptions C80_csr_scale_rows.
Print Assumptions C80_csr_scale_columns.
Print Assumptions C80_csr_tocoo.
Print Assumptions C80_coo_tocsr.
Print Assumptions C80_csr_tocsc.
Print Assumptions C80_csc_tocsr.
Print Assumptions C80_csr_sort_indices.
Print Assumptions C80_csr_sum_duplicates.
Print Assumptions C80_csr_eliminate_zeros.
Print Assumptions C80_csr_matmat_maxnnz.
Print Assumptions C80_csc_matmat_maxnnz.
Print Assumptions C80_csr_matmat.
Print Assumptions C80_csc_matmat.
Print Assumptions C80_csr_has_sorted_indices.
Print Assumptions C80_csr_has_canonical_format.
Print Assumptions C80_csr_count_diagonals.
Print Assumptions C80_csr_select.
Print Assumptions C80_get_csr_submatrix.
Print Assumptions C80_csr_row_index.
Print Assumptions C80_csr_row_slice.
Print Assumptions C80_csr_column_index1.
Print Assumptions C80_csr_column_index2.
Print Assumptions C80_csr_binop_csr.
Print Assumptions C80_cs_graph_components.
Print Assumptions C81_csr_matvec.
Print Assumptions C81_csc_matvec.
Print Assumptions C81_csr_todense.
Print Assumptions C81_csr_tocoo.
Print Assumptions C81_expandptr.
Print Assumptions C81_csr_tocsc.
Print Assumptions C81_csc_tocsr.
Print Assumptions C81_coo_tocsr.
Print Assumptions C81_cs_graph_components.
