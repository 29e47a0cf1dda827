(** Proofs of the theorems of Props_linear.v, under the same names in lower case. *)
From Verif Require Import Rust Scalar Model_kernels Model_matrix Spec Wp Rep ScatterProofs CanonProofs ConvProofs
  RingProofs LinProofs Lin2Proofs Check Main_convert.

Section Props.
Context {T : Type} {SC : Scalar T}.
Variable I : ity.

Lemma c06_csr_to_coo : forall m : CSR T,
  wf_csr I m -> csr_rows_fit I m -> csr_tight m ->
  exists r, CSR_to_coo I m = Ok r /\ wf_coo I r /\ coo_rows r = csr_rows m /\ coo_cols r = csr_cols m /\
    coo_entries r = csr_entries m /\ forall i j, i < csr_rows m -> coo_at r i j = csr_at m i j.
Proof.
  intros m H Hf Ht. destruct (wf_csr_rep _ _ H) as [R HR].
  destruct (CSR_to_coo_tight I m R HR) as (r & E & W & E1 & E2 & E3); [apply (csr_rows_fit_rep I m R HR), Hf|apply (csr_tight_rep _ _ _ HR), Ht|].
  exists r. sp; try assumption.
  - rewrite E3. symmetry. apply (csr_entries_rep _ _ _ HR).
  - intros i j Hi. unfold coo_at. rewrite E3, (csr_rep_at _ _ _ _ _ HR). apply vals_of_flat.
Qed.
Lemma c06_csr_to_coo_surplus : forall m : CSR T,
  wf_csr I m -> csr_rows_fit I m ->
  (length (csr_colidx m) = length (csr_values m) ->
   exists r, CSR_to_coo I m = Ok r /\
     (coo_rows r = csr_rows m /\ coo_cols r = csr_cols m /\ coo_colidx r = csr_colidx m /\ coo_values r = csr_values m /\
      coo_rowidx r = map (fun e => Z.of_nat (fst (fst e))) (csr_entries m) ++ repeat 0%Z (length (csr_colidx m) - csr_count m)) /\
     coo_entries r = csr_entries m ++
       combine (map (fun z => (0, Z.to_nat z)) (skipn (csr_count m) (csr_colidx m))) (skipn (csr_count m) (csr_values m))) /\
  (length (csr_colidx m) <> length (csr_values m) -> CSR_to_coo I m = Panic).
Proof.
  intros m H Hf. destruct (wf_csr_rep _ _ H) as [R HR]. rewrite (csr_rep_count _ _ _ HR), (csr_entries_rep _ _ _ HR).
  rewrite map_map. apply CSR_to_coo_surplus; [exact HR|]. apply (csr_rows_fit_rep I m R HR), Hf.
Qed.

Lemma c07_csc_to_coo : forall m : CSC T,
  wf_csc I m -> csc_cols_fit I m ->
  exists r, CSC_to_coo I m = Ok r /\ wf_coo I r /\ coo_rows r = csc_rows m /\ coo_cols r = csc_cols m /\
    coo_entries r = csc_entries m /\ forall i j, j < csc_cols m -> coo_at r i j = csc_at m i j.
Proof.
  intros m H Hf. destruct (wf_csc_rep _ _ H) as [R HR].
  destruct (CSC_to_coo_rep I m R HR) as (r & E & W & E1 & E2 & E3); [apply (csc_cols_fit_rep I m R HR), Hf|].
  exists r. sp; try assumption.
  - rewrite E3. symmetry. apply (csc_entries_rep _ _ _ HR).
  - intros i j Hi. unfold coo_at. rewrite E3, (csc_rep_at _ _ _ _ _ HR). apply vals_of_flat_col.
Qed.

Lemma c09_coo_to_dense : forall m : Coo T, wf_coo I m ->
  exists d, Coo_to_dense m = Ok d /\ is_table d (coo_rows m) (coo_cols m) (coo_val m).
Proof. intros m H. apply (Coo_to_dense_spec I m H). Qed.
Lemma c09_csr_to_dense : forall m : CSR T, wf_csr I m ->
  exists d, CSR_to_dense m = Ok d /\ is_table d (csr_rows m) (csr_cols m) (csr_val m).
Proof. intros m H. destruct (wf_csr_rep _ _ H) as [R HR]. apply (CSR_to_dense_rep I m R HR). Qed.
Lemma c09_csc_to_dense : forall m : CSC T, wf_csc I m -> csc_cols_fit I m ->
  exists d, CSC_to_dense I m = Ok d /\ is_table d (csc_rows m) (csc_cols m) (csc_val m).
Proof.
  intros m H Hf. destruct (c04_csc_to_csr I m H Hf) as (r & E & W & _ & E1 & E2 & _ & A & _).
  destruct (c09_csr_to_dense r W) as (d & Ed & D). exists d. unfold CSC_to_dense. rewrite E. cbn [bind].
  split; [exact Ed|]. rewrite E1, E2 in D. eapply is_table_ext; [exact D|].
  intros i k Hi Hk. unfold csr_val, csc_val. rewrite A by assumption. reflexivity.
Qed.

Lemma c15_csr_mat_vec : forall (m : CSR T) (x : list T), wf_csr I m ->
  (length x <> csr_cols m -> CSR_mat_vec m x = Err EDim) /\
  (length x = csr_cols m -> exists y, CSR_mat_vec m x = Ok y /\ length y = csr_rows m /\
     forall i, i < csr_rows m ->
       nth i y s0 = sum0 (map (fun e => smul (snd e) (nth (fst e) x s0)) (csr_row m i))).
Proof.
  intros m x H. destruct (wf_csr_rep _ _ H) as [R HR]. split.
  - intros Hl. unfold CSR_mat_vec. destruct (Nat.eqb_spec (length x) (csr_cols m)); [contradiction|reflexivity].
  - intros Hl. destruct (CSR_mat_vec_rep I m R x HR Hl) as (y & E & L & G). exists y. sp; try assumption.
    intros i Hi. rewrite G by exact Hi. rewrite (csr_rep_row _ _ _ _ HR). reflexivity.
Qed.

Lemma c16_csc_mat_vec : forall (m : CSC T) (x : list T), wf_csc I m ->
  (length x <> csc_cols m -> CSC_mat_vec m x = Err EDim) /\
  (length x = csc_cols m -> exists y, CSC_mat_vec m x = Ok y /\ length y = csc_rows m /\
     forall i, i < csc_rows m ->
       nth i y s0 = sum0 (flat_map (fun j => map (fun v => smul v (nth j x s0)) (csc_at m i j)) (seq 0 (csc_cols m)))).
Proof.
  intros m x H. destruct (wf_csc_rep _ _ H) as [R HR]. split.
  - intros Hl. unfold CSC_mat_vec. destruct (Nat.eqb_spec (length x) (csc_cols m)); [contradiction|reflexivity].
  - intros Hl. destruct (CSC_mat_vec_rep I m R x HR Hl) as (y & E & L & G). exists y. sp; try assumption.
    intros i Hi. rewrite G by exact Hi. f_equal. apply flat_map_ext_in'. intros j _. rewrite (csc_rep_at _ _ _ _ _ HR). reflexivity.
Qed.
Lemma c16_mat_vec_formats_agree : forall (m : CSR T) (x : list T),
  wf_csr I m -> csr_rows_fit I m -> csr_sorted m -> length x = csr_cols m ->
  exists c y, CSR_to_csc I m = Ok c /\ CSC_mat_vec c x = Ok y /\ CSR_mat_vec m x = Ok y.
Proof.
  intros m x H Hf Hs Hl. destruct (c03_csr_to_csc I m H Hf) as (c & E & W & _ & E1 & E2 & _ & A & _).
  destruct (proj2 (c16_csc_mat_vec c x W)) as (y & Ey & Ly & Gy); [congruence|].
  destruct (proj2 (c15_csr_mat_vec m x H) Hl) as (z & Ez & Lz & Gz).
  exists c, y. sp; try assumption. rewrite Ez. f_equal. apply (nth_ext _ _ s0 s0); [congruence|].
  intros i Hi. rewrite Lz in Hi. rewrite Gz by exact Hi. rewrite Gy by congruence. rewrite E2. f_equal.
  destruct (wf_csr_rep _ _ H) as [R HR]. change (map (fun e => smul (snd e) (nth (fst e) x s0)) (csr_row m i)) with (prods x (csr_row m i)).
  rewrite (prods_by_col x (csr_cols m)).
  - apply flat_map_ext_in'. intros j Hj. apply in_seq in Hj. rewrite A by lia. reflexivity.
  - apply Hs, Hi.
  - rewrite (csr_rep_row _ _ _ _ HR). pose proof (crep_cols_lt _ _ _ _ _ _ (proj2 HR)) as G. rewrite Forall_forall in G.
    destruct HR as [L _]. apply G, nth_In. lia.
Qed.

Lemma c28_coo_diagonal : forall m : Coo T, wf_coo I m ->
  exists d, Coo_diagonal m = Ok d /\ length d = Nat.min (coo_rows m) (coo_cols m) /\
    forall i, i < Nat.min (coo_rows m) (coo_cols m) -> nth i d s0 = coo_val m i i.
Proof. intros m H. destruct (Coo_diagonal_spec I m H) as (d & E & L & G). exists d. sp; assumption. Qed.
Lemma c28_csr_diagonal : forall m : CSR T, wf_csr I m ->
  exists d, CSR_diagonal m = Ok d /\ length d = Nat.min (csr_rows m) (csr_cols m) /\
    forall i, i < Nat.min (csr_rows m) (csr_cols m) -> nth i d s0 = csr_val m i i.
Proof.
  intros m H. destruct (wf_csr_rep _ _ H) as [R HR]. unfold CSR_diagonal.
  destruct (diagonal_spec I _ _ _ _ _ _ 0 (repeat s0 (Nat.min (csr_rows m) (csr_cols m))) (proj2 HR) (proj1 HR)) as (d & E & L & G & _);
    [cbn; lia..|rewrite repeat_length; cbn; lia|].
  exists d. rewrite repeat_length in L. sp; try assumption. intros i Hi. unfold csr_val. rewrite (csr_rep_at _ _ _ _ _ HR).
  apply (G i). cbn. lia.
Qed.
Lemma c28_csc_diagonal : forall m : CSC T, wf_csc I m ->
  exists d, CSC_diagonal m = Ok d /\ length d = Nat.min (csc_rows m) (csc_cols m) /\
    forall i, i < Nat.min (csc_rows m) (csc_cols m) -> nth i d s0 = csc_val m i i.
Proof.
  intros m H. destruct (wf_csc_rep _ _ H) as [R HR]. unfold CSC_diagonal.
  destruct (diagonal_spec I _ _ _ _ _ _ 0 (repeat s0 (Nat.min (csc_rows m) (csc_cols m))) (proj2 HR) (proj1 HR)) as (d & E & L & G & _);
    [cbn; lia..|rewrite repeat_length; cbn; lia|].
  exists d. rewrite repeat_length in L. sp; try assumption. intros i Hi. unfold csc_val. rewrite (csc_rep_at _ _ _ _ _ HR).
  apply (G i). cbn. lia.
Qed.

Lemma c29_csr_kth_diagonal : forall (m : CSR T) (k : Z) (y : list T), wf_csr I m ->
  let r0 := Z.to_nat (- k) in let c0 := Z.to_nat k in
  let n := Nat.min (csr_rows m - r0) (csr_cols m - c0) in
  let run := csr_diagonal k (csr_rows m) (csr_cols m) (csr_rowptr m) (csr_colidx m) (csr_values m) y in
  ((- Z.of_nat (csr_rows m) <= k <= Z.of_nat (csr_cols m))%Z -> n <= length y ->
     exists y', run = Ok y' /\ length y' = length y /\
       (forall i, i < n -> nth i y' s0 = csr_val m (r0 + i) (c0 + i)) /\
       (forall i, n <= i -> nth i y' s0 = nth i y s0)) /\
  ((k < - Z.of_nat (csr_rows m) \/ Z.of_nat (csr_cols m) < k)%Z -> run = Panic).
Proof.
  intros m k y H. cbn zeta. destruct (wf_csr_rep _ _ H) as [R HR]. split.
  - intros Hk Hy. destruct (diagonal_spec I _ _ _ _ _ _ k y (proj2 HR) (proj1 HR)) as (d & E & L & G & G2).
    + unfold diag_row. lia.
    + unfold diag_col. lia.
    + exact Hy.
    + exists d. sp; try assumption. intros i Hi. unfold csr_val. rewrite (csr_rep_at _ _ _ _ _ HR). apply (G i Hi).
  - intros Hk. apply diagonal_panic. unfold diag_row, diag_col. lia.
Qed.
Lemma c29_csc_kth_diagonal : forall (m : CSC T) (k : Z) (y : list T), wf_csc I m ->
  let r0 := Z.to_nat (- k) in let c0 := Z.to_nat k in
  let n := Nat.min (csc_rows m - r0) (csc_cols m - c0) in
  let run := csc_diagonal k (csc_rows m) (csc_cols m) (csc_colptr m) (csc_rowidx m) (csc_values m) y in
  ((- Z.of_nat (csc_rows m) <= k <= Z.of_nat (csc_cols m))%Z -> n <= length y ->
     exists y', run = Ok y' /\ length y' = length y /\
       (forall i, i < n -> nth i y' s0 = csc_val m (r0 + i) (c0 + i)) /\
       (forall i, n <= i -> nth i y' s0 = nth i y s0)) /\
  ((k < - Z.of_nat (csc_rows m) \/ Z.of_nat (csc_cols m) < k)%Z -> run = Panic).
Proof.
  intros m k y H. cbn zeta. destruct (wf_csc_rep _ _ H) as [R HR]. unfold csc_diagonal. split.
  - intros Hk Hy. destruct (diagonal_spec I _ _ _ _ _ _ (- k) y (proj2 HR) (proj1 HR)) as (d & E & L & G & G2);
      unfold diag_row, diag_col in *.
    + lia.
    + lia.
    + rewrite Z.opp_involutive. lia.
    + rewrite Z.opp_involutive in *. exists d. rewrite Nat.min_comm in G. rewrite Nat.min_comm in G2.
      sp; try assumption. intros i Hi. unfold csc_val. rewrite (csc_rep_at _ _ _ _ _ HR). apply (G i Hi).
  - intros Hk. apply diagonal_panic. unfold diag_row, diag_col. lia.
Qed.

Lemma c42_eliminate_zeros : forall m : CSR T, wf_csr I m ->
  exists p j x, csr_eliminate_zeros I (csr_rows m) (csr_cols m) (csr_rowptr m) (csr_colidx m) (csr_values m) = Ok (p, j, x) /\
    let r := mkCSR (csr_rows m) (csr_cols m) p j x in
    wf_csr I r /\
    forall i, i < csr_rows m -> csr_row r i = filter (fun e => negb (seqb (snd e) s0)) (csr_row m i).
Proof.
  intros m H. destruct (wf_csr_rep _ _ H) as [R HR].
  destruct (eliminate_zeros_spec I _ _ _ _ _ _ (proj2 HR) (proj1 HR)) as ([[p j] x] & E & C & _).
  exists p, j, x. split; [exact E|]. cbn zeta.
  assert (Rr : csr_rep I (mkCSR (csr_rows m) (csr_cols m) p j x) (map nzrow R)).
  { split; [rewrite map_length; apply HR|exact C]. }
  split; [eapply csr_rep_wf; exact Rr|]. intros i Hi. rewrite (csr_rep_row _ _ _ _ Rr), (csr_rep_row _ _ _ _ HR).
  change (@nil (nat * T)) with (nzrow (@nil (nat * T))) at 1. rewrite map_nth. reflexivity.
Qed.

Lemma c43_scale_rows : forall (m : CSR T) (s : list T), wf_csr I m -> csr_rows m <= length s ->
  exists x, csr_scale_rows (csr_rows m) (csr_cols m) (csr_rowptr m) (csr_colidx m) (csr_values m) s = Ok x /\
    let r := mkCSR (csr_rows m) (csr_cols m) (csr_rowptr m) (csr_colidx m) x in
    length x = length (csr_values m) /\ skipn (csr_count m) x = skipn (csr_count m) (csr_values m) /\
    forall i, i < csr_rows m -> csr_row r i = map (fun e => (fst e, smul (snd e) (nth i s s0))) (csr_row m i).
Proof.
  intros m s H Hs. destruct (wf_csr_rep _ _ H) as [R HR].
  destruct (scale_rows_spec I _ _ _ _ _ _ s (proj2 HR) (proj1 HR) Hs) as (x & E & L & C & S).
  exists x. split; [exact E|]. cbn zeta. rewrite (csr_rep_count _ _ _ HR). sp; try assumption.
  intros i Hi. rewrite (csr_rep_row _ _ _ _ HR).
  rewrite (csr_rep_row I (mkCSR (csr_rows m) (csr_cols m) (csr_rowptr m) (csr_colidx m) x) _ i (conj (eq_trans (map_rows_length _ _) (proj1 HR)) C)). apply nth_map_rows. destruct HR; lia.
Qed.
Lemma c43_scale_columns : forall (m : CSR T) (s : list T), wf_csr I m -> csr_cols m <= length s ->
  exists x, csr_scale_columns (csr_rows m) (csr_cols m) (csr_rowptr m) (csr_colidx m) (csr_values m) s = Ok x /\
    let r := mkCSR (csr_rows m) (csr_cols m) (csr_rowptr m) (csr_colidx m) x in
    length x = length (csr_values m) /\ skipn (csr_count m) x = skipn (csr_count m) (csr_values m) /\
    forall i, i < csr_rows m -> csr_row r i = map (fun e => (fst e, smul (snd e) (nth (fst e) s s0))) (csr_row m i).
Proof.
  intros m s H Hs. destruct (wf_csr_rep _ _ H) as [R HR].
  destruct (scale_columns_spec I _ _ _ _ _ _ s (proj2 HR) (proj1 HR) Hs) as (x & E & L & C & S).
  exists x. split; [exact E|]. cbn zeta. rewrite (csr_rep_count _ _ _ HR). sp; try assumption.
  intros i Hi. rewrite (csr_rep_row _ _ _ _ HR).
  rewrite (csr_rep_row I (mkCSR (csr_rows m) (csr_cols m) (csr_rowptr m) (csr_colidx m) x) _ i (conj (eq_trans (map_rows_length _ _) (proj1 HR)) C)). rewrite nth_map_rows by (destruct HR; lia). reflexivity.
Qed.

Lemma c44_coo_todense : forall (m : Coo T) (b : list T) (fortran : bool), wf_coo I m ->
  length b = coo_rows m * coo_cols m ->
  let slot i k := if fortran then coo_rows m * k + i else coo_cols m * i + k in
  exists b', coo_todense (coo_rows m) (coo_cols m) (length (coo_values m)) (coo_rowidx m) (coo_colidx m) (coo_values m) b fortran = Ok b' /\
    length b' = length b /\
    forall i k, i < coo_rows m -> k < coo_cols m ->
      nth (slot i k) b' s0 = fold_left sadd (coo_at m i k) (nth (slot i k) b s0).
Proof.
  intros m b fortran H Hl. cbn zeta. destruct fortran.
  - destruct (coo_todense_f_spec I m b (fun k i => nth (coo_rows m * k + i) b s0) H) as (b' & E & L & G).
    { split; [lia|reflexivity]. }
    exists b'. sp; [exact E|lia|]. intros i k Hi Hk. apply G; assumption.
  - destruct (coo_todense_c_spec I m b (fun i k => nth (coo_cols m * i + k) b s0) H) as (b' & E & L & G).
    { split; [lia|reflexivity]. }
    exists b'. sp; [exact E|lia|]. intros i k Hi Hk. apply G; assumption.
Qed.
Lemma c44_coo_matvec : forall (m : Coo T) (x y : list T), wf_coo I m ->
  length x = coo_cols m -> length y = coo_rows m ->
  exists y', coo_matvec (length (coo_values m)) (coo_rowidx m) (coo_colidx m) (coo_values m) x y = Ok y' /\
    length y' = length y /\
    forall i, i < coo_rows m -> nth i y' s0 = fold_left sadd
      (map (fun e => smul (snd e) (nth (snd (fst e)) x s0)) (filter (fun e => fst (fst e) =? i) (coo_entries m))) (nth i y s0).
Proof.
  intros m x y H Hx Hy. destruct (coo_matvec_spec I m x y _ H Hx (is_vec_self y _ Hy)) as (y' & E & L & G).
  exists y'. sp; [exact E|lia|exact G].
Qed.

Lemma c45_csr_matvecs : forall (m : CSR T) (v : nat) (x y : list T), wf_csr I m ->
  length x = v * csr_cols m -> length y = v * csr_rows m ->
  exists y', csr_matvecs (csr_rows m) (csr_cols m) v (csr_rowptr m) (csr_colidx m) (csr_values m) x y = Ok y' /\
    length y' = length y /\
    forall i q, i < csr_rows m -> q < v -> nth (v * i + q) y' s0 =
      fold_left sadd (map (fun e => smul (snd e) (nth (v * fst e + q) x s0)) (csr_row m i)) (nth (v * i + q) y s0).
Proof.
  intros m v x y H Hx Hy. destruct (wf_csr_rep _ _ H) as [R HR].
  destruct (matvecs_spec I _ _ v _ _ _ _ x y (fun i q => nth (v * i + q) y s0) (proj2 HR) (proj1 HR) Hx) as (y' & E & L & G).
  { split; [exact Hy|reflexivity]. }
  exists y'. sp; [exact E|lia|]. intros i q Hi Hq. rewrite G by assumption. rewrite (csr_rep_row _ _ _ _ HR). reflexivity.
Qed.
Lemma c45_csc_matvecs : forall (m : CSC T) (v : nat) (x y : list T), wf_csc I m ->
  length x = v * csc_cols m -> length y = v * csc_rows m ->
  exists y', csc_matvecs (csc_rows m) (csc_cols m) v (csc_colptr m) (csc_rowidx m) (csc_values m) x y = Ok y' /\
    length y' = length y /\
    forall i q, i < csc_rows m -> q < v -> nth (v * i + q) y' s0 =
      fold_left sadd (flat_map (fun j => map (fun a => smul a (nth (v * j + q) x s0)) (csc_at m i j)) (seq 0 (csc_cols m)))
        (nth (v * i + q) y s0).
Proof.
  intros m v x y H Hx Hy. destruct (wf_csc_rep _ _ H) as [R HR].
  destruct (csc_matvecs_spec I _ _ v _ _ _ _ x y (fun i q => nth (v * i + q) y s0) (proj2 HR) (proj1 HR) Hx) as (y' & E & L & G).
  { split; [exact Hy|reflexivity]. }
  exists y'. sp; [exact E|lia|]. intros i q Hi Hq. rewrite G by assumption. rewrite bcprods_flat. f_equal.
  rewrite (proj1 HR). apply flat_map_ext_in'. intros j _. rewrite Nat.sub_0_r, (csc_rep_at _ _ _ _ _ HR). reflexivity.
Qed.
End Props.

Section RingProps.
Context {T : Type} {SC : Scalar T} {SN : ScalarNeg T} {ER : ExactRing T}.
Variable I : ity.

Lemma c15_csr_mat_vec_ring : forall (m : CSR T) (x : list T), wf_csr I m -> length x = csr_cols m ->
  exists y, CSR_mat_vec m x = Ok y /\ length y = csr_rows m /\
    forall i, i < csr_rows m -> nth i y s0 = rsum (csr_cols m) (fun j => smul (csr_val m i j) (nth j x s0)).
Proof.
  intros m x H Hl. destruct (proj2 (c15_csr_mat_vec I m x H) Hl) as (y & E & L & G). exists y. sp; try assumption.
  intros i Hi. rewrite G by exact Hi. apply (row_sum (csr_cols m) _ (fun j => nth j x s0)).
  destruct (wf_csr_rep _ _ H) as [R HR]. rewrite (csr_rep_row _ _ _ _ HR).
  pose proof (crep_cols_lt _ _ _ _ _ _ (proj2 HR)) as F. rewrite Forall_forall in F. apply F, nth_In. destruct HR; lia.
Qed.
Lemma c16_csc_mat_vec_ring : forall (m : CSC T) (x : list T), wf_csc I m -> length x = csc_cols m ->
  exists y, CSC_mat_vec m x = Ok y /\ length y = csc_rows m /\
    forall i, i < csc_rows m -> nth i y s0 = rsum (csc_cols m) (fun j => smul (csc_val m i j) (nth j x s0)).
Proof.
  intros m x H Hl. destruct (proj2 (c16_csc_mat_vec I m x H) Hl) as (y & E & L & G). exists y. sp; try assumption.
  intros i Hi. rewrite G by exact Hi. rewrite sum0_flat_seq. apply rsum_ext. intros j _. apply sum0_map_mul_r.
Qed.
End RingProps.
