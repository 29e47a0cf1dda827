(** Proofs of the theorems of Props_buffer_overflow.v. *)
From Verif Require Import Rust Debug Scalar Model_kernels Model_matrix Model_checked Spec SpecChecked Wp Rep ScatterProofs CanonProofs
  ConvProofs LinProofs Lin2Proofs BinopExact CheckedProofs CheckedExact CheckedBuffers Main_checked.

Section Kernels.
Context {T : Type} {SC : Scalar T} {CK : Checked T} {L : CheckedLaw True T}.
Variable I : ity.

Lemma c92_csr_matvec : forall (m : CSR T) (x y : list T), wf_csr I m -> length x = csr_cols m -> length y = csr_rows m ->
  panics_iff (exists i, i < csr_rows m /\
    ((exists e, In e (csr_row m i) /\ cmul (snd e) (nth (fst e) x s0) = Panic) \/
     adds_overflow (nth i y s0) (map (fun e => smul (snd e) (nth (fst e) x s0)) (csr_row m i))))
    (csr_matvec_ck (csr_rows m) (csr_cols m) (csr_rowptr m) (csr_colidx m) (csr_values m) x y)
    (csr_matvec (csr_rows m) (csr_cols m) (csr_rowptr m) (csr_colidx m) (csr_values m) x y).
Proof.
  intros m x y H Hx Hy. destruct (wf_csr_rep _ _ H) as [R HR]. apply exact_of; [apply may_csr_matvec|].
  eapply pw_mono; [apply (matvec_buf _ I _ _ _ _ _ _ x y (proj2 HR) (proj1 HR) Hx Hy)|].
  - intros i e Hi He Hp. exists i. split; [exact Hi|]. left. exists e. rewrite (csr_rep_row _ _ _ _ HR). auto.
  - intros i Hi Ho. exists i. split; [exact Hi|]. right. rewrite (csr_rep_row _ _ _ _ HR). exact Ho.
  - intros ? G (i & Hi & Hb). destruct (G i Hi) as [G1 G2]. rewrite (csr_rep_row _ _ _ _ HR) in Hb. destruct Hb as [(e & He & Hp)|Ho].
    + apply (G1 e He Hp).
    + apply G2, Ho.
Qed.
Lemma in_flat_col (m : CSC T) R t : csc_rep I m R -> (In t (flat 0 R) <-> fst t < csc_cols m /\ In (snd t) (csc_col m (fst t))).
Proof.
  intros HR. rewrite (csc_rep_col _ _ _ _ HR). split; intros Ht.
  - apply in_flat in Ht as [H1 H2]. rewrite Nat.sub_0_r in H2. rewrite (proj1 HR) in H1. split; [lia|exact H2].
  - rewrite flat_seq. apply in_flat_map. exists (fst t). rewrite (proj1 HR). split; [apply in_seq; lia|]. rewrite Nat.sub_0_r. destruct t. cbn. apply in_map, Ht.
Qed.
Lemma in_flat_row (m : CSR T) R t : csr_rep I m R -> (In t (flat 0 R) <-> fst t < csr_rows m /\ In (snd t) (csr_row m (fst t))).
Proof.
  intros HR. rewrite (csr_rep_row _ _ _ _ HR). split; intros Ht.
  - apply in_flat in Ht as [H1 H2]. rewrite Nat.sub_0_r in H2. rewrite (proj1 HR) in H1. split; [lia|exact H2].
  - rewrite flat_seq. apply in_flat_map. exists (fst t). rewrite (proj1 HR). split; [apply in_seq; lia|]. rewrite Nat.sub_0_r. destruct t. cbn. apply in_map, Ht.
Qed.
Lemma c92_csc_matvec : forall (m : CSC T) (x y : list T), wf_csc I m -> length x = csc_cols m -> length y = csc_rows m ->
  panics_iff ((exists j e, j < csc_cols m /\ In e (csc_col m j) /\ cmul (snd e) (nth j x s0) = Panic) \/
    (exists i, i < csc_rows m /\ adds_overflow (nth i y s0) (flat_map (fun j => map (fun v => smul v (nth j x s0)) (csc_at m i j)) (seq 0 (csc_cols m)))))
    (csc_matvec_ck (csc_rows m) (csc_cols m) (csc_colptr m) (csc_rowidx m) (csc_values m) x y)
    (csc_matvec (csc_rows m) (csc_cols m) (csc_colptr m) (csc_rowidx m) (csc_values m) x y).
Proof.
  intros m x y H Hx Hy. destruct (wf_csc_rep _ _ H) as [R HR]. apply exact_of; [apply may_csc_matvec|].
  assert (Ep : forall i, cprods x (flat 0 R) i = flat_map (fun j => map (fun v => smul v (nth j x s0)) (csc_at m i j)) (seq 0 (csc_cols m))).
  { intros i. rewrite cprods_flat, (proj1 HR). apply flat_map_ext_in'. intros j _. rewrite (csc_rep_at _ _ _ _ _ HR), Nat.sub_0_r. reflexivity. }
  eapply pw_mono; [apply (cmatvec_buf _ I _ _ _ _ _ _ x y (proj2 HR) (proj1 HR) Hx Hy)|].
  - intros t Ht Hp. left. apply (in_flat_col m R t HR) in Ht as [H1 H2]. exists (fst t), (snd t). auto.
  - intros i Hi Ho. right. exists i. split; [exact Hi|]. rewrite <- Ep. exact Ho.
  - intros ? [G1 G2] [(j & e & Hj & He & Hp)|(i & Hi & Ho)].
    + apply (G1 (j, e)); [|exact Hp]. apply (in_flat_col m R (j, e) HR). auto.
    + apply (G2 i Hi). rewrite Ep. exact Ho.
Qed.
Lemma c92_coo_matvec : forall (m : Coo T) (x y : list T), wf_coo I m -> length x = coo_cols m -> length y = coo_rows m ->
  panics_iff ((exists e, In e (coo_entries m) /\ cmul (snd e) (nth (snd (fst e)) x s0) = Panic) \/
    (exists i, i < coo_rows m /\ adds_overflow (nth i y s0)
      (map (fun e => smul (snd e) (nth (snd (fst e)) x s0)) (filter (fun e => fst (fst e) =? i) (coo_entries m)))))
    (coo_matvec_ck (length (coo_values m)) (coo_rowidx m) (coo_colidx m) (coo_values m) x y)
    (coo_matvec (length (coo_values m)) (coo_rowidx m) (coo_colidx m) (coo_values m) x y).
Proof.
  intros m x y H Hx Hy. apply exact_of; [apply may_coo_matvec|]. eapply pw_mono; [apply (coo_matvec_buf _ I m x y H Hx Hy)|].
  - intros e He Hp. left. exists e. auto.
  - intros i Hi Ho. right. exists i. auto.
  - intros ? [G1 G2] [(e & He & Hp)|(i & Hi & Ho)]; [apply (G1 e He Hp)|apply (G2 i Hi Ho)].
Qed.
Lemma c92_csr_matvecs : forall (m : CSR T) (v : nat) (x y : list T), wf_csr I m -> length x = v * csr_cols m -> length y = v * csr_rows m ->
  panics_iff (exists i q, i < csr_rows m /\ q < v /\
    ((exists e, In e (csr_row m i) /\ cmul (snd e) (nth (v * fst e + q) x s0) = Panic) \/
     adds_overflow (nth (v * i + q) y s0) (map (fun e => smul (snd e) (nth (v * fst e + q) x s0)) (csr_row m i))))
    (csr_matvecs_ck (csr_rows m) (csr_cols m) v (csr_rowptr m) (csr_colidx m) (csr_values m) x y)
    (csr_matvecs (csr_rows m) (csr_cols m) v (csr_rowptr m) (csr_colidx m) (csr_values m) x y).
Proof.
  intros m v x y H Hx Hy. destruct (wf_csr_rep _ _ H) as [R HR]. apply exact_of; [apply may_csr_matvecs|].
  eapply pw_mono; [apply (matvecs_buf _ I _ _ _ _ _ _ _ x y (proj2 HR) (proj1 HR) Hx Hy)|].
  - intros i q e Hi Hq He Hp. exists i, q. split; [exact Hi|]. split; [exact Hq|]. left. exists e. rewrite (csr_rep_row _ _ _ _ HR). auto.
  - intros i q Hi Hq Ho. exists i, q. split; [exact Hi|]. split; [exact Hq|]. right. rewrite (csr_rep_row _ _ _ _ HR). exact Ho.
  - intros ? G (i & q & Hi & Hq & Hb). destruct (G i q Hi Hq) as [G1 G2]. rewrite (csr_rep_row _ _ _ _ HR) in Hb. destruct Hb as [(e & He & Hp)|Ho].
    + apply (G1 e He Hp).
    + apply G2, Ho.
Qed.
Lemma c92_csc_matvecs : forall (m : CSC T) (v : nat) (x y : list T), wf_csc I m -> length x = v * csc_cols m -> length y = v * csc_rows m ->
  panics_iff (exists q, q < v /\
    ((exists j e, j < csc_cols m /\ In e (csc_col m j) /\ cmul (snd e) (nth (v * j + q) x s0) = Panic) \/
     (exists i, i < csc_rows m /\ adds_overflow (nth (v * i + q) y s0)
        (flat_map (fun j => map (fun a => smul a (nth (v * j + q) x s0)) (csc_at m i j)) (seq 0 (csc_cols m))))))
    (csc_matvecs_ck (csc_rows m) (csc_cols m) v (csc_colptr m) (csc_rowidx m) (csc_values m) x y)
    (csc_matvecs (csc_rows m) (csc_cols m) v (csc_colptr m) (csc_rowidx m) (csc_values m) x y).
Proof.
  intros m v x y H Hx Hy. destruct (wf_csc_rep _ _ H) as [R HR]. apply exact_of; [apply may_csc_matvecs|].
  assert (Ep : forall q i, bcprods x v q (flat 0 R) i = flat_map (fun j => map (fun a => smul a (nth (v * j + q) x s0)) (csc_at m i j)) (seq 0 (csc_cols m))).
  { intros q i. rewrite bcprods_flat, (proj1 HR). apply flat_map_ext_in'. intros j _. rewrite (csc_rep_at _ _ _ _ _ HR), Nat.sub_0_r. reflexivity. }
  eapply pw_mono; [apply (cmatvecs_buf _ I _ _ _ _ _ _ _ x y (proj2 HR) (proj1 HR) Hx Hy)|].
  - intros q t Hq Ht Hp. exists q. split; [exact Hq|]. left. apply (in_flat_col m R t HR) in Ht as [H1 H2]. exists (fst t), (snd t). auto.
  - intros i q Hi Hq Ho. exists q. split; [exact Hq|]. right. exists i. split; [exact Hi|]. rewrite <- Ep. exact Ho.
  - intros ? G (q & Hq & [(j & e & Hj & He & Hp)|(i & Hi & Ho)]); destruct (G q Hq) as [G1 G2].
    + apply (G1 (j, e)); [|exact Hp]. apply (in_flat_col m R (j, e) HR). auto.
    + apply (G2 i Hi). rewrite Ep. exact Ho.
Qed.
Lemma c92_csr_todense : forall (m : CSR T) d f, wf_csr I m -> is_table d (csr_rows m) (csr_cols m) f ->
  panics_iff (exists i k, i < csr_rows m /\ k < csr_cols m /\ adds_overflow (f i k) (csr_at m i k))
    (csr_todense_ck (csr_rows m) (csr_cols m) (csr_rowptr m) (csr_colidx m) (csr_values m) d)
    (csr_todense (csr_rows m) (csr_cols m) (csr_rowptr m) (csr_colidx m) (csr_values m) d).
Proof.
  intros m d f H Hd. destruct (wf_csr_rep _ _ H) as [R HR]. apply exact_of; [apply may_csr_todense|].
  eapply pw_mono; [apply (todense_buf _ I _ _ _ _ _ _ d f (proj2 HR) (proj1 HR) Hd)|].
  - intros i k Hi Hk Ho. exists i, k. rewrite (csr_rep_at _ _ _ _ _ HR). auto.
  - intros ? G (i & k & Hi & Hk & Ho). rewrite (csr_rep_at _ _ _ _ _ HR) in Ho. apply (G i k Hi Hk Ho).
Qed.
Lemma c92_coo_todense : forall (m : Coo T) (b : list T) (fortran : bool), wf_coo I m -> length b = coo_rows m * coo_cols m ->
  let slot i k := if fortran then coo_rows m * k + i else coo_cols m * i + k in
  panics_iff (exists i k, i < coo_rows m /\ k < coo_cols m /\ adds_overflow (nth (slot i k) b s0) (coo_at m i k))
    (coo_todense_ck (coo_rows m) (coo_cols m) (length (coo_values m)) (coo_rowidx m) (coo_colidx m) (coo_values m) b fortran)
    (coo_todense (coo_rows m) (coo_cols m) (length (coo_values m)) (coo_rowidx m) (coo_colidx m) (coo_values m) b fortran).
Proof.
  intros m b fortran H Lb slot. apply exact_of; [apply may_coo_todense|]. unfold slot. destruct fortran.
  - eapply pw_mono; [apply (coo_todense_f_buf _ I m b H Lb)|].
    + intros i k Hi Hk Ho. exists i, k. auto.
    + intros ? G (i & k & Hi & Hk & Ho). apply (G i k Hi Hk Ho).
  - rewrite Nat.mul_comm in Lb. eapply pw_mono; [apply (coo_todense_c_buf _ I m b H Lb)|].
    + intros i k Hi Hk Ho. exists i, k. auto.
    + intros ? G (i & k & Hi & Hk & Ho). apply (G i k Hi Hk Ho).
Qed.
Lemma c92_csr_kth_diagonal : forall (m : CSR T) (k : Z) (y : list T), wf_csr I m ->
  (- Z.of_nat (csr_rows m) <= k <= Z.of_nat (csr_cols m))%Z ->
  let r0 := Z.to_nat (- k) in let c0 := Z.to_nat k in
  let n := Nat.min (csr_rows m - r0) (csr_cols m - c0) in n <= length y ->
  panics_iff (exists i, i < n /\ sum_overflows (csr_at m (r0 + i) (c0 + i)))
    (csr_diagonal_ck k (csr_rows m) (csr_cols m) (csr_rowptr m) (csr_colidx m) (csr_values m) y)
    (csr_diagonal k (csr_rows m) (csr_cols m) (csr_rowptr m) (csr_colidx m) (csr_values m) y).
Proof.
  intros m k y H Hk r0 c0 n Hy. destruct (wf_csr_rep _ _ H) as [R HR]. apply exact_of; [apply may_csr_diagonal|].
  eapply pw_mono; [apply (kth_diagonal_buf _ I _ _ _ _ _ _ k y (proj2 HR) (proj1 HR))|].
  - unfold diag_row. lia.
  - unfold diag_col. lia.
  - exact Hy.
  - intros i Hi Ho. exists i. split; [exact Hi|]. rewrite (csr_rep_at _ _ _ _ _ HR). exact Ho.
  - intros ? G (i & Hi & Ho). rewrite (csr_rep_at _ _ _ _ _ HR) in Ho. apply (G i Hi Ho).
Qed.
Lemma c92_csc_kth_diagonal : forall (m : CSC T) (k : Z) (y : list T), wf_csc I m ->
  (- Z.of_nat (csc_rows m) <= k <= Z.of_nat (csc_cols m))%Z ->
  let r0 := Z.to_nat (- k) in let c0 := Z.to_nat k in
  let n := Nat.min (csc_rows m - r0) (csc_cols m - c0) in n <= length y ->
  panics_iff (exists i, i < n /\ sum_overflows (csc_at m (r0 + i) (c0 + i)))
    (csc_diagonal_ck k (csc_rows m) (csc_cols m) (csc_colptr m) (csc_rowidx m) (csc_values m) y)
    (csc_diagonal k (csc_rows m) (csc_cols m) (csc_colptr m) (csc_rowidx m) (csc_values m) y).
Proof.
  intros m k y H Hk r0 c0 n Hy. destruct (wf_csc_rep _ _ H) as [R HR]. apply exact_of; [apply may_csc_diagonal|]. unfold csc_diagonal_ck.
  assert (En : Nat.min (csc_cols m - diag_row (- k)) (csc_rows m - diag_col (- k)) = n).
  { unfold n, r0, c0, diag_row, diag_col. rewrite Z.opp_involutive. apply Nat.min_comm. }
  eapply pw_mono; [apply (kth_diagonal_buf _ I _ _ _ _ _ _ (- k) y (proj2 HR) (proj1 HR))|].
  - unfold diag_row. lia.
  - unfold diag_col. lia.
  - rewrite En. exact Hy.
  - rewrite En. intros i Hi Ho. exists i. split; [exact Hi|]. rewrite (csc_rep_at _ _ _ _ _ HR). unfold diag_row, diag_col in Ho. rewrite Z.opp_involutive in Ho. exact Ho.
  - rewrite En. intros ? G (i & Hi & Ho). rewrite (csc_rep_at _ _ _ _ _ HR) in Ho. apply (G i Hi). unfold diag_row, diag_col. rewrite Z.opp_involutive. exact Ho.
Qed.
Lemma c92_scale_rows : forall (m : CSR T) (s : list T), wf_csr I m -> csr_rows m <= length s ->
  panics_iff (exists i e, i < csr_rows m /\ In e (csr_row m i) /\ cmul (snd e) (nth i s s0) = Panic)
    (csr_scale_rows_ck (csr_rows m) (csr_cols m) (csr_rowptr m) (csr_colidx m) (csr_values m) s)
    (csr_scale_rows (csr_rows m) (csr_cols m) (csr_rowptr m) (csr_colidx m) (csr_values m) s).
Proof.
  intros m s H Hs. destruct (wf_csr_rep _ _ H) as [R HR]. apply exact_of; [apply may_csr_scale_rows|].
  eapply pw_mono; [apply (scale_rows_buf _ I _ _ _ _ _ _ s (proj2 HR) (proj1 HR) Hs)|].
  - intros t Ht Hp. apply (in_flat_row m R t HR) in Ht as [H1 H2]. exists (fst t), (snd t). auto.
  - intros ? G (i & e & Hi & He & Hp). apply (G (i, e)); [|exact Hp]. apply (in_flat_row m R (i, e) HR). auto.
Qed.
Lemma c92_scale_columns : forall (m : CSR T) (s : list T), wf_csr I m -> csr_cols m <= length s ->
  panics_iff (exists i e, i < csr_rows m /\ In e (csr_row m i) /\ cmul (snd e) (nth (fst e) s s0) = Panic)
    (csr_scale_columns_ck (csr_rows m) (csr_cols m) (csr_rowptr m) (csr_colidx m) (csr_values m) s)
    (csr_scale_columns (csr_rows m) (csr_cols m) (csr_rowptr m) (csr_colidx m) (csr_values m) s).
Proof.
  intros m s H Hs. destruct (wf_csr_rep _ _ H) as [R HR]. apply exact_of; [apply may_csr_scale_columns|].
  eapply pw_mono; [apply (scale_columns_buf _ I _ _ _ _ _ _ s (proj2 HR) (proj1 HR) Hs)|].
  - intros e He Hp. rewrite <- (flat_snd 0 R) in He. apply in_map_iff in He as (t & <- & Ht). apply (in_flat_row m R t HR) in Ht as [H1 H2]. exists (fst t), (snd t). auto.
  - intros ? G (i & e & Hi & He & Hp). apply (G e); [|exact Hp]. rewrite <- (flat_snd 0 R). change e with (snd (i, e)). apply in_map. apply (in_flat_row m R (i, e) HR). auto.
Qed.
End Kernels.
Lemma c92_int : forall J (u : Z) (l : list Z),
  @adds_overflow Z _ (int_checked J) u l <-> exists p q, l = p ++ q /\ p <> [] /\ ~ in_ity J (u + fold_right Z.add 0%Z p).
Proof.
  intros J u l.
  assert (S : forall p (w : Z), fold_left sadd p w = (w + fold_right Z.add 0 p)%Z).
  { induction p as [|a p IH]; intros w; cbn; [lia|]. rewrite IH. cbn. lia. }
  assert (A : forall p w, fold_right Z.add 0%Z (p ++ [w]) = (fold_right Z.add 0 p + w)%Z).
  { induction p as [|a p IH]; intros w; cbn; [lia|]. rewrite IH. lia. }
  split.
  - intros (p & w & q & -> & H). cbn in H. rewrite icheck_panic, S in H. exists (p ++ [w]), q. split; [rewrite <- app_assoc; reflexivity|].
    split; [destruct p; discriminate|]. rewrite A, Z.add_assoc. exact H.
  - intros (p & q & -> & Hp & H). destruct (exists_last Hp) as (p' & w & ->). exists p', w, q. split; [rewrite <- app_assoc; reflexivity|].
    cbn. rewrite icheck_panic, S. rewrite A, Z.add_assoc in H. exact H.
Qed.
