(** Constructors, dense input, diagonals, triangles, maps over values, overflow. *)
From Verif Require Import Rust Scalar Model_kernels Model_matrix Spec Wp Rep CanonProofs ConvProofs LinProofs Lin2Proofs.

Lemma wp_eq {A} (m : res A) a : wp m (eq a) -> m = Ok a.
Proof. intros (b & -> & <-). reflexivity. Qed.
Lemma wp_ok_eq {A} (m : res A) a : m = Ok a -> wp m (eq a).
Proof. intros ->. apply wp_ok. reflexivity. Qed.

(** ** Mapping the values *)
Section Map.
Context {T T2 : Type} (f : T -> T2).
Lemma combine_map_snd {A} (a : list A) (b : list T) : combine a (map f b) = map (fun e => (fst e, f (snd e))) (combine a b).
Proof. revert b. induction a; intros [|? b]; cbn; auto. rewrite IHa. reflexivity. Qed.
Lemma part_map s e (l : list T) : part s e (map f l) = map f (part s e l).
Proof. unfold part. rewrite skipn_map, firstn_map. reflexivity. Qed.
Lemma crow_map p j (x : list T) i : crow p j (map f x) i = map (fun e => (fst e, f (snd e))) (crow p j x i).
Proof. unfold crow. rewrite part_map. apply combine_map_snd. Qed.
Lemma at_map k (r : list (nat * T)) : at_ k (map (fun e => (fst e, f (snd e))) r) = map f (at_ k r).
Proof. induction r as [|e r IH]; [reflexivity|]. cbn [map]. rewrite !at_cons, map_app, IH. cbn [fst snd]. destruct (fst e =? k); reflexivity. Qed.
Lemma wf_arrays_map I n c p j (x : list T) : wf_arrays I n c p j x -> wf_arrays I n c p j (map f x).
Proof. intros []. constructor; auto. rewrite map_length. assumption. Qed.
Lemma csr_at_map r c p j x i k : csr_at (mkCSR r c p j (map f x)) i k = map f (csr_at (mkCSR r c p j x) i k).
Proof. unfold csr_at, csr_row. cbn. rewrite crow_map. apply at_map. Qed.
Lemma csc_at_map r c p j x i k : csc_at (mkCSC r c j p (map f x)) i k = map f (csc_at (mkCSC r c j p x) i k).
Proof. unfold csc_at, csc_col. cbn. rewrite crow_map. apply at_map. Qed.
Lemma coo_entries_map r c i j x : coo_entries (mkCoo r c i j (map f x)) = map (fun e => (fst e, f (snd e))) (coo_entries (mkCoo r c i j x)).
Proof. unfold coo_entries. cbn [coo_values coo_rowidx coo_colidx]. apply combine_map_snd. Qed.
Lemma coo_at_map r c i j x k l : coo_at (mkCoo r c i j (map f x)) k l = map f (coo_at (mkCoo r c i j x) k l).
Proof.
  unfold coo_at. rewrite coo_entries_map. induction (coo_entries _) as [|e L IH]; [reflexivity|]. cbn [map filter fst].
  destruct (_ && _); cbn [map]; rewrite IH; reflexivity.
Qed.
End Map.

(** ** Lengths accepted by the constructors *)
Section New.
Context {T : Type}.
Lemma Coo_new_ok r c i j (x : list T) : length i = length x -> length j = length x -> Coo_new r c i j x = Ok (mkCoo r c i j x).
Proof. intros E1 E2. unfold Coo_new. rewrite E1, E2, Nat.eqb_refl. reflexivity. Qed.
Lemma Coo_new_err r c i j (x : list T) : length i <> length x \/ length j <> length x -> Coo_new r c i j x = Err ELength.
Proof.
  intros H. unfold Coo_new. destruct (Nat.eqb_spec (length x) (length i)); cbn [negb orb]; [|reflexivity].
  destruct (Nat.eqb_spec (length x) (length j)); [|reflexivity]. cbn. destruct H; congruence.
Qed.
Lemma CSR_new_bad r c p j (x : list T) : length p <> r + 1 -> CSR_new r c p j x = bad_length (length p) r.
Proof. intros H. unfold CSR_new. destruct (Nat.eqb_spec (length p) (r + 1)); [contradiction|reflexivity]. Qed.
Lemma CSR_new_err_len r c p j (x : list T) : length p <> r + 1 -> (Z.of_nat r < imax Usize)%Z -> CSR_new r c p j x = Err ELength.
Proof. intros H L. rewrite CSR_new_bad by exact H. unfold bad_length. destruct (Z.eqb_spec (Z.of_nat r) (imax Usize)); [lia|reflexivity]. Qed.
Lemma CSR_new_max r c p j (x : list T) : length p <> r + 1 -> Z.of_nat r = imax Usize -> CSR_new r c p j x = Panic.
Proof. intros H L. rewrite CSR_new_bad by exact H. unfold bad_length. rewrite L, Z.eqb_refl. reflexivity. Qed.
Lemma CSR_new_get r c p j (x : list T) : length p = r + 1 -> (0 <= nth r p 0)%Z ->
  CSR_new r c p j x = if (length j <? ptr p r) || (length x <? ptr p r) then Err ELength else Ok (mkCSR r c p j x).
Proof.
  intros H1 H2. unfold CSR_new. rewrite H1, Nat.eqb_refl. cbn [negb]. rewrite usub_ok by lia. cbn [bind].
  replace (r + 1 - 1) with r by lia. unfold pget. rewrite (vget_nth _ _ 0%Z) by lia. cbn [bind]. rewrite to_usize_ok by exact H2. cbn [bind].
  unfold ptr. destruct (length j <? _); [reflexivity|]. destruct (length x <? _); reflexivity.
Qed.
Lemma CSR_new_neg r c p j (x : list T) : length p = r + 1 -> (nth r p 0 < 0)%Z -> CSR_new r c p j x = Panic.
Proof.
  intros H1 H2. unfold CSR_new. rewrite H1, Nat.eqb_refl. cbn [negb]. rewrite usub_ok by lia. cbn [bind].
  replace (r + 1 - 1) with r by lia. unfold pget. rewrite (vget_nth _ _ 0%Z) by lia. cbn [bind]. unfold to_usize.
  destruct (Z.leb_spec 0 (nth r p 0%Z)); [lia|reflexivity].
Qed.
Lemma CSC_new_csr r c j p (x : list T) : CSC_new r c j p x =
  match CSR_new c r p j x with Ok _ => Ok (mkCSC r c j p x) | Err e => Err e | Panic => Panic | NoFuel => NoFuel end.
Proof.
  unfold CSC_new, CSR_new. destruct (negb _); [unfold bad_length; destruct (Z.eqb _ _); reflexivity|]. destruct (usub _ _) as [l|e| |]; try reflexivity. cbn [bind].
  destruct (pget p l) as [n|e| |]; try reflexivity. cbn [bind]. destruct (length j <? n); [reflexivity|]. destruct (length x <? n); reflexivity.
Qed.
End New.

(** ** Arrays built by appending *)
Section Push.
Context {T : Type} {SC : Scalar T}.
Variable I : ity.
Implicit Types (r : list (nat * T)) (R : list (list (nat * T))).

Definition zfst (L : list (nat * T)) : list Z := map (fun e => Z.of_nat (fst e)) L.
(** the start positions of the rows *)
Definition starts R : list Z := map (fun k => Z.of_nat (length (concat (firstn k R)))) (seq 0 (length R)).
Definition ptrs R : list Z := starts R ++ [Z.of_nat (length (concat R))].

Lemma starts_length R : length (starts R) = length R.
Proof. unfold starts. rewrite map_length, seq_length. reflexivity. Qed.
Lemma starts_snoc R r : starts (R ++ [r]) = starts R ++ [Z.of_nat (length (concat R))].
Proof.
  unfold starts. rewrite app_length. cbn [length]. rewrite seq_app, map_app. cbn [seq map plus]. f_equal.
  - apply map_ext_in. intros k Hk. apply in_seq in Hk. rewrite firstn_app. replace (k - length R) with 0 by lia. cbn. rewrite app_nil_r. reflexivity.
  - rewrite firstn_app, Nat.sub_diag, firstn_all. cbn. rewrite app_nil_r. reflexivity.
Qed.
Lemma ptrs_snoc R r : ptrs (R ++ [r]) = ptrs R ++ [Z.of_nat (length (concat (R ++ [r])))].
Proof. unfold ptrs. rewrite starts_snoc. reflexivity. Qed.
Lemma ptrs_length R : length (ptrs R) = S (length R).
Proof. unfold ptrs. rewrite app_length, starts_length. cbn. lia. Qed.
Lemma bptr_ptrs R : bptr (ptrs R) R.
Proof.
  intros pre post E. unfold ptrs. destruct (Nat.lt_ge_cases (length pre) (length R)) as [H|H].
  - rewrite nth_error_app1 by (rewrite starts_length; exact H). unfold starts. rewrite nth_error_map.
    rewrite (nth_error_nth' _ 0) by (rewrite seq_length; exact H). cbn. rewrite seq_nth by exact H. cbn [plus]. rewrite E, firstn_app_exact by reflexivity. reflexivity.
  - assert (post = []) by (destruct post; [reflexivity|]; rewrite E, app_length in H; cbn in H; lia). subst post. rewrite app_nil_r in E. subst pre.
    rewrite nth_error_app2 by (rewrite starts_length; lia). rewrite starts_length, Nat.sub_diag. reflexivity.
Qed.
Lemma bdat_exact (L : list (nat * T)) : bdat (zfst L) (map snd L) L.
Proof. unfold zfst. split; [rewrite <- (map_length (fun e => Z.of_nat (fst e))) at 1|rewrite <- (map_length snd) at 1]; apply firstn_all. Qed.
Lemma crep_exact c R : Forall (fun e => fst e < c /\ (Z.of_nat (fst e) <= imax I)%Z) (concat R) -> (Z.of_nat (length (concat R)) <= imax I)%Z ->
  crep I c (ptrs R) (zfst (concat R)) (map snd (concat R)) R.
Proof. intros H1 H2. constructor; [apply ptrs_length|apply bptr_ptrs|apply bdat_exact|exact H1|exact H2]. Qed.
Lemma zfst_app L1 L2 : zfst (L1 ++ L2) = zfst L1 ++ zfst L2.
Proof. apply map_app. Qed.

(** ** Dense input *)
(** nonzero elements of a dense row with their positions *)
Fixpoint nzs (k : nat) (l : list T) : list (nat * T) :=
  match l with [] => [] | v :: l' => (if seqb v s0 then [] else [(k, v)]) ++ nzs (S k) l' end.
Lemma nzs_app k l1 l2 : nzs k (l1 ++ l2) = nzs k l1 ++ nzs (k + length l1) l2.
Proof.
  revert k. induction l1 as [|v l IH]; intros k; cbn; [rewrite Nat.add_0_r; reflexivity|].
  rewrite IH, <- app_assoc. replace (S k + length l) with (k + S (length l)) by lia. reflexivity.
Qed.
Lemma nzs_in k l e : In e (nzs k l) -> k <= fst e < k + length l /\ nth (fst e - k) l s0 = snd e /\ seqb (snd e) s0 = false.
Proof.
  revert k. induction l as [|v l IH]; intros k H; [destruct H|]. cbn [nzs] in H. apply in_app_iff in H as [H|H].
  - destruct (seqb v s0) eqn:E; [destruct H|]. destruct H as [<-|[]]. cbn [fst snd]. rewrite Nat.sub_diag. cbn. sp; [lia..|exact E].
  - apply IH in H as (H1 & H2 & H3). cbn [length]. sp; [lia|lia| |exact H3]. replace (fst e - k) with (S (fst e - S k)) by lia. exact H2.
Qed.
Lemma nzs_at k l i : at_ i (nzs k l) = if (k <=? i) && (i <? k + length l) then (let v := nth (i - k) l s0 in if seqb v s0 then [] else [v]) else [].
Proof.
  revert k. induction l as [|v l IH]; intros k; cbn [nzs length].
  - rewrite at_nil. destruct (Nat.leb_spec k i), (Nat.ltb_spec i (k + 0)); try lia; reflexivity.
  - rewrite at_app, IH. destruct (Nat.eq_dec i k) as [->|Hn].
    + rewrite Nat.leb_refl, Nat.sub_diag. cbn [nth]. destruct (Nat.ltb_spec k (k + S (length l))); [|lia]. cbn [andb].
      destruct (Nat.leb_spec (S k) k); [lia|]. cbn [andb]. rewrite app_nil_r. destruct (seqb v s0); [reflexivity|]. rewrite at_cons. cbn [fst snd]. rewrite Nat.eqb_refl. reflexivity.
    + assert (E : at_ i (if seqb v s0 then [] else [(k, v)]) = []).
      { destruct (seqb v s0); [reflexivity|]. rewrite at_cons. cbn [fst]. destruct (Nat.eqb_spec k i); [lia|reflexivity]. }
      rewrite E. cbn [app]. destruct (Nat.leb_spec (S k) i), (Nat.leb_spec k i); try lia; cbn [andb]; [|reflexivity].
      replace (S k + length l) with (k + S (length l)) by lia. destruct (i <? _); [|reflexivity].
      replace (i - k) with (S (i - S k)) by lia. reflexivity.
Qed.
Lemma nzs_canonical k l : canonical_row (nzs k l) /\ Forall (fun i => k <= i) (map fst (nzs k l)).
Proof.
  revert k. induction l as [|v l IH]; intros k; cbn [nzs]; [split; constructor|]. destruct (IH (S k)) as [C F].
  assert (F2 : Forall (fun i => k <= i) (map fst (nzs (S k) l))) by (eapply Forall_impl; [|exact F]; cbn; lia).
  destruct (seqb v s0); cbn [app]; [split; assumption|]. split.
  - constructor; [exact C|]. exact F.
  - constructor; [cbn; lia|exact F2].
Qed.
Lemma nzs_snoc l v : nzs 0 (l ++ [v]) = nzs 0 l ++ (if seqb v s0 then [] else [(length l, v)]).
Proof. rewrite nzs_app. cbn. rewrite app_nil_r. reflexivity. Qed.

(** every position of a nonzero element fits the index type *)
Definition cols_fit (a : list (list T)) : Prop := Forall (fun l => Forall (fun e => (Z.of_nat (fst e) <= imax I)%Z) (nzs 0 l)) a.

Lemma push_row (l : list T) c colidx (values : list T) n (get : nat -> res T) : length l = c ->
  (forall j, j < c -> get j = Ok (nth j l s0)) -> Forall (fun e => (Z.of_nat (fst e) <= imax I)%Z) (nzs 0 l) ->
  for_range 0 c (fun j '(colidx, values, idxptr) =>
        let* v := get j in
        if negb (seqb v s0) then
          let* zj := ifrom I j in
          Ok (colidx ++ [zj], values ++ [v], idxptr + 1)
        else Ok (colidx, values, idxptr)) (colidx, values, n) =
  Ok (colidx ++ zfst (nzs 0 l), values ++ map snd (nzs 0 l), n + length (nzs 0 l)).
Proof.
  intros L G F. assert (W : wp (for_range 0 c (fun j '(colidx, values, idxptr) =>
        let* v := get j in
        if negb (seqb v s0) then
          let* zj := ifrom I j in
          Ok (colidx ++ [zj], values ++ [v], idxptr + 1)
        else Ok (colidx, values, idxptr)) (colidx, values, n))
    (eq (colidx ++ zfst (nzs 0 l), values ++ map snd (nzs 0 l), n + length (nzs 0 l)))).
  { eapply (wp_for_list (fun pre s => s = (colidx ++ zfst (nzs 0 pre), values ++ map snd (nzs 0 pre), n + length (nzs 0 pre))) l); [lia| | |].
    - cbn. rewrite !app_nil_r, Nat.add_0_r. reflexivity.
    - intros pre v post s E ->. cbn [plus]. rewrite G by (rewrite <- L, E, app_length; cbn; lia). cbn [bind].
      assert (EN : nth (length pre) l s0 = v) by (rewrite E; apply nth_middle). rewrite EN, nzs_snoc.
      destruct (seqb v s0) eqn:Ev; cbn [negb].
      + rewrite app_nil_r. apply wp_ok. reflexivity.
      + rewrite ifrom_ok.
        * cbn [bind]. apply wp_ok. rewrite zfst_app, map_app, app_length, !app_assoc. cbn. rewrite Nat.add_assoc. reflexivity.
        * rewrite Forall_forall in F. apply (F (length pre, v)). rewrite E, nzs_app. apply in_or_app. right. cbn. rewrite Ev. left. reflexivity.
    - intros s ->. reflexivity. }
  destruct W as (s & -> & <-). reflexivity.
Qed.

Definition rect (c : nat) (a : list (list T)) : Prop := Forall (fun l => length l = c) a.
Lemma concat_fit c a : rect c a -> cols_fit a -> Forall (fun e => fst e < c /\ (Z.of_nat (fst e) <= imax I)%Z) (concat (map (nzs 0) a)).
Proof.
  intros H F. apply Forall_forall. intros e He. apply in_concat in He as (r & Hr & He). apply in_map_iff in Hr as (l & <- & Hl).
  unfold rect in H. unfold cols_fit in F. rewrite Forall_forall in H, F. specialize (H l Hl). specialize (F l Hl). rewrite Forall_forall in F. split; [|apply F, He].
  apply nzs_in in He. lia.
Qed.

Lemma CSR_from_dense_rep a0 a : let A := a0 :: a in let R := map (nzs 0) A in rect (length a0) A -> cols_fit A ->
  (Z.of_nat (length (concat R)) <= imax I)%Z ->
  CSR_from_dense I A = Ok (mkCSR (length A) (length a0) (ptrs R) (zfst (concat R)) (map snd (concat R))).
Proof.
  intros A R HR F Hf. unfold CSR_from_dense. change (vget A 0) with (Ok a0). cbn [bind].
  apply wp_eq, wp_bind.
  eapply (wp_for_list (fun pre s => s = (starts (map (nzs 0) pre), zfst (concat (map (nzs 0) pre)), map snd (concat (map (nzs 0) pre)), length (concat (map (nzs 0) pre)))) A); [reflexivity|reflexivity| |].
    - intros pre l post s E ->. cbn [plus]. rewrite ifrom_ok.
      2:{ unfold R in Hf. rewrite E, map_app, concat_app, app_length in Hf. lia. }
      cbn [bind]. unfold rect in HR. unfold cols_fit in F. rewrite Forall_forall in HR, F. assert (Hl : In l A) by (rewrite E; apply in_elt).
      rewrite (for_range_ext 0 (length a0) _ (fun j '(colidx, values, idxptr) =>
        let* v := vget l j in
        if negb (seqb v s0) then
          let* zj := ifrom I j in
          Ok (colidx ++ [zj], values ++ [v], idxptr + 1)
        else Ok (colidx, values, idxptr))).
      2:{ intros k [[cj vs] n] _. assert (G : vget A (length pre) = Ok l) by (rewrite E; apply vget_some; rewrite nth_error_app2, Nat.sub_diag by lia; reflexivity). rewrite G. reflexivity. }
      rewrite (push_row l (length a0) _ _ _ (vget l) (HR l Hl)); [|intros j Hj; apply vget_nth; rewrite (HR l Hl); exact Hj|apply F, Hl].
      cbn [bind]. apply wp_ok. rewrite (map_app (nzs 0)). cbn [map]. rewrite starts_snoc, concat_app. cbn [concat]. rewrite app_nil_r, zfst_app, map_app, app_length. reflexivity.
    - intros s ->. rewrite ifrom_ok by (fold R; exact Hf). cbn [bind]. fold R. change (starts R ++ [Z.of_nat (length (concat R))]) with (ptrs R).
  assert (CR : csr_rep I (mkCSR (length A) (length a0) (ptrs R) (zfst (concat R)) (map snd (concat R))) R).
  { split; [apply map_length|]. cbn [csr_cols csr_rowptr csr_colidx csr_values]. apply crep_exact; [apply concat_fit; assumption|exact Hf]. }
  apply wp_ok_eq. unfold CSR_prune. cbn [csr_rows csr_cols csr_rowptr csr_colidx csr_values].
  rewrite ptrs_length. unfold R at 1. rewrite map_length. rewrite Nat.add_comm, Nat.eqb_refl. cbn [negb].
  rewrite (CSR_nnz_rep _ _ _ CR). cbn [bind]. unfold zfst. rewrite !map_length, Nat.ltb_irrefl. cbn [unwrap].
  unfold vresize. rewrite !map_length, Nat.sub_diag. cbn [repeat]. rewrite !app_nil_r.
  f_equal. f_equal; rewrite firstn_all2; rewrite ?map_length; reflexivity || lia.
Qed.

Definition columns (c : nat) (a : list (list T)) : list (list T) := map (fun i => map (fun l => nth i l s0) a) (seq 0 c).
Lemma columns_length c a : length (columns c a) = c.
Proof. unfold columns. rewrite map_length, seq_length. reflexivity. Qed.
Lemma columns_elt c a pre l post : columns c a = pre ++ l :: post -> l = map (fun l => nth (length pre) l s0) a.
Proof.
  intros E. assert (H : nth_error (columns c a) (length pre) = Some l) by (rewrite E, nth_error_app2, Nat.sub_diag by lia; reflexivity).
  assert (Hl : length pre < c) by (rewrite <- (columns_length c a), E, app_length; cbn; lia).
  unfold columns in H. rewrite nth_error_map, (nth_error_nth' _ 0) in H by (rewrite seq_length; exact Hl). rewrite seq_nth in H by exact Hl. cbn in H. congruence.
Qed.
Lemma columns_rect c a : rect (length a) (columns c a).
Proof. apply Forall_forall. intros l H. apply in_map_iff in H as (i & <- & _). apply map_length. Qed.

Lemma CSC_from_dense_rep a0 a : let A := a0 :: a in let R := map (nzs 0) (columns (length a0) A) in rect (length a0) A -> cols_fit (columns (length a0) A) ->
  (Z.of_nat (length (concat R)) <= imax I)%Z ->
  CSC_from_dense I A = Ok (mkCSC (length A) (length a0) (zfst (concat R)) (ptrs R) (map snd (concat R))).
Proof.
  intros A R HR F Hf. unfold CSC_from_dense. change (vget A 0) with (Ok a0). cbn [bind].
  apply wp_eq, wp_bind.
  eapply (wp_for_list (fun pre s => s = (starts (map (nzs 0) pre), zfst (concat (map (nzs 0) pre)), map snd (concat (map (nzs 0) pre)), length (concat (map (nzs 0) pre)))) (columns (length a0) A)); [rewrite columns_length; reflexivity|reflexivity| |].
    - intros pre l post s E ->. cbn [plus]. rewrite ifrom_ok.
      2:{ unfold R in Hf. rewrite E, map_app, concat_app, app_length in Hf. lia. }
      cbn [bind]. unfold cols_fit in F. rewrite Forall_forall in F. assert (Hl : In l (columns (length a0) A)) by (rewrite E; apply in_elt).
      pose proof (columns_elt _ _ _ _ _ E) as El.
      assert (Hpre : length pre < length a0) by (rewrite <- (columns_length (length a0) A), E, app_length; cbn; lia).
      rewrite (for_range_ext 0 (length A) _ (fun j '(rowidx, values, idxptr) =>
        let* v := (let* aj := vget A j in vget aj (length pre)) in
        if negb (seqb v s0) then
          let* zj := ifrom I j in
          Ok (rowidx ++ [zj], values ++ [v], idxptr + 1)
        else Ok (rowidx, values, idxptr))).
      2:{ intros k [[cj vs] n] _. destruct (vget A k); reflexivity. }
      rewrite (push_row l (length A)).
      + cbn [bind]. apply wp_ok. rewrite (map_app (nzs 0)). cbn [map]. rewrite starts_snoc, concat_app. cbn [concat]. rewrite app_nil_r, zfst_app, map_app, app_length. reflexivity.
      + rewrite El. apply map_length.
      + intros j Hj. rewrite (vget_nth _ _ []) by exact Hj. cbn [bind]. rewrite (vget_nth _ _ s0).
        * rewrite El. f_equal. symmetry. rewrite (nth_indep _ s0 (nth (length pre) [] s0)) by (rewrite map_length; exact Hj). apply (map_nth (fun l => nth (length pre) l s0)).
        * unfold rect in HR. rewrite Forall_forall in HR. rewrite (HR (nth j A [])) by (apply nth_In, Hj). exact Hpre.
      + apply F, Hl.
    - intros s ->. rewrite ifrom_ok by (fold R; exact Hf). cbn [bind]. fold R. change (starts R ++ [Z.of_nat (length (concat R))]) with (ptrs R).
  assert (CR : csc_rep I (mkCSC (length A) (length a0) (zfst (concat R)) (ptrs R) (map snd (concat R))) R).
  { split; [unfold R; rewrite map_length; apply columns_length|]. cbn [csc_rows csc_colptr csc_rowidx csc_values]. apply crep_exact; [apply concat_fit; [apply columns_rect|assumption]|exact Hf]. }
  apply wp_ok_eq. unfold CSC_prune. cbn [csc_rows csc_cols csc_colptr csc_rowidx csc_values].
  rewrite ptrs_length. unfold R at 1. rewrite map_length, columns_length. rewrite Nat.add_comm, Nat.eqb_refl. cbn [negb].
  rewrite (CSC_nnz_rep _ _ _ CR). cbn [bind]. unfold zfst. rewrite !map_length, Nat.ltb_irrefl.
  rewrite !vslice_ok by (rewrite ?map_length; lia). cbn [bind unwrap skipn]. rewrite Nat.sub_0_r.
  f_equal. f_equal; apply firstn_all2; rewrite map_length; lia.
Qed.
End Push.
