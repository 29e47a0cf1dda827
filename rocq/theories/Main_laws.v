(** Proofs of the theorems of Props_laws.v, under the same names in lower case. *)
From Verif Require Import Rust Scalar Model_kernels Model_matrix Spec SpecMore Wp Rep ScatterProofs CanonProofs ConvProofs
  RingProofs LinProofs Lin2Proofs LinkProofs BinopProofs MatmatProofs ArithProofs PadProofs StructProofs BlockProofs TableProofs SelectProofs DokProofs
  Check Main_convert Main_linear Main_arith Main_struct Main_select Main_dok.

Section Props.
Context {T : Type} {SC : Scalar T}.
Variable I : ity.

Lemma c53_csr_transpose_product : forall a b : CSR T,
  wf_csr I a -> wf_csr I b -> csr_cols a = csr_rows b -> (Z.of_nat (product_count a b) <= imax I)%Z ->
  exists p ta tb tp, CSR_mat_mat I a b = Ok p /\ CSR_t a = Ok ta /\ CSR_t b = Ok tb /\ CSR_t p = Ok tp /\
    CSC_mat_mat I tb ta = Ok tp.
Proof.
  intros a b HA HB E Hf. destruct (c17_csr_mat_mat I a b HA HB E Hf) as (p & Ep & _ & W & _).
  destruct (wf_csr_rep _ _ HA) as [RA RPA], (wf_csr_rep _ _ HB) as [RB RPB], (wf_csr_rep _ _ W) as [RW RPW].
  exists p. eexists _, _, _. split; [exact Ep|]. split; [apply (csr_t_rep _ _ _ RPA)|]. split; [apply (csr_t_rep _ _ _ RPB)|].
  split; [apply (csr_t_rep _ _ _ RPW)|].
  unfold CSR_mat_mat in Ep. unfold CSC_mat_mat, csc_matmat_maxnnz, csc_matmat.
  cbn [csc_rows csc_cols csc_rowidx csc_colptr csc_values]. rewrite E, Nat.eqb_refl in *. cbn [negb] in *.
  destruct (csr_matmat_maxnnz _ _ _ _ _ _) as [k| | |]; cbn [bind] in *; try discriminate.
  destruct (csr_matmat _ _ _ _ _ _ _ _ _ _ _ _) as [[[pp jj] xx]| | |]; cbn [bind] in *; try discriminate.
  rewrite CSC_new_csr, Ep. unfold CSR_new in Ep.
  destruct (negb _); [unfold bad_length in Ep; destruct (Z.eqb _ _); discriminate Ep|]. destruct (usub _ _) as [l| | |]; cbn [bind] in Ep; try discriminate.
  destruct (pget pp l) as [n| | |]; cbn [bind] in Ep; try discriminate.
  destruct (length jj <? n); [discriminate|]. destruct (length xx <? n); [discriminate|]. injection Ep as <-. reflexivity.
Qed.
Lemma c53_csc_transpose_product : forall a b : CSC T,
  wf_csc I a -> wf_csc I b -> csc_cols a = csc_rows b -> (Z.of_nat (csc_product_count a b) <= imax I)%Z ->
  exists p ta tb tp, CSC_mat_mat I a b = Ok p /\ CSC_t a = Ok ta /\ CSC_t b = Ok tb /\ CSC_t p = Ok tp /\
    CSR_mat_mat I tb ta = Ok tp.
Proof.
  intros a b HA HB E Hf. destruct (c18_csc_mat_mat I a b HA HB E Hf) as (p & Ep & _ & W & _).
  destruct (wf_csc_rep _ _ HA) as [RA RPA], (wf_csc_rep _ _ HB) as [RB RPB], (wf_csc_rep _ _ W) as [RW RPW].
  exists p. eexists _, _, _. split; [exact Ep|]. split; [apply (csc_t_rep _ _ _ RPA)|]. split; [apply (csc_t_rep _ _ _ RPB)|].
  split; [apply (csc_t_rep _ _ _ RPW)|].
  unfold CSC_mat_mat, csc_matmat_maxnnz, csc_matmat in Ep. unfold CSR_mat_mat.
  cbn [csr_rows csr_cols csr_rowptr csr_colidx csr_values]. rewrite E, Nat.eqb_refl in *. cbn [negb] in *.
  destruct (csr_matmat_maxnnz _ _ _ _ _ _) as [k| | |]; cbn [bind] in *; try discriminate.
  destruct (csr_matmat _ _ _ _ _ _ _ _ _ _ _ _) as [[[pp jj] xx]| | |]; cbn [bind] in *; try discriminate.
  unfold CSC_new in Ep. unfold CSR_new.
  destruct (negb _); [unfold bad_length in Ep; destruct (Z.eqb _ _); discriminate Ep|]. destruct (usub _ _) as [l| | |]; cbn [bind] in *; try discriminate.
  destruct (pget pp l) as [n| | |]; cbn [bind] in *; try discriminate.
  destruct (length jj <? n); [discriminate|]. destruct (length xx <? n); [discriminate|]. injection Ep as <-. reflexivity.
Qed.

Lemma csr_exact_tight (r : CSR T) : wf_csr I r -> csr_tight r -> csr_exact r.
Proof.
  intros H [T1 T2]. destruct (wf_csr_rep _ _ H) as [R HR]. exists (csr_count r).
  rewrite (CSR_nnz_rep _ _ _ HR), (csr_rep_count _ _ _ HR) in *. sp; assumption.
Qed.
Lemma csc_exact_tight (r : CSC T) : wf_csc I r -> csc_tight r -> csc_exact r.
Proof.
  intros H [T1 T2]. destruct (wf_csc_rep _ _ H) as [R HR]. exists (csc_count r).
  rewrite (CSC_nnz_rep _ _ _ HR), (csc_rep_count _ _ _ HR) in *. sp; assumption.
Qed.
Lemma c55_conversions_exact :
  (forall (m : Coo T) r, wf_coo I m -> (Z.of_nat (length (coo_values m)) < imax I)%Z -> Coo_to_csr I m = Ok r -> csr_exact r) /\
  (forall (m : Coo T) r, wf_coo I m -> (Z.of_nat (length (coo_values m)) < imax I)%Z -> Coo_to_csc I m = Ok r -> csc_exact r) /\
  (forall (m : CSR T) r, wf_csr I m -> csr_rows_fit I m -> CSR_to_csc I m = Ok r -> csc_exact r) /\
  (forall (m : CSC T) r, wf_csc I m -> csc_cols_fit I m -> CSC_to_csr I m = Ok r -> csr_exact r).
Proof.
  repeat split.
  - intros m r H F E. destruct (c01_coo_to_csr I m H F) as (r' & E' & W & Tt & _). rewrite E in E'. injection E' as <-. apply csr_exact_tight; assumption.
  - intros m r H F E. destruct (c02_coo_to_csc I m H F) as (r' & E' & W & Tt & _). rewrite E in E'. injection E' as <-. apply csc_exact_tight; assumption.
  - intros m r H F E. destruct (c03_csr_to_csc I m H F) as (r' & E' & W & Tt & _). rewrite E in E'. injection E' as <-. apply csc_exact_tight; assumption.
  - intros m r H F E. destruct (c04_csc_to_csr I m H F) as (r' & E' & W & Tt & _). rewrite E in E'. injection E' as <-. apply csr_exact_tight; assumption.
Qed.
Lemma c55_construction_exact :
  (forall (a : list (list T)) c r, a <> [] -> rectangular c a -> nz_cols_fit I c a -> (Z.of_nat (nz_count a) <= imax I)%Z ->
     CSR_from_dense I a = Ok r -> csr_exact r) /\
  (forall (a : list (list T)) c r, a <> [] -> rectangular c a -> nz_rows_fit I c a -> (Z.of_nat (nz_count a) <= imax I)%Z ->
     CSC_from_dense I a = Ok r -> csc_exact r) /\
  (forall (d : list T) r, (Z.of_nat (length d) <= imax I)%Z -> CSR_with_diagonal I d = Ok r -> csr_exact r) /\
  (forall (d : list T) r, (Z.of_nat (length d) <= imax I)%Z -> CSC_with_diagonal I d = Ok r -> csc_exact r).
Proof.
  repeat split.
  - intros a c r N H F G E. destruct (c10_csr_from_dense I a c N H F G) as (r' & E' & W & Tt & _). rewrite E in E'. injection E' as <-. apply csr_exact_tight; assumption.
  - intros a c r N H F G E. destruct (c10_csc_from_dense I a c N H F G) as (r' & E' & W & Tt & _). rewrite E in E'. injection E' as <-. apply csc_exact_tight; assumption.
  - intros d r F E. destruct (proj1 (c30_csr_with_diagonal I d) F) as (r' & E' & W & Tt & _). rewrite E in E'. injection E' as <-. apply csr_exact_tight; assumption.
  - intros d r F E. destruct (proj1 (c30_csc_with_diagonal I d) F) as (r' & E' & W & Tt & _). rewrite E in E'. injection E' as <-. apply csc_exact_tight; assumption.
Qed.
Lemma c55_unused_is_zero :
  (forall a b r : CSR T, CSR_add I a b = Ok r \/ CSR_sub I a b = Ok r \/ CSR_mat_mat I a b = Ok r ->
     filled 0%Z (csr_count r) (csr_colidx r) /\ filled s0 (csr_count r) (csr_values r)) /\
  (forall a b r : CSC T, CSC_op_add I a b = Ok r \/ CSC_mat_mat I a b = Ok r ->
     filled 0%Z (csc_count r) (csc_rowidx r) /\ filled s0 (csc_count r) (csc_values r)).
Proof.
  split.
  - intros a b r [E|[E|E]]; [apply (CSR_add_spare I a b r E)|apply (CSR_sub_spare I a b r E)|apply (CSR_mat_mat_spare I a b r E)].
  - intros a b r [E|E]; [apply (CSC_op_add_spare I a b r E)|apply (CSC_mat_mat_spare I a b r E)].
Qed.

Lemma c55_select_exact : forall (m : CSR T) rs cs r,
  wf_csr I m -> (Z.of_nat (csr_count m) < imax I)%Z -> (Z.of_nat (csr_rows m) <= imax I)%Z -> (Z.of_nat (csr_cols m) <= imax I)%Z ->
  let rl := picked (csr_rows m) rs in let cl := picked (csr_cols m) cs in
  (Z.of_nat (length cl) <= imax I + 1)%Z ->
  (Z.of_nat (list_sum (map (fun i => list_sum (map (fun j => length (csr_at m i j)) cl)) rl)) <= imax I)%Z ->
  CSR_select I m rs cs = Ok r -> csr_exact r.
Proof.
  intros m rs cs r H Hf Hr Hc rl cl Hl Hn E. destruct (c31_csr_select_refuses I m rs cs H Hf Hr Hc) as [N1 N2].
  destruct (wf_csr_rep _ _ H) as [R HR].
  assert (Cd : csr_canonical m \/ ~ csr_canonical m).
  { destruct (c11_csr_has_canonical_format I m H Hf) as (b & _ & Hb). destruct b; [left; apply Hb; reflexivity|right; intros C; apply Hb in C; discriminate]. }
  destruct Cd as [C|C]; [|rewrite (N1 C) in E; discriminate].
  destruct (picked_ok_dec (csr_rows m) rs) as [O1|O1]; [|rewrite N2 in E by tauto; discriminate].
  destruct (picked_ok_dec (csr_cols m) cs) as [O2|O2]; [|rewrite N2 in E by tauto; discriminate].
  destruct (c31_csr_select I m rs cs H Hf Hr Hc C O1 O2 Hl Hn) as (r' & E' & _ & _ & W & Tt & _). rewrite E in E'. injection E' as <-. apply csr_exact_tight; assumption.
Qed.
Lemma c55_sum_duplicates_exact :
  (forall m r : CSR T, wf_csr I m -> (Z.of_nat (csr_count m) < imax I)%Z -> csr_exact m -> CSR_sum_duplicates I m = Ok r -> csr_exact r) /\
  (forall m r : CSC T, wf_csc I m -> (Z.of_nat (csc_count m) < imax I)%Z -> csc_exact m -> CSC_sum_duplicates I m = Ok r -> csc_exact r).
Proof.
  split.
  - intros m r H F (n & N & L1 & L2) E. destruct (c14_csr_sum_duplicates I m H F) as (r' & E' & W & _ & _ & _ & _ & _ & Tt & _). rewrite E in E'. injection E' as <-.
    apply csr_exact_tight; [exact W|]. apply Tt. left. destruct (wf_csr_rep _ _ H) as [R HR]. unfold csr_tight. rewrite (CSR_nnz_rep _ _ _ HR) in N. rewrite (csr_rep_count _ _ _ HR). injection N as ->. auto.
  - intros m r H F (n & N & L1 & L2) E. destruct (c14_csc_sum_duplicates I m H F) as (r' & E' & W & _ & _ & _ & _ & _ & Tt & _). rewrite E in E'. injection E' as <-.
    apply csc_exact_tight; [exact W|]. apply Tt. left. destruct (wf_csc_rep _ _ H) as [R HR]. unfold csc_tight. rewrite (CSC_nnz_rep _ _ _ HR) in N. rewrite (csc_rep_count _ _ _ HR). injection N as ->. auto.
Qed.

Lemma sorted_flat_at {B} c (r : list (nat * T)) (f : nat -> T -> list B) : sorted_row r -> Forall (fun e => fst e < c) r ->
  flat_map (fun e => f (fst e) (snd e)) r = flat_map (fun q => flat_map (f q) (at_ q r)) (seq 0 c).
Proof.
  intros S F. rewrite (sorted_by_col c r S F) at 1. induction (seq 0 c) as [|q l IH]; [reflexivity|]. cbn [flat_map]. rewrite flat_map_app, IH. f_equal.
  induction (at_ q r) as [|v w IW]; [reflexivity|]. cbn. rewrite IW. reflexivity.
Qed.
Lemma at_nonempty k (r : list (nat * T)) : existsb (fun e => fst e =? k) r = (0 <? length (at_ k r)).
Proof.
  unfold at_. rewrite map_length. induction r as [|e r IH]; [reflexivity|]. cbn [existsb filter]. destruct (fst e =? k); cbn [orb length]; [reflexivity|exact IH].
Qed.
Lemma existsb_flat_at c (r : list (nat * T)) (f : nat -> bool) : Forall (fun e => fst e < c) r ->
  existsb (fun e => f (fst e)) r = existsb (fun q => f q && (0 <? length (at_ q r))) (seq 0 c).
Proof.
  intros F. apply Bool.eq_iff_eq_true. rewrite !existsb_exists. split.
  - intros (e & He & Hf). exists (fst e). rewrite Forall_forall in F. split; [apply in_seq; specialize (F e He); lia|]. rewrite Hf. cbn [andb].
    rewrite <- at_nonempty. apply existsb_exists. exists e. split; [exact He|apply Nat.eqb_refl].
  - intros (q & _ & Hq). apply andb_prop in Hq as [Hf Hq]. rewrite <- at_nonempty in Hq. apply existsb_exists in Hq as (e & He & E). apply Nat.eqb_eq in E. subst q. exists e. auto.
Qed.
Lemma csc_col_lt (m : CSC T) k : wf_csc I m -> k < csc_cols m -> Forall (fun e => fst e < csc_rows m) (csc_col m k).
Proof.
  intros W Hk. destruct (wf_csc_rep _ _ W) as [Rb HRb]. rewrite (csc_rep_col _ _ _ _ HRb). pose proof (crep_cols_lt _ _ _ _ _ _ (proj2 HRb)) as G. rewrite Forall_forall in G.
  destruct HRb as [L _]. apply G, nth_In. lia.
Qed.
Lemma mixed_count_csc (a : CSC T) (b : CSR T) (bc : CSC T) : wf_csc I bc -> csc_rows bc = csr_rows b -> csc_cols bc = csr_cols b ->
  (forall i j, j < csr_cols b -> csc_at bc i j = csr_at b i j) -> csc_product_count a bc = mixed_count a b.
Proof.
  intros Wb R1 R2 Ab. unfold csc_product_count, mixed_count. rewrite R2. f_equal. apply map_ext_in. intros k Hk. apply in_seq in Hk. f_equal. apply filter_ext. intros i.
  unfold csc_meets, mixed_meets. rewrite <- R1. rewrite (existsb_flat_at (csc_rows bc) _ (fun q => existsb (fun f => fst f =? i) (csc_col a q))) by (apply csc_col_lt; [exact Wb|lia]).
  generalize (seq 0 (csc_rows bc)). intros l. induction l as [|q l IH]; [reflexivity|]. cbn [existsb]. rewrite IH. f_equal. rewrite at_nonempty. fold (csc_at a i q). fold (csc_at bc q k). rewrite Ab by lia. reflexivity.
Qed.
Lemma c60_csc_mul_csr : forall (a : CSC T) (b : CSR T),
  wf_csc I a -> wf_csr I b -> csr_rows_fit I b -> csc_cols a = csr_rows b ->
  (Z.of_nat (mixed_count a b) <= imax I)%Z ->
  exists r, CSC_mul_csr I a b = Ok r /\
    wf_csc I r /\ csc_rows r = csc_rows a /\ csc_cols r = csr_cols b /\ csc_nodup r /\ csc_nonzero r /\
    forall i k, i < csc_rows a -> k < csr_cols b ->
      let prods := flat_map (fun j => flat_map (fun v => map (fun u => smul v u) (csc_at a i j)) (csr_at b j k)) (seq 0 (csr_rows b)) in
      csc_at r i k = keep prods (sum0 prods).
Proof.
  intros a b HA HB F E Hf. destruct (c03_csr_to_csc I b HB F) as (bc & Eb & Wb & _ & R1 & R2 & Sb & Ab & _).
  assert (Lt : forall k, k < csr_cols b -> Forall (fun e => fst e < csc_rows bc) (csc_col bc k)) by (intros k Hk; apply csc_col_lt; [exact Wb|lia]).
  pose proof (mixed_count_csc a b bc Wb R1 R2 Ab) as Ct.
  destruct (c18_csc_mat_mat I a bc HA Wb) as (r & Er & Er2 & W & D1 & D2 & N & Nz & A); [congruence|rewrite Ct; exact Hf|].
  exists r. split; [unfold CSC_mul_csr; rewrite Eb; exact Er2|]. split; [exact W|]. split; [exact D1|].
  split; [congruence|]. split; [exact N|]. split; [exact Nz|].
  intros i k Hi Hk prods. rewrite A by congruence.
  assert (P : csc_products a bc i k = prods); [|rewrite P; reflexivity].
  unfold csc_products, prods.
  rewrite <- R1. rewrite (sorted_flat_at (csc_rows bc) (csc_col bc k) (fun j v => map (fun u => smul v u) (csc_at a i j))).
  - apply flat_map_ext_in'. intros j Hj. apply in_seq in Hj. fold (csc_at bc j k). rewrite Ab by exact Hk. reflexivity.
  - apply Sb. congruence.
  - apply Lt, Hk.
Qed.
End Props.

Section Ring.
Context {T : Type} {SC : Scalar T} {SN : ScalarNeg T} {ER : ExactRing T}.
Variable I : ity.
Add Ring TR : (er_ring (T := T)).

Lemma perm_filter' {A} (f : A -> bool) l k : Permutation l k -> Permutation (filter f l) (filter f k).
Proof.
  induction 1; cbn; [constructor|destruct (f x); [constructor|]; assumption| |eapply perm_trans; eassumption].
  destruct (f x), (f y); try constructor; apply Permutation_refl.
Qed.
Lemma count_le_len (m : CSR T) : wf_csr I m -> csr_count m <= length (csr_colidx m).
Proof. intros H. apply (wf_jlen _ _ _ _ _ _ H). Qed.
Lemma add_facts (a b : CSR T) : wf_csr I a -> wf_csr I b -> csr_rows b = csr_rows a -> csr_cols b = csr_cols a ->
  (Z.of_nat (csr_count a + csr_count b) < imax I)%Z ->
  exists s, CSR_add I a b = Ok s /\ wf_csr I s /\ csr_rows s = csr_rows a /\ csr_cols s = csr_cols a /\ csr_count s <= csr_count a + csr_count b /\
    csr_entrywise sum0 sadd a b s /\ forall i j, i < csr_rows a -> csr_val s i j = sadd (csr_val a i j) (csr_val b i j).
Proof.
  intros HA HB E1 E2 Hf. destruct (c19_csr_add I a b HA HB E1 E2 Hf) as (s & Es & W & R1 & R2 & _).
  destruct (c19_csr_sum I a b HA HB E1 E2 Hf) as (s' & d' & Es' & _ & V). rewrite Es in Es'. injection Es' as <-.
  destruct (c19_csr_entrywise I a b HA HB E1 E2 Hf) as (s' & d2 & Es' & _ & En & _). rewrite Es in Es'. injection Es' as <-.
  pose proof (proj1 (proj1 (c55_csr_add_capacity I a b HA HB E1 E2 Hf) s Es)) as L. pose proof (count_le_len s W).
  exists s. sp; try assumption; [lia|]. intros i j Hi. apply V, Hi.
Qed.
Lemma sub_facts (a b : CSR T) : wf_csr I a -> wf_csr I b -> csr_rows b = csr_rows a -> csr_cols b = csr_cols a ->
  (Z.of_nat (csr_count a + csr_count b) < imax I)%Z ->
  exists s, CSR_sub I a b = Ok s /\ wf_csr I s /\ csr_rows s = csr_rows a /\ csr_cols s = csr_cols a /\ csr_count s <= csr_count a + csr_count b /\
    forall i j, i < csr_rows a -> csr_val s i j = ssub (csr_val a i j) (csr_val b i j).
Proof.
  intros HA HB E1 E2 Hf. destruct (c19_csr_sub I a b HA HB E1 E2 Hf) as (s & Es & W & R1 & R2 & _).
  destruct (c19_csr_sum I a b HA HB E1 E2 Hf) as (s' & d' & _ & Es' & V). rewrite Es in Es'. injection Es' as <-.
  pose proof (proj1 (proj2 (c55_csr_add_capacity I a b HA HB E1 E2 Hf) s Es)) as L. pose proof (count_le_len s W).
  exists s. sp; try assumption; [lia|]. intros i j Hi. apply V, Hi.
Qed.
Lemma mul_facts (a b : CSR T) : wf_csr I a -> wf_csr I b -> csr_cols a = csr_rows b -> (Z.of_nat (product_count a b) <= imax I)%Z ->
  exists p, CSR_mat_mat I a b = Ok p /\ wf_csr I p /\ csr_rows p = csr_rows a /\ csr_cols p = csr_cols b /\ csr_count p <= product_count a b /\
    forall i k, i < csr_rows a -> csr_val p i k = rsum (csr_cols a) (fun j => smul (csr_val a i j) (csr_val b j k)).
Proof.
  intros HA HB E Hf. destruct (c17_csr_mat_mat I a b HA HB E Hf) as (p & Ep & _ & W & R1 & R2 & _).
  pose proof (proj1 (c55_csr_mat_mat_capacity I a b HA HB E Hf p Ep)) as L. pose proof (count_le_len p W).
  exists p. sp; try assumption; [lia|]. apply (c17_csr_product I a b p HA HB E Hf Ep).
Qed.
Lemma nth_vplus (x y : list T) i : length x = length y -> i < length x -> nth i (vplus x y) s0 = sadd (nth i x s0) (nth i y s0).
Proof.
  intros E H. unfold vplus. rewrite (nth_indep _ s0 (sadd (fst (s0, s0)) (snd (s0, s0)))) by (rewrite map_length, combine_length; lia).
  rewrite (map_nth (fun e => sadd (fst e) (snd e))), combine_nth by exact E. reflexivity.
Qed.
Lemma vplus_length (x y : list T) : length x = length y -> length (vplus x y) = length x.
Proof. intros E. unfold vplus. rewrite map_length, combine_length. lia. Qed.

Lemma c53_add_mat_vec : forall (a b : CSR T) x, wf_csr I a -> wf_csr I b -> csr_rows b = csr_rows a -> csr_cols b = csr_cols a ->
  (Z.of_nat (csr_count a + csr_count b) < imax I)%Z -> length x = csr_cols a ->
  exists s ya yb, CSR_add I a b = Ok s /\ CSR_mat_vec a x = Ok ya /\ CSR_mat_vec b x = Ok yb /\ CSR_mat_vec s x = Ok (vplus ya yb).
Proof.
  intros a b x HA HB E1 E2 Hf Hx. destruct (add_facts a b HA HB E1 E2 Hf) as (s & Es & W & R1 & R2 & _ & _ & V).
  destruct (c15_csr_mat_vec_ring I a x HA Hx) as (ya & Ea & La & Ga).
  destruct (c15_csr_mat_vec_ring I b x HB) as (yb & Eb & Lb & Gb); [congruence|].
  destruct (c15_csr_mat_vec_ring I s x W) as (y & Ey & Ly & Gy); [congruence|].
  exists s, ya, yb. sp; try assumption. rewrite Ey. f_equal. apply (nth_ext _ _ s0 s0); [rewrite vplus_length; congruence|].
  intros i Hi. assert (Hr : i < csr_rows a) by lia. rewrite nth_vplus by congruence. rewrite Gy, Ga, Gb by lia. rewrite R2, E2, <- rsum_add. apply rsum_ext. intros j _. rewrite V by exact Hr. ring.
Qed.
Lemma c53_mat_vec_additive : forall (a : CSR T) x y, wf_csr I a -> length x = csr_cols a -> length y = csr_cols a ->
  exists u v, CSR_mat_vec a x = Ok u /\ CSR_mat_vec a y = Ok v /\ CSR_mat_vec a (vplus x y) = Ok (vplus u v).
Proof.
  intros a x y HA Hx Hy. destruct (c15_csr_mat_vec_ring I a x HA Hx) as (u & Eu & Lu & Gu). destruct (c15_csr_mat_vec_ring I a y HA Hy) as (v & Ev & Lv & Gv).
  destruct (c15_csr_mat_vec_ring I a (vplus x y) HA) as (w & Ew & Lw & Gw); [rewrite vplus_length; congruence|].
  exists u, v. sp; try assumption. rewrite Ew. f_equal. apply (nth_ext _ _ s0 s0); [rewrite vplus_length; congruence|].
  intros i Hi. assert (Hr : i < csr_rows a) by lia. rewrite nth_vplus by congruence. rewrite Gu, Gv, Gw by exact Hr. rewrite <- rsum_add. apply rsum_ext. intros j Hj. rewrite nth_vplus by congruence. ring.
Qed.
Lemma c53_mat_mat_vec : forall (a b : CSR T) x, wf_csr I a -> wf_csr I b -> csr_cols a = csr_rows b ->
  (Z.of_nat (product_count a b) <= imax I)%Z -> length x = csr_cols b ->
  exists p y z, CSR_mat_mat I a b = Ok p /\ CSR_mat_vec b x = Ok y /\ CSR_mat_vec a y = Ok z /\ CSR_mat_vec p x = Ok z.
Proof.
  intros a b x HA HB E Hf Hx. destruct (mul_facts a b HA HB E Hf) as (p & Ep & W & R1 & R2 & _ & V).
  destruct (c15_csr_mat_vec_ring I b x HB Hx) as (y & Ey & Ly & Gy).
  destruct (c15_csr_mat_vec_ring I a y HA) as (z & Ez & Lz & Gz); [congruence|].
  destruct (c15_csr_mat_vec_ring I p x W) as (z' & Ez' & Lz' & Gz'); [congruence|].
  exists p, y, z. sp; try assumption. rewrite Ez'. f_equal. apply (nth_ext _ _ s0 s0); [congruence|].
  intros i Hi. assert (Hr : i < csr_rows a) by lia. rewrite Gz, Gz' by lia. rewrite R2.
  transitivity (rsum (csr_cols b) (fun k => rsum (csr_cols a) (fun j => smul (smul (csr_val a i j) (csr_val b j k)) (nth k x s0)))).
  - apply rsum_ext. intros k _. rewrite V by exact Hr. symmetry. apply (rsum_mul_r (csr_cols a) (fun j => smul (csr_val a i j) (csr_val b j k))).
  - rewrite rsum_swap. apply rsum_ext. intros j Hj. rewrite Gy by lia. rewrite <- rsum_mul_l. apply rsum_ext. intros k _. ring.
Qed.
Lemma c53_add_comm : forall (a b : CSR T), wf_csr I a -> wf_csr I b -> csr_rows b = csr_rows a -> csr_cols b = csr_cols a ->
  (Z.of_nat (csr_count a + csr_count b) < imax I)%Z ->
  exists s t, CSR_add I a b = Ok s /\ CSR_add I b a = Ok t /\ csr_same s t /\ forall i j, i < csr_rows a -> csr_at s i j = csr_at t i j.
Proof.
  intros a b HA HB E1 E2 Hf. destruct (add_facts a b HA HB E1 E2 Hf) as (s & Es & W & R1 & R2 & _ & En & V).
  destruct (add_facts b a HB HA (eq_sym E1) (eq_sym E2)) as (t & Et & W2 & S1 & S2 & _ & Fn & U); [lia|].
  exists s, t. sp; try assumption; try congruence.
  - split; [congruence|]. split; [congruence|]. intros i j Hi. rewrite V, U by congruence. ring.
  - intros i j Hi. rewrite (En i j Hi), (Fn i j) by congruence. unfold keep.
    replace (sadd (sum0 (csr_at b i j)) (sum0 (csr_at a i j))) with (sadd (sum0 (csr_at a i j)) (sum0 (csr_at b i j))) by ring.
    destruct (csr_at a i j), (csr_at b i j); reflexivity.
Qed.
Lemma c53_add_assoc : forall (a b c : CSR T), wf_csr I a -> wf_csr I b -> wf_csr I c ->
  csr_rows b = csr_rows a -> csr_cols b = csr_cols a -> csr_rows c = csr_rows a -> csr_cols c = csr_cols a ->
  (Z.of_nat (csr_count a + csr_count b + csr_count c) < imax I)%Z ->
  exists ab bc s t, CSR_add I a b = Ok ab /\ CSR_add I b c = Ok bc /\ CSR_add I ab c = Ok s /\ CSR_add I a bc = Ok t /\ csr_same s t.
Proof.
  intros a b c HA HB HC E1 E2 E3 E4 Hf.
  destruct (add_facts a b) as (ab & E & W & R1 & R2 & N & _ & V); try assumption; [lia|].
  destruct (add_facts b c) as (bc & F & X & S1 & S2 & M & _ & U); try assumption; try congruence; [lia|].
  destruct (add_facts ab c) as (s & Es & Ws & P1 & P2 & _ & _ & Vs); try assumption; try congruence; [lia|].
  destruct (add_facts a bc) as (t & Et & Wt & Q1 & Q2 & _ & _ & Vt); try assumption; try congruence; [lia|].
  exists ab, bc, s, t. sp; try assumption. split; [congruence|]. split; [congruence|]. intros i j Hi. rewrite Vs, Vt, V, U by congruence. ring.
Qed.
Lemma c53_sub_add : forall (a b : CSR T), wf_csr I a -> wf_csr I b -> csr_rows b = csr_rows a -> csr_cols b = csr_cols a ->
  (Z.of_nat (csr_count a + 2 * csr_count b) < imax I)%Z ->
  exists d s, CSR_sub I a b = Ok d /\ CSR_add I d b = Ok s /\ csr_same s a.
Proof.
  intros a b HA HB E1 E2 Hf. destruct (sub_facts a b) as (d & Ed & W & R1 & R2 & N & V); try assumption; [lia|].
  destruct (add_facts d b) as (s & Es & Ws & P1 & P2 & _ & _ & Vs); try assumption; try congruence; [lia|].
  exists d, s. sp; try assumption. split; [congruence|]. split; [congruence|]. intros i j Hi. rewrite Vs, V by congruence. ring.
Qed.
Lemma c53_add_neg : forall (a : CSR T), wf_csr I a -> (Z.of_nat (csr_count a + csr_count a) < imax I)%Z ->
  exists n s d, CSR_neg a = Ok n /\ CSR_add I a n = Ok s /\ CSR_sub I a a = Ok d /\ CSR_nnz s = Ok 0 /\ CSR_nnz d = Ok 0.
Proof.
  intros a HA Hf. destruct (wf_csr_rep _ _ HA) as [R HR].
  assert (Sz : csr_sized a).
  { unfold csr_sized. destruct HA. sp; try assumption. assert (G : forall i, i <= csr_rows a -> (0 <= nth i (csr_rowptr a) 0)%Z); [|apply G; lia].
    induction i as [|i IH]; intros Hi; [lia|]. specialize (wf_mono i ltac:(lia)). specialize (IH ltac:(lia)). lia. }
  destruct (c23_csr_neg a Sz) as (n & En & M1 & M2 & M3 & M4 & M5 & M6).
  assert (Wn : wf_csr I n).
  { destruct HA. constructor; rewrite ?M1, ?M2, ?M3, ?M4, ?M5, ?map_length; assumption. }
  assert (Cn : csr_count n = csr_count a) by (unfold csr_count; rewrite M1, M3; reflexivity).
  assert (Em : forall s, wf_csr I s -> csr_nonzero s -> (forall i j, i < csr_rows s -> csr_val s i j = s0) -> csr_nodup s -> CSR_nnz s = Ok 0).
  { intros s Ws Nz V ND. destruct (wf_csr_rep _ _ Ws) as [Q HQ]. rewrite (CSR_nnz_rep _ _ _ HQ). f_equal.
    assert (G : forall r, In r Q -> r = []).
    { intros r Hr. destruct (In_nth Q r [] Hr) as (i & Hi & <-). assert (Hi' : i < csr_rows s) by (destruct HQ; lia).
      destruct (nth i Q []) as [|[k v] w] eqn:Eq; [reflexivity|]. exfalso.
      assert (Hrow : csr_row s i = (k, v) :: w) by (rewrite (csr_rep_row _ _ _ _ HQ); exact Eq).
      specialize (Nz i v Hi'). specialize (V i k Hi'). specialize (ND i Hi'). unfold csr_val, csr_at in V. rewrite Hrow in *. unfold nodup_row in ND. cbn [map fst] in ND. inversion ND; subst.
      rewrite at_cons in V. cbn [fst snd] in V. rewrite Nat.eqb_refl, at_not_in in V by assumption. cbn [app] in V. rewrite sum0_cons, sum0_nil in V.
      specialize (Nz ltac:(left; reflexivity)). assert (v = s0) as -> by (rewrite <- V; ring). pose proof (proj2 (er_eqb (s0 : T) s0) eq_refl). congruence. }
    destruct Q as [|r Q]; [reflexivity|]. clear - G. induction (r :: Q) as [|q l IH]; [reflexivity|]. cbn [concat]. rewrite (G q) by (left; reflexivity). apply IH. intros; apply G; right; assumption. }
  destruct (c19_csr_add I a n HA Wn M1 M2) as (s & Es & Ws & P1 & P2 & N1 & Z1 & _); [lia|].
  destruct (add_facts a n HA Wn M1 M2) as (s' & Es' & _ & _ & _ & _ & _ & V); [lia|]. rewrite Es in Es'. injection Es' as <-.
  destruct (c19_csr_sub I a a HA HA eq_refl eq_refl Hf) as (d & Ed & Wd & Q1 & Q2 & N2 & Z2 & _).
  destruct (sub_facts a a HA HA eq_refl eq_refl Hf) as (d' & Ed' & _ & _ & _ & _ & U). rewrite Ed in Ed'. injection Ed' as <-.
  exists n, s, d. sp; try assumption.
  - apply Em; try assumption. intros i j Hi. rewrite V by congruence. unfold csr_val. rewrite M6, sum0_map_opp. ring.
  - apply Em; try assumption. intros i j Hi. rewrite U by congruence. ring.
Qed.
Lemma c53_product_assoc : forall (a b c ab bc : CSR T), wf_csr I a -> wf_csr I b -> wf_csr I c ->
  csr_cols a = csr_rows b -> csr_cols b = csr_rows c ->
  (Z.of_nat (product_count a b) <= imax I)%Z -> (Z.of_nat (product_count b c) <= imax I)%Z ->
  CSR_mat_mat I a b = Ok ab -> CSR_mat_mat I b c = Ok bc ->
  (Z.of_nat (product_count ab c) <= imax I)%Z -> (Z.of_nat (product_count a bc) <= imax I)%Z ->
  exists s t, CSR_mat_mat I ab c = Ok s /\ CSR_mat_mat I a bc = Ok t /\ csr_same s t.
Proof.
  intros a b c ab bc HA HB HC D1 D2 F1 F2 Eab Ebc F3 F4.
  destruct (mul_facts a b HA HB D1 F1) as (x & Ex & Wx & X1 & X2 & _ & Vx). rewrite Eab in Ex. injection Ex as <-.
  destruct (mul_facts b c HB HC D2 F2) as (x & Ex & Wy & Y1 & Y2 & _ & Vy). rewrite Ebc in Ex. injection Ex as <-.
  destruct (mul_facts ab c Wx HC) as (s & Es & Ws & S1 & S2 & _ & Vs); try assumption; try congruence.
  destruct (mul_facts a bc HA Wy) as (t & Et & Wt & T1 & T2 & _ & Vt); try assumption; try congruence.
  exists s, t. split; [exact Es|]. split; [exact Et|]. split; [congruence|]. split; [congruence|]. intros i k Hi.
  rewrite Vs, Vt by congruence. rewrite X2.
  transitivity (rsum (csr_cols b) (fun j => rsum (csr_cols a) (fun l => smul (smul (csr_val a i l) (csr_val b l j)) (csr_val c j k)))).
  - apply rsum_ext. intros j _. rewrite Vx by congruence. symmetry. apply (rsum_mul_r (csr_cols a) (fun l => smul (csr_val a i l) (csr_val b l j))).
  - rewrite rsum_swap. apply rsum_ext. intros l Hl. rewrite Vy by congruence. rewrite <- rsum_mul_l. apply rsum_ext. intros j _. ring.
Qed.
Lemma c53_distributes : forall (a b c s : CSR T), wf_csr I a -> wf_csr I b -> wf_csr I c ->
  csr_cols a = csr_rows b -> csr_rows c = csr_rows b -> csr_cols c = csr_cols b ->
  (Z.of_nat (csr_count b + csr_count c) < imax I)%Z -> CSR_add I b c = Ok s ->
  (Z.of_nat (product_count a s) <= imax I)%Z -> (Z.of_nat (product_count a b + product_count a c) < imax I)%Z ->
  exists ab ac l r, CSR_mat_mat I a b = Ok ab /\ CSR_mat_mat I a c = Ok ac /\ CSR_mat_mat I a s = Ok l /\ CSR_add I ab ac = Ok r /\ csr_same l r.
Proof.
  intros a b c s HA HB HC D1 D2 D3 F1 Es F2 F3.
  destruct (add_facts b c HB HC D2 D3 F1) as (x & Ex & Ws & S1 & S2 & _ & _ & V). rewrite Es in Ex. injection Ex as <-.
  destruct (mul_facts a b HA HB) as (ab & Eab & Wab & X1 & X2 & X3 & Vab); try assumption; try congruence; [lia|].
  destruct (mul_facts a c HA HC) as (ac & Eac & Wac & Y1 & Y2 & Y3 & Vac); try assumption; try congruence; [lia|].
  destruct (mul_facts a s HA Ws) as (l & El & Wl & L1 & L2 & _ & Vl); try assumption; try congruence.
  destruct (add_facts ab ac Wab Wac) as (r & Er & Wr & R1 & R2 & _ & _ & Vr); try congruence; [lia|].
  exists ab, ac, l, r. sp; try assumption. split; [congruence|]. split; [congruence|]. intros i k Hi.
  rewrite Vl, Vr, Vab, Vac by congruence. rewrite <- rsum_add. apply rsum_ext. intros j Hj. rewrite V by congruence. ring.
Qed.
Lemma c53_distributes_right : forall (a b c s : CSR T), wf_csr I a -> wf_csr I b -> wf_csr I c ->
  csr_cols b = csr_rows a -> csr_rows c = csr_rows b -> csr_cols c = csr_cols b ->
  (Z.of_nat (csr_count b + csr_count c) < imax I)%Z -> CSR_add I b c = Ok s ->
  (Z.of_nat (product_count s a) <= imax I)%Z -> (Z.of_nat (product_count b a + product_count c a) < imax I)%Z ->
  exists ba ca l r, CSR_mat_mat I b a = Ok ba /\ CSR_mat_mat I c a = Ok ca /\ CSR_mat_mat I s a = Ok l /\ CSR_add I ba ca = Ok r /\ csr_same l r.
Proof.
  intros a b c s HA HB HC D1 D2 D3 F1 Es F2 F3.
  destruct (add_facts b c HB HC D2 D3 F1) as (x & Ex & Ws & S1 & S2 & _ & _ & V). rewrite Es in Ex. injection Ex as <-.
  destruct (mul_facts b a HB HA) as (ab & Eab & Wab & X1 & X2 & X3 & Vab); try assumption; try congruence; [lia|].
  destruct (mul_facts c a HC HA) as (ac & Eac & Wac & Y1 & Y2 & Y3 & Vac); try assumption; try congruence; [lia|].
  destruct (mul_facts s a Ws HA) as (l & El & Wl & L1 & L2 & _ & Vl); try assumption; try congruence.
  destruct (add_facts ab ac Wab Wac) as (r & Er & Wr & R1 & R2 & _ & _ & Vr); try congruence; [lia|].
  exists ab, ac, l, r. sp; try assumption. split; [congruence|]. split; [congruence|]. intros i k Hi.
  rewrite Vl, Vr, Vab, Vac by congruence. rewrite S2, D3. rewrite <- rsum_add. apply rsum_ext. intros j Hj. rewrite V by congruence. ring.
Qed.
Lemma c53_identity : forall (a : CSR T), wf_csr I a -> (Z.of_nat (csr_rows a) <= imax I)%Z -> (Z.of_nat (csr_cols a) <= imax I)%Z ->
  exists il ir, CSR_with_diagonal I (repeat s1 (csr_rows a)) = Ok il /\ CSR_with_diagonal I (repeat s1 (csr_cols a)) = Ok ir /\
    ((Z.of_nat (product_count il a) <= imax I)%Z -> exists p, CSR_mat_mat I il a = Ok p /\ csr_same p a) /\
    ((Z.of_nat (product_count a ir) <= imax I)%Z -> exists p, CSR_mat_mat I a ir = Ok p /\ csr_same p a).
Proof.
  intros a HA H1 H2.
  destruct (proj1 (c30_csr_with_diagonal I (repeat s1 (csr_rows a)))) as (il & El & Wl & _ & _ & L1 & L2 & AL); [rewrite repeat_length; exact H1|].
  destruct (proj1 (c30_csr_with_diagonal I (repeat s1 (csr_cols a)))) as (ir & Er & Wr & _ & _ & R1 & R2 & AR); [rewrite repeat_length; exact H2|].
  rewrite repeat_length in *. exists il, ir. split; [exact El|]. split; [exact Er|]. split.
  - intros F. destruct (mul_facts il a Wl HA) as (p & Ep & Wp & P1 & P2 & _ & V); try assumption; try congruence.
    exists p. split; [exact Ep|]. split; [congruence|]. split; [congruence|]. intros i j Hi. rewrite V by congruence. rewrite L2. assert (Hi' : i < csr_rows a) by congruence.
    rewrite (rsum_single (csr_rows a) i _ Hi').
    + unfold csr_val at 1. rewrite AL, Nat.eqb_refl, nth_repeat_any by exact Hi'. rewrite sum0_cons, sum0_nil. ring.
    + intros q Hq D. unfold csr_val at 1. rewrite AL by exact Hi'. destruct (Nat.eqb_spec i q); [congruence|]. rewrite sum0_nil. ring.
  - intros F. destruct (mul_facts a ir HA Wr) as (p & Ep & Wp & P1 & P2 & _ & V); try assumption; try congruence.
    exists p. split; [exact Ep|]. split; [congruence|]. split; [congruence|]. intros i j Hi. rewrite V by congruence. assert (Hi' : i < csr_rows a) by congruence.
    destruct (Nat.lt_ge_cases j (csr_cols a)) as [Hj|Hj].
    + rewrite (rsum_single (csr_cols a) j _ Hj).
      * unfold csr_val at 2. rewrite AR, Nat.eqb_refl, nth_repeat_any by exact Hj. rewrite sum0_cons, sum0_nil. ring.
      * intros q Hq D. unfold csr_val at 2. rewrite AR by exact Hq. destruct (Nat.eqb_spec q j); [congruence|]. rewrite sum0_nil. ring.
    + rewrite (rsum_ext _ _ (fun _ => s0)).
      * rewrite rsum_zero. destruct (wf_csr_rep _ _ HA) as [R HR]. unfold csr_val. rewrite (csr_rep_at _ _ _ _ _ HR). rewrite at_not_in; [reflexivity|].
        intros G. apply in_map_iff in G as (e & <- & He). pose proof (crep_cols_lt _ _ _ _ _ _ (proj2 HR)) as C. rewrite Forall_forall in C.
        specialize (C (nth i R [])). rewrite Forall_forall in C. specialize (C ltac:(apply nth_In; destruct HR; lia) e He). lia.
      * intros q Hq. unfold csr_val at 2. rewrite AR by exact Hq. destruct (Nat.eqb_spec q j); [lia|]. rewrite sum0_nil. ring.
Qed.

Lemma c61_insertion_order : forall m1 m2 : Coo T, wf_coo I m1 -> wf_coo I m2 -> coo_rows m1 = coo_rows m2 -> coo_cols m1 = coo_cols m2 ->
  (Z.of_nat (length (coo_values m1)) < imax I)%Z -> Permutation (coo_entries m1) (coo_entries m2) ->
  Coo_to_csr I m1 = Coo_to_csr I m2 /\ Coo_to_csc I m1 = Coo_to_csc I m2 /\ Coo_to_dense m1 = Coo_to_dense m2.
Proof.
  intros m1 m2 W1 W2 Er Ec F1 P.
  assert (PA : forall i j, Permutation (coo_at m1 i j) (coo_at m2 i j)).
  { intros i j. unfold coo_at. apply Permutation_map. apply perm_filter', P. }
  assert (DS : forall i j, dup_sum (coo_at m1 i j) = dup_sum (coo_at m2 i j)).
  { intros i j. specialize (PA i j). pose proof (sum0_perm _ _ PA) as S. destruct (coo_at m1 i j) as [|v l], (coo_at m2 i j) as [|w k];
      [reflexivity|apply Permutation_nil in PA; discriminate|apply Permutation_sym, Permutation_nil in PA; discriminate|]. cbn [dup_sum]. rewrite <- !sum0_cons_za, S. reflexivity. }
  assert (F2 : (Z.of_nat (length (coo_values m2)) < imax I)%Z).
  { apply Permutation_length in P. unfold coo_entries in P. rewrite !combine_length, !map_length in P. destruct W1, W2. lia. }
  split; [|split].
  - destruct (c01_coo_to_csr I m1 W1 F1) as (r1 & -> & V1 & T1 & R1 & C1 & N1 & A1). destruct (c01_coo_to_csr I m2 W2 F2) as (r2 & -> & V2 & T2 & R2 & C2 & N2 & A2). f_equal. apply (csr_canonical_unique I); try assumption; try congruence. intros i j Hi _. rewrite A1, A2 by congruence. apply DS.
  - destruct (c02_coo_to_csc I m1 W1 F1) as (r1 & -> & V1 & T1 & R1 & C1 & N1 & A1). destruct (c02_coo_to_csc I m2 W2 F2) as (r2 & -> & V2 & T2 & R2 & C2 & N2 & A2). f_equal. apply (csc_canonical_unique I); try assumption; try congruence. intros i j _ Hj. rewrite A1, A2 by congruence. apply DS.
  - destruct (c09_coo_to_dense I m1 W1) as (d1 & -> & D1). destruct (c09_coo_to_dense I m2 W2) as (d2 & -> & D2). f_equal. rewrite <- Er, <- Ec in D2. destruct D1 as [L1 D1], D2 as [L2 D2].
    apply (nth_ext _ _ [] []); [congruence|]. intros i Hi. rewrite L1 in Hi. destruct (D1 i Hi) as [M1 G1], (D2 i Hi) as [M2 G2]. apply (nth_ext _ _ s0 s0); [congruence|]. intros j Hj. rewrite M1 in Hj. rewrite G1, G2 by exact Hj. unfold coo_val. apply sum0_perm, PA.
Qed.
End Ring.
