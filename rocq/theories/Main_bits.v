(** Proofs of the theorems of Props_bits.v, under the same names in lower case. *)
From Verif Require Import Rust Scalar Model_kernels Model_matrix Spec SpecBoundary SpecRound SpecBits Wp Rep ScatterProofs CanonProofs ConvProofs LinProofs Lin2Proofs RingProofs ArithProofs
  Main_convert Main_linear Main_struct Main_boundary Main_laws Main_product Main_addition Main_arith Main_more Main_fit PipeProofs Main_round Main_float Check.
From Coq Require Import ZArith List Lia Floats.SpecFloat Bool.
Import ListNotations.
Open Scope nat_scope.

Lemma nth_skip {A} n (l : list A) k d : nth k (skipn n l) d = nth (n + k) l d.
Proof. revert l. induction n as [|n IH]; intros [|x l]; [reflexivity|reflexivity|destruct k; reflexivity|apply IH]. Qed.

Section Bits.
Context {T : Type} {SC : Scalar T}.
Variable I : ity.

Lemma csr_row_cell (m : CSR T) i e : In e (csr_row m i) -> csr_at m i (fst e) <> [].
Proof. intros H E. apply (in_nil (a := snd e)). rewrite <- E. apply in_map, filter_In. split; [exact H|apply Nat.eqb_refl]. Qed.
Lemma csc_col_cell (m : CSC T) j e : In e (csc_col m j) -> csc_at m (fst e) j <> [].
Proof. intros H E. apply (in_nil (a := snd e)). rewrite <- E. apply in_map, filter_In. split; [exact H|apply Nat.eqb_refl]. Qed.
Lemma csc_fit_by (m : CSC T) : (forall i j, j < csc_cols m -> csc_at m i j <> [] -> (Z.of_nat j <= imax I)%Z) -> csc_cols_fit I m.
Proof. intros H j Hj N. destruct (csc_col m j) as [|e l] eqn:E; [congruence|]. apply (H (fst e) j Hj), csc_col_cell. rewrite E. left. reflexivity. Qed.
Lemma wf_arrays_fit n c p j (x : list T) i e : wf_arrays I n c p j x -> i < n -> In e (crow p j x i) -> (Z.of_nat (fst e) <= imax I)%Z.
Proof.
  intros W Hi H. destruct e as [k v]. apply in_combine_l in H. cbn [fst]. apply in_map_iff in H as (z & <- & Hz).
  apply (In_nth _ _ 0%Z) in Hz as (q & Hq & Ez). unfold part in *. 
  pose proof (wf_jlen _ _ _ _ _ _ W) as J. pose proof (wf_idx _ _ _ _ _ _ W) as D.
  assert (M : forall q, q <= n -> ptr p q <= ptr p n).
  { intros s Hs. assert (forall d, s + d <= n -> ptr p s <= ptr p (s + d)).
    { induction d; intros; [rewrite Nat.add_0_r; lia|]. specialize (IHd ltac:(lia)). pose proof (wf_mono _ _ _ _ _ _ W (s + d) ltac:(lia)) as G. rewrite Nat.add_succ_r. unfold ptr in *. lia. }
    specialize (H (n - s)). replace (s + (n - s)) with n in H by lia. apply H. lia. }
  rewrite firstn_length, skipn_length in Hq. pose proof (M (S i) ltac:(lia)).
  rewrite nth_firstn_lt in Ez by lia. rewrite nth_skip in Ez. specialize (D (ptr p i + q) ltac:(lia)). rewrite Ez in D. lia.
Qed.

Lemma csr_fit_col (m : CSR T) i j : wf_csr I m -> i < csr_rows m -> csr_at m i j <> [] -> (Z.of_nat j <= imax I)%Z.
Proof.
  intros W Hi N. destruct (csr_at m i j) as [|v l] eqn:E; [congruence|].
  assert (H : In v (csr_at m i j)) by (rewrite E; left; reflexivity). apply at_in in H. exact (wf_arrays_fit _ _ _ _ _ _ (j, v) W Hi H).
Qed.
Lemma coo_fit_col (m : Coo T) i j : wf_coo I m -> coo_at m i j <> [] -> (Z.of_nat j <= imax I)%Z.
Proof.
  intros W N. destruct (coo_at m i j) as [|v l] eqn:E; [congruence|].
  assert (H : In v (coo_at m i j)) by (rewrite E; left; reflexivity). apply in_map_iff in H as ([[r c] w] & _ & H). apply filter_In in H as [H Ec].
  cbn [fst snd] in Ec. apply andb_prop in Ec as [_ Ec]. apply Nat.eqb_eq in Ec. subst c. apply in_combine_l, in_combine_r, in_map_iff in H as (z & <- & Hz).
  pose proof (wfc_col _ _ W) as F. rewrite Forall_forall in F. specialize (F z Hz). lia.
Qed.

Lemma csr_dense_is (m : CSR T) d r c f : wf_csr I m -> csr_rows m = r -> csr_cols m = c -> is_table d r c f ->
  (forall i j, i < r -> j < c -> csr_val m i j = f i j) -> CSR_to_dense m = Ok d.
Proof.
  intros W R C D H. destruct (c09_csr_to_dense I m W) as (d' & E & D'). rewrite E. f_equal. subst r c. eapply is_table_unique; [|exact D].
  eapply is_table_ext; [exact D'|]. exact H.
Qed.
Lemma csc_dense_is (m : CSC T) d r c f : wf_csc I m -> csc_cols_fit I m -> csc_rows m = r -> csc_cols m = c -> is_table d r c f ->
  (forall i j, i < r -> j < c -> csc_val m i j = f i j) -> CSC_to_dense I m = Ok d.
Proof.
  intros W F R C D H. destruct (c09_csc_to_dense I m W F) as (d' & E & D'). rewrite E. f_equal. subst r c. eapply is_table_unique; [|exact D].
  eapply is_table_ext; [exact D'|]. exact H.
Qed.
Lemma coo_dense_is (m : Coo T) d r c f : wf_coo I m -> coo_rows m = r -> coo_cols m = c -> is_table d r c f ->
  (forall i j, i < r -> j < c -> coo_val m i j = f i j) -> Coo_to_dense m = Ok d.
Proof.
  intros W R C D H. destruct (c09_coo_to_dense I m W) as (d' & E & D'). rewrite E. f_equal. subst r c. eapply is_table_unique; [|exact D].
  eapply is_table_ext; [exact D'|]. exact H.
Qed.

(** ** no law at all *)
Lemma c98_csr_to_csc : forall m : CSR T, wf_csr I m -> csr_rows_fit I m ->
  exists r d, CSR_to_csc I m = Ok r /\ CSR_to_dense m = Ok d /\ CSC_to_dense I r = Ok d.
Proof.
  intros m W F. destruct (c03_csr_to_csc I m W F) as (r & E & Wr & _ & R & C & _ & A & _). destruct (c09_csr_to_dense I m W) as (d & Ed & D). exists r, d. sp; try assumption.
  apply (csc_dense_is r d _ _ _ Wr) with (4 := D); try assumption.
  - apply csc_fit_by. intros i j Hj N. rewrite A in N by congruence. destruct (Nat.lt_ge_cases i (csr_rows m)) as [Hi|Hi]; [exact (csr_fit_col m i j W Hi N)|].
    exfalso. destruct (wf_csc_rep _ _ Wr) as [L [LL HR]]. rewrite <- A in N by congruence. rewrite (csc_rep_at _ _ _ _ _ (conj LL HR)) in N.
    pose proof (crep_cols_lt _ _ _ _ _ _ HR) as G. rewrite Forall_forall in G. specialize (G (nth j L []) ltac:(apply nth_In; lia)). rewrite Forall_forall in G.
    destruct (at_ i (nth j L [])) as [|v l] eqn:Ea; [congruence|]. assert (H : In v (at_ i (nth j L []))) by (rewrite Ea; left; reflexivity). apply at_in in H.
    specialize (G _ H). cbn in G. lia.
  - intros i j _ Hj. unfold csc_val, csr_val. rewrite A by exact Hj. reflexivity.
Qed.
Lemma c98_csc_to_csr : forall m : CSC T, wf_csc I m -> csc_cols_fit I m ->
  exists r d, CSC_to_csr I m = Ok r /\ CSC_to_dense I m = Ok d /\ CSR_to_dense r = Ok d.
Proof.
  intros m W F. destruct (c04_csc_to_csr I m W F) as (r & E & Wr & _ & R & C & _ & A & _). destruct (c09_csc_to_dense I m W F) as (d & Ed & D). exists r, d. sp; try assumption.
  apply (csr_dense_is r d _ _ _ Wr) with (3 := D); try assumption. intros i j Hi _. unfold csc_val, csr_val. rewrite A by exact Hi. reflexivity.
Qed.
Lemma c98_csr_to_coo : forall m : CSR T, wf_csr I m -> csr_rows_fit I m -> csr_tight m ->
  exists r d, CSR_to_coo I m = Ok r /\ CSR_to_dense m = Ok d /\ Coo_to_dense r = Ok d.
Proof.
  intros m W F Tt. destruct (c06_csr_to_coo I m W F Tt) as (r & E & Wr & R & C & _ & A). destruct (c09_csr_to_dense I m W) as (d & Ed & D). exists r, d. sp; try assumption.
  apply (coo_dense_is r d _ _ _ Wr) with (3 := D); try assumption. intros i j Hi _. unfold coo_val, csr_val. rewrite A by exact Hi. reflexivity.
Qed.
Lemma c98_csc_to_coo : forall m : CSC T, wf_csc I m -> csc_cols_fit I m ->
  exists r d, CSC_to_coo I m = Ok r /\ CSC_to_dense I m = Ok d /\ Coo_to_dense r = Ok d.
Proof.
  intros m W F. destruct (c07_csc_to_coo I m W F) as (r & E & Wr & R & C & _ & A). destruct (c09_csc_to_dense I m W F) as (d & Ed & D). exists r, d. sp; try assumption.
  apply (coo_dense_is r d _ _ _ Wr) with (3 := D); try assumption. intros i j _ Hj. unfold coo_val, csc_val. rewrite A by exact Hj. reflexivity.
Qed.
Lemma c98_csr_sort_indexes : forall m : CSR T, wf_csr I m ->
  exists r d, CSR_sort_indexes m = Ok r /\ CSR_to_dense m = Ok d /\ CSR_to_dense r = Ok d.
Proof.
  intros m W. destruct (c13_csr_sort_indexes I m W) as (r & E & Wr & R & C & _ & _ & _ & A). destruct (c09_csr_to_dense I m W) as (d & Ed & D). exists r, d. sp; try assumption.
  apply (csr_dense_is r d _ _ _ Wr) with (3 := D); try assumption. intros i j _ _. unfold csr_val. rewrite A. reflexivity.
Qed.
Lemma c98_csc_sort_indexes : forall m : CSC T, wf_csc I m -> csc_cols_fit I m ->
  exists r d, CSC_sort_indexes m = Ok r /\ CSC_to_dense I m = Ok d /\ CSC_to_dense I r = Ok d.
Proof.
  intros m W F. destruct (c13_csc_sort_indexes I m W) as (r & E & Wr & R & C & _ & _ & P & A). destruct (c09_csc_to_dense I m W F) as (d & Ed & D). exists r, d. sp; try assumption.
  apply (csc_dense_is r d _ _ _ Wr) with (4 := D); try assumption; [|intros i j _ _; unfold csc_val; rewrite A; reflexivity].
  intros j Hj N. rewrite C in Hj. apply F; [exact Hj|]. intros Z. specialize (P j Hj). rewrite Z in P. apply Permutation_nil in P || (symmetry in P; apply Permutation_nil in P); contradiction.
Qed.
(** what CSC computes row by row after conversion is what it computed before *)
Lemma c98_mat_vec : forall (m : CSC T) (x : list T), wf_csc I m -> csc_cols_fit I m -> length x = csc_cols m ->
  exists r y, CSC_to_csr I m = Ok r /\ CSC_mat_vec m x = Ok y /\ CSR_mat_vec r x = Ok y.
Proof.
  intros m x W F L. destruct (c04_csc_to_csr I m W F) as (r & E & Wr & _ & R & C & S & A & _).
  destruct (proj2 (c16_csc_mat_vec I m x W) L) as (y & Ey & Ly & Gy). destruct (proj2 (c15_csr_mat_vec I r x Wr) ltac:(congruence)) as (z & Ez & Lz & Gz).
  exists r, y. sp; try assumption. rewrite Ez. f_equal. apply (nth_ext _ _ s0 s0); [congruence|]. intros i Hi. rewrite Gz by congruence. rewrite Gy by congruence. f_equal.
  change (map (fun e => smul (snd e) (nth (fst e) x s0)) (csr_row r i)) with (prods x (csr_row r i)). rewrite (prods_by_col x (csc_cols m)).
  - apply flat_map_ext_in'. intros j Hj. change (at_ j (csr_row r i)) with (csr_at r i j). rewrite A by congruence. reflexivity.
  - apply S. congruence.
  - destruct (wf_csr_rep _ _ Wr) as [RR HR]. rewrite (csr_rep_row _ _ _ _ HR), <- C. pose proof (crep_cols_lt _ _ _ _ _ _ (proj2 HR)) as G. rewrite Forall_forall in G.
    destruct HR as [LL _]. apply G, nth_In. lia.
Qed.

(** ** zero first *)
Section Zero.
Context {val : T -> Prop} (Z : ZeroFirst val).
Lemma fold_first l : forall v, val v -> Forall val l -> sadd s0 (fold_left sadd l v) = fold_left sadd l (sadd s0 v).
Proof.
  induction l as [|x l IH]; intros v V F; [reflexivity|]. inversion F as [|? ? Vx F']; subst. cbn [fold_left]. rewrite IH; [|apply (zf_add _ Z); assumption|exact F'].
  rewrite (zf_first _ Z) by assumption. reflexivity.
Qed.
Lemma sum_dup l : Forall val l -> sum0 (dup_sum l) = sum0 l.
Proof. destruct l as [|v l]; [reflexivity|]. intros F. inversion F; subst. unfold sum0. cbn [dup_sum fold_left]. apply fold_first; assumption. Qed.

Lemma c98_coo_to_csr : forall m : Coo T, wf_coo I m -> (Z.of_nat (length (coo_values m)) < imax I)%Z -> Forall val (coo_values m) ->
  exists r d, Coo_to_csr I m = Ok r /\ Coo_to_dense m = Ok d /\ CSR_to_dense r = Ok d.
Proof.
  intros m W L V. destruct (c01_coo_to_csr I m W L) as (r & E & Wr & _ & R & C & _ & A). destruct (c09_coo_to_dense I m W) as (d & Ed & D). exists r, d. sp; try assumption.
  apply (csr_dense_is r d _ _ _ Wr) with (3 := D); try assumption. intros i j Hi _. unfold coo_val, csr_val. rewrite A by exact Hi. apply sum_dup, coo_at_val, V.
Qed.
Lemma c98_coo_to_csc : forall m : Coo T, wf_coo I m -> (Z.of_nat (length (coo_values m)) < imax I)%Z -> Forall val (coo_values m) ->
  exists r d, Coo_to_csc I m = Ok r /\ Coo_to_dense m = Ok d /\ CSC_to_dense I r = Ok d.
Proof.
  intros m W L V. destruct (c02_coo_to_csc I m W L) as (r & E & Wr & _ & R & C & _ & A). destruct (c09_coo_to_dense I m W) as (d & Ed & D). exists r, d. sp; try assumption.
  apply (csc_dense_is r d _ _ _ Wr) with (4 := D); try assumption.
  - apply csc_fit_by. intros i j Hj N. apply (coo_fit_col m i j W). intros G. apply N. rewrite A by congruence. rewrite G. reflexivity.
  - intros i j _ Hj. unfold coo_val, csc_val. rewrite A by exact Hj. apply sum_dup, coo_at_val, V.
Qed.
Lemma c98_csr_sum_duplicates : forall m : CSR T, wf_csr I m -> (Z.of_nat (csr_count m) < imax I)%Z -> Forall val (csr_values m) ->
  exists r d, CSR_sum_duplicates I m = Ok r /\ CSR_to_dense m = Ok d /\ CSR_to_dense r = Ok d.
Proof.
  intros m W L V. destruct (c14_csr_sum_duplicates I m W L) as (r & E & Wr & R & C & _ & A & _). destruct (c09_csr_to_dense I m W) as (d & Ed & D). exists r, d. sp; try assumption.
  apply (csr_dense_is r d _ _ _ Wr) with (3 := D); try assumption. intros i j _ _. unfold csr_val. rewrite A. apply sum_dup, csr_at_val, V.
Qed.
Lemma c98_csc_sum_duplicates : forall m : CSC T, wf_csc I m -> csc_cols_fit I m -> (Z.of_nat (csc_count m) < imax I)%Z -> Forall val (csc_values m) ->
  exists r d, CSC_sum_duplicates I m = Ok r /\ CSC_to_dense I m = Ok d /\ CSC_to_dense I r = Ok d.
Proof.
  intros m W F L V. destruct (c14_csc_sum_duplicates I m W L) as (r & E & Wr & R & C & _ & A & _). destruct (c09_csc_to_dense I m W F) as (d & Ed & D). exists r, d. sp; try assumption.
  apply (csc_dense_is r d _ _ _ Wr) with (4 := D); try assumption; [|intros i j _ _; unfold csc_val; rewrite A; apply sum_dup, csc_at_val, V].
  apply csc_fit_by. intros i j Hj N. apply F; [congruence|]. intros Zc. apply N. rewrite A. unfold csc_at. rewrite Zc. reflexivity.
Qed.
End Zero.

(** ** products *)
Lemma csr_row_lt (m : CSR T) i : wf_csr I m -> i < csr_rows m -> Forall (fun e => fst e < csr_cols m) (csr_row m i).
Proof.
  intros W Hi. destruct (wf_csr_rep _ _ W) as [R HR]. rewrite (csr_rep_row _ _ _ _ HR). pose proof (crep_cols_lt _ _ _ _ _ _ (proj2 HR)) as G. rewrite Forall_forall in G.
  destruct HR as [L _]. apply G, nth_In. lia.
Qed.
Lemma canonical_sorted' (r : list (nat * T)) : canonical_row r -> sorted_row r.
Proof. unfold canonical_row, sorted_row. induction 1 as [|x l S IH F]; constructor; [exact IH|]. eapply Forall_impl; [|exact F]. cbn. lia. Qed.

Section Pair.
Variables (a b : CSR T) (ca cb : CSC T).
Hypothesis (Wa : wf_csr I a) (Wb : wf_csr I b) (Wca : wf_csc I ca) (Wcb : wf_csc I cb).
Hypothesis (D : csr_cols a = csr_rows b) (R1 : csc_rows ca = csr_rows a) (C1 : csc_cols ca = csr_cols a) (R2 : csc_rows cb = csr_rows b) (C2 : csc_cols cb = csr_cols b).
Hypothesis (A1 : forall i j, j < csr_cols a -> csc_at ca i j = csr_at a i j) (A2 : forall i j, j < csr_cols b -> csc_at cb i j = csr_at b i j).
Hypothesis S2 : csc_sorted cb.
Lemma meets_same i k : i < csr_rows a -> k < csr_cols b -> csc_meets ca cb i k = meets a b i k.
Proof.
  intros Hi Hk. unfold csc_meets, meets.
  rewrite (existsb_flat_at (csc_rows cb) (csc_col cb k) (fun q => existsb (fun f => fst f =? i) (csc_col ca q))) by (apply (csc_col_lt I); [exact Wcb|lia]).
  rewrite (existsb_flat_at (csr_cols a) (csr_row a i) (fun q => existsb (fun f => fst f =? k) (csr_row b q))) by (apply csr_row_lt; assumption).
  rewrite R2, <- D.
  assert (G : forall l, (forall q, In q l -> q < csr_cols a) ->
    existsb (fun q => existsb (fun f => fst f =? i) (csc_col ca q) && (0 <? length (at_ q (csc_col cb k)))) l =
    existsb (fun q => existsb (fun f => fst f =? k) (csr_row b q) && (0 <? length (at_ q (csr_row a i)))) l).
  { induction l as [|q l IH]; intros Hl; [reflexivity|]. cbn [existsb]. rewrite IH by (intros; apply Hl; right; assumption). f_equal.
    rewrite !at_nonempty. fold (csc_at ca i q) (csc_at cb q k) (csr_at b q k) (csr_at a i q). rewrite A1 by (apply Hl; left; reflexivity). rewrite A2 by exact Hk. apply andb_comm. }
  apply G. intros q Hq. apply in_seq in Hq. lia.
Qed.
Lemma products_same i k : Commutes (T := T) -> canonical_row (csr_row a i) -> i < csr_rows a -> k < csr_cols b -> csc_products ca cb i k = csr_products a b i k.
Proof.
  intros M Ca Hi Hk. unfold csc_products, csr_products.
  rewrite (sorted_flat_at (csc_rows cb) (csc_col cb k) (fun j v => map (fun u => smul v u) (csc_at ca i j))); [|apply S2; lia|apply (csc_col_lt I); [exact Wcb|lia]].
  rewrite (sorted_flat_at (csr_cols a) (csr_row a i) (fun j v => map (fun u => smul v u) (csr_at b j k))); [|apply canonical_sorted', Ca|apply csr_row_lt; assumption].
  rewrite R2, <- D. apply flat_map_ext_in'. intros q Hq. apply in_seq in Hq. fold (csc_at cb q k). rewrite A2 by exact Hk. rewrite A1 by lia.
  pose proof (canonical_short (csr_row a i) q Ca) as Sh. change (csr_at a i q) with (at_ q (csr_row a i)). destruct (at_ q (csr_row a i)) as [|v [|w l]]; [|clear Sh|cbn in Sh; lia].
  - cbn [map flat_map]. induction (csr_at b q k) as [|u l IH]; [reflexivity|exact IH].
  - cbn [map flat_map]. rewrite app_nil_r. induction (csr_at b q k) as [|u l IH]; [reflexivity|]. cbn [flat_map map app]. rewrite IH, (M u v). reflexivity.
Qed.
Lemma count_filter2 {A} (f g : A -> bool) l : length (filter f (filter g l)) = list_sum (map (fun x => if g x && f x then 1 else 0) l).
Proof. induction l as [|x l IH]; [reflexivity|]. cbn [filter map]. change (list_sum (?y :: ?z)) with (y + list_sum z). destruct (g x); cbn [filter andb]; [destruct (f x); cbn [length]; lia|lia]. Qed.
Lemma kept_same : Commutes (T := T) -> csr_canonical a -> csc_product_kept ca cb = product_kept a b.
Proof.
  intros M Ca. unfold csc_product_kept, product_kept.
  erewrite map_ext by (intros; apply count_filter2). symmetry. erewrite map_ext by (intros; apply count_filter2). rewrite list_sum_swap, C2, R1.
  f_equal. apply map_ext_in. intros k Hk. apply in_seq in Hk. f_equal. apply map_ext_in. intros i Hi. apply in_seq in Hi.
  rewrite meets_same, products_same by (try apply Ca; try exact M; lia). reflexivity.
Qed.
End Pair.

Lemma c98_mat_mat : forall a b p : CSR T, Commutes (T := T) -> wf_csr I a -> wf_csr I b -> csr_rows_fit I a -> csr_rows_fit I b -> csr_canonical a -> CSR_mat_mat I a b = Ok p ->
  exists ca cb c, CSR_to_csc I a = Ok ca /\ CSR_to_csc I b = Ok cb /\ CSC_mat_mat I ca cb = Ok c /\ csc_rows c = csr_rows p /\ csc_cols c = csr_cols p /\
    forall i k, i < csr_rows p -> k < csr_cols p -> csc_at c i k = csr_at p i k.
Proof.
  intros a b p M Wa Wb Fa Fb Ca E. destruct (mat_mat_any I a b p Wa Wb E) as (D & Wp & Rp & Cp & _ & _ & Ap).
  destruct (c03_csr_to_csc I a Wa Fa) as (ca & Ea & Wca & _ & R1 & C1 & _ & A1 & _). destruct (c03_csr_to_csc I b Wb Fb) as (cb & Eb & Wcb & _ & R2 & C2 & S2 & A2 & _).
  destruct (c17_csr_mat_mat_exact I a b Wa Wb D) as [P _].
  assert (K : csc_product_kept ca cb = product_kept a b) by (apply kept_same; assumption).
  destruct (proj2 (c18_csc_mat_mat_exact I ca cb Wca Wcb ltac:(congruence))) as (c & Ec & _ & Wc & Rc & Cc & _ & _ & _ & _ & Ac).
  { rewrite K. intros G. destruct (P G) as [P' _]. congruence. }
  exists ca, cb, c. sp; try assumption; try congruence.
  intros i k Hi Hk. rewrite Ac by congruence. rewrite Ap by congruence. rewrite (products_same a b ca cb) by (try assumption; try apply Ca; congruence). reflexivity.
Qed.

(** ** sums and differences *)
Lemma convert_canonical (a : CSR T) ca : wf_csr I a -> csr_rows_fit I a -> csr_canonical a -> CSR_to_csc I a = Ok ca -> csc_canonical ca.
Proof.
  intros W F C E. destruct (wf_csr_rep _ _ W) as [R HR]. destruct (CSR_to_csc_rep I a R HR) as (r & E' & _ & _ & R2 & _). { apply (csr_rows_fit_rep I a R HR), F. }
  assert (r = ca) by congruence. subst r. unfold csc_canonical. apply (csc_rep_cols canonical_row _ _ _ R2). apply transpose_canonical.
  assert (G : Forall canonical_row R) by (apply (csr_rep_rows canonical_row _ _ _ HR); exact C). eapply Forall_impl; [|exact G]. apply canonical_nodup.
Qed.
Lemma c98_add : forall (a b p : CSR T) (ca cb c : CSC T), wf_csr I a -> wf_csr I b -> csr_rows b = csr_rows a -> csr_cols b = csr_cols a -> csr_canonical a -> csr_canonical b ->
  CSR_to_csc I a = Ok ca -> CSR_to_csc I b = Ok cb -> CSR_add I a b = Ok p -> CSC_add I ca cb = Ok c ->
  csc_rows c = csr_rows p /\ csc_cols c = csr_cols p /\ forall i j, i < csr_rows p -> j < csr_cols p -> csc_at c i j = csr_at p i j.
Proof.
  intros a b p ca cb c Wa Wb D1 D2 Ca Cb Ea Eb Ep Ec.
  assert (Fit : forall (m : CSR T) cm, wf_csr I m -> CSR_to_csc I m = Ok cm -> csr_rows_fit I m).
  { intros m cm W E. destruct (Forall_dec (fun i => csr_row m i <> [] -> (Z.of_nat i <= imax I)%Z)) with (l := seq 0 (csr_rows m)) as [F|F].
    - intros i. destruct (csr_row m i); [left; congruence|]. destruct (Z_le_dec (Z.of_nat i) (imax I)); [left; auto|right; intros G; apply n, G; discriminate].
    - intros i Hi. rewrite Forall_forall in F. apply F, in_seq. lia.
    - destruct (c03_csr_unfit I m W) as [P _]; [|congruence]. intros G. apply F, Forall_forall. intros i Hi. apply in_seq in Hi. apply G. lia. }
  pose proof (Fit a ca Wa Ea) as Fa. pose proof (Fit b cb Wb Eb) as Fb.
  pose proof (convert_canonical a ca Wa Fa Ca Ea) as Cca. pose proof (convert_canonical b cb Wb Fb Cb Eb) as Ccb.
  destruct (c03_csr_to_csc I a Wa Fa) as (ca' & Ea' & Wca & _ & R1 & C1 & _ & A1 & _). destruct (c03_csr_to_csc I b Wb Fb) as (cb' & Eb' & Wcb & _ & R2 & C2 & S2 & A2 & _).
  assert (ca' = ca) by congruence. assert (cb' = cb) by congruence. subst ca' cb'.
  destruct (c19_csr_add_exact I a b Wa Wb D1 D2) as [P1 P2]. destruct (P2 ltac:(intros H; rewrite (P1 H) in Ep; discriminate)) as (p' & Ep' & _ & Rp & Cp & _ & _ & _ & _ & Ap).
  destruct (c20_csc_add_exact I ca cb Wca Wcb ltac:(congruence) ltac:(congruence)) as [Q1 Q2].
  destruct (Q2 ltac:(intros H; rewrite (Q1 H) in Ec; discriminate)) as (c' & Ec' & _ & _ & Rc & Cc & _ & _ & _ & _ & Ac).
  assert (p' = p) by congruence. assert (c' = c) by congruence. subst p' c'. sp; try congruence.
  intros i j Hi Hj. rewrite (Ac (conj Cca Ccb)) by congruence. rewrite (Ap (conj Ca Cb)) by congruence. rewrite A1, A2 by congruence. reflexivity.
Qed.
Lemma c98_sub : forall (a b p : CSR T) (ca cb c : CSC T), wf_csr I a -> wf_csr I b -> csr_rows b = csr_rows a -> csr_cols b = csr_cols a -> csr_canonical a -> csr_canonical b ->
  CSR_to_csc I a = Ok ca -> CSR_to_csc I b = Ok cb -> CSR_sub I a b = Ok p -> CSC_subtract I ca cb = Ok c ->
  csc_rows c = csr_rows p /\ csc_cols c = csr_cols p /\ forall i j, i < csr_rows p -> j < csr_cols p -> csc_at c i j = csr_at p i j.
Proof.
  intros a b p ca cb c Wa Wb D1 D2 Ca Cb Ea Eb Ep Ec.
  assert (Fit : forall (m : CSR T) cm, wf_csr I m -> CSR_to_csc I m = Ok cm -> csr_rows_fit I m).
  { intros m cm W E. destruct (Forall_dec (fun i => csr_row m i <> [] -> (Z.of_nat i <= imax I)%Z)) with (l := seq 0 (csr_rows m)) as [F|F].
    - intros i. destruct (csr_row m i); [left; congruence|]. destruct (Z_le_dec (Z.of_nat i) (imax I)); [left; auto|right; intros G; apply n, G; discriminate].
    - intros i Hi. rewrite Forall_forall in F. apply F, in_seq. lia.
    - destruct (c03_csr_unfit I m W) as [P _]; [|congruence]. intros G. apply F, Forall_forall. intros i Hi. apply in_seq in Hi. apply G. lia. }
  pose proof (Fit a ca Wa Ea) as Fa. pose proof (Fit b cb Wb Eb) as Fb.
  pose proof (convert_canonical a ca Wa Fa Ca Ea) as Cca. pose proof (convert_canonical b cb Wb Fb Cb Eb) as Ccb.
  destruct (c03_csr_to_csc I a Wa Fa) as (ca' & Ea' & Wca & _ & R1 & C1 & _ & A1 & _). destruct (c03_csr_to_csc I b Wb Fb) as (cb' & Eb' & Wcb & _ & R2 & C2 & S2 & A2 & _).
  assert (ca' = ca) by congruence. assert (cb' = cb) by congruence. subst ca' cb'.
  destruct (c19_csr_sub_exact I a b Wa Wb D1 D2) as [P1 P2]. destruct (P2 ltac:(intros H; rewrite (P1 H) in Ep; discriminate)) as (p' & Ep' & _ & Rp & Cp & _ & _ & _ & _ & Ap).
  destruct (c20_csc_subtract_exact I ca cb Wca Wcb ltac:(congruence) ltac:(congruence)) as [Q1 Q2].
  destruct (Q2 ltac:(intros H; rewrite (Q1 H) in Ec; discriminate)) as (c' & Ec' & _ & _ & Rc & Cc & _ & _ & _ & _ & Ac).
  assert (p' = p) by congruence. assert (c' = c) by congruence. subst p' c'. sp; try congruence.
  intros i j Hi Hj. rewrite (Ac (conj Cca Ccb)) by congruence. rewrite (Ap (conj Ca Cb)) by congruence. rewrite A1, A2 by congruence. reflexivity.
Qed.
End Bits.

(** ** floats *)
Section Fl.
Variables prec emax : Z.
Hypothesis Hp : (0 < prec)%Z.
Hypothesis He : (3 <= emax)%Z.
Lemma round_aux_nonzero sx p ex s : (emin prec emax <= ex)%Z -> binary_round_aux prec emax sx (Zpos p) ex loc_Exact <> S754_zero s.
Proof.
  intros H E. destruct (round_aux_spec prec emax Hp sx p ex) as (q & n & N0 & Q0 & Q1 & Q2 & _ & Q3 & M). rewrite E in M. destruct M as [_ ->].
  destruct (Z.eq_dec n 0) as [->|Nn]; [specialize (Q2 eq_refl); lia|]. specialize (Q3 H ltac:(lia)).
  destruct (digits_pos p) as [D _]. set (d := Zpos (digits2_pos p)) in *. rewrite Z.mul_0_l in Q1. 
  assert (2 * Zpos p <= 2 ^ n)%Z by lia. assert (2 * 2 ^ (d - 1) <= 2 ^ n)%Z by lia. rewrite <- Z.pow_succ_r in H1 by (unfold d; lia).
  apply Z.pow_le_mono_r_iff in H1; [|lia|lia]. lia.
Qed.
Lemma round_nonzero sx p ex s : (emin prec emax <= ex)%Z -> binary_round prec emax sx p ex <> S754_zero s.
Proof.
  intros H. unfold binary_round. set (e' := fexp prec emax (Zpos (digits2_pos p) + ex)). destruct (align_val p ex e') as (_ & A & B).
  destruct (shl_align p ex e') as [mz ez]. cbn [fst snd] in *. apply round_aux_nonzero. assert (emin prec emax <= e')%Z by (unfold e', fexp; lia). lia.
Qed.
Lemma normalize_pos m ex : (emin prec emax <= ex)%Z -> binary_normalize prec emax m ex false <> S754_zero true.
Proof. intros H. destruct m as [|p|p]; cbn [binary_normalize]; [discriminate|apply round_nonzero, H|apply round_nonzero, H]. Qed.
Lemma zero_left x : x <> S754_zero true -> SFadd prec emax (S754_zero false) x = x.
Proof. destruct x as [[]| | |]; cbn; congruence. Qed.
Lemma zero_first one : @ZeroFirst _ (scalar_float prec emax one) (float_val prec emax).
Proof.
  constructor; cbn [s0 sadd scalar_float]; unfold float_val.
  - intros a b A B. apply (add_valid prec emax Hp He); assumption.
  - intros a b A B. pose proof (valid_low prec emax a A) as La. pose proof (valid_low prec emax b B) as Lb.
    destruct a as [sa|sa| |sa ma ea], b as [sb|sb| |sb mb eb]; try (destruct sa); try (destruct sb); try reflexivity.
    all: cbn [low] in La, Lb; rewrite (zero_left (S754_finite _ ma ea)) by discriminate; apply zero_left; apply normalize_pos; lia.
Qed.
Lemma mul_comm one : @Commutes _ (scalar_float prec emax one).
Proof.
  intros a b. cbn [smul scalar_float]. destruct a as [sa|sa| |sa ma ea], b as [sb|sb| |sb mb eb]; cbn [SFmul]; rewrite ?(xorb_comm sa sb); try reflexivity.
  rewrite (Pos.mul_comm ma mb), (Z.add_comm ea eb). reflexivity.
Qed.
End Fl.
Lemma c98_f64 : @ZeroFirst f64 scalar_f64 (float_val 53 1024) /\ @Commutes f64 scalar_f64.
Proof. split; [exact (zero_first 53 1024 ltac:(reflexivity) ltac:(discriminate) _)|exact (mul_comm 53 1024 _)]. Qed.
Lemma c98_f32 : @ZeroFirst spec_float scalar_f32 (float_val 24 128) /\ @Commutes spec_float scalar_f32.
Proof. split; [exact (zero_first 24 128 ltac:(reflexivity) ltac:(discriminate) _)|exact (mul_comm 24 128 _)]. Qed.

Lemma c98_mat_mat_refuted : exists (a b p : CSR f64) (ca cb c : CSC f64),
  wf_csr U8 a /\ wf_csr U8 b /\ csr_sorted a /\ csr_sorted b /\ CSR_to_csc U8 a = Ok ca /\ CSR_to_csc U8 b = Ok cb /\
  CSR_mat_mat U8 a b = Ok p /\ CSC_mat_mat U8 ca cb = Ok c /\ csc_val c 0 0 <> csr_val p 0 0.
Proof.
  exists (mkCSR 1 1 [0; 2]%Z [0; 0]%Z [S754_finite false 4503599627370496 (-52); S754_finite true 4503599627370496 (-52)]).
  exists (mkCSR 1 1 [0; 2]%Z [0; 0]%Z [S754_finite false 4503599627370496 (-52); S754_finite false 4503599627370496 1]).
  eexists _, _, _, _. split; [check|]. split; [check|]. split; [check|]. split; [check|].
  split; [vm_compute; reflexivity|]. split; [vm_compute; reflexivity|]. split; [vm_compute; reflexivity|]. split; [vm_compute; reflexivity|]. vm_compute. discriminate.
Qed.
