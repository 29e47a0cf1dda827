(** Diagonals, scaling, coordinate kernels, blocks of vectors. *)
From Verif Require Import Rust Scalar Model_kernels Model_matrix Spec Wp Rep ScatterProofs CanonProofs ConvProofs LinProofs.

Section Lin2.
Context {T : Type} {SC : Scalar T}.
Implicit Types R : list (list (nat * T)).

Lemma nth_split_rows R i : i < length R -> exists pre post, R = pre ++ nth i R [] :: post /\ length pre = i.
Proof. apply nth_split_app. Qed.

(** ** Diagonals *)
Definition diag_row (k : Z) : nat := Z.to_nat (- k).
Definition diag_col (k : Z) : nat := Z.to_nat k.

Lemma diagonal_spec I c n p j (x : list T) R k y : crep I c p j x R -> length R = n ->
  diag_row k <= n -> diag_col k <= c -> Nat.min (n - diag_row k) (c - diag_col k) <= length y ->
  wp (csr_diagonal k n c p j x y) (fun y' => length y' = length y /\
    (forall i, i < Nat.min (n - diag_row k) (c - diag_col k) ->
       nth i y' s0 = sum0 (at_ (diag_col k + i) (nth (diag_row k + i) R []))) /\
    forall i, Nat.min (n - diag_row k) (c - diag_col k) <= i -> nth i y' s0 = nth i y s0).
Proof.
  intros H L Hr Hc Hy. unfold csr_diagonal.
  assert (E1 : (if (0 <=? k)%Z then 0 else Z.to_nat (-1 * k)) = diag_row k).
  { unfold diag_row. destruct (Z.leb_spec 0 k); lia. }
  assert (E2 : (if (0 <=? k)%Z then Z.to_nat k else 0) = diag_col k).
  { unfold diag_col. destruct (Z.leb_spec 0 k); lia. }
  rewrite E1, E2. clear E1 E2. set (fr := diag_row k) in *. set (fc := diag_col k) in *.
  rewrite usub_ok by exact Hr. cbn [bind]. rewrite usub_ok by exact Hc. cbn [bind].
  set (m := Nat.min (n - fr) (c - fc)) in *.
  eapply (wp_for (fun q y' => length y' = length y /\
    forall i, nth i y' s0 = if i <? q then sum0 (at_ (fc + i) (nth (fr + i) R [])) else nth i y s0) 0 m).
  - lia.
  - split; [reflexivity|]. intros i. destruct (Nat.ltb_spec i 0); [lia|reflexivity].
  - intros q y1 Hq [L1 H1]. destruct (nth_split_rows R (fr + q)) as (pre & post & ER & Lp); [lia|].
    set (r := nth (fr + q) R []) in *.
    rewrite <- Lp. rewrite (crep_start H ER). cbn [bind]. rewrite (crep_end H ER). cbn [bind]. apply wp_bind.
    eapply (wp_for_list (fun ip d => d = sum0 (at_ (fc + q) ip)) r).
    + reflexivity.
    + reflexivity.
    + intros ip e iq d Er ->. rewrite (crep_pj H ER Er). cbn [bind]. rewrite at_snoc.
      destruct (fst e =? fc + q); [|rewrite app_nil_r; apply wp_ok; reflexivity].
      rewrite (crep_vx H ER Er). cbn [bind]. apply wp_ok. rewrite sum0_snoc. reflexivity.
    + intros d ->. apply vset_wp; [lia|]. split; [rewrite upd_length; exact L1|].
      intros i. destruct (Nat.eq_dec i q) as [Ei|D].
      * subst i. rewrite nth_upd_eq by lia. destruct (Nat.ltb_spec q (S q)); [reflexivity|lia].
      * rewrite nth_upd_ne by exact D. rewrite H1. destruct (Nat.ltb_spec i q), (Nat.ltb_spec i (S q)); try lia; reflexivity.
  - intros y1 [L1 H1]. split; [exact L1|]. split; intros i Hi; rewrite H1; destruct (Nat.ltb_spec i m); try lia; reflexivity.
Qed.

Lemma diagonal_panic k n c p j (x y : list T) : n < diag_row k \/ c < diag_col k ->
  csr_diagonal k n c p j x y = Panic.
Proof.
  intros H. unfold csr_diagonal.
  assert (E1 : (if (0 <=? k)%Z then 0 else Z.to_nat (-1 * k)) = diag_row k).
  { unfold diag_row. destruct (Z.leb_spec 0 k); lia. }
  assert (E2 : (if (0 <=? k)%Z then Z.to_nat k else 0) = diag_col k).
  { unfold diag_col. destruct (Z.leb_spec 0 k); lia. }
  rewrite E1, E2. unfold usub. destruct (Nat.leb_spec (diag_row k) n); [|reflexivity]. cbn [bind].
  destruct (Nat.leb_spec (diag_col k) c); [lia|reflexivity].
Qed.

Lemma Coo_diagonal_spec I (m : Coo T) : wf_coo I m ->
  wp (Coo_diagonal m) (fun d => is_vec d (Nat.min (coo_rows m) (coo_cols m)) (fun i => sum0 (coo_at m i i))).
Proof.
  intros H. destruct (wf_coo_arrays I m H) as (E1 & E2 & E3 & E4 & E5). unfold Coo_diagonal. rewrite E1, E2, E3.
  set (E := coo_entries m) in *.
  eapply (wp_for_list (fun pre d => is_vec d (Nat.min (coo_rows m) (coo_cols m))
    (fun i => sum0 (map snd (filter (fun e => (fst (fst e) =? i) && (snd (fst e) =? i)) pre)))) E).
  - rewrite map_length. reflexivity.
  - cbn. apply is_vec_repeat.
  - intros pre e post d Ee Hd. cbn [plus]. rewrite (vget_map _ _ _ _ _ Ee). cbn [bind]. rewrite (vget_map _ _ _ _ _ Ee). cbn [bind].
    assert (B : fst (fst e) < coo_rows m /\ snd (fst e) < coo_cols m).
    { rewrite Forall_forall in E5. destruct (E5 e) as [[B1 _] [B2 _]]; [|auto]. rewrite Ee. apply in_or_app. right. left. reflexivity. }
    destruct (Z.eqb_spec (Z.of_nat (fst (fst e))) (Z.of_nat (snd (fst e)))) as [Ez|D].
    + rewrite to_usize_nat. cbn [bind]. rewrite (vget_map _ _ _ _ _ Ee). cbn [bind].
      eapply wp_mono; [apply (vaddto_vec _ _ _ (fst (fst e)) (snd e) Hd); lia|]. intros d2 H2.
      eapply is_vec_ext; [exact H2|]. intros i Hi. cbv beta. rewrite filter_app, map_app. cbn [filter].
      destruct (Nat.eqb_spec i (fst (fst e))) as [Ei|Di].
      * subst i. rewrite Nat.eqb_refl. replace (snd (fst e) =? fst (fst e)) with true by (symmetry; apply Nat.eqb_eq; lia).
        cbn. rewrite sum0_snoc. reflexivity.
      * destruct (Nat.eqb_spec (fst (fst e)) i); [congruence|]. cbn. rewrite app_nil_r. reflexivity.
    + apply wp_ok. eapply is_vec_ext; [exact Hd|]. intros i Hi. cbv beta. rewrite filter_app, map_app. cbn [filter].
      destruct (Nat.eqb_spec (fst (fst e)) i), (Nat.eqb_spec (snd (fst e)) i); try lia; cbn; rewrite app_nil_r; reflexivity.
  - auto.
Qed.

(** ** Scaling *)
Lemma bdat_vals_over j (x : list T) L x0 g : bdat j x L -> length x0 = length x -> length L <= length x ->
  x0 = over (map g L) x -> bdat j x0 (map (fun e => (fst e, g e)) L).
Proof.
  intros [H1 H2] Lx Hl ->. split; rewrite map_length.
  - rewrite H1, map_map. reflexivity.
  - unfold over. rewrite map_map. cbn [snd]. apply firstn_app_exact. rewrite map_length. reflexivity.
Qed.

Definition map_rows (g : nat -> nat * T -> T) R : list (list (nat * T)) :=
  map (fun i => map (fun e => (fst e, g i e)) (nth i R [])) (seq 0 (length R)).

Lemma flat_map_rows s R (h : nat -> nat * T -> nat * T) :
  concat (map (fun i => map (h i) (nth (i - s) R [])) (seq s (length R))) = map (fun t => h (fst t) (snd t)) (flat s R).
Proof.
  rewrite flat_seq, flat_map_concat_map, concat_map, !map_map. f_equal. apply map_ext. intros i. rewrite map_map. reflexivity.
Qed.

Lemma map_rows_crep I c p j (x x0 : list T) R g : crep I c p j x R ->
  x0 = over (map (fun t => g (fst t) (snd t)) (flat 0 R)) x -> crep I c p j x0 (map_rows g R).
Proof.
  intros H Hx. assert (EC : concat (map_rows g R) = map (fun t => (fst (snd t), g (fst t) (snd t))) (flat 0 R)).
  { unfold map_rows. rewrite <- (flat_map_rows 0 R (fun i e => (fst e, g i e))). f_equal. apply map_ext. intros i.
    rewrite Nat.sub_0_r. reflexivity. }
  assert (LR : length (map_rows g R) = length R) by (unfold map_rows; rewrite map_length, seq_length; reflexivity).
  assert (Epre : forall k, length (concat (firstn k (map_rows g R))) = length (concat (firstn k R))).
  { intros k. unfold map_rows. rewrite firstn_map. clear.
    transitivity (length (concat (map (fun i => nth i R []) (firstn k (seq 0 (length R)))))).
    - induction (firstn k (seq 0 (length R))) as [|i l IH]; [reflexivity|]. cbn. rewrite !app_length, map_length, IH. reflexivity.
    - f_equal. f_equal. rewrite <- firstn_map. f_equal. apply nth_ext with (d := []) (d' := []).
      + rewrite map_length, seq_length. reflexivity.
      + intros i Hi. rewrite map_length, seq_length in Hi.
        rewrite (nth_indep _ [] (nth 0 R [])) by (rewrite map_length, seq_length; exact Hi).
        rewrite map_nth with (f := fun i => nth i R []), seq_nth by exact Hi. reflexivity. }
  constructor.
  - rewrite LR. apply (cr_len _ _ _ _ _ _ H).
  - intros pre post E. pose proof (Epre (length pre)) as G. rewrite E, firstn_app_exact in G by reflexivity. rewrite G.
    assert (Hp : length pre <= length R) by (rewrite <- LR, E, app_length; lia).
    pose proof (cr_ptr _ _ _ _ _ _ H (firstn (length pre) R) (skipn (length pre) R) (eq_sym (firstn_skipn _ _))) as B.
    rewrite firstn_length, Nat.min_l in B by exact Hp. exact B.
  - rewrite EC. destruct (cr_dat _ _ _ _ _ _ H) as [D1 D2]. split; rewrite map_length, flat_length.
    + rewrite D1, map_map. cbn. rewrite <- (flat_snd 0 R), map_map. reflexivity.
    + rewrite Hx. unfold over. rewrite firstn_app_exact by (rewrite map_length, flat_length; reflexivity). rewrite map_map. reflexivity.
  - rewrite EC. pose proof (cr_idx _ _ _ _ _ _ H) as F. rewrite <- (flat_snd 0 R) in F. rewrite Forall_map in F.
    rewrite Forall_map. exact F.
  - rewrite EC, map_length, flat_length. apply (cr_fit _ _ _ _ _ _ H).
Qed.

Lemma over_get {A} (l old : list A) q : length l <= q -> length l <= length old -> vget (over l old) q = vget old q.
Proof.
  intros H1 H2. unfold vget, over. rewrite nth_error_app2 by exact H1.
  rewrite <- (firstn_skipn (length l) old) at 2. rewrite nth_error_app2 by (rewrite firstn_length; lia).
  rewrite firstn_length, Nat.min_l by lia. reflexivity.
Qed.
Lemma over_length {A} (l old : list A) : length l <= length old -> length (over l old) = length old.
Proof. intros H. unfold over. rewrite app_length, skipn_length. lia. Qed.

Lemma scale_rows_spec I c n p j (x : list T) R s : crep I c p j x R -> length R = n -> n <= length s ->
  wp (csr_scale_rows n c p j x s) (fun x' => length x' = length x /\
    crep I c p j x' (map_rows (fun i e => smul (snd e) (nth i s s0)) R) /\
    skipn (length (concat R)) x' = skipn (length (concat R)) x).
Proof.
  intros H L Ls. unfold csr_scale_rows. pose proof (crep_len_x _ _ _ _ _ _ H) as LX.
  eapply (wp_flat (fun F x' => x' = over (map (fun t => smul (snd (snd t)) (nth (fst t) s s0)) F) x)); [exact H|exact L|reflexivity| |].
  - intros pre i e post x1 Ee M ->.
    assert (Hl : length pre < length (concat R)).
    { pose proof (flat_length 0 R) as G. rewrite Ee, app_length in G. cbn in G. lia. }
    rewrite over_get by (rewrite map_length; lia). rewrite (met_vx _ _ _ _ _ _ _ _ _ M). cbn [bind].
    rewrite (vget_nth _ _ s0). 2:{ pose proof (met_i _ _ _ _ _ _ _ _ _ M). lia. } cbn [bind].
    rewrite over_set by (rewrite ?map_length; lia). apply wp_ok. rewrite map_app. reflexivity.
  - intros x1 ->. split; [apply over_length; rewrite map_length, flat_length; exact LX|]. split.
    + apply (map_rows_crep _ _ _ _ _ _ _ (fun i e => smul (snd e) (nth i s s0)) H). reflexivity.
    + unfold over. rewrite skipn_app_exact by (rewrite map_length, flat_length; reflexivity).
      rewrite map_length, flat_length. reflexivity.
Qed.

Lemma scale_columns_spec I c n p j (x : list T) R s : crep I c p j x R -> length R = n -> c <= length s ->
  wp (csr_scale_columns n c p j x s) (fun x' => length x' = length x /\
    crep I c p j x' (map_rows (fun i e => smul (snd e) (nth (fst e) s s0)) R) /\
    skipn (length (concat R)) x' = skipn (length (concat R)) x).
Proof.
  intros H L Ls. unfold csr_scale_columns. pose proof (crep_len_x _ _ _ _ _ _ H) as LX.
  rewrite <- L, (crep_nnz _ _ _ _ _ _ H). cbn [bind].
  eapply (wp_for_list (fun F x' => x' = over (map (fun e => smul (snd e) (nth (fst e) s s0)) F) x) (concat R)); [reflexivity|reflexivity| |].
  - intros pre e post x1 Ee ->. cbn [plus].
    assert (Hl : length pre < length (concat R)) by (rewrite Ee, app_length; cbn; lia).
    rewrite over_get by (rewrite map_length; lia). rewrite (bdat_vx _ _ _ _ _ _ (cr_dat _ _ _ _ _ _ H) Ee). cbn [bind].
    rewrite (bdat_pj _ _ _ _ _ _ (cr_dat _ _ _ _ _ _ H) Ee). cbn [bind].
    assert (fst e < c). { pose proof (cr_idx _ _ _ _ _ _ H) as F. rewrite Forall_forall in F. apply F. rewrite Ee. apply in_or_app. right. left. reflexivity. }
    rewrite (vget_nth _ _ s0) by lia. cbn [bind]. rewrite over_set by (rewrite ?map_length; lia). apply wp_ok. rewrite map_app. reflexivity.
  - intros x1 ->. split; [apply over_length; rewrite map_length; exact LX|]. split.
    + apply (map_rows_crep _ _ _ _ _ _ _ (fun i e => smul (snd e) (nth (fst e) s s0)) H).
      f_equal. rewrite <- (flat_snd 0 R), map_map. reflexivity.
    + unfold over. rewrite skipn_app_exact by (rewrite map_length; reflexivity). rewrite map_length. reflexivity.
Qed.

(** ** Blocks: element v of group i lies at m*i + v *)
Lemma grid_inj m i v i' v' : v < m -> v' < m -> m * i + v = m * i' + v' -> i = i' /\ v = v'.
Proof.
  intros H1 H2 E. assert (i = i').
  { transitivity ((m * i + v) / m); [apply (Nat.div_unique _ _ _ v H1 eq_refl)|symmetry; apply (Nat.div_unique _ _ _ v' H2 E)]. }
  subst. lia.
Qed.
Definition is_grid (y : list T) (n m : nat) (f : nat -> nat -> T) : Prop :=
  length y = m * n /\ forall i v, i < n -> v < m -> nth (m * i + v) y s0 = f i v.
Lemma is_grid_ext y n m f g : is_grid y n m f -> (forall i v, i < n -> v < m -> f i v = g i v) -> is_grid y n m g.
Proof. intros [H1 H2] H. split; [exact H1|]. intros i v Hi Hv. rewrite H2, H by assumption. reflexivity. Qed.
Lemma grid_lt m n i v : i < n -> v < m -> m * i + v < m * n.
Proof. nia. Qed.
Lemma vaddto_grid y n m f i v a : is_grid y n m f -> i < n -> v < m ->
  wp (vaddto y (m * i + v) a) (fun y' => is_grid y' n m (fun i' v' => if (i' =? i) && (v' =? v) then sadd (f i' v') a else f i' v')).
Proof.
  intros [L H] Hi Hv. pose proof (grid_lt m n i v Hi Hv) as G. unfold vaddto. rewrite (vget_nth _ _ s0) by lia. cbn [bind].
  rewrite H by assumption. apply vset_wp; [lia|]. split; [rewrite upd_length; exact L|]. intros i' v' Hi' Hv'.
  destruct (Nat.eqb_spec i' i) as [Ei|D]; [destruct (Nat.eqb_spec v' v) as [Ev|D]|]; cbn [andb].
  - subst. rewrite nth_upd_eq by lia. reflexivity.
  - rewrite nth_upd_ne; [apply H; assumption|]. intros E. apply grid_inj in E; try assumption. tauto.
  - rewrite nth_upd_ne; [apply H; assumption|]. intros E. apply grid_inj in E; try assumption. tauto.
Qed.

Lemma axpy_grid n m a x xo y f i : is_grid y n m f -> i < n -> xo + m <= length x ->
  wp (axpy m a x xo y (m * i)) (fun y' => is_grid y' n m (fun i' v => if i' =? i then sadd (f i' v) (smul a (nth (xo + v) x s0)) else f i' v)).
Proof.
  intros H Hi Hx. unfold axpy.
  eapply (wp_for (fun q y => is_grid y n m (fun i' v => if (i' =? i) && (v <? q) then sadd (f i' v) (smul a (nth (xo + v) x s0)) else f i' v)) 0 m).
  - lia.
  - eapply is_grid_ext; [exact H|]. intros i' v _ _. rewrite andb_false_r. reflexivity.
  - intros q y1 Hq H1. rewrite (vget_nth _ _ s0) by lia. cbn [bind].
    eapply wp_mono; [apply (vaddto_grid _ _ _ _ i q (smul a (nth (xo + q) x s0)) H1 Hi); lia|]. intros y2 H2.
    eapply is_grid_ext; [exact H2|]. intros i' v Hi' Hv. cbv beta. destruct (Nat.eqb_spec i' i); cbn [andb]; [|reflexivity].
    destruct (Nat.eqb_spec v q) as [Ev|D].
    + subst v. rewrite Nat.ltb_irrefl. destruct (Nat.ltb_spec q (S q)); [reflexivity|lia].
    + destruct (Nat.ltb_spec v q), (Nat.ltb_spec v (S q)); try lia; reflexivity.
  - intros y1 H1. eapply is_grid_ext; [exact H1|]. intros i' v Hi' Hv. cbv beta.
    destruct (Nat.ltb_spec v m); [|lia]. rewrite andb_true_r. reflexivity.
Qed.

(** products of a row with vector [v] of the block *)
Definition bprods (x : list T) (m v : nat) (r : list (nat * T)) : list T :=
  map (fun e => smul (snd e) (nth (m * fst e + v) x s0)) r.

Lemma matvecs_spec I c n m p j (a : list T) R x y f : crep I c p j a R -> length R = n -> length x = m * c -> is_grid y n m f ->
  wp (csr_matvecs n c m p j a x y) (fun y' => is_grid y' n m (fun i v => fold_left sadd (bprods x m v (nth i R [])) (f i v))).
Proof.
  intros H L Hx Hy. unfold csr_matvecs.
  eapply (wp_for_list (fun pre y => is_grid y n m (fun i v => if i <? length pre then fold_left sadd (bprods x m v (nth i R [])) (f i v) else f i v)) R).
  - exact (eq_sym L).
  - exact Hy.
  - intros pre r post y1 ER Hy1. cbn [plus]. assert (Hi : length pre < n) by (subst; rewrite app_length; cbn; lia).
    destruct (Nat.ltb_spec (length y1) (m * length pre)). { rewrite (proj1 Hy1) in *. nia. }
    rewrite (crep_start H ER). cbn [bind]. rewrite (crep_end H ER). cbn [bind].
    eapply (wp_for_list (fun ip y => is_grid y n m (fun i v => if i =? length pre then fold_left sadd (bprods x m v ip) (f i v)
       else if i <? length pre then fold_left sadd (bprods x m v (nth i R [])) (f i v) else f i v)) r).
    + reflexivity.
    + eapply is_grid_ext; [exact Hy1|]. intros i v Hi' Hv. cbv beta. destruct (Nat.eqb_spec i (length pre)) as [->|]; [|reflexivity].
      rewrite Nat.ltb_irrefl. reflexivity.
    + intros ip e iq y2 Er H2. rewrite (crep_pj H ER Er). cbn [bind]. rewrite (crep_vx H ER Er). cbn [bind].
      destruct (crep_col H ER Er) as [Hc _]. destruct (Nat.ltb_spec (length x) (m * fst e)). { rewrite Hx in *. nia. }
      eapply wp_mono; [apply (axpy_grid _ _ (snd e) x (m * fst e) _ _ (length pre) H2 Hi); rewrite Hx; nia|]. intros y3 H3.
      eapply is_grid_ext; [exact H3|]. intros i v Hi' Hv. cbv beta. destruct (Nat.eqb_spec i (length pre)); [|reflexivity].
      unfold bprods. rewrite map_app, fold_left_app. reflexivity.
    + intros y2 H2. eapply is_grid_ext; [exact H2|]. intros i v Hi' Hv. cbv beta. rewrite app_length. cbn [length].
      destruct (Nat.eqb_spec i (length pre)) as [->|D].
      * destruct (Nat.ltb_spec (length pre) (length pre + 1)); [|lia]. rewrite ER, nth_middle. reflexivity.
      * destruct (Nat.ltb_spec i (length pre)), (Nat.ltb_spec i (length pre + 1)); try lia; reflexivity.
  - intros y1 Hy1. eapply is_grid_ext; [exact Hy1|]. intros i v Hi Hv. cbv beta. destruct (Nat.ltb_spec i (length R)); [reflexivity|lia].
Qed.

Definition bcprods (x : list T) (m v : nat) (F : list (nat * (nat * T))) (i : nat) : list T :=
  map (fun t => smul (snd (snd t)) (nth (m * fst t + v) x s0)) (filter (fun t => fst (snd t) =? i) F).
Lemma bcprods_flat x m v s R i : bcprods x m v (flat s R) i =
  flat_map (fun k => map (fun a => smul a (nth (m * k + v) x s0)) (at_ i (nth (k - s) R []))) (seq s (length R)).
Proof.
  revert s. induction R as [|r R IH]; intros s; cbn [flat length seq flat_map]; [reflexivity|].
  unfold bcprods in *. rewrite filter_app, map_app, IH. rewrite Nat.sub_diag. cbn [nth]. f_equal.
  - clear. unfold at_. induction r as [|e r IH]; [reflexivity|]. cbn. destruct (fst e =? i); cbn; rewrite IH; reflexivity.
  - rewrite !flat_map_concat_map. f_equal. apply map_ext_in. intros k Hk. apply in_seq in Hk.
    replace (k - s) with (S (k - S s)) by lia. reflexivity.
Qed.
Lemma csc_matvecs_spec I r n m p j (a : list T) R x y f : crep I r p j a R -> length R = n -> length x = m * n -> is_grid y r m f ->
  wp (csc_matvecs r n m p j a x y) (fun y' => is_grid y' r m (fun i v => fold_left sadd (bcprods x m v (flat 0 R) i) (f i v))).
Proof.
  intros H L Hx Hy. unfold csc_matvecs.
  eapply (wp_flat (fun F y => is_grid y r m (fun i v => fold_left sadd (bcprods x m v F i) (f i v)))); [exact H|exact L|exact Hy| |].
  - intros pre i e post y1 _ M Hy1. rewrite (met_pj _ _ _ _ _ _ _ _ _ M). cbn [bind]. rewrite (met_vx _ _ _ _ _ _ _ _ _ M). cbn [bind].
    pose proof (met_i _ _ _ _ _ _ _ _ _ M) as Hi. pose proof (met_c _ _ _ _ _ _ _ _ _ M) as Hc.
    destruct (Nat.ltb_spec (length x) (m * i)). { rewrite Hx in *. nia. }
    destruct (Nat.ltb_spec (length y1) (m * fst e)). { rewrite (proj1 Hy1) in *. nia. }
    eapply wp_mono; [apply (axpy_grid _ _ (snd e) x (m * i) _ _ (fst e) Hy1 Hc); rewrite Hx; nia|]. intros y3 H3.
    eapply is_grid_ext; [exact H3|]. intros k v Hk Hv. cbv beta. unfold bcprods. rewrite filter_app, map_app. cbn [filter fst snd].
    rewrite (Nat.eqb_sym (fst e) k). destruct (k =? fst e); cbn; [rewrite fold_left_app|rewrite app_nil_r]; reflexivity.
  - auto.
Qed.

(** ** Coordinate kernels *)
Definition vals_at (E : list (nat * nat * T)) (i k : nat) : list T :=
  map snd (filter (fun e => (fst (fst e) =? i) && (snd (fst e) =? k)) E).
Lemma vals_at_snoc E e i k : vals_at (E ++ [e]) i k = vals_at E i k ++ (if (fst (fst e) =? i) && (snd (fst e) =? k) then [snd e] else []).
Proof. unfold vals_at. rewrite filter_app, map_app. cbn. destruct (_ && _); reflexivity. Qed.
Lemma coo_bound I (m : Coo T) pre e post : wf_coo I m -> coo_entries m = pre ++ e :: post -> fst (fst e) < coo_rows m /\ snd (fst e) < coo_cols m.
Proof.
  intros H Ee. destruct (wf_coo_arrays I m H) as (_ & _ & _ & _ & E5). rewrite Forall_forall in E5.
  destruct (E5 e) as [[B1 _] [B2 _]]; [|auto]. rewrite Ee. apply in_or_app. right. left. reflexivity.
Qed.

Lemma coo_todense_c_spec I (m : Coo T) b f : wf_coo I m -> is_grid b (coo_rows m) (coo_cols m) f ->
  wp (coo_todense (coo_rows m) (coo_cols m) (length (coo_values m)) (coo_rowidx m) (coo_colidx m) (coo_values m) b false)
     (fun b' => is_grid b' (coo_rows m) (coo_cols m) (fun i k => fold_left sadd (coo_at m i k) (f i k))).
Proof.
  intros H Hb. destruct (wf_coo_arrays I m H) as (E1 & E2 & E3 & E4 & _). unfold coo_todense. cbn [negb]. rewrite E1, E2, E3.
  eapply (wp_for_list (fun E b => is_grid b (coo_rows m) (coo_cols m) (fun i k => fold_left sadd (vals_at E i k) (f i k))) (coo_entries m)).
  - rewrite map_length. reflexivity.
  - exact Hb.
  - intros pre e post b1 Ee H1. cbn [plus]. rewrite (pget_map (fun e => fst (fst e)) _ _ _ _ Ee). cbn [bind].
    rewrite (pget_map (fun e => snd (fst e)) _ _ _ _ Ee). cbn [bind]. rewrite (vget_map _ _ _ _ _ Ee). cbn [bind].
    destruct (coo_bound I m _ _ _ H Ee) as [B1 B2].
    eapply wp_mono; [apply (vaddto_grid _ _ _ _ _ _ (snd e) H1 B1 B2)|]. intros b2 H2. eapply is_grid_ext; [exact H2|].
    intros i k Hi Hk. cbv beta. rewrite vals_at_snoc. rewrite (Nat.eqb_sym i), (Nat.eqb_sym k).
    destruct (_ && _); [rewrite fold_left_app|rewrite app_nil_r]; reflexivity.
  - intros b1 H1. exact H1.
Qed.
Lemma coo_todense_f_spec I (m : Coo T) b f : wf_coo I m -> is_grid b (coo_cols m) (coo_rows m) f ->
  wp (coo_todense (coo_rows m) (coo_cols m) (length (coo_values m)) (coo_rowidx m) (coo_colidx m) (coo_values m) b true)
     (fun b' => is_grid b' (coo_cols m) (coo_rows m) (fun k i => fold_left sadd (coo_at m i k) (f k i))).
Proof.
  intros H Hb. destruct (wf_coo_arrays I m H) as (E1 & E2 & E3 & E4 & _). unfold coo_todense. cbn [negb]. rewrite E1, E2, E3.
  eapply (wp_for_list (fun E b => is_grid b (coo_cols m) (coo_rows m) (fun k i => fold_left sadd (vals_at E i k) (f k i))) (coo_entries m)).
  - rewrite map_length. reflexivity.
  - exact Hb.
  - intros pre e post b1 Ee H1. cbn [plus].
    rewrite (pget_map (fun e => snd (fst e)) _ _ _ _ Ee). cbn [bind].
    rewrite (pget_map (fun e => fst (fst e)) _ _ _ _ Ee). cbn [bind]. rewrite (vget_map _ _ _ _ _ Ee). cbn [bind].
    destruct (coo_bound I m _ _ _ H Ee) as [B1 B2].
    eapply wp_mono; [apply (vaddto_grid _ _ _ _ _ _ (snd e) H1 B2 B1)|]. intros b2 H2. eapply is_grid_ext; [exact H2|].
    intros k i Hk Hi. cbv beta. rewrite vals_at_snoc. rewrite (Nat.eqb_sym k), (Nat.eqb_sym i), andb_comm.
    destruct (_ && _); [rewrite fold_left_app|rewrite app_nil_r]; reflexivity.
  - intros b1 H1. exact H1.
Qed.

Lemma coo_matvec_spec I (m : Coo T) x y f : wf_coo I m -> length x = coo_cols m -> is_vec y (coo_rows m) f ->
  wp (coo_matvec (length (coo_values m)) (coo_rowidx m) (coo_colidx m) (coo_values m) x y)
     (fun y' => is_vec y' (coo_rows m) (fun i => fold_left sadd
        (map (fun e => smul (snd e) (nth (snd (fst e)) x s0)) (filter (fun e => fst (fst e) =? i) (coo_entries m))) (f i))).
Proof.
  intros H Lx Hb. destruct (wf_coo_arrays I m H) as (E1 & E2 & E3 & E4 & _). unfold coo_matvec. rewrite E1, E2, E3.
  eapply (wp_for_list (fun E y => is_vec y (coo_rows m) (fun i => fold_left sadd
        (map (fun e => smul (snd e) (nth (snd (fst e)) x s0)) (filter (fun e => fst (fst e) =? i) E)) (f i))) (coo_entries m)).
  - rewrite map_length. reflexivity.
  - exact Hb.
  - intros pre e post b1 Ee H1. cbn [plus]. destruct (coo_bound I m _ _ _ H Ee) as [B1 B2].
    rewrite (pget_map (fun e => fst (fst e)) _ _ _ _ Ee). cbn [bind].
    rewrite (pget_map (fun e => snd (fst e)) _ _ _ _ Ee). cbn [bind]. rewrite (vget_map _ _ _ _ _ Ee). cbn [bind].
    rewrite (vget_nth _ _ s0) by lia. cbn [bind].
    eapply wp_mono; [apply (vaddto_vec _ _ _ _ _ H1 B1)|]. intros b2 H2. eapply is_vec_ext; [exact H2|].
    intros i Hi. cbv beta. rewrite filter_app, map_app. cbn [filter]. rewrite (Nat.eqb_sym i).
    destruct (_ =? _); cbn; [rewrite fold_left_app|rewrite app_nil_r]; reflexivity.
  - intros b1 H1. exact H1.
Qed.

Lemma Coo_to_dense_spec I (m : Coo T) : wf_coo I m ->
  wp (Coo_to_dense m) (fun d => is_table d (coo_rows m) (coo_cols m) (fun i k => coo_val m i k)).
Proof.
  intros H. destruct (wf_coo_arrays I m H) as (E1 & E2 & E3 & E4 & _). unfold Coo_to_dense, Coo_nnz. rewrite E1, E2, E3.
  eapply (wp_for_list (fun E d => is_table d (coo_rows m) (coo_cols m) (fun i k => sum0 (vals_at E i k))) (coo_entries m)).
  - rewrite map_length. reflexivity.
  - apply is_table_zero.
  - intros pre e post d1 Ee H1. cbn [plus]. rewrite (pget_map (fun e => fst (fst e)) _ _ _ _ Ee). cbn [bind].
    rewrite (pget_map (fun e => snd (fst e)) _ _ _ _ Ee). cbn [bind].
    destruct (coo_bound I m _ _ _ H Ee) as [B1 B2].
    destruct (is_table_row _ _ _ _ _ H1 B1) as [G1 G2]. rewrite G1. cbn [bind].
    rewrite (is_vec_get _ _ _ _ G2 B2). cbn [bind]. rewrite (vget_map _ _ _ _ _ Ee). cbn [bind].
    destruct (is_vec_set _ _ _ _ (sadd (sum0 (vals_at pre (fst (fst e)) (snd (fst e)))) (snd e)) G2 B2) as (y & Ey & Hy).
    rewrite Ey. cbn [bind].
    destruct (is_table_setrow _ _ _ _ _ y _ H1 B1 Hy) as (d2 & Ed & H2). exists d2. split; [exact Ed|].
    eapply is_table_ext; [exact H2|]. intros i k Hi Hk. cbv beta. rewrite vals_at_snoc.
    rewrite (Nat.eqb_sym (fst (fst e)) i), (Nat.eqb_sym (snd (fst e)) k).
    destruct (Nat.eqb_spec i (fst (fst e))) as [Ei|D]; [destruct (Nat.eqb_spec k (snd (fst e))) as [Ek|D]|]; cbn [andb].
    + subst. rewrite sum0_snoc. reflexivity.
    + subst i. rewrite app_nil_r. reflexivity.
    + rewrite app_nil_r. reflexivity.
  - intros d1 H1. exact H1.
Qed.
End Lin2.

(** ** Matrix level *)
Section Mat.
Context {T : Type} {SC : Scalar T}.
Variable I : ity.
Implicit Types R : list (list (nat * T)).

Lemma flat_map_ext_in' {A B} (f g : A -> list B) l : (forall a, In a l -> f a = g a) -> flat_map f l = flat_map g l.
Proof. intros H. rewrite !flat_map_concat_map. f_equal. apply map_ext_in, H. Qed.
Lemma map_rows_length (g : nat -> nat * T -> T) R : length (map_rows g R) = length R.
Proof. unfold map_rows. rewrite map_length, seq_length. reflexivity. Qed.
Lemma nth_map_rows (g : nat -> nat * T -> T) R i : i < length R ->
  nth i (map_rows g R) [] = map (fun e => (fst e, g i e)) (nth i R []).
Proof.
  intros Hi. unfold map_rows. set (h := fun i => map (fun e => (fst e, g i e)) (nth i R [])).
  rewrite (nth_indep _ [] (h 0)) by (rewrite map_length, seq_length; exact Hi).
  rewrite map_nth, seq_nth by exact Hi. reflexivity.
Qed.

Definition tri (t : nat * (nat * T)) : nat * nat * T := ((fst t, fst (snd t)), snd (snd t)).
Definition tric (t : nat * (nat * T)) : nat * nat * T := ((fst (snd t), fst t), snd (snd t)).
Lemma vals_of_flat R i k : vals_at (map tri (flat 0 R)) i k = at_ k (nth i R []).
Proof.
  pose proof (cell_flat R i k 0) as H. cbn in H. rewrite Nat.sub_0_r in H. rewrite <- H. clear H.
  unfold vals_at, cell. induction (flat 0 R) as [|t F IH]; [reflexivity|]. cbn. destruct (_ && _); cbn; rewrite IH; reflexivity.
Qed.
Lemma vals_of_flat_col R i k : vals_at (map tric (flat 0 R)) i k = at_ i (nth k R []).
Proof.
  pose proof (cell_flat R k i 0) as H. cbn in H. rewrite Nat.sub_0_r in H. rewrite <- H. clear H.
  unfold vals_at, cell. induction (flat 0 R) as [|t F IH]; [reflexivity|]. cbn. rewrite andb_comm. destruct (_ && _); cbn; rewrite IH; reflexivity.
Qed.
Lemma combine_tri (F : list (nat * (nat * T))) f g h :
  combine (combine (map (fun t => Z.to_nat (Z.of_nat (f t))) F) (map (fun t => Z.to_nat (Z.of_nat (g t))) F)) (map h F)
  = map (fun t : nat * (nat * T) => ((f t : nat, g t : nat), h t : T)) F.
Proof. induction F as [|t F IH]; [reflexivity|]. cbn. rewrite IH, !Nat2Z.id. reflexivity. Qed.
Lemma in_flat_bound c p j (x : list T) R t : crep I c p j x R -> In t (flat 0 R) ->
  fst t < length R /\ fst (snd t) < c /\ (Z.of_nat (fst (snd t)) <= imax I)%Z.
Proof.
  intros H Ht. split; [apply in_flat in Ht; lia|].
  pose proof (cr_idx _ _ _ _ _ _ H) as F. rewrite Forall_forall in F. apply F. rewrite <- (flat_snd 0 R). apply in_map, Ht.
Qed.
Lemma flat_rows_fit R t : rows_fit I R -> In t (flat 0 R) -> (Z.of_nat (fst t) <= imax I)%Z.
Proof.
  intros H Ht. apply in_flat in Ht. rewrite Nat.sub_0_r in Ht. destruct Ht as [H1 H2].
  apply (H (fst t) (nth (fst t) R [])); [apply nth_error_nth'; lia|]. destruct (nth (fst t) R []); [destruct H2|discriminate].
Qed.
Lemma wf_coo_flat r c p j (x : list T) R : crep I c p j x R -> length R = r -> rows_fit I R ->
  wf_coo I (mkCoo r c (map (fun t => Z.of_nat (fst t)) (flat 0 R)) (map (fun t => Z.of_nat (fst (snd t))) (flat 0 R)) (map (fun t => snd (snd t)) (flat 0 R))).
Proof.
  intros H L Hf. constructor; cbn; rewrite ?map_length; try reflexivity; apply Forall_map, Forall_forall; intros t Ht;
    pose proof (in_flat_bound _ _ _ _ _ _ H Ht); pose proof (flat_rows_fit _ _ Hf Ht); lia.
Qed.
Lemma wf_coo_swap (m : Coo T) : wf_coo I m -> wf_coo I (Coo_t m).
Proof. intros []. constructor; assumption. Qed.

Lemma crep_j_firstn c p j (x : list T) R : crep I c p j x R ->
  firstn (length (concat R)) j = map (fun t => Z.of_nat (fst (snd t))) (flat 0 R) /\
  firstn (length (concat R)) x = map (fun t => snd (snd t)) (flat 0 R).
Proof.
  intros H. destruct (cr_dat _ _ _ _ _ _ H) as [A B]. rewrite A, B, <- (flat_snd 0 R), !map_map. split; reflexivity.
Qed.

Lemma skipn_repeat' {A} (a : A) n k : skipn n (repeat a k) = repeat a (k - n).
Proof. revert k. induction n as [|n IH]; intros [|k]; try reflexivity. apply IH. Qed.
Lemma CSR_to_coo_surplus (m : CSR T) R : csr_rep I m R -> rows_fit I R ->
  (length (csr_colidx m) = length (csr_values m) ->
   exists r, CSR_to_coo I m = Ok r /\
     (coo_rows r = csr_rows m /\ coo_cols r = csr_cols m /\ coo_colidx r = csr_colidx m /\ coo_values r = csr_values m /\
      coo_rowidx r = map (fun t => Z.of_nat (fst t)) (flat 0 R) ++ repeat 0%Z (length (csr_colidx m) - length (concat R))) /\
     coo_entries r = map (fun t => ((fst t, fst (snd t)), snd (snd t))) (flat 0 R) ++
       combine (map (fun z => (0, Z.to_nat z)) (skipn (length (concat R)) (csr_colidx m))) (skipn (length (concat R)) (csr_values m))) /\
  (length (csr_colidx m) <> length (csr_values m) -> CSR_to_coo I m = Panic).
Proof.
  intros HR Hf. pose proof (crep_len_j _ _ _ _ _ _ (proj2 HR)) as LJ. pose proof (crep_len_x _ _ _ _ _ _ (proj2 HR)) as LX.
  unfold CSR_to_coo.
  rewrite (expandptr_spec I _ _ _ _ _ _ _ (proj2 HR) (proj1 HR) Hf) by (rewrite repeat_length; exact LJ). cbn [bind].
  assert (LO : length (over (map (fun t : nat * (nat * T) => Z.of_nat (fst t)) (flat 0 R)) (repeat 0%Z (length (csr_colidx m)))) = length (csr_colidx m)).
  { rewrite over_length; rewrite ?repeat_length; [reflexivity|]. rewrite map_length, flat_length. exact LJ. }
  split.
  - intros L. unfold Coo_new. rewrite LO, L, Nat.eqb_refl. cbn [negb orb unwrap]. eexists. split; [reflexivity|].
    split. { cbn. sp. unfold over. rewrite map_length, flat_length, skipn_repeat'. reflexivity. }
    unfold coo_entries. cbn [coo_rowidx coo_colidx coo_values].
    destruct (crep_j_firstn _ _ _ _ _ (proj2 HR)) as [A B].
    pose proof (firstn_skipn (length (concat R)) (csr_colidx m)) as EJ. pose proof (firstn_skipn (length (concat R)) (csr_values m)) as EX.
    rewrite A in EJ. rewrite B in EX. set (SJ := skipn _ (csr_colidx m)) in *. set (SX := skipn _ (csr_values m)) in *.
    assert (LS : length (csr_values m) - length (concat R) = length SJ).
    { unfold SJ. rewrite skipn_length. lia. }
    unfold over. rewrite map_length, flat_length, skipn_repeat', LS, <- EJ, <- EX, !map_app, !map_map.
    rewrite !combine_app by (rewrite ?map_length, ?combine_length, ?map_length, ?Nat.min_id; reflexivity).
    rewrite combine_tri. f_equal. f_equal. clear. induction SJ as [|z l IH]; [reflexivity|]. cbn. f_equal. exact IH.
  - intros L. unfold Coo_new. rewrite LO. destruct (Nat.eqb_spec (length (csr_values m)) (length (csr_colidx m))); [congruence|reflexivity].
Qed.

Lemma CSR_to_coo_tight (m : CSR T) R : csr_rep I m R -> rows_fit I R ->
  length (csr_colidx m) = length (concat R) /\ length (csr_values m) = length (concat R) ->
  exists r, CSR_to_coo I m = Ok r /\ wf_coo I r /\ coo_rows r = csr_rows m /\ coo_cols r = csr_cols m /\
    coo_entries r = map tri (flat 0 R).
Proof.
  intros HR Hf [LJ LX]. unfold CSR_to_coo.
  rewrite (expandptr_spec I _ _ _ _ _ _ _ (proj2 HR) (proj1 HR) Hf) by (rewrite repeat_length, LJ; reflexivity). cbn [bind].
  rewrite over_all by (rewrite repeat_length, map_length, flat_length, LJ; reflexivity).
  destruct (crep_j_firstn _ _ _ _ _ (proj2 HR)) as [A B]. rewrite <- LJ, firstn_all in A. rewrite <- LX, firstn_all in B.
  unfold Coo_new. rewrite LJ, LX, map_length, flat_length, Nat.eqb_refl. cbn [negb orb unwrap]. eexists. split; [reflexivity|].
  rewrite A, B. sp.
  - apply (wf_coo_flat _ _ _ _ _ _ (proj2 HR) (proj1 HR) Hf).
  - unfold coo_entries. cbn. rewrite !map_map. apply combine_tri.
Qed.

Lemma CSC_to_coo_rep (m : CSC T) R : csc_rep I m R -> rows_fit I R ->
  exists r, CSC_to_coo I m = Ok r /\ wf_coo I r /\ coo_rows r = csc_rows m /\ coo_cols r = csc_cols m /\
    coo_entries r = map tric (flat 0 R).
Proof.
  intros HR Hf. unfold CSC_to_coo. rewrite (CSC_nnz_rep _ _ _ HR). cbn [bind].
  rewrite (tocoo_spec I _ _ _ _ _ _ _ _ _ (proj2 HR) (proj1 HR) Hf) by (rewrite repeat_length; reflexivity). cbn [bind].
  unfold Coo_new. rewrite !map_length, Nat.eqb_refl. cbn [negb orb unwrap]. eexists. split; [reflexivity|]. sp.
  - apply (wf_coo_swap _ (wf_coo_flat _ _ _ _ _ _ (proj2 HR) (proj1 HR) Hf)).
  - unfold coo_entries. cbn. rewrite !map_map. apply combine_tri.
Qed.

Lemma CSR_to_dense_rep (m : CSR T) R : csr_rep I m R ->
  wp (CSR_to_dense m) (fun d => is_table d (csr_rows m) (csr_cols m) (csr_val m)).
Proof.
  intros HR. unfold CSR_to_dense.
  eapply wp_mono; [apply (todense_spec I _ _ _ _ _ _ _ _ (proj2 HR) (proj1 HR) (is_table_zero _ _))|].
  intros d D. eapply is_table_ext; [exact D|]. intros i k _ _. unfold csr_val, sum0. rewrite (csr_rep_at _ _ _ _ _ HR). reflexivity.
Qed.
Lemma CSR_mat_vec_rep (m : CSR T) R x : csr_rep I m R -> length x = csr_cols m ->
  wp (CSR_mat_vec m x) (fun y => is_vec y (csr_rows m) (fun i => sum0 (prods x (nth i R [])))).
Proof.
  intros HR Hl. unfold CSR_mat_vec. rewrite Hl, Nat.eqb_refl. cbn [negb].
  apply (matvec_spec I _ _ _ _ _ _ x _ _ (proj2 HR) (proj1 HR) Hl (is_vec_repeat _ s0)).
Qed.
Lemma CSC_mat_vec_rep (m : CSC T) R x : csc_rep I m R -> length x = csc_cols m ->
  wp (CSC_mat_vec m x) (fun y => is_vec y (csc_rows m) (fun i =>
    sum0 (flat_map (fun k => map (fun v => smul v (nth k x s0)) (at_ i (nth k R []))) (seq 0 (csc_cols m))))).
Proof.
  intros HR Hl. unfold CSC_mat_vec. rewrite Hl, Nat.eqb_refl. cbn [negb].
  eapply wp_mono; [apply (csc_matvec_spec I _ _ _ _ _ _ x _ _ (proj2 HR) (proj1 HR) Hl (is_vec_repeat _ s0))|].
  intros y Y. eapply is_vec_ext; [exact Y|]. intros i _. cbv beta. unfold sum0. f_equal. rewrite cprods_flat, (proj1 HR).
  apply flat_map_ext_in'. intros k _. rewrite Nat.sub_0_r. reflexivity.
Qed.
End Mat.
