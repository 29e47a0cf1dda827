(** Sums of complex products without rounding. *)
From Verif Require Import Rust Scalar Model_kernels Model_matrix Spec SpecBoundary SpecRound SpecExact SpecComplex SpecCexact Wp Rep CanonProofs ArithProofs Main_convert Main_linear Main_struct Main_boundary Main_product Main_addition Main_arith Main_more Main_float Main_round Main_exact Main_complex.
From Coq Require Import ZArith QArith Qabs List Lia Lqa Setoid Morphisms.
Import ListNotations.
Open Scope Q_scope.

Section E.
Context {T : Type} {SC : Scalar T} {real : T -> Q} {fin : T -> Prop} {unit bound : Q} (R : ExactBelow real fin unit bound).

Lemma xpart_re : @ExactBelow (cplx T) (apart SC) (fun v => real (cx_re v)) (fun v => fin (cx_re v)) unit bound.
Proof.
  destruct R as [A B C D E]. constructor; cbn; intros; auto. apply andb_prop in H as [H _]. exact (B _ H).
Qed.
Lemma xpart_im : @ExactBelow (cplx T) (apart SC) (fun v => real (cx_im v)) (fun v => fin (cx_im v)) unit bound.
Proof.
  destruct R as [A B C D E]. constructor; cbn; intros; auto. apply andb_prop in H as [_ H]. exact (B _ H).
Qed.
Definition small_pair (e : Q * Q) : Prop := multiple unit (fst e) /\ multiple unit (snd e) /\ Qabs (fst e) + Qabs (snd e) <= bound.
Record XPart (pj : cplx T -> T) (pr : cplx T -> cplx T -> Q * Q) : Prop := {
  xp_apart : @ExactBelow (cplx T) (apart SC) (fun v => real (pj v)) (fun v => fin (pj v)) unit bound;
  xp_mul : forall a b, cplx_fin fin a -> cplx_fin fin b -> small_pair (pr a b) ->
    fin (pj (smul a b)) /\ real (pj (smul a b)) == fst (pr a b) + snd (pr a b);
}.
Lemma mult_eq a b : a == b -> multiple unit a -> multiple unit b.
Proof. intros E [n H]. exists n. rewrite <- E. exact H. Qed.
Lemma xre : XPart cx_re (re_pair real).
Proof.
  constructor; [exact xpart_re|]. intros a b [A1 A2] [B1 B2] (M1 & M2 & S). cbn [re_pair fst snd smul scalar_cplx cx_re] in *. rewrite Qabs_opp in S.
  set (p := real (cx_re a) * real (cx_re b)) in *. set (q := real (cx_im a) * real (cx_im b)) in *.
  assert (M3 : multiple unit q) by (apply mult_eq with (- - q); [ring|apply mult_opp, M2]).
  pose proof (Qabs_nonneg p). pose proof (Qabs_nonneg q).
  destruct (eb_mul _ _ _ _ R (cx_re a) (cx_re b)) as [F1 E1]; try assumption; [fold p; lra|].
  destruct (eb_mul _ _ _ _ R (cx_im a) (cx_im b)) as [F2 E2]; try assumption; [fold q; lra|]. fold p in E1. fold q in E2.
  assert (ES : real (smul (cx_re a) (cx_re b)) - real (smul (cx_im a) (cx_im b)) == p + - q) by (rewrite E1, E2; ring).
  destruct (eb_sub _ _ _ _ R _ _ F1 F2) as [F3 E3].
  - apply mult_eq with (p + - q); [symmetry; exact ES|]. apply mult_add; assumption.
  - rewrite ES. pose proof (Qabs_triangle p (- q)) as T1. rewrite Qabs_opp in T1. lra.
  - split; [exact F3|]. rewrite E3. exact ES.
Qed.
Lemma xim : XPart cx_im (im_pair real).
Proof.
  constructor; [exact xpart_im|]. intros a b [A1 A2] [B1 B2] (M1 & M2 & S). cbn [im_pair fst snd smul scalar_cplx cx_im] in *.
  set (p := real (cx_re a) * real (cx_im b)) in *. set (q := real (cx_im a) * real (cx_re b)) in *.
  pose proof (Qabs_nonneg p). pose proof (Qabs_nonneg q).
  destruct (eb_mul _ _ _ _ R (cx_re a) (cx_im b)) as [F1 E1]; try assumption; [fold p; lra|].
  destruct (eb_mul _ _ _ _ R (cx_im a) (cx_re b)) as [F2 E2]; try assumption; [fold q; lra|]. fold p in E1. fold q in E2.
  assert (ES : real (smul (cx_re a) (cx_im b)) + real (smul (cx_im a) (cx_re b)) == p + q) by (rewrite E1, E2; ring).
  destruct (eb_add _ _ _ _ R _ _ F1 F2) as [F3 E3].
  - apply mult_eq with (p + q); [symmetry; exact ES|]. apply mult_add; assumption.
  - rewrite ES. pose proof (Qabs_triangle p q) as T1. lra.
  - split; [exact F3|]. rewrite E3. exact ES.
Qed.

Section P.
Context {pj : cplx T -> T} {pr : cplx T -> cplx T -> Q * Q} (P0 : XPart pj pr).
Local Notation tmx := (fun e : cplx T * cplx T => pr (fst e) (snd e)).
Local Notation rp := (fun v => real (pj v)).
Lemma cdot_exact (P : list (cplx T * cplx T)) : Forall (fun e => cplx_fin fin (fst e) /\ cplx_fin fin (snd e)) P -> small_pairs unit bound (map tmx P) ->
  is_pair_sum real fin (pj (fold_left sadd (map (fun e => smul (fst e) (snd e)) P) s0)) (map tmx P).
Proof.
  intros F S. set (L := map (fun e : cplx T * cplx T => smul (fst e) (snd e)) P).
  assert (H : Forall (fun v => fin (pj v)) L /\ Forall (multiple unit) (map rp L) /\
     qsum_abs (map rp L) <= pair_abs (map tmx P) /\ qsum (map rp L) == pair_sum (map tmx P)).
  { unfold L. clear L. induction P as [|e P IH]; cbn [map] in *; [repeat split; try constructor; discriminate|]. inversion F as [|? ? [F1 F2] F']; subst.
    destruct S as [M B]. inversion M as [|? ? [M1 M2] M']; subst. rewrite pair_abs_cons in B. pose proof (pair_abs_nonneg (map tmx P)) as N0.
    pose proof (Qabs_nonneg (fst (tmx e))) as N1. pose proof (Qabs_nonneg (snd (tmx e))) as N2. cbv beta in *.
    destruct (IH F') as (I1 & I2 & I3 & I4); [split; [exact M'|lra]|].
    destruct (xp_mul _ _ P0 (fst e) (snd e) F1 F2) as [A E]; [split; [exact M1|split; [exact M2|lra]]|].
    split; [constructor; assumption|].
    split; [constructor; [apply mult_eq with (fst (pr (fst e) (snd e)) + snd (pr (fst e) (snd e))); [symmetry; exact E|apply mult_add; assumption]|exact I2]|].
    rewrite !qsum_cons, !qsum_abs_cons, pair_sum_cons, pair_abs_cons, I4, E.
    pose proof (Qabs_triangle (fst (pr (fst e) (snd e))) (snd (pr (fst e) (snd e)))). split; [lra|reflexivity]. }
  destruct H as (H1 & H2 & H3 & H4). destruct S as [_ B].
  destruct (sum0_exact (xp_apart _ _ P0) L H1) as [A E]; [split; [exact H2|lra]|]. split; [exact A|]. rewrite <- H4. exact E.
Qed.
Lemma pair_total t : small_pairs unit bound t -> multiple unit (pair_sum t) /\ Qabs (pair_sum t) <= bound.
Proof.
  intros [M B]. assert (H : multiple unit (pair_sum t) /\ Qabs (pair_sum t) <= pair_abs t).
  { clear B. induction M as [|e t [M1 M2] M' [IH1 IH2]]; [split; [apply mult_0|apply Qle_refl]|]. split.
    - apply mult_eq with (fst e + snd e + pair_sum t); [reflexivity|]. repeat apply mult_add; assumption.
    - rewrite pair_sum_cons, pair_abs_cons. pose proof (Qabs_triangle (fst e + snd e) (pair_sum t)). pose proof (Qabs_triangle (fst e) (snd e)). lra. }
  destruct H. split; [assumption|lra].
Qed.
Lemma ckept {A} (occ : list A) v t : (occ = [] -> t = []) -> small_pairs unit bound t -> is_pair_sum real fin (pj v) t -> is_pair_sum real fin (pj (sum0 (keep occ v))) t.
Proof.
  intros O S [F E]. destruct (pair_total t S) as [M B].
  destruct (eb_zero _ _ _ _ (xp_apart _ _ P0)) as [Z1 Z2]. change (@s0 _ (apart SC)) with (@s0 (cplx T) scalar_cplx) in *. destruct occ as [|o occ]; cbn [keep].
  - rewrite (O eq_refl). split; [exact Z1|]. exact Z2.
  - unfold nonzero, nonzero_scalar. destruct (seqb v s0) eqn:Q; cbn [negb].
    + split; [exact Z1|]. cbn [sum0 fold_left]. unfold sum0. cbn [fold_left]. rewrite Z2, <- E. symmetry. apply (eb_eq _ _ _ _ (xp_apart _ _ P0)), Q.
    + unfold sum0. cbn [fold_left]. assert (E0 : real (pj s0) + real (pj v) == real (pj v)) by (rewrite Z2; ring).
      destruct (eb_add _ _ _ _ (xp_apart _ _ P0) s0 v) as [A1 A2]; try assumption.
      * apply mult_eq with (pair_sum t); [|exact M]. rewrite <- E. symmetry. exact E0.
      * change (Qabs (real (pj s0) + real (pj v)) <= bound). rewrite E0, E. exact B.
      * split; [exact A1|]. rewrite <- E, <- E0. exact A2.
Qed.

Open Scope nat_scope.
Variable I : ity.
Lemma xcsr_mat_vec : forall (m : CSR (cplx T)) (x : list (cplx T)), wf_csr I m -> length x = csr_cols m ->
  forall y, CSR_mat_vec m x = Ok y ->
    forall i, i < csr_rows m -> (forall e, In e (csr_row m i) -> cplx_fin fin (snd e) /\ cplx_fin fin (nth (fst e) x s0)) ->
      small_pairs unit bound (csr_cterms pr m x i) -> is_pair_sum real fin (pj (nth i y s0)) (csr_cterms pr m x i).
Proof.
  intros m x Hm Hx y E0. destruct (proj2 (c15_csr_mat_vec I m x Hm) Hx) as (y' & E & Ly & H). assert (y' = y) by congruence. subst y'.
  intros i Hi F S. rewrite (H i Hi). clear H E.
  set (P := map (fun e : nat * cplx T => (snd e, nth (fst e) x s0)) (csr_row m i)).
  pose proof (cdot_exact P) as D. unfold P in D. rewrite !map_map in D. apply D; [|exact S].
  rewrite Forall_map, Forall_forall. exact F.
Qed.
Lemma xcsc_mat_vec : forall (m : CSC (cplx T)) (x : list (cplx T)), wf_csc I m -> length x = csc_cols m ->
  forall y, CSC_mat_vec m x = Ok y ->
    forall i, i < csc_rows m -> (forall j, j < csc_cols m -> csc_at m i j <> [] -> Forall (cplx_fin fin) (csc_at m i j) /\ cplx_fin fin (nth j x s0)) ->
      small_pairs unit bound (csc_cterms pr m x i) -> is_pair_sum real fin (pj (nth i y s0)) (csc_cterms pr m x i).
Proof.
  intros m x Hm Hx y E0. destruct (proj2 (c16_csc_mat_vec I m x Hm) Hx) as (y' & E & Ly & H). assert (y' = y) by congruence. subst y'.
  intros i Hi F S. rewrite (H i Hi). clear H E.
  set (P := flat_map (fun j => map (fun v => (v, nth j x s0)) (csc_at m i j)) (seq 0 (csc_cols m))).
  assert (EP : map (fun e => smul (fst e) (snd e)) P = flat_map (fun j => map (fun v => smul v (nth j x s0)) (csc_at m i j)) (seq 0 (csc_cols m))).
  { unfold P. rewrite map_flat. apply flat_map_ext. intros e. rewrite map_map. reflexivity. }
  assert (ET : map tmx P = csc_cterms pr m x i).
  { unfold P. rewrite map_flat. apply flat_map_ext. intros e. rewrite map_map. reflexivity. }
  pose proof (cdot_exact P) as D. rewrite EP, ET in D. apply D; [|exact S].
  apply Forall_forall. intros e He. apply in_flat_map in He as (j & Hj & He). apply in_seq in Hj. apply in_map_iff in He as (v & <- & Hv). cbn [fst snd].
  destruct (F j) as [F1 F2]; [lia|intros Z; rewrite Z in Hv; destruct Hv|]. split; [|exact F2]. apply (proj1 (Forall_forall _ _) F1), Hv.
Qed.
Lemma xcsr_mat_mat : forall a b r : CSR (cplx T), wf_csr I a -> wf_csr I b -> CSR_mat_mat I a b = Ok r ->
  forall i k, i < csr_rows a -> (forall e, In e (csr_row a i) -> csr_at b (fst e) k <> [] -> cplx_fin fin (snd e) /\ Forall (cplx_fin fin) (csr_at b (fst e) k)) ->
    small_pairs unit bound (csr_product_cterms pr a b i k) -> is_pair_sum real fin (pj (csr_val r i k)) (csr_product_cterms pr a b i k).
Proof.
  intros a b r Ha Hb E i k Hi F S.
  destruct (Nat.eq_dec (csr_cols a) (csr_rows b)) as [D|D]; [|rewrite (c17_csr_mat_mat_error I a b D) in E; discriminate].
  destruct (c17_csr_mat_mat_exact I a b Ha Hb D) as [Q1 Q2].
  destruct (Z_lt_dec (imax I) (Z.of_nat (product_kept a b))) as [L|L]; [destruct (Q1 L); congruence|].
  destruct (Q2 L) as (r' & E' & _ & _ & _ & _ & _ & _ & _ & _ & H). assert (r' = r) by congruence. subst r'. clear Q1 Q2 E'.
  unfold csr_val in *. rewrite (H i k Hi) in *. clear H.
  set (P := flat_map (fun e : nat * cplx T => map (fun v => (snd e, v)) (csr_at b (fst e) k)) (csr_row a i)).
  assert (EP : map (fun e => smul (fst e) (snd e)) P = csr_products a b i k).
  { unfold P. rewrite map_flat. apply flat_map_ext. intros e. rewrite map_map. reflexivity. }
  assert (ET : map tmx P = csr_product_cterms pr a b i k).
  { unfold P. rewrite map_flat. apply flat_map_ext. intros e. rewrite map_map. reflexivity. }
  pose proof (cdot_exact P) as N. rewrite EP, ET in N.
  apply ckept; [|exact S|apply N; [|exact S]].
  - intros O. rewrite O in EP. rewrite <- ET. destruct P; [reflexivity|discriminate].
  - apply Forall_forall. intros e He. apply in_flat_map in He as (j & Hj & He). apply in_map_iff in He as (v & <- & Hv). cbn [fst snd].
    destruct (F j Hj) as [F1 F2]; [intros Z; rewrite Z in Hv; destruct Hv|]. split; [exact F1|]. apply (proj1 (Forall_forall _ _) F2), Hv.
Qed.
Lemma xcsc_mat_mat : forall a b r : CSC (cplx T), wf_csc I a -> wf_csc I b -> CSC_mat_mat I a b = Ok r ->
  forall i k, k < csc_cols b -> (forall e, In e (csc_col b k) -> csc_at a i (fst e) <> [] -> cplx_fin fin (snd e) /\ Forall (cplx_fin fin) (csc_at a i (fst e))) ->
    small_pairs unit bound (csc_product_cterms pr a b i k) -> is_pair_sum real fin (pj (csc_val r i k)) (csc_product_cterms pr a b i k).
Proof.
  intros a b r Ha Hb E i k Hi F S.
  destruct (Nat.eq_dec (csc_cols a) (csc_rows b)) as [D|D]; [|rewrite (c18_csc_mat_mat_error I a b D) in E; discriminate].
  destruct (c18_csc_mat_mat_exact I a b Ha Hb D) as [Q1 Q2].
  destruct (Z_lt_dec (imax I) (Z.of_nat (csc_product_kept a b))) as [L|L]; [destruct (Q1 L); congruence|].
  destruct (Q2 L) as (r' & E' & _ & _ & _ & _ & _ & _ & _ & _ & H). assert (r' = r) by congruence. subst r'. clear Q1 Q2 E'.
  unfold csc_val in *. rewrite (H i k Hi) in *. clear H.
  set (P := flat_map (fun e : nat * cplx T => map (fun v => (snd e, v)) (csc_at a i (fst e))) (csc_col b k)).
  assert (EP : map (fun e => smul (fst e) (snd e)) P = csc_products a b i k).
  { unfold P. rewrite map_flat. apply flat_map_ext. intros e. rewrite map_map. reflexivity. }
  assert (ET : map tmx P = csc_product_cterms pr a b i k).
  { unfold P. rewrite map_flat. apply flat_map_ext. intros e. rewrite map_map. reflexivity. }
  pose proof (cdot_exact P) as N. rewrite EP, ET in N.
  apply ckept; [|exact S|apply N; [|exact S]].
  - intros O. rewrite O in EP. rewrite <- ET. destruct P; [reflexivity|discriminate].
  - apply Forall_forall. intros e He. apply in_flat_map in He as (j & Hj & He). apply in_map_iff in He as (v & <- & Hv). cbn [fst snd].
    destruct (F j Hj) as [F1 F2]; [intros Z; rewrite Z in Hv; destruct Hv|]. split; [exact F1|]. apply (proj1 (Forall_forall _ _) F2), Hv.
Qed.
End P.

Open Scope nat_scope.
Variable I : ity.
Lemma c96_complex_csr_mat_vec : forall (m : CSR (cplx T)) (x : list (cplx T)), wf_csr I m -> length x = csr_cols m ->
  exists y, CSR_mat_vec m x = Ok y /\ length y = csr_rows m /\
    forall i, i < csr_rows m -> (forall e, In e (csr_row m i) -> cplx_fin fin (snd e) /\ cplx_fin fin (nth (fst e) x s0)) ->
      exact_parts real fin unit bound (nth i y s0) (csr_cterms (re_pair real) m x i) (csr_cterms (im_pair real) m x i).
Proof.
  intros m x Hm Hx. destruct (proj2 (c15_csr_mat_vec I m x Hm) Hx) as (y & E & Ly & _). exists y. split; [exact E|]. split; [exact Ly|].
  intros i Hi F. split; intros S; [exact (xcsr_mat_vec xre I m x Hm Hx y E i Hi F S)|exact (xcsr_mat_vec xim I m x Hm Hx y E i Hi F S)].
Qed.
Lemma c96_complex_csc_mat_vec : forall (m : CSC (cplx T)) (x : list (cplx T)), wf_csc I m -> length x = csc_cols m ->
  exists y, CSC_mat_vec m x = Ok y /\ length y = csc_rows m /\
    forall i, i < csc_rows m -> (forall j, j < csc_cols m -> csc_at m i j <> [] -> Forall (cplx_fin fin) (csc_at m i j) /\ cplx_fin fin (nth j x s0)) ->
      exact_parts real fin unit bound (nth i y s0) (csc_cterms (re_pair real) m x i) (csc_cterms (im_pair real) m x i).
Proof.
  intros m x Hm Hx. destruct (proj2 (c16_csc_mat_vec I m x Hm) Hx) as (y & E & Ly & _). exists y. split; [exact E|]. split; [exact Ly|].
  intros i Hi F. split; intros S; [exact (xcsc_mat_vec xre I m x Hm Hx y E i Hi F S)|exact (xcsc_mat_vec xim I m x Hm Hx y E i Hi F S)].
Qed.
Lemma c96_complex_csr_mat_mat : forall a b r : CSR (cplx T), wf_csr I a -> wf_csr I b -> CSR_mat_mat I a b = Ok r ->
  forall i k, i < csr_rows a -> (forall e, In e (csr_row a i) -> csr_at b (fst e) k <> [] -> cplx_fin fin (snd e) /\ Forall (cplx_fin fin) (csr_at b (fst e) k)) ->
    exact_parts real fin unit bound (csr_val r i k) (csr_product_cterms (re_pair real) a b i k) (csr_product_cterms (im_pair real) a b i k).
Proof.
  intros a b r Ha Hb E i k Hi F. split; intros S; [exact (xcsr_mat_mat xre I a b r Ha Hb E i k Hi F S)|exact (xcsr_mat_mat xim I a b r Ha Hb E i k Hi F S)].
Qed.
Lemma c96_complex_csc_mat_mat : forall a b r : CSC (cplx T), wf_csc I a -> wf_csc I b -> CSC_mat_mat I a b = Ok r ->
  forall i k, k < csc_cols b -> (forall e, In e (csc_col b k) -> csc_at a i (fst e) <> [] -> cplx_fin fin (snd e) /\ Forall (cplx_fin fin) (csc_at a i (fst e))) ->
    exact_parts real fin unit bound (csc_val r i k) (csc_product_cterms (re_pair real) a b i k) (csc_product_cterms (im_pair real) a b i k).
Proof.
  intros a b r Ha Hb E i k Hi F. split; intros S; [exact (xcsc_mat_mat xre I a b r Ha Hb E i k Hi F S)|exact (xcsc_mat_mat xim I a b r Ha Hb E i k Hi F S)].
Qed.

Lemma sums_of v l :
  (Forall (fun w => fin (cx_re w)) l -> small_sum unit bound (map (fun w => real (cx_re w)) l) -> is_sum (fun w => real (cx_re w)) (fun w => fin (cx_re w)) v (map (fun w => real (cx_re w)) l)) ->
  (Forall (fun w => fin (cx_im w)) l -> small_sum unit bound (map (fun w => real (cx_im w)) l) -> is_sum (fun w => real (cx_im w)) (fun w => fin (cx_im w)) v (map (fun w => real (cx_im w)) l)) ->
  exact_sums real fin unit bound v l [].
Proof. intros A B. split; cbn [map]; unfold reals, imags; cbn [map]; rewrite !app_nil_r; assumption. Qed.
Lemma c96_complex_coo_to_dense : forall m : Coo (cplx T), wf_coo I m -> 
  exists d, Coo_to_dense m = Ok d /\ is_table d (coo_rows m) (coo_cols m) (coo_val m) /\
    forall i j, exact_sums real fin unit bound (coo_val m i j) (coo_at m i j) [].
Proof.
  intros m Hm . destruct (c96_coo_to_dense xpart_re I m Hm ) as (d & E & H & A). destruct (c96_coo_to_dense xpart_im I m Hm ) as (d' & _ & _ & B).
  exists d. split; [exact E|]. split; [exact H|]. intros i j. apply sums_of; [exact (A i j)|exact (B i j)].
Qed.
Lemma c96_complex_csr_to_dense : forall m : CSR (cplx T), wf_csr I m -> 
  exists d, CSR_to_dense m = Ok d /\ is_table d (csr_rows m) (csr_cols m) (csr_val m) /\
    forall i j, exact_sums real fin unit bound (csr_val m i j) (csr_at m i j) [].
Proof.
  intros m Hm . destruct (c96_csr_to_dense xpart_re I m Hm ) as (d & E & H & A). destruct (c96_csr_to_dense xpart_im I m Hm ) as (d' & _ & _ & B).
  exists d. split; [exact E|]. split; [exact H|]. intros i j. apply sums_of; [exact (A i j)|exact (B i j)].
Qed.
Lemma c96_complex_csc_to_dense : forall m : CSC (cplx T), wf_csc I m -> csc_cols_fit I m ->
  exists d, CSC_to_dense I m = Ok d /\ is_table d (csc_rows m) (csc_cols m) (csc_val m) /\
    forall i j, exact_sums real fin unit bound (csc_val m i j) (csc_at m i j) [].
Proof.
  intros m Hm Hf. destruct (c96_csc_to_dense xpart_re I m Hm Hf) as (d & E & H & A). destruct (c96_csc_to_dense xpart_im I m Hm Hf) as (d' & _ & _ & B).
  exists d. split; [exact E|]. split; [exact H|]. intros i j. apply sums_of; [exact (A i j)|exact (B i j)].
Qed.
Ltac bothx L1 L2 := destruct L1 as (r & E & A); destruct L2 as (r' & E' & B); assert (r' = r) by congruence; subst r'; exists r; split; [exact E|].
Lemma c96_complex_coo_to_csr : forall m : Coo (cplx T), wf_coo I m -> (Z.of_nat (length (coo_values m)) < imax I)%Z ->
  exists r, Coo_to_csr I m = Ok r /\ forall i j v, i < coo_rows m -> In v (csr_at r i j) -> exact_sums real fin unit bound v (coo_at m i j) [].
Proof.
  intros m Hm Hb. bothx (c96_coo_to_csr xpart_re I m Hm Hb) (c96_coo_to_csr xpart_im I m Hm Hb).
  intros i j v Hi Hv. apply sums_of; [exact (A i j v Hi Hv)|exact (B i j v Hi Hv)].
Qed.
Lemma c96_complex_coo_to_csc : forall m : Coo (cplx T), wf_coo I m -> (Z.of_nat (length (coo_values m)) < imax I)%Z ->
  exists r, Coo_to_csc I m = Ok r /\ forall i j v, j < coo_cols m -> In v (csc_at r i j) -> exact_sums real fin unit bound v (coo_at m i j) [].
Proof.
  intros m Hm Hb. bothx (c96_coo_to_csc xpart_re I m Hm Hb) (c96_coo_to_csc xpart_im I m Hm Hb).
  intros i j v Hi Hv. apply sums_of; [exact (A i j v Hi Hv)|exact (B i j v Hi Hv)].
Qed.
Lemma c96_complex_csr_sum_duplicates : forall m : CSR (cplx T), wf_csr I m -> (Z.of_nat (csr_count m) < imax I)%Z ->
  exists r, CSR_sum_duplicates I m = Ok r /\ forall i j v, In v (csr_at r i j) -> exact_sums real fin unit bound v (csr_at m i j) [].
Proof.
  intros m Hm Hb. bothx (c96_csr_sum_duplicates xpart_re I m Hm Hb) (c96_csr_sum_duplicates xpart_im I m Hm Hb).
  intros i j v Hv. apply sums_of; [exact (A i j v Hv)|exact (B i j v Hv)].
Qed.
Lemma c96_complex_csc_sum_duplicates : forall m : CSC (cplx T), wf_csc I m -> (Z.of_nat (csc_count m) < imax I)%Z ->
  exists r, CSC_sum_duplicates I m = Ok r /\ forall i j v, In v (csc_at r i j) -> exact_sums real fin unit bound v (csc_at m i j) [].
Proof.
  intros m Hm Hb. bothx (c96_csc_sum_duplicates xpart_re I m Hm Hb) (c96_csc_sum_duplicates xpart_im I m Hm Hb).
  intros i j v Hv. apply sums_of; [exact (A i j v Hv)|exact (B i j v Hv)].
Qed.
Lemma c96_complex_csr_add : forall a b r : CSR (cplx T), wf_csr I a -> wf_csr I b -> csr_rows b = csr_rows a -> csr_cols b = csr_cols a -> CSR_add I a b = Ok r ->
  forall i j, i < csr_rows a -> exact_sums real fin unit bound (csr_val r i j) (csr_at a i j ++ csr_at b i j) [].
Proof.
  intros a b r Ha Hb D1 D2 E i j Hi. apply sums_of; rewrite map_app; intros F S; apply Forall_app in F as [F1 F2];
  [exact (c96_csr_add xpart_re I a b r Ha Hb D1 D2 E i j Hi F1 F2 S)|exact (c96_csr_add xpart_im I a b r Ha Hb D1 D2 E i j Hi F1 F2 S)].
Qed.
Lemma c96_complex_csr_sub : forall a b r : CSR (cplx T), wf_csr I a -> wf_csr I b -> csr_rows b = csr_rows a -> csr_cols b = csr_cols a -> CSR_sub I a b = Ok r ->
  forall i j, i < csr_rows a -> exact_sums real fin unit bound (csr_val r i j) (csr_at a i j) (csr_at b i j).
Proof.
  intros a b r Ha Hb D1 D2 E i j Hi. split; intros F S; apply Forall_app in F as [F1 F2];
  [exact (c96_csr_sub xpart_re I a b r Ha Hb D1 D2 E i j Hi F1 F2 S)|exact (c96_csr_sub xpart_im I a b r Ha Hb D1 D2 E i j Hi F1 F2 S)].
Qed.
Lemma c96_complex_csc_add : forall a b r : CSC (cplx T), wf_csc I a -> wf_csc I b -> csc_rows b = csc_rows a -> csc_cols b = csc_cols a -> CSC_add I a b = Ok r ->
  forall i j, j < csc_cols a -> exact_sums real fin unit bound (csc_val r i j) (csc_at a i j ++ csc_at b i j) [].
Proof.
  intros a b r Ha Hb D1 D2 E i j Hi. apply sums_of; rewrite map_app; intros F S; apply Forall_app in F as [F1 F2];
  [exact (c96_csc_add xpart_re I a b r Ha Hb D1 D2 E i j Hi F1 F2 S)|exact (c96_csc_add xpart_im I a b r Ha Hb D1 D2 E i j Hi F1 F2 S)].
Qed.
Lemma c96_complex_csc_subtract : forall a b r : CSC (cplx T), wf_csc I a -> wf_csc I b -> csc_rows b = csc_rows a -> csc_cols b = csc_cols a -> CSC_subtract I a b = Ok r ->
  forall i j, j < csc_cols a -> exact_sums real fin unit bound (csc_val r i j) (csc_at a i j) (csc_at b i j).
Proof.
  intros a b r Ha Hb D1 D2 E i j Hi. split; intros F S; apply Forall_app in F as [F1 F2];
  [exact (c96_csc_subtract xpart_re I a b r Ha Hb D1 D2 E i j Hi F1 F2 S)|exact (c96_csc_subtract xpart_im I a b r Ha Hb D1 D2 E i j Hi F1 F2 S)].
Qed.
Lemma c96_complex_coo_add : forall a b : Coo (cplx T), wf_coo I a -> wf_coo I b -> coo_rows a = coo_rows b -> coo_cols a = coo_cols b ->
  (Z.of_nat (length (coo_values a) + length (coo_values b)) < imax I)%Z ->
  exists r, Coo_add I a b = Ok r /\ forall i j v, i < coo_rows a -> In v (csr_at r i j) -> exact_sums real fin unit bound v (coo_at a i j ++ coo_at b i j) [].
Proof.
  intros a b Ha Hb D1 D2 L. bothx (c96_coo_add xpart_re I a b Ha Hb D1 D2 L) (c96_coo_add xpart_im I a b Ha Hb D1 D2 L).
  intros i j v Hi Hv. apply sums_of; rewrite map_app; intros F S; apply Forall_app in F as [F1 F2]; [exact (A i j v Hi Hv F1 F2 S)|exact (B i j v Hi Hv F1 F2 S)].
Qed.
End E.
