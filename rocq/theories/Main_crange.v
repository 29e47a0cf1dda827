(** When sums of complex products are finite. *)
From Verif Require Import Rust Scalar Model_kernels Model_matrix Spec SpecBoundary SpecRound SpecRange SpecComplex SpecCexact SpecCrange Wp Rep CanonProofs ArithProofs Main_convert Main_linear Main_struct Main_boundary Main_product Main_addition Main_arith Main_more Main_float Main_round Main_range Main_complex.
From Coq Require Import ZArith QArith Qabs List Lia Lqa Setoid Morphisms.
Import ListNotations.
Open Scope Q_scope.

Section R.
Context {T : Type} {SC : Scalar T} {real : T -> Q} {fin val : T -> Prop} {u eta top : Q}
  (R : Rounded real fin val u eta) (G : Ranged real fin val top).
Local Notation ok := (cplx_good fin val).

Lemma rng_re : @Ranged (cplx T) (apart SC) (fun v => real (cx_re v)) (fun v => fin (cx_re v)) (cplx_val val) top.
Proof. destruct G as [A B C]. constructor; cbn; intros x y [V1 V2] [V3 V4]; auto. Qed.
Lemma rng_im : @Ranged (cplx T) (apart SC) (fun v => real (cx_im v)) (fun v => fin (cx_im v)) (cplx_val val) top.
Proof. destruct G as [A B C]. constructor; cbn; intros x y [V1 V2] [V3 V4]; auto. Qed.

Record FPart (pj : cplx T -> T) (pr : cplx T -> cplx T -> Q * Q) : Prop := {
  fp_part : @Part T SC real fin val u eta pj pr;
  fp_rng : @Ranged (cplx T) (apart SC) (fun v => real (pj v)) (fun v => fin (pj v)) (cplx_val val) top;
  fp_mul : forall a b, ok a -> ok b -> (1 + u) * (Qabs (fst (pr a b)) + Qabs (snd (pr a b)) + 2 * eta) <= top -> fin (pj (smul a b));
}.
Lemma grow x : 0 <= x -> x <= (1 + u) * x.
Proof. intros H. pose proof (rd_u _ _ _ _ _ R) as U. assert (0 <= u * x) by (apply Qmult_le_0_compat; assumption). assert (E : (1 + u) * x == x + u * x) by ring. lra. Qed.
Lemma room p q x y : off u eta x p -> off u eta y q -> (1 + u) * (Qabs p + Qabs q + 2 * eta) <= top -> Qabs x + Qabs y <= top.
Proof.
  pose proof (rd_u _ _ _ _ _ R) as U. pose proof (rd_eta _ _ _ _ _ R) as He. unfold off. intros A B C.
  pose proof (Qabs_triangle (x - p) p) as T1. assert (E1 : x - p + p == x) by ring. rewrite E1 in T1.
  pose proof (Qabs_triangle (y - q) q) as T2. assert (E2 : y - q + q == y) by ring. rewrite E2 in T2.
  assert (0 <= u * eta) by (apply Qmult_le_0_compat; assumption). lra.
Qed.
Lemma room1 p q : (1 + u) * (Qabs p + Qabs q + 2 * eta) <= top -> Qabs p <= top /\ Qabs q <= top.
Proof.
  pose proof (rd_eta _ _ _ _ _ R) as He. pose proof (Qabs_nonneg p). pose proof (Qabs_nonneg q). intros C.
  pose proof (grow (Qabs p + Qabs q + 2 * eta) ltac:(lra)). split; lra.
Qed.
Lemma fre : FPart cx_re (re_pair real).
Proof.
  constructor; [exact (part_re R)|exact rng_re|]. intros a b [[A1 A2] [A3 A4]] [[B1 B2] [B3 B4]] H. cbn [re_pair fst snd smul scalar_cplx cx_re] in *.
  rewrite Qabs_opp in H. destruct (room1 _ _ H) as [H1 H2].
  destruct (rd_mul _ _ _ _ _ R _ _ A1 B1) as [V1 M1]. destruct (rd_mul _ _ _ _ _ R _ _ A2 B2) as [V2 M2].
  pose proof (rg_mul _ _ _ _ G _ _ A1 B1 A3 B3 H1) as F1. pose proof (rg_mul _ _ _ _ G _ _ A2 B2 A4 B4 H2) as F2.
  destruct (M1 F1) as (_ & _ & O1). destruct (M2 F2) as (_ & _ & O2). pose proof (room _ _ _ _ O1 O2 H) as H3.
  apply (rg_sub _ _ _ _ G); try assumption.
  pose proof (Qabs_triangle (real (smul (cx_re a) (cx_re b))) (- real (smul (cx_im a) (cx_im b)))) as T1. rewrite Qabs_opp in T1.
  unfold Qminus. lra.
Qed.
Lemma fim : FPart cx_im (im_pair real).
Proof.
  constructor; [exact (part_im R)|exact rng_im|]. intros a b [[A1 A2] [A3 A4]] [[B1 B2] [B3 B4]] H. cbn [im_pair fst snd smul scalar_cplx cx_im] in *.
  destruct (room1 _ _ H) as [H1 H2].
  destruct (rd_mul _ _ _ _ _ R _ _ A1 B2) as [V1 M1]. destruct (rd_mul _ _ _ _ _ R _ _ A2 B1) as [V2 M2].
  pose proof (rg_mul _ _ _ _ G _ _ A1 B2 A3 B4 H1) as F1. pose proof (rg_mul _ _ _ _ G _ _ A2 B1 A4 B3 H2) as F2.
  destruct (M1 F1) as (_ & _ & O1). destruct (M2 F2) as (_ & _ & O2). pose proof (room _ _ _ _ O1 O2 H) as H3.
  apply (rg_add _ _ _ _ G); try assumption.
  pose proof (Qabs_triangle (real (smul (cx_re a) (cx_im b))) (real (smul (cx_im a) (cx_re b)))) as T1. lra.
Qed.

Section P.
Context {pj : cplx T -> T} {pr : cplx T -> cplx T -> Q * Q} (P0 : FPart pj pr).
Local Notation tmx := (fun e : cplx T * cplx T => pr (fst e) (snd e)).
Local Notation rp := (fun v => real (pj v)).
Lemma cdot_fin (P : list (cplx T * cplx T)) : Forall (fun e => ok (fst e) /\ ok (snd e)) P -> fits_cdot u eta top (map tmx P) ->
  fin (pj (fold_left sadd (map (fun e => smul (fst e) (snd e)) P) s0)).
Proof.
  intros HP B. pose proof (rd_u _ _ _ _ _ R) as U. pose proof (rd_eta _ _ _ _ _ R) as Heta.
  unfold fits_cdot in B. rewrite map_length in B. rewrite Nat.add_1_r, (pw_S u U) in B.
  set (L := map (fun e : cplx T * cplx T => smul (fst e) (snd e)) P).
  set (w := inject_Z (Z.of_nat (length P))) in *. assert (W0 : 0 <= w) by (unfold w; rewrite <- (Zle_Qle 0); lia).
  pose proof (pair_abs_nonneg (map tmx P)) as S0. pose proof (pw_1 u U (length P)) as G1.
  assert (W1 : 0 <= w * eta) by (apply Qmult_le_0_compat; assumption).
  assert (D : Forall (good (fun v => fin (pj v)) (cplx_val val)) L /\
     qsum_abs (map rp L) <= (1 + u) * (1 + u) * pair_abs (map tmx P) + w * (2 * (1 + u) * eta)).
  { assert (B' : (1 + u) * (pair_abs (map tmx P) + 2 * w * eta) <= top).
    { set (g := (1 + u) ^ Z.of_nat (length P)) in *. set (S := pair_abs (map tmx P)) in *.
      assert (P1 : 0 <= (g - 1) * ((1 + u) * (S + 2 * w * eta))).
      { apply Qmult_le_0_compat; [lra|]. apply Qmult_le_0_compat; lra. }
      assert (E : (1 + u) * g * (S + 2 * w * eta) == (g - 1) * ((1 + u) * (S + 2 * w * eta)) + (1 + u) * (S + 2 * w * eta)) by ring. lra. }
    unfold w in *. clear w B G1. unfold L. clear L. induction P as [|e P IH]; cbn [map length].
    - split; [constructor|]. cbn -[Qmult]. ring_simplify. apply Qle_refl.
    - inversion HP as [|? ? [A1 A2] HP']; subst. cbn [map length] in B'. rewrite pair_abs_cons in *.
      rewrite Nat2Z.inj_succ, <- Z.add_1_l, inject_Z_plus in *. change (inject_Z 1) with 1 in *.
      pose proof (pair_abs_nonneg (map tmx P)) as S1. 
      set (w := inject_Z (Z.of_nat (length P))) in *. assert (V0 : 0 <= w) by (unfold w; rewrite <- (Zle_Qle 0); lia).
      assert (V1 : 0 <= w * eta) by (apply Qmult_le_0_compat; assumption). cbv beta in *.
      pose proof (Qabs_nonneg (fst (pr (fst e) (snd e)))) as N1. pose proof (Qabs_nonneg (snd (pr (fst e) (snd e)))) as N2.
      set (x := fst (pr (fst e) (snd e))) in *. set (y := snd (pr (fst e) (snd e))) in *. set (S := pair_abs (map tmx P)) in *.
      assert (EB : (1 + u) * (Qabs x + Qabs y + S + 2 * (1 + w) * eta) == (1 + u) * (Qabs x + Qabs y + 2 * eta) + (1 + u) * (S + 2 * w * eta)) by ring.
      assert (Q1 : 0 <= (1 + u) * (Qabs x + Qabs y + 2 * eta)) by (apply Qmult_le_0_compat; lra).
      assert (Q2 : 0 <= (1 + u) * (S + 2 * w * eta)) by (apply Qmult_le_0_compat; lra).
      destruct (IH HP') as [I1 I2]; try assumption; [lra|]. clear IH.
      assert (F : fin (pj (smul (fst e) (snd e)))) by (apply (fp_mul _ _ P0); try assumption; fold x y; lra).
      pose proof (pt_mul _ _ (fp_part _ _ P0) _ _ (proj1 A1) (proj1 A2) F) as O. unfold term_near in O. fold x y in O.
      split; [constructor; [split; [exact (mul_val R _ _ (proj1 A1) (proj1 A2))|exact F]|exact I1]|].
      rewrite !qsum_abs_cons. set (p := real (pj (smul (fst e) (snd e)))) in *.
      pose proof (Qabs_triangle (p - (x + y)) (x + y)) as T2. assert (E2 : p - (x + y) + (x + y) == p) by ring. rewrite E2 in T2.
      pose proof (Qabs_triangle x y) as T3. lra. }
  destruct D as [D1 D2].
  refine (proj2 (sum0_fin (pt_apart _ _ (fp_part _ _ P0)) (fp_rng _ _ P0) L D1 _)).
  unfold fits_sum. rewrite map_length. assert (LL : length L = length P) by (unfold L; apply map_length). rewrite LL.
  set (S := pair_abs (map tmx P)) in *. set (s1 := qsum_abs (map rp L)) in *.
  destruct (length P) as [|k] eqn:K.
  - destruct P as [|? ?]; [|discriminate]. change s1 with 0. change ((1 + u) ^ Z.of_nat (0 - 1)) with 1. change ((1 + u) ^ Z.of_nat 0) with 1 in B.
    change S with 0 in *. change w with 0 in *. assert (Z : (1 + u) * 1 * (0 + 2 * 0 * eta) == 0) by ring. rewrite Z in B. lra.
  - replace (Datatypes.S k - 1)%nat with k by lia. rewrite (pw_S u U) in B. pose proof (pw_1 u U k) as G2. set (g := (1 + u) ^ Z.of_nat k) in *.
    assert (K1 : g * s1 <= g * ((1 + u) * (1 + u) * S + w * (2 * (1 + u) * eta))) by (rewrite !(Qmult_comm g); apply Qmult_le_compat_r; lra).
    assert (K2 : 0 <= u * ((1 + u) * (g * (w * eta)))) by (repeat apply Qmult_le_0_compat; lra).
    assert (E : (1 + u) * ((1 + u) * g) * (S + 2 * w * eta) == g * ((1 + u) * (1 + u) * S + w * (2 * (1 + u) * eta)) + 2 * (u * ((1 + u) * (g * (w * eta))))) by ring.
    lra.
Qed.

Open Scope nat_scope.
Variable I : ity.
Lemma cgood_nth (x : list (cplx T)) n : Forall ok x -> ok (nth n x s0).
Proof.
  intros H. destruct (lt_dec n (length x)) as [L|L].
  - apply (proj1 (Forall_forall _ _) H). apply nth_In. assumption.
  - rewrite nth_overflow by lia. destruct (rd_zero _ _ _ _ _ R) as (A & B & _). repeat split; assumption.
Qed.
Lemma fcsr_mat_vec : forall (m : CSR (cplx T)) (x : list (cplx T)), wf_csr I m -> length x = csr_cols m -> Forall ok (csr_values m) -> Forall ok x ->
  forall y, CSR_mat_vec m x = Ok y -> forall i, i < csr_rows m -> fits_cdot u eta top (csr_cterms pr m x i) -> fin (pj (nth i y s0)).
Proof.
  intros m x Hm Hx Vm Vx y E0. destruct (proj2 (c15_csr_mat_vec I m x Hm) Hx) as (y' & E & Ly & H). assert (y' = y) by congruence. subst y'.
  intros i Hi B. rewrite (H i Hi). clear H E.
  set (P := map (fun e : nat * cplx T => (snd e, nth (fst e) x s0)) (csr_row m i)).
  assert (D := cdot_fin P). unfold P in D. rewrite !map_map in D. apply D; [|exact B].
  rewrite Forall_map, Forall_forall. intros e He. cbn [fst snd]. split; [exact (crow_val (val := ok) _ _ _ _ _ Vm He)|apply cgood_nth, Vx].
Qed.
Lemma fcsc_mat_vec : forall (m : CSC (cplx T)) (x : list (cplx T)), wf_csc I m -> length x = csc_cols m -> Forall ok (csc_values m) -> Forall ok x ->
  forall y, CSC_mat_vec m x = Ok y -> forall i, i < csc_rows m -> fits_cdot u eta top (csc_cterms pr m x i) -> fin (pj (nth i y s0)).
Proof.
  intros m x Hm Hx Vm Vx y E0. destruct (proj2 (c16_csc_mat_vec I m x Hm) Hx) as (y' & E & Ly & H). assert (y' = y) by congruence. subst y'.
  intros i Hi B. rewrite (H i Hi). clear H E.
  set (P := flat_map (fun j => map (fun v => (v, nth j x s0)) (csc_at m i j)) (seq 0 (csc_cols m))).
  assert (EP : map (fun e => smul (fst e) (snd e)) P = flat_map (fun j => map (fun v => smul v (nth j x s0)) (csc_at m i j)) (seq 0 (csc_cols m))).
  { unfold P. rewrite map_flat. apply flat_map_ext. intros e. rewrite map_map. reflexivity. }
  assert (ET : map tmx P = csc_cterms pr m x i).
  { unfold P. rewrite map_flat. apply flat_map_ext. intros e. rewrite map_map. reflexivity. }
  assert (D := cdot_fin P). rewrite EP, ET in D. apply D; [|exact B].
  apply Forall_forall. intros e He. apply in_flat_map in He as (j & _ & He). apply in_map_iff in He as (v & <- & Hv). cbn [fst snd].
  split; [|apply cgood_nth, Vx]. apply (proj1 (Forall_forall _ _) (csc_at_val (val := ok) m i j Vm)), Hv.
Qed.
Lemma fcsr_mat_mat : forall a b r : CSR (cplx T), wf_csr I a -> wf_csr I b -> Forall ok (csr_values a) -> Forall ok (csr_values b) -> CSR_mat_mat I a b = Ok r ->
  forall i k v, i < csr_rows a -> In v (csr_at r i k) -> fits_cdot u eta top (csr_product_cterms pr a b i k) -> fin (pj v).
Proof.
  intros a b r Ha Hb Va Vb E i k v Hi Hv B.
  destruct (Nat.eq_dec (csr_cols a) (csr_rows b)) as [D|D]; [|rewrite (c17_csr_mat_mat_error I a b D) in E; discriminate].
  destruct (c17_csr_mat_mat_exact I a b Ha Hb D) as [Q1 Q2].
  destruct (Z_lt_dec (imax I) (Z.of_nat (product_kept a b))) as [L|L]; [destruct (Q1 L); congruence|].
  destruct (Q2 L) as (r' & E' & _ & _ & _ & _ & _ & _ & _ & _ & H). assert (r' = r) by congruence. subst r'. clear Q1 Q2 E'.
  rewrite (H i k Hi) in Hv. clear H. apply in_keep in Hv. subst v.
  set (P := flat_map (fun e : nat * cplx T => map (fun v => (snd e, v)) (csr_at b (fst e) k)) (csr_row a i)).
  assert (EP : map (fun e => smul (fst e) (snd e)) P = csr_products a b i k).
  { unfold P. rewrite map_flat. apply flat_map_ext. intros e. rewrite map_map. reflexivity. }
  assert (ET : map tmx P = csr_product_cterms pr a b i k).
  { unfold P. rewrite map_flat. apply flat_map_ext. intros e. rewrite map_map. reflexivity. }
  assert (N := cdot_fin P). rewrite EP, ET in N. apply N; [|exact B].
  apply Forall_forall. intros e He. apply in_flat_map in He as (j & Hj & He). apply in_map_iff in He as (v & <- & Hv). cbn [fst snd].
  split; [exact (crow_val (val := ok) _ _ _ _ _ Va Hj)|]. apply (proj1 (Forall_forall _ _) (csr_at_val (val := ok) b (fst j) k Vb)), Hv.
Qed.
Lemma fcsc_mat_mat : forall a b r : CSC (cplx T), wf_csc I a -> wf_csc I b -> Forall ok (csc_values a) -> Forall ok (csc_values b) -> CSC_mat_mat I a b = Ok r ->
  forall i k v, k < csc_cols b -> In v (csc_at r i k) -> fits_cdot u eta top (csc_product_cterms pr a b i k) -> fin (pj v).
Proof.
  intros a b r Ha Hb Va Vb E i k v Hi Hv B.
  destruct (Nat.eq_dec (csc_cols a) (csc_rows b)) as [D|D]; [|rewrite (c18_csc_mat_mat_error I a b D) in E; discriminate].
  destruct (c18_csc_mat_mat_exact I a b Ha Hb D) as [Q1 Q2].
  destruct (Z_lt_dec (imax I) (Z.of_nat (csc_product_kept a b))) as [L|L]; [destruct (Q1 L); congruence|].
  destruct (Q2 L) as (r' & E' & _ & _ & _ & _ & _ & _ & _ & _ & H). assert (r' = r) by congruence. subst r'. clear Q1 Q2 E'.
  rewrite (H i k Hi) in Hv. clear H. apply in_keep in Hv. subst v.
  set (P := flat_map (fun e : nat * cplx T => map (fun v => (snd e, v)) (csc_at a i (fst e))) (csc_col b k)).
  assert (EP : map (fun e => smul (fst e) (snd e)) P = csc_products a b i k).
  { unfold P. rewrite map_flat. apply flat_map_ext. intros e. rewrite map_map. reflexivity. }
  assert (ET : map tmx P = csc_product_cterms pr a b i k).
  { unfold P. rewrite map_flat. apply flat_map_ext. intros e. rewrite map_map. reflexivity. }
  assert (N := cdot_fin P). rewrite EP, ET in N. apply N; [|exact B].
  apply Forall_forall. intros e He. apply in_flat_map in He as (j & Hj & He). apply in_map_iff in He as (v & <- & Hv). cbn [fst snd].
  split; [exact (crow_val (val := ok) _ _ _ _ _ Vb Hj)|]. apply (proj1 (Forall_forall _ _) (csc_at_val (val := ok) a i (fst j) Va)), Hv.
Qed.
End P.

Open Scope nat_scope.
Variable I : ity.
Lemma c97_complex_csr_mat_vec : forall (m : CSR (cplx T)) (x : list (cplx T)), wf_csr I m -> length x = csr_cols m ->
  Forall (cplx_good fin val) (csr_values m) -> Forall (cplx_good fin val) x ->
  exists y, CSR_mat_vec m x = Ok y /\ length y = csr_rows m /\
    forall i, i < csr_rows m -> finite_parts fin u eta top (nth i y s0) (csr_cterms (re_pair real) m x i) (csr_cterms (im_pair real) m x i).
Proof.
  intros m x Hm Hx Vm Vx. destruct (proj2 (c15_csr_mat_vec I m x Hm) Hx) as (y & E & Ly & _). exists y. split; [exact E|]. split; [exact Ly|].
  intros i Hi. split; intros B; [exact (fcsr_mat_vec fre I m x Hm Hx Vm Vx y E i Hi B)|exact (fcsr_mat_vec fim I m x Hm Hx Vm Vx y E i Hi B)].
Qed.
Lemma c97_complex_csc_mat_vec : forall (m : CSC (cplx T)) (x : list (cplx T)), wf_csc I m -> length x = csc_cols m ->
  Forall (cplx_good fin val) (csc_values m) -> Forall (cplx_good fin val) x ->
  exists y, CSC_mat_vec m x = Ok y /\ length y = csc_rows m /\
    forall i, i < csc_rows m -> finite_parts fin u eta top (nth i y s0) (csc_cterms (re_pair real) m x i) (csc_cterms (im_pair real) m x i).
Proof.
  intros m x Hm Hx Vm Vx. destruct (proj2 (c16_csc_mat_vec I m x Hm) Hx) as (y & E & Ly & _). exists y. split; [exact E|]. split; [exact Ly|].
  intros i Hi. split; intros B; [exact (fcsc_mat_vec fre I m x Hm Hx Vm Vx y E i Hi B)|exact (fcsc_mat_vec fim I m x Hm Hx Vm Vx y E i Hi B)].
Qed.
Lemma c97_complex_csr_mat_mat : forall a b r : CSR (cplx T), wf_csr I a -> wf_csr I b ->
  Forall (cplx_good fin val) (csr_values a) -> Forall (cplx_good fin val) (csr_values b) -> CSR_mat_mat I a b = Ok r ->
  forall i k v, i < csr_rows a -> In v (csr_at r i k) -> finite_parts fin u eta top v (csr_product_cterms (re_pair real) a b i k) (csr_product_cterms (im_pair real) a b i k).
Proof.
  intros a b r Ha Hb Va Vb E i k v Hi Hv. split; intros B; [exact (fcsr_mat_mat fre I a b r Ha Hb Va Vb E i k v Hi Hv B)|exact (fcsr_mat_mat fim I a b r Ha Hb Va Vb E i k v Hi Hv B)].
Qed.
Lemma c97_complex_csc_mat_mat : forall a b r : CSC (cplx T), wf_csc I a -> wf_csc I b ->
  Forall (cplx_good fin val) (csc_values a) -> Forall (cplx_good fin val) (csc_values b) -> CSC_mat_mat I a b = Ok r ->
  forall i k v, k < csc_cols b -> In v (csc_at r i k) -> finite_parts fin u eta top v (csc_product_cterms (re_pair real) a b i k) (csc_product_cterms (im_pair real) a b i k).
Proof.
  intros a b r Ha Hb Va Vb E i k v Hi Hv. split; intros B; [exact (fcsc_mat_mat fre I a b r Ha Hb Va Vb E i k v Hi Hv B)|exact (fcsc_mat_mat fim I a b r Ha Hb Va Vb E i k v Hi Hv B)].
Qed.
Lemma gre (l : list (cplx T)) : Forall (cplx_good fin val) l -> Forall (good (fun v => fin (cx_re v)) (cplx_val val)) l.
Proof. apply Forall_impl. intros v [A [B C]]. split; assumption. Qed.
Lemma gim (l : list (cplx T)) : Forall (cplx_good fin val) l -> Forall (good (fun v => fin (cx_im v)) (cplx_val val)) l.
Proof. apply Forall_impl. intros v [A [B C]]. split; assumption. Qed.
Ltac bothr L1 L2 := destruct L1 as (r & E & A); destruct L2 as (r' & E' & B); assert (r' = r) by congruence; subst r'; exists r; split; [exact E|].
Lemma c97_complex_coo_to_dense : forall m : Coo (cplx T), wf_coo I m -> Forall (cplx_good fin val) (coo_values m) ->
  exists d, Coo_to_dense m = Ok d /\ is_table d (coo_rows m) (coo_cols m) (coo_val m) /\
    forall i j, finite_sums fin real u top (coo_val m i j) (coo_at m i j).
Proof.
  intros m Hm  V. destruct (c97_coo_to_dense (apart_re R) rng_re I m Hm  (gre _ V)) as (d & E & H & A). destruct (c97_coo_to_dense (apart_im R) rng_im I m Hm  (gim _ V)) as (d' & _ & _ & B).
  exists d. split; [exact E|]. split; [exact H|]. intros i j. split; intros F; [exact (proj2 (A i j F))|exact (proj2 (B i j F))].
Qed.
Lemma c97_complex_csr_to_dense : forall m : CSR (cplx T), wf_csr I m -> Forall (cplx_good fin val) (csr_values m) ->
  exists d, CSR_to_dense m = Ok d /\ is_table d (csr_rows m) (csr_cols m) (csr_val m) /\
    forall i j, finite_sums fin real u top (csr_val m i j) (csr_at m i j).
Proof.
  intros m Hm  V. destruct (c97_csr_to_dense (apart_re R) rng_re I m Hm  (gre _ V)) as (d & E & H & A). destruct (c97_csr_to_dense (apart_im R) rng_im I m Hm  (gim _ V)) as (d' & _ & _ & B).
  exists d. split; [exact E|]. split; [exact H|]. intros i j. split; intros F; [exact (proj2 (A i j F))|exact (proj2 (B i j F))].
Qed.
Lemma c97_complex_csc_to_dense : forall m : CSC (cplx T), wf_csc I m -> csc_cols_fit I m -> Forall (cplx_good fin val) (csc_values m) ->
  exists d, CSC_to_dense I m = Ok d /\ is_table d (csc_rows m) (csc_cols m) (csc_val m) /\
    forall i j, finite_sums fin real u top (csc_val m i j) (csc_at m i j).
Proof.
  intros m Hm Hc V. destruct (c97_csc_to_dense (apart_re R) rng_re I m Hm Hc (gre _ V)) as (d & E & H & A). destruct (c97_csc_to_dense (apart_im R) rng_im I m Hm Hc (gim _ V)) as (d' & _ & _ & B).
  exists d. split; [exact E|]. split; [exact H|]. intros i j. split; intros F; [exact (proj2 (A i j F))|exact (proj2 (B i j F))].
Qed.
Lemma c97_complex_coo_to_csr : forall m : Coo (cplx T), wf_coo I m -> (Z.of_nat (length (coo_values m)) < imax I)%Z -> Forall (cplx_good fin val) (coo_values m) ->
  exists r, Coo_to_csr I m = Ok r /\ forall i j v, i < coo_rows m -> In v (csr_at r i j) -> finite_sums fin real u top v (coo_at m i j).
Proof.
  intros m Hm Hb V. bothr (c97_coo_to_csr (apart_re R) rng_re I m Hm Hb (gre _ V)) (c97_coo_to_csr (apart_im R) rng_im I m Hm Hb (gim _ V)).
  intros i j v Hi Hv. split; intros F; [exact (proj2 (A i j v Hi Hv F))|exact (proj2 (B i j v Hi Hv F))].
Qed.
Lemma c97_complex_coo_to_csc : forall m : Coo (cplx T), wf_coo I m -> (Z.of_nat (length (coo_values m)) < imax I)%Z -> Forall (cplx_good fin val) (coo_values m) ->
  exists r, Coo_to_csc I m = Ok r /\ forall i j v, j < coo_cols m -> In v (csc_at r i j) -> finite_sums fin real u top v (coo_at m i j).
Proof.
  intros m Hm Hb V. bothr (c97_coo_to_csc (apart_re R) rng_re I m Hm Hb (gre _ V)) (c97_coo_to_csc (apart_im R) rng_im I m Hm Hb (gim _ V)).
  intros i j v Hi Hv. split; intros F; [exact (proj2 (A i j v Hi Hv F))|exact (proj2 (B i j v Hi Hv F))].
Qed.
Lemma c97_complex_csr_sum_duplicates : forall m : CSR (cplx T), wf_csr I m -> (Z.of_nat (csr_count m) < imax I)%Z -> Forall (cplx_good fin val) (csr_values m) ->
  exists r, CSR_sum_duplicates I m = Ok r /\ forall i j v, In v (csr_at r i j) -> finite_sums fin real u top v (csr_at m i j).
Proof.
  intros m Hm Hb V. bothr (c97_csr_sum_duplicates (apart_re R) rng_re I m Hm Hb (gre _ V)) (c97_csr_sum_duplicates (apart_im R) rng_im I m Hm Hb (gim _ V)).
  intros i j v Hv. split; intros F; [exact (proj2 (A i j v Hv F))|exact (proj2 (B i j v Hv F))].
Qed.
Lemma c97_complex_csc_sum_duplicates : forall m : CSC (cplx T), wf_csc I m -> (Z.of_nat (csc_count m) < imax I)%Z -> Forall (cplx_good fin val) (csc_values m) ->
  exists r, CSC_sum_duplicates I m = Ok r /\ forall i j v, In v (csc_at r i j) -> finite_sums fin real u top v (csc_at m i j).
Proof.
  intros m Hm Hb V. bothr (c97_csc_sum_duplicates (apart_re R) rng_re I m Hm Hb (gre _ V)) (c97_csc_sum_duplicates (apart_im R) rng_im I m Hm Hb (gim _ V)).
  intros i j v Hv. split; intros F; [exact (proj2 (A i j v Hv F))|exact (proj2 (B i j v Hv F))].
Qed.
Lemma c97_complex_coo_add : forall a b : Coo (cplx T), wf_coo I a -> wf_coo I b -> coo_rows a = coo_rows b -> coo_cols a = coo_cols b ->
  (Z.of_nat (length (coo_values a) + length (coo_values b)) < imax I)%Z -> Forall (cplx_good fin val) (coo_values a) -> Forall (cplx_good fin val) (coo_values b) ->
  exists r, Coo_add I a b = Ok r /\
    forall i j v, i < coo_rows a -> In v (csr_at r i j) -> finite_sums fin real u top v (coo_at a i j ++ coo_at b i j).
Proof.
  intros a b Ha Hb D1 D2 Hn Va Vb. bothr (c97_coo_add (apart_re R) rng_re I a b Ha Hb D1 D2 Hn (gre _ Va) (gre _ Vb)) (c97_coo_add (apart_im R) rng_im I a b Ha Hb D1 D2 Hn (gim _ Va) (gim _ Vb)).
  intros i j v Hi Hv. split; unfold reals, imags; rewrite map_app; intros F; [exact (proj2 (A i j v Hi Hv F))|exact (proj2 (B i j v Hi Hv F))].
Qed.
Lemma c97_complex_csr_add : forall a b r : CSR (cplx T), wf_csr I a -> wf_csr I b -> csr_rows b = csr_rows a -> csr_cols b = csr_cols a ->
  Forall (cplx_good fin val) (csr_values a) -> Forall (cplx_good fin val) (csr_values b) -> CSR_add I a b = Ok r ->
  forall i j v, i < csr_rows a -> In v (csr_at r i j) -> finite_sums1 fin real u top v (csr_at a i j ++ csr_at b i j).
Proof.
  intros a b r Ha Hb D1 D2 Va Vb E i j v Hi Hv. split; unfold reals, imags; rewrite map_app; intros F;
  [exact (proj2 (c97_csr_add (apart_re R) rng_re I a b r Ha Hb D1 D2 (gre _ Va) (gre _ Vb) E i j v Hi F Hv))|exact (proj2 (c97_csr_add (apart_im R) rng_im I a b r Ha Hb D1 D2 (gim _ Va) (gim _ Vb) E i j v Hi F Hv))].
Qed.
Lemma c97_complex_csr_sub : forall a b r : CSR (cplx T), wf_csr I a -> wf_csr I b -> csr_rows b = csr_rows a -> csr_cols b = csr_cols a ->
  Forall (cplx_good fin val) (csr_values a) -> Forall (cplx_good fin val) (csr_values b) -> CSR_sub I a b = Ok r ->
  forall i j v, i < csr_rows a -> In v (csr_at r i j) -> finite_sums1 fin real u top v (csr_at a i j ++ csr_at b i j).
Proof.
  intros a b r Ha Hb D1 D2 Va Vb E i j v Hi Hv. split; unfold reals, imags; rewrite map_app; intros F;
  [exact (proj2 (c97_csr_sub (apart_re R) rng_re I a b r Ha Hb D1 D2 (gre _ Va) (gre _ Vb) E i j v Hi F Hv))|exact (proj2 (c97_csr_sub (apart_im R) rng_im I a b r Ha Hb D1 D2 (gim _ Va) (gim _ Vb) E i j v Hi F Hv))].
Qed.
Lemma c97_complex_csc_add : forall a b r : CSC (cplx T), wf_csc I a -> wf_csc I b -> csc_rows b = csc_rows a -> csc_cols b = csc_cols a ->
  Forall (cplx_good fin val) (csc_values a) -> Forall (cplx_good fin val) (csc_values b) -> CSC_add I a b = Ok r ->
  forall i j v, j < csc_cols a -> In v (csc_at r i j) -> finite_sums1 fin real u top v (csc_at a i j ++ csc_at b i j).
Proof.
  intros a b r Ha Hb D1 D2 Va Vb E i j v Hi Hv. split; unfold reals, imags; rewrite map_app; intros F;
  [exact (proj2 (c97_csc_add (apart_re R) rng_re I a b r Ha Hb D1 D2 (gre _ Va) (gre _ Vb) E i j v Hi F Hv))|exact (proj2 (c97_csc_add (apart_im R) rng_im I a b r Ha Hb D1 D2 (gim _ Va) (gim _ Vb) E i j v Hi F Hv))].
Qed.
Lemma c97_complex_csc_subtract : forall a b r : CSC (cplx T), wf_csc I a -> wf_csc I b -> csc_rows b = csc_rows a -> csc_cols b = csc_cols a ->
  Forall (cplx_good fin val) (csc_values a) -> Forall (cplx_good fin val) (csc_values b) -> CSC_subtract I a b = Ok r ->
  forall i j v, j < csc_cols a -> In v (csc_at r i j) -> finite_sums1 fin real u top v (csc_at a i j ++ csc_at b i j).
Proof.
  intros a b r Ha Hb D1 D2 Va Vb E i j v Hi Hv. split; unfold reals, imags; rewrite map_app; intros F;
  [exact (proj2 (c97_csc_subtract (apart_re R) rng_re I a b r Ha Hb D1 D2 (gre _ Va) (gre _ Vb) E i j v Hi F Hv))|exact (proj2 (c97_csc_subtract (apart_im R) rng_im I a b r Ha Hb D1 D2 (gim _ Va) (gim _ Vb) E i j v Hi F Hv))].
Qed.
End R.
