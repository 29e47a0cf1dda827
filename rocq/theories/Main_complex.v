(** Rounding errors of complex matrices. *)
From Verif Require Import Rust Scalar Model_kernels Model_matrix Spec SpecBoundary SpecRound SpecComplex Wp Rep CanonProofs ArithProofs Main_convert Main_linear Main_struct Main_boundary Main_product Main_addition Main_arith Main_more Main_float Main_round.
From Coq Require Import ZArith QArith Qabs List Lia Lqa Floats.SpecFloat Qpower Setoid Morphisms.
Import ListNotations.
Open Scope Q_scope.

(** complex numbers multiplied part by part: not an operation of the code, but sums do not see the difference *)
Definition apart {T} (SC : Scalar T) : Scalar (cplx T) := {|
  s0 := @s0 _ scalar_cplx; s1 := @s1 _ scalar_cplx; sadd := @sadd _ scalar_cplx; ssub := @ssub _ scalar_cplx;
  smul a b := Cx (smul (cx_re a) (cx_re b)) (smul (cx_im a) (cx_im b)); sdiv := @sdiv _ scalar_cplx; seqb := @seqb _ scalar_cplx |}.

Section R.
Context {T : Type} {SC : Scalar T} {real : T -> Q} {fin val : T -> Prop} {u eta : Q} (R : Rounded real fin val u eta).

Lemma apart_re : @Rounded (cplx T) (apart SC) (fun v => real (cx_re v)) (fun v => fin (cx_re v)) (cplx_val val) u eta.
Proof.
  destruct R as [A B C D E F G H]. constructor; unfold cplx_val; cbn; intros.
  - exact A. - exact B. - destruct C as (C1 & C2 & C3). repeat split; assumption.
  - apply andb_prop in H0 as [H0 _]. exact (D _ H0).
  - destruct H0 as [V1 V2]. split; [split; apply E; assumption|]. apply E; assumption.
  - destruct H0 as [V1 V2], H1 as [V3 V4]. split; [split; apply F; assumption|]. apply F; assumption.
  - destruct H0 as [V1 V2], H1 as [V3 V4]. split; [split; apply G; assumption|]. apply G; assumption.
  - destruct H0 as [V1 V2], H1 as [V3 V4]. split; [split; apply H; assumption|]. apply H; assumption.
Qed.
Lemma apart_im : @Rounded (cplx T) (apart SC) (fun v => real (cx_im v)) (fun v => fin (cx_im v)) (cplx_val val) u eta.
Proof.
  destruct R as [A B C D E F G H]. constructor; unfold cplx_val; cbn; intros.
  - exact A. - exact B. - destruct C as (C1 & C2 & C3). repeat split; assumption.
  - apply andb_prop in H0 as [_ H0]. exact (D _ H0).
  - destruct H0 as [V1 V2]. split; [split; apply E; assumption|]. apply E; assumption.
  - destruct H0 as [V1 V2], H1 as [V3 V4]. split; [split; apply F; assumption|]. apply F; assumption.
  - destruct H0 as [V1 V2], H1 as [V3 V4]. split; [split; apply G; assumption|]. apply G; assumption.
  - destruct H0 as [V1 V2], H1 as [V3 V4]. split; [split; apply H; assumption|]. apply H; assumption.
Qed.

(** a product of two complex numbers: two rounded products and a rounded sum *)
Definition term_near (got : Q) (t : Q * Q) : Prop :=
  Qabs (got - (fst t + snd t)) <= ((1 + u) * (1 + u) - 1) * (Qabs (fst t) + Qabs (snd t)) + 2 * (1 + u) * eta.
Lemma two_near a b x y s : off u eta a x -> off u eta b y -> off u 0 s (a + b) -> term_near s (x, y).
Proof.
  pose proof (rd_u _ _ _ _ _ R) as U. pose proof (rd_eta _ _ _ _ _ R) as He.
  unfold off, term_near. cbn [fst snd]. intros A B C.
  pose proof (Qabs_triangle (a - x) (b - y)) as T1.
  pose proof (Qabs_triangle (s - (a + b)) (a - x + (b - y))) as T2.
  assert (E1 : s - (a + b) + (a - x + (b - y)) == s - (x + y)) by ring. rewrite E1 in T2. clear E1.
  pose proof (Qabs_triangle (a - x + (b - y)) (x + y)) as T3.
  assert (E2 : a - x + (b - y) + (x + y) == a + b) by ring. rewrite E2 in T3. clear E2.
  pose proof (Qabs_triangle x y) as T4.
  assert (K : u * Qabs (a + b) <= u * ((1 + u) * (Qabs x + Qabs y) + 2 * eta)).
  { rewrite !(Qmult_comm u). apply Qmult_le_compat_r; [lra|exact U]. }
  assert (E3 : ((1 + u) * (1 + u) - 1) * (Qabs x + Qabs y) + 2 * (1 + u) * eta ==
    u * ((1 + u) * (Qabs x + Qabs y) + 2 * eta) + (u * (Qabs x + Qabs y) + 2 * eta)) by ring.
  rewrite E3. lra.
Qed.
Lemma off_opp a x : off u eta a x -> off u eta (- a) (- x).
Proof.
  unfold off. intros H. assert (E : - a - - x == - (a - x)) by ring. rewrite E, !Qabs_opp. exact H.
Qed.

(** [pj] is one of the two parts, [pr] the pair of products it is made of *)
Record Part (pj : cplx T -> T) (pr : cplx T -> cplx T -> Q * Q) : Prop := {
  pt_apart : @Rounded (cplx T) (apart SC) (fun v => real (pj v)) (fun v => fin (pj v)) (cplx_val val) u eta;
  pt_mul : forall a b, cplx_val val a -> cplx_val val b -> fin (pj (smul a b)) -> term_near (real (pj (smul a b))) (pr a b);
}.
Lemma mul_val a b : cplx_val val a -> cplx_val val b -> cplx_val val (smul a b).
Proof.
  intros [A1 A2] [B1 B2]. cbn. split; cbn [cx_re cx_im]; apply R; apply R; assumption.
Qed.
Lemma part_re : Part cx_re (re_pair real).
Proof.
  constructor; [exact apart_re|]. intros a b [A1 A2] [B1 B2]. cbn [smul scalar_cplx cx_re]. intros F.
  destruct (rd_mul _ _ _ _ _ R _ _ A1 B1) as [V1 M1]. destruct (rd_mul _ _ _ _ _ R _ _ A2 B2) as [V2 M2].
  destruct (proj2 (rd_sub _ _ _ _ _ R _ _ V1 V2) F) as (F1 & F2 & O).
  destruct (M1 F1) as (_ & _ & O1). destruct (M2 F2) as (_ & _ & O2).
  exact (two_near _ _ _ _ _ O1 (off_opp _ _ O2) O).
Qed.
Lemma part_im : Part cx_im (im_pair real).
Proof.
  constructor; [exact apart_im|]. intros a b [A1 A2] [B1 B2]. cbn [smul scalar_cplx cx_im]. intros F.
  destruct (rd_mul _ _ _ _ _ R _ _ A1 B2) as [V1 M1]. destruct (rd_mul _ _ _ _ _ R _ _ A2 B1) as [V2 M2].
  destruct (proj2 (rd_add _ _ _ _ _ R _ _ V1 V2) F) as (F1 & F2 & O).
  destruct (M1 F1) as (_ & _ & O1). destruct (M2 F2) as (_ & _ & O2).
  exact (two_near _ _ _ _ _ O1 O2 O).
Qed.

Section P.
Context {pj : cplx T -> T} {pr : cplx T -> cplx T -> Q * Q} (P0 : Part pj pr).
Definition tmc (e : cplx T * cplx T) : Q * Q := pr (fst e) (snd e).
Lemma pair_sum_cons x l : pair_sum (x :: l) == fst x + snd x + pair_sum l.
Proof. reflexivity. Qed.
Lemma pair_abs_cons x l : pair_abs (x :: l) == Qabs (fst x) + Qabs (snd x) + pair_abs l.
Proof. reflexivity. Qed.
Lemma pair_abs_nonneg l : 0 <= pair_abs l.
Proof. induction l as [|x l IH]; [apply Qle_refl|]. rewrite pair_abs_cons. pose proof (Qabs_nonneg (fst x)). pose proof (Qabs_nonneg (snd x)). lra. Qed.

Lemma cdot_near (P : list (cplx T * cplx T)) : Forall (fun e => cplx_val val (fst e) /\ cplx_val val (snd e)) P ->
  cplx_val val (fold_left sadd (map (fun e => smul (fst e) (snd e)) P) s0) /\
  (fin (pj (fold_left sadd (map (fun e => smul (fst e) (snd e)) P) s0)) ->
   near_cdot u eta (real (pj (fold_left sadd (map (fun e => smul (fst e) (snd e)) P) s0))) (map tmc P)).
Proof.
  intros HP. pose proof (rd_u _ _ _ _ _ R) as U. pose proof (rd_eta _ _ _ _ _ R) as Heta.
  assert (HV : Forall (cplx_val val) (map (fun e => smul (fst e) (snd e)) P)).
  { rewrite Forall_map. eapply Forall_impl; [|exact HP]. intros e [A B]. apply mul_val; assumption. }
  destruct (sum0_near (pt_apart _ _ P0) _ HV) as [V B].
  change (@sadd _ (apart SC)) with (@sadd (cplx T) scalar_cplx) in *. change (@s0 _ (apart SC)) with (@s0 (cplx T) scalar_cplx) in *.
  split; [exact V|]. intros F. destruct (B F) as [F2 N]. clear B.
  set (L := map (fun e => smul (fst e) (snd e)) P) in *. set (got := real (pj (fold_left sadd L s0))) in *.
  set (rp := fun v => real (pj v)) in *.
  assert (D : Qabs (qsum (map rp L) - pair_sum (map tmc P)) <= ((1 + u) * (1 + u) - 1) * pair_abs (map tmc P) + inject_Z (Z.of_nat (length P)) * (2 * (1 + u) * eta) /\
              qsum_abs (map rp L) <= (1 + u) * (1 + u) * pair_abs (map tmc P) + inject_Z (Z.of_nat (length P)) * (2 * (1 + u) * eta)).
  { unfold L in *. clear N V got F L. rewrite Forall_map in F2. induction P as [|e P IH]; cbn [map length].
    - split; [cbn -[Qmult]; ring_simplify; apply Qle_refl|cbn -[Qmult]; ring_simplify; apply Qle_refl].
    - inversion HP as [|? ? [A1 A2] HP']; subst. inversion F2 as [|? ? F2a F2']; subst. inversion HV as [|? ? HVa HV']; subst.
      destruct (IH HP' HV' F2') as [I1 I2]. clear IH.
      pose proof (pt_mul _ _ P0 _ _ A1 A2 F2a) as O. unfold term_near in O. fold (tmc e) in O.
      rewrite !qsum_cons, !qsum_abs_cons, pair_sum_cons, pair_abs_cons. rewrite Nat2Z.inj_succ, <- Z.add_1_l, inject_Z_plus. change (inject_Z 1) with 1.
      set (w := inject_Z (Z.of_nat (length P))) in *. set (q1 := qsum (map rp _)) in *. set (q2 := pair_sum (map tmc P)) in *.
      set (s1 := qsum_abs (map rp _)) in *. set (s2 := pair_abs (map tmc P)) in *. change (real (pj (smul (fst e) (snd e)))) with (rp (smul (fst e) (snd e))) in O.
      set (p := rp (smul (fst e) (snd e))) in *. set (x := fst (tmc e)) in *. set (y := snd (tmc e)) in *. set (z := 2 * (1 + u) * eta) in *.
      pose proof (Qabs_triangle (p - (x + y)) (q1 - q2)) as T1. assert (E1 : p - (x + y) + (q1 - q2) == p + q1 - (x + y + q2)) by ring. rewrite E1 in T1.
      pose proof (Qabs_triangle (p - (x + y)) (x + y)) as T2. assert (E2 : p - (x + y) + (x + y) == p) by ring. rewrite E2 in T2.
      pose proof (Qabs_triangle x y) as T3. set (g2 := (1 + u) * (1 + u)) in *.
      split; lra. }
  destruct D as [D1 D2]. unfold near_cdot, near_sum in *. rewrite map_length in *.
  assert (LL : length L = length P) by (unfold L; apply map_length). rewrite LL in N.
  set (S := pair_abs (map tmc P)) in *. pose proof (pair_abs_nonneg (map tmc P)) as S0. fold S in S0.
  set (w := inject_Z (Z.of_nat (length P))) in *.
  assert (W0 : 0 <= w) by (unfold w; rewrite <- (Zle_Qle 0); lia).
  pose proof (qsum_abs_nonneg (map rp L)) as L0.
  set (q1 := qsum (map rp L)) in *. set (q2 := pair_sum (map tmc P)) in *. set (s1 := qsum_abs (map rp L)) in *.
  pose proof (Qabs_triangle (got - q1) (q1 - q2)) as T1. assert (E1 : got - q1 + (q1 - q2) == got - q2) by ring. rewrite E1 in T1.
  rewrite Nat.add_1_r.
  destruct (length P) as [|k] eqn:K.
  - destruct P as [|? ?]; [|discriminate]. clear -T1 N D1 Heta.
    change ((1 + u) ^ Z.of_nat (0 - 1)) with 1 in N. change ((1 + u) ^ Z.of_nat 0) with 1. change w with 0 in *. change S with 0 in *. lra.
  - replace (Datatypes.S k - 1)%nat with k in N by lia. rewrite !(pw_S u U). set (g := (1 + u) ^ Z.of_nat k) in *.
    pose proof (pw_1 u U k) as G. fold g in G.
    assert (K1 : (g - 1) * s1 <= (g - 1) * ((1 + u) * (1 + u) * S + w * (2 * (1 + u) * eta))) by (rewrite !(Qmult_comm (g - 1)); apply Qmult_le_compat_r; lra).
    assert (E3 : ((1 + u) * ((1 + u) * g) - 1) * S + 2 * w * ((1 + u) * g) * eta ==
      (g - 1) * ((1 + u) * (1 + u) * S + w * (2 * (1 + u) * eta)) + (((1 + u) * (1 + u) - 1) * S + w * (2 * (1 + u) * eta))) by ring.
    rewrite E3. change (real (pj (fold_left sadd L s0))) with got. fold got. lra.
Qed.

Open Scope nat_scope.
Variable I : ity.
Lemma cnth_val (x : list (cplx T)) n : Forall (cplx_val val) x -> cplx_val val (nth n x s0).
Proof. intros H. exact (nth_val apart_re x n H). Qed.

Lemma part_csr_mat_vec : forall (m : CSR (cplx T)) (x : list (cplx T)), wf_csr I m -> length x = csr_cols m -> Forall (cplx_val val) (csr_values m) -> Forall (cplx_val val) x ->
  forall y, CSR_mat_vec m x = Ok y ->
    forall i, i < csr_rows m -> fin (pj (nth i y s0)) -> near_cdot u eta (real (pj (nth i y s0))) (csr_cterms pr m x i).
Proof.
  intros m x Hm Hx Vm Vx y E0. destruct (proj2 (c15_csr_mat_vec I m x Hm) Hx) as (y' & E & Ly & H). assert (y' = y) by congruence. subst y'.
  intros i Hi. rewrite (H i Hi). clear H E.
  set (P := map (fun e : nat * cplx T => (snd e, nth (fst e) x s0)) (csr_row m i)).
  destruct (cdot_near P) as [_ D].
  { unfold P. rewrite Forall_map, Forall_forall. intros e He. cbn [fst snd]. split; [exact (crow_val _ _ _ _ _ Vm He)|apply cnth_val, Vx]. }
  unfold P in D. rewrite !map_map in D. exact D.
Qed.
Lemma part_csc_mat_vec : forall (m : CSC (cplx T)) (x : list (cplx T)), wf_csc I m -> length x = csc_cols m -> Forall (cplx_val val) (csc_values m) -> Forall (cplx_val val) x ->
  forall y, CSC_mat_vec m x = Ok y ->
    forall i, i < csc_rows m -> fin (pj (nth i y s0)) -> near_cdot u eta (real (pj (nth i y s0))) (csc_cterms pr m x i).
Proof.
  intros m x Hm Hx Vm Vx y E0. destruct (proj2 (c16_csc_mat_vec I m x Hm) Hx) as (y' & E & Ly & H). assert (y' = y) by congruence. subst y'.
  intros i Hi. rewrite (H i Hi). clear H E.
  set (P := flat_map (fun j => map (fun v => (v, nth j x s0)) (csc_at m i j)) (seq 0 (csc_cols m))).
  destruct (cdot_near P) as [_ D].
  { apply Forall_forall. intros e He. apply in_flat_map in He as (j & _ & He). apply in_map_iff in He as (v & <- & Hv). cbn [fst snd].
    split; [|apply cnth_val, Vx]. apply (proj1 (Forall_forall _ _) (csc_at_val m i j Vm)), Hv. }
  assert (EP : map (fun e => smul (fst e) (snd e)) P = flat_map (fun j => map (fun v => smul v (nth j x s0)) (csc_at m i j)) (seq 0 (csc_cols m))).
  { unfold P. rewrite map_flat. apply flat_map_ext. intros e. rewrite map_map. reflexivity. }
  assert (ET : map tmc P = csc_cterms pr m x i).
  { unfold P. rewrite map_flat. apply flat_map_ext. intros e. rewrite map_map. reflexivity. }
  rewrite EP, ET in D. exact D.
Qed.

Lemma near_cdot_eq a b t : (a == b)%Q -> near_cdot u eta a t -> near_cdot u eta b t.
Proof. unfold near_cdot. intros E. rewrite E. trivial. Qed.
Lemma near_cdot_nil a : (a == 0)%Q -> near_cdot u eta a [].
Proof.
  unfold near_cdot. intros E. rewrite E. cbn [length Nat.add]. change (Z.of_nat 0) with 0%Z. change ((1 + u) ^ 0)%Q with 1%Q. change (Qabs (0 - pair_sum [])) with 0%Q.
  change (inject_Z 0) with 0%Q. change (pair_abs []) with 0%Q. ring_simplify. apply Qle_refl.
Qed.
Lemma part_kept {A} (occ : list A) v : cplx_val val v -> fin (pj (sum0 (keep occ v))) ->
  (occ <> [] -> fin (pj v) /\ (real (pj (sum0 (keep occ v))) == real (pj v))%Q) /\ (occ = [] -> (real (pj (sum0 (keep occ v))) == 0)%Q).
Proof. intros V F. exact (kept (pt_apart _ _ P0) occ v V F). Qed.

Lemma part_csr_mat_mat : forall a b r : CSR (cplx T), wf_csr I a -> wf_csr I b -> Forall (cplx_val val) (csr_values a) -> Forall (cplx_val val) (csr_values b) -> CSR_mat_mat I a b = Ok r ->
  forall i k, i < csr_rows a -> fin (pj (csr_val r i k)) -> near_cdot u eta (real (pj (csr_val r i k))) (csr_product_cterms pr a b i k).
Proof.
  intros a b r Ha Hb Va Vb E i k Hi F.
  destruct (Nat.eq_dec (csr_cols a) (csr_rows b)) as [D|D]; [|rewrite (c17_csr_mat_mat_error I a b D) in E; discriminate].
  destruct (c17_csr_mat_mat_exact I a b Ha Hb D) as [Q1 Q2].
  destruct (Z_lt_dec (imax I) (Z.of_nat (product_kept a b))) as [L|L]; [destruct (Q1 L); congruence|].
  destruct (Q2 L) as (r' & E' & _ & _ & _ & _ & _ & _ & _ & _ & H). assert (r' = r) by congruence. subst r'. clear Q1 Q2 E'.
  unfold csr_val in *. rewrite (H i k Hi) in *. clear H.
  set (P := flat_map (fun e : nat * cplx T => map (fun v => (snd e, v)) (csr_at b (fst e) k)) (csr_row a i)).
  destruct (cdot_near P) as [V N].
  { apply Forall_forall. intros e He. apply in_flat_map in He as (j & Hj & He). apply in_map_iff in He as (v & <- & Hv). cbn [fst snd].
    split; [exact (crow_val _ _ _ _ _ Va Hj)|]. apply (proj1 (Forall_forall _ _) (csr_at_val b (fst j) k Vb)), Hv. }
  assert (EP : map (fun e => smul (fst e) (snd e)) P = csr_products a b i k).
  { unfold P. rewrite map_flat. apply flat_map_ext. intros e. rewrite map_map. reflexivity. }
  assert (ET : map tmc P = csr_product_cterms pr a b i k).
  { unfold P. rewrite map_flat. apply flat_map_ext. intros e. rewrite map_map. reflexivity. }
  rewrite EP, ET in *.
  destruct (part_kept (csr_products a b i k) (sum0 (csr_products a b i k)) V F) as [K1 K2].
  destruct (csr_products a b i k) as [|o l] eqn:O.
  - replace (csr_product_cterms pr a b i k) with (@nil (Q * Q)); [apply near_cdot_nil, K2; reflexivity|].
    rewrite <- ET. destruct P; [reflexivity|discriminate].
  - destruct (K1 ltac:(discriminate)) as [K3 K4]. eapply near_cdot_eq; [symmetry; exact K4|]. apply N, K3.
Qed.
Lemma part_csc_mat_mat : forall a b r : CSC (cplx T), wf_csc I a -> wf_csc I b -> Forall (cplx_val val) (csc_values a) -> Forall (cplx_val val) (csc_values b) -> CSC_mat_mat I a b = Ok r ->
  forall i k, k < csc_cols b -> fin (pj (csc_val r i k)) -> near_cdot u eta (real (pj (csc_val r i k))) (csc_product_cterms pr a b i k).
Proof.
  intros a b r Ha Hb Va Vb E i k Hi F.
  destruct (Nat.eq_dec (csc_cols a) (csc_rows b)) as [D|D]; [|rewrite (c18_csc_mat_mat_error I a b D) in E; discriminate].
  destruct (c18_csc_mat_mat_exact I a b Ha Hb D) as [Q1 Q2].
  destruct (Z_lt_dec (imax I) (Z.of_nat (csc_product_kept a b))) as [L|L]; [destruct (Q1 L); congruence|].
  destruct (Q2 L) as (r' & E' & _ & _ & _ & _ & _ & _ & _ & _ & H). assert (r' = r) by congruence. subst r'. clear Q1 Q2 E'.
  unfold csc_val in *. rewrite (H i k Hi) in *. clear H.
  set (P := flat_map (fun e : nat * cplx T => map (fun v => (snd e, v)) (csc_at a i (fst e))) (csc_col b k)).
  destruct (cdot_near P) as [V N].
  { apply Forall_forall. intros e He. apply in_flat_map in He as (j & Hj & He). apply in_map_iff in He as (v & <- & Hv). cbn [fst snd].
    split; [exact (crow_val _ _ _ _ _ Vb Hj)|]. apply (proj1 (Forall_forall _ _) (csc_at_val a i (fst j) Va)), Hv. }
  assert (EP : map (fun e => smul (fst e) (snd e)) P = csc_products a b i k).
  { unfold P. rewrite map_flat. apply flat_map_ext. intros e. rewrite map_map. reflexivity. }
  assert (ET : map tmc P = csc_product_cterms pr a b i k).
  { unfold P. rewrite map_flat. apply flat_map_ext. intros e. rewrite map_map. reflexivity. }
  rewrite EP, ET in *.
  destruct (part_kept (csc_products a b i k) (sum0 (csc_products a b i k)) V F) as [K1 K2].
  destruct (csc_products a b i k) as [|o l] eqn:O.
  - replace (csc_product_cterms pr a b i k) with (@nil (Q * Q)); [apply near_cdot_nil, K2; reflexivity|].
    rewrite <- ET. destruct P; [reflexivity|discriminate].
  - destruct (K1 ltac:(discriminate)) as [K3 K4]. eapply near_cdot_eq; [symmetry; exact K4|]. apply N, K3.
Qed.
End P.
End R.

Open Scope nat_scope.
Section C99.
Context {T : Type} {SC : Scalar T} {real : T -> Q} {fin val : T -> Prop} {u eta : Q} (R : Rounded real fin val u eta).
Variable I : ity.
Lemma c99_csr_mat_vec : forall (m : CSR (cplx T)) (x : list (cplx T)), wf_csr I m -> length x = csr_cols m ->
  Forall (cplx_val val) (csr_values m) -> Forall (cplx_val val) x ->
  exists y, CSR_mat_vec m x = Ok y /\ length y = csr_rows m /\
    forall i, i < csr_rows m -> let v := nth i y s0 in
      parts fin v (near_cdot u eta (real (cx_re v)) (csr_cterms (re_pair real) m x i)) (near_cdot u eta (real (cx_im v)) (csr_cterms (im_pair real) m x i)).
Proof.
  intros m x Hm Hx Vm Vx. destruct (proj2 (c15_csr_mat_vec I m x Hm) Hx) as (y & E & Ly & _). exists y. split; [exact E|]. split; [exact Ly|].
  intros i Hi v. split; intros F.
  - exact (part_csr_mat_vec R (part_re R) I m x Hm Hx Vm Vx y E i Hi F).
  - exact (part_csr_mat_vec R (part_im R) I m x Hm Hx Vm Vx y E i Hi F).
Qed.
Lemma c99_csc_mat_vec : forall (m : CSC (cplx T)) (x : list (cplx T)), wf_csc I m -> length x = csc_cols m ->
  Forall (cplx_val val) (csc_values m) -> Forall (cplx_val val) x ->
  exists y, CSC_mat_vec m x = Ok y /\ length y = csc_rows m /\
    forall i, i < csc_rows m -> let v := nth i y s0 in
      parts fin v (near_cdot u eta (real (cx_re v)) (csc_cterms (re_pair real) m x i)) (near_cdot u eta (real (cx_im v)) (csc_cterms (im_pair real) m x i)).
Proof.
  intros m x Hm Hx Vm Vx. destruct (proj2 (c16_csc_mat_vec I m x Hm) Hx) as (y & E & Ly & _). exists y. split; [exact E|]. split; [exact Ly|].
  intros i Hi v. split; intros F.
  - exact (part_csc_mat_vec R (part_re R) I m x Hm Hx Vm Vx y E i Hi F).
  - exact (part_csc_mat_vec R (part_im R) I m x Hm Hx Vm Vx y E i Hi F).
Qed.
Lemma c99_csr_mat_mat : forall a b r : CSR (cplx T), wf_csr I a -> wf_csr I b -> Forall (cplx_val val) (csr_values a) -> Forall (cplx_val val) (csr_values b) ->
  CSR_mat_mat I a b = Ok r -> forall i k, i < csr_rows a -> let v := csr_val r i k in
    parts fin v (near_cdot u eta (real (cx_re v)) (csr_product_cterms (re_pair real) a b i k)) (near_cdot u eta (real (cx_im v)) (csr_product_cterms (im_pair real) a b i k)).
Proof.
  intros a b r Ha Hb Va Vb E i k Hi v. split; intros F.
  - exact (part_csr_mat_mat R (part_re R) I a b r Ha Hb Va Vb E i k Hi F).
  - exact (part_csr_mat_mat R (part_im R) I a b r Ha Hb Va Vb E i k Hi F).
Qed.
Lemma c99_csc_mat_mat : forall a b r : CSC (cplx T), wf_csc I a -> wf_csc I b -> Forall (cplx_val val) (csc_values a) -> Forall (cplx_val val) (csc_values b) ->
  CSC_mat_mat I a b = Ok r -> forall i k, k < csc_cols b -> let v := csc_val r i k in
    parts fin v (near_cdot u eta (real (cx_re v)) (csc_product_cterms (re_pair real) a b i k)) (near_cdot u eta (real (cx_im v)) (csc_product_cterms (im_pair real) a b i k)).
Proof.
  intros a b r Ha Hb Va Vb E i k Hi v. split; intros F.
  - exact (part_csc_mat_mat R (part_re R) I a b r Ha Hb Va Vb E i k Hi F).
  - exact (part_csc_mat_mat R (part_im R) I a b r Ha Hb Va Vb E i k Hi F).
Qed.

Lemma c99_coo_to_dense : forall m : Coo (cplx T), wf_coo I m -> Forall (cplx_val val) (coo_values m) ->
  exists d, Coo_to_dense m = Ok d /\ is_table d (coo_rows m) (coo_cols m) (coo_val m) /\
    forall i j, let v := coo_val m i j in
      parts fin v (near_sum u (real (cx_re v)) (reals real (coo_at m i j))) (near_sum u (real (cx_im v)) (imags real (coo_at m i j))).
Proof.
  intros m Hm Vm. destruct (c95_coo_to_dense (apart_re R) I m Hm Vm) as (d & E & H & A). destruct (c95_coo_to_dense (apart_im R) I m Hm Vm) as (d' & E' & _ & B).
  exists d. split; [exact E|]. split; [exact H|]. intros i j v. split; intros F; [exact (A i j F)|exact (B i j F)].
Qed.
Lemma c99_csr_to_dense : forall m : CSR (cplx T), wf_csr I m -> Forall (cplx_val val) (csr_values m) ->
  exists d, CSR_to_dense m = Ok d /\ is_table d (csr_rows m) (csr_cols m) (csr_val m) /\
    forall i j, let v := csr_val m i j in
      parts fin v (near_sum u (real (cx_re v)) (reals real (csr_at m i j))) (near_sum u (real (cx_im v)) (imags real (csr_at m i j))).
Proof.
  intros m Hm Vm. destruct (c95_csr_to_dense (apart_re R) I m Hm Vm) as (d & E & H & A). destruct (c95_csr_to_dense (apart_im R) I m Hm Vm) as (d' & E' & _ & B).
  exists d. split; [exact E|]. split; [exact H|]. intros i j v. split; intros F; [exact (A i j F)|exact (B i j F)].
Qed.
Lemma c99_csc_to_dense : forall m : CSC (cplx T), wf_csc I m -> csc_cols_fit I m -> Forall (cplx_val val) (csc_values m) ->
  exists d, CSC_to_dense I m = Ok d /\ is_table d (csc_rows m) (csc_cols m) (csc_val m) /\
    forall i j, let v := csc_val m i j in
      parts fin v (near_sum u (real (cx_re v)) (reals real (csc_at m i j))) (near_sum u (real (cx_im v)) (imags real (csc_at m i j))).
Proof.
  intros m Hm Hf Vm. destruct (c95_csc_to_dense (apart_re R) I m Hm Hf Vm) as (d & E & H & A). destruct (c95_csc_to_dense (apart_im R) I m Hm Hf Vm) as (d' & E' & _ & B).
  exists d. split; [exact E|]. split; [exact H|]. intros i j v. split; intros F; [exact (A i j F)|exact (B i j F)].
Qed.

Ltac both_parts L1 L2 :=
  destruct L1 as (r & E & A); destruct L2 as (r' & E' & B); assert (r' = r) by congruence; subst r';
  exists r; split; [exact E|].
Lemma c99_coo_to_csr : forall m : Coo (cplx T), wf_coo I m -> (Z.of_nat (length (coo_values m)) < imax I)%Z -> Forall (cplx_val val) (coo_values m) ->
  exists r, Coo_to_csr I m = Ok r /\ forall i j v, i < coo_rows m -> In v (csr_at r i j) ->
    parts fin v (near_sum u (real (cx_re v)) (reals real (coo_at m i j))) (near_sum u (real (cx_im v)) (imags real (coo_at m i j))).
Proof.
  intros m Hm Hb Vm. both_parts (c95_coo_to_csr (apart_re R) I m Hm Hb Vm) (c95_coo_to_csr (apart_im R) I m Hm Hb Vm).
  intros i j v Hi Hv. split; intros F; [exact (A i j v Hi Hv F)|exact (B i j v Hi Hv F)].
Qed.
Lemma c99_coo_to_csc : forall m : Coo (cplx T), wf_coo I m -> (Z.of_nat (length (coo_values m)) < imax I)%Z -> Forall (cplx_val val) (coo_values m) ->
  exists r, Coo_to_csc I m = Ok r /\ forall i j v, j < coo_cols m -> In v (csc_at r i j) ->
    parts fin v (near_sum u (real (cx_re v)) (reals real (coo_at m i j))) (near_sum u (real (cx_im v)) (imags real (coo_at m i j))).
Proof.
  intros m Hm Hb Vm. both_parts (c95_coo_to_csc (apart_re R) I m Hm Hb Vm) (c95_coo_to_csc (apart_im R) I m Hm Hb Vm).
  intros i j v Hi Hv. split; intros F; [exact (A i j v Hi Hv F)|exact (B i j v Hi Hv F)].
Qed.
Lemma c99_csr_sum_duplicates : forall m : CSR (cplx T), wf_csr I m -> (Z.of_nat (csr_count m) < imax I)%Z -> Forall (cplx_val val) (csr_values m) ->
  exists r, CSR_sum_duplicates I m = Ok r /\ forall i j v, In v (csr_at r i j) ->
    parts fin v (near_sum u (real (cx_re v)) (reals real (csr_at m i j))) (near_sum u (real (cx_im v)) (imags real (csr_at m i j))).
Proof.
  intros m Hm Hb Vm. both_parts (c95_csr_sum_duplicates (apart_re R) I m Hm Hb Vm) (c95_csr_sum_duplicates (apart_im R) I m Hm Hb Vm).
  intros i j v Hv. split; intros F; [exact (A i j v Hv F)|exact (B i j v Hv F)].
Qed.
Lemma c99_csc_sum_duplicates : forall m : CSC (cplx T), wf_csc I m -> (Z.of_nat (csc_count m) < imax I)%Z -> Forall (cplx_val val) (csc_values m) ->
  exists r, CSC_sum_duplicates I m = Ok r /\ forall i j v, In v (csc_at r i j) ->
    parts fin v (near_sum u (real (cx_re v)) (reals real (csc_at m i j))) (near_sum u (real (cx_im v)) (imags real (csc_at m i j))).
Proof.
  intros m Hm Hb Vm. both_parts (c95_csc_sum_duplicates (apart_re R) I m Hm Hb Vm) (c95_csc_sum_duplicates (apart_im R) I m Hm Hb Vm).
  intros i j v Hv. split; intros F; [exact (A i j v Hv F)|exact (B i j v Hv F)].
Qed.
Lemma c99_coo_add : forall a b : Coo (cplx T), wf_coo I a -> wf_coo I b -> coo_rows a = coo_rows b -> coo_cols a = coo_cols b ->
  (Z.of_nat (length (coo_values a) + length (coo_values b)) < imax I)%Z -> Forall (cplx_val val) (coo_values a) -> Forall (cplx_val val) (coo_values b) ->
  exists r, Coo_add I a b = Ok r /\ forall i j v, i < coo_rows a -> In v (csr_at r i j) ->
    parts fin v (near_sum u (real (cx_re v)) (reals real (coo_at a i j) ++ reals real (coo_at b i j)))
      (near_sum u (real (cx_im v)) (imags real (coo_at a i j) ++ imags real (coo_at b i j))).
Proof.
  intros a b Ha Hb D1 D2 L Va Vb. both_parts (c95_coo_add (apart_re R) I a b Ha Hb D1 D2 L Va Vb) (c95_coo_add (apart_im R) I a b Ha Hb D1 D2 L Va Vb).
  intros i j v Hi Hv. split; intros F; [exact (A i j v Hi Hv F)|exact (B i j v Hi Hv F)].
Qed.
Lemma c99_csr_add : forall a b r : CSR (cplx T), wf_csr I a -> wf_csr I b -> csr_rows b = csr_rows a -> csr_cols b = csr_cols a ->
  Forall (cplx_val val) (csr_values a) -> Forall (cplx_val val) (csr_values b) -> CSR_add I a b = Ok r ->
  forall i j, i < csr_rows a -> let v := csr_val r i j in
    parts fin v (near_dot u 0 (real (cx_re v)) (reals real (csr_at a i j) ++ reals real (csr_at b i j)))
      (near_dot u 0 (real (cx_im v)) (imags real (csr_at a i j) ++ imags real (csr_at b i j))).
Proof.
  intros a b r Ha Hb D1 D2 Va Vb E i j Hi v. split; intros F;
  [exact (c95_csr_add (apart_re R) I a b r Ha Hb D1 D2 Va Vb E i j Hi F)|exact (c95_csr_add (apart_im R) I a b r Ha Hb D1 D2 Va Vb E i j Hi F)].
Qed.
Lemma c99_csr_sub : forall a b r : CSR (cplx T), wf_csr I a -> wf_csr I b -> csr_rows b = csr_rows a -> csr_cols b = csr_cols a ->
  Forall (cplx_val val) (csr_values a) -> Forall (cplx_val val) (csr_values b) -> CSR_sub I a b = Ok r ->
  forall i j, i < csr_rows a -> let v := csr_val r i j in
    parts fin v (near_dot u 0 (real (cx_re v)) (reals real (csr_at a i j) ++ map Qopp (reals real (csr_at b i j))))
      (near_dot u 0 (real (cx_im v)) (imags real (csr_at a i j) ++ map Qopp (imags real (csr_at b i j)))).
Proof.
  intros a b r Ha Hb D1 D2 Va Vb E i j Hi v. split; intros F;
  [exact (c95_csr_sub (apart_re R) I a b r Ha Hb D1 D2 Va Vb E i j Hi F)|exact (c95_csr_sub (apart_im R) I a b r Ha Hb D1 D2 Va Vb E i j Hi F)].
Qed.
Lemma c99_csc_add : forall a b r : CSC (cplx T), wf_csc I a -> wf_csc I b -> csc_rows b = csc_rows a -> csc_cols b = csc_cols a ->
  Forall (cplx_val val) (csc_values a) -> Forall (cplx_val val) (csc_values b) -> CSC_add I a b = Ok r ->
  forall i j, j < csc_cols a -> let v := csc_val r i j in
    parts fin v (near_dot u 0 (real (cx_re v)) (reals real (csc_at a i j) ++ reals real (csc_at b i j)))
      (near_dot u 0 (real (cx_im v)) (imags real (csc_at a i j) ++ imags real (csc_at b i j))).
Proof.
  intros a b r Ha Hb D1 D2 Va Vb E i j Hi v. split; intros F;
  [exact (c95_csc_add (apart_re R) I a b r Ha Hb D1 D2 Va Vb E i j Hi F)|exact (c95_csc_add (apart_im R) I a b r Ha Hb D1 D2 Va Vb E i j Hi F)].
Qed.
Lemma c99_csc_subtract : forall a b r : CSC (cplx T), wf_csc I a -> wf_csc I b -> csc_rows b = csc_rows a -> csc_cols b = csc_cols a ->
  Forall (cplx_val val) (csc_values a) -> Forall (cplx_val val) (csc_values b) -> CSC_subtract I a b = Ok r ->
  forall i j, j < csc_cols a -> let v := csc_val r i j in
    parts fin v (near_dot u 0 (real (cx_re v)) (reals real (csc_at a i j) ++ map Qopp (reals real (csc_at b i j))))
      (near_dot u 0 (real (cx_im v)) (imags real (csc_at a i j) ++ map Qopp (imags real (csc_at b i j)))).
Proof.
  intros a b r Ha Hb D1 D2 Va Vb E i j Hi v. split; intros F;
  [exact (c95_csc_subtract (apart_re R) I a b r Ha Hb D1 D2 Va Vb E i j Hi F)|exact (c95_csc_subtract (apart_im R) I a b r Ha Hb D1 D2 Va Vb E i j Hi F)].
Qed.
End C99.

Open Scope Q_scope.
Lemma c99_f64_mat_vec : forall I (m : CSR (cplx f64)) (x : list (cplx f64)), wf_csr I m -> length x = csr_cols m ->
  (forall v, In v (csr_values m) \/ In v x -> valid_binary 53 1024 (cx_re v) = true /\ valid_binary 53 1024 (cx_im v) = true) ->
  exists y, CSR_mat_vec m x = Ok y /\ length y = csr_rows m /\
    forall i, (i < csr_rows m)%nat ->
      (float_fin (cx_re (nth i y s0)) ->
        let t := csr_cterms (re_pair float_real) m x i in let k := Z.of_nat (length t) in
        Qabs (float_real (cx_re (nth i y s0)) - pair_sum t) <= ((1 + 2 ^ (-53)) ^ (k + 1) - 1) * pair_abs t + 2 * inject_Z k * (1 + 2 ^ (-53)) ^ k * 2 ^ (-1075)) /\
      (float_fin (cx_im (nth i y s0)) ->
        let t := csr_cterms (im_pair float_real) m x i in let k := Z.of_nat (length t) in
        Qabs (float_real (cx_im (nth i y s0)) - pair_sum t) <= ((1 + 2 ^ (-53)) ^ (k + 1) - 1) * pair_abs t + 2 * inject_Z k * (1 + 2 ^ (-53)) ^ k * 2 ^ (-1075)).
Proof.
  intros I m x Hm Hx V.
  destruct (c99_csr_mat_vec c95_f64 I m x Hm Hx) as (y & E & L & H).
  - apply Forall_forall. intros v Hv. apply V. left. exact Hv.
  - apply Forall_forall. intros v Hv. apply V. right. exact Hv.
  - exists y. split; [exact E|]. split; [exact L|]. intros i Hi. destruct (H i Hi) as [A B].
    split; intros F t k; [specialize (A F); unfold near_cdot in A; fold t in A; rewrite Nat2Z.inj_add in A; exact A|
      specialize (B F); unfold near_cdot in B; fold t in B; rewrite Nat2Z.inj_add in B; exact B].
Qed.
