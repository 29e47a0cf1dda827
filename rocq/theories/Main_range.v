(** Sums and products of finite values are finite unless too large. *)
From Verif Require Import Rust Scalar Model_kernels Model_matrix Spec SpecBoundary SpecRound SpecRange Wp Rep CanonProofs ArithProofs Main_convert Main_linear Main_struct Main_boundary Main_product Main_addition Main_arith Main_more Main_round Main_float.
From Coq Require Import ZArith QArith Qabs List Lia Lqa Qpower Setoid Morphisms Floats.SpecFloat.
Import ListNotations.
Open Scope Q_scope.

Section R.
Context {T : Type} {SC : Scalar T} {real : T -> Q} {fin val : T -> Prop} {u eta top : Q}
  (R : Rounded real fin val u eta) (G : Ranged real fin val top).

Lemma good_val l : Forall (good fin val) l -> Forall val l.
Proof. apply Forall_impl. intros x [H _]. exact H. Qed.

Lemma fold_fin l : forall acc, good fin val acc -> Forall (good fin val) l ->
  (1 + u) ^ Z.of_nat (length l) * (Qabs (real acc) + qsum_abs (map real l)) <= top ->
  good fin val (fold_left sadd l acc).
Proof.
  pose proof (rd_u _ _ _ _ _ R) as U.
  induction l as [|x l IH]; intros acc Ha Hl B; cbn [fold_left]; [exact Ha|].
  inversion Hl as [|? ? [Vx Fx] Hl']; subst. destruct Ha as [Va Fa].
  destruct (rd_add _ _ _ _ _ R acc x Va Vx) as [V A].
  cbn [map length] in B. rewrite qsum_abs_cons, (pw_S u U) in B.
  set (g := (1 + u) ^ Z.of_nat (length l)) in *. pose proof (pw_1 u U (length l)) as G1. fold g in G1.
  set (S := qsum_abs (map real l)) in *. pose proof (qsum_abs_nonneg (map real l)) as S0. fold S in S0.
  set (a := real acc) in *. set (b := real x) in *. pose proof (Qabs_triangle a b) as T1.
  pose proof (Qabs_nonneg a) as N1. pose proof (Qabs_nonneg b) as N2. set (A1 := Qabs a + Qabs b) in *. assert (K0 : 0 <= A1) by (unfold A1; lra).
  assert (E0 : (1 + u) * g * (Qabs a + (Qabs b + S)) == A1 + S + (g - 1) * (A1 + S) + u * (g * (A1 + S))) by (unfold A1; ring).
  assert (P1 : 0 <= (g - 1) * (A1 + S)) by (apply Qmult_le_0_compat; lra).
  assert (P2 : 0 <= u * (g * (A1 + S))) by (repeat apply Qmult_le_0_compat; lra).
  assert (F : fin (sadd acc x)) by (apply (rg_add _ _ _ _ G); try assumption; fold a b; lra).
  apply IH; [split; assumption|assumption|].
  destruct (A F) as (_ & _ & O). unfold off in O. fold a b in O. set (s := real (sadd acc x)) in *.
  pose proof (Qabs_triangle (s - (a + b)) (a + b)) as T3. assert (E3 : s - (a + b) + (a + b) == s) by ring. rewrite E3 in T3.
  assert (K1 : u * Qabs (a + b) <= u * A1) by (rewrite !(Qmult_comm u); apply Qmult_le_compat_r; assumption).
  assert (K2 : g * (Qabs s + S) <= g * ((1 + u) * A1 + S)) by (rewrite !(Qmult_comm g); apply Qmult_le_compat_r; lra).
  assert (K4 : 0 <= u * (g * S)) by (repeat apply Qmult_le_0_compat; lra).
  assert (E4 : g * ((1 + u) * A1 + S) + u * (g * S) == A1 + S + (g - 1) * (A1 + S) + u * (g * (A1 + S))) by ring. lra.
Qed.
Lemma zero_good : good fin val s0.
Proof. destruct (rd_zero _ _ _ _ _ R) as (A & B & _). split; assumption. Qed.
Lemma dup_fin v l : Forall (good fin val) (v :: l) -> fits_sum u top (map real (v :: l)) -> good fin val (fold_left sadd l v).
Proof.
  intros H B. inversion H as [|? ? Hx Hl]; subst. apply fold_fin; try assumption.
  unfold fits_sum in B. cbn [map length] in B. rewrite map_length, qsum_abs_cons in B. replace (S (length l) - 1)%nat with (length l) in B by lia. exact B.
Qed.
Lemma sum0_fin l : Forall (good fin val) l -> fits_sum u top (map real l) -> good fin val (fold_left sadd l s0).
Proof.
  intros H B. pose proof (rd_u _ _ _ _ _ R) as U. destruct l as [|x l]; cbn [fold_left]; [exact zero_good|].
  inversion H as [|? ? [Vx Fx] Hl]; subst. destruct (rd_start _ _ _ _ _ R x Vx) as [V A].
  unfold fits_sum in B. cbn [map length] in B. rewrite map_length, qsum_abs_cons in B. replace (S (length l) - 1)%nat with (length l) in B by lia.
  pose proof (pw_1 u U (length l)) as G1. set (g := (1 + u) ^ Z.of_nat (length l)) in *.
  pose proof (qsum_abs_nonneg (map real l)) as S0. pose proof (Qabs_nonneg (real x)) as N.
  destruct zero_good as [Z1 Z2]. pose proof (proj2 (proj2 (rd_zero _ _ _ _ _ R))) as Z3.
  assert (F : fin (sadd s0 x)).
  { apply (rg_add _ _ _ _ G); try assumption. assert (E : real s0 + real x == real x) by (rewrite Z3; ring). rewrite E.
    assert (P : 0 <= (g - 1) * (Qabs (real x) + qsum_abs (map real l))) by (apply Qmult_le_0_compat; lra). 
    assert (E2 : g * (Qabs (real x) + qsum_abs (map real l)) == (g - 1) * (Qabs (real x) + qsum_abs (map real l)) + (Qabs (real x) + qsum_abs (map real l))) by ring. lra. }
  destruct (A F) as [_ E]. apply fold_fin; [split; assumption|assumption|]. rewrite E. exact B.
Qed.
Lemma dot_fin (P : list (T * T)) : Forall (fun e => good fin val (fst e) /\ good fin val (snd e)) P -> fits_dot u eta top (map (tm (real := real)) P) ->
  good fin val (fold_left sadd (map (fun e => smul (fst e) (snd e)) P) s0).
Proof.
  intros HP B. pose proof (rd_u _ _ _ _ _ R) as U. pose proof (rd_eta _ _ _ _ _ R) as Heta.
  unfold fits_dot in B. rewrite map_length in B.
  set (L := map (fun e => smul (fst e) (snd e)) P).
  assert (D : Forall (good fin val) L /\
     qsum_abs (map real L) <= (1 + u) * qsum_abs (map (tm (real := real)) P) + inject_Z (Z.of_nat (length P)) * eta).
  { assert (B' : qsum_abs (map (tm (real := real)) P) <= top).
    { pose proof (pw_1 u U (length P)) as G1. set (g := (1 + u) ^ Z.of_nat (length P)) in *. set (S := qsum_abs _) in *.
      pose proof (qsum_abs_nonneg (map (tm (real := real)) P)) as S0. fold S in S0.
      set (w := inject_Z (Z.of_nat (length P))) in *. assert (W0 : 0 <= w) by (unfold w; rewrite <- (Zle_Qle 0); lia).
      assert (P1 : 0 <= (g - 1) * S) by (apply Qmult_le_0_compat; lra). assert (P2 : 0 <= g * (w * eta)) by (repeat apply Qmult_le_0_compat; lra).
      assert (E : g * (S + w * eta) == (g - 1) * S + g * (w * eta) + S) by ring. lra. }
    clear B. unfold L. clear L. induction P as [|e P IH]; cbn [map length].
    - split; [constructor|]. cbn -[Qmult]. ring_simplify. apply Qle_refl.
    - inversion HP as [|? ? [[A1 A2] [A3 A4]] HP']; subst. cbn [map] in B'. rewrite qsum_abs_cons in B'.
      pose proof (qsum_abs_nonneg (map (tm (real := real)) P)) as S0. pose proof (Qabs_nonneg (tm (real := real) e)) as N0.
      destruct (IH HP' ltac:(lra)) as [I1 I2]. clear IH.
      destruct (rd_mul _ _ _ _ _ R _ _ A1 A3) as [V M].
      assert (F : fin (smul (fst e) (snd e))) by (apply (rg_mul _ _ _ _ G); try assumption; fold (tm (real := real) e); lra).
      split; [constructor; [split; assumption|assumption]|].
      destruct (M F) as (_ & _ & O). unfold off in O. fold (tm (real := real) e) in O.
      rewrite !qsum_abs_cons. rewrite Nat2Z.inj_succ, <- Z.add_1_l, inject_Z_plus. change (inject_Z 1) with 1.
      set (p := real (smul (fst e) (snd e))) in *. set (t := tm e) in *.
      pose proof (Qabs_triangle (p - t) t) as T2. assert (E2 : p - t + t == p) by ring. rewrite E2 in T2. lra. }
  destruct D as [D1 D2]. apply sum0_fin; [exact D1|]. unfold fits_sum. rewrite map_length.
  assert (LL : length L = length P) by (unfold L; apply map_length). rewrite LL.
  set (S := qsum_abs (map (tm (real := real)) P)) in *. set (s1 := qsum_abs (map real L)) in *.
  set (w := inject_Z (Z.of_nat (length P))) in *. assert (W0 : 0 <= w) by (unfold w; rewrite <- (Zle_Qle 0); lia).
  destruct (length P) as [|k] eqn:K.
  - destruct P as [|? ?]; [|discriminate]. change S with 0 in *. change w with 0 in *. change s1 with 0. change ((1 + u) ^ Z.of_nat (0 - 1)) with 1. 
    change ((1 + u) ^ Z.of_nat 0) with 1 in B. lra.
  - replace (Datatypes.S k - 1)%nat with k by lia. rewrite (pw_S u U) in B. pose proof (pw_1 u U k) as G1. set (g := (1 + u) ^ Z.of_nat k) in *.
    assert (K1 : g * s1 <= g * ((1 + u) * S + w * eta)) by (rewrite !(Qmult_comm g); apply Qmult_le_compat_r; lra).
    assert (K2 : 0 <= u * (g * (w * eta))) by (repeat apply Qmult_le_0_compat; lra).
    assert (E : (1 + u) * g * (S + w * eta) == g * ((1 + u) * S + w * eta) + u * (g * (w * eta))) by ring. lra.
Qed.

(** ** Matrices *)
Open Scope nat_scope.
Variable I : ity.
Notation ok := (good fin val).
Lemma Forall_part {A} (P : A -> Prop) l (f : list A -> A -> Prop) : Forall P l -> (forall v, f l v -> In v l) -> forall v, f l v -> P v.
Proof. intros H Hf v Hv. apply (proj1 (Forall_forall _ _) H), Hf, Hv. Qed.
Lemma crow_ok p j (x : list T) i e : Forall ok x -> In e (crow p j x i) -> ok (snd e).
Proof. apply (crow_val (val := ok)). Qed.
Lemma nth_ok (x : list T) n : Forall ok x -> ok (nth n x s0).
Proof.
  intros H. destruct (lt_dec n (length x)) as [L|L].
  - apply (proj1 (Forall_forall _ _) H). apply nth_In. assumption.
  - rewrite nth_overflow by lia. apply zero_good.
Qed.
Lemma csr_at_ok (m : CSR T) i j : Forall ok (csr_values m) -> Forall ok (csr_at m i j).
Proof. apply (csr_at_val (val := ok)). Qed.
Lemma csc_at_ok (m : CSC T) i j : Forall ok (csc_values m) -> Forall ok (csc_at m i j).
Proof. apply (csc_at_val (val := ok)). Qed.
Lemma coo_at_ok (m : Coo T) i j : Forall ok (coo_values m) -> Forall ok (coo_at m i j).
Proof. apply (coo_at_val (val := ok)). Qed.

Lemma c97_csr_mat_vec : forall (m : CSR T) (x : list T), wf_csr I m -> length x = csr_cols m -> Forall ok (csr_values m) -> Forall ok x ->
  exists y, CSR_mat_vec m x = Ok y /\ length y = csr_rows m /\
    forall i, i < csr_rows m -> fits_dot u eta top (csr_terms real m x i) -> ok (nth i y s0).
Proof.
  intros m x Hm Hx Vm Vx. destruct (proj2 (c15_csr_mat_vec I m x Hm) Hx) as (y & E & Ly & H). exists y. split; [exact E|]. split; [exact Ly|].
  intros i Hi. rewrite (H i Hi). clear H E. intros B.
  set (P := map (fun e : nat * T => (snd e, nth (fst e) x s0)) (csr_row m i)).
  assert (D := dot_fin P). unfold P in D. rewrite !map_map in D. apply D; [|exact B].
  rewrite Forall_map, Forall_forall. intros e He. cbn [fst snd]. split; [exact (crow_ok _ _ _ _ _ Vm He)|apply nth_ok, Vx].
Qed.
Lemma c97_csc_mat_vec : forall (m : CSC T) (x : list T), wf_csc I m -> length x = csc_cols m -> Forall ok (csc_values m) -> Forall ok x ->
  exists y, CSC_mat_vec m x = Ok y /\ length y = csc_rows m /\
    forall i, i < csc_rows m -> fits_dot u eta top (csc_terms real m x i) -> ok (nth i y s0).
Proof.
  intros m x Hm Hx Vm Vx. destruct (proj2 (c16_csc_mat_vec I m x Hm) Hx) as (y & E & Ly & H). exists y. split; [exact E|]. split; [exact Ly|].
  intros i Hi B. rewrite (H i Hi). clear H E.
  set (P := flat_map (fun j => map (fun v => (v, nth j x s0)) (csc_at m i j)) (seq 0 (csc_cols m))).
  assert (EP : map (fun e => smul (fst e) (snd e)) P = flat_map (fun j => map (fun v => smul v (nth j x s0)) (csc_at m i j)) (seq 0 (csc_cols m))).
  { unfold P. rewrite map_flat. apply flat_map_ext. intros e. rewrite map_map. reflexivity. }
  assert (ET : map (tm (real := real)) P = csc_terms real m x i).
  { unfold P. rewrite map_flat. apply flat_map_ext. intros e. rewrite map_map. reflexivity. }
  assert (D := dot_fin P). rewrite EP, ET in D. apply D; [|exact B].
  apply Forall_forall. intros e He. apply in_flat_map in He as (j & _ & He). apply in_map_iff in He as (v & <- & Hv). cbn [fst snd].
  split; [|apply nth_ok, Vx]. apply (proj1 (Forall_forall _ _) (csc_at_ok m i j Vm)), Hv.
Qed.
Lemma in_keep {A} (occ : list A) (v w : T) : In w (keep occ v) -> w = v.
Proof. destruct occ; cbn [keep]; [contradiction|]. destruct (nonzero v); [intros [H|[]]; congruence|contradiction]. Qed.
Lemma c97_csr_mat_mat : forall a b r : CSR T, wf_csr I a -> wf_csr I b -> Forall ok (csr_values a) -> Forall ok (csr_values b) -> CSR_mat_mat I a b = Ok r ->
  forall i k v, i < csr_rows a -> fits_dot u eta top (csr_product_terms real a b i k) -> In v (csr_at r i k) -> ok v.
Proof.
  intros a b r Ha Hb Va Vb E i k v Hi B Hv.
  destruct (Nat.eq_dec (csr_cols a) (csr_rows b)) as [D|D]; [|rewrite (c17_csr_mat_mat_error I a b D) in E; discriminate].
  destruct (c17_csr_mat_mat_exact I a b Ha Hb D) as [Q1 Q2].
  destruct (Z_lt_dec (imax I) (Z.of_nat (product_kept a b))) as [L|L]; [destruct (Q1 L); congruence|].
  destruct (Q2 L) as (r' & E' & _ & _ & _ & _ & _ & _ & _ & _ & H). assert (r' = r) by congruence. subst r'. clear Q1 Q2 E'.
  rewrite (H i k Hi) in Hv. clear H. apply in_keep in Hv. subst v.
  set (P := flat_map (fun e : nat * T => map (fun v => (snd e, v)) (csr_at b (fst e) k)) (csr_row a i)).
  assert (EP : map (fun e => smul (fst e) (snd e)) P = csr_products a b i k).
  { unfold P. rewrite map_flat. apply flat_map_ext. intros e. rewrite map_map. reflexivity. }
  assert (ET : map (tm (real := real)) P = csr_product_terms real a b i k).
  { unfold P. rewrite map_flat. apply flat_map_ext. intros e. rewrite map_map. reflexivity. }
  assert (N := dot_fin P). rewrite EP, ET in N. apply N; [|exact B].
  apply Forall_forall. intros e He. apply in_flat_map in He as (j & Hj & He). apply in_map_iff in He as (v & <- & Hv). cbn [fst snd].
  split; [exact (crow_ok _ _ _ _ _ Va Hj)|]. apply (proj1 (Forall_forall _ _) (csr_at_ok b (fst j) k Vb)), Hv.
Qed.
Lemma c97_csc_mat_mat : forall a b r : CSC T, wf_csc I a -> wf_csc I b -> Forall ok (csc_values a) -> Forall ok (csc_values b) -> CSC_mat_mat I a b = Ok r ->
  forall i k v, k < csc_cols b -> fits_dot u eta top (csc_product_terms real a b i k) -> In v (csc_at r i k) -> ok v.
Proof.
  intros a b r Ha Hb Va Vb E i k v Hi B Hv.
  destruct (Nat.eq_dec (csc_cols a) (csc_rows b)) as [D|D]; [|rewrite (c18_csc_mat_mat_error I a b D) in E; discriminate].
  destruct (c18_csc_mat_mat_exact I a b Ha Hb D) as [Q1 Q2].
  destruct (Z_lt_dec (imax I) (Z.of_nat (csc_product_kept a b))) as [L|L]; [destruct (Q1 L); congruence|].
  destruct (Q2 L) as (r' & E' & _ & _ & _ & _ & _ & _ & _ & _ & H). assert (r' = r) by congruence. subst r'. clear Q1 Q2 E'.
  rewrite (H i k Hi) in Hv. clear H. apply in_keep in Hv. subst v.
  set (P := flat_map (fun e : nat * T => map (fun v => (snd e, v)) (csc_at a i (fst e))) (csc_col b k)).
  assert (EP : map (fun e => smul (fst e) (snd e)) P = csc_products a b i k).
  { unfold P. rewrite map_flat. apply flat_map_ext. intros e. rewrite map_map. reflexivity. }
  assert (ET : map (tm (real := real)) P = csc_product_terms real a b i k).
  { unfold P. rewrite map_flat. apply flat_map_ext. intros e. rewrite map_map. reflexivity. }
  assert (N := dot_fin P). rewrite EP, ET in N. apply N; [|exact B].
  apply Forall_forall. intros e He. apply in_flat_map in He as (j & Hj & He). apply in_map_iff in He as (v & <- & Hv). cbn [fst snd].
  split; [exact (crow_ok _ _ _ _ _ Vb Hj)|]. apply (proj1 (Forall_forall _ _) (csc_at_ok a i (fst j) Va)), Hv.
Qed.

Lemma c97_coo_to_dense : forall m : Coo T, wf_coo I m -> Forall ok (coo_values m) ->
  exists d, Coo_to_dense m = Ok d /\ is_table d (coo_rows m) (coo_cols m) (coo_val m) /\
    forall i j, fits_sum u top (map real (coo_at m i j)) -> ok (coo_val m i j).
Proof.
  intros m Hm Vm. destruct (c09_coo_to_dense I m Hm) as (d & E & H). exists d. split; [exact E|]. split; [exact H|].
  intros i j F. apply sum0_fin; [apply coo_at_ok, Vm|exact F].
Qed.
Lemma c97_csr_to_dense : forall m : CSR T, wf_csr I m -> Forall ok (csr_values m) ->
  exists d, CSR_to_dense m = Ok d /\ is_table d (csr_rows m) (csr_cols m) (csr_val m) /\
    forall i j, fits_sum u top (map real (csr_at m i j)) -> ok (csr_val m i j).
Proof.
  intros m Hm Vm. destruct (c09_csr_to_dense I m Hm) as (d & E & H). exists d. split; [exact E|]. split; [exact H|].
  intros i j F. apply sum0_fin; [apply csr_at_ok, Vm|exact F].
Qed.
Lemma c97_csc_to_dense : forall m : CSC T, wf_csc I m -> csc_cols_fit I m -> Forall ok (csc_values m) ->
  exists d, CSC_to_dense I m = Ok d /\ is_table d (csc_rows m) (csc_cols m) (csc_val m) /\
    forall i j, fits_sum u top (map real (csc_at m i j)) -> ok (csc_val m i j).
Proof.
  intros m Hm Hf Vm. destruct (c09_csc_to_dense I m Hm Hf) as (d & E & H). exists d. split; [exact E|]. split; [exact H|].
  intros i j F. apply sum0_fin; [apply csc_at_ok, Vm|exact F].
Qed.
Lemma dup_in_fin l v : Forall ok l -> In v (dup_sum l) -> fits_sum u top (map real l) -> ok v.
Proof. destruct l as [|w l]; intros V [].  - subst v. apply dup_fin, V. - contradiction. Qed.
Lemma c97_coo_to_csr : forall m : Coo T, wf_coo I m -> (Z.of_nat (length (coo_values m)) < imax I)%Z -> Forall ok (coo_values m) ->
  exists r, Coo_to_csr I m = Ok r /\
    forall i j v, i < coo_rows m -> In v (csr_at r i j) -> fits_sum u top (map real (coo_at m i j)) -> ok v.
Proof.
  intros m Hm Hb Vm. destruct (c01_coo_to_csr I m Hm Hb) as (r & E & _ & _ & _ & _ & _ & H). exists r. split; [exact E|].
  intros i j v Hi. rewrite (H i j Hi). apply dup_in_fin, coo_at_ok, Vm.
Qed.
Lemma c97_coo_to_csc : forall m : Coo T, wf_coo I m -> (Z.of_nat (length (coo_values m)) < imax I)%Z -> Forall ok (coo_values m) ->
  exists r, Coo_to_csc I m = Ok r /\
    forall i j v, j < coo_cols m -> In v (csc_at r i j) -> fits_sum u top (map real (coo_at m i j)) -> ok v.
Proof.
  intros m Hm Hb Vm. destruct (c02_coo_to_csc I m Hm Hb) as (r & E & _ & _ & _ & _ & _ & H). exists r. split; [exact E|].
  intros i j v Hi. rewrite (H i j Hi). apply dup_in_fin, coo_at_ok, Vm.
Qed.
Lemma c97_csr_sum_duplicates : forall m : CSR T, wf_csr I m -> (Z.of_nat (csr_count m) < imax I)%Z -> Forall ok (csr_values m) ->
  exists r, CSR_sum_duplicates I m = Ok r /\
    forall i j v, In v (csr_at r i j) -> fits_sum u top (map real (csr_at m i j)) -> ok v.
Proof.
  intros m Hm Hb Vm. destruct (c14_csr_sum_duplicates I m Hm Hb) as (r & E & _ & _ & _ & _ & H & _). exists r. split; [exact E|].
  intros i j v. rewrite (H i j). apply dup_in_fin, csr_at_ok, Vm.
Qed.
Lemma c97_csc_sum_duplicates : forall m : CSC T, wf_csc I m -> (Z.of_nat (csc_count m) < imax I)%Z -> Forall ok (csc_values m) ->
  exists r, CSC_sum_duplicates I m = Ok r /\
    forall i j v, In v (csc_at r i j) -> fits_sum u top (map real (csc_at m i j)) -> ok v.
Proof.
  intros m Hm Hb Vm. destruct (c14_csc_sum_duplicates I m Hm Hb) as (r & E & _ & _ & _ & _ & H & _). exists r. split; [exact E|].
  intros i j v. rewrite (H i j). apply dup_in_fin, csc_at_ok, Vm.
Qed.
Lemma c97_coo_add : forall a b : Coo T, wf_coo I a -> wf_coo I b -> coo_rows a = coo_rows b -> coo_cols a = coo_cols b ->
  (Z.of_nat (length (coo_values a) + length (coo_values b)) < imax I)%Z -> Forall ok (coo_values a) -> Forall ok (coo_values b) ->
  exists r, Coo_add I a b = Ok r /\
    forall i j v, i < coo_rows a -> In v (csr_at r i j) -> fits_sum u top (map real (coo_at a i j) ++ map real (coo_at b i j)) -> ok v.
Proof.
  intros a b Ha Hb D1 D2 L Va Vb. destruct (proj2 (c24_coo_add I a b Ha Hb) D1 D2 L) as (r & E & _ & _ & _ & _ & _ & H). exists r. split; [exact E|].
  intros i j v Hi. rewrite (H i j Hi), <- map_app. apply dup_in_fin. apply Forall_app. split; apply coo_at_ok; assumption.
Qed.

(** sums and differences *)
Definition read_fin (read : list T -> T) (l : list T) : Prop :=
  Forall ok l -> forall b, ((1 + u) ^ Z.of_nat (length l) * qsum_abs (map real l) <= b)%Q -> (b <= top)%Q -> ok (read l) /\ (Qabs (real (read l)) <= b)%Q.
Lemma near_small got t b : near_sum u got t -> ((1 + u) ^ Z.of_nat (length t) * qsum_abs t <= b)%Q -> (Qabs got <= b)%Q.
Proof.
  intros N B. pose proof (rd_u _ _ _ _ _ R) as U. pose proof (near_sum_bound R got t N) as A.
  pose proof (abs_qsum t) as T0. pose proof (Qabs_triangle (got - qsum t) (qsum t)) as T1.
  assert (E : (got - qsum t + qsum t == got)%Q) by ring. rewrite E in T1.
  pose proof (Qmult_le_0_compat u (Qabs got) U (Qabs_nonneg got)). lra.
Qed.
Lemma fits_pred t b : ((1 + u) ^ Z.of_nat (length t) * qsum_abs t <= b)%Q -> (b <= top)%Q -> fits_sum u top t.
Proof.
  intros B Ht. unfold fits_sum. pose proof (rd_u _ _ _ _ _ R) as U. pose proof (pw_mono u U (length t - 1) (length t) ltac:(lia)) as M.
  pose proof (Qmult_le_compat_r _ _ (qsum_abs t) M (qsum_abs_nonneg t)). lra.
Qed.
Lemma read_sum_fin l : read_fin sum0 l.
Proof.
  intros V b B Ht. assert (Gd : ok (sum0 l)).
  { apply sum0_fin; [exact V|]. eapply fits_pred; [rewrite map_length; exact B|exact Ht]. }
  split; [exact Gd|]. eapply near_small; [|rewrite map_length; exact B]. apply (sum0_near R l (good_val l V)), Gd.
Qed.
Lemma read_hd_fin l : length l <= 1 -> read_fin (hd s0) l.
Proof.
  intros L V b B Ht. destruct l as [|v [|]]; [exact (read_sum_fin [] V b B Ht)| |cbn in L; lia]. inversion V; subst. split; [assumption|]. cbn [hd].
  eapply near_small; [|rewrite map_length; exact B]. exact (dup_near R v [] (good_val _ V) (proj2 H1)).
Qed.
Lemma split_bound la lb : fits_dot u 0 top (map real la ++ map real lb) ->
  exists x y, ((1 + u) ^ Z.of_nat (length la) * qsum_abs (map real la) <= x)%Q /\ ((1 + u) ^ Z.of_nat (length lb) * qsum_abs (map real lb) <= y)%Q /\
    (x <= top)%Q /\ (y <= top)%Q /\ (x + y <= top)%Q.
Proof.
  intros B. pose proof (rd_u _ _ _ _ _ R) as U. unfold fits_dot in B. rewrite app_length, !map_length, qsum_abs_app in B.
  eexists _, _. split; [apply Qle_refl|]. split; [apply Qle_refl|].
  pose proof (qsum_abs_nonneg (map real la)) as Sa. pose proof (qsum_abs_nonneg (map real lb)) as Sb.
  pose proof (Qmult_le_compat_r _ _ _ (pw_mono u U (length la) (length la + length lb) ltac:(lia)) Sa) as M1.
  pose proof (Qmult_le_compat_r _ _ _ (pw_mono u U (length lb) (length la + length lb) ltac:(lia)) Sb) as M2.
  set (g := ((1 + u) ^ Z.of_nat (length la + length lb))%Q) in *.
  assert (P1 : (0 <= (1 + u) ^ Z.of_nat (length la) * qsum_abs (map real la))%Q) by (apply Qmult_le_0_compat; [pose proof (pw_1 u U (length la)); lra|assumption]).
  assert (P2 : (0 <= (1 + u) ^ Z.of_nat (length lb) * qsum_abs (map real lb))%Q) by (apply Qmult_le_0_compat; [pose proof (pw_1 u U (length lb)); lra|assumption]).
  assert (E : (g * (qsum_abs (map real la) + qsum_abs (map real lb) + inject_Z (Z.of_nat (length la + length lb)) * 0) == g * qsum_abs (map real la) + g * qsum_abs (map real lb))%Q) by ring.
  rewrite E in B. split; [lra|]. split; lra.
Qed.
Lemma add_fin {A} (o : list A) read la lb v : read_fin read la -> read_fin read lb -> Forall ok la -> Forall ok lb ->
  fits_dot u 0 top (map real la ++ map real lb) -> In v (keep o (sadd (read la) (read lb))) -> ok v.
Proof.
  intros Ra Rb Va Vb B Hv. apply in_keep in Hv. subst v. destruct (split_bound la lb B) as (x & y & B1 & B2 & B3 & B4 & B5).
  destruct (Ra Va x B1 B3) as [[A1 A2] A3]. destruct (Rb Vb y B2 B4) as [[A4 A5] A6].
  split; [apply (rd_add _ _ _ _ _ R); assumption|]. apply (rg_add _ _ _ _ G); try assumption.
  pose proof (Qabs_triangle (real (read la)) (real (read lb))). lra.
Qed.
Lemma sub_fin {A} (o : list A) read la lb v : read_fin read la -> read_fin read lb -> Forall ok la -> Forall ok lb ->
  fits_dot u 0 top (map real la ++ map real lb) -> In v (keep o (ssub (read la) (read lb))) -> ok v.
Proof.
  intros Ra Rb Va Vb B Hv. apply in_keep in Hv. subst v. destruct (split_bound la lb B) as (x & y & B1 & B2 & B3 & B4 & B5).
  destruct (Ra Va x B1 B3) as [[A1 A2] A3]. destruct (Rb Vb y B2 B4) as [[A4 A5] A6].
  split; [apply (rd_sub _ _ _ _ _ R); assumption|]. apply (rg_sub _ _ _ _ G); try assumption.
  pose proof (Qabs_triangle (real (read la)) (- real (read lb))) as Q. rewrite Qabs_opp in Q.
  assert (E : (real (read la) - real (read lb) == real (read la) + - real (read lb))%Q) by ring. rewrite E. lra.
Qed.

Lemma c97_csr_add : forall a b r : CSR T, wf_csr I a -> wf_csr I b -> csr_rows b = csr_rows a -> csr_cols b = csr_cols a ->
  Forall ok (csr_values a) -> Forall ok (csr_values b) -> CSR_add I a b = Ok r ->
  forall i j v, i < csr_rows a -> fits_dot u 0 top (map real (csr_at a i j) ++ map real (csr_at b i j)) -> In v (csr_at r i j) -> ok v.
Proof.
  intros a b r Ha Hb D1 D2 Va Vb E i j v Hi B F. destruct (c19_csr_add_exact I a b Ha Hb D1 D2) as [Q1 Q2].
  assert (NF : ~ csr_sum_fails I sadd a b) by (intros H; rewrite (Q1 H) in E; discriminate).
  destruct (Q2 NF) as (r' & E' & REST). assert (r' = r) by congruence. subst r'. clear Q1 Q2 E'.
  assert (H : (~ (csr_canonical a /\ csr_canonical b) -> csr_entrywise sum0 sadd a b r) /\ (csr_canonical a /\ csr_canonical b -> csr_entrywise (hd s0) sadd a b r)) by tauto.
  destruct H as [H1 H2]. clear REST.
  assert (Dec : (csr_canonical a /\ csr_canonical b) \/ ~ (csr_canonical a /\ csr_canonical b)).
  { destruct (csr_canonical_dec a), (csr_canonical_dec b); tauto. }
  destruct Dec as [C|C].
  - rewrite (H2 C i j Hi) in F. destruct C as [C1 C2].
    eapply add_fin; [| | | |exact B|exact F]; try (apply csr_at_ok; assumption); apply read_hd_fin, canonical_short; [apply C1|apply C2]; lia.
  - rewrite (H1 C i j Hi) in F. eapply add_fin; [| | | |exact B|exact F]; try (apply csr_at_ok; assumption); apply read_sum_fin.
Qed.

Lemma c97_csr_sub : forall a b r : CSR T, wf_csr I a -> wf_csr I b -> csr_rows b = csr_rows a -> csr_cols b = csr_cols a ->
  Forall ok (csr_values a) -> Forall ok (csr_values b) -> CSR_sub I a b = Ok r ->
  forall i j v, i < csr_rows a -> fits_dot u 0 top (map real (csr_at a i j) ++ map real (csr_at b i j)) -> In v (csr_at r i j) -> ok v.
Proof.
  intros a b r Ha Hb D1 D2 Va Vb E i j v Hi B F. destruct (c19_csr_sub_exact I a b Ha Hb D1 D2) as [Q1 Q2].
  assert (NF : ~ csr_sum_fails I ssub a b) by (intros H; rewrite (Q1 H) in E; discriminate).
  destruct (Q2 NF) as (r' & E' & REST). assert (r' = r) by congruence. subst r'. clear Q1 Q2 E'.
  assert (H : (~ (csr_canonical a /\ csr_canonical b) -> csr_entrywise sum0 ssub a b r) /\ (csr_canonical a /\ csr_canonical b -> csr_entrywise (hd s0) ssub a b r)) by tauto.
  destruct H as [H1 H2]. clear REST.
  assert (Dec : (csr_canonical a /\ csr_canonical b) \/ ~ (csr_canonical a /\ csr_canonical b)).
  { destruct (csr_canonical_dec a), (csr_canonical_dec b); tauto. }
  destruct Dec as [C|C].
  - rewrite (H2 C i j Hi) in F. destruct C as [C1 C2].
    eapply sub_fin; [| | | |exact B|exact F]; try (apply csr_at_ok; assumption); apply read_hd_fin, canonical_short; [apply C1|apply C2]; lia.
  - rewrite (H1 C i j Hi) in F. eapply sub_fin; [| | | |exact B|exact F]; try (apply csr_at_ok; assumption); apply read_sum_fin.
Qed.

Lemma c97_csc_add : forall a b r : CSC T, wf_csc I a -> wf_csc I b -> csc_rows b = csc_rows a -> csc_cols b = csc_cols a ->
  Forall ok (csc_values a) -> Forall ok (csc_values b) -> CSC_add I a b = Ok r ->
  forall i j v, j < csc_cols a -> fits_dot u 0 top (map real (csc_at a i j) ++ map real (csc_at b i j)) -> In v (csc_at r i j) -> ok v.
Proof.
  intros a b r Ha Hb D1 D2 Va Vb E i j v Hi B F. destruct (c20_csc_add_exact I a b Ha Hb D1 D2) as [Q1 Q2].
  assert (NF : ~ csc_sum_fails I sadd a b) by (intros H; rewrite (Q1 H) in E; discriminate).
  destruct (Q2 NF) as (r' & E' & REST). assert (r' = r) by congruence. subst r'. clear Q1 Q2 E'.
  assert (H : (~ (csc_canonical a /\ csc_canonical b) -> csc_entrywise sum0 sadd a b r) /\ (csc_canonical a /\ csc_canonical b -> csc_entrywise (hd s0) sadd a b r)) by tauto.
  destruct H as [H1 H2]. clear REST.
  assert (Dec : (csc_canonical a /\ csc_canonical b) \/ ~ (csc_canonical a /\ csc_canonical b)).
  { destruct (csc_canonical_dec a), (csc_canonical_dec b); tauto. }
  destruct Dec as [C|C].
  - rewrite (H2 C i j Hi) in F. destruct C as [C1 C2].
    eapply add_fin; [| | | |exact B|exact F]; try (apply csc_at_ok; assumption); apply read_hd_fin, canonical_short; [apply C1|apply C2]; lia.
  - rewrite (H1 C i j Hi) in F. eapply add_fin; [| | | |exact B|exact F]; try (apply csc_at_ok; assumption); apply read_sum_fin.
Qed.

Lemma c97_csc_subtract : forall a b r : CSC T, wf_csc I a -> wf_csc I b -> csc_rows b = csc_rows a -> csc_cols b = csc_cols a ->
  Forall ok (csc_values a) -> Forall ok (csc_values b) -> CSC_subtract I a b = Ok r ->
  forall i j v, j < csc_cols a -> fits_dot u 0 top (map real (csc_at a i j) ++ map real (csc_at b i j)) -> In v (csc_at r i j) -> ok v.
Proof.
  intros a b r Ha Hb D1 D2 Va Vb E i j v Hi B F. destruct (c20_csc_subtract_exact I a b Ha Hb D1 D2) as [Q1 Q2].
  assert (NF : ~ csc_sum_fails I ssub a b) by (intros H; rewrite (Q1 H) in E; discriminate).
  destruct (Q2 NF) as (r' & E' & REST). assert (r' = r) by congruence. subst r'. clear Q1 Q2 E'.
  assert (H : (~ (csc_canonical a /\ csc_canonical b) -> csc_entrywise sum0 ssub a b r) /\ (csc_canonical a /\ csc_canonical b -> csc_entrywise (hd s0) ssub a b r)) by tauto.
  destruct H as [H1 H2]. clear REST.
  assert (Dec : (csc_canonical a /\ csc_canonical b) \/ ~ (csc_canonical a /\ csc_canonical b)).
  { destruct (csc_canonical_dec a), (csc_canonical_dec b); tauto. }
  destruct Dec as [C|C].
  - rewrite (H2 C i j Hi) in F. destruct C as [C1 C2].
    eapply sub_fin; [| | | |exact B|exact F]; try (apply csc_at_ok; assumption); apply read_hd_fin, canonical_short; [apply C1|apply C2]; lia.
  - rewrite (H1 C i j Hi) in F. eapply sub_fin; [| | | |exact B|exact F]; try (apply csc_at_ok; assumption); apply read_sum_fin.
Qed.
End R.

Open Scope Q_scope.
Lemma fl_ranged prec emax one : (0 < prec)%Z -> (3 <= emax)%Z ->
  @Ranged _ (scalar_float prec emax one) float_real float_fin (float_val prec emax) (float_top prec emax).
Proof.
  intros Hp He. constructor; cbn [sadd ssub smul scalar_float]; intros x y Vx Vy Fx Fy B;
    [apply (add_valid prec emax Hp He x y Vx Vy)|apply (sub_valid prec emax Hp He x y Vx Vy)|apply (mul_valid prec emax Hp He x y Vx Vy)]; assumption.
Qed.
Lemma c97_f64 : @Ranged f64 scalar_f64 float_real float_fin (float_val 53 1024) (inject_Z (2 ^ 53 - 1) * 2 ^ 971).
Proof. exact (fl_ranged 53 1024 (S754_finite false 4503599627370496 (-52)) eq_refl ltac:(discriminate)). Qed.
Lemma c97_f32 : @Ranged spec_float scalar_f32 float_real float_fin (float_val 24 128) (inject_Z (2 ^ 24 - 1) * 2 ^ 104).
Proof. exact (fl_ranged 24 128 (S754_finite false 8388608 (-23)) eq_refl ltac:(discriminate)). Qed.

(** ** The bounds for f64 in numbers *)
Lemma pw_inv u k : 0 <= u -> (1 + u) ^ Z.of_nat k * (1 - inject_Z (Z.of_nat k) * u) <= 1.
Proof.
  intros U. induction k as [|k IH].
  - change ((1 + u) ^ Z.of_nat 0) with 1. change (inject_Z (Z.of_nat 0)) with 0. lra.
  - rewrite (pw_S u U). pose proof (pw_1 u U k) as G. set (g := (1 + u) ^ Z.of_nat k) in *.
    rewrite Nat2Z.inj_succ, <- Z.add_1_l, inject_Z_plus. change (inject_Z 1) with 1. set (w := inject_Z (Z.of_nat k)) in *.
    assert (W0 : 0 <= w) by (unfold w; rewrite <- (Zle_Qle 0); lia).
    assert (P : 0 <= g * ((1 + w) * (u * u))) by (repeat apply Qmult_le_0_compat; lra).
    assert (E : (1 + u) * g * (1 - (1 + w) * u) == g * (1 - w * u) - g * ((1 + w) * (u * u))) by ring. lra.
Qed.
Lemma pw_f64 k : (Z.of_nat k <= 2 ^ 52)%Z -> (1 + 2 ^ (-53)) ^ Z.of_nat k <= 2 /\ (1 + 2 ^ (-53)) ^ Z.of_nat k - 1 <= inject_Z (Z.of_nat k) * 2 ^ (-52).
Proof.
  intros H. assert (U : 0 <= 2 ^ (-53)) by discriminate. pose proof (pw_inv (2 ^ (-53)) k U) as A. pose proof (pw_1 (2 ^ (-53)) U k) as G.
  set (g := (1 + 2 ^ (-53)) ^ Z.of_nat k) in *. set (w := inject_Z (Z.of_nat k)) in *.
  assert (W0 : 0 <= w) by (unfold w; rewrite <- (Zle_Qle 0); lia).
  assert (W1 : w * 2 ^ (-53) <= 1 # 2).
  { apply Qle_trans with (inject_Z (2 ^ 52) * 2 ^ (-53)); [|vm_compute; discriminate]. apply Qmult_le_compat_r; [|exact U]. unfold w. rewrite <- Zle_Qle. exact H. }
  set (h := w * 2 ^ (-53)) in *. assert (H0 : 0 <= h) by (apply Qmult_le_0_compat; [exact W0|exact U]).
  assert (G2 : g <= 2) by nra. split; [exact G2|].
  assert (E : w * 2 ^ (-52) == 2 * h) by (unfold h; assert (E : 2 ^ (-52) == 2 * 2 ^ (-53)) by reflexivity; rewrite E; ring). rewrite E. nra.
Qed.
Lemma fits_f64 t : (Z.of_nat (length t) <= 2 ^ 52)%Z -> qsum_abs t <= 2 ^ 1022 ->
  fits_dot (2 ^ (-53)) (2 ^ (-1075)) (inject_Z (2 ^ 53 - 1) * 2 ^ 971) t.
Proof.
  intros H B. unfold fits_dot. destruct (pw_f64 _ H) as [G _]. pose proof (qsum_abs_nonneg t) as S0.
  assert (W0 : 0 <= inject_Z (Z.of_nat (length t))) by (rewrite <- (Zle_Qle 0); lia).
  rewrite Zle_Qle in H. set (w := inject_Z (Z.of_nat (length t))) in *. 
  assert (P0 : 0 <= 2 ^ (-1075)) by (vm_compute; discriminate).
  pose proof (Qmult_le_compat_r _ _ (2 ^ (-1075)) H P0) as P1. pose proof (Qmult_le_0_compat w _ W0 P0) as P2.
  set (s := qsum_abs t) in *. set (e := w * 2 ^ (-1075)) in *.
  apply Qle_trans with (2 * (2 ^ 1022 + inject_Z (2 ^ 52) * 2 ^ (-1075))); [|vm_compute; discriminate].
  apply Qle_trans with (2 * (s + e)); [apply Qmult_le_compat_r; lra|]. rewrite !(Qmult_comm 2). apply Qmult_le_compat_r; [|discriminate].
  apply Qplus_le_compat; assumption.
Qed.
Lemma near_f64 got t : (Z.of_nat (length t) <= 2 ^ 52)%Z -> near_dot (2 ^ (-53)) (2 ^ (-1075)) got t ->
  Qabs (got - qsum t) <= inject_Z (Z.of_nat (length t)) * (2 ^ (-52) * qsum_abs t + 2 ^ (-1074)).
Proof.
  intros H N. unfold near_dot in N. destruct (pw_f64 _ H) as [G1 G2]. pose proof (qsum_abs_nonneg t) as S0.
  assert (W0 : 0 <= inject_Z (Z.of_nat (length t))) by (rewrite <- (Zle_Qle 0); lia). set (w := inject_Z (Z.of_nat (length t))) in *.
  set (g := (1 + 2 ^ (-53)) ^ Z.of_nat (length t)) in *. set (s := qsum_abs t) in *.
  assert (E : 2 ^ (-1074) == 2 * 2 ^ (-1075)) by (vm_compute; reflexivity). rewrite E.
  assert (P0 : 0 <= 2 ^ (-1075)) by (vm_compute; discriminate). set (h := 2 ^ (-1075)) in *.
  eapply Qle_trans; [exact N|].
  assert (M1 : (g - 1) * s <= w * 2 ^ (-52) * s) by (apply Qmult_le_compat_r; assumption).
  assert (M2 : g * (w * h) <= 2 * (w * h)) by (apply Qmult_le_compat_r; [exact G1|apply Qmult_le_0_compat; assumption]).
  set (c := 2 ^ (-52)) in *. 
  assert (E2 : w * (c * s + 2 * h) == w * c * s + 2 * (w * h)) by ring. rewrite E2.
  assert (E3 : w * g * h == g * (w * h)) by ring. rewrite E3. apply Qplus_le_compat; assumption.
Qed.

Lemma number_ok l : (forall v, In v l -> is_number v) -> Forall (good float_fin (float_val 53 1024)) l.
Proof. intros H. apply Forall_forall. intros v Hv. exact (H v Hv). Qed.
Lemma number_val l : (forall v, In v l -> is_number v) -> Forall (float_val 53 1024) l.
Proof. intros H. apply Forall_forall. intros v Hv. apply (H v Hv). Qed.
Lemma c97_f64_mat_vec I (m : CSR f64) (x : list f64) : wf_csr I m -> length x = csr_cols m ->
  (forall v, In v (csr_values m ++ x) -> is_number v) ->
  exists y, CSR_mat_vec m x = Ok y /\ length y = csr_rows m /\
    forall i, (i < csr_rows m)%nat -> let t := csr_terms float_real m x i in let k := Z.of_nat (length t) in
      (k <= 2 ^ 52)%Z -> qsum_abs t <= 2 ^ 1022 ->
      is_number (nth i y s0) /\ Qabs (float_real (nth i y s0) - qsum t) <= inject_Z k * (2 ^ (-52) * qsum_abs t + 2 ^ (-1074)).
Proof.
  intros Hm Hx V.
  assert (V1 : forall v, In v (csr_values m) -> is_number v) by (intros; apply V, in_or_app; tauto).
  assert (V2 : forall v, In v x -> is_number v) by (intros; apply V, in_or_app; tauto).
  destruct (c97_csr_mat_vec c95_f64 c97_f64 I m x Hm Hx (number_ok _ V1) (number_ok _ V2)) as (y & E & Ly & H).
  destruct (c95_csr_mat_vec c95_f64 I m x Hm Hx (number_val _ V1) (number_val _ V2)) as (y' & E' & _ & H').
  assert (y' = y) by congruence. subst y'. exists y. split; [exact E|]. split; [exact Ly|]. intros i Hi t k Hk Hs.
  assert (F : good float_fin (float_val 53 1024) (nth i y s0)) by (apply H; [exact Hi|apply fits_f64; assumption]).
  split; [exact F|]. apply near_f64; [exact Hk|]. apply H'; [exact Hi|apply F].
Qed.
Lemma c97_f64_mat_mat I (a b r : CSR f64) : wf_csr I a -> wf_csr I b -> (forall v, In v (csr_values a ++ csr_values b) -> is_number v) -> CSR_mat_mat I a b = Ok r ->
  forall i j v, (i < csr_rows a)%nat -> let t := csr_product_terms float_real a b i j in let k := Z.of_nat (length t) in
    (k <= 2 ^ 52)%Z -> qsum_abs t <= 2 ^ 1022 -> In v (csr_at r i j) ->
    is_number v /\ Qabs (float_real v - qsum t) <= inject_Z k * (2 ^ (-52) * qsum_abs t + 2 ^ (-1074)).
Proof.
  intros Ha Hb V E i j v Hi t k Hk Hs Hv.
  assert (V1 : forall v, In v (csr_values a) -> is_number v) by (intros; apply V, in_or_app; tauto).
  assert (V2 : forall v, In v (csr_values b) -> is_number v) by (intros; apply V, in_or_app; tauto).
  pose proof (c97_csr_mat_mat c95_f64 c97_f64 I a b r Ha Hb (number_ok _ V1) (number_ok _ V2) E i j v Hi (fits_f64 _ Hk Hs) Hv) as F.
  split; [exact F|]. apply near_f64; [exact Hk|].
  pose proof (c95_csr_mat_mat c95_f64 I a b r Ha Hb (number_val _ V1) (number_val _ V2) E i j Hi) as N. fold t in N.
  destruct (Nat.eq_dec (csr_cols a) (csr_rows b)) as [D|D]; [|rewrite (c17_csr_mat_mat_error I a b D) in E; discriminate].
  destruct (c17_csr_mat_mat_exact I a b Ha Hb D) as [Q1 Q2].
  destruct (Z_lt_dec (imax I) (Z.of_nat (product_kept a b))) as [L|L]; [destruct (Q1 L); congruence|].
  destruct (Q2 L) as (r' & E' & _ & _ & _ & _ & _ & _ & _ & _ & H). assert (r' = r) by congruence. subst r'. clear Q1 Q2 E'.
  unfold csr_val in N. rewrite (H i j Hi) in Hv, N. assert (KV := Hv). apply in_keep in Hv.
  assert (K : keep (csr_products a b i j) (sum0 (csr_products a b i j)) = [v]).
  { destruct (csr_products a b i j) as [|o l]; [contradiction|]. cbn [keep] in *. destruct (nonzero _); [|contradiction]. rewrite Hv. reflexivity. }
  rewrite K in N. unfold sum0 in N. cbn [fold_left] in N. 
  assert (SV : float_fin (sadd s0 v) /\ float_real (sadd s0 v) == float_real v).
  { destruct F as [_ Fv]. cbn. destruct v as [s|s| |s m e]; try contradiction; cbn; try (destruct s); split; try exact Logic.I; reflexivity. }
  destruct SV as [S1 S2]. specialize (N S1). unfold near_dot in *. rewrite S2 in N. exact N.
Qed.
