(** Rounding errors of sums of products. *)
From Verif Require Import Rust Scalar Model_kernels Model_matrix Spec SpecBoundary SpecRound Wp Rep CanonProofs ArithProofs Main_convert Main_linear Main_struct Main_boundary Main_product Main_addition Main_arith Main_more.
From Coq Require Import ZArith QArith Qabs List Lia Lqa Qpower Setoid Morphisms.
Import ListNotations.
Open Scope Q_scope.

Lemma qsum_abs_nonneg l : 0 <= qsum_abs l.
Proof. induction l as [|x l IH]; [apply Qle_refl|]. unfold qsum_abs in *. cbn [map qsum fold_right]. pose proof (Qabs_nonneg x). unfold qsum in IH. lra. Qed.
Lemma qsum_abs_cons x l : qsum_abs (x :: l) == Qabs x + qsum_abs l.
Proof. reflexivity. Qed.
Lemma qsum_cons x l : qsum (x :: l) == x + qsum l.
Proof. reflexivity. Qed.
Lemma qsum_app a b : qsum (a ++ b) == qsum a + qsum b.
Proof. induction a as [|x a IH]; cbn [app]; rewrite ?qsum_cons; [cbn; ring|]. rewrite IH. ring. Qed.
Lemma qsum_abs_app a b : qsum_abs (a ++ b) == qsum_abs a + qsum_abs b.
Proof. unfold qsum_abs. rewrite map_app. apply qsum_app. Qed.
Lemma abs_qsum l : Qabs (qsum l) <= qsum_abs l.
Proof. induction l as [|x l IH]; [apply Qle_refl|]. rewrite qsum_cons, qsum_abs_cons. pose proof (Qabs_triangle x (qsum l)). lra. Qed.

Section Pow.
Variable u : Q.
Hypothesis U : 0 <= u.
Lemma pw_S k : (1 + u) ^ Z.of_nat (S k) == (1 + u) * (1 + u) ^ Z.of_nat k.
Proof. rewrite Nat2Z.inj_succ, <- Z.add_1_l, Qpower_plus by lra. reflexivity. Qed.
Lemma pw_1 k : 1 <= (1 + u) ^ Z.of_nat k.
Proof. induction k as [|k IH]; [apply Qle_refl|]. rewrite pw_S. set (g := (1 + u) ^ Z.of_nat k) in *. nra. Qed.
Lemma pw_mono j k : (j <= k)%nat -> (1 + u) ^ Z.of_nat j <= (1 + u) ^ Z.of_nat k.
Proof.
  induction 1 as [|k H IH]; [apply Qle_refl|]. rewrite pw_S. pose proof (pw_1 k). set (g := (1 + u) ^ Z.of_nat k) in *. nra.
Qed.
End Pow.

Section R.
Context {T : Type} {SC : Scalar T} {real : T -> Q} {fin val : T -> Prop} {u eta : Q} (R : Rounded real fin val u eta).

Lemma fold_near l : forall acc, val acc -> Forall val l ->
  val (fold_left sadd l acc) /\
  (fin (fold_left sadd l acc) -> fin acc /\ Forall fin l /\
   Qabs (real (fold_left sadd l acc) - (real acc + qsum (map real l))) <=
     ((1 + u) ^ Z.of_nat (length l) - 1) * (Qabs (real acc) + qsum_abs (map real l))).
Proof.
  pose proof (rd_u _ _ _ _ _ R) as U.
  induction l as [|x l IH]; intros acc Ha Hl; cbn [fold_left].
  - split; [assumption|]. intros F. split; [assumption|]. split; [constructor|]. cbn [map length].
    assert (E : real acc - (real acc + qsum []) == 0) by (cbn; ring). rewrite E. change (Qabs 0) with 0. change ((1 + u) ^ Z.of_nat 0) with 1.
    assert (E2 : (1 - 1) * (Qabs (real acc) + qsum_abs []) == 0) by ring. rewrite E2. apply Qle_refl.
  - inversion Hl as [|? ? Hx Hl']; subst. destruct (rd_add _ _ _ _ _ R acc x Ha Hx) as [V A].
    destruct (IH (sadd acc x) V Hl') as [V2 B]. split; [assumption|]. intros F. destruct (B F) as (F1 & F2 & E). clear B.
    destruct (A F1) as (F3 & F4 & O). split; [assumption|]. split; [constructor; assumption|].
    cbn [map length]. rewrite qsum_cons, qsum_abs_cons, (pw_S u U).
    set (g := (1 + u) ^ Z.of_nat (length l)) in *. pose proof (pw_1 u U (length l)) as G. fold g in G.
    set (res := real (fold_left sadd l (sadd acc x))) in *. set (s := real (sadd acc x)) in *.
    set (q := qsum (map real l)) in *. set (S := qsum_abs (map real l)) in *.
    pose proof (qsum_abs_nonneg (map real l)) as S0. fold S in S0.
    unfold off in O. set (a := real acc) in *. set (b := real x) in *.
    pose proof (Qabs_triangle a b) as T1.
    pose proof (Qabs_triangle (res - (s + q)) (s - (a + b))) as T2.
    assert (E2 : res - (s + q) + (s - (a + b)) == res - (a + (b + q))) by ring. rewrite E2 in T2. clear E2.
    pose proof (Qabs_triangle (s - (a + b)) (a + b)) as T3.
    assert (E3 : s - (a + b) + (a + b) == s) by ring. rewrite E3 in T3. clear E3.
    set (A1 := Qabs a + Qabs b) in *. pose proof (Qabs_nonneg a) as N1. pose proof (Qabs_nonneg b) as N2.
    assert (K0 : 0 <= A1) by (unfold A1; lra).
    assert (K1 : u * Qabs (a + b) <= u * A1) by (rewrite !(Qmult_comm u); apply Qmult_le_compat_r; assumption).
    assert (K2 : Qabs s <= (1 + u) * A1) by lra.
    assert (K3 : (g - 1) * (Qabs s + S) <= (g - 1) * ((1 + u) * A1 + S)).
    { rewrite !(Qmult_comm (g - 1)). apply Qmult_le_compat_r; lra. }
    assert (K4 : 0 <= g * u * S) by (repeat apply Qmult_le_0_compat; lra).
    assert (E4 : ((1 + u) * g - 1) * (Qabs a + (Qabs b + S)) == (g - 1) * ((1 + u) * A1 + S) + u * A1 + g * u * S) by (unfold A1; ring).
    rewrite E4. lra.
Qed.

Lemma sum0_near l : Forall val l ->
  val (fold_left sadd l s0) /\
  (fin (fold_left sadd l s0) -> Forall fin l /\ near_sum u (real (fold_left sadd l s0)) (map real l)).
Proof.
  intros Hl. destruct (rd_zero _ _ _ _ _ R) as (Z1 & Z2 & Z3).
  destruct l as [|x l]; cbn [fold_left].
  - split; [assumption|]. intros _. split; [constructor|]. unfold near_sum. cbn [map length]. 
    assert (E : real s0 - qsum [] == 0) by (rewrite Z3; cbn; ring). rewrite E. change (Qabs 0) with 0. discriminate.
  - inversion Hl as [|? ? Hx Hl']; subst. destruct (rd_start _ _ _ _ _ R x Hx) as [V A].
    destruct (fold_near l (sadd s0 x) V Hl') as [V2 B]. split; [assumption|]. intros F. destruct (B F) as (F1 & F2 & E).
    destruct (A F1) as [F3 E1]. split; [constructor; assumption|]. unfold near_sum. cbn [map length]. rewrite map_length.
    replace (S (length l) - 1)%nat with (length l) by lia. rewrite qsum_cons, qsum_abs_cons. rewrite E1 in E. exact E.
Qed.
Lemma dup_near v l : Forall val (v :: l) ->
  fin (fold_left sadd l v) -> near_sum u (real (fold_left sadd l v)) (map real (v :: l)).
Proof.
  intros H F. inversion H as [|? ? Hx Hl']; subst. destruct (fold_near l v Hx Hl') as [_ B]. destruct (B F) as (_ & _ & E).
  unfold near_sum. cbn [map length]. rewrite map_length. replace (S (length l) - 1)%nat with (length l) by lia. rewrite qsum_cons, qsum_abs_cons. exact E.
Qed.

(** products: pairs of factors *)
Definition tm (e : T * T) : Q := real (fst e) * real (snd e).
Lemma dot_near (P : list (T * T)) : Forall (fun e => val (fst e) /\ val (snd e)) P ->
  val (fold_left sadd (map (fun e => smul (fst e) (snd e)) P) s0) /\
  (fin (fold_left sadd (map (fun e => smul (fst e) (snd e)) P) s0) ->
   near_dot u eta (real (fold_left sadd (map (fun e => smul (fst e) (snd e)) P) s0)) (map tm P)).
Proof.
  intros HP. pose proof (rd_u _ _ _ _ _ R) as U. pose proof (rd_eta _ _ _ _ _ R) as Heta.
  assert (HV : Forall val (map (fun e => smul (fst e) (snd e)) P)).
  { rewrite Forall_map. eapply Forall_impl; [|exact HP]. intros e [A B]. apply (rd_mul _ _ _ _ _ R); assumption. }
  destruct (sum0_near _ HV) as [V B]. split; [exact V|]. intros F. destruct (B F) as [F2 N]. clear B.
  set (L := map (fun e => smul (fst e) (snd e)) P) in *. set (got := real (fold_left sadd L s0)) in *.
  assert (D : Qabs (qsum (map real L) - qsum (map tm P)) <= u * qsum_abs (map tm P) + inject_Z (Z.of_nat (length P)) * eta /\
              qsum_abs (map real L) <= (1 + u) * qsum_abs (map tm P) + inject_Z (Z.of_nat (length P)) * eta).
  { unfold L in *. clear N V got F L. rewrite Forall_map in F2. induction P as [|e P IH]; cbn [map length].
    - split; [cbn -[Qmult]; ring_simplify; apply Qle_refl|cbn -[Qmult]; ring_simplify; apply Qle_refl].
    - inversion HP as [|? ? [A1 A2] HP']; subst. inversion F2 as [|? ? F2a F2']; subst. inversion HV as [|? ? HVa HV']; subst.
      destruct (IH HP' HV' F2') as [I1 I2]. clear IH.
      destruct (rd_mul _ _ _ _ _ R _ _ A1 A2) as [_ M]. destruct (M F2a) as (_ & _ & O). unfold off in O. fold (tm e) in O.
      rewrite !qsum_cons, !qsum_abs_cons. rewrite Nat2Z.inj_succ, <- Z.add_1_l, inject_Z_plus. change (inject_Z 1) with 1.
      set (w := inject_Z (Z.of_nat (length P))) in *. set (q1 := qsum (map real _)) in *. set (q2 := qsum (map tm P)) in *.
      set (s1 := qsum_abs (map real _)) in *. set (s2 := qsum_abs (map tm P)) in *. set (p := real (smul (fst e) (snd e))) in *. set (t := tm e) in *.
      pose proof (Qabs_triangle (p - t) (q1 - q2)) as T1. assert (E1 : p - t + (q1 - q2) == p + q1 - (t + q2)) by ring. rewrite E1 in T1.
      pose proof (Qabs_triangle (p - t) t) as T2. assert (E2 : p - t + t == p) by ring. rewrite E2 in T2.
      split; lra. }
  destruct D as [D1 D2]. unfold near_dot, near_sum in *. rewrite map_length in *.
  assert (LL : length L = length P) by (unfold L; apply map_length). rewrite LL in N.
  set (S := qsum_abs (map tm P)) in *. pose proof (qsum_abs_nonneg (map tm P)) as S0. fold S in S0.
  set (w := inject_Z (Z.of_nat (length P))) in *.
  assert (W0 : 0 <= w) by (unfold w; rewrite <- (Zle_Qle 0); lia).
  pose proof (qsum_abs_nonneg (map real L)) as L0.
  set (q1 := qsum (map real L)) in *. set (q2 := qsum (map tm P)) in *. set (s1 := qsum_abs (map real L)) in *.
  pose proof (Qabs_triangle (got - q1) (q1 - q2)) as T1. assert (E1 : got - q1 + (q1 - q2) == got - q2) by ring. rewrite E1 in T1.
  destruct (length P) as [|k] eqn:K.
  - destruct P as [|? ?]; [|discriminate]. clear -T1 N D1 Heta.
    change ((1 + u) ^ Z.of_nat (0 - 1)) with 1 in N. change ((1 + u) ^ Z.of_nat 0) with 1. change w with 0 in *. change S with 0 in *. lra.
  - replace (Datatypes.S k - 1)%nat with k in N by lia. rewrite (pw_S u U). set (g := (1 + u) ^ Z.of_nat k) in *.
    pose proof (pw_1 u U k) as G. fold g in G.
    assert (K1 : (g - 1) * s1 <= (g - 1) * ((1 + u) * S + w * eta)) by (rewrite !(Qmult_comm (g - 1)); apply Qmult_le_compat_r; lra).
    assert (K2 : 0 <= u * (w * (g * eta))) by (repeat apply Qmult_le_0_compat; lra).
    assert (E3 : ((1 + u) * g - 1) * S + w * ((1 + u) * g) * eta == (g - 1) * ((1 + u) * S + w * eta) + (u * S + w * eta) + u * (w * (g * eta))) by ring.
    rewrite E3. lra.
Qed.

(** ** Matrices *)
Open Scope nat_scope.
Variable I : ity.
Lemma crow_val p j (x : list T) i e : Forall val x -> In e (crow p j x i) -> val (snd e).
Proof.
  intros H Hi. destruct e as [k v]. apply in_combine_r in Hi. unfold part in Hi.
  apply (proj1 (Forall_forall _ _) H).
  set (a := ptr p i) in *. set (n := ptr p (S i) - a) in *. rewrite <- (firstn_skipn a x). apply in_or_app. right.
  rewrite <- (firstn_skipn n (skipn a x)). apply in_or_app. left. exact Hi.
Qed.
Lemma at_val k (r : list (nat * T)) : (forall e, In e r -> val (snd e)) -> Forall val (at_ k r).
Proof. intros H. apply Forall_forall. intros v Hv. apply in_map_iff in Hv as (e & <- & He). apply filter_In in He as [He _]. auto. Qed.
Lemma nth_val (x : list T) n : Forall val x -> val (nth n x s0).
Proof.
  intros H. destruct (lt_dec n (length x)) as [L|L].
  - apply (proj1 (Forall_forall _ _) H). apply nth_In. assumption.
  - rewrite nth_overflow by lia. apply (rd_zero _ _ _ _ _ R).
Qed.
Lemma csr_at_val (m : CSR T) i j : Forall val (csr_values m) -> Forall val (csr_at m i j).
Proof. intros H. apply at_val. intros e. apply crow_val, H. Qed.
Lemma csc_at_val (m : CSC T) i j : Forall val (csc_values m) -> Forall val (csc_at m i j).
Proof. intros H. apply at_val. intros e. apply crow_val, H. Qed.
Lemma coo_at_val (m : Coo T) i j : Forall val (coo_values m) -> Forall val (coo_at m i j).
Proof.
  intros H. apply Forall_forall. intros v Hv. apply in_map_iff in Hv as ([[a b] w] & <- & He). apply filter_In in He as [He _].
  apply in_combine_r in He. apply (proj1 (Forall_forall _ _) H). exact He.
Qed.
Lemma map_flat {A B C} (f : B -> C) (g : A -> list B) l : map f (flat_map g l) = flat_map (fun a => map f (g a)) l.
Proof. induction l as [|a l IH]; [reflexivity|]. cbn [flat_map]. rewrite map_app, IH. reflexivity. Qed.

Lemma c95_csr_mat_vec : forall (m : CSR T) (x : list T), wf_csr I m -> length x = csr_cols m -> Forall val (csr_values m) -> Forall val x ->
  exists y, CSR_mat_vec m x = Ok y /\ length y = csr_rows m /\
    forall i, i < csr_rows m -> fin (nth i y s0) -> near_dot u eta (real (nth i y s0)) (csr_terms real m x i).
Proof.
  intros m x Hm Hx Vm Vx. destruct (proj2 (c15_csr_mat_vec I m x Hm) Hx) as (y & E & Ly & H). exists y. split; [exact E|]. split; [exact Ly|].
  intros i Hi. rewrite (H i Hi). clear H E.
  set (P := map (fun e : nat * T => (snd e, nth (fst e) x s0)) (csr_row m i)).
  destruct (dot_near P) as [_ D].
  { unfold P. rewrite Forall_map, Forall_forall. intros e He. cbn [fst snd]. split; [exact (crow_val _ _ _ _ _ Vm He)|apply nth_val, Vx]. }
  unfold P in D. rewrite !map_map in D. exact D.
Qed.
Lemma c95_csc_mat_vec : forall (m : CSC T) (x : list T), wf_csc I m -> length x = csc_cols m -> Forall val (csc_values m) -> Forall val x ->
  exists y, CSC_mat_vec m x = Ok y /\ length y = csc_rows m /\
    forall i, i < csc_rows m -> fin (nth i y s0) -> near_dot u eta (real (nth i y s0)) (csc_terms real m x i).
Proof.
  intros m x Hm Hx Vm Vx. destruct (proj2 (c16_csc_mat_vec I m x Hm) Hx) as (y & E & Ly & H). exists y. split; [exact E|]. split; [exact Ly|].
  intros i Hi. rewrite (H i Hi). clear H E.
  set (P := flat_map (fun j => map (fun v => (v, nth j x s0)) (csc_at m i j)) (seq 0 (csc_cols m))).
  destruct (dot_near P) as [_ D].
  { apply Forall_forall. intros e He. apply in_flat_map in He as (j & _ & He). apply in_map_iff in He as (v & <- & Hv). cbn [fst snd].
    split; [|apply nth_val, Vx]. apply (proj1 (Forall_forall _ _) (csc_at_val m i j Vm)), Hv. }
  assert (EP : map (fun e => smul (fst e) (snd e)) P = flat_map (fun j => map (fun v => smul v (nth j x s0)) (csc_at m i j)) (seq 0 (csc_cols m))).
  { unfold P. rewrite map_flat. apply flat_map_ext. intros e. rewrite map_map. reflexivity. }
  assert (ET : map tm P = csc_terms real m x i).
  { unfold P. rewrite map_flat. apply flat_map_ext. intros e. rewrite map_map. reflexivity. }
  rewrite EP, ET in D. exact D.
Qed.

Lemma kept {A} (occ : list A) v : val v -> fin (sum0 (keep occ v)) ->
  (occ <> [] -> fin v /\ (real (sum0 (keep occ v)) == real v)%Q) /\ (occ = [] -> (real (sum0 (keep occ v)) == 0)%Q).
Proof.
  intros V F. destruct (rd_zero _ _ _ _ _ R) as (Z1 & Z2 & Z3). destruct occ as [|o occ]; cbn [keep] in *.
  - split; [congruence|]. intros _. exact Z3.
  - split; [|discriminate]. intros _. unfold nonzero, nonzero_scalar in *. destruct (seqb v s0) eqn:S; cbn [negb] in *.
    + destruct (rd_eq _ _ _ _ _ R v S) as [S1 S2]. split; [exact S1|]. cbn. rewrite Z3, S2. reflexivity.
    + unfold sum0 in *. cbn [fold_left] in *. apply (rd_start _ _ _ _ _ R v V). exact F.
Qed.
Lemma near_dot_eq a b t : (a == b)%Q -> near_dot u eta a t -> near_dot u eta b t.
Proof. unfold near_dot. intros E. rewrite E. trivial. Qed.
Lemma near_dot_nil a : (a == 0)%Q -> near_dot u eta a [].
Proof.
  unfold near_dot. intros E. rewrite E. cbn [length]. change (Z.of_nat 0) with 0%Z. change ((1 + u) ^ 0)%Q with 1%Q. change (Qabs (0 - qsum [])) with 0%Q.
  change (inject_Z 0) with 0%Q. change (qsum_abs []) with 0%Q. ring_simplify. apply Qle_refl.
Qed.

Lemma c95_csr_mat_mat : forall a b r : CSR T, wf_csr I a -> wf_csr I b -> Forall val (csr_values a) -> Forall val (csr_values b) -> CSR_mat_mat I a b = Ok r ->
  forall i k, i < csr_rows a -> fin (csr_val r i k) -> near_dot u eta (real (csr_val r i k)) (csr_product_terms real a b i k).
Proof.
  intros a b r Ha Hb Va Vb E i k Hi F.
  destruct (Nat.eq_dec (csr_cols a) (csr_rows b)) as [D|D]; [|rewrite (c17_csr_mat_mat_error I a b D) in E; discriminate].
  destruct (c17_csr_mat_mat_exact I a b Ha Hb D) as [Q1 Q2].
  destruct (Z_lt_dec (imax I) (Z.of_nat (product_kept a b))) as [L|L]; [destruct (Q1 L); congruence|].
  destruct (Q2 L) as (r' & E' & _ & _ & _ & _ & _ & _ & _ & _ & H). assert (r' = r) by congruence. subst r'. clear Q1 Q2 E'.
  unfold csr_val in *. rewrite (H i k Hi) in *. clear H.
  set (P := flat_map (fun e : nat * T => map (fun v => (snd e, v)) (csr_at b (fst e) k)) (csr_row a i)).
  destruct (dot_near P) as [V N].
  { apply Forall_forall. intros e He. apply in_flat_map in He as (j & Hj & He). apply in_map_iff in He as (v & <- & Hv). cbn [fst snd].
    split; [exact (crow_val _ _ _ _ _ Va Hj)|]. apply (proj1 (Forall_forall _ _) (csr_at_val b (fst j) k Vb)), Hv. }
  assert (EP : map (fun e => smul (fst e) (snd e)) P = csr_products a b i k).
  { unfold P. rewrite map_flat. apply flat_map_ext. intros e. rewrite map_map. reflexivity. }
  assert (ET : map tm P = csr_product_terms real a b i k).
  { unfold P. rewrite map_flat. apply flat_map_ext. intros e. rewrite map_map. reflexivity. }
  rewrite EP, ET in *.
  destruct (kept (csr_products a b i k) (sum0 (csr_products a b i k)) V F) as [K1 K2].
  destruct (csr_products a b i k) as [|o l] eqn:O.
  - replace (csr_product_terms real a b i k) with (@nil Q); [apply near_dot_nil, K2; reflexivity|].
    rewrite <- ET. destruct P; [reflexivity|discriminate].
  - destruct (K1 ltac:(discriminate)) as [K3 K4]. eapply near_dot_eq; [symmetry; exact K4|]. apply N, K3.
Qed.
Lemma c95_csc_mat_mat : forall a b r : CSC T, wf_csc I a -> wf_csc I b -> Forall val (csc_values a) -> Forall val (csc_values b) -> CSC_mat_mat I a b = Ok r ->
  forall i k, k < csc_cols b -> fin (csc_val r i k) -> near_dot u eta (real (csc_val r i k)) (csc_product_terms real a b i k).
Proof.
  intros a b r Ha Hb Va Vb E i k Hi F.
  destruct (Nat.eq_dec (csc_cols a) (csc_rows b)) as [D|D]; [|rewrite (c18_csc_mat_mat_error I a b D) in E; discriminate].
  destruct (c18_csc_mat_mat_exact I a b Ha Hb D) as [Q1 Q2].
  destruct (Z_lt_dec (imax I) (Z.of_nat (csc_product_kept a b))) as [L|L]; [destruct (Q1 L); congruence|].
  destruct (Q2 L) as (r' & E' & _ & _ & _ & _ & _ & _ & _ & _ & H). assert (r' = r) by congruence. subst r'. clear Q1 Q2 E'.
  unfold csc_val in *. rewrite (H i k Hi) in *. clear H.
  set (P := flat_map (fun e : nat * T => map (fun v => (snd e, v)) (csc_at a i (fst e))) (csc_col b k)).
  destruct (dot_near P) as [V N].
  { apply Forall_forall. intros e He. apply in_flat_map in He as (j & Hj & He). apply in_map_iff in He as (v & <- & Hv). cbn [fst snd].
    split; [exact (crow_val _ _ _ _ _ Vb Hj)|]. apply (proj1 (Forall_forall _ _) (csc_at_val a i (fst j) Va)), Hv. }
  assert (EP : map (fun e => smul (fst e) (snd e)) P = csc_products a b i k).
  { unfold P. rewrite map_flat. apply flat_map_ext. intros e. rewrite map_map. reflexivity. }
  assert (ET : map tm P = csc_product_terms real a b i k).
  { unfold P. rewrite map_flat. apply flat_map_ext. intros e. rewrite map_map. reflexivity. }
  rewrite EP, ET in *.
  destruct (kept (csc_products a b i k) (sum0 (csc_products a b i k)) V F) as [K1 K2].
  destruct (csc_products a b i k) as [|o l] eqn:O.
  - replace (csc_product_terms real a b i k) with (@nil Q); [apply near_dot_nil, K2; reflexivity|].
    rewrite <- ET. destruct P; [reflexivity|discriminate].
  - destruct (K1 ltac:(discriminate)) as [K3 K4]. eapply near_dot_eq; [symmetry; exact K4|]. apply N, K3.
Qed.

Lemma c95_coo_to_dense : forall m : Coo T, wf_coo I m -> Forall val (coo_values m) ->
  exists d, Coo_to_dense m = Ok d /\ is_table d (coo_rows m) (coo_cols m) (coo_val m) /\
    forall i j, fin (coo_val m i j) -> near_sum u (real (coo_val m i j)) (map real (coo_at m i j)).
Proof.
  intros m Hm Vm. destruct (c09_coo_to_dense I m Hm) as (d & E & H). exists d. split; [exact E|]. split; [exact H|].
  intros i j F. apply sum0_near; [apply coo_at_val, Vm|exact F].
Qed.
Lemma c95_csr_to_dense : forall m : CSR T, wf_csr I m -> Forall val (csr_values m) ->
  exists d, CSR_to_dense m = Ok d /\ is_table d (csr_rows m) (csr_cols m) (csr_val m) /\
    forall i j, fin (csr_val m i j) -> near_sum u (real (csr_val m i j)) (map real (csr_at m i j)).
Proof.
  intros m Hm Vm. destruct (c09_csr_to_dense I m Hm) as (d & E & H). exists d. split; [exact E|]. split; [exact H|].
  intros i j F. apply sum0_near; [apply csr_at_val, Vm|exact F].
Qed.
Lemma c95_csc_to_dense : forall m : CSC T, wf_csc I m -> csc_cols_fit I m -> Forall val (csc_values m) ->
  exists d, CSC_to_dense I m = Ok d /\ is_table d (csc_rows m) (csc_cols m) (csc_val m) /\
    forall i j, fin (csc_val m i j) -> near_sum u (real (csc_val m i j)) (map real (csc_at m i j)).
Proof.
  intros m Hm Hf Vm. destruct (c09_csc_to_dense I m Hm Hf) as (d & E & H). exists d. split; [exact E|]. split; [exact H|].
  intros i j F. apply sum0_near; [apply csc_at_val, Vm|exact F].
Qed.

Lemma dup_in l v : Forall val l -> In v (dup_sum l) -> fin v -> near_sum u (real v) (map real l).
Proof. destruct l as [|w l]; intros V [].  - subst v. apply dup_near, V. - contradiction. Qed.
Lemma c95_coo_to_csr : forall m : Coo T, wf_coo I m -> (Z.of_nat (length (coo_values m)) < imax I)%Z -> Forall val (coo_values m) ->
  exists r, Coo_to_csr I m = Ok r /\
    forall i j v, i < coo_rows m -> In v (csr_at r i j) -> fin v -> near_sum u (real v) (map real (coo_at m i j)).
Proof.
  intros m Hm Hb Vm. destruct (c01_coo_to_csr I m Hm Hb) as (r & E & _ & _ & _ & _ & _ & H). exists r. split; [exact E|].
  intros i j v Hi. rewrite (H i j Hi). apply dup_in, coo_at_val, Vm.
Qed.
Lemma c95_coo_to_csc : forall m : Coo T, wf_coo I m -> (Z.of_nat (length (coo_values m)) < imax I)%Z -> Forall val (coo_values m) ->
  exists r, Coo_to_csc I m = Ok r /\
    forall i j v, j < coo_cols m -> In v (csc_at r i j) -> fin v -> near_sum u (real v) (map real (coo_at m i j)).
Proof.
  intros m Hm Hb Vm. destruct (c02_coo_to_csc I m Hm Hb) as (r & E & _ & _ & _ & _ & _ & H). exists r. split; [exact E|].
  intros i j v Hi. rewrite (H i j Hi). apply dup_in, coo_at_val, Vm.
Qed.
Lemma c95_csr_sum_duplicates : forall m : CSR T, wf_csr I m -> (Z.of_nat (csr_count m) < imax I)%Z -> Forall val (csr_values m) ->
  exists r, CSR_sum_duplicates I m = Ok r /\
    forall i j v, In v (csr_at r i j) -> fin v -> near_sum u (real v) (map real (csr_at m i j)).
Proof.
  intros m Hm Hb Vm. destruct (c14_csr_sum_duplicates I m Hm Hb) as (r & E & _ & _ & _ & _ & H & _). exists r. split; [exact E|].
  intros i j v. rewrite (H i j). apply dup_in, csr_at_val, Vm.
Qed.
Lemma c95_csc_sum_duplicates : forall m : CSC T, wf_csc I m -> (Z.of_nat (csc_count m) < imax I)%Z -> Forall val (csc_values m) ->
  exists r, CSC_sum_duplicates I m = Ok r /\
    forall i j v, In v (csc_at r i j) -> fin v -> near_sum u (real v) (map real (csc_at m i j)).
Proof.
  intros m Hm Hb Vm. destruct (c14_csc_sum_duplicates I m Hm Hb) as (r & E & _ & _ & _ & _ & H & _). exists r. split; [exact E|].
  intros i j v. rewrite (H i j). apply dup_in, csc_at_val, Vm.
Qed.
Lemma c95_coo_add : forall a b : Coo T, wf_coo I a -> wf_coo I b -> coo_rows a = coo_rows b -> coo_cols a = coo_cols b ->
  (Z.of_nat (length (coo_values a) + length (coo_values b)) < imax I)%Z -> Forall val (coo_values a) -> Forall val (coo_values b) ->
  exists r, Coo_add I a b = Ok r /\
    forall i j v, i < coo_rows a -> In v (csr_at r i j) -> fin v -> near_sum u (real v) (map real (coo_at a i j) ++ map real (coo_at b i j)).
Proof.
  intros a b Ha Hb D1 D2 L Va Vb. destruct (proj2 (c24_coo_add I a b Ha Hb) D1 D2 L) as (r & E & _ & _ & _ & _ & _ & H). exists r. split; [exact E|].
  intros i j v Hi. rewrite (H i j Hi), <- map_app. apply dup_in. apply Forall_app. split; apply coo_at_val; assumption.
Qed.

(** sums and differences *)
Definition read_ok (read : list T -> T) (l : list T) : Prop := Forall val l -> val (read l) /\ (fin (read l) -> near_sum u (real (read l)) (map real l)).
Lemma read_sum l : read_ok sum0 l.
Proof. intros V. destruct (sum0_near l V) as [A B]. split; [exact A|]. intros F. apply B, F. Qed.
Lemma read_hd l : length l <= 1 -> read_ok (hd s0) l.
Proof.
  intros L V. destruct l as [|v [|]]; [exact (read_sum [] V)| |cbn in L; lia]. inversion V; subst. split; [assumption|]. cbn [hd].
  intros F. exact (dup_near v [] V F).
Qed.
Lemma near_sum_bound got t : near_sum u got t ->
  (Qabs (got - qsum t) + u * Qabs got <= ((1 + u) ^ Z.of_nat (length t) - 1) * qsum_abs t)%Q.
Proof.
  unfold near_sum. intros N. pose proof (rd_u _ _ _ _ _ R) as U. set (S := qsum_abs t) in *. pose proof (qsum_abs_nonneg t) as S0. fold S in S0.
  pose proof (abs_qsum t) as A. fold S in A. pose proof (Qabs_triangle (got - qsum t) (qsum t)) as T1.
  assert (E : (got - qsum t + qsum t == got)%Q) by ring. rewrite E in T1.
  destruct t as [|x t].
  - change S with 0%Q in *. change (Z.of_nat (length (@nil Q))) with 0%Z. change ((1 + u) ^ 0)%Q with 1%Q. cbn [length] in N.
    set (d := Qabs (got - qsum [])) in *. set (g := Qabs got) in *. 
    assert (D0 : (0 <= d)%Q) by apply Qabs_nonneg. assert (G0 : (0 <= g)%Q) by apply Qabs_nonneg.
    assert (d == 0)%Q by lra. assert (g == 0)%Q by lra. rewrite H, H0. ring_simplify. apply Qle_refl.
  - cbn [length] in *. replace (Datatypes.S (length t) - 1) with (length t) in N by lia. rewrite (pw_S u U).
    set (g := ((1 + u) ^ Z.of_nat (length t))%Q) in *. pose proof (pw_1 u U (length t)) as G. fold g in G.
    set (d := Qabs (got - qsum (x :: t))) in *. set (h := Qabs got) in *.
    assert (K : (h <= g * S)%Q) by lra. assert (K2 : (u * h <= u * (g * S))%Q) by (rewrite !(Qmult_comm u); apply Qmult_le_compat_r; assumption).
    assert (E2 : (((1 + u) * g - 1) * S == (g - 1) * S + u * (g * S))%Q) by ring. rewrite E2. lra.
Qed.
Lemma near_dot_app a b ta tb got : near_sum u a ta -> near_sum u b tb -> off u 0 got (a + b) -> near_dot u 0 got (ta ++ tb).
Proof.
  intros Na Nb O. pose proof (rd_u _ _ _ _ _ R) as U.
  pose proof (near_sum_bound a ta Na) as A3. pose proof (near_sum_bound b tb Nb) as B3.
  unfold near_dot, off in *. rewrite app_length, qsum_abs_app, qsum_app.
  set (ga := ((1 + u) ^ Z.of_nat (length ta))%Q) in *. set (gb := ((1 + u) ^ Z.of_nat (length tb))%Q) in *.
  set (g := ((1 + u) ^ Z.of_nat (length ta + length tb))%Q).
  assert (G1 : (ga <= g)%Q) by (apply pw_mono; [exact U|lia]). assert (G2 : (gb <= g)%Q) by (apply pw_mono; [exact U|lia]).
  pose proof (qsum_abs_nonneg ta) as Sa. pose proof (qsum_abs_nonneg tb) as Sb.
  assert (M1 : ((ga - 1) * qsum_abs ta <= (g - 1) * qsum_abs ta)%Q) by (apply Qmult_le_compat_r; lra).
  assert (M2 : ((gb - 1) * qsum_abs tb <= (g - 1) * qsum_abs tb)%Q) by (apply Qmult_le_compat_r; lra).
  pose proof (Qabs_triangle a b) as T0. assert (M3 : (u * Qabs (a + b) <= u * (Qabs a + Qabs b))%Q) by (rewrite !(Qmult_comm u); apply Qmult_le_compat_r; assumption).
  pose proof (Qabs_triangle (got - (a + b)) ((a - qsum ta) + (b - qsum tb))) as T1.
  pose proof (Qabs_triangle (a - qsum ta) (b - qsum tb)) as T2.
  assert (E : (got - (a + b) + ((a - qsum ta) + (b - qsum tb)) == got - (qsum ta + qsum tb))%Q) by ring. rewrite E in T1.
  assert (E2 : (inject_Z (Z.of_nat (length ta + length tb)) * g * 0 == 0)%Q) by ring. rewrite E2.
  lra.
Qed.
Lemma near_sum_opp a t : near_sum u a t -> near_sum u (- a) (map Qopp t).
Proof.
  unfold near_sum. rewrite map_length.
  assert (E1 : (qsum (map Qopp t) == - qsum t)%Q) by (clear; induction t as [|x t IH]; [reflexivity|]; cbn [map]; rewrite !qsum_cons, IH; ring).
  assert (E2 : (qsum_abs (map Qopp t) == qsum_abs t)%Q) by (clear; induction t as [|x t IH]; [reflexivity|]; cbn [map]; rewrite !qsum_abs_cons, IH, Qabs_opp; reflexivity).
  rewrite E1, E2. assert (E3 : (- a - - qsum t == - (a - qsum t))%Q) by ring. rewrite E3, Qabs_opp. trivial.
Qed.
Lemma near_dot0_eq a b t : (a == b)%Q -> near_dot u 0 a t -> near_dot u 0 b t.
Proof. unfold near_dot. intros E. rewrite E. trivial. Qed.
Lemma near_dot0_nil a : (a == 0)%Q -> near_dot u 0 a [].
Proof.
  unfold near_dot. intros E. rewrite E. cbn [length]. change (Z.of_nat 0) with 0%Z. change ((1 + u) ^ 0)%Q with 1%Q. change (Qabs (0 - qsum [])) with 0%Q.
  change (inject_Z 0) with 0%Q. change (qsum_abs []) with 0%Q. ring_simplify. apply Qle_refl.
Qed.
Lemma add_near read la lb : read_ok read la -> read_ok read lb -> Forall val la -> Forall val lb ->
  fin (sum0 (keep (la ++ lb) (sadd (read la) (read lb)))) ->
  near_dot u 0 (real (sum0 (keep (la ++ lb) (sadd (read la) (read lb))))) (map real la ++ map real lb).
Proof.
  intros Ra Rb Va Vb F. destruct (Ra Va) as [A1 A2]. destruct (Rb Vb) as [B1 B2].
  destruct (rd_add _ _ _ _ _ R _ _ A1 B1) as [V O]. destruct (kept (la ++ lb) _ V F) as [K1 K2].
  destruct (la ++ lb) as [|o l] eqn:L.
  - apply app_eq_nil in L as [-> ->]. apply near_dot0_nil, K2. reflexivity.
  - destruct (K1 ltac:(discriminate)) as [F1 E]. eapply near_dot0_eq; [symmetry; exact E|]. destruct (O F1) as (F2 & F3 & O2).
    eapply near_dot_app; [apply A2, F2|apply B2, F3|exact O2].
Qed.
Lemma sub_near read la lb : read_ok read la -> read_ok read lb -> Forall val la -> Forall val lb ->
  fin (sum0 (keep (la ++ lb) (ssub (read la) (read lb)))) ->
  near_dot u 0 (real (sum0 (keep (la ++ lb) (ssub (read la) (read lb))))) (map real la ++ map Qopp (map real lb)).
Proof.
  intros Ra Rb Va Vb F. destruct (Ra Va) as [A1 A2]. destruct (Rb Vb) as [B1 B2].
  destruct (rd_sub _ _ _ _ _ R _ _ A1 B1) as [V O]. destruct (kept (la ++ lb) _ V F) as [K1 K2].
  destruct (la ++ lb) as [|o l] eqn:L.
  - apply app_eq_nil in L as [-> ->]. apply near_dot0_nil, K2. reflexivity.
  - destruct (K1 ltac:(discriminate)) as [F1 E]. eapply near_dot0_eq; [symmetry; exact E|]. destruct (O F1) as (F2 & F3 & O2).
    eapply near_dot_app; [apply A2, F2|apply near_sum_opp, B2, F3|exact O2].
Qed.
Lemma canonical_short (r : list (nat * T)) k : canonical_row r -> length (at_ k r) <= 1.
Proof.
  intros H. apply canonical_nodup in H. destruct (at_ k r) as [|v l] eqn:E; [cbn; lia|].
  assert (Hi : In v (at_ k r)) by (rewrite E; left; reflexivity). apply in_map_iff in Hi as ([k' v'] & Ev & Hv). cbn in Ev. subst v'.
  apply filter_In in Hv as [Hv Ek]. apply Nat.eqb_eq in Ek. cbn in Ek. subst k'.
  rewrite (at_nodup _ _ _ H Hv) in E. rewrite <- E. cbn. lia.
Qed.

Lemma c95_csr_add : forall a b r : CSR T, wf_csr I a -> wf_csr I b -> csr_rows b = csr_rows a -> csr_cols b = csr_cols a ->
  Forall val (csr_values a) -> Forall val (csr_values b) -> CSR_add I a b = Ok r ->
  forall i j, i < csr_rows a -> fin (csr_val r i j) -> near_dot u 0 (real (csr_val r i j)) (map real (csr_at a i j) ++ map real (csr_at b i j)).
Proof.
  intros a b r Ha Hb D1 D2 Va Vb E i j Hi F. destruct (c19_csr_add_exact I a b Ha Hb D1 D2) as [Q1 Q2].
  assert (NF : ~ csr_sum_fails I sadd a b) by (intros H; rewrite (Q1 H) in E; discriminate).
  destruct (Q2 NF) as (r' & E' & REST). assert (r' = r) by congruence. subst r'. clear Q1 Q2 E'.
  assert (H : (~ (csr_canonical a /\ csr_canonical b) -> csr_entrywise sum0 sadd a b r) /\ (csr_canonical a /\ csr_canonical b -> csr_entrywise (hd s0) sadd a b r)) by tauto.
  destruct H as [H1 H2]. clear REST. unfold csr_val in *.
  assert (Dec : (csr_canonical a /\ csr_canonical b) \/ ~ (csr_canonical a /\ csr_canonical b)).
  { destruct (csr_canonical_dec a), (csr_canonical_dec b); tauto. }
  destruct Dec as [C|C].
  - rewrite (H2 C i j Hi) in *. destruct C as [C1 C2].
    apply add_near; try (apply csr_at_val; assumption); try exact F; apply read_hd, canonical_short; [apply C1|apply C2]; lia.
  - rewrite (H1 C i j Hi) in *. apply add_near; try (apply csr_at_val; assumption); try exact F; apply read_sum.
Qed.

Lemma c95_csr_sub : forall a b r : CSR T, wf_csr I a -> wf_csr I b -> csr_rows b = csr_rows a -> csr_cols b = csr_cols a ->
  Forall val (csr_values a) -> Forall val (csr_values b) -> CSR_sub I a b = Ok r ->
  forall i j, i < csr_rows a -> fin (csr_val r i j) -> near_dot u 0 (real (csr_val r i j)) (map real (csr_at a i j) ++ map Qopp (map real (csr_at b i j))).
Proof.
  intros a b r Ha Hb D1 D2 Va Vb E i j Hi F. destruct (c19_csr_sub_exact I a b Ha Hb D1 D2) as [Q1 Q2].
  assert (NF : ~ csr_sum_fails I ssub a b) by (intros H; rewrite (Q1 H) in E; discriminate).
  destruct (Q2 NF) as (r' & E' & REST). assert (r' = r) by congruence. subst r'. clear Q1 Q2 E'.
  assert (H : (~ (csr_canonical a /\ csr_canonical b) -> csr_entrywise sum0 ssub a b r) /\ (csr_canonical a /\ csr_canonical b -> csr_entrywise (hd s0) ssub a b r)) by tauto.
  destruct H as [H1 H2]. clear REST. unfold csr_val in *.
  assert (Dec : (csr_canonical a /\ csr_canonical b) \/ ~ (csr_canonical a /\ csr_canonical b)).
  { destruct (csr_canonical_dec a), (csr_canonical_dec b); tauto. }
  destruct Dec as [C|C].
  - rewrite (H2 C i j Hi) in *. destruct C as [C1 C2].
    apply sub_near; try (apply csr_at_val; assumption); try exact F; apply read_hd, canonical_short; [apply C1|apply C2]; lia.
  - rewrite (H1 C i j Hi) in *. apply sub_near; try (apply csr_at_val; assumption); try exact F; apply read_sum.
Qed.

Lemma c95_csc_add : forall a b r : CSC T, wf_csc I a -> wf_csc I b -> csc_rows b = csc_rows a -> csc_cols b = csc_cols a ->
  Forall val (csc_values a) -> Forall val (csc_values b) -> CSC_add I a b = Ok r ->
  forall i j, j < csc_cols a -> fin (csc_val r i j) -> near_dot u 0 (real (csc_val r i j)) (map real (csc_at a i j) ++ map real (csc_at b i j)).
Proof.
  intros a b r Ha Hb D1 D2 Va Vb E i j Hi F. destruct (c20_csc_add_exact I a b Ha Hb D1 D2) as [Q1 Q2].
  assert (NF : ~ csc_sum_fails I sadd a b) by (intros H; rewrite (Q1 H) in E; discriminate).
  destruct (Q2 NF) as (r' & E' & REST). assert (r' = r) by congruence. subst r'. clear Q1 Q2 E'.
  assert (H : (~ (csc_canonical a /\ csc_canonical b) -> csc_entrywise sum0 sadd a b r) /\ (csc_canonical a /\ csc_canonical b -> csc_entrywise (hd s0) sadd a b r)) by tauto.
  destruct H as [H1 H2]. clear REST. unfold csc_val in *.
  assert (Dec : (csc_canonical a /\ csc_canonical b) \/ ~ (csc_canonical a /\ csc_canonical b)).
  { destruct (csc_canonical_dec a), (csc_canonical_dec b); tauto. }
  destruct Dec as [C|C].
  - rewrite (H2 C i j Hi) in *. destruct C as [C1 C2].
    apply add_near; try (apply csc_at_val; assumption); try exact F; apply read_hd, canonical_short; [apply C1|apply C2]; lia.
  - rewrite (H1 C i j Hi) in *. apply add_near; try (apply csc_at_val; assumption); try exact F; apply read_sum.
Qed.

Lemma c95_csc_subtract : forall a b r : CSC T, wf_csc I a -> wf_csc I b -> csc_rows b = csc_rows a -> csc_cols b = csc_cols a ->
  Forall val (csc_values a) -> Forall val (csc_values b) -> CSC_subtract I a b = Ok r ->
  forall i j, j < csc_cols a -> fin (csc_val r i j) -> near_dot u 0 (real (csc_val r i j)) (map real (csc_at a i j) ++ map Qopp (map real (csc_at b i j))).
Proof.
  intros a b r Ha Hb D1 D2 Va Vb E i j Hi F. destruct (c20_csc_subtract_exact I a b Ha Hb D1 D2) as [Q1 Q2].
  assert (NF : ~ csc_sum_fails I ssub a b) by (intros H; rewrite (Q1 H) in E; discriminate).
  destruct (Q2 NF) as (r' & E' & REST). assert (r' = r) by congruence. subst r'. clear Q1 Q2 E'.
  assert (H : (~ (csc_canonical a /\ csc_canonical b) -> csc_entrywise sum0 ssub a b r) /\ (csc_canonical a /\ csc_canonical b -> csc_entrywise (hd s0) ssub a b r)) by tauto.
  destruct H as [H1 H2]. clear REST. unfold csc_val in *.
  assert (Dec : (csc_canonical a /\ csc_canonical b) \/ ~ (csc_canonical a /\ csc_canonical b)).
  { destruct (csc_canonical_dec a), (csc_canonical_dec b); tauto. }
  destruct Dec as [C|C].
  - rewrite (H2 C i j Hi) in *. destruct C as [C1 C2].
    apply sub_near; try (apply csc_at_val; assumption); try exact F; apply read_hd, canonical_short; [apply C1|apply C2]; lia.
  - rewrite (H1 C i j Hi) in *. apply sub_near; try (apply csc_at_val; assumption); try exact F; apply read_sum.
Qed.
End R.

From Coq Require Import Floats.SpecFloat.
From Verif Require Import Main_float.
Open Scope Q_scope.
Lemma c95_f64 : @Rounded f64 scalar_f64 float_real float_fin (float_val 53 1024) (2 ^ (-53)) (2 ^ (-1075)).
Proof. exact (fl_rounded 53 1024 eq_refl ltac:(discriminate) (S754_finite false 4503599627370496 (-52))). Qed.
Lemma c95_f32 : @Rounded spec_float scalar_f32 float_real float_fin (float_val 24 128) (2 ^ (-24)) (2 ^ (-150)).
Proof. exact (fl_rounded 24 128 eq_refl ltac:(discriminate) (S754_finite false 8388608 (-23))). Qed.
Lemma c95_f64_mat_vec I (m : CSR f64) (x : list f64) : wf_csr I m -> length x = csr_cols m ->
  (forall v, In v (csr_values m) \/ In v x -> valid_binary 53 1024 v = true) ->
  exists y, CSR_mat_vec m x = Ok y /\ length y = csr_rows m /\
    forall i, (i < csr_rows m)%nat -> float_fin (nth i y s0) ->
      let t := csr_terms float_real m x i in let k := Z.of_nat (length t) in
      Qabs (float_real (nth i y s0) - qsum t) <= ((1 + 2 ^ (-53)) ^ k - 1) * qsum_abs t + inject_Z k * (1 + 2 ^ (-53)) ^ k * 2 ^ (-1075).
Proof.
  intros Hm Hx V. apply (c95_csr_mat_vec c95_f64 I); try assumption; apply Forall_forall; intros v Hv; apply V; tauto.
Qed.
