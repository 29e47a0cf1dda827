(** Sums of products without rounding. *)
From Verif Require Import Rust Scalar Model_kernels Model_matrix Spec SpecBoundary SpecRound SpecExact Wp Rep CanonProofs ArithProofs Main_convert Main_linear Main_struct Main_boundary Main_product Main_addition Main_arith Main_more Main_float Main_round.
From Coq Require Import ZArith QArith Qabs List Lia Lqa Setoid Morphisms.
Import ListNotations.
Open Scope Q_scope.

#[local] Instance multiple_proper : Proper (Qeq ==> Qeq ==> iff) multiple.
Proof. intros a b H c d K. unfold multiple. setoid_rewrite H. setoid_rewrite K. reflexivity. Qed.

Section E.
Context {T : Type} {SC : Scalar T} {real : T -> Q} {fin : T -> Prop} {unit bound : Q} (R : ExactBelow real fin unit bound).
Local Notation mult := (multiple unit).
Local Notation small := (small_sum unit bound).
Local Notation issum := (is_sum real fin).

Lemma mult_0 : mult 0.
Proof. exists 0%Z. ring. Qed.
Lemma mult_add a b : mult a -> mult b -> mult (a + b).
Proof. intros [m Hm] [n Hn]. exists (m + n)%Z. rewrite Hm, Hn, inject_Z_plus. ring. Qed.
Lemma mult_opp a : mult a -> mult (- a).
Proof. intros [m Hm]. exists (- m)%Z. rewrite Hm, inject_Z_opp. ring. Qed.
Lemma mult_sum l : Forall mult l -> mult (qsum l).
Proof. induction 1; [exact mult_0|]. rewrite qsum_cons. apply mult_add; assumption. Qed.

Lemma small_cons x l : small (x :: l) -> mult x /\ Qabs x <= bound /\ small l.
Proof.
  intros [A B]. inversion A; subst. rewrite qsum_abs_cons in B. pose proof (Qabs_nonneg x). pose proof (qsum_abs_nonneg l).
  split; [assumption|]. split; [lra|]. split; [assumption|lra].
Qed.
Lemma small_app a b : small (a ++ b) -> small a /\ small b.
Proof.
  intros [A B]. apply Forall_app in A as [A1 A2]. rewrite qsum_abs_app in B. pose proof (qsum_abs_nonneg a). pose proof (qsum_abs_nonneg b).
  split; split; try assumption; lra.
Qed.
Lemma small_total l : small l -> mult (qsum l) /\ Qabs (qsum l) <= bound.
Proof. intros [A B]. split; [apply mult_sum, A|]. pose proof (abs_qsum l). lra. Qed.

Lemma fold_exact l : forall acc, fin acc -> Forall fin l -> mult (real acc) -> Forall mult (map real l) ->
  Qabs (real acc) + qsum_abs (map real l) <= bound ->
  fin (fold_left sadd l acc) /\ real (fold_left sadd l acc) == real acc + qsum (map real l).
Proof.
  induction l as [|x l IH]; intros acc Fa Fl Ma Ml B; cbn [fold_left map] in *.
  - split; [assumption|]. cbn. ring.
  - inversion Fl; inversion Ml; subst. rewrite qsum_abs_cons in B. pose proof (qsum_abs_nonneg (map real l)) as S0.
    pose proof (Qabs_triangle (real acc) (real x)) as T1.
    assert (MS : mult (real acc + real x)) by (apply mult_add; assumption).
    destruct (eb_add _ _ _ _ R acc x) as [F E]; try assumption; [lra|].
    destruct (IH (sadd acc x)) as [F2 E2]; try assumption.
    + rewrite E. exact MS.
    + rewrite E. lra.
    + split; [exact F2|]. rewrite E2, E, qsum_cons. ring.
Qed.
Lemma sum0_exact l : Forall fin l -> small (map real l) -> issum (fold_left sadd l s0) (map real l).
Proof.
  intros F [M B]. destruct (eb_zero _ _ _ _ R) as [Z1 Z2]. destruct (fold_exact l s0) as [A E]; try assumption.
  - rewrite Z2. exact mult_0.
  - rewrite Z2. change (Qabs 0) with 0. lra.
  - split; [exact A|]. rewrite E, Z2. ring.
Qed.
Lemma dup_exact v l : Forall fin (v :: l) -> small (map real (v :: l)) -> issum (fold_left sadd l v) (map real (v :: l)).
Proof.
  intros F [M B]. inversion F; subst. cbn [map] in *. inversion M; subst. rewrite qsum_abs_cons in B.
  destruct (fold_exact l v) as [A E]; try assumption. split; [exact A|]. rewrite E, qsum_cons. reflexivity.
Qed.
Definition tm2 (e : T * T) : Q := real (fst e) * real (snd e).
Lemma dot_exact (P : list (T * T)) : Forall (fun e => fin (fst e) /\ fin (snd e)) P -> small (map tm2 P) ->
  issum (fold_left sadd (map (fun e => smul (fst e) (snd e)) P) s0) (map tm2 P).
Proof.
  intros F S.
  assert (H : Forall fin (map (fun e => smul (fst e) (snd e)) P) /\ Forall mult (map real (map (fun e => smul (fst e) (snd e)) P)) /\
     qsum_abs (map real (map (fun e => smul (fst e) (snd e)) P)) == qsum_abs (map tm2 P) /\ qsum (map real (map (fun e => smul (fst e) (snd e)) P)) == qsum (map tm2 P)).
  { induction P as [|e P IH]; cbn [map] in *; [repeat split; constructor|]. inversion F as [|? ? [F1 F2] F']; subst.
    apply small_cons in S as (M & B & S). destruct (IH F' S) as (I1 & I2 & I3 & I4).
    destruct (eb_mul _ _ _ _ R (fst e) (snd e) F1 F2 M B) as [A E].
    split; [constructor; assumption|]. split; [constructor; [rewrite E; exact M|exact I2]|].
    rewrite !qsum_cons, !qsum_abs_cons, E, I3, I4. split; reflexivity. }
  destruct H as (H1 & H2 & H3 & H4). destruct S as [_ B].
  destruct (sum0_exact _ H1) as [A E]; [split; [exact H2|rewrite H3; exact B]|]. split; [exact A|]. rewrite E. exact H4.
Qed.
Lemma fin_nth0 : fin s0. Proof. exact (proj1 (eb_zero _ _ _ _ R)). Qed.

Lemma kept_exact {A} (occ : list A) v t : (occ = [] -> t = []) -> small t -> mult (real v) -> Qabs (real v) <= bound -> issum v t -> issum (sum0 (keep occ v)) t.
Proof.
  intros O S M B [F E]. destruct (eb_zero _ _ _ _ R) as [Z1 Z2]. destruct occ as [|o occ]; cbn [keep].
  - rewrite (O eq_refl). split; [exact Z1|]. exact Z2.
  - unfold nonzero, nonzero_scalar. destruct (seqb v s0) eqn:Q; cbn [negb].
    + split; [exact Z1|]. cbn. rewrite Z2, <- E. symmetry. apply (eb_eq _ _ _ _ R), Q.
    + unfold sum0. cbn [fold_left]. assert (E0 : real s0 + real v == real v) by (rewrite Z2; ring).
      destruct (eb_add _ _ _ _ R s0 v) as [A1 A2]; try assumption; rewrite ?E0; try assumption.
      split; [exact A1|]. rewrite A2, E0. exact E.
Qed.
Lemma kept_total {A} (occ : list A) v t : (occ = [] -> t = []) -> small t -> issum v t -> issum (sum0 (keep occ v)) t.
Proof.
  intros O S H. destruct (small_total t S) as [M B]. destruct H as [F E]. apply kept_exact; try assumption; [rewrite E; exact M|rewrite E; exact B|split; assumption].
Qed.

Open Scope nat_scope.
Variable I : ity.
Lemma c96_csr_mat_vec : forall (m : CSR T) (x : list T), wf_csr I m -> length x = csr_cols m ->
  exists y, CSR_mat_vec m x = Ok y /\ length y = csr_rows m /\
    forall i, i < csr_rows m -> (forall e, In e (csr_row m i) -> fin (snd e) /\ fin (nth (fst e) x s0)) ->
      small_sum unit bound (csr_terms real m x i) -> is_sum real fin (nth i y s0) (csr_terms real m x i).
Proof.
  intros m x Hm Hx. destruct (proj2 (c15_csr_mat_vec I m x Hm) Hx) as (y & E & Ly & H). exists y. split; [exact E|]. split; [exact Ly|].
  intros i Hi F S. rewrite (H i Hi). clear H E.
  set (P := map (fun e : nat * T => (snd e, nth (fst e) x s0)) (csr_row m i)).
  pose proof (dot_exact P) as D. unfold P in D. rewrite !map_map in D. apply D; [|exact S].
  rewrite Forall_map, Forall_forall. exact F.
Qed.
Lemma c96_csc_mat_vec : forall (m : CSC T) (x : list T), wf_csc I m -> length x = csc_cols m ->
  exists y, CSC_mat_vec m x = Ok y /\ length y = csc_rows m /\
    forall i, i < csc_rows m -> (forall j, j < csc_cols m -> csc_at m i j <> [] -> Forall fin (csc_at m i j) /\ fin (nth j x s0)) ->
      small_sum unit bound (csc_terms real m x i) -> is_sum real fin (nth i y s0) (csc_terms real m x i).
Proof.
  intros m x Hm Hx. destruct (proj2 (c16_csc_mat_vec I m x Hm) Hx) as (y & E & Ly & H). exists y. split; [exact E|]. split; [exact Ly|].
  intros i Hi F S. rewrite (H i Hi). clear H E.
  set (P := flat_map (fun j => map (fun v => (v, nth j x s0)) (csc_at m i j)) (seq 0 (csc_cols m))).
  assert (EP : map (fun e => smul (fst e) (snd e)) P = flat_map (fun j => map (fun v => smul v (nth j x s0)) (csc_at m i j)) (seq 0 (csc_cols m))).
  { unfold P. rewrite map_flat. apply flat_map_ext. intros e. rewrite map_map. reflexivity. }
  assert (ET : map tm2 P = csc_terms real m x i).
  { unfold P. rewrite map_flat. apply flat_map_ext. intros e. rewrite map_map. reflexivity. }
  pose proof (dot_exact P) as D. rewrite EP, ET in D. apply D; [|exact S].
  apply Forall_forall. intros e He. apply in_flat_map in He as (j & Hj & He). apply in_seq in Hj. apply in_map_iff in He as (v & <- & Hv). cbn [fst snd].
  destruct (F j) as [F1 F2]; [lia|intros Z; rewrite Z in Hv; destruct Hv|]. split; [|exact F2]. apply (proj1 (Forall_forall _ _) F1), Hv.
Qed.
Lemma c96_csr_mat_mat : forall a b r : CSR T, wf_csr I a -> wf_csr I b -> CSR_mat_mat I a b = Ok r ->
  forall i k, i < csr_rows a -> (forall e, In e (csr_row a i) -> csr_at b (fst e) k <> [] -> fin (snd e) /\ Forall fin (csr_at b (fst e) k)) ->
    small_sum unit bound (csr_product_terms real a b i k) -> is_sum real fin (csr_val r i k) (csr_product_terms real a b i k).
Proof.
  intros a b r Ha Hb E i k Hi F S.
  destruct (Nat.eq_dec (csr_cols a) (csr_rows b)) as [D|D]; [|rewrite (c17_csr_mat_mat_error I a b D) in E; discriminate].
  destruct (c17_csr_mat_mat_exact I a b Ha Hb D) as [Q1 Q2].
  destruct (Z_lt_dec (imax I) (Z.of_nat (product_kept a b))) as [L|L]; [destruct (Q1 L); congruence|].
  destruct (Q2 L) as (r' & E' & _ & _ & _ & _ & _ & _ & _ & _ & H). assert (r' = r) by congruence. subst r'. clear Q1 Q2 E'.
  unfold csr_val in *. rewrite (H i k Hi) in *. clear H.
  set (P := flat_map (fun e : nat * T => map (fun v => (snd e, v)) (csr_at b (fst e) k)) (csr_row a i)).
  assert (EP : map (fun e => smul (fst e) (snd e)) P = csr_products a b i k).
  { unfold P. rewrite map_flat. apply flat_map_ext. intros e. rewrite map_map. reflexivity. }
  assert (ET : map tm2 P = csr_product_terms real a b i k).
  { unfold P. rewrite map_flat. apply flat_map_ext. intros e. rewrite map_map. reflexivity. }
  pose proof (dot_exact P) as N. rewrite EP, ET in N.
  apply kept_total; [|exact S|apply N; [|exact S]].
  - intros O. rewrite O in EP. rewrite <- ET. destruct P; [reflexivity|discriminate].
  - apply Forall_forall. intros e He. apply in_flat_map in He as (j & Hj & He). apply in_map_iff in He as (v & <- & Hv). cbn [fst snd].
    destruct (F j Hj) as [F1 F2]; [intros Z; rewrite Z in Hv; destruct Hv|]. split; [exact F1|]. apply (proj1 (Forall_forall _ _) F2), Hv.
Qed.
Lemma c96_csc_mat_mat : forall a b r : CSC T, wf_csc I a -> wf_csc I b -> CSC_mat_mat I a b = Ok r ->
  forall i k, k < csc_cols b -> (forall e, In e (csc_col b k) -> csc_at a i (fst e) <> [] -> fin (snd e) /\ Forall fin (csc_at a i (fst e))) ->
    small_sum unit bound (csc_product_terms real a b i k) -> is_sum real fin (csc_val r i k) (csc_product_terms real a b i k).
Proof.
  intros a b r Ha Hb E i k Hi F S.
  destruct (Nat.eq_dec (csc_cols a) (csc_rows b)) as [D|D]; [|rewrite (c18_csc_mat_mat_error I a b D) in E; discriminate].
  destruct (c18_csc_mat_mat_exact I a b Ha Hb D) as [Q1 Q2].
  destruct (Z_lt_dec (imax I) (Z.of_nat (csc_product_kept a b))) as [L|L]; [destruct (Q1 L); congruence|].
  destruct (Q2 L) as (r' & E' & _ & _ & _ & _ & _ & _ & _ & _ & H). assert (r' = r) by congruence. subst r'. clear Q1 Q2 E'.
  unfold csc_val in *. rewrite (H i k Hi) in *. clear H.
  set (P := flat_map (fun e : nat * T => map (fun v => (snd e, v)) (csc_at a i (fst e))) (csc_col b k)).
  assert (EP : map (fun e => smul (fst e) (snd e)) P = csc_products a b i k).
  { unfold P. rewrite map_flat. apply flat_map_ext. intros e. rewrite map_map. reflexivity. }
  assert (ET : map tm2 P = csc_product_terms real a b i k).
  { unfold P. rewrite map_flat. apply flat_map_ext. intros e. rewrite map_map. reflexivity. }
  pose proof (dot_exact P) as N. rewrite EP, ET in N.
  apply kept_total; [|exact S|apply N; [|exact S]].
  - intros O. rewrite O in EP. rewrite <- ET. destruct P; [reflexivity|discriminate].
  - apply Forall_forall. intros e He. apply in_flat_map in He as (j & Hj & He). apply in_map_iff in He as (v & <- & Hv). cbn [fst snd].
    destruct (F j Hj) as [F1 F2]; [intros Z; rewrite Z in Hv; destruct Hv|]. split; [exact F1|]. apply (proj1 (Forall_forall _ _) F2), Hv.
Qed.

Lemma c96_coo_to_dense : forall m : Coo T, wf_coo I m -> 
  exists d, Coo_to_dense m = Ok d /\ is_table d (coo_rows m) (coo_cols m) (coo_val m) /\
    forall i j, Forall fin (coo_at m i j) -> small_sum unit bound (map real (coo_at m i j)) -> is_sum real fin (coo_val m i j) (map real (coo_at m i j)).
Proof.
  intros m Hm. destruct (c09_coo_to_dense I m Hm) as (d & E & H). exists d. split; [exact E|]. split; [exact H|].
  intros i j F S. apply sum0_exact; assumption.
Qed.
Lemma c96_csr_to_dense : forall m : CSR T, wf_csr I m -> 
  exists d, CSR_to_dense m = Ok d /\ is_table d (csr_rows m) (csr_cols m) (csr_val m) /\
    forall i j, Forall fin (csr_at m i j) -> small_sum unit bound (map real (csr_at m i j)) -> is_sum real fin (csr_val m i j) (map real (csr_at m i j)).
Proof.
  intros m Hm. destruct (c09_csr_to_dense I m Hm) as (d & E & H). exists d. split; [exact E|]. split; [exact H|].
  intros i j F S. apply sum0_exact; assumption.
Qed.
Lemma c96_csc_to_dense : forall m : CSC T, wf_csc I m -> csc_cols_fit I m -> 
  exists d, CSC_to_dense I m = Ok d /\ is_table d (csc_rows m) (csc_cols m) (csc_val m) /\
    forall i j, Forall fin (csc_at m i j) -> small_sum unit bound (map real (csc_at m i j)) -> is_sum real fin (csc_val m i j) (map real (csc_at m i j)).
Proof.
  intros m Hm Hf. destruct (c09_csc_to_dense I m Hm Hf) as (d & E & H). exists d. split; [exact E|]. split; [exact H|].
  intros i j F S. apply sum0_exact; assumption.
Qed.
Lemma dup_exact_in l v : Forall fin l -> small (map real l) -> In v (dup_sum l) -> issum v (map real l).
Proof. destruct l as [|w l]; intros F S []; [subst v; apply dup_exact; assumption|contradiction]. Qed.
Lemma c96_coo_to_csr : forall m : Coo T, wf_coo I m -> (Z.of_nat (length (coo_values m)) < imax I)%Z ->
  exists r, Coo_to_csr I m = Ok r /\
    forall i j v, i < coo_rows m -> In v (csr_at r i j) -> Forall fin (coo_at m i j) -> small_sum unit bound (map real (coo_at m i j)) ->
      is_sum real fin v (map real (coo_at m i j)).
Proof.
  intros m Hm Hb. destruct (c01_coo_to_csr I m Hm Hb) as (r & E & _ & _ & _ & _ & _ & H). exists r. split; [exact E|].
  intros i j v Hi. rewrite (H i j Hi). intros. apply dup_exact_in; assumption.
Qed.
Lemma c96_coo_to_csc : forall m : Coo T, wf_coo I m -> (Z.of_nat (length (coo_values m)) < imax I)%Z ->
  exists r, Coo_to_csc I m = Ok r /\
    forall i j v, j < coo_cols m -> In v (csc_at r i j) -> Forall fin (coo_at m i j) -> small_sum unit bound (map real (coo_at m i j)) ->
      is_sum real fin v (map real (coo_at m i j)).
Proof.
  intros m Hm Hb. destruct (c02_coo_to_csc I m Hm Hb) as (r & E & _ & _ & _ & _ & _ & H). exists r. split; [exact E|].
  intros i j v Hi. rewrite (H i j Hi). intros. apply dup_exact_in; assumption.
Qed.

Lemma c96_csr_sum_duplicates : forall m : CSR T, wf_csr I m -> (Z.of_nat (csr_count m) < imax I)%Z ->
  exists r, CSR_sum_duplicates I m = Ok r /\
    forall i j v, In v (csr_at r i j) -> Forall fin (csr_at m i j) -> small_sum unit bound (map real (csr_at m i j)) ->
      is_sum real fin v (map real (csr_at m i j)).
Proof.
  intros m Hm Hb. destruct (c14_csr_sum_duplicates I m Hm Hb) as (r & E & _ & _ & _ & _ & H & _). exists r. split; [exact E|].
  intros i j v. rewrite (H i j). intros. apply dup_exact_in; assumption.
Qed.
Lemma c96_csc_sum_duplicates : forall m : CSC T, wf_csc I m -> (Z.of_nat (csc_count m) < imax I)%Z ->
  exists r, CSC_sum_duplicates I m = Ok r /\
    forall i j v, In v (csc_at r i j) -> Forall fin (csc_at m i j) -> small_sum unit bound (map real (csc_at m i j)) ->
      is_sum real fin v (map real (csc_at m i j)).
Proof.
  intros m Hm Hb. destruct (c14_csc_sum_duplicates I m Hm Hb) as (r & E & _ & _ & _ & _ & H & _). exists r. split; [exact E|].
  intros i j v. rewrite (H i j). intros. apply dup_exact_in; assumption.
Qed.
Lemma c96_coo_add : forall a b : Coo T, wf_coo I a -> wf_coo I b -> coo_rows a = coo_rows b -> coo_cols a = coo_cols b ->
  (Z.of_nat (length (coo_values a) + length (coo_values b)) < imax I)%Z ->
  exists r, Coo_add I a b = Ok r /\
    forall i j v, i < coo_rows a -> In v (csr_at r i j) -> Forall fin (coo_at a i j) -> Forall fin (coo_at b i j) ->
      small_sum unit bound (map real (coo_at a i j) ++ map real (coo_at b i j)) -> is_sum real fin v (map real (coo_at a i j) ++ map real (coo_at b i j)).
Proof.
  intros a b Ha Hb D1 D2 L. destruct (proj2 (c24_coo_add I a b Ha Hb) D1 D2 L) as (r & E & _ & _ & _ & _ & _ & H). exists r. split; [exact E|].
  intros i j v Hi. rewrite (H i j Hi), <- map_app. intros Hv Fa Fb S. apply dup_exact_in; try assumption. apply Forall_app. split; assumption.
Qed.

(** sums and differences *)
Lemma read_sum_exact l : Forall fin l -> small (map real l) -> issum (sum0 l) (map real l).
Proof. apply sum0_exact. Qed.
Lemma read_hd_exact l : length l <= 1 -> Forall fin l -> small (map real l) -> issum (hd s0 l) (map real l).
Proof.
  intros L F S. destruct l as [|v [|]]; [exact (sum0_exact [] F S)| |cbn in L; lia]. inversion F; subst. split; [assumption|]. cbn. ring.
Qed.
Lemma add_exact_at x y ta tb : issum x ta -> issum y tb -> small (ta ++ tb) -> issum (sadd x y) (ta ++ tb).
Proof.
  intros [F1 E1] [F2 E2] S. destruct (small_total _ S) as [M B]. rewrite qsum_app in M, B.
  destruct (eb_add _ _ _ _ R x y) as [A E]; try assumption; rewrite ?E1, ?E2; try assumption.
  split; [exact A|]. rewrite E, E1, E2, qsum_app. reflexivity.
Qed.
Lemma qsum_opp t : (qsum (map Qopp t) == - qsum t)%Q.
Proof. induction t as [|x t IH]; [reflexivity|]; cbn [map]; rewrite !qsum_cons, IH; ring. Qed.
Lemma qsum_abs_opp t : (qsum_abs (map Qopp t) == qsum_abs t)%Q.
Proof. induction t as [|x t IH]; [reflexivity|]; cbn [map]; rewrite !qsum_abs_cons, IH, Qabs_opp; reflexivity. Qed.
Lemma small_opp t : small (map Qopp t) -> small t.
Proof.
  intros [A B]. rewrite qsum_abs_opp in B. split; [|exact B]. rewrite Forall_map in A. eapply Forall_impl; [|exact A].
  intros q Hq. apply mult_opp in Hq. rewrite Qopp_involutive in Hq. exact Hq.
Qed.
Lemma sub_exact_at x y ta tb : issum x ta -> issum y tb -> small (ta ++ map Qopp tb) -> issum (ssub x y) (ta ++ map Qopp tb).
Proof.
  intros [F1 E1] [F2 E2] S. destruct (small_total _ S) as [M B]. rewrite qsum_app, qsum_opp in M, B.
  destruct (eb_sub _ _ _ _ R x y) as [A E]; try assumption; rewrite ?E1, ?E2; try assumption.
  split; [exact A|]. rewrite E, E1, E2, qsum_app, qsum_opp. reflexivity.
Qed.

Lemma c96_csr_add : forall a b r : CSR T, wf_csr I a -> wf_csr I b -> csr_rows b = csr_rows a -> csr_cols b = csr_cols a -> CSR_add I a b = Ok r ->
  forall i j, i < csr_rows a -> Forall fin (csr_at a i j) -> Forall fin (csr_at b i j) ->
    small_sum unit bound (map real (csr_at a i j) ++ map real (csr_at b i j)) -> is_sum real fin (csr_val r i j) (map real (csr_at a i j) ++ map real (csr_at b i j)).
Proof.
  intros a b r Ha Hb D1 D2 E i j Hi Fa Fb S. destruct (c19_csr_add_exact I a b Ha Hb D1 D2) as [Q1 Q2].
  assert (NF : ~ csr_sum_fails I sadd a b) by (intros H; rewrite (Q1 H) in E; discriminate).
  destruct (Q2 NF) as (r' & E' & REST). assert (r' = r) by congruence. subst r'. clear Q1 Q2 E'.
  assert (H : (~ (csr_canonical a /\ csr_canonical b) -> csr_entrywise sum0 sadd a b r) /\ (csr_canonical a /\ csr_canonical b -> csr_entrywise (hd s0) sadd a b r)) by tauto.
  destruct H as [H1 H2]. clear REST. unfold csr_val in *.
  assert (Dec : (csr_canonical a /\ csr_canonical b) \/ ~ (csr_canonical a /\ csr_canonical b)).
  { destruct (csr_canonical_dec a), (csr_canonical_dec b); tauto. }
  pose proof S as S2. apply small_app in S2 as [Sa Sb].
  assert (O : csr_at a i j ++ csr_at b i j = [] -> map real (csr_at a i j) ++ map real (csr_at b i j) = []) by (intros O; apply app_eq_nil in O as [-> ->]; reflexivity).
  destruct Dec as [C|C].
  - rewrite (H2 C i j Hi). destruct C as [C1 C2]. apply kept_total; [exact O|exact S|]. apply add_exact_at; [| |exact S];
      apply read_hd_exact; try assumption; apply canonical_short; [apply C1|apply C2]; lia.
  - rewrite (H1 C i j Hi). apply kept_total; [exact O|exact S|]. apply add_exact_at; [| |exact S]; apply read_sum_exact; assumption.
Qed.

Lemma c96_csr_sub : forall a b r : CSR T, wf_csr I a -> wf_csr I b -> csr_rows b = csr_rows a -> csr_cols b = csr_cols a -> CSR_sub I a b = Ok r ->
  forall i j, i < csr_rows a -> Forall fin (csr_at a i j) -> Forall fin (csr_at b i j) ->
    small_sum unit bound (map real (csr_at a i j) ++ map Qopp (map real (csr_at b i j))) -> is_sum real fin (csr_val r i j) (map real (csr_at a i j) ++ map Qopp (map real (csr_at b i j))).
Proof.
  intros a b r Ha Hb D1 D2 E i j Hi Fa Fb S. destruct (c19_csr_sub_exact I a b Ha Hb D1 D2) as [Q1 Q2].
  assert (NF : ~ csr_sum_fails I ssub a b) by (intros H; rewrite (Q1 H) in E; discriminate).
  destruct (Q2 NF) as (r' & E' & REST). assert (r' = r) by congruence. subst r'. clear Q1 Q2 E'.
  assert (H : (~ (csr_canonical a /\ csr_canonical b) -> csr_entrywise sum0 ssub a b r) /\ (csr_canonical a /\ csr_canonical b -> csr_entrywise (hd s0) ssub a b r)) by tauto.
  destruct H as [H1 H2]. clear REST. unfold csr_val in *.
  assert (Dec : (csr_canonical a /\ csr_canonical b) \/ ~ (csr_canonical a /\ csr_canonical b)).
  { destruct (csr_canonical_dec a), (csr_canonical_dec b); tauto. }
  pose proof S as S2. apply small_app in S2 as [Sa Sb]. apply small_opp in Sb.
  assert (O : csr_at a i j ++ csr_at b i j = [] -> map real (csr_at a i j) ++ map Qopp (map real (csr_at b i j)) = []) by (intros O; apply app_eq_nil in O as [-> ->]; reflexivity).
  destruct Dec as [C|C].
  - rewrite (H2 C i j Hi). destruct C as [C1 C2]. apply kept_total; [exact O|exact S|]. apply sub_exact_at; [| |exact S];
      apply read_hd_exact; try assumption; apply canonical_short; [apply C1|apply C2]; lia.
  - rewrite (H1 C i j Hi). apply kept_total; [exact O|exact S|]. apply sub_exact_at; [| |exact S]; apply read_sum_exact; assumption.
Qed.

Lemma c96_csc_add : forall a b r : CSC T, wf_csc I a -> wf_csc I b -> csc_rows b = csc_rows a -> csc_cols b = csc_cols a -> CSC_add I a b = Ok r ->
  forall i j, j < csc_cols a -> Forall fin (csc_at a i j) -> Forall fin (csc_at b i j) ->
    small_sum unit bound (map real (csc_at a i j) ++ map real (csc_at b i j)) -> is_sum real fin (csc_val r i j) (map real (csc_at a i j) ++ map real (csc_at b i j)).
Proof.
  intros a b r Ha Hb D1 D2 E i j Hi Fa Fb S. destruct (c20_csc_add_exact I a b Ha Hb D1 D2) as [Q1 Q2].
  assert (NF : ~ csc_sum_fails I sadd a b) by (intros H; rewrite (Q1 H) in E; discriminate).
  destruct (Q2 NF) as (r' & E' & REST). assert (r' = r) by congruence. subst r'. clear Q1 Q2 E'.
  assert (H : (~ (csc_canonical a /\ csc_canonical b) -> csc_entrywise sum0 sadd a b r) /\ (csc_canonical a /\ csc_canonical b -> csc_entrywise (hd s0) sadd a b r)) by tauto.
  destruct H as [H1 H2]. clear REST. unfold csc_val in *.
  assert (Dec : (csc_canonical a /\ csc_canonical b) \/ ~ (csc_canonical a /\ csc_canonical b)).
  { destruct (csc_canonical_dec a), (csc_canonical_dec b); tauto. }
  pose proof S as S2. apply small_app in S2 as [Sa Sb].
  assert (O : csc_at a i j ++ csc_at b i j = [] -> map real (csc_at a i j) ++ map real (csc_at b i j) = []) by (intros O; apply app_eq_nil in O as [-> ->]; reflexivity).
  destruct Dec as [C|C].
  - rewrite (H2 C i j Hi). destruct C as [C1 C2]. apply kept_total; [exact O|exact S|]. apply add_exact_at; [| |exact S];
      apply read_hd_exact; try assumption; apply canonical_short; [apply C1|apply C2]; lia.
  - rewrite (H1 C i j Hi). apply kept_total; [exact O|exact S|]. apply add_exact_at; [| |exact S]; apply read_sum_exact; assumption.
Qed.

Lemma c96_csc_subtract : forall a b r : CSC T, wf_csc I a -> wf_csc I b -> csc_rows b = csc_rows a -> csc_cols b = csc_cols a -> CSC_subtract I a b = Ok r ->
  forall i j, j < csc_cols a -> Forall fin (csc_at a i j) -> Forall fin (csc_at b i j) ->
    small_sum unit bound (map real (csc_at a i j) ++ map Qopp (map real (csc_at b i j))) -> is_sum real fin (csc_val r i j) (map real (csc_at a i j) ++ map Qopp (map real (csc_at b i j))).
Proof.
  intros a b r Ha Hb D1 D2 E i j Hi Fa Fb S. destruct (c20_csc_subtract_exact I a b Ha Hb D1 D2) as [Q1 Q2].
  assert (NF : ~ csc_sum_fails I ssub a b) by (intros H; rewrite (Q1 H) in E; discriminate).
  destruct (Q2 NF) as (r' & E' & REST). assert (r' = r) by congruence. subst r'. clear Q1 Q2 E'.
  assert (H : (~ (csc_canonical a /\ csc_canonical b) -> csc_entrywise sum0 ssub a b r) /\ (csc_canonical a /\ csc_canonical b -> csc_entrywise (hd s0) ssub a b r)) by tauto.
  destruct H as [H1 H2]. clear REST. unfold csc_val in *.
  assert (Dec : (csc_canonical a /\ csc_canonical b) \/ ~ (csc_canonical a /\ csc_canonical b)).
  { destruct (csc_canonical_dec a), (csc_canonical_dec b); tauto. }
  pose proof S as S2. apply small_app in S2 as [Sa Sb]. apply small_opp in Sb.
  assert (O : csc_at a i j ++ csc_at b i j = [] -> map real (csc_at a i j) ++ map Qopp (map real (csc_at b i j)) = []) by (intros O; apply app_eq_nil in O as [-> ->]; reflexivity).
  destruct Dec as [C|C].
  - rewrite (H2 C i j Hi). destruct C as [C1 C2]. apply kept_total; [exact O|exact S|]. apply sub_exact_at; [| |exact S];
      apply read_hd_exact; try assumption; apply canonical_short; [apply C1|apply C2]; lia.
  - rewrite (H1 C i j Hi). apply kept_total; [exact O|exact S|]. apply sub_exact_at; [| |exact S]; apply read_sum_exact; assumption.
Qed.
End E.

From Coq Require Import Floats.SpecFloat.
Open Scope Q_scope.
Lemma float_exact prec emax one g : (0 < prec)%Z -> (emin prec emax <= g)%Z -> (g + 2 * prec + 2 <= emax)%Z ->
  @ExactBelow _ (scalar_float prec emax one) float_real float_fin (2 ^ g) (2 ^ (prec + g)).
Proof.
  intros Hp G1 G2.
  assert (K : forall q N, q == inject_Z N * 2 ^ g -> Qabs q <= 2 ^ (prec + g) -> (Z.abs N <= 2 ^ prec)%Z).
  { intros q N E B. rewrite E, abs_scaled, <- inj_abs, two_plus in B. apply Qmult_le_r in B; [|apply two_pos].
    rewrite <- two_inj in B by lia. rewrite Zle_Qle. exact B. }
  constructor; cbn [s0 sadd ssub smul seqb scalar_float].
  - split; [exact I|reflexivity].
  - intros [s|s| |s m e]; unfold SFeqb; cbn [SFcompare]; try discriminate; try (destruct s; discriminate). intros _. reflexivity.
  - intros x y Fx Fy [N E] B. apply (add_exact prec emax Hp g G1 G2 x y N Fx Fy (K _ _ E B) E).
  - intros x y Fx Fy [N E] B. apply (sub_exact prec emax Hp g G1 G2 x y N Fx Fy (K _ _ E B) E).
  - intros x y Fx Fy [N E] B. apply (mul_exact prec emax Hp g G1 G2 x y N Fx Fy (K _ _ E B) E).
Qed.
Lemma c96_f64 g : (-1074 <= g <= 916)%Z -> @ExactBelow f64 scalar_f64 float_real float_fin (2 ^ g) (2 ^ (53 + g)).
Proof. intros H. apply (float_exact 53 1024 (S754_finite false 4503599627370496 (-52)) g); unfold emin; lia. Qed.
Lemma c96_f32 g : (-149 <= g <= 78)%Z -> @ExactBelow spec_float scalar_f32 float_real float_fin (2 ^ g) (2 ^ (24 + g)).
Proof. intros H. apply (float_exact 24 128 (S754_finite false 8388608 (-23)) g); unfold emin; lia. Qed.

From Verif Require Import SpecHom Main_hom.
Lemma of_Z_exact z : (Z.abs z <= 2 ^ 53)%Z -> float_fin (f64_of_Z z) /\ float_real (f64_of_Z z) == inject_Z z.
Proof.
  intros H. unfold f64_of_Z. destruct (normalize_exact 53 1024 ltac:(lia) 0 ltac:(unfold emin; lia) ltac:(lia) z 0 false z H ltac:(reflexivity)) as [A B].
  split; [exact A|]. rewrite B. change (2 ^ 0) with 1. ring.
Qed.
Lemma sum0_Z l : @sum0 Z scalar_Z l = fold_right Z.add 0%Z l.
Proof.
  assert (H : forall l a, fold_left Z.add l a = (a + fold_right Z.add 0 l)%Z).
  { clear l. induction l as [|x l IH]; intros a; cbn [fold_left fold_right]; [lia|]. rewrite IH. lia. }
  exact (H l 0%Z).
Qed.
Lemma qsum_Z l : qsum (map inject_Z l) == inject_Z (fold_right Z.add 0%Z l).
Proof. induction l as [|x l IH]; [reflexivity|]. cbn [map fold_right]. rewrite qsum_cons, IH, inject_Z_plus. reflexivity. Qed.
Lemma qsum_ext {A} (f g : A -> Q) l : (forall a, In a l -> f a == g a) -> qsum (map f l) == qsum (map g l).
Proof.
  intros H. induction l as [|x l IH]; [reflexivity|]. cbn [map]. rewrite !qsum_cons, (H x (or_introl eq_refl)), IH; [reflexivity|]. intros a Ha. apply H. right. exact Ha.
Qed.
Lemma c96_integers I (m : CSR Z) (x : list Z) : wf_csr I m -> length x = csr_cols m ->
  (forall z, In z (csr_values m) \/ In z x -> (Z.abs z <= 2 ^ 53)%Z) ->
  exists y yf, CSR_mat_vec m x = Ok y /\ CSR_mat_vec (csr_map f64_of_Z m) (map f64_of_Z x) = Ok yf /\
    forall i, (i < csr_rows m)%nat -> (row_weight m x i <= 2 ^ 53)%Z ->
      float_fin (nth i yf s0) /\ float_real (nth i yf s0) == inject_Z (nth i y 0%Z).
Proof.
  intros Hm Hx B.
  assert (Hm' : wf_csr I (csr_map f64_of_Z m)).
  { unfold wf_csr, csr_map in *. cbn [csr_rows csr_cols csr_rowptr csr_colidx csr_values]. destruct Hm. constructor; try assumption. rewrite map_length. assumption. }
  destruct (proj2 (c15_csr_mat_vec I m x Hm) Hx) as (y & E & _ & H).
  destruct (c96_csr_mat_vec (c96_f64 0 ltac:(lia)) I (csr_map f64_of_Z m) (map f64_of_Z x) Hm') as (yf & Ef & _ & Hf); [rewrite map_length; exact Hx|].
  exists y, yf. split; [exact E|]. split; [exact Ef|]. intros i Hi W.
  assert (ER : csr_row (csr_map f64_of_Z m) i = map (fun e => (fst e, f64_of_Z (snd e))) (csr_row m i)) by apply map_row.
  assert (RO : forall e, In e (csr_row m i) -> (Z.abs (snd e) <= 2 ^ 53)%Z).
  { intros e He. apply B. left. refine (proj1 (Forall_forall (fun v => In v (csr_values m)) (csr_values m)) _ _ _).
    - apply Forall_forall. trivial.
    - unfold csr_row in He. destruct e as [k v]. apply in_combine_r in He. unfold part in He. cbn [snd].
      set (a := ptr _ i) in *. set (n := (ptr _ (S i) - a)%nat) in *. rewrite <- (firstn_skipn a (csr_values m)). apply in_or_app. right.
      rewrite <- (firstn_skipn n (skipn a (csr_values m))). apply in_or_app. left. exact He. }
  assert (XO : forall k, float_fin (nth k (map f64_of_Z x) s0) /\ float_real (nth k (map f64_of_Z x) s0) == inject_Z (nth k x 0%Z)).
  { intros k. change (@s0 f64 scalar_f64) with (f64_of_Z 0). rewrite map_nth. apply of_Z_exact.
    destruct (lt_dec k (length x)); [apply B; right; apply nth_In; assumption|rewrite nth_overflow by lia; discriminate]. }
  set (tz := map (fun e => (snd e * nth (fst e) x 0)%Z) (csr_row m i)).
  assert (TE : forall f : Q -> Q, (forall a b, a == b -> f a == f b) -> qsum (map f (csr_terms float_real (csr_map f64_of_Z m) (map f64_of_Z x) i)) == qsum (map f (map inject_Z tz))).
  { intros f Pf. unfold csr_terms, tz. change spec_float with f64. rewrite ER, !map_map. apply qsum_ext. intros e He. cbn [fst snd]. apply Pf.
    rewrite (proj2 (of_Z_exact _ (RO e He))), (proj2 (XO (fst e))), inject_Z_mult. reflexivity. }
  destruct (Hf i Hi) as [F V].
  - change spec_float with f64. rewrite ER. intros e He. apply in_map_iff in He as (e' & <- & He). cbn [fst snd]. split; [apply of_Z_exact, RO, He|apply XO].
  - split.
    + apply Forall_forall. intros t Ht. unfold csr_terms in Ht. change spec_float with f64 in Ht. rewrite ER, map_map in Ht. apply in_map_iff in Ht as (e & <- & He). cbn [fst snd].
      exists (snd e * nth (fst e) x 0)%Z. rewrite (proj2 (of_Z_exact _ (RO e He))), (proj2 (XO (fst e))), inject_Z_mult. change (2 ^ 0) with 1. ring.
    + unfold qsum_abs. rewrite (TE Qabs) by (intros a b Q; rewrite Q; reflexivity).
      assert (EA : map Qabs (map inject_Z tz) = map inject_Z (map Z.abs tz)) by (rewrite !map_map; apply map_ext; intros; reflexivity).
      rewrite EA, qsum_Z. unfold tz. rewrite map_map. fold (row_weight m x i). change (2 ^ (53 + 0)) with (inject_Z (2 ^ 53)). rewrite <- Zle_Qle. exact W.
  - split; [exact F|]. change 0%Z with (@s0 Z scalar_Z). rewrite V, (H i Hi), sum0_Z. pose proof (TE (fun q => q) ltac:(auto)) as TI. rewrite !map_id in TI. rewrite TI, qsum_Z. reflexivity.
Qed.
