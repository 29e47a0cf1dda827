(** Proofs of the theorems of Props_addition.v, under the same names in lower case. *)
From Verif Require Import Rust Scalar Model_kernels Model_matrix Spec SpecBoundary Wp Rep CanonProofs ConvProofs LinkProofs BinopProofs BinopExact ArithProofs TableProofs Main_boundary MismatchProofs PanicProofs.

Section Kernel.
Context {T : Type} {SC : Scalar T}.
Variable I : ity.

(** lengths of sets given by different lists *)
Lemma same_length (M N : list nat) : NoDup M -> NoDup N -> (forall k, In k M <-> In k N) -> length M = length N.
Proof. intros HM HN H. apply Nat.le_antisymm; apply NoDup_incl_length; try assumption; intros k Hk; apply H, Hk. Qed.
Lemma used_in (r s : list (nat * T)) k : In k (used r s) <-> In k (map fst r) \/ In k (map fst s).
Proof. unfold used. rewrite nodup_In, in_app_iff. tauto. Qed.
Lemma used_nodup (r s : list (nat * T)) : NoDup (used r s).
Proof. apply NoDup_nodup. Qed.
Lemma emit_length {T2} {NZ : Nonzero T2} (g : nat -> T2) M : length (emit g M) = length (filter (fun k => nonzero (g k)) M).
Proof. rewrite <- emit_fst, map_length. reflexivity. Qed.
Lemma binrow_length {T2} {NZ : Nonzero T2} (g : nat -> T2) ra rb (row : list (nat * T2)) : binrow g ra rb row ->
  length row = length (filter (fun k => nonzero (g k)) (@used T ra rb)).
Proof.
  intros (M & HN & HM & ->). rewrite emit_length. apply same_length; [apply NoDup_filter, HN|apply NoDup_filter, used_nodup|].
  intros k. rewrite !filter_In, HM, used_in. tauto.
Qed.
Lemma filter_subset_le (P : nat -> bool) (M N : list nat) : NoDup M -> (forall k, In k M -> In k N) -> length (filter P M) <= length (filter P N).
Proof.
  intros HM H. apply NoDup_incl_length; [apply NoDup_filter, HM|]. intros k Hk. apply filter_In in Hk as [H1 H2]. apply filter_In. auto.
Qed.
Lemma concat_count {A} (R : list (list A)) n (w : nat -> nat) : length R = n -> (forall q, q < n -> length (nth q R []) = w q) ->
  length (concat R) = list_sum (map w (seq 0 n)).
Proof.
  revert n w. induction R as [|r R IH]; intros n w L H; cbn in L; subst n; [reflexivity|].
  cbn [concat seq map list_sum fold_right]. rewrite app_length, <- seq_shift, map_map. f_equal; [apply (H 0); lia|].
  apply IH; [reflexivity|]. intros q Hq. apply (H (S q)). lia.
Qed.
Lemma sum_prefix (w : nat -> nat) i n : i < n -> list_sum (map w (seq 0 i)) + w i <= list_sum (map w (seq 0 n)).
Proof.
  intros H. replace n with (i + S (n - S i)) by lia. rewrite seq_app, map_app, list_sum_app. cbn [plus seq map].
  cbn [list_sum fold_right]. pose proof (Nat.le_0_l (fold_right Nat.add 0 (map w (seq (S i) (n - S i))))). lia.
Qed.

Context {T2 : Type} {NZ : Nonzero T2}.
Variables (f : T -> T -> T2) (n c : nat) (a_p a_j : list Z) (a_x : list T) (b_p b_j : list Z) (b_x : list T) (RA RB : list (list (nat * T))).
Hypothesis HA : crep I c a_p a_j a_x RA.
Hypothesis HB : crep I c b_p b_j b_x RB.
Hypothesis LA : length RA = n.
Hypothesis LB : length RB = n.

Variable op : T -> T -> res T2.
Hypothesis HopG : ~ both_canonical RA RB -> forall i k, i < n -> In k (map fst (nth i RA [])) \/ In k (map fst (nth i RB [])) ->
  op (sum0 (at_ k (nth i RA []))) (sum0 (at_ k (nth i RB []))) = Ok (f (sum0 (at_ k (nth i RA []))) (sum0 (at_ k (nth i RB [])))).
Hypothesis HopC : both_canonical RA RB -> forall i k, i < n -> In k (map fst (nth i RA [])) \/ In k (map fst (nth i RB [])) ->
  op (hd s0 (at_ k (nth i RA []))) (hd s0 (at_ k (nth i RB []))) = Ok (f (hd s0 (at_ k (nth i RA []))) (hd s0 (at_ k (nth i RB [])))).

Definition kern c_p c_j c_x := csr_binop_csr I op n c a_p a_j a_x b_p b_j b_x c_p c_j c_x.
Let ra i := nth i RA [].
Let rb i := nth i RB [].
Let g rd i k := f (rd (at_ k (ra i))) (rd (at_ k (rb i))).
Definition too_many rd : Prop := (imax I < Z.of_nat (kept_count rd f n ra rb))%Z.
Definition rep_fails : Prop :=
  stuck I RA \/ both_canonical RA RB /\ (stuck I RB \/ too_many (hd s0)) \/ ~ both_canonical RA RB /\ (crowded I n ra rb \/ too_many sum0).

Lemma over_row rd i R M : i < n -> length R = i -> (forall q, q < i -> binrow (g rd q) (ra q) (rb q) (nth q R [])) ->
  NoDup M -> (forall k, In k M -> In k (map fst (ra i)) \/ In k (map fst (rb i))) ->
  (imax I < Z.of_nat (length (concat R ++ emit (g rd i) M)))%Z -> too_many rd.
Proof.
  intros Hi LR HR HN HM G. unfold too_many, kept_count. set (w := fun i => _).
  rewrite app_length, emit_length, (concat_count R i w LR) in G by (intros q Hq; apply (binrow_length _ _ _ _ (HR q Hq))).
  pose proof (sum_prefix w i n Hi) as G1.
  pose proof (filter_subset_le (fun k => nonzero (g rd i k)) M (used (ra i) (rb i)) HN ltac:(intros k Hk; apply used_in, HM, Hk)) as G2.
  change (length (filter (fun k => nonzero (g rd i k)) (used (ra i) (rb i)))) with (w i) in G2. lia.
Qed.
Lemma result_count rd (R : list (list (nat * T2))) : length R = n -> (forall q, q < n -> binrow (g rd q) (ra q) (rb q) (nth q R [])) ->
  (Z.of_nat (length (concat R)) <= imax I)%Z -> ~ too_many rd.
Proof.
  intros LR HR HF G. unfold too_many, kept_count in G. set (w := fun i => _) in G.
  rewrite (concat_count R n w LR) in HF by (intros q Hq; apply (binrow_length _ _ _ _ (HR q Hq))). lia.
Qed.

Definition kern_post (cj0 cx0 : nat) '(p, j, x) : Prop :=
    length j = cj0 /\ length x = cx0 /\
    exists R : list (list (nat * T2)), length R = n /\ crep I c p j x R /\
      (forall i, i < n -> binrow (fun k => f (rd RA RB (at_ k (nth i RA []))) (rd RA RB (at_ k (nth i RB [])))) (nth i RA []) (nth i RB []) (nth i R [])) /\
      (both_canonical RA RB -> Forall canonical_row R).

Lemma kern_exact c_p c_j c_x : length c_p = S n ->
  length (concat RA) + length (concat RB) <= length c_j -> length (concat RA) + length (concat RB) <= length c_x ->
  (rep_fails -> kern c_p c_j c_x = Panic) /\ (~ rep_fails -> wp (kern c_p c_j c_x) (kern_post (length c_j) (length c_x))).
Proof.
  intros LP LJ LX.
  assert (HG : ~ both_canonical RA RB -> pw (crowded I n ra rb \/ too_many sum0)
     (csr_binop_csr_general I op n c a_p a_j a_x b_p b_j b_x c_p c_j c_x)
     (fun r => kern_post (length c_j) (length c_x) r /\ ~ (crowded I n ra rb \/ too_many sum0))).
  { intros NB. eapply pw_mono; [apply (binop_general_pw I op c n _ _ _ _ _ _ RA RB (g sum0) HA HB LA LB) with (c_p := c_p) (c_j := c_j) (c_x := c_x); try assumption|].
    - intros i R M Hi LR HR HN HM G. right. apply (over_row sum0 i R M); assumption.
    - intros i M Hi HN HM G. left. exists i. split; [exact Hi|].
      pose proof (NoDup_incl_length (l := M) (l' := used (ra i) (rb i)) HN ltac:(intros k Hk; apply used_in, HM, Hk)). lia.
    - intros i k Hi Hk. apply HopG; assumption.
    - intros [[p j] x] (Lj & Lx & R & LR & HR & Hrow). split.
      + unfold kern_post. split; [exact Lj|]. split; [exact Lx|]. exists R. split; [exact LR|]. split; [exact HR|]. split; [|intros C; contradiction].
        intros i Hi. unfold rd. destruct (both_dec RA RB); [contradiction|]. apply (xrow_binrow I _ _ _ _ (Hrow i Hi)).
      + intros [(i & Hi & G)|G].
        * destruct (Hrow i Hi) as (M & HN & HM & _ & HF). rewrite (same_length (used (ra i) (rb i)) M (used_nodup _ _) HN) in G; [lia|].
          intros k. rewrite used_in, HM. tauto.
        * revert G. apply (result_count sum0 R LR); [intros q Hq; apply (xrow_binrow I _ _ _ _ (Hrow q Hq))|apply (cr_fit _ _ _ _ _ _ HR)]. }
  assert (HC : both_canonical RA RB -> pw (too_many (hd s0))
     (csr_binop_csr_canonical I op n c a_p a_j a_x b_p b_j b_x c_p c_j c_x)
     (fun r => kern_post (length c_j) (length c_x) r /\ ~ too_many (hd s0))).
  { intros BC. pose proof BC as [CA CB]. rewrite (nth_Forall _ _ []) in CA. rewrite (nth_Forall _ _ []) in CB.
    eapply pw_mono; [apply (binop_canonical_pw I op c n _ _ _ _ _ _ RA RB (g (hd s0)) HA HB LA LB) with (c_p := c_p) (c_j := c_j) (c_x := c_x); try assumption|].
    - intros i R M Hi LR HR HN HM G. apply (over_row (hd s0) i R M); assumption.
    - intros i Hi. apply CA. lia.
    - intros i Hi. apply CB. lia.
    - intros i k Hi Hk. apply HopC; assumption.
    - intros [[p j] x] (Lj & Lx & R & LR & HR & Hrow). split.
      + unfold kern_post. split; [exact Lj|]. split; [exact Lx|]. exists R. split; [exact LR|]. split; [exact HR|]. split.
        * intros i Hi. unfold rd. destruct (both_dec RA RB); [|contradiction]. apply (mrow_binrow _ _ _ _ (Hrow i Hi)).
        * intros _. apply (nth_Forall _ _ []). intros i Hi. destruct (Hrow i ltac:(lia)) as (M & HM & _ & ->). apply emit_sorted, HM.
      + apply (result_count (hd s0) R LR); [intros q Hq; apply (mrow_binrow _ _ _ _ (Hrow q Hq))|apply (cr_fit _ _ _ _ _ _ HR)]. }
  assert (DA : stuck I RA \/ ~ stuck I RA).
  { unfold stuck. rewrite last_empty_nth. destruct (Z.eq_dec (Z.of_nat (length (concat RA))) (imax I)); [|right; tauto].
    destruct (Forall_dec canonical_row canonical_row_dec RA); [|right; tauto]. destruct (lt_dec 0 (length RA)); [|right; tauto].
    destruct (nth (length RA - 1) RA []) as [|e0 l0]; [left; tauto|right; intros (_ & _ & _ & Q); discriminate]. }
  assert (DB : stuck I RB \/ ~ stuck I RB).
  { unfold stuck. rewrite last_empty_nth. destruct (Z.eq_dec (Z.of_nat (length (concat RB))) (imax I)); [|right; tauto].
    destruct (Forall_dec canonical_row canonical_row_dec RB); [|right; tauto]. destruct (lt_dec 0 (length RB)); [|right; tauto].
    destruct (nth (length RB - 1) RB []) as [|e0 l0]; [left; tauto|right; intros (_ & _ & _ & Q); discriminate]. }
  unfold rep_fails, kern, csr_binop_csr. destruct DA as [SA|NA].
  { rewrite (stuck_panics I _ _ _ _ _ _ HA LA SA). cbn [bind]. split; [reflexivity|tauto]. }
  destruct (has_canonical_exact I _ _ _ _ _ _ HA LA NA) as (ba & Ea & Ha). rewrite Ea. cbn [bind].
  assert (GG : ~ both_canonical RA RB -> forall m, m = csr_binop_csr_general I op n c a_p a_j a_x b_p b_j b_x c_p c_j c_x ->
    ((stuck I RA \/ both_canonical RA RB /\ (stuck I RB \/ too_many (hd s0)) \/ ~ both_canonical RA RB /\ (crowded I n ra rb \/ too_many sum0)) -> m = Panic) /\
    (~ (stuck I RA \/ both_canonical RA RB /\ (stuck I RB \/ too_many (hd s0)) \/ ~ both_canonical RA RB /\ (crowded I n ra rb \/ too_many sum0)) ->
      wp m (kern_post (length c_j) (length c_x)))).
  { intros NB m ->. destruct (HG NB) as [[E G]|(r & E & G1 & G2)]; rewrite E; [tauto|]. split; [tauto|]. intros _. apply wp_ok, G1. }
  destruct ba; cbn [bind].
  - destruct DB as [SB|NB].
    { rewrite (stuck_panics I _ _ _ _ _ _ HB LB SB). cbn [bind]. split; [reflexivity|]. intros G. exfalso. apply G. right. left. split; [|tauto].
      split; [tauto|exact (proj1 (proj2 SB))]. }
    destruct (has_canonical_exact I _ _ _ _ _ _ HB LB NB) as (bb & Eb & Hb). rewrite Eb. cbn [bind]. destruct bb.
    + assert (BC : both_canonical RA RB) by (split; tauto).
      destruct (HC BC) as [[E G]|(r & E & G1 & G2)]; rewrite E; [tauto|]. split; [tauto|]. intros _. apply wp_ok, G1.
    + apply GG; [|reflexivity]. intros [_ BC]. apply Hb in BC. discriminate.
  - apply GG; [|reflexivity]. intros [BC _]. apply Ha in BC. discriminate.
Qed.
End Kernel.

Section Props.
Context {T : Type} {SC : Scalar T}.
Variable I : ity.

Lemma list_sum_ext {A} (f g : A -> nat) l : (forall x, f x = g x) -> list_sum (map f l) = list_sum (map g l).
Proof. intros H. rewrite (map_ext _ _ H). reflexivity. Qed.
Lemma kept_count_ext {T2} {NZ : Nonzero T2} rd (f : T -> T -> T2) n (ra rb sa sb : nat -> list (nat * T)) : (forall i, ra i = sa i) -> (forall i, rb i = sb i) ->
  kept_count rd f n ra rb = kept_count rd f n sa sb.
Proof. intros H1 H2. unfold kept_count. apply list_sum_ext. intros i. rewrite H1, H2. reflexivity. Qed.
Lemma crowded_ext n (ra rb sa sb : nat -> list (nat * T)) : (forall i, ra i = sa i) -> (forall i, rb i = sb i) ->
  crowded I n ra rb <-> crowded I n sa sb.
Proof. intros H1 H2. unfold crowded. split; intros (i & Hi & G); exists i; rewrite ?H1, ?H2 in *; auto. Qed.
Lemma csr_fails_rep {T2} {NZ : Nonzero T2} (f : T -> T -> T2) (a b : CSR T) RA RB : csr_rep I a RA -> csr_rep I b RB ->
  csr_sum_fails I f a b <-> rep_fails I f (csr_rows a) RA RB.
Proof.
  intros HA HB. unfold csr_sum_fails, rep_fails, too_many. rewrite (csr_full_rep I a RA HA), (csr_full_rep I b RB HB), <- (both_csr I a b RA RB HA HB).
  pose proof (fun i => csr_rep_row _ _ _ i HA) as EA. pose proof (fun i => csr_rep_row _ _ _ i HB) as EB.
  rewrite !(kept_count_ext _ f (csr_rows a) _ _ _ _ EA EB), (crowded_ext _ _ _ _ _ EA EB). tauto.
Qed.
Lemma csc_fails_rep {T2} {NZ : Nonzero T2} (f : T -> T -> T2) (a b : CSC T) RA RB : csc_rep I a RA -> csc_rep I b RB ->
  csc_sum_fails I f a b <-> rep_fails I f (csc_cols a) RA RB.
Proof.
  intros HA HB. unfold csc_sum_fails, rep_fails, too_many. rewrite (csc_full_rep I a RA HA), (csc_full_rep I b RB HB), <- (both_csc I a b RA RB HA HB).
  pose proof (fun i => csc_rep_col _ _ _ i HA) as EA. pose proof (fun i => csc_rep_col _ _ _ i HB) as EB.
  rewrite !(kept_count_ext _ f (csc_cols a) _ _ _ _ EA EB), (crowded_ext _ _ _ _ _ EA EB). tauto.
Qed.

Lemma csr_op_exact f (a b : CSR T) : wf_csr I a -> wf_csr I b -> csr_rows b = csr_rows a -> csr_cols b = csr_cols a ->
  (csr_sum_fails I f a b -> csr_op I f a b = Panic) /\ (~ csr_sum_fails I f a b -> exists r, csr_op I f a b = Ok r /\ sum_result I f a b r).
Proof.
  intros WA WB Er Ec. destruct (wf_csr_rep _ _ WA) as [RA RPA], (wf_csr_rep _ _ WB) as [RB RPB].
  rewrite (csr_fails_rep f a b RA RB RPA RPB). unfold csr_op. rewrite (CSR_nnz_rep _ _ _ RPA), (CSR_nnz_rep _ _ _ RPB). cbn [bind].
  pose proof RPA as [LA HA]. pose proof RPB as [LB HB]. rewrite Ec in HB. rewrite Er in LB.
  destruct (kern_exact I f (csr_rows a) (csr_cols a) _ _ _ _ _ _ RA RB HA HB LA LB (fun u v => Ok (f u v)) ltac:(reflexivity) ltac:(reflexivity) (repeat 0%Z (csr_rows a + 1))
    (repeat 0%Z (length (concat RA) + length (concat RB))) (repeat s0 (length (concat RA) + length (concat RB)))
    ltac:(rewrite repeat_length; lia) ltac:(rewrite repeat_length; lia) ltac:(rewrite repeat_length; lia)) as [K1 K2]. unfold kern in K1, K2.
  split; [intros G; rewrite (K1 G); reflexivity|]. intros G. destruct (K2 G) as ([[p j] x] & E & Lj & Lx & R & LR & HR & Hrow & Hcan).
  rewrite E. cbn [bind]. rewrite (CSR_new_rep _ _ _ _ _ _ _ HR LR). cbn [unwrap]. eexists. split; [reflexivity|].
  apply (sum_post_result I f a b RA RB _ RPA RPB). unfold sum_post. cbn [csr_rows csr_cols csr_colidx csr_values].
  rewrite (csr_rep_count I a RA RPA), (csr_rep_count I b RB RPB). rewrite repeat_length in Lj, Lx.
  sp; try assumption. exists R. sp; try assumption; split; assumption.
Qed.

Definition csc_op_trim (f : T -> T -> T) (a x : CSC T) : res (CSC T) :=
  if negb (csc_rows x =? csc_rows a) || negb (csc_cols x =? csc_cols a) then Err EDim else
  let* na := CSC_nnz a in
  let* nx := CSC_nnz x in
  let maxnnz := na + nx in
  let* '(colptr, rowidx, values) :=
    csr_binop_csr I (fun x y => Ok (f x y)) (csc_cols a) (csc_rows a) (csc_colptr a) (csc_rowidx a) (csc_values a)
      (csc_colptr x) (csc_rowidx x) (csc_values x)
      (repeat 0%Z (length (csc_colptr a))) (repeat 0%Z maxnnz) (repeat s0 maxnnz) in
  let* newnnz := pget colptr (csc_cols a) in
  let* rowidx := vslice rowidx 0 newnnz in
  let* values := vslice values 0 newnnz in
  CSC_new (csc_rows a) (csc_cols a) rowidx colptr values.
Lemma csc_trim_exact f (a b : CSC T) : wf_csc I a -> wf_csc I b -> csc_rows b = csc_rows a -> csc_cols b = csc_cols a ->
  (csc_sum_fails I f a b -> csc_op_trim f a b = Panic) /\
  (~ csc_sum_fails I f a b -> exists r, csc_op_trim f a b = Ok r /\ csc_tight r /\ csc_sum_result I f a b r).
Proof.
  intros WA WB Er Ec. destruct (wf_csc_rep _ _ WA) as [RA RPA], (wf_csc_rep _ _ WB) as [RB RPB].
  rewrite (csc_fails_rep f a b RA RB RPA RPB). unfold csc_op_trim. rewrite Er, Ec, !Nat.eqb_refl. cbn [negb orb].
  rewrite (CSC_nnz_rep _ _ _ RPA), (CSC_nnz_rep _ _ _ RPB). cbn [bind].
  pose proof RPA as [LA HA]. pose proof RPB as [LB HB]. rewrite Er in HB. rewrite Ec in LB.
  destruct (kern_exact I f (csc_cols a) (csc_rows a) _ _ _ _ _ _ RA RB HA HB LA LB (fun u v => Ok (f u v)) ltac:(reflexivity) ltac:(reflexivity) (repeat 0%Z (length (csc_colptr a)))
    (repeat 0%Z (length (concat RA) + length (concat RB))) (repeat s0 (length (concat RA) + length (concat RB)))
    ltac:(rewrite repeat_length, (cr_len _ _ _ _ _ _ HA); lia) ltac:(rewrite repeat_length; lia) ltac:(rewrite repeat_length; lia)) as [K1 K2]. unfold kern in K1, K2.
  split; [intros G; rewrite (K1 G); reflexivity|]. intros G. destruct (K2 G) as ([[p j] x] & E & Lj & Lx & R & LR & HR & Hrow & Hcan).
  rewrite E. cbn [bind].
  pose proof (bptr_start p R R [] (cr_ptr _ _ _ _ _ _ HR) (eq_sym (app_nil_r R))) as GP. rewrite LR in GP. rewrite GP. cbn [bind].
  pose proof (crep_len_j _ _ _ _ _ _ HR). pose proof (crep_len_x _ _ _ _ _ _ HR).
  rewrite !vslice_ok by lia. cbn [bind skipn]. rewrite Nat.sub_0_r.
  rewrite (CSC_new_rep _ _ _ _ _ _ _ (crep_resize _ _ _ _ _ _ HR) LR). eexists. split; [reflexivity|].
  match goal with |- csc_tight ?r /\ _ => assert (RR : csc_rep I r R) by (split; [exact LR|apply (crep_resize _ _ _ _ _ _ HR)]) end.
  split.
  - split; rewrite (csc_rep_count _ _ _ RR); cbn [csc_rowidx csc_values]; rewrite firstn_length; lia.
  - apply (csc_sum_post_result I f a b) with (RA := RA) (RB := RB) (R := R); [exact RPA|exact RPB|reflexivity|reflexivity|exact RR|exact Hrow|exact Hcan].
Qed.
Lemma csc_op_exact f (a b : CSC T) : wf_csc I a -> wf_csc I b -> csc_rows b = csc_rows a -> csc_cols b = csc_cols a ->
  (csc_sum_fails I f a b -> csc_op I f a b = Panic) /\
  (~ csc_sum_fails I f a b -> exists r, csc_op I f a b = Ok r /\ csc_sum_result I f a b r).
Proof.
  intros WA WB Er Ec. destruct (wf_csc_rep _ _ WA) as [RA RPA], (wf_csc_rep _ _ WB) as [RB RPB].
  rewrite (csc_fails_rep f a b RA RB RPA RPB). unfold csc_op.
  rewrite (CSC_nnz_rep _ _ _ RPA), (CSC_nnz_rep _ _ _ RPB). cbn [bind].
  pose proof RPA as [LA HA]. pose proof RPB as [LB HB]. rewrite Er in HB. rewrite Ec in LB.
  destruct (kern_exact I f (csc_cols a) (csc_rows a) _ _ _ _ _ _ RA RB HA HB LA LB (fun u v => Ok (f u v)) ltac:(reflexivity) ltac:(reflexivity) (repeat 0%Z (csc_cols a + 1))
    (repeat 0%Z (length (concat RA) + length (concat RB))) (repeat s0 (length (concat RA) + length (concat RB)))
    ltac:(rewrite repeat_length; lia) ltac:(rewrite repeat_length; lia) ltac:(rewrite repeat_length; lia)) as [K1 K2]. unfold kern in K1, K2.
  split; [intros G; rewrite (K1 G); reflexivity|]. intros G. destruct (K2 G) as ([[p j] x] & E & Lj & Lx & R & LR & HR & Hrow & Hcan).
  rewrite E. cbn [bind]. rewrite (CSC_new_rep _ _ _ _ _ _ _ HR LR). cbn [unwrap]. eexists. split; [reflexivity|].
  apply (csc_sum_post_result I f a b) with (RA := RA) (RB := RB) (R := R); [exact RPA|exact RPB|reflexivity|reflexivity|split; [exact LR|exact HR]|exact Hrow|exact Hcan].
Qed.

Lemma c19_csr_add_exact : forall a b : CSR T,
  wf_csr I a -> wf_csr I b -> csr_rows b = csr_rows a -> csr_cols b = csr_cols a ->
  (csr_sum_fails I sadd a b -> CSR_add I a b = Panic) /\
  (~ csr_sum_fails I sadd a b ->
   exists r, CSR_add I a b = Ok r /\
     wf_csr I r /\ csr_rows r = csr_rows a /\ csr_cols r = csr_cols a /\ csr_nodup r /\ csr_nonzero r /\
     (csr_canonical a /\ csr_canonical b -> csr_canonical r) /\
     (~ (csr_canonical a /\ csr_canonical b) -> csr_entrywise sum0 sadd a b r) /\
     (csr_canonical a /\ csr_canonical b -> csr_entrywise (hd s0) sadd a b r)).
Proof. exact (csr_op_exact sadd). Qed.
Lemma c19_csr_sub_exact : forall a b : CSR T,
  wf_csr I a -> wf_csr I b -> csr_rows b = csr_rows a -> csr_cols b = csr_cols a ->
  (csr_sum_fails I ssub a b -> CSR_sub I a b = Panic) /\
  (~ csr_sum_fails I ssub a b ->
   exists r, CSR_sub I a b = Ok r /\
     wf_csr I r /\ csr_rows r = csr_rows a /\ csr_cols r = csr_cols a /\ csr_nodup r /\ csr_nonzero r /\
     (csr_canonical a /\ csr_canonical b -> csr_canonical r) /\
     (~ (csr_canonical a /\ csr_canonical b) -> csr_entrywise sum0 ssub a b r) /\
     (csr_canonical a /\ csr_canonical b -> csr_entrywise (hd s0) ssub a b r)).
Proof. exact (csr_op_exact ssub). Qed.
Lemma c20_csc_add_exact : forall a b : CSC T,
  wf_csc I a -> wf_csc I b -> csc_rows b = csc_rows a -> csc_cols b = csc_cols a ->
  (csc_sum_fails I sadd a b -> CSC_add I a b = Panic) /\
  (~ csc_sum_fails I sadd a b ->
   exists r, CSC_add I a b = Ok r /\ csc_tight r /\
     wf_csc I r /\ csc_rows r = csc_rows a /\ csc_cols r = csc_cols a /\ csc_nodup r /\ csc_nonzero r /\
     (csc_canonical a /\ csc_canonical b -> csc_canonical r) /\
     (~ (csc_canonical a /\ csc_canonical b) -> csc_entrywise sum0 sadd a b r) /\
     (csc_canonical a /\ csc_canonical b -> csc_entrywise (hd s0) sadd a b r)).
Proof. exact (csc_trim_exact sadd). Qed.
Lemma c20_csc_subtract_exact : forall a b : CSC T,
  wf_csc I a -> wf_csc I b -> csc_rows b = csc_rows a -> csc_cols b = csc_cols a ->
  (csc_sum_fails I ssub a b -> CSC_subtract I a b = Panic) /\
  (~ csc_sum_fails I ssub a b ->
   exists r, CSC_subtract I a b = Ok r /\ csc_tight r /\
     wf_csc I r /\ csc_rows r = csc_rows a /\ csc_cols r = csc_cols a /\ csc_nodup r /\ csc_nonzero r /\
     (csc_canonical a /\ csc_canonical b -> csc_canonical r) /\
     (~ (csc_canonical a /\ csc_canonical b) -> csc_entrywise sum0 ssub a b r) /\
     (csc_canonical a /\ csc_canonical b -> csc_entrywise (hd s0) ssub a b r)).
Proof. exact (csc_trim_exact ssub). Qed.
Lemma c20_csc_op_add_exact : forall a b : CSC T,
  wf_csc I a -> wf_csc I b -> csc_rows b = csc_rows a -> csc_cols b = csc_cols a ->
  (csc_sum_fails I sadd a b -> CSC_op_add I a b = Panic) /\
  (~ csc_sum_fails I sadd a b ->
   exists r, CSC_op_add I a b = Ok r /\
     wf_csc I r /\ csc_rows r = csc_rows a /\ csc_cols r = csc_cols a /\ csc_nodup r /\ csc_nonzero r /\
     (csc_canonical a /\ csc_canonical b -> csc_canonical r) /\
     (~ (csc_canonical a /\ csc_canonical b) -> csc_entrywise sum0 sadd a b r) /\
     (csc_canonical a /\ csc_canonical b -> csc_entrywise (hd s0) sadd a b r)).
Proof. exact (csc_op_exact sadd). Qed.

Lemma op_exact {T2} {NZ : Nonzero T2} (op : T -> T -> res T2) (f : T -> T -> T2) (a b : CSR T) c_p c_j (c_x : list T2) :
  wf_csr I a -> wf_csr I b -> csr_rows b = csr_rows a -> csr_cols b = csr_cols a ->
  length c_p = csr_rows a + 1 -> csr_count a + csr_count b <= length c_j -> csr_count a + csr_count b <= length c_x ->
  (forall i k, i < csr_rows a -> csr_at a i k ++ csr_at b i k <> [] ->
    (~ (csr_canonical a /\ csr_canonical b) -> op (sum0 (csr_at a i k)) (sum0 (csr_at b i k)) = Ok (f (sum0 (csr_at a i k)) (sum0 (csr_at b i k)))) /\
    (csr_canonical a /\ csr_canonical b -> op (hd s0 (csr_at a i k)) (hd s0 (csr_at b i k)) = Ok (f (hd s0 (csr_at a i k)) (hd s0 (csr_at b i k))))) ->
  let run := csr_binop_csr I op (csr_rows a) (csr_cols a) (csr_rowptr a) (csr_colidx a) (csr_values a)
      (csr_rowptr b) (csr_colidx b) (csr_values b) c_p c_j c_x in
  (csr_sum_fails I f a b -> run = Panic) /\
  (~ csr_sum_fails I f a b -> exists p j x, run = Ok (p, j, x) /\
    let r := mkCSR (csr_rows a) (csr_cols a) p j x in
    wf_csr I r /\ csr_nodup r /\ (csr_canonical a /\ csr_canonical b -> csr_canonical r) /\
    (~ (csr_canonical a /\ csr_canonical b) -> csr_entrywise sum0 f a b r) /\
    (csr_canonical a /\ csr_canonical b -> csr_entrywise (hd s0) f a b r)).
Proof.
  intros WA WB Er Ec LP LJ LX Hop. destruct (wf_csr_rep _ _ WA) as [RA RPA], (wf_csr_rep _ _ WB) as [RB RPB].
  cbv zeta. rewrite (csr_fails_rep f a b RA RB RPA RPB). rewrite (csr_rep_count _ _ _ RPA), (csr_rep_count _ _ _ RPB) in LJ, LX.
  pose proof (both_csr I a b RA RB RPA RPB) as BC.
  assert (Occ : forall i j, In j (map fst (nth i RA [])) \/ In j (map fst (nth i RB [])) -> csr_at a i j ++ csr_at b i j <> []).
  { intros i j. rewrite <- !at_occ, (csr_rep_at _ _ _ _ _ RPA), (csr_rep_at _ _ _ _ _ RPB). intros H E. apply app_eq_nil in E. tauto. }
  pose proof RPA as [LA HA]. pose proof RPB as [LB HB]. rewrite Ec in HB. rewrite Er in LB.
  destruct (kern_exact I f (csr_rows a) (csr_cols a) _ _ _ _ _ _ RA RB HA HB LA LB op) with (c_p := c_p) (c_j := c_j) (c_x := c_x) as [K1 K2]; [| |lia..|].
  { intros HC i k Hi Hk. destruct (Hop i k Hi (Occ i k Hk)) as [H1 _]. rewrite (csr_rep_at _ _ _ _ _ RPA), (csr_rep_at _ _ _ _ _ RPB) in H1. apply H1. tauto. }
  { intros HC i k Hi Hk. destruct (Hop i k Hi (Occ i k Hk)) as [_ H1]. rewrite (csr_rep_at _ _ _ _ _ RPA), (csr_rep_at _ _ _ _ _ RPB) in H1. apply H1. tauto. }
  unfold kern in K1, K2.
  split; [exact K1|]. intros G. destruct (K2 G) as ([[p j] x] & E & Lj & Lx & R & LR & HR & Hrow & Hcan).
  exists p, j, x. split; [exact E|]. pose proof (crep_rect I _ _ _ _ _ _ HR LR) as RR. sp.
  - apply (csr_rep_wf _ _ _ RR).
  - intros i Hi. rewrite (csr_rep_row _ _ _ _ RR). apply (binrow_nodup _ _ _ _ (Hrow i Hi)).
  - rewrite <- (both_csr I a b RA RB RPA RPB). intros HC. exact (proj2 (csr_rep_rows canonical_row _ _ _ RR) (Hcan HC)).
  - apply (rows_entrywise I f a b _ RA RB R RPA RPB RR Hrow).
  - apply (rows_entrywise I f a b _ RA RB R RPA RPB RR Hrow).
Qed.
Lemma c46_exact : forall {T2} {NZ : Nonzero T2} (f : T -> T -> T2), kernel_exact I (csr_binop_csr I (fun u v => Ok (f u v))) f.
Proof. intros T2 NZ f a b c_p c_j c_x WA WB Er Ec LP LJ LX. apply op_exact; try assumption. intros. split; reflexivity. Qed.
Lemma c46_div_exact : forall {ZA : ZeroAdd T} (a b : CSR T) c_p c_j c_x,
  wf_csr I a -> wf_csr I b -> csr_rows b = csr_rows a -> csr_cols b = csr_cols a ->
  length c_p = csr_rows a + 1 -> csr_count a + csr_count b <= length c_j -> csr_count a + csr_count b <= length c_x ->
  seqb s0 s0 = true -> seqb s1 s0 = false -> (forall u v, sdiv u v = Panic \/ exists q, sdiv u v = Ok q) ->
  let occupied i k := i < csr_rows a /\ csr_at a i k ++ csr_at b i k <> [] in
  let run := csr_div_csr I (csr_rows a) (csr_cols a) (csr_rowptr a) (csr_colidx a) (csr_values a)
      (csr_rowptr b) (csr_colidx b) (csr_values b) c_p c_j c_x in
  ((exists i k, occupied i k /\ sdiv (csr_val a i k) (csr_val b i k) = Panic) -> run = Panic) /\
  (forall q, (forall i k, occupied i k -> sdiv (csr_val a i k) (csr_val b i k) = Ok (q (csr_val a i k) (csr_val b i k))) ->
    (csr_sum_fails I q a b -> run = Panic) /\
    (~ csr_sum_fails I q a b -> exists p j x, run = Ok (p, j, x) /\
      let r := mkCSR (csr_rows a) (csr_cols a) p j x in wf_csr I r /\ csr_nodup r /\ csr_entrywise sum0 q a b r)).
Proof.
  intros ZA a b c_p c_j c_x WA WB Er Ec LP LJ LX Z0 Z1 HD occ run.
  assert (Rd : csr_canonical a /\ csr_canonical b -> forall i k, i < csr_rows a -> hd s0 (csr_at a i k) = csr_val a i k /\ hd s0 (csr_at b i k) = csr_val b i k).
  { intros [CA CB] i k Hi. unfold csr_val, csr_at. rewrite !canonical_at_read; [split; reflexivity|apply CB; lia|apply CA, Hi]. }
  assert (Dec : (csr_canonical a /\ csr_canonical b) \/ ~ (csr_canonical a /\ csr_canonical b)).
  { destruct (wf_csr_rep _ _ WA) as [RA RPA], (wf_csr_rep _ _ WB) as [RB RPB]. rewrite <- (both_csr I a b RA RB RPA RPB). destruct (both_dec RA RB); auto. }
  assert (Ent : forall q (r : CSR T), (~ (csr_canonical a /\ csr_canonical b) -> csr_entrywise sum0 q a b r) ->
    (csr_canonical a /\ csr_canonical b -> csr_entrywise (hd s0) q a b r) -> csr_entrywise sum0 q a b r).
  { intros q r H1 H2. destruct Dec as [D|D]; [|apply H1, D]. intros i k Hi. rewrite (H2 D i k Hi). destruct (Rd D i k Hi) as [-> ->]. reflexivity. }
  split.
  - intros (i & k & [Hi Ho] & Hp).
    set (f d u v := match sdiv u v with Ok q => q | _ => d end).
    set (M d := csr_binop_csr I (fun u v => Ok (f d u v)) (csr_rows a) (csr_cols a) (csr_rowptr a) (csr_colidx a) (csr_values a)
      (csr_rowptr b) (csr_colidx b) (csr_values b) c_p c_j c_x).
    assert (HM : forall d, may run (M d)).
    { intros d. subst run M. unfold csr_div_csr. cbv beta. apply may_binop. intros u v. unfold f. destruct (HD u v) as [-> | [q ->]]; [left; reflexivity|right; reflexivity]. }
    assert (HE : forall d, M d = Panic \/ exists p j x, M d = Ok (p, j, x) /\ csr_entrywise sum0 (f d) a b (mkCSR (csr_rows a) (csr_cols a) p j x)).
    { intros d. destruct (c46_exact (f d) a b c_p c_j c_x WA WB Er Ec LP LJ LX) as [K1 K2]. fold (M d) in K1, K2.
      assert (NP : M d = Panic \/ M d <> Panic) by (destruct (M d); [right; discriminate..|left; reflexivity|right; discriminate]).
      destruct NP as [NP|NP]; [left; exact NP|right]. destruct (K2 (fun G => NP (K1 G))) as (p & j & x & E & _ & _ & _ & H1 & H2).
      exists p, j, x. split; [exact E|]. apply Ent; assumption. }
    destruct (HM s0) as [E|E]; [exact E|]. destruct (HM s1) as [E'|E']; [exact E'|].
    destruct (HE s0) as [F|(p & j & x & F & A)]; [rewrite E; exact F|]. destruct (HE s1) as [F'|(p' & j' & x' & F' & A')]; [rewrite E'; exact F'|]. exfalso.
    rewrite F in E. rewrite F' in E'. rewrite E in E'. injection E' as -> -> ->.
    pose proof (A i k Hi) as B. pose proof (A' i k Hi) as B'. rewrite B' in B. unfold f, keep in B.
    fold (csr_val a i k) in B. fold (csr_val b i k) in B. rewrite Hp in B.
    destruct (csr_at a i k ++ csr_at b i k); [contradiction|]. cbn [nonzero nonzero_scalar] in B. rewrite Z0, Z1 in B. discriminate B.
  - intros q Hq. destruct (op_exact (fun u v => sdiv u v) q a b c_p c_j c_x WA WB Er Ec LP LJ LX) as [K1 K2].
    { intros i k Hi Ho. split; [intros _; apply (Hq i k); split; assumption|]. intros D. destruct (Rd D i k Hi) as [-> ->]. apply (Hq i k). split; assumption. }
    split; [exact K1|]. intros G. destruct (K2 G) as (p & j & x & E & W & N & _ & H1 & H2). exists p, j, x. split; [exact E|].
    split; [exact W|]. split; [exact N|]. apply Ent; assumption.
Qed.
Lemma c46_kernels_exact : forall (SO : ScalarOrd T),
  kernel_exact I (csr_ne_csr I) (fun u v => negb (seqb u v)) /\
  kernel_exact I (csr_eq_csr I) seqb /\
  kernel_exact I (csr_lt_csr I) sltb /\ kernel_exact I (csr_gt_csr I) (fun u v => sltb v u) /\
  kernel_exact I (csr_le_csr I) sleb /\ kernel_exact I (csr_ge_csr I) (fun u v => sleb v u) /\
  kernel_exact I (csr_add_csr I) sadd /\ kernel_exact I (csr_sub_csr I) ssub /\
  kernel_exact I (csr_mul_csr I) smul /\
  kernel_exact I (csr_max_csr I) (fun u v => if sltb v u then u else v) /\
  kernel_exact I (csr_min_csr I) (fun u v => if sltb u v then u else v).
Proof. intros SO. repeat apply Logic.conj; apply c46_exact. Qed.
End Props.
