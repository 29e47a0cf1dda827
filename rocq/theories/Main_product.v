(** Proofs of the theorems of Props_product.v, under the same names in lower case. *)
From Verif Require Import Rust Scalar Model_kernels Model_matrix Spec SpecBoundary Wp Rep CanonProofs ConvProofs LinkProofs BinopProofs MatmatProofs BinopExact MatmatExact ArithProofs TableProofs RingProofs Lin2Proofs SpecMore StructProofs BlockProofs Main_linear MismatchProofs Main_boundary Main_convert Main_arith Main_addition Main_laws Main_fit.

Section Kernel.
Context {T : Type} {SC : Scalar T}.
Variable I : ity.
Variables (n m c : nat) (a_p a_j b_p b_j : list Z) (a_x b_x : list T) (RA RB : list (list (nat * T))).
Hypothesis HA : crep I m a_p a_j a_x RA.
Hypothesis HB : crep I c b_p b_j b_x RB.
Hypothesis LA : length RA = n.
Hypothesis LB : length RB = m.

Let met i := filter (fun k => existsb (fun e => existsb (fun f => fst f =? k) (nth (fst e) RB [])) (nth i RA [])) (seq 0 c).
Let kept i := length (filter (fun k => nonzero (gval RB (nth i RA []) k)) (met i)).
Definition prod_fails : Prop := (imax I < Z.of_nat (list_sum (map kept (seq 0 n))))%Z.

Lemma pcols_lt ra k : In k (pcols RB ra) -> k < c.
Proof. intros Hk. apply (pcols_bound I c b_p b_j b_x [ra] RB HB ra k); [left; reflexivity|exact Hk]. Qed.
Lemma met_in i k : In k (met i) <-> In k (pcols RB (nth i RA [])).
Proof.
  unfold met. rewrite filter_In, in_seq. split.
  - intros [_ Hk]. apply existsb_exists in Hk as (e & He & Hk). apply existsb_exists in Hk as (f & Hf & Ek). apply Nat.eqb_eq in Ek.
    unfold pcols. apply in_flat_map. exists e. split; [exact He|]. apply in_map_iff. exists f. auto.
  - intros Hk. split; [pose proof (pcols_lt _ _ Hk); lia|]. unfold pcols in Hk. apply in_flat_map in Hk as (e & He & Hk). apply in_map_iff in Hk as (f & <- & Hf).
    apply existsb_exists. exists e. split; [exact He|]. apply existsb_exists. exists f. split; [exact Hf|apply Nat.eqb_refl].
Qed.
Lemma met_nodup i : NoDup (met i).
Proof. apply NoDup_filter, seq_NoDup. Qed.
Lemma row_fits ra : (Z.of_nat (rowcount RB ra) <= imax I)%Z.
Proof.
  pose proof (cr_fit _ _ _ _ _ _ HB) as F. enough (rowcount RB ra <= length (concat RB)) by lia. unfold rowcount.
  rewrite <- (map_length fst (concat RB)). apply NoDup_incl_length; [apply touches_nodup; constructor|].
  intros k Hk. apply in_touches in Hk as [[]|Hk]. unfold pcols in Hk. apply in_flat_map in Hk as (e & _ & Hk). apply in_map_iff in Hk as (f & <- & Hf).
  apply in_map, in_concat. exists (nth (fst e) RB []). split; [|exact Hf].
  apply nth_In. destruct (Nat.lt_ge_cases (fst e) (length RB)) as [Hl|Hl]; [exact Hl|]. rewrite nth_overflow in Hf by exact Hl. destruct Hf.
Qed.
Lemma matrow_kept i row : matrow RB (nth i RA []) row -> length row = kept i.
Proof.
  intros (M & HN & HM & ->). rewrite emit_length. unfold kept. apply same_length; [apply NoDup_filter, HN|apply NoDup_filter, met_nodup|].
  intros k. rewrite !filter_In, HM, met_in. tauto.
Qed.

Lemma over_matrow i R M : i < n -> length R = i -> (forall q, q < i -> matrow RB (nth q RA []) (nth q R [])) ->
  NoDup M -> (forall k, In k M -> In k (pcols RB (nth i RA []))) ->
  (imax I < Z.of_nat (length (concat R ++ emit (gval RB (nth i RA [])) M)))%Z -> prod_fails.
Proof.
  intros Hi LR HR HN HM G. unfold prod_fails.
  rewrite app_length, emit_length, (concat_count R i kept LR) in G by (intros q Hq; apply (matrow_kept _ _ (HR q Hq))).
  pose proof (sum_prefix kept i n Hi) as G1.
  pose proof (filter_subset_le (fun k => nonzero (gval RB (nth i RA []) k)) M (met i) HN ltac:(intros k Hk; apply met_in, HM, Hk)) as G2.
  change (length (filter (fun k => nonzero (gval RB (nth i RA []) k)) (met i))) with (kept i) in G2. lia.
Qed.
Lemma matmat_exact c_p c_j (c_x : list T) : length c_p = S n -> total RB RA <= length c_j -> total RB RA <= length c_x ->
  (prod_fails -> csr_matmat I n c a_p a_j a_x b_p b_j b_x c_p c_j c_x = Panic) /\
  (~ prod_fails -> wp (csr_matmat I n c a_p a_j a_x b_p b_j b_x c_p c_j c_x) (fun '(p, j, x) =>
    length j = length c_j /\ length x = length c_x /\
    exists R, length R = n /\ crep I c p j x R /\ forall i, i < n -> matrow RB (nth i RA []) (nth i R []))).
Proof.
  intros LP LJ LX.
  destruct (matmat_pw I n m c a_p a_j b_p b_j a_x b_x RA RB HA HB LA LB prod_fails) with (c_p := c_p) (c_j := c_j) (c_x := c_x) as [[E G]|([[p j] x] & E & G)]; try assumption.
  - intros i Hi G. pose proof (row_fits (nth i RA [])). lia.
  - apply over_matrow.
  - rewrite E. split; [reflexivity|tauto].
  - rewrite E. destruct G as (Lj & Lx & R & LR & HR & Hrow). split.
    + intros G. exfalso. unfold prod_fails in G. pose proof (cr_fit _ _ _ _ _ _ HR) as F. rewrite (concat_count R n kept LR) in F by (intros q Hq; apply (matrow_kept _ _ (proj1 (Hrow q Hq)))). lia.
    + intros _. apply wp_ok. sp; try assumption. exists R. sp; try assumption. intros i Hi. apply (Hrow i Hi).
Qed.
End Kernel.

Section Props.
Context {T : Type} {SC : Scalar T}.
Variable I : ity.

Lemma csr_products_rep (a b : CSR T) RA RB i k : csr_rep I a RA -> csr_rep I b RB -> csr_products a b i k = at_ k (prodrow RB (nth i RA [])).
Proof.
  intros HA HB. rewrite at_prodrow. unfold csr_products. rewrite (csr_rep_row _ _ _ _ HA). apply flat_map_ext. intros e. rewrite (csr_rep_at _ _ _ _ _ HB). reflexivity.
Qed.
Lemma csc_products_rep (a b : CSC T) RA RB i k : csc_rep I a RA -> csc_rep I b RB -> csc_products a b i k = at_ i (prodrow RA (nth k RB [])).
Proof.
  intros HA HB. rewrite at_prodrow. unfold csc_products. rewrite (csc_rep_col _ _ _ _ HB). apply flat_map_ext. intros e. rewrite (csc_rep_at _ _ _ _ _ HA). reflexivity.
Qed.
Lemma meets_rep (a b : CSR T) RA RB i k : csr_rep I a RA -> csr_rep I b RB ->
  meets a b i k = existsb (fun e => existsb (fun f => fst f =? k) (nth (fst e) RB [])) (nth i RA []).
Proof. intros HA HB. unfold meets. rewrite (csr_rep_row _ _ _ _ HA). apply existsb_ext. intros e. rewrite (csr_rep_row _ _ _ _ HB). reflexivity. Qed.
Lemma csc_meets_rep (a b : CSC T) RA RB i k : csc_rep I a RA -> csc_rep I b RB ->
  csc_meets a b i k = existsb (fun e => existsb (fun f => fst f =? i) (nth (fst e) RA [])) (nth k RB []).
Proof. intros HA HB. unfold csc_meets. rewrite (csc_rep_col _ _ _ _ HB). apply existsb_ext. intros e. rewrite (csc_rep_col _ _ _ _ HA). reflexivity. Qed.

Lemma csr_kept_rep (a b : CSR T) RA RB : csr_rep I a RA -> csr_rep I b RB ->
  (imax I < Z.of_nat (product_kept a b))%Z <-> prod_fails I (csr_rows a) (csr_cols b) RA RB.
Proof.
  intros HA HB. unfold prod_fails.
  assert (EK : product_kept a b = list_sum (map (fun i => length (filter (fun k => nonzero (gval RB (nth i RA []) k))
     (filter (fun k => existsb (fun e => existsb (fun f => fst f =? k) (nth (fst e) RB [])) (nth i RA [])) (seq 0 (csr_cols b))))) (seq 0 (csr_rows a)))).
  { unfold product_kept. apply list_sum_ext. intros i. f_equal. rewrite (filter_ext _ _ (fun k => meets_rep a b RA RB i k HA HB)).
    apply filter_ext. intros k. rewrite (csr_products_rep _ _ RA RB _ _ HA HB). reflexivity. }
  rewrite EK. tauto.
Qed.
Lemma csc_kept_rep (a b : CSC T) RA RB : csc_rep I a RA -> csc_rep I b RB ->
  (imax I < Z.of_nat (csc_product_kept a b))%Z <-> prod_fails I (csc_cols b) (csc_rows a) RB RA.
Proof.
  intros HA HB. unfold prod_fails.
  assert (EK : csc_product_kept a b = list_sum (map (fun i => length (filter (fun k => nonzero (gval RA (nth i RB []) k))
     (filter (fun k => existsb (fun e => existsb (fun f => fst f =? k) (nth (fst e) RA [])) (nth i RB [])) (seq 0 (csc_rows a))))) (seq 0 (csc_cols b)))).
  { unfold csc_product_kept. apply list_sum_ext. intros i. f_equal. rewrite (filter_ext _ _ (fun k => csc_meets_rep a b RA RB k i HA HB)).
    apply filter_ext. intros k. rewrite (csc_products_rep _ _ RA RB _ _ HA HB). reflexivity. }
  rewrite EK. tauto.
Qed.

Lemma c17_csr_mat_mat_exact : forall a b : CSR T,
  wf_csr I a -> wf_csr I b -> csr_cols a = csr_rows b ->
  ((imax I < Z.of_nat (product_kept a b))%Z -> CSR_mat_mat I a b = Panic /\ CSR_mul I a b = Panic) /\
  (~ (imax I < Z.of_nat (product_kept a b))%Z ->
   exists r, CSR_mat_mat I a b = Ok r /\ CSR_mul I a b = Ok r /\
     wf_csr I r /\ csr_rows r = csr_rows a /\ csr_cols r = csr_cols b /\ csr_nodup r /\ csr_nonzero r /\
     length (csr_colidx r) = product_count a b /\ length (csr_values r) = product_count a b /\
     forall i k, i < csr_rows a -> csr_at r i k = keep (csr_products a b i k) (sum0 (csr_products a b i k))).
Proof.
  intros a b WA WB E. destruct (wf_csr_rep _ _ WA) as [RA RPA], (wf_csr_rep _ _ WB) as [RB RPB].
  rewrite (csr_kept_rep a b RA RB RPA RPB), (product_count_rep _ _ _ _ _ RPA RPB). unfold CSR_mul, CSR_mat_mat. rewrite E, Nat.eqb_refl. cbn [negb].
  pose proof RPA as [LA HA]. pose proof RPB as [LB HB]. rewrite E in HA.
  rewrite (maxnnz_spec I _ _ _ _ _ _ _ _ _ _ _ HA HB LA LB). cbn [bind].
  destruct (matmat_exact I _ _ _ _ _ _ _ _ _ _ _ HA HB LA LB (repeat 0%Z (csr_rows a + 1)) (repeat 0%Z (total RB RA)) (repeat s0 (total RB RA))
    ltac:(rewrite repeat_length; lia) ltac:(rewrite repeat_length; lia) ltac:(rewrite repeat_length; lia)) as [K1 K2].
  split; [intros G; rewrite (K1 G); split; reflexivity|]. intros G. destruct (K2 G) as ([[p j] x] & EE & Lj & Lx & R & LR & HR & Hrow).
  rewrite EE. cbn [bind]. rewrite (CSR_new_rep _ _ _ _ _ _ _ HR LR). rewrite repeat_length in Lj, Lx. eexists. split; [reflexivity|]. split; [reflexivity|].
  match goal with |- wf_csr I ?r /\ _ => assert (RR : csr_rep I r R) by (split; [exact LR|exact HR]) end.
  cbn [csr_rows csr_cols csr_colidx csr_values]. sp; try assumption.
  - apply (csr_rep_wf _ _ _ RR).
  - intros i Hi. rewrite (csr_rep_row _ _ _ _ RR). apply (matrow_nodup _ _ _ (Hrow i Hi)).
  - apply (nonzero_rows I _ _ RR). intros i Hi. apply (matrow_nonzero _ _ _ (Hrow i Hi)).
  - intros i k Hi. rewrite (csr_rep_at _ _ _ _ _ RR), (matrow_keep _ _ _ _ (Hrow i Hi)), (csr_products_rep _ _ RA RB _ _ RPA RPB). reflexivity.
Qed.
Lemma c18_csc_mat_mat_exact : forall a b : CSC T,
  wf_csc I a -> wf_csc I b -> csc_cols a = csc_rows b ->
  ((imax I < Z.of_nat (csc_product_kept a b))%Z -> CSC_mat_mat I a b = Panic /\ CSC_mul I a b = Panic) /\
  (~ (imax I < Z.of_nat (csc_product_kept a b))%Z ->
   exists r, CSC_mat_mat I a b = Ok r /\ CSC_mul I a b = Ok r /\
     wf_csc I r /\ csc_rows r = csc_rows a /\ csc_cols r = csc_cols b /\ csc_nodup r /\ csc_nonzero r /\
     length (csc_rowidx r) = csc_product_count a b /\ length (csc_values r) = csc_product_count a b /\
     forall i k, k < csc_cols b -> csc_at r i k = keep (csc_products a b i k) (sum0 (csc_products a b i k))).
Proof.
  intros a b WA WB E. destruct (wf_csc_rep _ _ WA) as [RA RPA], (wf_csc_rep _ _ WB) as [RB RPB].
  rewrite (csc_kept_rep a b RA RB RPA RPB), (csc_product_count_rep _ _ _ _ _ RPA RPB). unfold CSC_mul, CSC_mat_mat. rewrite <- E, Nat.eqb_refl. cbn [negb].
  pose proof RPA as [LA HA]. pose proof RPB as [LB HB]. rewrite <- E in HB.
  unfold csc_matmat_maxnnz, csc_matmat.
  rewrite (maxnnz_spec I _ _ _ _ _ _ _ _ _ _ _ HB HA LB LA). cbn [bind].
  destruct (matmat_exact I _ _ _ _ _ _ _ _ _ _ _ HB HA LB LA (repeat 0%Z (csc_cols b + 1)) (repeat 0%Z (total RA RB)) (repeat s0 (total RA RB))
    ltac:(rewrite repeat_length; lia) ltac:(rewrite repeat_length; lia) ltac:(rewrite repeat_length; lia)) as [K1 K2].
  split; [intros G; rewrite (K1 G); split; reflexivity|]. intros G. destruct (K2 G) as ([[p j] x] & EE & Lj & Lx & R & LR & HR & Hrow).
  rewrite EE. cbn [bind]. rewrite (CSC_new_rep _ _ _ _ _ _ _ HR LR). rewrite repeat_length in Lj, Lx. eexists. split; [reflexivity|]. split; [reflexivity|].
  match goal with |- wf_csc I ?r /\ _ => assert (RR : csc_rep I r R) by (split; [exact LR|exact HR]) end.
  cbn [csc_rows csc_cols csc_rowidx csc_values]. sp; try assumption.
  - apply (csc_rep_wf _ _ _ RR).
  - intros i Hi. rewrite (csc_rep_col _ _ _ _ RR). apply (matrow_nodup _ _ _ (Hrow i Hi)).
  - apply (nonzero_cols I _ _ RR). intros i Hi. apply (matrow_nonzero _ _ _ (Hrow i Hi)).
  - intros i k Hi. rewrite (csc_rep_at _ _ _ _ _ RR), (matrow_keep _ _ _ _ (Hrow k Hi)), (csc_products_rep _ _ RA RB _ _ RPA RPB). reflexivity.
Qed.
End Props.

Section Any.
Context {T : Type} {SC : Scalar T}.
Variable I : ity.

Lemma mat_mat_any (a b p : CSR T) : wf_csr I a -> wf_csr I b -> CSR_mat_mat I a b = Ok p ->
  csr_cols a = csr_rows b /\ wf_csr I p /\ csr_rows p = csr_rows a /\ csr_cols p = csr_cols b /\ csr_nodup p /\ csr_nonzero p /\
  forall i k, i < csr_rows a -> csr_at p i k = keep (csr_products a b i k) (sum0 (csr_products a b i k)).
Proof.
  intros WA WB Ep. assert (E : csr_cols a = csr_rows b).
  { destruct (Nat.eq_dec (csr_cols a) (csr_rows b)) as [E|E]; [exact E|]. unfold CSR_mat_mat in Ep. apply Nat.eqb_neq in E. rewrite E in Ep. discriminate. }
  split; [exact E|]. destruct (c17_csr_mat_mat_exact I a b WA WB E) as [K1 K2].
  destruct K2 as (r & Er & _ & W & R1 & R2 & N & Z & _ & _ & A); [intros G; destruct (K1 G) as [G1 _]; congruence|].
  rewrite Ep in Er. injection Er as <-. sp; assumption.
Qed.
Lemma csc_mat_mat_any (a b p : CSC T) : wf_csc I a -> wf_csc I b -> CSC_mat_mat I a b = Ok p ->
  csc_cols a = csc_rows b /\ wf_csc I p /\ csc_rows p = csc_rows a /\ csc_cols p = csc_cols b /\ csc_nodup p /\ csc_nonzero p /\
  forall i k, k < csc_cols b -> csc_at p i k = keep (csc_products a b i k) (sum0 (csc_products a b i k)).
Proof.
  intros WA WB Ep. assert (E : csc_cols a = csc_rows b).
  { destruct (Nat.eq_dec (csc_cols a) (csc_rows b)) as [E|E]; [exact E|]. unfold CSC_mat_mat in Ep. apply not_eq_sym, Nat.eqb_neq in E. rewrite E in Ep. discriminate. }
  split; [exact E|]. destruct (c18_csc_mat_mat_exact I a b WA WB E) as [K1 K2].
  destruct K2 as (r & Er & _ & W & R1 & R2 & N & Z & _ & _ & A); [intros G; destruct (K1 G) as [G1 _]; congruence|].
  rewrite Ep in Er. injection Er as <-. sp; assumption.
Qed.

Lemma c53_csr_transpose_product_any : forall a b : CSR T, wf_csr I a -> wf_csr I b -> csr_cols a = csr_rows b ->
  exists ta tb, CSR_t a = Ok ta /\ CSR_t b = Ok tb /\
    (forall p, CSR_mat_mat I a b = Ok p -> CSR_t p = CSC_mat_mat I tb ta) /\ (CSR_mat_mat I a b = Panic <-> CSC_mat_mat I tb ta = Panic).
Proof.
  intros a b HA HB E. destruct (wf_csr_rep _ _ HA) as [RA RPA], (wf_csr_rep _ _ HB) as [RB RPB].
  eexists _, _. split; [apply (csr_t_rep _ _ _ RPA)|]. split; [apply (csr_t_rep _ _ _ RPB)|].
  assert (G : forall p, CSR_mat_mat I a b = Ok p -> wf_csr I p) by (intros p Ep; apply (mat_mat_any a b p HA HB Ep)).
  assert (G2 : CSC_mat_mat I (mkCSC (csr_cols b) (csr_rows b) (csr_colidx b) (csr_rowptr b) (csr_values b)) (mkCSC (csr_cols a) (csr_rows a) (csr_colidx a) (csr_rowptr a) (csr_values a)) =
     match CSR_mat_mat I a b with Ok p => Ok (mkCSC (csr_cols p) (csr_rows p) (csr_colidx p) (csr_rowptr p) (csr_values p)) | Err e => Err e | Panic => Panic | NoFuel => NoFuel end).
  { unfold CSR_mat_mat, CSC_mat_mat, csc_matmat_maxnnz, csc_matmat.
    cbn [csc_rows csc_cols csc_rowidx csc_colptr csc_values]. rewrite E, Nat.eqb_refl in *. cbn [negb] in *.
    destruct (csr_matmat_maxnnz _ _ _ _ _ _) as [k| | |]; cbn [bind]; try reflexivity.
    destruct (csr_matmat _ _ _ _ _ _ _ _ _ _ _ _) as [[[pp jj] xx]| | |]; cbn [bind]; try reflexivity.
    rewrite CSC_new_csr. unfold CSR_new.
    destruct (negb _); [unfold bad_length; destruct (Z.eqb _ _); reflexivity|]. destruct (usub _ _) as [l| | |]; cbn [bind]; try reflexivity.
    destruct (pget pp l) as [q| | |]; cbn [bind]; try reflexivity.
    destruct (length jj <? q); [reflexivity|]. destruct (length xx <? q); reflexivity. }
  split.
  - intros p Ep. destruct (wf_csr_rep _ _ (G p Ep)) as [R HR]. rewrite (csr_t_rep _ _ _ HR), G2, Ep. reflexivity.
  - rewrite G2. destruct (CSR_mat_mat I a b); split; intros; congruence.
Qed.

Lemma mixed_rep (a : CSC T) (b : CSR T) (bc : CSC T) : wf_csc I bc -> csc_rows bc = csr_rows b -> csc_cols bc = csr_cols b -> csc_sorted bc ->
  (forall i j, j < csr_cols b -> csc_at bc i j = csr_at b i j) ->
  (forall i k, k < csr_cols b -> csc_meets a bc i k = mixed_meets a b i k) /\ (forall i k, k < csr_cols b -> csc_products a bc i k = mixed_products a b i k).
Proof.
  intros Wb R1 R2 Sb Ab. split; intros i k Hk.
  - unfold csc_meets, mixed_meets. rewrite <- R1. rewrite (existsb_flat_at (csc_rows bc) _ (fun q => existsb (fun f => fst f =? i) (csc_col a q))) by (apply (csc_col_lt I); [exact Wb|lia]).
    generalize (seq 0 (csc_rows bc)). intros l. induction l as [|q l IH]; [reflexivity|]. cbn [existsb]. rewrite IH. f_equal. rewrite at_nonempty. fold (csc_at a i q). fold (csc_at bc q k). rewrite Ab by lia. reflexivity.
  - unfold csc_products, mixed_products. rewrite <- R1. rewrite (sorted_flat_at (csc_rows bc) (csc_col bc k) (fun j v => map (fun u => smul v u) (csc_at a i j))).
    + apply flat_map_ext. intros j. fold (csc_at bc j k). rewrite Ab by exact Hk. reflexivity.
    + apply Sb. congruence.
    + apply (csc_col_lt I); [exact Wb|lia].
Qed.
Lemma c60_csc_mul_csr_exact : forall (a : CSC T) (b : CSR T), wf_csc I a -> wf_csr I b -> csc_cols a = csr_rows b ->
  (~ csr_rows_fit I b \/ (imax I < Z.of_nat (mixed_kept a b))%Z -> CSC_mul_csr I a b = Panic) /\
  (~ (~ csr_rows_fit I b \/ (imax I < Z.of_nat (mixed_kept a b))%Z) ->
   exists r, CSC_mul_csr I a b = Ok r /\
     wf_csc I r /\ csc_rows r = csc_rows a /\ csc_cols r = csr_cols b /\ csc_nodup r /\ csc_nonzero r /\
     forall i k, k < csr_cols b -> csc_at r i k = keep (mixed_products a b i k) (sum0 (mixed_products a b i k))).
Proof.
  intros a b HA HB E.
  assert (D : csr_rows_fit I b \/ ~ csr_rows_fit I b).
  { destruct (Forall_dec (fun i => csr_row b i <> [] -> (Z.of_nat i <= imax I)%Z)) with (l := seq 0 (csr_rows b)) as [F|F].
    - intros i. destruct (csr_row b i); [left; congruence|]. destruct (Z_le_dec (Z.of_nat i) (imax I)); [left; auto|right; intros G; apply n, G; discriminate].
    - left. intros i Hi. rewrite Forall_forall in F. apply F, in_seq. lia.
    - right. intros G. apply F, Forall_forall. intros i Hi. apply in_seq in Hi. apply G. lia. }
  destruct D as [F|F].
  2:{ destruct (c03_csr_unfit I b HB F) as [P _]. unfold CSC_mul_csr. rewrite P. split; [reflexivity|]. intros G. exfalso. apply G. left. exact F. }
  destruct (c03_csr_to_csc I b HB F) as (bc & Eb & Wb & _ & R1 & R2 & Sb & Ab & _).
  destruct (mixed_rep a b bc Wb R1 R2 Sb Ab) as [EM EP].
  assert (EK : csc_product_kept a bc = mixed_kept a b).
  { unfold csc_product_kept, mixed_kept. rewrite R2. f_equal. apply map_ext_in. intros k Hk. apply in_seq in Hk. f_equal.
    rewrite (filter_ext _ _ (fun i => EM i k ltac:(lia))). apply filter_ext. intros i. rewrite EP by lia. reflexivity. }
  rewrite <- EK. destruct (c18_csc_mat_mat_exact I a bc HA Wb) as [K1 K2]; [congruence|]. unfold CSC_mul_csr. rewrite Eb. cbn [bind]. split.
  - intros [G|G]; [contradiction|]. destruct (K1 G) as [G1 _]. rewrite G1. reflexivity.
  - intros G. destruct K2 as (r & Er & _ & W & D1 & D2 & N & Nz & _ & _ & A); [tauto|]. rewrite Er. exists r. split; [reflexivity|]. sp; try assumption; [congruence|].
    intros i k Hk. rewrite A by congruence. rewrite EP by exact Hk. reflexivity.
Qed.
End Any.

Section Ring.
Context {T : Type} {SC : Scalar T} {SN : ScalarNeg T} {ER : ExactRing T}.
Variable I : ity.
Add Ring TR : (er_ring (T := T)).

Lemma op_any f (a b s : CSR T) : f s0 s0 = s0 -> wf_csr I a -> wf_csr I b -> csr_rows b = csr_rows a -> csr_cols b = csr_cols a -> csr_op I f a b = Ok s ->
  wf_csr I s /\ csr_rows s = csr_rows a /\ csr_cols s = csr_cols a /\ csr_entrywise sum0 f a b s /\
  forall i j, i < csr_rows a -> csr_val s i j = f (csr_val a i j) (csr_val b i j).
Proof.
  intros F0 HA HB E1 E2 Es. destruct (csr_op_exact I f a b HA HB E1 E2) as [K1 K2].
  destruct K2 as (r & Er & W & R1 & R2 & _ & _ & _ & S1 & S2); [intros G; rewrite (K1 G) in Es; discriminate|].
  rewrite Es in Er. injection Er as <-.
  assert (En : csr_entrywise sum0 f a b s).
  { destruct (wf_csr_rep _ _ HA) as [RA RPA], (wf_csr_rep _ _ HB) as [RB RPB].
    destruct (both_dec RA RB) as [B|B]; rewrite (both_csr I a b RA RB RPA RPB) in B; [|auto].
    specialize (S2 B). destruct B as [CA CB]. intros i j Hi. rewrite (S2 i j Hi). unfold csr_at. rewrite !canonical_at_read; [reflexivity|apply CB; lia|apply CA, Hi]. }
  sp; try assumption. intros i j Hi. unfold csr_val. rewrite (En i j Hi), keep_sum; [reflexivity|]. intros E. apply app_eq_nil in E as [-> ->]. rewrite sum0_nil. exact F0.
Qed.
Lemma add_any (a b s : CSR T) : wf_csr I a -> wf_csr I b -> csr_rows b = csr_rows a -> csr_cols b = csr_cols a -> CSR_add I a b = Ok s ->
  wf_csr I s /\ csr_rows s = csr_rows a /\ csr_cols s = csr_cols a /\ csr_entrywise sum0 sadd a b s /\
  forall i j, i < csr_rows a -> csr_val s i j = sadd (csr_val a i j) (csr_val b i j).
Proof. intros HA HB E1 E2 Es. apply (op_any sadd a b s); try assumption. ring. Qed.
Lemma sub_any (a b s : CSR T) : wf_csr I a -> wf_csr I b -> csr_rows b = csr_rows a -> csr_cols b = csr_cols a -> CSR_sub I a b = Ok s ->
  wf_csr I s /\ csr_rows s = csr_rows a /\ csr_cols s = csr_cols a /\ csr_entrywise sum0 ssub a b s /\
  forall i j, i < csr_rows a -> csr_val s i j = ssub (csr_val a i j) (csr_val b i j).
Proof. intros HA HB E1 E2 Es. apply (op_any ssub a b s); try assumption. ring. Qed.

Lemma c17_csr_product_any : forall (a b r : CSR T), wf_csr I a -> wf_csr I b -> CSR_mat_mat I a b = Ok r ->
  forall i k, i < csr_rows a -> csr_val r i k = rsum (csr_cols a) (fun j => smul (csr_val a i j) (csr_val b j k)).
Proof.
  intros a b r HA HB Er i k Hi. destruct (mat_mat_any I a b r HA HB Er) as (E & _ & _ & _ & _ & _ & A).
  unfold csr_val at 1. rewrite (A i k Hi), keep_sum by (intros ->; reflexivity).
  unfold csr_products. rewrite sum0_flat_map.
  transitivity (sum0 (map (fun e => smul (snd e) (csr_val b (fst e) k)) (csr_row a i))).
  - f_equal. apply map_ext. intros e. apply (sum0_map_mul_l (csr_at b (fst e) k) (snd e)).
  - apply (row_sum (csr_cols a) (csr_row a i) (fun j => csr_val b j k)).
    destruct (wf_csr_rep _ _ HA) as [RA RPA]. rewrite (csr_rep_row _ _ _ _ RPA). apply Forall_forall. intros e He.
    destruct RPA as [LA CA]. pose proof (cr_idx _ _ _ _ _ _ CA) as F. rewrite Forall_forall in F. apply F, in_concat.
    exists (nth i RA []). split; [apply nth_In; lia|exact He].
Qed.
Lemma c18_csc_product_any : forall (a b r : CSC T), wf_csc I a -> wf_csc I b -> CSC_mat_mat I a b = Ok r ->
  forall i k, k < csc_cols b -> csc_val r i k = rsum (csc_cols a) (fun j => smul (csc_val a i j) (csc_val b j k)).
Proof.
  intros a b r HA HB Er i k Hk. destruct (csc_mat_mat_any I a b r HA HB Er) as (E & _ & _ & _ & _ & _ & A).
  unfold csc_val at 1. rewrite (A i k Hk), keep_sum by (intros ->; reflexivity).
  unfold csc_products. rewrite sum0_flat_map.
  transitivity (sum0 (map (fun e => smul (snd e) (csc_val a i (fst e))) (csc_col b k))).
  - f_equal. apply map_ext. intros e. apply (sum0_map_mul_l (csc_at a i (fst e)) (snd e)).
  - rewrite (row_sum (csc_cols a) (csc_col b k) (fun j => csc_val a i j)).
    + apply rsum_ext. intros j Hj. change (smul (csc_val b j k) (csc_val a i j) = smul (csc_val a i j) (csc_val b j k)). ring.
    + destruct (wf_csc_rep _ _ HB) as [RB RPB]. rewrite (csc_rep_col _ _ _ _ RPB). apply Forall_forall. intros e He.
      destruct RPB as [LB CB]. rewrite E. pose proof (cr_idx _ _ _ _ _ _ CB) as F. rewrite Forall_forall in F. apply F, in_concat.
      exists (nth k RB []). split; [apply nth_In; lia|exact He].
Qed.
Lemma mul_any (a b p : CSR T) : wf_csr I a -> wf_csr I b -> CSR_mat_mat I a b = Ok p ->
  csr_cols a = csr_rows b /\ wf_csr I p /\ csr_rows p = csr_rows a /\ csr_cols p = csr_cols b /\
  forall i k, i < csr_rows a -> csr_val p i k = rsum (csr_cols a) (fun j => smul (csr_val a i j) (csr_val b j k)).
Proof.
  intros HA HB Ep. destruct (mat_mat_any I a b p HA HB Ep) as (E & W & R1 & R2 & _). sp; try assumption. apply (c17_csr_product_any a b p HA HB Ep).
Qed.

Lemma c53_add_mat_vec_any : forall (a b s : CSR T) x, wf_csr I a -> wf_csr I b -> csr_rows b = csr_rows a -> csr_cols b = csr_cols a ->
  CSR_add I a b = Ok s -> length x = csr_cols a ->
  exists ya yb, CSR_mat_vec a x = Ok ya /\ CSR_mat_vec b x = Ok yb /\ CSR_mat_vec s x = Ok (vplus ya yb).
Proof.
  intros a b s x HA HB E1 E2 Es Hx. destruct (add_any a b s HA HB E1 E2 Es) as (W & R1 & R2 & _ & V).
  destruct (c15_csr_mat_vec_ring I a x HA Hx) as (ya & Ea & La & Ga).
  destruct (c15_csr_mat_vec_ring I b x HB) as (yb & Eb & Lb & Gb); [congruence|].
  destruct (c15_csr_mat_vec_ring I s x W) as (y & Ey & Ly & Gy); [congruence|].
  exists ya, yb. sp; try assumption. rewrite Ey. f_equal. apply (nth_ext _ _ s0 s0); [rewrite vplus_length; congruence|].
  intros i Hi. assert (Hr : i < csr_rows a) by lia. rewrite nth_vplus by congruence. rewrite Gy, Ga, Gb by lia. rewrite R2, E2, <- rsum_add. apply rsum_ext. intros j _. rewrite V by exact Hr. ring.
Qed.
Lemma c53_mat_mat_vec_any : forall (a b p : CSR T) x, wf_csr I a -> wf_csr I b -> CSR_mat_mat I a b = Ok p -> length x = csr_cols b ->
  exists y z, CSR_mat_vec b x = Ok y /\ CSR_mat_vec a y = Ok z /\ CSR_mat_vec p x = Ok z.
Proof.
  intros a b p x HA HB Ep Hx. destruct (mul_any a b p HA HB Ep) as (E & W & R1 & R2 & V).
  destruct (c15_csr_mat_vec_ring I b x HB Hx) as (y & Ey & Ly & Gy).
  destruct (c15_csr_mat_vec_ring I a y HA) as (z & Ez & Lz & Gz); [congruence|].
  destruct (c15_csr_mat_vec_ring I p x W) as (z' & Ez' & Lz' & Gz'); [congruence|].
  exists y, z. sp; try assumption. rewrite Ez'. f_equal. apply (nth_ext _ _ s0 s0); [congruence|].
  intros i Hi. assert (Hr : i < csr_rows a) by lia. rewrite Gz, Gz' by lia. rewrite R2.
  transitivity (rsum (csr_cols b) (fun k => rsum (csr_cols a) (fun j => smul (smul (csr_val a i j) (csr_val b j k)) (nth k x s0)))).
  - apply rsum_ext. intros k _. rewrite V by exact Hr. symmetry. apply (rsum_mul_r (csr_cols a) (fun j => smul (csr_val a i j) (csr_val b j k))).
  - rewrite rsum_swap. apply rsum_ext. intros j Hj. rewrite Gy by lia. rewrite <- rsum_mul_l. apply rsum_ext. intros k _. ring.
Qed.
Lemma c53_add_comm_any : forall (a b s t : CSR T), wf_csr I a -> wf_csr I b -> csr_rows b = csr_rows a -> csr_cols b = csr_cols a ->
  CSR_add I a b = Ok s -> CSR_add I b a = Ok t -> csr_same s t /\ forall i j, i < csr_rows a -> csr_at s i j = csr_at t i j.
Proof.
  intros a b s t HA HB E1 E2 Es Et. destruct (add_any a b s HA HB E1 E2 Es) as (W & R1 & R2 & En & V).
  destruct (add_any b a t HB HA (eq_sym E1) (eq_sym E2) Et) as (W2 & S1 & S2 & Fn & U). split.
  - split; [congruence|]. split; [congruence|]. intros i j Hi. rewrite V, U by congruence. ring.
  - intros i j Hi. rewrite (En i j Hi), (Fn i j) by congruence. unfold keep.
    replace (sadd (sum0 (csr_at b i j)) (sum0 (csr_at a i j))) with (sadd (sum0 (csr_at a i j)) (sum0 (csr_at b i j))) by ring.
    destruct (csr_at a i j), (csr_at b i j); reflexivity.
Qed.
Lemma c53_add_assoc_any : forall (a b c ab bc s t : CSR T), wf_csr I a -> wf_csr I b -> wf_csr I c ->
  csr_rows b = csr_rows a -> csr_cols b = csr_cols a -> csr_rows c = csr_rows a -> csr_cols c = csr_cols a ->
  CSR_add I a b = Ok ab -> CSR_add I b c = Ok bc -> CSR_add I ab c = Ok s -> CSR_add I a bc = Ok t -> csr_same s t.
Proof.
  intros a b c ab bc s t HA HB HC E1 E2 E3 E4 E F Es Et.
  destruct (add_any a b ab) as (W & R1 & R2 & _ & V); try assumption.
  destruct (add_any b c bc) as (X & S1 & S2 & _ & U); try assumption; try congruence.
  destruct (add_any ab c s) as (Ws & P1 & P2 & _ & Vs); try assumption; try congruence.
  destruct (add_any a bc t) as (Wt & Q1 & Q2 & _ & Vt); try assumption; try congruence.
  split; [congruence|]. split; [congruence|]. intros i j Hi. rewrite Vs, Vt, V, U by congruence. ring.
Qed.
Lemma c53_sub_add_any : forall (a b d s : CSR T), wf_csr I a -> wf_csr I b -> csr_rows b = csr_rows a -> csr_cols b = csr_cols a ->
  CSR_sub I a b = Ok d -> CSR_add I d b = Ok s -> csr_same s a.
Proof.
  intros a b d s HA HB E1 E2 Ed Es. destruct (sub_any a b d) as (W & R1 & R2 & _ & V); try assumption.
  destruct (add_any d b s) as (Ws & P1 & P2 & _ & Vs); try assumption; try congruence.
  split; [congruence|]. split; [congruence|]. intros i j Hi. rewrite Vs, V by congruence. ring.
Qed.
Lemma c53_product_assoc_any : forall (a b c ab bc s t : CSR T), wf_csr I a -> wf_csr I b -> wf_csr I c ->
  CSR_mat_mat I a b = Ok ab -> CSR_mat_mat I b c = Ok bc -> CSR_mat_mat I ab c = Ok s -> CSR_mat_mat I a bc = Ok t -> csr_same s t.
Proof.
  intros a b c ab bc s t HA HB HC Eab Ebc Es Et.
  destruct (mul_any a b ab HA HB Eab) as (D1 & Wx & X1 & X2 & Vx).
  destruct (mul_any b c bc HB HC Ebc) as (D2 & Wy & Y1 & Y2 & Vy).
  destruct (mul_any ab c s Wx HC Es) as (D3 & Ws & S1 & S2 & Vs).
  destruct (mul_any a bc t HA Wy Et) as (D4 & Wt & T1 & T2 & Vt).
  split; [congruence|]. split; [congruence|]. intros i k Hi.
  rewrite Vs, Vt by congruence. rewrite X2.
  transitivity (rsum (csr_cols b) (fun j => rsum (csr_cols a) (fun l => smul (smul (csr_val a i l) (csr_val b l j)) (csr_val c j k)))).
  - apply rsum_ext. intros j _. rewrite Vx by congruence. symmetry. apply (rsum_mul_r (csr_cols a) (fun l => smul (csr_val a i l) (csr_val b l j))).
  - rewrite rsum_swap. apply rsum_ext. intros l Hl. rewrite Vy by congruence. rewrite <- rsum_mul_l. apply rsum_ext. intros j _. ring.
Qed.
Lemma c53_distributes_any : forall (a b c s ab ac l r : CSR T), wf_csr I a -> wf_csr I b -> wf_csr I c -> csr_rows c = csr_rows b -> csr_cols c = csr_cols b ->
  CSR_add I b c = Ok s -> CSR_mat_mat I a b = Ok ab -> CSR_mat_mat I a c = Ok ac -> CSR_mat_mat I a s = Ok l -> CSR_add I ab ac = Ok r -> csr_same l r.
Proof.
  intros a b c s ab ac l r HA HB HC D2 D3 Es Eab Eac El Er.
  destruct (add_any b c s HB HC D2 D3 Es) as (Ws & S1 & S2 & _ & V).
  destruct (mul_any a b ab HA HB Eab) as (D1 & Wab & X1 & X2 & Vab).
  destruct (mul_any a c ac HA HC Eac) as (D4 & Wac & Y1 & Y2 & Vac).
  destruct (mul_any a s l HA Ws El) as (D5 & Wl & L1 & L2 & Vl).
  destruct (add_any ab ac r Wab Wac) as (Wr & R1 & R2 & _ & Vr); try congruence.
  split; [congruence|]. split; [congruence|]. intros i k Hi.
  rewrite Vl, Vr, Vab, Vac by congruence. rewrite <- rsum_add. apply rsum_ext. intros j Hj. rewrite V by congruence. ring.
Qed.
Lemma c53_distributes_right_any : forall (a b c s ba ca l r : CSR T), wf_csr I a -> wf_csr I b -> wf_csr I c -> csr_rows c = csr_rows b -> csr_cols c = csr_cols b ->
  CSR_add I b c = Ok s -> CSR_mat_mat I b a = Ok ba -> CSR_mat_mat I c a = Ok ca -> CSR_mat_mat I s a = Ok l -> CSR_add I ba ca = Ok r -> csr_same l r.
Proof.
  intros a b c s ab ac l r HA HB HC D2 D3 Es Eab Eac El Er.
  destruct (add_any b c s HB HC D2 D3 Es) as (Ws & S1 & S2 & _ & V).
  destruct (mul_any b a ab HB HA Eab) as (D1 & Wab & X1 & X2 & Vab).
  destruct (mul_any c a ac HC HA Eac) as (D4 & Wac & Y1 & Y2 & Vac).
  destruct (mul_any s a l Ws HA El) as (D5 & Wl & L1 & L2 & Vl).
  destruct (add_any ab ac r Wab Wac) as (Wr & R1 & R2 & _ & Vr); try congruence.
  split; [congruence|]. split; [congruence|]. intros i k Hi.
  rewrite Vl, Vr, Vab, Vac by congruence. rewrite S2, D3. rewrite <- rsum_add. apply rsum_ext. intros j Hj. rewrite V by congruence. ring.
Qed.
End Ring.
