(** Proofs of the theorems of Props_more.v, under the same names in lower case. *)
From Verif Require Import Rust Scalar Model_kernels Model_matrix Model_dok Spec SpecMore Wp Rep ScatterProofs CanonProofs ConvProofs
  RingProofs LinProofs Lin2Proofs LinkProofs BinopProofs MatmatProofs ArithProofs PadProofs StructProofs BlockProofs TableProofs SelectProofs DokProofs
  Check Main_convert Main_linear Main_arith Main_struct Main_select Main_dok Main_laws.

Section Props.
Context {T : Type} {SC : Scalar T}.
Variable I : ity.

Lemma c70_coo : forall m : Coo T, wf_coo I m -> (Z.of_nat (length (coo_values m)) < imax I)%Z ->
  (exists r c, Coo_to_csr I m = Ok r /\ CSR_t r = Ok c /\ Coo_to_csc I (Coo_t m) = Ok c) /\
  (exists c r, Coo_to_csc I m = Ok c /\ CSC_t c = Ok r /\ Coo_to_csr I (Coo_t m) = Ok r).
Proof.
  intros m W F. destruct (c08_coo_transpose I m) as (R & C & A & W' & _). specialize (W' W).
  assert (F' : (Z.of_nat (length (coo_values (Coo_t m))) < imax I)%Z) by exact F. split.
  - destruct (c01_coo_to_csr I m W F) as (r & E & V & Tt & R1 & C1 & N & At). destruct (wf_csr_rep _ _ V) as [Rr HR].
    exists r. eexists. split; [exact E|]. split; [apply (csr_t_rep _ _ _ HR)|].
    destruct (c02_coo_to_csc I (Coo_t m) W' F') as (c & -> & V2 & T2 & R2 & C2 & N2 & At2). f_equal.
    apply (csc_canonical_unique I); try assumption; cbn; try congruence.
    intros i j Hi Hj. rewrite At2 by congruence. rewrite A. symmetry. apply At. congruence.
  - destruct (c02_coo_to_csc I m W F) as (r & E & V & Tt & R1 & C1 & N & At). destruct (wf_csc_rep _ _ V) as [Rr HR].
    exists r. eexists. split; [exact E|]. split; [apply (csc_t_rep _ _ _ HR)|].
    destruct (c01_coo_to_csr I (Coo_t m) W' F') as (c & -> & V2 & T2 & R2 & C2 & N2 & At2). f_equal.
    apply (csr_canonical_unique I); try assumption; cbn; try congruence.
    intros i j Hi Hj. rewrite At2 by congruence. rewrite A. symmetry. apply At. congruence.
Qed.
Lemma to_csc_flip (m : CSR T) c : CSR_to_csc I m = Ok c -> CSC_to_csr I (mkCSC (csr_cols m) (csr_rows m) (csr_colidx m) (csr_rowptr m) (csr_values m)) = CSC_t c.
Proof.
  unfold CSR_to_csc, CSR_nnz, CSC_to_csr, CSC_nnz. cbn [csc_rows csc_cols csc_rowidx csc_colptr csc_values].
  destruct (if length (csr_rowptr m) =? 0 then _ else _) as [n| | |]; cbn [bind]; try discriminate.
  destruct (csr_tocsc I _ _ _ (csr_colidx m) _ _ _ _) as [[[p j] x]| | |]; cbn [bind]; try discriminate.
  unfold CSC_t, CSC_new, CSR_new. destruct (negb (length p =? csr_cols m + 1)) eqn:El; [unfold bad_length; destruct (Z.eqb _ _); discriminate|].
  destruct (usub (length p) 1) as [l| | |] eqn:Eu; cbn [bind]; try discriminate.
  destruct (pget p l) as [n'| | |] eqn:Ep; cbn [bind]; try discriminate. destruct (length j <? n') eqn:Ej; [discriminate|].
  destruct (length x <? n') eqn:Ex; [discriminate|]. intros E. injection E as <-. cbn [csc_rows csc_cols csc_rowidx csc_colptr csc_values csr_rows csr_cols csr_rowptr csr_colidx csr_values]. rewrite El, Eu. cbn [bind]. rewrite Ep. cbn [bind]. rewrite Ej, Ex. reflexivity.
Qed.
Lemma to_csr_flip (m : CSC T) c : CSC_to_csr I m = Ok c -> CSR_to_csc I (mkCSR (csc_cols m) (csc_rows m) (csc_colptr m) (csc_rowidx m) (csc_values m)) = CSR_t c.
Proof.
  unfold CSR_to_csc, CSR_nnz, CSC_to_csr, CSC_nnz. cbn [csr_rows csr_cols csr_colidx csr_rowptr csr_values].
  destruct (if length (csc_colptr m) =? 0 then _ else _) as [n| | |]; cbn [bind]; try discriminate.
  destruct (csr_tocsc I _ _ _ (csc_rowidx m) _ _ _ _) as [[[p j] x]| | |]; cbn [bind]; try discriminate.
  unfold CSR_t, CSC_new, CSR_new. destruct (negb (length p =? csc_rows m + 1)) eqn:El; [unfold bad_length; destruct (Z.eqb _ _); discriminate|].
  destruct (usub (length p) 1) as [l| | |] eqn:Eu; cbn [bind]; try discriminate.
  destruct (pget p l) as [n'| | |] eqn:Ep; cbn [bind]; try discriminate. destruct (length j <? n') eqn:Ej; [discriminate|].
  destruct (length x <? n') eqn:Ex; [discriminate|]. intros E. injection E as <-. cbn [csc_rows csc_cols csc_rowidx csc_colptr csc_values csr_rows csr_cols csr_rowptr csr_colidx csr_values]. rewrite El, Eu. cbn [bind]. rewrite Ep. cbn [bind]. rewrite Ej, Ex. reflexivity.
Qed.
Lemma c70_csr : forall m : CSR T, wf_csr I m -> csr_rows_fit I m ->
  exists c t mt, CSR_to_csc I m = Ok c /\ CSC_t c = Ok t /\ CSR_t m = Ok mt /\ CSC_to_csr I mt = Ok t.
Proof.
  intros m W F. destruct (wf_csr_rep _ _ W) as [R HR]. destruct (c03_csr_to_csc I m W F) as (c & E & V & _). destruct (wf_csc_rep _ _ V) as [Rc HRc].
  exists c. eexists _, _. split; [exact E|]. split; [apply (csc_t_rep _ _ _ HRc)|]. split; [apply (csr_t_rep _ _ _ HR)|].
  rewrite (to_csc_flip m c E). apply (csc_t_rep _ _ _ HRc).
Qed.
Lemma c70_csc : forall m : CSC T, wf_csc I m -> csc_cols_fit I m ->
  exists c t mt, CSC_to_csr I m = Ok c /\ CSR_t c = Ok t /\ CSC_t m = Ok mt /\ CSR_to_csc I mt = Ok t.
Proof.
  intros m W F. destruct (wf_csc_rep _ _ W) as [R HR]. destruct (c04_csc_to_csr I m W F) as (c & E & V & _). destruct (wf_csr_rep _ _ V) as [Rc HRc].
  exists c. eexists _, _. split; [exact E|]. split; [apply (csr_t_rep _ _ _ HRc)|]. split; [apply (csc_t_rep _ _ _ HR)|].
  rewrite (to_csr_flip m c E). apply (csr_t_rep _ _ _ HRc).
Qed.
(** tables *)
Lemma table_self d r c f : is_table d r c f -> is_table d r c (fun i j => tcell d i j).
Proof. intros [L H]. split; [exact L|]. intros i Hi. destruct (H i Hi) as [L' H']. split; [exact L'|]. intros j Hj. reflexivity. Qed.
Lemma table_flip d d' r c f : is_table d r c f -> is_table d' c r (fun j i => f i j) -> is_table d' c r (fun j i => tcell d i j).
Proof. intros [L H] D. eapply is_table_ext; [exact D|]. intros j i Hj Hi. cbn. symmetry. apply (H i Hi). exact Hj. Qed.
Lemma c70_to_dense : 
  (forall m : Coo T, wf_coo I m -> exists d d', Coo_to_dense m = Ok d /\ Coo_to_dense (Coo_t m) = Ok d' /\
     is_table d' (coo_cols m) (coo_rows m) (fun j i => tcell d i j)) /\
  (forall m : CSR T, wf_csr I m -> csr_rows_fit I m -> exists mt d d', CSR_t m = Ok mt /\ CSR_to_dense m = Ok d /\ CSC_to_dense I mt = Ok d' /\
     is_table d' (csr_cols m) (csr_rows m) (fun j i => tcell d i j)) /\
  (forall m : CSC T, wf_csc I m -> csc_cols_fit I m -> exists mt d d', CSC_t m = Ok mt /\ CSC_to_dense I m = Ok d /\ CSR_to_dense mt = Ok d' /\
     is_table d' (csc_cols m) (csc_rows m) (fun j i => tcell d i j)).
Proof.
  split; [|split].
  - intros m W. destruct (c08_coo_transpose I m) as (R & C & A & W' & _). destruct (c09_coo_to_dense I m W) as (d & E & D). destruct (c09_coo_to_dense I _ (W' W)) as (d' & E' & D').
    exists d, d'. sp; try assumption. apply (table_flip _ _ _ _ _ D). rewrite R, C in D'. eapply is_table_ext; [exact D'|]. intros i k _ _. unfold coo_val. rewrite A. reflexivity.
  - intros m W F. destruct (c08_csr_transpose I m W) as (mt & Et & W' & R & C & A & _). destruct (c09_csr_to_dense I m W) as (d & E & D).
    destruct (c09_csc_to_dense I mt W') as (d' & E' & D').
    { intros j Hj Ne. apply F; [congruence|]. destruct (wf_csr_rep _ _ W) as [Rr HR]. rewrite (csr_t_rep _ _ _ HR) in Et. injection Et as <-. exact Ne. }
    exists mt, d, d'. sp; try assumption. apply (table_flip _ _ _ _ _ D). rewrite R, C in D'. eapply is_table_ext; [exact D'|]. intros i k _ _. unfold csc_val. rewrite A. reflexivity.
  - intros m W F. destruct (c08_csc_transpose I m W) as (mt & Et & W' & R & C & A & _). destruct (c09_csc_to_dense I m W F) as (d & E & D). destruct (c09_csr_to_dense I mt W') as (d' & E' & D').
    exists mt, d, d'. sp; try assumption. apply (table_flip _ _ _ _ _ D). rewrite R, C in D'. eapply is_table_ext; [exact D'|]. intros i k _ _. unfold csr_val. rewrite A. reflexivity.
Qed.
Lemma same_vec n (u v : list T) f : length u = n -> length v = n -> (forall i, i < n -> nth i u s0 = f i) -> (forall i, i < n -> nth i v s0 = f i) -> u = v.
Proof. intros L1 L2 H1 H2. apply (nth_ext _ _ s0 s0); [congruence|]. intros i Hi. rewrite H1, H2 by lia. reflexivity. Qed.
Lemma c70_diagonal :
  (forall m : Coo T, wf_coo I m -> exists d, Coo_diagonal m = Ok d /\ Coo_diagonal (Coo_t m) = Ok d) /\
  (forall m : CSR T, wf_csr I m -> exists mt d, CSR_t m = Ok mt /\ CSR_diagonal m = Ok d /\ CSC_diagonal mt = Ok d) /\
  (forall m : CSC T, wf_csc I m -> exists mt d, CSC_t m = Ok mt /\ CSC_diagonal m = Ok d /\ CSR_diagonal mt = Ok d).
Proof.
  split; [|split].
  - intros m W. destruct (c08_coo_transpose I m) as (R & C & A & W' & _). destruct (c28_coo_diagonal I m W) as (d & E & L & D). destruct (c28_coo_diagonal I _ (W' W)) as (d' & E' & L' & D').
    exists d. split; [exact E|]. rewrite E'. f_equal. rewrite R, C in *. rewrite Nat.min_comm in L, D. apply (same_vec _ _ _ _ L' L D'). intros i Hi. rewrite D by exact Hi. unfold coo_val. rewrite A. reflexivity.
  - intros m W. destruct (c08_csr_transpose I m W) as (mt & Et & W' & R & C & A & _). destruct (c28_csr_diagonal I m W) as (d & E & L & D). destruct (c28_csc_diagonal I mt W') as (d' & E' & L' & D').
    exists mt, d. split; [exact Et|]. split; [exact E|]. rewrite E'. f_equal. rewrite R, C in *. rewrite Nat.min_comm in L, D. apply (same_vec _ _ _ _ L' L D'). intros i Hi. rewrite D by exact Hi. unfold csc_val. rewrite A. reflexivity.
  - intros m W. destruct (c08_csc_transpose I m W) as (mt & Et & W' & R & C & A & _). destruct (c28_csc_diagonal I m W) as (d & E & L & D). destruct (c28_csr_diagonal I mt W') as (d' & E' & L' & D').
    exists mt, d. split; [exact Et|]. split; [exact E|]. rewrite E'. f_equal. rewrite R, C in *. rewrite Nat.min_comm in L, D. apply (same_vec _ _ _ _ L' L D'). intros i Hi. rewrite D by exact Hi. unfold csr_val. rewrite A. reflexivity.
Qed.

(** C71 *)
Lemma sorted_le1_canonical (r : list (nat * T)) : sorted_row r -> (forall k, length (at_ k r) <= 1) -> canonical_row r.
Proof.
  unfold sorted_row, canonical_row. induction r as [|e r IH]; intros S H; [constructor|]. cbn [map] in *. apply StronglySorted_inv in S as [S F].
  constructor.
  - apply IH; [exact S|]. intros k. specialize (H k). unfold at_ in *. cbn [filter] in H. destruct (fst e =? k); cbn [map length] in H; lia.
  - rewrite Forall_forall in *. intros k Hk. assert (L : fst e <= k) by (apply F, Hk). destruct (Nat.eq_dec (fst e) k) as [E|]; [|lia]. exfalso.
    specialize (H k). rewrite at_length in H. cbn [map] in H. rewrite E in H. cbn [count_occ] in H. destruct (Nat.eq_dec k k) as [_|]; [|congruence]. apply (count_occ_In Nat.eq_dec) in Hk. lia.
Qed.
Lemma nz_le1 (v : T) : length (nz v) <= 1.
Proof. unfold nz. destruct (seqb v s0); cbn; lia. Qed.
Lemma csr_sorted_canonical (m : CSR T) : csr_sorted m -> (forall i j, i < csr_rows m -> length (csr_at m i j) <= 1) -> csr_canonical m.
Proof. intros S H i Hi. apply sorted_le1_canonical; [apply S, Hi|]. intros k. apply H, Hi. Qed.
Lemma csc_sorted_canonical (m : CSC T) : csc_sorted m -> (forall i j, j < csc_cols m -> length (csc_at m i j) <= 1) -> csc_canonical m.
Proof. intros S H j Hj. apply sorted_le1_canonical; [apply S, Hj|]. intros k. apply H, Hj. Qed.
Lemma length_flat_map {A B} (f : A -> list B) l : length (flat_map f l) = list_sum (map (fun x => length (f x)) l).
Proof. induction l as [|x l IH]; [reflexivity|]. cbn [flat_map map list_sum fold_right]. rewrite app_length, IH. reflexivity. Qed.
Lemma map_nth_seq {A B} (f : A -> B) (l : list A) d : map f l = map (fun i => f (nth i l d)) (seq 0 (length l)).
Proof.
  apply (nth_ext _ _ (f d) (f d)); rewrite ?map_length, ?seq_length; [reflexivity|]. intros i Hi. rewrite map_nth.
  rewrite (nth_indep _ (f d) (f (nth 0 l d))) by (rewrite map_length, seq_length; exact Hi).
  rewrite (map_nth (fun i => f (nth i l d)) (seq 0 (length l)) 0 i). rewrite seq_nth by exact Hi. reflexivity.
Qed.
Definition grid (r c : nat) (n : nat -> nat -> nat) : nat := list_sum (map (fun i => list_sum (map (n i) (seq 0 c))) (seq 0 r)).
Lemma nz_count_grid c (a : list (list T)) : rectangular c a -> nz_count a = grid (length a) c (fun i j => length (nz (tcell a i j))).
Proof.
  intros H. unfold nz_count, grid. rewrite length_flat_map.
  assert (S : forall l : list (list T), list_sum (map (fun x => length (nz x)) (concat l)) = list_sum (map (fun r => list_sum (map (fun x => length (nz x)) r)) l)).
  { induction l as [|r l IH]; [reflexivity|]. cbn [concat map list_sum fold_right]. rewrite map_app, list_sum_app, IH. reflexivity. }
  rewrite S, (map_nth_seq _ a []). f_equal. apply map_ext_in. intros i Hi. apply in_seq in Hi. unfold rectangular in H. rewrite Forall_forall in H.
  rewrite (map_nth_seq _ (nth i a []) s0). rewrite (H (nth i a [])) by (apply nth_In; lia). reflexivity.
Qed.
Lemma table_entries_length r c (a : list (list T)) : length (table_entries r c a) = grid r c (fun i j => length (nz (tcell a i j))).
Proof.
  unfold table_entries, grid. rewrite length_flat_map. f_equal. apply map_ext. intros i. rewrite length_flat_map. f_equal. apply map_ext. intros j. apply map_length.
Qed.
Lemma filter_prod_length r c (p : nat * nat -> bool) : length (filter p (list_prod (seq 0 r) (seq 0 c))) = grid r c (fun i j => if p (i, j) then 1 else 0).
Proof.
  unfold grid. generalize (seq 0 r). intros l. induction l as [|i l IH]; [reflexivity|]. cbn [list_prod map list_sum fold_right]. rewrite filter_app, app_length, IH. f_equal.
  generalize (seq 0 c). intros k. induction k as [|j k IK]; [reflexivity|]. cbn [map filter list_sum fold_right]. destruct (p (i, j)); cbn [length]; rewrite IK; reflexivity.
Qed.
Lemma grid_ext r c n n' : (forall i j, i < r -> j < c -> n i j = n' i j) -> grid r c n = grid r c n'.
Proof. intros H. unfold grid. f_equal. apply map_ext_in. intros i Hi. apply in_seq in Hi. f_equal. apply map_ext_in. intros j Hj. apply in_seq in Hj. apply H; lia. Qed.
Lemma nz_clean (v : T) : nz (clean v) = nz v \/ seqb (T := T) s0 s0 = false.
Proof. unfold nz, clean. destruct (seqb v s0) eqn:E; [|left; rewrite E; reflexivity]. destruct (seqb (T := T) s0 s0); auto. Qed.

Lemma c71_from_dense : forall (a : list (list T)) c, a <> [] -> rectangular c a -> seqb (T := T) s0 s0 = true ->
  (Z.of_nat (length a) <= imax I)%Z -> (Z.of_nat c <= imax I)%Z -> (Z.of_nat (nz_count a) < imax I)%Z ->
  exists r q co d, CSR_from_dense I a = Ok r /\ CSC_from_dense I a = Ok q /\ Coo_from_dense I a = Ok co /\ DoK_from_dense I a = Ok d /\
    CSC_to_csr I q = Ok r /\ CSR_to_csc I r = Ok q /\
    Coo_to_csr I co = Ok r /\ Coo_to_csc I co = Ok q /\
    (forall order, Permutation order (dok_values d) -> DoK_to_csr I d order = Ok r /\ DoK_to_csc I d order = Ok q).
Proof.
  intros a c Ne Rc Z0 Hr Hc Hn.
  assert (Fr : nz_rows_fit I c a) by (intros i j Hi Hj _; lia). assert (Fc : nz_cols_fit I c a) by (intros i j Hi Hj _; lia).
  destruct (c10_csr_from_dense I a c Ne Rc Fc ltac:(lia)) as (r & Er & Wr & Tr & Rr & Cr & Nr & Kr & Ar).
  destruct (c10_csc_from_dense I a c Ne Rc Fr ltac:(lia)) as (q & Eq & Wq & Tq & Rq & Cq & Nq & Kq & Aq).
  destruct (c10_coo_from_dense I a c Ne Rc Fr Fc) as (co & Ec & Wc & Rco & Cco & Enc & Ac).
  destruct (c10_dok_from_dense I a c Ne Rc Hr Hc) as (d & Ed & Wd & Rd & Cd & Gd & _).
  assert (Cl : forall v : T, nz (clean v) = nz v) by (intros v; destruct (nz_clean v) as [K|K]; [exact K|rewrite K in Z0; discriminate]).
  assert (Nco : (Z.of_nat (length (coo_values co)) < imax I)%Z).
  { replace (length (coo_values co)) with (nz_count a); [exact Hn|]. rewrite (nz_count_grid c a Rc), <- table_entries_length, <- Enc. apply (coo_entries_length I), Wc. }
  assert (Nd : (Z.of_nat (DoK_nnz d) < imax I)%Z).
  { rewrite (c33_nnz I d Wd Z0), filter_prod_length, Rd, Cd. rewrite (nz_count_grid c a Rc) in Hn. erewrite grid_ext; [exact Hn|]. intros i j Hi Hj. cbv beta. cbn [fst snd]. rewrite Gd by assumption. unfold clean, nz. destruct (seqb (tcell a i j) s0) eqn:E; [rewrite Z0|rewrite E]; reflexivity. }
  exists r, q, co, d. sp; try assumption.
  - destruct (c04_csc_to_csr I q Wq) as (r' & E & W & Tt & R1 & C1 & S & A & N). { intros j Hj _. lia. }
    rewrite E. f_equal. apply (csr_canonical_unique I); try assumption; try congruence.
    + apply csr_sorted_canonical; [exact S|]. intros i j Hi. destruct (Nat.lt_ge_cases j c) as [Hj|Hj].
      * rewrite A, Aq by congruence. apply nz_le1.
      * rewrite A by congruence. destruct (wf_csc_rep _ _ Wq) as [R HR]. rewrite (csc_rep_at _ _ _ _ _ HR). rewrite nth_overflow; [cbn; lia|]. destruct HR as [-> _]. lia.
    + intros i j Hi Hj. rewrite A, Aq, Ar by congruence. reflexivity.
  - destruct (c03_csr_to_csc I r Wr) as (r' & E & W & Tt & R1 & C1 & S & A & N). { intros j Hj _. lia. }
    rewrite E. f_equal. apply (csc_canonical_unique I); try assumption; try congruence.
    + apply csc_sorted_canonical; [exact S|]. intros i j Hj. destruct (Nat.lt_ge_cases i (length a)) as [Hi|Hi].
      * rewrite A, Ar by congruence. apply nz_le1.
      * rewrite A by congruence. destruct (wf_csr_rep _ _ Wr) as [R HR]. rewrite (csr_rep_at _ _ _ _ _ HR). rewrite nth_overflow; [cbn; lia|]. destruct HR as [-> _]. lia.
    + intros i j Hi Hj. rewrite A, Ar, Aq by congruence. reflexivity.
  - destruct (c01_coo_to_csr I co Wc Nco) as (r' & E & W & Tt & R1 & C1 & S & A).
    rewrite E. f_equal. apply (csr_canonical_unique I); try assumption; try congruence.
    intros i j Hi Hj. rewrite A, Ac, Ar by congruence. apply dup_sum_nz.
  - destruct (c02_coo_to_csc I co Wc Nco) as (r' & E & W & Tt & R1 & C1 & S & A).
    rewrite E. f_equal. apply (csc_canonical_unique I); try assumption; try congruence.
    intros i j Hi Hj. rewrite A, Ac, Aq by congruence. apply dup_sum_nz.
  - intros order P. split.
  { destruct (c34_to_csr I d Wd Z0 Nd) as (r' & E & W & Tt & S & R1 & C1 & A). rewrite (E order P). f_equal.
    apply (csr_canonical_unique I); try assumption; try congruence.
    intros i j Hi Hj. rewrite A by congruence. unfold dok_cell. rewrite Gd, Ar by congruence. apply Cl. }
    destruct (c34_to_csc I d Wd Z0 Nd) as (r' & E & W & Tt & S & R1 & C1 & A). rewrite (E order P). f_equal.
    apply (csc_canonical_unique I); try assumption; try congruence.
    intros i j Hi Hj. rewrite A by congruence. unfold dok_cell. rewrite Gd, Aq by congruence. apply Cl.
Qed.

(** C72 *)
Lemma count_row c (r : list (nat * T)) : Forall (fun e => fst e < c) r -> length r = list_sum (map (fun j => length (at_ j r)) (seq 0 c)).
Proof.
  induction r as [|e r IH]; intros H.
  - replace (map _ _) with (map (fun _ : nat => 0) (seq 0 c)) by (apply map_ext; reflexivity). generalize (seq 0 c). intros l. induction l as [|k l IHl]; [reflexivity|]. exact IHl.
  - inversion H as [|? ? He Hr]. subst. cbn [length]. rewrite (IH Hr). clear IH.
    assert (K : forall l, NoDup l -> list_sum (map (fun j => length (at_ j (e :: r))) l) = (if in_dec Nat.eq_dec (fst e) l then 1 else 0) + list_sum (map (fun j => length (at_ j r)) l)).
    { induction l as [|k l IHl]; intros N; [reflexivity|]. inversion N as [|? ? N1 N2]. subst. cbn [map list_sum fold_right]. fold (list_sum (map (fun j => length (at_ j (e :: r))) l)). fold (list_sum (map (fun j => length (at_ j r)) l)).
      rewrite (IHl N2), at_cons, app_length. destruct (Nat.eqb_spec (fst e) k) as [->|D].
      - destruct (in_dec Nat.eq_dec k l) as [X|X]; [contradiction|]. destruct (in_dec Nat.eq_dec k (k :: l)) as [Y|Y]; [|exfalso; apply Y; left; reflexivity]. cbn [length]. lia.
      - destruct (in_dec Nat.eq_dec (fst e) l) as [X|X]; destruct (in_dec Nat.eq_dec (fst e) (k :: l)) as [Y|Y]; cbn [length]; try lia.
        + exfalso. apply Y. right. exact X.
        + exfalso. destruct Y as [Y|Y]; [congruence|contradiction]. }
    rewrite (K _ (seq_NoDup c 0)). destruct (in_dec Nat.eq_dec (fst e) (seq 0 c)) as [X|X]; [lia|]. exfalso. apply X, in_seq. lia.
Qed.
Lemma count_rows c (R : list (list (nat * T))) : Forall (fun r => Forall (fun e => fst e < c) r) R ->
  length (concat R) = grid (length R) c (fun i j => length (at_ j (nth i R []))).
Proof.
  intros H. unfold grid. replace (concat R) with (flat_map (fun r => r) R) by (rewrite flat_map_concat_map, map_id; reflexivity). rewrite length_flat_map, (map_nth_seq _ R []). f_equal. apply map_ext_in. intros i Hi. apply in_seq in Hi.
  apply count_row. rewrite Forall_forall in H. apply H, nth_In. lia.
Qed.
Lemma csr_count_grid (m : CSR T) : wf_csr I m -> csr_count m = grid (csr_rows m) (csr_cols m) (fun i j => length (csr_at m i j)).
Proof.
  intros W. destruct (wf_csr_rep _ _ W) as [R HR]. rewrite (csr_rep_count _ _ _ HR). rewrite (count_rows (csr_cols m)) by (eapply crep_cols_lt; apply HR).
  destruct HR as [L HR]. rewrite L. apply grid_ext. intros i j _ _. rewrite (csr_rep_at I m R) by (split; assumption). reflexivity.
Qed.
Lemma csc_count_grid (m : CSC T) : wf_csc I m -> csc_count m = grid (csc_cols m) (csc_rows m) (fun j i => length (csc_at m i j)).
Proof.
  intros W. destruct (wf_csc_rep _ _ W) as [R HR]. rewrite (csc_rep_count _ _ _ HR). rewrite (count_rows (csc_rows m)) by (eapply crep_cols_lt; apply HR).
  destruct HR as [L HR]. rewrite L. apply grid_ext. intros j i _ _. rewrite (csc_rep_at I m R) by (split; assumption). reflexivity.
Qed.
Lemma nth_seq0 n k : k < n -> nth k (seq 0 n) 0 = k.
Proof. intros H. rewrite seq_nth by exact H. reflexivity. Qed.
Lemma c72_csr_select_all : forall m : CSR T, wf_csr I m -> csr_canonical m -> csr_tight m ->
  (Z.of_nat (csr_count m) < imax I)%Z -> (Z.of_nat (csr_rows m) <= imax I)%Z -> (Z.of_nat (csr_cols m) <= imax I)%Z ->
  CSR_select I m None None = Ok m.
Proof.
  intros m W C Tt N R K. destruct (c31_csr_select I m None None W N R K C Logic.I Logic.I) as (r & E & R1 & C1 & W1 & T1 & N1 & A).
  - cbn [picked]. rewrite seq_length. lia.
  - cbn [picked]. change (list_sum _) with (grid (csr_rows m) (csr_cols m) (fun i j => length (csr_at m i j))). rewrite <- csr_count_grid by exact W. lia.
  - rewrite E. f_equal. cbn [picked] in *. rewrite seq_length in *. apply (csr_canonical_unique I); try assumption. intros i j Hi Hj. rewrite A by (rewrite ?seq_length; lia). rewrite !nth_seq0 by lia. reflexivity.
Qed.
Lemma c72_csc_select_all : forall m : CSC T, wf_csc I m -> csc_canonical m -> csc_tight m ->
  (Z.of_nat (csc_count m) < imax I)%Z -> (Z.of_nat (csc_rows m) <= imax I)%Z -> (Z.of_nat (csc_cols m) <= imax I)%Z ->
  CSC_select I m None None = Ok m.
Proof.
  intros m W C Tt N R K. destruct (c31_csc_select I m None None W N R K C Logic.I Logic.I) as (r & E & R1 & C1 & W1 & T1 & N1 & A).
  - cbn [picked]. rewrite seq_length. lia.
  - cbn [picked]. change (list_sum _) with (grid (csc_cols m) (csc_rows m) (fun j i => length (csc_at m i j))). rewrite <- csc_count_grid by exact W. lia.
  - rewrite E. f_equal. cbn [picked] in *. rewrite seq_length in *. apply (csc_canonical_unique I); try assumption. intros i j Hi Hj. rewrite A by (rewrite ?seq_length; lia). rewrite !nth_seq0 by lia. reflexivity.
Qed.
(** the index list that picks, from what [l] picked, the positions [k] *)
Lemma picked_through (l k : list Z) n : in_range n l -> in_range (length l) k ->
  in_range n (through l k) /\ length (through l k) = length k /\
  forall i, i < length k -> nth i (map Z.to_nat (through l k)) 0 = nth (nth i (map Z.to_nat k) 0) (map Z.to_nat l) 0.
Proof.
  intros H1 H2. unfold in_range, through in *. sp.
  - apply Forall_map. rewrite Forall_forall in *. intros z Hz. specialize (H2 z Hz). apply H1, nth_In. lia.
  - apply map_length.
  - intros i Hi. rewrite map_map. rewrite (nth_indep _ 0 (Z.to_nat (nth (Z.to_nat 0) l 0%Z))) by (rewrite map_length; exact Hi).
    rewrite (map_nth (fun x => Z.to_nat (nth (Z.to_nat x) l 0%Z)) k 0%Z i). change 0 with (Z.to_nat 0). rewrite !map_nth. reflexivity.
Qed.
Lemma sum_grid (f : nat -> nat -> nat) (a b : list nat) : list_sum (map (fun i => list_sum (map (f i) b)) a) = grid (length a) (length b) (fun i j => f (nth i a 0) (nth j b 0)).
Proof. unfold grid. rewrite (map_nth_seq _ a 0). f_equal. apply map_ext. intros i. rewrite (map_nth_seq _ b 0). reflexivity. Qed.
Lemma in_range_nth n (l : list Z) i : in_range n l -> i < length l -> nth i (map Z.to_nat l) 0 < n.
Proof. intros H Hi. change 0 with (Z.to_nat 0). rewrite map_nth. unfold in_range in H. rewrite Forall_forall in H. specialize (H _ (nth_In _ 0%Z Hi)). lia. Qed.
Lemma c72_csr_select_select : forall (m : CSR T) rs cs rs' cs', wf_csr I m -> csr_canonical m ->
  (Z.of_nat (csr_count m) < imax I)%Z -> (Z.of_nat (csr_rows m) <= imax I)%Z -> (Z.of_nat (csr_cols m) <= imax I)%Z ->
  in_range (csr_rows m) rs -> in_range (csr_cols m) cs -> in_range (length rs) rs' -> in_range (length cs) cs' ->
  (Z.of_nat (length rs) <= imax I)%Z -> (Z.of_nat (length cs) <= imax I)%Z -> (Z.of_nat (length cs') <= imax I + 1)%Z ->
  let stored rs cs := list_sum (map (fun i => list_sum (map (fun j => length (csr_at m i j)) (map Z.to_nat cs))) (map Z.to_nat rs)) in
  (Z.of_nat (stored rs cs) < imax I)%Z -> (Z.of_nat (stored (through rs rs') (through cs cs')) <= imax I)%Z ->
  exists s r, CSR_select I m (Some rs) (Some cs) = Ok s /\ CSR_select I s (Some rs') (Some cs') = Ok r /\
    CSR_select I m (Some (through rs rs')) (Some (through cs cs')) = Ok r.
Proof.
  intros m rs cs rs' cs' W C N R K Hr Hc Hr' Hc' Lr Lc Lc' stored F1 F2. unfold stored in *. clear stored.
  destruct (picked_through rs rs' _ Hr Hr') as (Or & Lor & Nr). destruct (picked_through cs cs' _ Hc Hc') as (Oc & Loc & Nc).
  destruct (c31_csr_select I m (Some rs) (Some cs) W N R K C Hr Hc) as (s & E & Rs & Cs & Ws & Ts & Ns & As).
  { cbn [picked]. rewrite map_length. lia. } { cbn [picked]. lia. }
  destruct (c31_csr_select I m (Some (through rs rs')) (Some (through cs cs')) W N R K C Or Oc) as (r & Er & Rr & Cr & Wr & Tr & Nrr & Ar).
  { cbn [picked]. rewrite map_length, Loc. lia. } { cbn [picked]. exact F2. }
  cbn [picked] in *. rewrite !map_length in *. rewrite Lor in *. rewrite Loc in *.
  assert (Cnt : csr_count s = list_sum (map (fun i => list_sum (map (fun j => length (csr_at m i j)) (map Z.to_nat cs))) (map Z.to_nat rs))).
  { rewrite csr_count_grid by exact Ws. rewrite sum_grid, Rs, Cs, !map_length. apply grid_ext. intros i j Hi Hj. rewrite As by assumption. reflexivity. }
  destruct (c31_csr_select I s (Some rs') (Some cs') Ws) as (q & Eq & Rq & Cq & Wq & Tq & Nq & Aq); try lia; cbn [picked picked_ok]; rewrite ?map_length; try assumption; try (rewrite ?Rs, ?Cs; assumption).
  - rewrite sum_grid in *. rewrite !map_length in *. rewrite Lor, Loc in F2.
    erewrite grid_ext; [exact F2|]. intros i j Hi Hj. cbv beta. rewrite Nr, Nc by assumption. rewrite As; [reflexivity| |]; apply in_range_nth; assumption.
  - exists s, r. sp; try assumption. rewrite Eq. f_equal. cbn [picked] in *. rewrite !map_length in *. apply (csr_canonical_unique I); try assumption; try congruence.
    intros i j Hi Hj. rewrite Rq in Hi. rewrite Cq in Hj. rewrite Aq, Ar, Nr, Nc by assumption. apply As; apply in_range_nth; assumption.
Qed.
Lemma c72_csc_select_select : forall (m : CSC T) rs cs rs' cs', wf_csc I m -> csc_canonical m ->
  (Z.of_nat (csc_count m) < imax I)%Z -> (Z.of_nat (csc_rows m) <= imax I)%Z -> (Z.of_nat (csc_cols m) <= imax I)%Z ->
  in_range (csc_rows m) rs -> in_range (csc_cols m) cs -> in_range (length rs) rs' -> in_range (length cs) cs' ->
  (Z.of_nat (length rs) <= imax I)%Z -> (Z.of_nat (length cs) <= imax I)%Z -> (Z.of_nat (length rs') <= imax I + 1)%Z ->
  let stored rs cs := list_sum (map (fun j => list_sum (map (fun i => length (csc_at m i j)) (map Z.to_nat rs))) (map Z.to_nat cs)) in
  (Z.of_nat (stored rs cs) < imax I)%Z -> (Z.of_nat (stored (through rs rs') (through cs cs')) <= imax I)%Z ->
  exists s r, CSC_select I m (Some rs) (Some cs) = Ok s /\ CSC_select I s (Some rs') (Some cs') = Ok r /\
    CSC_select I m (Some (through rs rs')) (Some (through cs cs')) = Ok r.
Proof.
  intros m rs cs rs' cs' W C N R K Hr Hc Hr' Hc' Lr Lc Lc' stored F1 F2. unfold stored in *. clear stored.
  destruct (picked_through rs rs' _ Hr Hr') as (Or & Lor & Nr). destruct (picked_through cs cs' _ Hc Hc') as (Oc & Loc & Nc).
  destruct (c31_csc_select I m (Some rs) (Some cs) W N R K C Hr Hc) as (s & E & Rs & Cs & Ws & Ts & Ns & As).
  { cbn [picked]. rewrite map_length. lia. } { cbn [picked]. lia. }
  destruct (c31_csc_select I m (Some (through rs rs')) (Some (through cs cs')) W N R K C Or Oc) as (r & Er & Rr & Cr & Wr & Tr & Nrr & Ar).
  { cbn [picked]. rewrite map_length, Lor. lia. } { cbn [picked]. exact F2. }
  cbn [picked] in *. rewrite !map_length in *. rewrite Lor in *. rewrite Loc in *.
  assert (Cnt : csc_count s = list_sum (map (fun j => list_sum (map (fun i => length (csc_at m i j)) (map Z.to_nat rs))) (map Z.to_nat cs))).
  { rewrite csc_count_grid by exact Ws. rewrite (sum_grid (fun j i => length (csc_at m i j))), Rs, Cs, !map_length. apply grid_ext. intros j i Hj Hi. rewrite As by assumption. reflexivity. }
  destruct (c31_csc_select I s (Some rs') (Some cs') Ws) as (q & Eq & Rq & Cq & Wq & Tq & Nq & Aq); try lia; cbn [picked picked_ok]; rewrite ?map_length; try assumption; try (rewrite ?Rs, ?Cs; assumption).
  - rewrite (sum_grid (fun j i => length (csc_at s i j))) in *. rewrite (sum_grid (fun j i => length (csc_at m i j))) in F2. rewrite !map_length in *. rewrite Lor, Loc in F2.
    erewrite grid_ext; [exact F2|]. intros j i Hj Hi. cbv beta. rewrite Nr, Nc by assumption. rewrite As; [reflexivity| |]; apply in_range_nth; assumption.
  - exists s, r. sp; try assumption. rewrite Eq. f_equal. cbn [picked] in *. rewrite !map_length in *. apply (csc_canonical_unique I); try assumption; try congruence.
    intros i j Hi Hj. rewrite Rq in Hi. rewrite Cq in Hj. rewrite Aq, Ar, Nr, Nc by assumption. apply As; apply in_range_nth; assumption.
Qed.

(** C73 *)
Lemma stack_length (s a b : Coo T) p q : wf_coo I s -> wf_coo I a -> wf_coo I b -> coo_entries s = coo_entries a ++ placed p q (coo_entries b) ->
  length (coo_values s) = length (coo_values a) + length (coo_values b).
Proof.
  intros Ws Wa Wb E. rewrite <- (coo_entries_length I s Ws), <- (coo_entries_length I a Wa), <- (coo_entries_length I b Wb), E, app_length. f_equal. apply map_length.
Qed.
Lemma csr_row_ext (m1 m2 : CSR T) i1 i2 : wf_csr I m1 -> wf_csr I m2 -> csr_canonical m1 -> csr_canonical m2 -> i1 < csr_rows m1 -> i2 < csr_rows m2 ->
  (forall j, csr_at m1 i1 j = csr_at m2 i2 j) -> csr_row m1 i1 = csr_row m2 i2.
Proof.
  intros W1 W2 C1 C2 H1 H2 E. apply canonical_ext; [apply C1, H1|apply C2, H2|exact E].
Qed.
Lemma csc_col_ext (m1 m2 : CSC T) i1 i2 : wf_csc I m1 -> wf_csc I m2 -> csc_canonical m1 -> csc_canonical m2 -> i1 < csc_cols m1 -> i2 < csc_cols m2 ->
  (forall j, csc_at m1 j i1 = csc_at m2 j i2) -> csc_col m1 i1 = csc_col m2 i2.
Proof.
  intros W1 W2 C1 C2 H1 H2 E. apply canonical_ext; [apply C1, H1|apply C2, H2|exact E].
Qed.
Lemma c73_v_stack : forall (a b : Coo T) x, wf_coo I a -> wf_coo I b -> coo_cols a = coo_cols b -> (Z.of_nat (coo_rows a + coo_rows b) <= Z.min (imax I + 1) (imax Usize))%Z ->
  (Z.of_nat (length (coo_values a) + length (coo_values b)) < imax I)%Z -> length x = coo_cols a ->
  exists s ra rb rs ya yb, Coo_v_stack I a b = Ok s /\ Coo_to_csr I a = Ok ra /\ Coo_to_csr I b = Ok rb /\ Coo_to_csr I s = Ok rs /\
    CSR_mat_vec ra x = Ok ya /\ CSR_mat_vec rb x = Ok yb /\ CSR_mat_vec rs x = Ok (ya ++ yb).
Proof.
  intros a b x Wa Wb Ec Hr Hn Lx. destruct (proj2 (c25_v_stack I a b Wa Wb) Ec Hr) as (s & Es & Ws & R & C & En & A).
  pose proof (stack_length _ _ _ _ _ Ws Wa Wb En) as Ln.
  destruct (c01_coo_to_csr I a Wa ltac:(lia)) as (ra & Ea & Wra & _ & Ra & Ca & Na & Aa).
  destruct (c01_coo_to_csr I b Wb ltac:(lia)) as (rb & Eb & Wrb & _ & Rb & Cb & Nb & Ab).
  destruct (c01_coo_to_csr I s Ws ltac:(lia)) as (rs & Ers & Wrs & _ & Rs & Cs & Ns & As).
  destruct (proj2 (c15_csr_mat_vec I ra x Wra) ltac:(congruence)) as (ya & Eya & Lya & Gya).
  destruct (proj2 (c15_csr_mat_vec I rb x Wrb) ltac:(congruence)) as (yb & Eyb & Lyb & Gyb).
  destruct (proj2 (c15_csr_mat_vec I rs x Wrs) ltac:(congruence)) as (ys & Eys & Lys & Gys).
  exists s, ra, rb, rs, ya, yb. sp; try assumption. rewrite Eys. f_equal. apply (nth_ext _ _ s0 s0); [rewrite app_length; lia|].
  intros i Hi. rewrite Gys by lia. destruct (Nat.lt_ge_cases i (coo_rows a)) as [H|H].
  - rewrite app_nth1 by lia. rewrite Gya by lia. f_equal. f_equal. apply csr_row_ext; try assumption; try lia. intros j. rewrite As, Aa by lia. rewrite A. apply Nat.ltb_lt in H. rewrite H. reflexivity.
  - rewrite app_nth2 by lia. rewrite Gyb by lia. f_equal. f_equal. apply csr_row_ext; try assumption; try lia. intros j. rewrite As, Ab by lia. rewrite A. rewrite (proj2 (Nat.ltb_ge _ _) H). rewrite Lya, Ra. reflexivity.
Qed.

(** C74 *)
Lemma at_single k i (v : T) : at_ k [(i, v)] = if i =? k then [v] else [].
Proof. cbn. destruct (i =? k); reflexivity. Qed.
Lemma diag_row (r : CSR T) d i : wf_csr I r -> csr_canonical r -> i < csr_rows r -> (forall j, csr_at r i j = if i =? j then [nth i d s0] else []) -> csr_row r i = [(i, nth i d s0)].
Proof.
  intros W C Hi A. apply canonical_ext; [apply C, Hi|apply SSorted_cons; constructor|]. intros k. rewrite at_single. apply A.
Qed.
Lemma c74_csr : forall d x : list T, (Z.of_nat (length d) <= imax I)%Z -> length x = length d ->
  exists r, CSR_with_diagonal I d = Ok r /\ CSR_diagonal r = Ok (map (fun v => sadd s0 v) d) /\
    CSR_mat_vec r x = Ok (map (fun e => sadd s0 (smul (fst e) (snd e))) (combine d x)).
Proof.
  intros d x H Lx. destruct (proj1 (c30_csr_with_diagonal I d) H) as (r & E & W & Tt & C & R & K & A). exists r. split; [exact E|]. split.
  - destruct (c28_csr_diagonal I r W) as (y & Ey & Ly & G). rewrite Ey. f_equal. rewrite R, K, Nat.min_id in *. apply (nth_ext _ _ s0 (sadd s0 s0)); [rewrite map_length; exact Ly|]. intros i Hi. rewrite G by lia.
    rewrite (map_nth (fun v => sadd s0 v)). unfold csr_val. rewrite A, Nat.eqb_refl by lia. reflexivity.
  - destruct (proj2 (c15_csr_mat_vec I r x W) ltac:(congruence)) as (y & Ey & Ly & G). rewrite Ey. f_equal. rewrite R in *.
    apply (nth_ext _ _ s0 (sadd s0 (smul (fst (s0, s0)) (snd (s0, s0))))); [rewrite map_length, combine_length; lia|]. intros i Hi. rewrite G by lia.
    rewrite (map_nth (fun e => sadd s0 (smul (fst e) (snd e)))), combine_nth by congruence. rewrite (diag_row r d i) by (try assumption; try lia; intros j; apply A; lia). reflexivity.
Qed.
Lemma flat_map_nil {A B} (f : A -> list B) l : (forall x, In x l -> f x = []) -> flat_map f l = [].
Proof. induction l as [|x l IH]; intros H; [reflexivity|]. cbn [flat_map]. rewrite H by (left; reflexivity). apply IH. intros y Hy. apply H. right. exact Hy. Qed.
Lemma c74_csc : forall d x : list T, (Z.of_nat (length d) <= imax I)%Z -> length x = length d ->
  exists r, CSC_with_diagonal I d = Ok r /\ CSC_diagonal r = Ok (map (fun v => sadd s0 v) d) /\
    CSC_mat_vec r x = Ok (map (fun e => sadd s0 (smul (fst e) (snd e))) (combine d x)).
Proof.
  intros d x H Lx. destruct (proj1 (c30_csc_with_diagonal I d) H) as (r & E & W & Tt & C & R & K & A). exists r. split; [exact E|]. split.
  - destruct (c28_csc_diagonal I r W) as (y & Ey & Ly & G). rewrite Ey. f_equal. rewrite R, K, Nat.min_id in *. apply (nth_ext _ _ s0 (sadd s0 s0)); [rewrite map_length; exact Ly|]. intros i Hi. rewrite G by lia.
    rewrite (map_nth (fun v => sadd s0 v)). unfold csc_val. rewrite A, Nat.eqb_refl by lia. reflexivity.
  - destruct (proj2 (c16_csc_mat_vec I r x W) ltac:(congruence)) as (y & Ey & Ly & G). rewrite Ey. f_equal. rewrite R, K in *.
    apply (nth_ext _ _ s0 (sadd s0 (smul (fst (s0, s0)) (snd (s0, s0))))); [rewrite map_length, combine_length; lia|]. intros i Hi. rewrite G by lia.
    rewrite (map_nth (fun e => sadd s0 (smul (fst e) (snd e)))), combine_nth by congruence.
    assert (S : forall l, NoDup l -> In i l -> (forall j, In j l -> j < length d) -> flat_map (fun j => map (fun v => smul v (nth j x s0)) (csc_at r i j)) l = [smul (nth i d s0) (nth i x s0)]).
    { induction l as [|k l IH]; intros N Hin Hl; [destruct Hin|]. inversion N as [|? ? N1 N2]. subst. cbn [flat_map]. rewrite A by (apply Hl; left; reflexivity).
      destruct (Nat.eqb_spec i k) as [<-|D].
      - cbn [map]. replace (flat_map _ l) with (@nil T); [reflexivity|]. symmetry. apply flat_map_nil. intros q Hq. rewrite A by (apply Hl; right; exact Hq). destruct (Nat.eqb_spec i q) as [<-|D]; [contradiction|reflexivity].
      - cbn [map app]. apply IH; [exact N2|destruct Hin as [Hin|Hin]; [congruence|exact Hin]|intros j Hj; apply Hl; right; exact Hj]. }
    rewrite S; [reflexivity|apply seq_NoDup|apply in_seq; lia|intros j Hj; apply in_seq in Hj; lia].
Qed.
End Props.

Section Ring.
Context {T : Type} {SC : Scalar T} {SN : ScalarNeg T} {ER : ExactRing T}.
Variable I : ity.
Add Ring TR : (er_ring (T := T)).

Lemma rsum_split n k (f : nat -> T) : rsum (n + k) f = sadd (rsum n f) (rsum k (fun j => f (n + j))).
Proof.
  induction k as [|k IH]; [rewrite Nat.add_0_r; unfold rsum at 3; cbn; unfold sum0; cbn; ring|].
  rewrite Nat.add_succ_r, !rsum_S, IH. ring.
Qed.
Lemma nth_vplus (x y : list T) i : length x = length y -> i < length x -> nth i (vplus x y) s0 = sadd (nth i x s0) (nth i y s0).
Proof.
  intros E Hi. unfold vplus. rewrite (nth_indep _ s0 (sadd (fst (s0 : T, s0 : T)) (snd (s0 : T, s0 : T)))) by (rewrite map_length, combine_length; lia).
  rewrite (map_nth (fun e => sadd (fst e) (snd e))), combine_nth by exact E. reflexivity.
Qed.
Lemma two_blocks n k (f g : nat -> T) (x y : list T) : length x = n -> length y = k ->
  rsum (n + k) (fun j => smul (if j <? n then f j else g (j - n)) (nth j (x ++ y) s0)) =
  sadd (rsum n (fun j => smul (f j) (nth j x s0))) (rsum k (fun j => smul (g j) (nth j y s0))).
Proof.
  intros Lx Ly. rewrite rsum_split. f_equal; apply rsum_ext; intros j Hj.
  - rewrite (proj2 (Nat.ltb_lt _ _) Hj), app_nth1 by lia. reflexivity.
  - rewrite (proj2 (Nat.ltb_ge _ _)) by lia. rewrite app_nth2 by lia. f_equal; f_equal; lia.
Qed.
Lemma c73_h_stack : forall (a b : CSR T) x y, wf_csr I a -> wf_csr I b -> csr_tight a -> csr_tight b -> csr_rows_fit I a -> csr_rows_fit I b ->
  csr_rows a = csr_rows b -> (Z.of_nat (csr_cols a + csr_cols b) <= Z.min (imax I + 1) (imax Usize))%Z -> (Z.of_nat (csr_count a + csr_count b) < imax I)%Z ->
  length x = csr_cols a -> length y = csr_cols b ->
  exists s u v, CSR_h_stack I a b = Ok s /\ CSR_mat_vec a x = Ok u /\ CSR_mat_vec b y = Ok v /\ CSR_mat_vec s (x ++ y) = Ok (vplus u v).
Proof.
  intros a b x y Wa Wb Ta Tb Fa Fb E Hc Hn Lx Ly. destruct (proj2 (c26_csr_h_stack I a b Wa Wb Ta Tb Fa Fb) E Hc Hn) as (s & Es & Ws & _ & R & K & _ & A).
  destruct (c15_csr_mat_vec_ring I a x Wa Lx) as (u & Eu & Lu & Gu). destruct (c15_csr_mat_vec_ring I b y Wb Ly) as (v & Ev & Lv & Gv).
  destruct (c15_csr_mat_vec_ring I s (x ++ y) Ws) as (w & Ew & Lw & Gw). { rewrite app_length. congruence. }
  exists s, u, v. sp; try assumption. rewrite Ew. f_equal. apply (nth_ext _ _ s0 s0); [rewrite vplus_length; congruence|].
  intros i Hi. rewrite nth_vplus by lia. rewrite Gw, Gu, Gv by lia. rewrite K, <- two_blocks by assumption. apply rsum_ext. intros j Hj. f_equal.
  unfold csr_val. rewrite A, sum0_dup_sum by lia. destruct (j <? csr_cols a); reflexivity.
Qed.
Lemma c73_compose : forall (a b c d : CSC T) x y, wf_csc I a -> wf_csc I b -> wf_csc I c -> wf_csc I d ->
  csc_rows a = csc_rows b -> csc_rows c = csc_rows d -> csc_cols a = csc_cols c -> csc_cols b = csc_cols d ->
  (Z.of_nat (csc_cols a + csc_cols b) <= Z.min (imax I + 1) (imax Usize))%Z -> (Z.of_nat (csc_rows a + csc_rows c) <= Z.min (imax I + 1) (imax Usize))%Z ->
  (Z.of_nat (csc_count a + csc_count b + csc_count c + csc_count d) < imax I)%Z ->
  length x = csc_cols a -> length y = csc_cols b ->
  exists s ax by_ cx dy, CSC_compose I a b c d = Ok s /\ CSC_mat_vec a x = Ok ax /\ CSC_mat_vec b y = Ok by_ /\ CSC_mat_vec c x = Ok cx /\ CSC_mat_vec d y = Ok dy /\
    CSC_mat_vec s (x ++ y) = Ok (vplus ax by_ ++ vplus cx dy).
Proof.
  intros a b c d x y Wa Wb Wc Wd E1 E2 E3 E4 Hc Hr Hn Lx Ly.
  destruct (proj2 (c26_csc_compose I a b c d Wa Wb Wc Wd Hc ltac:(rewrite <- E3, <- E4; exact Hc) Hr) ltac:(repeat split; congruence) Hn) as (s & Es & Ws & _ & R & K & _ & A).
  destruct (c16_csc_mat_vec_ring I a x Wa Lx) as (ax & Eax & Lax & Gax). destruct (c16_csc_mat_vec_ring I b y Wb Ly) as (by_ & Eby & Lby & Gby).
  destruct (c16_csc_mat_vec_ring I c x Wc ltac:(congruence)) as (cx & Ecx & Lcx & Gcx). destruct (c16_csc_mat_vec_ring I d y Wd ltac:(congruence)) as (dy & Edy & Ldy & Gdy).
  destruct (c16_csc_mat_vec_ring I s (x ++ y) Ws) as (w & Ew & Lw & Gw). { rewrite app_length. congruence. }
  exists s, ax, by_, cx, dy. sp; try assumption. rewrite Ew. f_equal.
  assert (L1 : length (vplus ax by_) = csc_rows a) by (rewrite vplus_length; congruence). assert (L2 : length (vplus cx dy) = csc_rows c) by (rewrite vplus_length; congruence).
  apply (nth_ext _ _ s0 s0); [rewrite app_length; lia|].
  intros i Hi. rewrite Gw by lia. rewrite K. destruct (Nat.lt_ge_cases i (csc_rows a)) as [H|H].
  - rewrite app_nth1 by lia. rewrite nth_vplus by lia. rewrite Gax, Gby by lia. rewrite <- two_blocks by assumption. apply rsum_ext. intros j Hj. f_equal.
    unfold csc_val. rewrite A, sum0_dup_sum by lia. rewrite (proj2 (Nat.ltb_lt _ _) H). destruct (j <? csc_cols a); reflexivity.
  - rewrite app_nth2 by lia. rewrite nth_vplus by lia. rewrite Gcx, Gdy by lia. rewrite L1, <- E3, <- E4, <- two_blocks by assumption. apply rsum_ext. intros j Hj. f_equal.
    unfold csc_val. rewrite A, sum0_dup_sum by lia. rewrite (proj2 (Nat.ltb_ge _ _) H), <- E3. destruct (j <? csc_cols a); reflexivity.
Qed.
End Ring.

(** C75: conjugation *)
Section Complex.
Context {F C : Type} {SF : Scalar F} {CO : ComplexOps F C} {SC : Scalar C}.
Variable I : ity.
Notation conj := (cconj (F := F) (C := C)).
Hypothesis HC : conj_hom F C.
Lemma wf_sized (m : CSR C) : wf_csr I m -> csr_sized m.
Proof.
  intros W. destruct (wf_csr_rep _ _ W) as [R HR]. split; [apply W|]. split; [|split; apply W].
  pose proof (wf_mono _ _ _ _ _ _ W) as M. pose proof (wf_start _ _ _ _ _ _ W) as S.
  assert (K : forall n, n <= csr_rows m -> (0 <= nth n (csr_rowptr m) 0)%Z). { induction n as [|n IH]; intros H; [lia|]. specialize (M n ltac:(lia)). specialize (IH ltac:(lia)). lia. }
  apply K. lia.
Qed.
Lemma mapped_wf f (m r : CSR C) : wf_csr I m -> csr_mapped f m r -> wf_csr I r.
Proof. intros [A1 A2 A3 A4 A5 A6 A7] (E1 & E2 & E3 & E4 & E5 & _). unfold wf_csr. rewrite E1, E2, E3, E4, E5. constructor; rewrite ?map_length; assumption. Qed.
Lemma mapped_row f (m r : CSR C) i : csr_mapped f m r -> csr_row r i = map (fun e => (fst e, f (snd e))) (csr_row m i).
Proof. intros (E1 & E2 & E3 & E4 & E5 & _). unfold csr_row. rewrite E3, E4, E5. apply crow_map. Qed.
Lemma mapped_products (a b a' b' : CSR C) i k : csr_mapped conj a a' -> csr_mapped conj b b' -> csr_products a' b' i k = map conj (csr_products a b i k).
Proof.
  intros Ma Mb. unfold csr_products. rewrite (mapped_row _ _ _ _ Ma). generalize (csr_row a i). intros l. induction l as [|e l IH]; [reflexivity|].
  cbn [map flat_map fst snd]. rewrite map_app, IH. f_equal. destruct Mb as (_ & _ & _ & _ & _ & B). rewrite B, !map_map. apply map_ext. intros v. symmetry. apply HC.
Qed.
Lemma conj_sum0 (l : list C) : conj (sum0 l) = sum0 (map conj l).
Proof.
  unfold sum0. destruct HC as (Z0 & HA & _). rewrite <- Z0 at 2. generalize (s0 : C). induction l as [|v l IH]; intros z; [reflexivity|]. cbn [fold_left map]. rewrite IH, HA. reflexivity.
Qed.
Lemma mapped_count (a b a' b' : CSR C) : csr_mapped conj a a' -> csr_mapped conj b b' -> product_count a' b' = product_count a b.
Proof.
  intros Ma Mb. unfold product_count. destruct Ma as (A1 & A2 & Ma'). destruct Mb as (B1 & B2 & Mb'). rewrite A1, B2. f_equal. apply map_ext. intros i. f_equal. apply filter_ext. intros k. unfold meets.
  rewrite (mapped_row conj a a') by (repeat split; tauto). generalize (csr_row a i). intros l. induction l as [|e l IH]; [reflexivity|]. cbn [map existsb fst]. rewrite IH. f_equal.
  rewrite (mapped_row conj b b') by (repeat split; tauto). generalize (csr_row b (fst e)). intros q. induction q as [|g q IQ]; [reflexivity|]. cbn [map existsb fst]. rewrite IQ. reflexivity.
Qed.
Lemma c75_product : forall a b : CSR C, wf_csr I a -> wf_csr I b -> csr_cols a = csr_rows b -> (Z.of_nat (product_count a b) <= imax I)%Z ->
  exists p hp ha hb q, CSR_mat_mat I a b = Ok p /\ CSR_h (F := F) p = Ok hp /\ CSR_h (F := F) a = Ok ha /\ CSR_h (F := F) b = Ok hb /\ CSC_mat_mat I hb ha = Ok q /\
    csc_rows q = csc_rows hp /\ csc_cols q = csc_cols hp /\ forall k i, i < csr_rows a -> csc_at q k i = csc_at hp k i.
Proof.
  intros a b Wa Wb E Hf. destruct (c17_csr_mat_mat I a b Wa Wb E Hf) as (p & Ep & _ & Wp & R & K & _ & _ & A).
  destruct (c52_csr_parts (F := F) a (wf_sized a Wa)) as [(a' & Ea & Ma) _]. destruct (c52_csr_parts (F := F) b (wf_sized b Wb)) as [(b' & Eb & Mb) _]. destruct (c52_csr_parts (F := F) p (wf_sized p Wp)) as [(p' & Ep' & Mp) _].
  pose proof (mapped_wf _ _ _ Wa Ma) as Wa'. pose proof (mapped_wf _ _ _ Wb Mb) as Wb'. pose proof (mapped_wf _ _ _ Wp Mp) as Wp'.
  assert (E' : csr_cols a' = csr_rows b') by (destruct Ma as (_ & -> & _), Mb as (-> & _); exact E).
  assert (Hf' : (Z.of_nat (product_count a' b') <= imax I)%Z) by (rewrite (mapped_count _ _ _ _ Ma Mb); exact Hf).
  destruct (c53_csr_transpose_product I a' b' Wa' Wb' E' Hf') as (q' & ta & tb & tq & Eq & Eta & Etb & Etq & Eprod).
  destruct (c17_csr_mat_mat I a' b' Wa' Wb' E' Hf') as (q2 & Eq2 & _ & Wq & R2 & K2 & _ & _ & A2). rewrite Eq in Eq2. injection Eq2 as <-.
  destruct (c08_csr_transpose I p' Wp') as (hp & Ehp & _ & Rh & Kh & Ah & _). destruct (c08_csr_transpose I q' Wq) as (tq' & Etq' & _ & Rq & Kq & Aq & _). rewrite Etq in Etq'. injection Etq' as <-.
  exists p, hp, ta, tb, tq. split; [exact Ep|]. unfold CSR_h. rewrite Ep', Ea, Eb. cbn [bind]. pose proof Ma as (M1 & M2 & _). pose proof Mb as (N1 & N2 & _). pose proof Mp as (P1 & P2 & _ & _ & _ & P6). sp; try assumption; try congruence.
  intros k i Hi. rewrite Aq, Ah, P6, A, A2 by congruence. rewrite (mapped_products _ _ _ _ _ _ Ma Mb), <- conj_sum0. destruct (csr_products a b i k) as [|v l]; [reflexivity|].
  unfold keep. cbn [map]. unfold nonzero. cbn. rewrite (proj2 (proj2 (proj2 HC))). destruct (negb _); reflexivity.
Qed.
End Complex.

(** C75: the order of the operands of + *)
Section Comm.
Context {T : Type} {SC : Scalar T}.
Variable I : ity.
Lemma csr_canonical_dec (m : CSR T) : {csr_canonical m} + {~ csr_canonical m}.
Proof.
  destruct (Forall_dec (fun i => canonical_row (csr_row m i)) (fun i => canonical_row_dec _) (seq 0 (csr_rows m))) as [H|H]; [left|right].
  - intros i Hi. rewrite Forall_forall in H. apply H, in_seq. lia.
  - intros K. apply H, Forall_forall. intros i Hi. apply in_seq in Hi. apply K. lia.
Qed.
Lemma csc_canonical_dec (m : CSC T) : {csc_canonical m} + {~ csc_canonical m}.
Proof.
  destruct (Forall_dec (fun i => canonical_row (csc_col m i)) (fun i => canonical_row_dec _) (seq 0 (csc_cols m))) as [H|H]; [left|right].
  - intros i Hi. rewrite Forall_forall in H. apply H, in_seq. lia.
  - intros K. apply H, Forall_forall. intros i Hi. apply in_seq in Hi. apply K. lia.
Qed.
Lemma c76_csr_add_comm : (forall x y : T, sadd x y = sadd y x) -> forall a b : CSR T, wf_csr I a -> wf_csr I b -> csr_rows b = csr_rows a -> csr_cols b = csr_cols a ->
  (Z.of_nat (csr_count a + csr_count b) < imax I)%Z ->
  exists s t, CSR_add I a b = Ok s /\ CSR_add I b a = Ok t /\ csr_rows s = csr_rows t /\ csr_cols s = csr_cols t /\
    (forall i j, i < csr_rows a -> csr_at s i j = csr_at t i j) /\
    (csr_canonical a -> csr_canonical b -> forall i, i < csr_rows a -> csr_row s i = csr_row t i).
Proof.
  intros HC a b HA HB E1 E2 Hf.
  destruct (c19_csr_add I a b HA HB E1 E2 Hf) as (s & Es & W & R1 & R2 & _ & _ & S0 & S1 & S2).
  destruct (c19_csr_add I b a HB HA (eq_sym E1) (eq_sym E2)) as (t & Et & W2 & Q1 & Q2 & _ & _ & T0 & T1 & T2); [lia|].
  assert (K : forall f i j, keep (csr_at a i j ++ csr_at b i j) (sadd (f (csr_at a i j)) (f (csr_at b i j))) = keep (csr_at b i j ++ csr_at a i j) (sadd (f (csr_at b i j)) (f (csr_at a i j)) : T)).
  { intros f i j. rewrite (HC (f (csr_at a i j))). destruct (csr_at a i j), (csr_at b i j); reflexivity. }
  assert (A : forall i j, i < csr_rows a -> csr_at s i j = csr_at t i j).
  { intros i j Hi. destruct (csr_canonical_dec a) as [Ca|Ca]; [destruct (csr_canonical_dec b) as [Cb|Cb]|].
    - rewrite (S2 (conj Ca Cb)), (T2 (conj Cb Ca)) by congruence. apply K.
    - rewrite S1, T1 by (try congruence; tauto). apply K.
    - rewrite S1, T1 by (try congruence; tauto). apply K. }
  exists s, t. sp; try assumption; try congruence. intros Ca Cb i Hi. apply (csr_row_ext I); try assumption; try congruence; [apply S0|apply T0|intros j; apply A, Hi]; split; assumption.
Qed.
Lemma c76_csc_add_comm : (forall x y : T, sadd x y = sadd y x) -> forall a b : CSC T, wf_csc I a -> wf_csc I b -> csc_rows b = csc_rows a -> csc_cols b = csc_cols a ->
  (Z.of_nat (csc_count a + csc_count b) < imax I)%Z ->
  exists s t, CSC_op_add I a b = Ok s /\ CSC_op_add I b a = Ok t /\ csc_rows s = csc_rows t /\ csc_cols s = csc_cols t /\
    (forall i j, j < csc_cols a -> csc_at s i j = csc_at t i j) /\
    (csc_canonical a -> csc_canonical b -> forall i, i < csc_cols a -> csc_col s i = csc_col t i).
Proof.
  intros HC a b HA HB E1 E2 Hf.
  destruct (c20_csc_op_add I a b HA HB E1 E2 Hf) as (s & Es & W & R1 & R2 & _ & _ & S0 & S1 & S2).
  destruct (c20_csc_op_add I b a HB HA (eq_sym E1) (eq_sym E2)) as (t & Et & W2 & Q1 & Q2 & _ & _ & T0 & T1 & T2); [lia|].
  assert (K : forall f i j, keep (csc_at a i j ++ csc_at b i j) (sadd (f (csc_at a i j)) (f (csc_at b i j))) = keep (csc_at b i j ++ csc_at a i j) (sadd (f (csc_at b i j)) (f (csc_at a i j)) : T)).
  { intros f i j. rewrite (HC (f (csc_at a i j))). destruct (csc_at a i j), (csc_at b i j); reflexivity. }
  assert (A : forall i j, j < csc_cols a -> csc_at s i j = csc_at t i j).
  { intros i j Hj. destruct (csc_canonical_dec a) as [Ca|Ca]; [destruct (csc_canonical_dec b) as [Cb|Cb]|].
    - rewrite (S2 (conj Ca Cb)), (T2 (conj Cb Ca)) by congruence. apply K.
    - rewrite S1, T1 by (try congruence; tauto). apply K.
    - rewrite S1, T1 by (try congruence; tauto). apply K. }
  exists s, t. sp; try assumption; try congruence. intros Ca Cb i Hi. apply (csc_col_ext I); try assumption; try congruence; [apply S0|apply T0|intros j; apply A, Hi]; split; assumption.
Qed.
End Comm.
Lemma c76_f64_comm : forall x y : f64, sadd x y = sadd y x.
Proof.
  intros x y. cbn. destruct x as [sx|sx| |sx mx ex], y as [sy|sy| |sy my ey]; cbn; try reflexivity.
  - destruct sx, sy; reflexivity.
  - destruct sx, sy; reflexivity.
  - rewrite Z.min_comm, Z.add_comm. reflexivity.
Qed.
