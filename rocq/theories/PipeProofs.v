(** Every admissible call keeps the matrices of a program well-formed; over an exact ring, the matrices hold
    the tables computed by the same calls. *)
From Verif Require Import Rust Scalar Model_kernels Model_matrix Model_dok Spec SpecPipe Wp Rep ScatterProofs CanonProofs ConvProofs PadProofs RingProofs LinProofs Lin2Proofs ArithProofs StructProofs BlockProofs TableProofs
  Check DokProofs Main_convert Main_linear Main_arith Main_struct Main_select Main_laws.

Lemma forall_cons {A} (P : A -> Prop) a l : Forall P (a :: l) -> P a /\ Forall P l.
Proof. intros H. inversion H; auto. Qed.
Ltac fcons := repeat match goal with H : Forall _ (_ :: _) |- _ => apply forall_cons in H as [? H] | H : Forall _ [] |- _ => clear H | H : _ /\ _ |- _ => destruct H end.

Local Arguments Z.min : simpl never.
Local Arguments imax : simpl never.

Section Good.
Context {T : Type} {SC : Scalar T} {SN : ScalarNeg T}.
Variable I : ity.

(** equally long arrays, unused indices zero, none at all in a matrix without rows or columns *)
Definition spare (n c : nat) (p j : list Z) (x : list T) : Prop :=
  length j = length x /\ zpad 0%Z (ptr p n) j /\ (j = [] \/ 0 < n /\ 0 < c).
Definition csr_good (m : CSR T) : Prop :=
  wf_csr I m /\ index_ok I (csr_rows m) /\ index_ok I (csr_cols m) /\ spare (csr_rows m) (csr_cols m) (csr_rowptr m) (csr_colidx m) (csr_values m).
Definition csc_good (m : CSC T) : Prop :=
  wf_csc I m /\ index_ok I (csc_rows m) /\ index_ok I (csc_cols m) /\ spare (csc_cols m) (csc_rows m) (csc_colptr m) (csc_rowidx m) (csc_values m).
Definition coo_good (m : Coo T) : Prop := wf_coo I m /\ index_ok I (coo_rows m) /\ index_ok I (coo_cols m).
Definition dok_good (m : DoK T) : Prop := wf_dok I m /\ index_ok I (dok_rows m) /\ index_ok I (dok_cols m).
Definition good (m : mat T) : Prop := match m with MCoo m => coo_good m | MCsr m => csr_good m | MCsc m => csc_good m | MDok m => dok_good m end.

Lemma wf_nonempty n c p j (x : list T) : wf_arrays I n c p j x -> 0 < ptr p n -> 0 < n /\ 0 < c.
Proof.
  intros H Hp. split.
  - destruct n; [|lia]. unfold ptr in Hp. rewrite (wf_start _ _ _ _ _ _ H) in Hp. cbn in Hp. lia.
  - pose proof (wf_idx _ _ _ _ _ _ H 0 Hp). lia.
Qed.
Lemma tight_spare n c p j (x : list T) : wf_arrays I n c p j x -> length j = ptr p n -> length x = ptr p n -> spare n c p j x.
Proof.
  intros H Lj Lx. split; [congruence|]. split; [apply tight_zpad, Lj|]. destruct j as [|z j]; [left; reflexivity|]. right. apply (wf_nonempty _ _ _ _ _ H). cbn in Lj. lia.
Qed.
Lemma csr_tight_good m : wf_csr I m -> csr_tight m -> index_ok I (csr_rows m) -> index_ok I (csr_cols m) -> csr_good m.
Proof. intros H [T1 T2] R C. split; [exact H|]. split; [exact R|]. split; [exact C|]. apply (tight_spare _ _ _ _ _ H T1 T2). Qed.
Lemma csc_tight_good m : wf_csc I m -> csc_tight m -> index_ok I (csc_rows m) -> index_ok I (csc_cols m) -> csc_good m.
Proof. intros H [T1 T2] R C. split; [exact H|]. split; [exact R|]. split; [exact C|]. apply (tight_spare _ _ _ _ _ H T1 T2). Qed.
Lemma csr_rows_fit_ok (m : CSR T) : index_ok I (csr_rows m) -> csr_rows_fit I m.
Proof. unfold index_ok. intros H i Hi _. lia. Qed.
Lemma csc_cols_fit_ok (m : CSC T) : index_ok I (csc_cols m) -> csc_cols_fit I m.
Proof. unfold index_ok. intros H i Hi _. lia. Qed.
Lemma wf_sized_csr (m : CSR T) : wf_csr I m -> csr_sized m.
Proof.
  intros [L S M J X D F]. unfold csr_sized. sp; try assumption. clear - L S M.
  assert (G : forall i, i <= csr_rows m -> (0 <= nth i (csr_rowptr m) 0)%Z).
  { induction i as [|i IH]; intros Hi; [rewrite S; lia|]. specialize (M i ltac:(lia)). specialize (IH ltac:(lia)). lia. }
  apply G. lia.
Qed.
Lemma wf_sized_csc (m : CSC T) : wf_csc I m -> csc_sized m.
Proof. intros H. apply (wf_sized_csr (mkCSR (csc_cols m) (csc_rows m) (csc_colptr m) (csc_rowidx m) (csc_values m)) H). Qed.

(** ** constructors *)
Lemma make_good f k : make_ok I f k -> exists m, do_make I f k = Some (Ok m) /\ good m.
Proof.
  intros [D H]. destruct k as [r c|a|d|n|r c i j x|r c p j x|r c j p x]; destruct f; cbn [do_make] in *; try (exfalso; apply D; reflexivity).
  - destruct H as [H1 H2]. eexists. split; [reflexivity|]. split; [|split; assumption]. constructor; cbn; constructor.
  - destruct H as [H1 H2]. eexists. split; [reflexivity|]. cbn. assert (W : wf_csr I (CSR_with_size (T := T) r c)).
    { assert (N : forall k, nth k (repeat 0%Z (r + 1)) 0%Z = 0%Z) by (intros k; generalize (r + 1) as n; intros n; revert k; induction n as [|n IH]; intros [|k]; cbn; auto).
      constructor; cbn; unfold ptr; rewrite ?N; try lia; [apply repeat_length|intros; rewrite !N; lia|pose proof (imax_ge_127 I); lia]. }
    apply csr_tight_good; cbn; try assumption. split; cbn; unfold csr_count, ptr; cbn;
      [generalize (r + 1) as n; intros n|generalize (r + 1) as n; intros n]; rewrite nth_repeat; reflexivity.
  - destruct H as [H1 H2]. eexists. split; [reflexivity|]. split; [|split; assumption]. apply DoK_new_wf.
  - destruct H as (N & c & Hr & H1 & H2 & Hn & HD). unfold index_ok in *. destruct (c10_coo_from_dense I a c N Hr) as (m & E & W & R1 & R2 & _).
    { intros i j Hi Hj _. lia. } { intros i j Hi Hj _. lia. }
    rewrite E. eexists. split; [reflexivity|]. split; [exact W|]. unfold index_ok. rewrite R1, R2. auto.
  - destruct H as (N & c & Hr & H1 & H2 & Hn & HD). unfold index_ok in *. destruct (c10_csr_from_dense I a c N Hr) as (m & E & W & Tt & R1 & R2 & _).
    { intros i j Hi Hj _. lia. } { exact Hn. }
    rewrite E. eexists. split; [reflexivity|]. apply csr_tight_good; try assumption; unfold index_ok; rewrite ?R1, ?R2; assumption.
  - destruct H as (N & c & Hr & H1 & H2 & Hn & HD). unfold index_ok in *. destruct (c10_csc_from_dense I a c N Hr) as (m & E & W & Tt & R1 & R2 & _).
    { intros i j Hi Hj _. lia. } { exact Hn. }
    rewrite E. eexists. split; [reflexivity|]. apply csc_tight_good; try assumption; unfold index_ok; rewrite ?R1, ?R2; assumption.
  - destruct H as (N & c & Hr & H1 & H2 & Hn & D1 & D2). destruct (DoK_from_dense_spec I c a N Hr D1 D2) as (m & E & W & R1 & R2 & _).
    rewrite E. eexists. split; [reflexivity|]. split; [exact W|]. rewrite R1, R2. auto.
  - destruct (proj1 (c30_coo_with_diagonal I d)) as (m & E & W & R1 & R2 & _); [lia|]. rewrite E. eexists. split; [reflexivity|]. split; [exact W|]. unfold index_ok. rewrite R1, R2. lia.
  - destruct (proj1 (c30_csr_with_diagonal I d) ltac:(lia)) as (m & E & W & Tt & _ & R1 & R2 & _). rewrite E. eexists. split; [reflexivity|].
    apply csr_tight_good; try assumption; unfold index_ok; rewrite ?R1, ?R2; lia.
  - destruct (proj1 (c30_csc_with_diagonal I d) ltac:(lia)) as (m & E & W & Tt & _ & R1 & R2 & _). rewrite E. eexists. split; [reflexivity|].
    apply csc_tight_good; try assumption; unfold index_ok; rewrite ?R1, ?R2; lia.
  - destruct (proj1 (c30_coo_identity I n) ltac:(unfold index_ok in H; lia)) as (m & E & W & R1 & R2 & _). rewrite E. eexists. split; [reflexivity|]. split; [exact W|]. rewrite R1, R2. auto.
  - destruct H as (H1 & H2 & W). rewrite (proj1 (c49_coo_new r c i j x)) by (destruct W; split; assumption). eexists. split; [reflexivity|]. split; [exact W|]. auto.
  - destruct H as (H1 & H2 & W & Tt). rewrite (proj1 (c49_csr_new r c p j x)) by apply (wf_sized_csr _ W). eexists. split; [reflexivity|]. apply csr_tight_good; assumption.
  - destruct H as (H1 & H2 & W & Tt). rewrite (proj1 (c49_csc_new r c j p x)) by apply (wf_sized_csc _ W). eexists. split; [reflexivity|]. apply csc_tight_good; assumption.
Qed.

Lemma nth_firstn_lt {A} (l : list A) n k d : k < n -> nth k (firstn n l) d = nth k l d.
Proof. revert n k. induction l as [|a l IH]; intros [|n] [|k] H; cbn; try reflexivity; try lia. apply IH. lia. Qed.

(** ** to_coo of a matrix with unused capacity *)
Lemma forall_split {A} (P : A -> Prop) (l1 l2 : list A) : Forall P l1 -> Forall P l2 -> Forall P (l1 ++ l2).
Proof. intros. apply Forall_app. auto. Qed.
Lemma spare_to_coo (m : CSR T) : csr_good m ->
  exists r, CSR_to_coo I m = Ok r /\ coo_good r /\ coo_rows r = csr_rows m /\ coo_cols r = csr_cols m /\
    coo_entries r = csr_entries m ++ map (fun v => ((0, 0), v)) (skipn (csr_count m) (csr_values m)).
Proof.
  intros (W & H1 & H2 & (L & Z1 & E)).
  destruct (proj1 (c06_csr_to_coo_surplus I m W (csr_rows_fit_ok m H1)) L) as (r & Er & (R1 & R2 & R3 & R4 & R5) & Ent).
  exists r. split; [exact Er|]. unfold coo_good. rewrite R1, R2. split.
  - split; [|split; assumption]. pose proof (csr_entries_count I m W) as Lc. pose proof (wf_jlen _ _ _ _ _ _ W) as WJ. unfold csr_count in *.
    constructor.
    + rewrite R5, R4, app_length, map_length, repeat_length. lia.
    + rewrite R3, R4. exact L.
    + rewrite R1, R5. apply Forall_app. split.
      * apply Forall_map, Forall_forall. intros e He. unfold csr_entries in He. apply in_flat_map in He as (i & Hi & He). apply in_seq in Hi. apply in_map_iff in He as (f & <- & _). cbn. unfold index_ok in H1. lia.
      * apply Forall_forall. intros z Hz. pose proof (repeat_spec _ _ _ Hz) as ->. destruct E as [E|[E _]]; [rewrite E in Hz; destruct Hz|]. pose proof (imax_ge_127 I). lia.
    + rewrite R2, R3. rewrite <- (firstn_skipn (ptr (csr_rowptr m) (csr_rows m)) (csr_colidx m)). apply Forall_app. split.
      * apply Forall_forall. intros z Hz. apply (In_nth _ _ 0%Z) in Hz as (k & Hk & <-). rewrite firstn_length in Hk. rewrite nth_firstn_lt by lia. apply (wf_idx _ _ _ _ _ _ W). lia.
      * rewrite Z1. apply Forall_forall. intros z Hz. pose proof (repeat_spec _ _ _ Hz) as ->. destruct E as [E|[_ E]]; [rewrite E in Hz; destruct Hz|]. pose proof (imax_ge_127 I). lia.
  - sp; try assumption. rewrite Ent. f_equal. unfold csr_count in *. rewrite Z1. assert (Ls : length (skipn (ptr (csr_rowptr m) (csr_rows m)) (csr_values m)) = length (csr_colidx m) - ptr (csr_rowptr m) (csr_rows m)) by (rewrite skipn_length; lia).
    revert Ls. generalize (skipn (ptr (csr_rowptr m) (csr_rows m)) (csr_values m)) as l. generalize (length (csr_colidx m) - ptr (csr_rowptr m) (csr_rows m)) as n. clear. intros n l <-. induction l as [|v l IH]; [reflexivity|]. cbn in *. rewrite IH. reflexivity.
Qed.

(** ** methods with one matrix *)
Lemma wf_mapped_csr (f : T -> T) (m r : CSR T) : csr_good m -> csr_mapped f m r -> csr_good r.
Proof.
  intros (W & H1 & H2 & (L & Z1 & E)) (M1 & M2 & M3 & M4 & M5 & _). unfold csr_good. rewrite M1, M2, M3, M4, M5. sp; try assumption.
  - unfold wf_csr. rewrite M1, M2, M3, M4, M5. destruct W. constructor; try assumption. rewrite map_length. assumption.
  - unfold spare. rewrite map_length. auto.
Qed.
Lemma wf_mapped_csc (f : T -> T) (m r : CSC T) : csc_good m -> csc_mapped f m r -> csc_good r.
Proof.
  intros (W & H1 & H2 & (L & Z1 & E)) (M1 & M2 & M3 & M4 & M5 & _). unfold csc_good. rewrite M1, M2, M3, M4, M5. sp; try assumption.
  - unfold wf_csc. rewrite M1, M2, M3, M4, M5. destruct W. constructor; try assumption. rewrite map_length. assumption.
  - unfold spare. rewrite map_length. auto.
Qed.
Lemma picked_index n l : index_ok I (length (picked n l)) -> (Z.of_nat (length (picked n l)) <= imax I + 1)%Z.
Proof. unfold index_ok. lia. Qed.
Lemma list_sum_swap {A B} (f : A -> B -> nat) (k : list A) (l : list B) :
  list_sum (map (fun a => list_sum (map (fun b => f a b) l)) k) = list_sum (map (fun b => list_sum (map (fun a => f a b) k)) l).
Proof.
  induction k as [|a k IH]; cbn [map list_sum fold_right].
  - induction l as [|b l IHl]; [reflexivity|]. cbn. exact IHl.
  - unfold list_sum in *. cbn [fold_right]. rewrite IH. clear IH. induction l as [|b l IHl]; [reflexivity|]. cbn [map fold_right]. rewrite <- IHl. lia.
Qed.
Lemma unary_good u m : unary_ok I u m -> good m -> exists r, do_unary I u m = Some (Ok r) /\ good r.
Proof.
  intros [D H] G. destruct u as [[]|o []| | |s|s|k|rs cs]; destruct m as [m|m|m|m]; cbn [do_unary] in *; try (exfalso; apply D; reflexivity); clear D.
  - destruct (spare_to_coo m G) as (r & E & Gr & _). rewrite E. eexists. split; [reflexivity|exact Gr].
  - destruct G as (W & H1 & H2 & _). destruct (c07_csc_to_coo I m W (csc_cols_fit_ok m H2)) as (r & E & Wr & R1 & R2 & _). rewrite E. eexists. split; [reflexivity|].
    split; [exact Wr|]. rewrite R1, R2. auto.
  - destruct G as (W & H1 & H2). destruct (c01_coo_to_csr I m W H) as (r & E & Wr & Tt & R1 & R2 & _). rewrite E. eexists. split; [reflexivity|]. apply csr_tight_good; try assumption; congruence.
  - destruct G as (W & H1 & H2 & _). destruct (c04_csc_to_csr I m W (csc_cols_fit_ok m H2)) as (r & E & Wr & Tt & R1 & R2 & _). rewrite E. eexists. split; [reflexivity|]. apply csr_tight_good; try assumption; congruence.
  - destruct G as (W & H1 & H2). destruct (c02_coo_to_csc I m W H) as (r & E & Wr & Tt & R1 & R2 & _). rewrite E. eexists. split; [reflexivity|]. apply csc_tight_good; try assumption; congruence.
  - destruct G as (W & H1 & H2 & _). destruct (c03_csr_to_csc I m W (csr_rows_fit_ok m H1)) as (r & E & Wr & Tt & R1 & R2 & _). rewrite E. eexists. split; [reflexivity|]. apply csc_tight_good; try assumption; congruence.
  - destruct G as (W & H1 & H2), H as (P & _). destruct (DoK_to_coo_spec I m o W P) as (r & E & Wr & R1 & R2 & _). rewrite E. eexists. split; [reflexivity|]. split; [exact Wr|]. rewrite R1, R2. auto.
  - destruct G as (W & H1 & H2), H as (P & Hn). destruct (DoK_to_coo_spec I m o W P) as (q & E & Wq & R1 & R2 & _ & L & _). cbn [mat_count] in Hn. rewrite <- L in Hn.
    destruct (c01_coo_to_csr I q Wq Hn) as (r & E2 & Wr & Tt & Q1 & Q2 & _). unfold DoK_to_csr. rewrite E. cbn [bind]. rewrite E2. eexists. split; [reflexivity|]. apply csr_tight_good; try assumption; congruence.
  - destruct G as (W & H1 & H2), H as (P & Hn). destruct (DoK_to_coo_spec I m o W P) as (q & E & Wq & R1 & R2 & _ & L & _). cbn [mat_count] in Hn. rewrite <- L in Hn.
    destruct (c02_coo_to_csc I q Wq Hn) as (r & E2 & Wr & Tt & Q1 & Q2 & _). unfold DoK_to_csc. rewrite E. cbn [bind]. rewrite E2. eexists. split; [reflexivity|]. apply csc_tight_good; try assumption; congruence.
  - destruct G as (W & H1 & H2). eexists. split; [reflexivity|]. destruct (c08_coo_transpose I m) as (R1 & R2 & _ & Wr & _). split; [apply Wr, W|]. rewrite R1, R2. auto.
  - destruct G as (W & H1 & H2 & S). destruct (wf_csr_rep _ _ W) as [R HR]. rewrite (csr_t_rep _ _ _ HR). eexists. split; [reflexivity|]. split; [exact W|]. split; [exact H2|]. split; [exact H1|exact S].
  - destruct G as (W & H1 & H2 & S). destruct (wf_csc_rep _ _ W) as [R HR]. rewrite (csc_t_rep _ _ _ HR). eexists. split; [reflexivity|]. split; [exact W|]. split; [exact H2|]. split; [exact H1|exact S].
  - destruct G as (W & H1 & H2). destruct (c23_coo_neg m) as (r & E & (M1 & M2 & M3 & M4 & M5 & _)). { destruct W. split; assumption. }
    rewrite E. eexists. split; [reflexivity|]. cbn. unfold coo_good. rewrite M1, M2. split; [|auto]. destruct W. constructor; rewrite ?M1, ?M2, ?M3, ?M4, ?M5, ?map_length; assumption.
  - destruct (c23_csr_neg m (wf_sized_csr m (proj1 G))) as (r & E & M). rewrite E. eexists. split; [reflexivity|]. exact (wf_mapped_csr _ _ _ G M).
  - destruct (c23_csc_neg m (wf_sized_csc m (proj1 G))) as (r & E & M). rewrite E. eexists. split; [reflexivity|]. exact (wf_mapped_csc _ _ _ G M).
  - destruct (proj1 (c23_csr_scale m s (wf_sized_csr m (proj1 G)))) as (r & E & M). rewrite E. eexists. split; [reflexivity|]. exact (wf_mapped_csr _ _ _ G M).
  - destruct (proj2 (c23_csr_scale m s (wf_sized_csr m (proj1 G)))) as (r & E & M). rewrite E. eexists. split; [reflexivity|]. exact (wf_mapped_csr _ _ _ G M).
  - destruct G as (W & H1 & H2). destruct (proj1 (c27_upper I m k W) H) as (r & E & Wr & R1 & R2 & _). rewrite E. eexists. split; [reflexivity|]. split; [exact Wr|]. rewrite R1, R2. auto.
  - cbn in H. destruct H as (H1 & H2 & H3 & H4 & H5 & H6 & H7 & H8 & H9). destruct G as (W & _).
    destruct (c31_csr_select I m rs cs W H1 H2 H3 H4 H5 H6 (picked_index _ _ H8) H9) as (r & E & R1 & R2 & Wr & Tt & _). rewrite E. eexists. split; [reflexivity|]. apply csr_tight_good; try assumption; congruence.
  - cbn in H. destruct H as (H1 & H2 & H3 & H4 & H5 & H6 & H7 & H8 & H9). destruct G as (W & _). rewrite list_sum_swap in H9.
    destruct (c31_csc_select I m rs cs W H1 H2 H3 H4 H5 H6 (picked_index _ _ H7) H9) as (r & E & R1 & R2 & Wr & Tt & _). rewrite E. eexists. split; [reflexivity|]. apply csc_tight_good; try assumption; congruence.
Qed.

(** ** methods that change a matrix *)
Lemma ptr_last n c p j (x : list T) : wf_arrays I n c p j x -> forall i, i <= n -> ptr p i <= ptr p n.
Proof.
  intros [L St M _ _ _ _] i Hi. assert (G : forall k, i <= k -> k <= n -> (nth i p 0 <= nth k p 0)%Z).
  { induction k as [|k IH]; intros H1 H2; [replace i with 0 by lia; lia|]. destruct (Nat.eq_dec i (S k)) as [->|Hne]; [lia|]. specialize (M k ltac:(lia)). specialize (IH ltac:(lia) ltac:(lia)). lia. }
  unfold ptr. specialize (G n Hi (Nat.le_refl n)). lia.
Qed.
Lemma CSR_sort_spare (m r : CSR T) : wf_csr I m -> CSR_sort_indexes m = Ok r ->
  kept (csr_count m) (csr_colidx r) (csr_colidx m) /\ kept (csr_count m) (csr_values r) (csr_values m) /\ csr_rowptr r = csr_rowptr m.
Proof.
  intros W E. pose proof (ptr_last _ _ _ _ _ W) as PL. unfold CSR_sort_indexes in E. pose proof (wf_len _ _ _ _ _ _ W) as LP.
  unfold usub in E. rewrite LP, Nat.add_sub in E. destruct (1 <=? csr_rows m + 1) eqn:E1; [|apply Nat.leb_gt in E1; lia]. cbn [bind] in E.
  destruct (csr_sort_indices (csr_rows m) (csr_rowptr m) (csr_colidx m) (csr_values m)) as [[j x]| | |] eqn:Es; try discriminate. injection E as <-. cbn.
  destruct (sort_pad (csr_rows m) (csr_rowptr m) (csr_colidx m) (csr_values m) (csr_count m)) with (1 := fun i (Hi : i < csr_rows m) => PL (S i) Hi) (2 := Es) as [K1 K2]. auto.
Qed.
Lemma CSC_sort_spare (m r : CSC T) : wf_csc I m -> CSC_sort_indexes m = Ok r ->
  kept (csc_count m) (csc_rowidx r) (csc_rowidx m) /\ kept (csc_count m) (csc_values r) (csc_values m) /\ csc_colptr r = csc_colptr m.
Proof.
  intros W E. pose proof (ptr_last _ _ _ _ _ W) as PL. unfold CSC_sort_indexes in E. pose proof (wf_len _ _ _ _ _ _ W) as LP.
  unfold usub in E. rewrite LP, Nat.add_sub in E. destruct (1 <=? csc_cols m + 1) eqn:E1; [|apply Nat.leb_gt in E1; lia]. cbn [bind] in E.
  destruct (csr_sort_indices (csc_cols m) (csc_colptr m) (csc_rowidx m) (csc_values m)) as [[j x]| | |] eqn:Es; try discriminate. injection E as <-. cbn.
  destruct (sort_pad (csc_cols m) (csc_colptr m) (csc_rowidx m) (csc_values m) (csc_count m)) with (1 := fun i (Hi : i < csc_cols m) => PL (S i) Hi) (2 := Es) as [K1 K2]. auto.
Qed.
Lemma kept_nil {A} k (l l0 : list A) : kept k l l0 -> l0 = [] -> l = [].
Proof. intros [H _] ->. apply length_zero_iff_nil, H. Qed.
Lemma push_good (m : Coo T) i j x : coo_good m -> (0 <= i < Z.of_nat (coo_rows m))%Z -> (0 <= j < Z.of_nat (coo_cols m))%Z -> coo_good (Coo_push m i j x).
Proof.
  intros ([] & G1 & G2) Hi Hj. unfold index_ok in *. split; [|split; assumption]. constructor; cbn.
  - rewrite !app_length. cbn. lia.
  - rewrite !app_length. cbn. lia.
  - apply Forall_app. split; [assumption|]. constructor; [lia|constructor].
  - apply Forall_app. split; [assumption|]. constructor; [lia|constructor].
Qed.
Lemma extend_good i j x : forall m : Coo T, coo_good m -> length i = length x -> length j = length x -> Forall2 (in_size (coo_rows m) (coo_cols m)) i j -> coo_good (Coo_extend m i j x).
Proof.
  revert j x. induction i as [|a i IH]; intros [|b j] [|v x] m G L1 L2 F; cbn in L1, L2; try lia.
  - unfold Coo_extend. rewrite !app_nil_r. destruct m. exact G.
  - inversion F as [|? ? ? ? [Fa Fb] F']; subst. replace (Coo_extend m (a :: i) (b :: j) (v :: x)) with (Coo_extend (Coo_push m a b v) i j x) by (unfold Coo_extend, Coo_push; cbn; rewrite <- !app_assoc; reflexivity).
    apply IH; try lia; [apply push_good; assumption|exact F'].
Qed.
Lemma in_bounds_inside r c i j : in_size r c i j -> in_bounds r c i j = true.
Proof. unfold in_size, in_bounds. intros. rewrite !andb_true_iff, !Z.leb_le, !Z.ltb_lt. lia. Qed.
Lemma dok_good_apply (m : DoK T) o : dok_good m -> inplace_ok I (PDok o) (MDok m) -> exists r, dok_apply I m o = Ok r /\ dok_good r.
Proof.
  intros (W & G1 & G2) [_ H]. assert (K : forall i j v, in_size (dok_rows m) (dok_cols m) i j -> (Z.of_nat (dok_rows m) <= imax I)%Z -> (Z.of_nat (dok_cols m) <= imax I)%Z -> exists r, DoK_set I m i j v = Ok r /\ dok_good r).
  { intros i j v Hi Hr Hc. pose proof (DoK_set_ok I m i j v W Hr Hc) as X. rewrite (in_bounds_inside _ _ _ _ Hi) in X. destruct X as (d & E & Wd & E1 & E2 & _). exists d. split; [exact E|]. split; [exact Wd|]. rewrite E1, E2. auto. }
  destruct o as [i j v|i j v|i j v]; cbn in H; destruct H as (Hi & Hr & Hc); cbn [dok_apply]; unfold DoK_add, DoK_sub; apply K; assumption.
Qed.
Lemma inplace_good p m : inplace_ok I p m -> good m -> exists r, do_inplace I p m = Some (Ok r) /\ good r.
Proof.
  intros K G. assert (D := proj1 K). assert (H := proj2 K). destruct p as [| |i j x|i j x|o]; destruct m as [m|m|m|m]; cbn [do_inplace] in *; try (exfalso; apply D; reflexivity); clear D.
  - destruct G as (W & H1 & H2 & (L & Z1 & E0)). destruct (c13_csr_sort_indexes I m W) as (s & E & Ws & R1 & R2 & R3 & _).
    destruct (CSR_sort_spare m s W E) as (K1 & K2 & _). rewrite E. eexists. split; [reflexivity|]. unfold good, csr_good. rewrite R1, R2, R3. sp; try assumption.
    unfold spare. sp.
    + rewrite (proj1 K1), (proj1 K2). exact L.
    + eapply kept_zpad; [exact K1|exact Z1].
    + destruct E0 as [E0|E0]; [left; exact (kept_nil _ _ _ K1 E0)|right; exact E0].
  - destruct G as (W & H1 & H2 & (L & Z1 & E0)). destruct (c13_csc_sort_indexes I m W) as (s & E & Ws & R1 & R2 & R3 & _).
    destruct (CSC_sort_spare m s W E) as (K1 & K2 & _). rewrite E. eexists. split; [reflexivity|]. unfold good, csc_good. rewrite R1, R2, R3. sp; try assumption.
    unfold spare. sp.
    + rewrite (proj1 K1), (proj1 K2). exact L.
    + eapply kept_zpad; [exact K1|exact Z1].
    + destruct E0 as [E0|E0]; [left; exact (kept_nil _ _ _ K1 E0)|right; exact E0].
  - assert (W := proj1 G). destruct (c14_csr_sum_duplicates I m W H) as (s & E & Ws & R1 & R2 & _ & _ & S1 & S2 & _). rewrite E. eexists. split; [reflexivity|].
    destruct (c11_csr_has_canonical_format I m W H) as (b & _ & Hb). destruct b; [rewrite S1 by tauto; exact G|]. destruct G as (_ & H1 & H2 & _).
    apply csr_tight_good; try congruence. apply S2. right. intros C. apply Hb in C. discriminate.
  - assert (W := proj1 G). destruct (c14_csc_sum_duplicates I m W H) as (s & E & Ws & R1 & R2 & _ & _ & S1 & S2 & _). rewrite E. eexists. split; [reflexivity|].
    destruct (c11_csc_has_canonical_format I m W H) as (b & _ & Hb). destruct b; [rewrite S1 by tauto; exact G|]. destruct G as (_ & H1 & H2 & _).
    apply csc_tight_good; try congruence. apply S2. right. intros C. apply Hb in C. discriminate.
  - destruct H as [Hi Hj]. eexists. split; [reflexivity|]. apply push_good; assumption.
  - destruct H as (L1 & L2 & F). eexists. split; [reflexivity|]. apply extend_good; assumption.
  - destruct (dok_good_apply m o G K) as (r & E & Gr). rewrite E. eexists. split; [reflexivity|exact Gr].
Qed.

(** ** operations with two matrices *)
Lemma wf_pos n c p j (x : list T) (j' : list Z) k : wf_arrays I n c p j x -> length j' = ptr p n + k -> (0 < k -> 0 < n /\ 0 < c) -> j' = [] \/ 0 < n /\ 0 < c.
Proof.
  intros W L Hk. destruct j' as [|z j']; [left; reflexivity|]. right. cbn in L. destruct k; [|apply Hk; lia]. apply (wf_nonempty _ _ _ _ _ W). lia.
Qed.
Lemma list_sum_pos (l : list nat) : 0 < list_sum l -> l <> [] /\ exists k, In k l /\ 0 < k.
Proof.
  induction l as [|a l IH]; cbn; [lia|]. intros H. split; [discriminate|]. destruct a; [|exists (S a); split; [auto|lia]].
  destruct (IH H) as [_ (k & Hk & Hp)]. exists k. auto.
Qed.
Lemma product_count_pos (a b : CSR T) : 0 < product_count a b -> 0 < csr_rows a /\ 0 < csr_cols b.
Proof.
  intros H. unfold product_count in H. apply list_sum_pos in H as [_ (k & Hk & Hp)]. apply in_map_iff in Hk as (i & <- & Hi). apply in_seq in Hi. split; [lia|].
  destruct (csr_cols b); [cbn in Hp; lia|lia].
Qed.
Lemma csc_product_count_pos (a b : CSC T) : 0 < csc_product_count a b -> 0 < csc_rows a /\ 0 < csc_cols b.
Proof.
  intros H. unfold csc_product_count in H. apply list_sum_pos in H as [_ (k & Hk & Hp)]. apply in_map_iff in Hk as (i & <- & Hi). apply in_seq in Hi. split; [|lia].
  destruct (csc_rows a); [cbn in Hp; lia|lia].
Qed.
Lemma mul_csc_good (a b r : CSC T) : wf_csc I a -> wf_csc I b -> csc_cols a = csc_rows b -> (Z.of_nat (csc_product_count a b) <= imax I)%Z ->
  index_ok I (csc_rows a) -> index_ok I (csc_cols b) -> CSC_mat_mat I a b = Ok r -> csc_good r.
Proof.
  intros WA WB E Hf H1 H2 Er. destruct (c18_csc_mat_mat I a b WA WB E Hf) as (r' & Er' & _ & W & R1 & R2 & _). rewrite Er in Er'. injection Er' as <-.
  destruct (wf_csc_rep _ _ WA) as [RA RPA], (wf_csc_rep _ _ WB) as [RB RPB]. destruct (CSC_mat_mat_rep I a b RA RB RPA RPB E Hf) as (r' & Er' & _ & _ & L1 & L2 & _). rewrite Er in Er'. injection Er' as <-.
  pose proof (CSC_mat_mat_spare I a b r Er) as [Z1 _]. split; [exact W|]. rewrite R1, R2. sp; try assumption. unfold spare. rewrite <- R2. split; [congruence|]. split; [exact Z1|].
  rewrite R2. destruct (csc_rowidx r) as [|z l]; [left; reflexivity|]. right. cbn in L1. destruct (csc_product_count_pos a b ltac:(lia)). auto.
Qed.
Lemma over_good (a b : Coo T) : coo_good a -> coo_good b -> coo_cols a = coo_cols b -> index_ok I (coo_rows a + coo_rows b) ->
  exists r, Coo_v_stack I a b = Ok r /\ coo_good r /\ coo_rows r = coo_rows a + coo_rows b /\ coo_cols r = coo_cols a /\
    forall i j, coo_val r i j = if i <? coo_rows a then coo_val a i j else coo_val b (i - coo_rows a) j.
Proof.
  intros (WA & A1 & A2) (WB & _) E H. destruct (proj2 (c25_v_stack I a b WA WB) E H) as (r & Er & W & R1 & R2 & _ & A). exists r. unfold coo_good. rewrite R1, R2. sp; try assumption.
  intros i j. unfold coo_val. rewrite A. destruct (i <? coo_rows a); reflexivity.
Qed.
Lemma beside_good (a b : Coo T) : coo_good a -> coo_good b -> coo_rows a = coo_rows b -> index_ok I (coo_cols a + coo_cols b) ->
  exists r, Coo_h_stack I a b = Ok r /\ coo_good r /\ coo_rows r = coo_rows a /\ coo_cols r = coo_cols a + coo_cols b /\
    length (coo_values r) = length (coo_values a) + length (coo_values b) /\
    forall i j, coo_val r i j = if j <? coo_cols a then coo_val a i j else coo_val b i (j - coo_cols a).
Proof.
  intros (WA & A1 & A2) (WB & _) E H. destruct (proj2 (c25_h_stack I a b WA WB) E H) as (r & Er & W & R1 & R2 & Ent & A). exists r. unfold coo_good. rewrite R1, R2. sp; try assumption.
  - rewrite <- (coo_entries_length I r W), <- (coo_entries_length I a WA), <- (coo_entries_length I b WB), Ent, app_length. unfold placed. rewrite map_length. reflexivity.
  - intros i j. unfold coo_val. rewrite A. destruct (j <? coo_cols a); reflexivity.
Qed.
Lemma csr_beside_good (a b : CSR T) : csr_good a -> csr_good b -> csr_rows a = csr_rows b -> index_ok I (csr_cols a + csr_cols b) ->
  (Z.of_nat (length (csr_values a) + length (csr_values b)) < imax I)%Z ->
  exists ca cb c r, CSR_to_coo I a = Ok ca /\ CSR_to_coo I b = Ok cb /\ Coo_h_stack I ca cb = Ok c /\ coo_good c /\
    coo_rows c = csr_rows a /\ coo_cols c = csr_cols a + csr_cols b /\
    (forall i j, coo_val c i j = if j <? csr_cols a then coo_val ca i j else coo_val cb i (j - csr_cols a)) /\
    (Z.of_nat (length (coo_values c)) < imax I)%Z /\ CSR_h_stack I a b = Ok r /\ Coo_to_csr I c = Ok r /\ csr_good r.
Proof.
  intros GA GB E H Hf. destruct (spare_to_coo a GA) as (ca & Ea & Ga & A1 & A2 & A3). destruct (spare_to_coo b GB) as (cb & Eb & Gb & B1 & B2 & B3).
  destruct (beside_good ca cb Ga Gb) as (c & Ec & Gc & C1 & C2 & C3 & C4); [congruence|rewrite A2, B2; exact H|].
  assert (Hc : (Z.of_nat (length (coo_values c)) < imax I)%Z).
  { assert (LL : forall (m : CSR T) cm, csr_good m -> coo_good cm -> coo_entries cm = csr_entries m ++ map (fun v => ((0, 0), v)) (skipn (csr_count m) (csr_values m)) -> length (coo_values cm) = length (csr_values m)).
    { intros m cm (W & _) (Wc & _) Ent. rewrite <- (coo_entries_length I cm Wc), Ent, app_length, map_length, (csr_entries_count I m W), skipn_length. pose proof (wf_xlen _ _ _ _ _ _ W). unfold csr_count. lia. }
    rewrite C3, (LL a ca GA Ga A3), (LL b cb GB Gb B3). exact Hf. }
  destruct (c01_coo_to_csr I c (proj1 Gc) Hc) as (r & Er & Wr & Tt & R1 & R2 & _). exists ca, cb, c, r. rewrite A1 in C1. rewrite A2, B2 in C2. rewrite A2 in C4. sp; try assumption.
  - unfold CSR_h_stack. rewrite Ea, Eb. cbn [bind]. rewrite Ec. cbn [bind]. exact Er.
  - apply csr_tight_good; try assumption; [rewrite R1|rewrite R2]; apply Gc.
Qed.
Lemma binary_good b x y : binary_ok I b x y -> good x -> good y -> exists r, do_binary I b x y = Some (Ok r) /\ good r.
Proof.
  intros [D H] GX GY. destruct b; destruct x as [a|a|a|a]; destruct y as [b|b|b|b]; cbn [do_binary] in *; try (exfalso; apply D; reflexivity); clear D; cbn in H.
  - destruct H as (E1 & E2 & Hf). destruct GX as (WA & H1 & H2), GY as (WB & _). destruct (proj2 (c24_coo_add I a b WA WB) E1 E2 Hf) as (r & E & W & Tt & R1 & R2 & _).
    rewrite E. eexists. split; [reflexivity|]. apply csr_tight_good; try assumption; congruence.
  - destruct H as (E1 & E2 & Hf). symmetry in E1, E2. destruct GX as (WA & H1 & H2 & SA), GY as (WB & _ & _ & SB). destruct (c19_csr_add I a b WA WB E1 E2 Hf) as (r & E & W & R1 & R2 & _).
    destruct (proj1 (c55_csr_add_capacity I a b WA WB E1 E2 Hf) r E) as [L1 L2]. pose proof (CSR_add_spare I a b r E) as [Z1 _].
    rewrite E. eexists. split; [reflexivity|]. unfold good, csr_good. rewrite R1, R2. sp; try assumption. unfold spare. split; [congruence|]. split; [rewrite <- R1; exact Z1|].
    apply (wf_pos _ _ _ _ _ _ _ WA L1). intros Hp. rewrite <- E1, <- E2. apply (wf_nonempty _ _ _ _ _ WB Hp).
  - destruct H as (E1 & E2 & Hf). symmetry in E1, E2. destruct GX as (WA & H1 & H2 & SA), GY as (WB & _ & _ & SB). destruct (c20_csc_op_add I a b WA WB E1 E2 Hf) as (r & E & W & R1 & R2 & _).
    destruct (wf_csc_rep _ _ WA) as [RA RPA], (wf_csc_rep _ _ WB) as [RB RPB]. assert (Hf' := Hf). rewrite (csc_rep_count _ _ _ RPA), (csc_rep_count _ _ _ RPB) in Hf'.
    destruct (CSC_op_add_rep I a b RA RB RPA RPB E1 E2 Hf) as (r' & Er' & _ & _ & L1 & L2 & _). rewrite E in Er'. injection Er' as <-. pose proof (CSC_op_add_spare I a b r E) as [Z1 _].
    rewrite E. eexists. split; [reflexivity|]. unfold good, csc_good. rewrite R1, R2. sp; try assumption. unfold spare. split; [congruence|]. split; [rewrite <- R2; exact Z1|].
    apply (wf_pos _ _ _ _ _ _ _ WA L1). intros Hp. rewrite <- E1, <- E2. apply (wf_nonempty _ _ _ _ _ WB Hp).
  - destruct H as (E1 & E2 & Hf). symmetry in E1, E2. destruct GX as (WA & H1 & H2 & SA), GY as (WB & _ & _ & SB). destruct (c19_csr_sub I a b WA WB E1 E2 Hf) as (r & E & W & R1 & R2 & _).
    destruct (proj2 (c55_csr_add_capacity I a b WA WB E1 E2 Hf) r E) as [L1 L2]. pose proof (CSR_sub_spare I a b r E) as [Z1 _].
    rewrite E. eexists. split; [reflexivity|]. unfold good, csr_good. rewrite R1, R2. sp; try assumption. unfold spare. split; [congruence|]. split; [rewrite <- R1; exact Z1|].
    apply (wf_pos _ _ _ _ _ _ _ WA L1). intros Hp. rewrite <- E1, <- E2. apply (wf_nonempty _ _ _ _ _ WB Hp).
  - destruct H as (E1 & E2 & Hf). symmetry in E1, E2. destruct GX as (WA & H1 & H2 & SA), GY as (WB & _ & _ & SB). destruct (c20_csc_subtract I a b WA WB E1 E2 Hf) as (r & E & Tt & W & R1 & R2 & _).
    rewrite E. eexists. split; [reflexivity|]. apply csc_tight_good; try assumption; congruence.
  - destruct H as (E & Hf). destruct GX as (WA & H1 & H2 & SA), GY as (WB & H3 & H4 & SB). destruct (c17_csr_mat_mat I a b WA WB E Hf) as (r & E3 & E4 & W & R1 & R2 & _).
    destruct (c55_csr_mat_mat_capacity I a b WA WB E Hf r E3) as [L1 L2]. pose proof (CSR_mat_mat_spare I a b r E3) as [Z1 _]. rewrite E4. eexists. split; [reflexivity|].
    unfold good, csr_good. rewrite R1, R2. sp; try assumption. unfold spare. split; [congruence|]. split; [rewrite <- R1; exact Z1|].
    destruct (csr_colidx r) as [|z l]; [left; reflexivity|]. right. cbn in L1. apply (product_count_pos a b). lia.
  - destruct H as (E & Hf). destruct GX as (WA & H1 & H2 & SA), GY as (WB & H3 & H4 & SB). cbn in Hf. destruct (c60_csc_mul_csr I a b WA WB (csr_rows_fit_ok b H3) E Hf) as (r & E3 & _).
    rewrite E3. eexists. split; [reflexivity|]. cbn. unfold CSC_mul_csr in E3. destruct (c03_csr_to_csc I b WB (csr_rows_fit_ok b H3)) as (bc & Eb & Wb & _ & B1 & B2 & _ & Ab & _). rewrite Eb in E3. cbn [bind] in E3.
    assert (Hf2 : (Z.of_nat (csc_product_count a bc) <= imax I)%Z) by (rewrite (mixed_count_csc I a b bc Wb B1 B2 Ab); exact Hf).
    destruct (c18_csc_mat_mat I a bc WA Wb) as (r' & E5 & _); [congruence|exact Hf2|]. rewrite E5 in E3. injection E3 as <-. apply (mul_csc_good a bc r' WA Wb); try assumption; congruence.
  - destruct H as (E & Hf). destruct GX as (WA & H1 & H2 & SA), GY as (WB & H3 & H4 & SB). cbn in Hf. destruct (c18_csc_mat_mat I a b WA WB E Hf) as (r & E3 & E4 & _).
    rewrite E4. eexists. split; [reflexivity|]. apply (mul_csc_good a b r WA WB E Hf H1 H4 E3).
  - destruct H as (E & Hi). destruct (over_good a b GX GY E Hi) as (r & Er & Gr & _). rewrite Er. eexists. split; [reflexivity|exact Gr].
  - destruct H as (E & Hi & _). destruct (beside_good a b GX GY E Hi) as (r & Er & Gr & _). rewrite Er. eexists. split; [reflexivity|exact Gr].
  - destruct H as (E & Hi & Hf). destruct (csr_beside_good a b GX GY E Hi Hf) as (_ & _ & _ & r & _ & _ & _ & _ & _ & _ & _ & _ & Er & _ & Gr). rewrite Er. eexists. split; [reflexivity|exact Gr].
Qed.
Lemma forall_upd {A} (P : A -> Prop) l v a : Forall P l -> P a -> Forall P (upd l v a).
Proof.
  intros H Ha. revert v. induction H as [|b l Hb H IH]; intros [|v]; cbn [upd]; constructor; auto.
Qed.
Lemma forall_nth_error {A} (P : A -> Prop) l v a : Forall P l -> nth_error l v = Some a -> P a.
Proof. intros H E. rewrite Forall_forall in H. exact (H a (nth_error_In _ _ E)). Qed.
Lemma forall_snoc {A} (P : A -> Prop) l a : Forall P l -> P a -> Forall P (l ++ [a]).
Proof. intros H Ha. apply Forall_app. split; [exact H|]. constructor; [exact Ha|constructor]. Qed.

(** ** several blocks *)
Definition beside (a b : nat -> nat -> T) (c : nat) : nat -> nat -> T := fun i j => if j <? c then a i j else b i (j - c).
Definition over (a b : nat -> nat -> T) (r : nat) : nat -> nat -> T := fun i j => if i <? r then a i j else b (i - r) j.
Lemma beside3_good (a b c : Coo T) : coo_good a -> coo_good b -> coo_good c -> coo_rows b = coo_rows a -> coo_rows c = coo_rows a -> index_ok I (coo_cols a + coo_cols b + coo_cols c) ->
  exists r, Coo_h_stack3 I a b c = Ok r /\ coo_good r /\ coo_rows r = coo_rows a /\ coo_cols r = coo_cols a + coo_cols b + coo_cols c /\
    forall i j, coo_val r i j = beside (beside (coo_val a) (coo_val b) (coo_cols a)) (coo_val c) (coo_cols a + coo_cols b) i j.
Proof.
  intros GA GB GC E1 E2 H. unfold Coo_h_stack3. rewrite E1, E2, Nat.eqb_refl. cbn [negb].
  destruct (beside_good a b GA GB) as (p & Ep & Gp & P1 & P2 & _ & P3); [congruence|unfold index_ok in *; lia|]. rewrite Ep. cbn [bind].
  destruct (beside_good p c Gp GC) as (q & Eq & Gq & Q1 & Q2 & _ & Q3); [congruence|rewrite P2; exact H|]. exists q. rewrite P1 in Q1. rewrite P2 in Q2, Q3. sp; try assumption.
  intros i j. rewrite Q3. unfold beside. destruct (j <? coo_cols a + coo_cols b); [apply P3|reflexivity].
Qed.
Lemma over3_good (a b c : Coo T) : coo_good a -> coo_good b -> coo_good c -> coo_cols b = coo_cols a -> coo_cols c = coo_cols a -> index_ok I (coo_rows a + coo_rows b + coo_rows c) ->
  exists r, Coo_v_stack3 I a b c = Ok r /\ coo_good r /\ coo_cols r = coo_cols a /\ coo_rows r = coo_rows a + coo_rows b + coo_rows c /\
    forall i j, coo_val r i j = over (over (coo_val a) (coo_val b) (coo_rows a)) (coo_val c) (coo_rows a + coo_rows b) i j.
Proof.
  intros GA GB GC E1 E2 H. unfold Coo_v_stack3. rewrite E1, E2, Nat.eqb_refl. cbn [negb].
  destruct (over_good a b GA GB) as (p & Ep & Gp & P1 & P2 & P3); [congruence|unfold index_ok in *; lia|]. rewrite Ep. cbn [bind].
  destruct (over_good p c Gp GC) as (q & Eq & Gq & Q1 & Q2 & Q3); [congruence|rewrite P1; exact H|]. exists q. rewrite P2 in Q2. rewrite P1 in Q1, Q3. sp; try assumption.
  intros i j. rewrite Q3. unfold over. destruct (i <? coo_rows a + coo_rows b); [apply P3|reflexivity].
Qed.
Lemma square_good (a b c d : Coo T) : coo_good a -> coo_good b -> coo_good c -> coo_good d -> coo_rows b = coo_rows a -> coo_rows d = coo_rows c ->
  coo_cols a + coo_cols b = coo_cols c + coo_cols d -> index_ok I (coo_cols a + coo_cols b) -> index_ok I (coo_rows a + coo_rows c) ->
  exists r, Coo_compose I a b c d = Ok r /\ coo_good r /\ coo_rows r = coo_rows a + coo_rows c /\ coo_cols r = coo_cols a + coo_cols b /\
    length (coo_values r) = length (coo_values a) + length (coo_values b) + length (coo_values c) + length (coo_values d) /\
    forall i j, coo_val r i j = over (beside (coo_val a) (coo_val b) (coo_cols a)) (beside (coo_val c) (coo_val d) (coo_cols c)) (coo_rows a) i j.
Proof.
  intros GA GB GC GD E1 E2 E3 H1 H2. unfold Coo_compose.
  destruct (beside_good a b GA GB) as (p & Ep & Gp & P1 & P2 & PL & P3); [congruence|exact H1|]. rewrite Ep. cbn [bind].
  destruct (beside_good c d GC GD) as (q & Eq & Gq & Q1 & Q2 & QL & Q3); [congruence|rewrite <- E3; exact H1|]. rewrite Eq. cbn [bind].
  destruct (over_good p q Gp Gq) as (r & Er & Gr & R1 & R2 & R3); [congruence|rewrite P1, Q1; exact H2|]. exists r. rewrite P1, Q1 in R1. rewrite P2 in R2. rewrite P1 in R3. sp; try assumption.
  - pose proof (c25_v_stack I p q (proj1 Gp) (proj1 Gq)) as [_ V]. destruct V as (r' & Er' & Wr & _ & _ & Ent & _); [congruence|rewrite P1, Q1; exact H2|]. rewrite Er in Er'. injection Er' as <-.
    rewrite <- (coo_entries_length I r Wr), Ent, app_length. unfold placed. rewrite map_length, (coo_entries_length I p), (coo_entries_length I q) by (apply Gp || apply Gq). lia.
  - intros i j. rewrite R3. unfold over, beside. destruct (i <? coo_rows a); [apply P3|apply Q3].
Qed.
Lemma csc_to_coo_good (m : CSC T) : csc_good m -> exists r, CSC_to_coo I m = Ok r /\ coo_good r /\ coo_rows r = csc_rows m /\ coo_cols r = csc_cols m /\
  length (coo_values r) = csc_count m /\ forall i j, j < csc_cols m -> coo_val r i j = csc_val m i j.
Proof.
  intros (W & H1 & H2 & _). destruct (c07_csc_to_coo I m W (csc_cols_fit_ok m H2)) as (r & E & Wr & R1 & R2 & Ent & A). exists r. unfold coo_good. rewrite R1, R2. sp; try assumption.
  - rewrite <- (coo_entries_length I r Wr), Ent. apply (csc_entries_count I), W.
  - intros i j Hj. unfold coo_val. rewrite A by exact Hj. reflexivity.
Qed.
Lemma csc_square_good (a b c d : CSC T) : csc_good a -> csc_good b -> csc_good c -> csc_good d -> csc_rows b = csc_rows a -> csc_rows d = csc_rows c ->
  csc_cols a + csc_cols b = csc_cols c + csc_cols d -> index_ok I (csc_cols a + csc_cols b) -> index_ok I (csc_rows a + csc_rows c) ->
  (Z.of_nat (csc_count a + csc_count b + csc_count c + csc_count d) < imax I)%Z ->
  exists q r, CSC_compose I a b c d = Ok r /\ coo_good q /\ (Z.of_nat (length (coo_values q)) < imax I)%Z /\ Coo_to_csc I q = Ok r /\
    coo_rows q = csc_rows a + csc_rows c /\ coo_cols q = csc_cols a + csc_cols b /\
    forall i j, j < csc_cols a + csc_cols b -> coo_val q i j = over (beside (csc_val a) (csc_val b) (csc_cols a)) (beside (csc_val c) (csc_val d) (csc_cols c)) (csc_rows a) i j.
Proof.
  intros GA GB GC GD E1 E2 E3 H1 H2 Hf. destruct (csc_to_coo_good a GA) as (a' & Ea & Ga & A1 & A2 & A3 & A4). destruct (csc_to_coo_good b GB) as (b' & Eb & Gb & B1 & B2 & B3 & B4).
  destruct (csc_to_coo_good c GC) as (c' & Ec & Gc & C1 & C2 & C3 & C4). destruct (csc_to_coo_good d GD) as (d' & Ed & Gd & D1 & D2 & D3 & D4).
  destruct (square_good a' b' c' d' Ga Gb Gc Gd) as (q & Eq & Gq & Q1 & Q2 & Q3 & Q4); try congruence.
  assert (Hq : (Z.of_nat (length (coo_values q)) < imax I)%Z) by (rewrite Q3, A3, B3, C3, D3; exact Hf).
  destruct (c02_coo_to_csc I q (proj1 Gq) Hq) as (r & Er & _). exists q, r. rewrite A1, C1 in Q1. rewrite A2, B2 in Q2. sp; try assumption.
  - unfold CSC_compose. rewrite Ea, Eb, Ec, Ed. cbn [bind]. unfold Coo_compose in Eq. destruct (Coo_h_stack I a' b'); try discriminate. cbn [bind] in *. destruct (Coo_h_stack I c' d'); try discriminate. cbn [bind] in *. rewrite Eq. exact Er.
  - intros i j Hj. rewrite Q4, A1, A2, C2. unfold over, beside. destruct (i <? csc_rows a).
    + destruct (Nat.ltb_spec j (csc_cols a)); [apply A4; assumption|apply B4; lia].
    + destruct (Nat.ltb_spec j (csc_cols c)); [apply C4; assumption|apply D4; lia].
Qed.
Lemma square3_good (a b c d e f g h k : Coo T) : coo_good a -> coo_good b -> coo_good c -> coo_good d -> coo_good e -> coo_good f -> coo_good g -> coo_good h -> coo_good k ->
  coo_rows b = coo_rows a -> coo_rows c = coo_rows a -> coo_rows e = coo_rows d -> coo_rows f = coo_rows d -> coo_rows h = coo_rows g -> coo_rows k = coo_rows g ->
  coo_cols d + coo_cols e + coo_cols f = coo_cols a + coo_cols b + coo_cols c -> coo_cols g + coo_cols h + coo_cols k = coo_cols a + coo_cols b + coo_cols c ->
  index_ok I (coo_cols a + coo_cols b + coo_cols c) -> index_ok I (coo_rows a + coo_rows d + coo_rows g) ->
  exists r, Coo_compose3 I a b c d e f g h k = Ok r /\ coo_good r /\ coo_rows r = coo_rows a + coo_rows d + coo_rows g /\ coo_cols r = coo_cols a + coo_cols b + coo_cols c /\
    let row (x y z : Coo T) := beside (beside (coo_val x) (coo_val y) (coo_cols x)) (coo_val z) (coo_cols x + coo_cols y) in
    forall i j, coo_val r i j = over (over (row a b c) (row d e f) (coo_rows a)) (row g h k) (coo_rows a + coo_rows d) i j.
Proof.
  intros Ga Gb Gc Gd Ge Gf Gg Gh Gk E1 E2 E3 E4 E5 E6 E7 E8 H1 H2. unfold Coo_compose3.
  destruct (beside3_good a b c Ga Gb Gc E1 E2 H1) as (p & Ep & Gp & P1 & P2 & P3). rewrite Ep. cbn [bind].
  destruct (beside3_good d e f Gd Ge Gf E3 E4) as (q & Eq & Gq & Q1 & Q2 & Q3); [rewrite E7; exact H1|]. rewrite Eq. cbn [bind].
  destruct (beside3_good g h k Gg Gh Gk E5 E6) as (s & Es & Gs & S1 & S2 & S3); [rewrite E8; exact H1|]. rewrite Es. cbn [bind].
  destruct (over3_good p q s Gp Gq Gs) as (r & Er & Gr & R1 & R2 & R3); try congruence. exists r. rewrite P2 in R1. rewrite P1, Q1, S1 in R2. sp; try assumption.
  intros i j. rewrite R3, P1, Q1. unfold over. destruct (i <? coo_rows a + coo_rows d); [destruct (i <? coo_rows a); [apply P3|apply Q3]|apply S3].
Qed.
(** the shapes of the calls that exist *)
Lemma blocks_cases k ms : do_blocks I k ms <> None ->
  (exists a b c, ms = [MCoo a; MCoo b; MCoo c] /\ (k = KOver3 \/ k = KBeside3)) \/
  (exists a b c d, ms = [MCoo a; MCoo b; MCoo c; MCoo d] /\ k = KSquare) \/
  (exists a b c d, ms = [MCsc a; MCsc b; MCsc c; MCsc d] /\ k = KSquare) \/
  (exists a b c d e f g h i, ms = [MCoo a; MCoo b; MCoo c; MCoo d; MCoo e; MCoo f; MCoo g; MCoo h; MCoo i] /\ k = KSquare3).
Proof.
  intros D. destruct k; cbn [do_blocks] in D;
    repeat match type of D with context [match ?l with _ => _ end] => is_var l; destruct l; try (exfalso; apply D; reflexivity) end.
  - left. eauto 10.
  - left. eauto 10.
  - right. left. eauto 10.
  - right. right. left. eauto 10.
  - right. right. right. do 9 eexists. split; reflexivity.
Qed.
Lemma blocks_good k ms : blocks_ok I k ms -> Forall good ms -> exists r, do_blocks I k ms = Some (Ok r) /\ good r.
Proof.
  intros [D H] G. destruct (blocks_cases k ms D) as [(a & b & c & -> & [-> | ->])|[(a & b & c & d & -> & ->)|[(a & b & c & d & -> & ->)|(a & b & c & d & e & f & g & h & l & -> & ->)]]];
    clear D; unfold rows_ok, row_ok, width, all_equal, index_ok in H; cbn in H; cbn [do_blocks]; fcons; cbn in *; fcons; cbn in *.
  - destruct (over3_good a b c) as (r & E & Gr & _); try assumption; try lia; try (unfold index_ok; lia). rewrite E. eexists. split; [reflexivity|exact Gr].
  - destruct (beside3_good a b c) as (r & E & Gr & _); try assumption; try lia; try (unfold index_ok; lia). rewrite E. eexists. split; [reflexivity|exact Gr].
  - destruct (square_good a b c d) as (r & E & Gr & _); try assumption; try lia; try (unfold index_ok; lia). rewrite E. eexists. split; [reflexivity|exact Gr].
  - destruct (csc_square_good a b c d) as (q & r & E & Gq & Hq & Er & Q1 & Q2 & _); try assumption; try lia; try (unfold index_ok; lia).
    destruct (c02_coo_to_csc I q (proj1 Gq) Hq) as (r' & Er' & Wr & Tt & R1 & R2 & _). rewrite Er in Er'. injection Er' as <-. rewrite E. eexists. split; [reflexivity|].
    apply csc_tight_good; try assumption; [rewrite R1|rewrite R2]; apply Gq.
  - destruct (square3_good a b c d e f g h l) as (r & E & Gr & _); try assumption; try lia; try (unfold index_ok; lia). rewrite E. eexists. split; [reflexivity|exact Gr].
Qed.
Lemma vars_forall (P : mat T -> Prop) st vs ms : Forall P st -> vars st vs = Some ms -> Forall P ms.
Proof.
  intros G. revert ms. induction vs as [|v vs IH]; intros ms E; cbn in E; [injection E as <-; constructor|].
  destruct (nth_error st v) eqn:E1; [|discriminate]. cbn in E. destruct (vars st vs) eqn:E2; [|discriminate]. injection E as <-. constructor; [exact (forall_nth_error _ _ _ _ G E1)|apply IH; reflexivity].
Qed.
Lemma step_good st c : Forall good st -> call_ok I st c -> exists st', step I st c = Ok st' /\ Forall good st'.
Proof.
  intros G. destruct c as [f k|u v|p v|b v w|k vs]; cbn [call_ok step].
  - intros H. destruct (make_good f k H) as (m & -> & Gm). eexists. split; [reflexivity|]. apply forall_snoc; assumption.
  - intros (m & E & H). rewrite E. cbn [obind]. destruct (unary_good u m H (forall_nth_error _ _ _ _ G E)) as (r & -> & Gr). eexists. split; [reflexivity|]. apply forall_snoc; assumption.
  - intros (m & E & H). rewrite E. cbn [obind]. destruct (inplace_good p m H (forall_nth_error _ _ _ _ G E)) as (r & -> & Gr). eexists. split; [reflexivity|]. apply forall_upd; assumption.
  - intros (x & y & E1 & E2 & H). rewrite E1, E2. cbn [obind]. destruct (binary_good b x y H (forall_nth_error _ _ _ _ G E1) (forall_nth_error _ _ _ _ G E2)) as (r & -> & Gr). eexists. split; [reflexivity|]. apply forall_snoc; assumption.
  - intros (ms & E & H). rewrite E. cbn [obind]. destruct (blocks_good k ms H (vars_forall good st vs ms G E)) as (r & -> & Gr). eexists. split; [reflexivity|]. apply forall_snoc; assumption.
Qed.
Lemma run_good cs : forall st, Forall good st -> calls_ok I st cs -> exists st', run I st cs = Ok st' /\ Forall good st'.
Proof.
  induction cs as [|c cs IH]; intros st G H; [exists st; split; [reflexivity|exact G]|]. destruct H as [Hc H]. destruct (step_good st c G Hc) as (st' & E & G'). rewrite E in H.
  cbn [run]. rewrite E. cbn [bind]. apply IH; assumption.
Qed.
Lemma look_good o m : good m -> look_ok I o m -> exists a, do_look I o m = Some (Ok a).
Proof.
  intros G [D H]. destruct o as [order|x| |i j]; destruct m as [m|m|m|m]; cbn [do_look] in *; try (exfalso; apply D; reflexivity); clear D; cbn [mat_cols] in H.
  - destruct (c09_coo_to_dense I m (proj1 G)) as (d & -> & _). eexists. reflexivity.
  - destruct (c09_csr_to_dense I m (proj1 G)) as (d & -> & _). eexists. reflexivity.
  - destruct G as (W & G1 & G2 & _). destruct (c09_csc_to_dense I m W (csc_cols_fit_ok m G2)) as (d & -> & _). eexists. reflexivity.
  - destruct (DoK_to_dense_spec I m order (proj1 G) H) as (d & -> & _). eexists. reflexivity.
  - destruct (proj2 (c15_csr_mat_vec I m x (proj1 G)) H) as (d & -> & _). eexists. reflexivity.
  - destruct (proj2 (c16_csc_mat_vec I m x (proj1 G)) H) as (d & -> & _). eexists. reflexivity.
  - destruct (c28_coo_diagonal I m (proj1 G)) as (d & -> & _). eexists. reflexivity.
  - destruct (c28_csr_diagonal I m (proj1 G)) as (d & -> & _). eexists. reflexivity.
  - destruct (c28_csc_diagonal I m (proj1 G)) as (d & -> & _). eexists. reflexivity.
  - destruct H as (Hi & _). rewrite (proj1 (c32_csr_get I m i j (proj1 G)) Hi). eexists. reflexivity.
  - eexists. reflexivity.
Qed.
Lemma good_wf m : good m -> mat_wf I m.
Proof. destruct m; intros H; apply H. Qed.
End Good.

(** ** Over an exact ring the matrices hold the tables *)
Section Holds.
Context {T : Type} {SC : Scalar T} {SN : ScalarNeg T} {ER : ExactRing T}.
Variable I : ity.
Add Ring TR : (er_ring (T := T)).

(** unused values are zero *)
Definition vpad (m : mat T) : Prop :=
  match m with MCoo _ | MDok _ => True | MCsr m => zpad s0 (csr_count m) (csr_values m) | MCsc m => zpad s0 (csc_count m) (csc_values m) end.

Lemma nz_sum (v : T) : sum0 (nz v) = v.
Proof. unfold nz. destruct (seqb v s0) eqn:E; [apply er_eqb in E; subst; reflexivity|apply sum0_one]. Qed.
Lemma crow_nil p j i : crow (T := T) p j [] i = [].
Proof. unfold crow, part. rewrite skipn_nil, firstn_nil. destruct (map _ _); reflexivity. Qed.
Lemma rect_hd (a : list (list T)) c : a <> [] -> rectangular c a -> length (hd [] a) = c.
Proof. intros N H. destruct a as [|l a]; [contradiction|]. inversion H; assumption. Qed.
Lemma at_single k l i j (f : nat -> T) : i < k + l -> k <= i ->
  map snd (filter (fun e => (fst (fst e) =? i) && (snd (fst e) =? j)) (map (fun q => ((q, q), f q)) (seq k l))) = if i =? j then [f i] else [].
Proof.
  revert k. induction l as [|l IH]; intros k H1 H2; [lia|]. cbn [seq map filter fst snd]. destruct (Nat.eqb_spec k i) as [->|Hne].
  - cbn [andb]. assert (E : forall n q, i < q -> filter (fun e : nat * nat * T => (fst (fst e) =? i) && (snd (fst e) =? j)) (map (fun q => ((q, q), f q)) (seq q n)) = []).
    { induction n as [|n IHn]; intros q Hq; [reflexivity|]. cbn [seq map filter fst snd]. destruct (Nat.eqb_spec q i); [lia|]. cbn [andb]. apply IHn. lia. }
    destruct (i =? j); cbn [map snd]; rewrite E by lia; reflexivity.
  - cbn [andb]. apply IH; lia.
Qed.
Lemma clean_id (v : T) : clean v = v.
Proof. unfold clean. destruct (seqb v s0) eqn:E; [apply er_eqb in E; congruence|reflexivity]. Qed.
Lemma make_holds f k m : make_ok I f k -> do_make I f k = Some (Ok m) -> vpad m /\ holds m (table_make k).
Proof.
  intros [D H] E. destruct k as [r c|a|d|n|r c p q x|r c p q x|r c p q x]; destruct f; cbn [do_make] in *; try (exfalso; apply D; reflexivity); clear D.
  - injection E as <-. split; [exact Logic.I|]. split; [reflexivity|]. split; [reflexivity|]. intros i j _ _. reflexivity.
  - injection E as <-. split; [apply tight_zpad|].
    + cbn. unfold csr_count, ptr. cbn. rewrite nth_repeat. reflexivity.
    + split; [reflexivity|]. split; [reflexivity|]. intros i j _ _. cbn. unfold csr_val, csr_at, csr_row. cbn. rewrite crow_nil. reflexivity.
  - injection E as <-. split; [exact Logic.I|]. split; [reflexivity|]. split; [reflexivity|]. intros i j _ _. reflexivity.
  - destruct H as (N & c & Hr & H1 & H2 & Hn & HD). unfold index_ok in *. destruct (c10_coo_from_dense I a c N Hr) as (m' & E' & W & R1 & R2 & _ & A).
    { intros i j Hi Hj _. lia. } { intros i j Hi Hj _. lia. }
    rewrite E' in E. injection E as <-. split; [exact Logic.I|]. cbn. unfold holds. cbn. rewrite (rect_hd a c N Hr). sp; try assumption. intros i j Hi Hj. unfold coo_val. rewrite A by assumption. apply nz_sum.
  - destruct H as (N & c & Hr & H1 & H2 & Hn & HD). unfold index_ok in *. destruct (c10_csr_from_dense I a c N Hr) as (m' & E' & W & Tt & R1 & R2 & _ & _ & A).
    { intros i j Hi Hj _. lia. } { exact Hn. }
    rewrite E' in E. injection E as <-. split; [apply tight_zpad, Tt|]. cbn. unfold holds. cbn. rewrite (rect_hd a c N Hr). sp; try assumption. intros i j Hi Hj. unfold csr_val. rewrite A by assumption. apply nz_sum.
  - destruct H as (N & c & Hr & H1 & H2 & Hn & HD). unfold index_ok in *. destruct (c10_csc_from_dense I a c N Hr) as (m' & E' & W & Tt & R1 & R2 & _ & _ & A).
    { intros i j Hi Hj _. lia. } { exact Hn. }
    rewrite E' in E. injection E as <-. split; [apply tight_zpad, Tt|]. cbn. unfold holds. cbn. rewrite (rect_hd a c N Hr). sp; try assumption. intros i j Hi Hj. unfold csc_val. rewrite A by assumption. apply nz_sum.
  - destruct H as (N & c & Hr & H1 & H2 & Hn & D1 & D2). destruct (DoK_from_dense_spec I c a N Hr D1 D2) as (m' & E' & W & R1 & R2 & A).
    rewrite E' in E. injection E as <-. split; [exact Logic.I|]. unfold holds. cbn. rewrite (rect_hd a c N Hr). sp; try assumption. intros i j Hi Hj. rewrite A by assumption. apply clean_id.
  - destruct (proj1 (c30_coo_with_diagonal I d)) as (m' & E' & W & R1 & R2 & A); [lia|]. rewrite E' in E. injection E as <-. split; [exact Logic.I|]. unfold holds. cbn. sp; try assumption.
    intros i j Hi Hj. unfold coo_val, coo_at. rewrite A, at_single by lia. destruct (i =? j); [apply sum0_one|reflexivity].
  - destruct (proj1 (c30_csr_with_diagonal I d) ltac:(lia)) as (m' & E' & W & Tt & _ & R1 & R2 & A). rewrite E' in E. injection E as <-. split; [apply tight_zpad, Tt|]. unfold holds. cbn. sp; try assumption.
    intros i j Hi Hj. unfold csr_val. rewrite A by lia. destruct (i =? j); [apply sum0_one|reflexivity].
  - destruct (proj1 (c30_csc_with_diagonal I d) ltac:(lia)) as (m' & E' & W & Tt & _ & R1 & R2 & A). rewrite E' in E. injection E as <-. split; [apply tight_zpad, Tt|]. unfold holds. cbn. sp; try assumption.
    intros i j Hi Hj. unfold csc_val. rewrite A by lia. destruct (i =? j); [apply sum0_one|reflexivity].
  - destruct (proj1 (c30_coo_identity I n) ltac:(unfold index_ok in H; lia)) as (m' & E' & W & R1 & R2 & A). rewrite E' in E. injection E as <-. split; [exact Logic.I|]. unfold holds. cbn. sp; try assumption.
    intros i j Hi Hj. unfold coo_val, coo_at. rewrite A, (at_single 0 n i j (fun _ => s1)) by lia. destruct (i =? j); [apply sum0_one|reflexivity].
  - destruct H as (H1 & H2 & W). rewrite (proj1 (c49_coo_new r c p q x)) in E by (destruct W; split; assumption). injection E as <-. split; [exact Logic.I|]. unfold holds. cbn. sp; reflexivity.
  - destruct H as (H1 & H2 & W & Tt). rewrite (proj1 (c49_csr_new r c p q x)) in E by apply (wf_sized_csr I _ W). injection E as <-. split; [apply tight_zpad, Tt|]. unfold holds. cbn. sp; reflexivity.
  - destruct H as (H1 & H2 & W & Tt). rewrite (proj1 (c49_csc_new r c p q x)) in E by apply (wf_sized_csc I _ W). injection E as <-. split; [apply tight_zpad, Tt|]. unfold holds. cbn. sp; reflexivity.
Qed.

Lemma csr_entries_at (m : CSR T) i j : wf_csr I m -> i < csr_rows m ->
  map snd (filter (fun e => (fst (fst e) =? i) && (snd (fst e) =? j)) (csr_entries m)) = csr_at m i j.
Proof.
  intros W Hi. destruct (wf_csr_rep _ _ W) as [R HR]. rewrite (csr_entries_rep _ _ _ HR), (csr_rep_at _ _ _ _ _ HR). apply vals_of_flat.
Qed.
Lemma to_coo_val (m : CSR T) r : csr_good I m -> zpad s0 (csr_count m) (csr_values m) -> CSR_to_coo I m = Ok r ->
  coo_rows r = csr_rows m /\ coo_cols r = csr_cols m /\ forall i j, i < csr_rows m -> coo_val r i j = csr_val m i j.
Proof.
  intros G Zp E. destruct (spare_to_coo I m G) as (r' & E' & _ & R1 & R2 & Ent). rewrite E in E'. injection E' as <-. sp; try assumption. intros i j Hi.
  unfold coo_val, coo_at. rewrite Ent, filter_app, map_app, sum0_app, csr_entries_at by (assumption || apply G). fold (csr_val m i j).
  rewrite Zp. assert (Z0 : forall n, sum0 (map snd (filter (fun e : nat * nat * T => (fst (fst e) =? i) && (snd (fst e) =? j)) (map (fun v => ((0, 0), v)) (repeat s0 n)))) = s0).
  { induction n as [|n IH]; [reflexivity|]. cbn [repeat map filter fst snd]. destruct (_ && _); cbn [map snd]; [rewrite sum0_cons, IH; ring|exact IH]. }
  rewrite Z0. unfold csr_val. ring.
Qed.

Lemma mapped_holds_csr f g (m r : CSR T) t : f s0 = s0 -> (forall l, sum0 (map f l) = g (sum0 l)) -> csr_mapped f m r -> vpad (MCsr m) -> holds (MCsr m) t ->
  vpad (MCsr r) /\ holds (MCsr r) (mkTable (t_rows t) (t_cols t) (fun i j => g (t_at t i j))).
Proof.
  intros F0 Fs (M1 & M2 & M3 & M4 & M5 & M6) V (H1 & H2 & H3). cbn in *. split.
  - unfold csr_count. rewrite M1, M3, M5. apply (map_zpad f s0); assumption.
  - unfold holds. cbn. rewrite M1, M2. sp; try assumption. intros i j Hi Hj. unfold csr_val. rewrite M6, Fs. f_equal. apply H3; assumption.
Qed.
Lemma mapped_holds_csc f g (m r : CSC T) t : f s0 = s0 -> (forall l, sum0 (map f l) = g (sum0 l)) -> csc_mapped f m r -> vpad (MCsc m) -> holds (MCsc m) t ->
  vpad (MCsc r) /\ holds (MCsc r) (mkTable (t_rows t) (t_cols t) (fun i j => g (t_at t i j))).
Proof.
  intros F0 Fs (M1 & M2 & M3 & M4 & M5 & M6) V (H1 & H2 & H3). cbn in *. split.
  - unfold csc_count. rewrite M2, M4, M5. apply (map_zpad f s0); assumption.
  - unfold holds. cbn. rewrite M1, M2. sp; try assumption. intros i j Hi Hj. unfold csc_val. rewrite M6, Fs. f_equal. apply H3; assumption.
Qed.
Lemma dok_to_coo_val (d : DoK T) order : wf_dok I d -> Permutation order (dok_values d) ->
  exists r, DoK_to_coo d order = Ok r /\ wf_coo I r /\ coo_rows r = dok_rows d /\ coo_cols r = dok_cols d /\ length (coo_values r) = DoK_nnz d /\
    forall i j, coo_val r i j = DoK_get d (Z.of_nat i) (Z.of_nat j).
Proof.
  intros W P. destruct (DoK_to_coo_spec I d order W P) as (r & E & Wr & R1 & R2 & _ & L & A). exists r. sp; try assumption. intros i j. unfold coo_val. rewrite A by (apply er_eqb; reflexivity). apply nz_sum.
Qed.
Lemma nth_picked n l k : picked_ok n l -> k < length (picked n l) -> nth k (picked n l) 0 < n.
Proof.
  destruct l as [l|]; cbn.
  - intros F Hk. unfold in_range in F. rewrite Forall_forall in F. rewrite map_length in Hk. rewrite (nth_indep _ 0 (Z.to_nat 0)) by (rewrite map_length; exact Hk). rewrite map_nth.
    specialize (F (nth k l 0%Z) (nth_In _ _ Hk)). cbn in F. lia.
  - intros _ Hk. rewrite seq_length in Hk. rewrite seq_nth by exact Hk. lia.
Qed.
Lemma unary_holds u m r t : unary_ok I u m -> good I m -> vpad m -> holds m t -> do_unary I u m = Some (Ok r) -> vpad r /\ holds r (table_unary u t).
Proof.
  assert (N0 : sneg s0 = s0) by ring.
  intros [D H] G V Ht E. assert (Ht' := Ht). destruct Ht' as (H1 & H2 & H3). destruct u as [[]|o []| | |s|s|k|rs cs]; destruct m as [m|m|m|m]; cbn [do_unary] in *; try (exfalso; apply D; reflexivity); clear D; cbn in H1, H2, H3.
  - destruct (spare_to_coo I m G) as (r' & E' & Gr & _). rewrite E' in E. injection E as <-. split; [exact Logic.I|]. destruct (to_coo_val m r' G V E') as (R1 & R2 & A).
    unfold holds. cbn. rewrite R1, R2. sp; try assumption. intros i j Hi Hj. rewrite A by congruence. apply H3; assumption.
  - destruct G as (W & G1 & G2 & _). destruct (c07_csc_to_coo I m W (csc_cols_fit_ok I m G2)) as (r' & E' & Wr & R1 & R2 & _ & A). rewrite E' in E. injection E as <-. split; [exact Logic.I|].
    unfold holds. cbn. rewrite R1, R2. sp; try assumption. intros i j Hi Hj. unfold coo_val. rewrite A by congruence. apply H3; assumption.
  - destruct G as (W & G1 & G2). destruct (c01_coo_to_csr I m W H) as (r' & E' & Wr & Tt & R1 & R2 & _ & A). rewrite E' in E. injection E as <-. split; [apply tight_zpad, Tt|].
    unfold holds. cbn. rewrite R1, R2. sp; try assumption. intros i j Hi Hj. unfold csr_val. rewrite A, sum0_dup_sum by congruence. apply H3; assumption.
  - destruct G as (W & G1 & G2 & _). destruct (c04_csc_to_csr I m W (csc_cols_fit_ok I m G2)) as (r' & E' & Wr & Tt & R1 & R2 & _ & A & _). rewrite E' in E. injection E as <-. split; [apply tight_zpad, Tt|].
    unfold holds. cbn. rewrite R1, R2. sp; try assumption. intros i j Hi Hj. unfold csr_val. rewrite A by congruence. apply H3; assumption.
  - destruct G as (W & G1 & G2). destruct (c02_coo_to_csc I m W H) as (r' & E' & Wr & Tt & R1 & R2 & _ & A). rewrite E' in E. injection E as <-. split; [apply tight_zpad, Tt|].
    unfold holds. cbn. rewrite R1, R2. sp; try assumption. intros i j Hi Hj. unfold csc_val. rewrite A, sum0_dup_sum by congruence. apply H3; assumption.
  - destruct G as (W & G1 & G2 & _). destruct (c03_csr_to_csc I m W (csr_rows_fit_ok I m G1)) as (r' & E' & Wr & Tt & R1 & R2 & _ & A & _). rewrite E' in E. injection E as <-. split; [apply tight_zpad, Tt|].
    unfold holds. cbn. rewrite R1, R2. sp; try assumption. intros i j Hi Hj. unfold csc_val. rewrite A by congruence. apply H3; assumption.
  - destruct G as (W & _), H as (P & _). destruct (dok_to_coo_val m o W P) as (r' & E' & _ & R1 & R2 & _ & A). rewrite E' in E. injection E as <-. split; [exact Logic.I|].
    unfold holds. cbn. rewrite R1, R2. sp; try assumption. intros i j Hi Hj. rewrite A. apply H3; assumption.
  - destruct G as (W & _), H as (P & Hn). destruct (dok_to_coo_val m o W P) as (q & E' & Wq & R1 & R2 & L & A). unfold DoK_to_csr in E. rewrite E' in E. cbn [bind mat_count] in E, Hn. rewrite <- L in Hn.
    destruct (c01_coo_to_csr I q Wq Hn) as (r' & E2 & Wr & Tt & Q1 & Q2 & _ & B). rewrite E2 in E. injection E as <-. split; [apply tight_zpad, Tt|].
    unfold holds. cbn. rewrite Q1, Q2, R1, R2. sp; try assumption. intros i j Hi Hj. unfold csr_val. rewrite B, sum0_dup_sum by congruence. etransitivity; [apply A|]. apply H3; assumption.
  - destruct G as (W & _), H as (P & Hn). destruct (dok_to_coo_val m o W P) as (q & E' & Wq & R1 & R2 & L & A). unfold DoK_to_csc in E. rewrite E' in E. cbn [bind mat_count] in E, Hn. rewrite <- L in Hn.
    destruct (c02_coo_to_csc I q Wq Hn) as (r' & E2 & Wr & Tt & Q1 & Q2 & _ & B). rewrite E2 in E. injection E as <-. split; [apply tight_zpad, Tt|].
    unfold holds. cbn. rewrite Q1, Q2, R1, R2. sp; try assumption. intros i j Hi Hj. unfold csc_val. rewrite B, sum0_dup_sum by congruence. etransitivity; [apply A|]. apply H3; assumption.
  - injection E as <-. split; [exact Logic.I|]. destruct (c08_coo_transpose I m) as (R1 & R2 & A & _). unfold holds. cbn. sp; try assumption. intros i j Hi Hj. etransitivity; [exact (f_equal sum0 (A j i))|]. apply H3; assumption.
  - destruct G as (W & G1 & G2 & _). destruct (c08_csr_transpose I m W) as (c & Ec & _ & R1 & R2 & A & _). destruct (wf_csr_rep _ _ W) as [R HR]. rewrite (csr_t_rep _ _ _ HR) in E, Ec. injection E as <-. injection Ec as <-.
    split; [exact V|]. unfold holds. cbn. sp; try assumption. intros i j Hi Hj. unfold csc_val. rewrite A. apply H3; assumption.
  - destruct G as (W & G1 & G2 & _). destruct (c08_csc_transpose I m W) as (c & Ec & _ & R1 & R2 & A & _). destruct (wf_csc_rep _ _ W) as [R HR]. rewrite (csc_t_rep _ _ _ HR) in E, Ec. injection E as <-. injection Ec as <-.
    split; [exact V|]. unfold holds. cbn. sp; try assumption. intros i j Hi Hj. unfold csr_val. rewrite A. apply H3; assumption.
  - destruct G as (W & G1 & G2). destruct (c23_coo_neg m) as (r' & E' & (M1 & M2 & M3 & M4 & M5 & M6)). { destruct W. split; assumption. }
    rewrite E' in E. injection E as <-. split; [exact Logic.I|]. unfold holds. cbn. rewrite M1, M2. sp; try assumption. intros i j Hi Hj. unfold coo_val. rewrite M6, sum0_map_opp. f_equal. apply H3; assumption.
  - destruct (c23_csr_neg m (wf_sized_csr I m (proj1 G))) as (r' & E' & M). rewrite E' in E. injection E as <-. exact (mapped_holds_csr _ _ _ _ _ N0 sum0_map_opp M V Ht).
  - destruct (c23_csc_neg m (wf_sized_csc I m (proj1 G))) as (r' & E' & M). rewrite E' in E. injection E as <-. exact (mapped_holds_csc _ _ _ _ _ N0 sum0_map_opp M V Ht).
  - destruct (proj1 (c23_csr_scale m s (wf_sized_csr I m (proj1 G)))) as (r' & E' & M). rewrite E' in E. injection E as <-.
    refine (mapped_holds_csr (fun v => smul v s) (fun v => smul v s) _ _ _ _ (fun l => sum0_map_mul_r l s) M V Ht). ring.
  - destruct (proj2 (c23_csr_scale m s (wf_sized_csr I m (proj1 G)))) as (r' & E' & M). rewrite E' in E. injection E as <-.
    refine (mapped_holds_csr (fun v => smul s v) (fun v => smul s v) _ _ _ _ (fun l => sum0_map_mul_l l s) M V Ht). ring.
  - destruct G as (W & _). destruct (proj1 (c27_upper I m k W) H) as (r' & E' & Wr & R1 & R2 & Ent). rewrite E' in E. injection E as <-. split; [exact Logic.I|].
    unfold holds. cbn. rewrite R1, R2. sp; try assumption. intros i j Hi Hj. rewrite <- (H3 i j Hi Hj). unfold coo_val, coo_at. rewrite Ent. clear - ER.
    induction (coo_entries m) as [|e l IH]; [destruct (_ <=? _)%Z; reflexivity|]. cbn [filter]. destruct (Nat.eqb_spec (fst (fst e)) i) as [E1|E1]; [destruct (Nat.eqb_spec (snd (fst e)) j) as [E2|E2]|].
    + rewrite E1, E2. destruct (_ <=? _)%Z eqn:Ek; [|exact IH]. cbn [filter]. rewrite E1, E2, !Nat.eqb_refl. cbn [andb map snd]. rewrite !sum0_cons, IH. reflexivity.
    + cbn [andb]. destruct (Z.of_nat (fst (fst e)) + k <=? Z.of_nat (snd (fst e)))%Z; [|exact IH]. cbn [filter]. rewrite E1, Nat.eqb_refl. destruct (Nat.eqb_spec (snd (fst e)) j); [lia|]. exact IH.
    + cbn [andb]. destruct (Z.of_nat (fst (fst e)) + k <=? Z.of_nat (snd (fst e)))%Z; [|exact IH]. cbn [filter]. destruct (Nat.eqb_spec (fst (fst e)) i); [lia|]. exact IH.
  - cbn in H. destruct H as (F1 & F2 & F3 & F4 & F5 & F6 & F7 & F8 & F9). destruct G as (W & _).
    destruct (c31_csr_select I m rs cs W F1 F2 F3 F4 F5 F6 (picked_index _ _ _ F8) F9) as (r' & E' & R1 & R2 & Wr & Tt & _ & A). rewrite E' in E. injection E as <-. split; [apply tight_zpad, Tt|].
    unfold holds. cbn. rewrite <- H1, <- H2. sp; try assumption. intros i j Hi Hj. unfold csr_val. rewrite A by assumption. apply H3; [rewrite <- H1|rewrite <- H2]; apply nth_picked; assumption.
  - cbn in H. destruct H as (F1 & F2 & F3 & F4 & F5 & F6 & F7 & F8 & F9). destruct G as (W & _). rewrite list_sum_swap in F9.
    destruct (c31_csc_select I m rs cs W F1 F2 F3 F4 F5 F6 (picked_index _ _ _ F7) F9) as (r' & E' & R1 & R2 & Wr & Tt & _ & A). rewrite E' in E. injection E as <-. split; [apply tight_zpad, Tt|].
    unfold holds. cbn. rewrite <- H1, <- H2. sp; try assumption. intros i j Hi Hj. unfold csc_val. rewrite A by assumption. apply H3; [rewrite <- H1|rewrite <- H2]; apply nth_picked; assumption.
Qed.

Lemma push_holds (m : Coo T) i j x t : wf_coo I m -> holds (MCoo m) t -> holds (MCoo (Coo_push m i j x)) (table_push t i j x).
Proof.
  intros [] (H1 & H2 & H3). cbn [mat_rows mat_cols mat_val] in H1, H2, H3. unfold holds, table_push, table_change. cbn [mat_rows mat_cols mat_val t_rows t_cols t_at]. sp; try assumption. intros i' j' Hi Hj. rewrite <- (H3 i' j' Hi Hj).
  unfold coo_val, coo_at, coo_entries. cbn [Coo_push coo_rowidx coo_colidx coo_values]. rewrite !map_app, combine_app, combine_app, filter_app, map_app, sum0_app by (rewrite ?combine_length, !map_length; lia). cbn [map combine filter fst snd].
  rewrite (Nat.eqb_sym (Z.to_nat i)), (Nat.eqb_sym (Z.to_nat j)). destruct (_ && _); cbn [map snd]; [rewrite sum0_one; reflexivity|rewrite sum0_nil; ring].
Qed.
Lemma extend_holds i j x : forall (m : Coo T) t, coo_good I m -> length i = length x -> length j = length x -> Forall2 (in_size (coo_rows m) (coo_cols m)) i j ->
  holds (MCoo m) t -> holds (MCoo (Coo_extend m i j x)) (table_extend t i j x).
Proof.
  revert j x. induction i as [|a i IH]; intros [|b j] [|v x] m t G L1 L2 F Ht; cbn in L1, L2; try lia.
  - unfold Coo_extend. rewrite !app_nil_r. destruct m. exact Ht.
  - inversion F as [|? ? ? ? [Fa Fb] F']; subst. replace (Coo_extend m (a :: i) (b :: j) (v :: x)) with (Coo_extend (Coo_push m a b v) i j x) by (unfold Coo_extend, Coo_push; cbn; rewrite <- !app_assoc; reflexivity).
    cbn [table_extend]. apply IH; try lia; [apply push_good; assumption|exact F'|]. apply push_holds; [apply G|exact Ht].
Qed.
Lemma dok_set_holds (m r : DoK T) t i j v f : wf_dok I m -> holds (MDok m) t -> in_size (dok_rows m) (dok_cols m) i j -> (Z.of_nat (dok_rows m) <= imax I)%Z -> (Z.of_nat (dok_cols m) <= imax I)%Z ->
  v = f (DoK_get m i j) -> DoK_set I m i j v = Ok r -> holds (MDok r) (table_change t i j f).
Proof.
  intros W (H1 & H2 & H3) Hi Hr Hc Hv E. pose proof (DoK_set_ok I m i j v W Hr Hc) as X. rewrite (in_bounds_inside _ _ _ _ Hi) in X. destruct X as (d & E' & Wd & E1 & E2 & A). rewrite E in E'. injection E' as <-.
  cbn in H1, H2, H3. unfold holds. cbn. rewrite E1, E2. sp; try assumption. intros i' j' Hi' Hj'. rewrite A. unfold put. destruct Hi as [Hi Hj].
  destruct (Nat.eqb_spec i' (Z.to_nat i)) as [->|N1]; [destruct (Nat.eqb_spec j' (Z.to_nat j)) as [->|N2]|]; cbn [andb].
  - rewrite !Z2Nat.id by lia. rewrite !Z.eqb_refl. cbn [andb]. rewrite clean_id, Hv. f_equal. rewrite <- H3 by assumption. rewrite !Z2Nat.id by lia. reflexivity.
  - destruct (Z.eqb_spec (Z.of_nat j') j); [lia|]. rewrite andb_false_r. apply H3; assumption.
  - destruct (Z.eqb_spec (Z.of_nat i') i); [lia|]. apply H3; assumption.
Qed.
Lemma inplace_holds p m r t : inplace_ok I p m -> good I m -> vpad m -> holds m t -> do_inplace I p m = Some (Ok r) -> vpad r /\ holds r (table_inplace p t).
Proof.
  intros [D H] G V Ht E. assert (Ht' := Ht). destruct Ht' as (H1 & H2 & H3). destruct p as [| |pi pj px|pi pj px|o]; destruct m as [m|m|m|m]; cbn [do_inplace table_inplace] in *; try (exfalso; apply D; reflexivity); clear D; cbn in H1, H2, H3, V.
  - destruct G as (W & _). destruct (c13_csr_sort_indexes I m W) as (s & E' & Ws & R1 & R2 & R3 & _ & _ & A). destruct (CSR_sort_spare I m s W E') as (_ & K2 & _).
    rewrite E' in E. injection E as <-. split.
    + cbn. unfold csr_count. rewrite R1, R3. eapply kept_zpad; [exact K2|exact V].
    + unfold holds. cbn. rewrite R1, R2. sp; try assumption. intros i j Hi Hj. unfold csr_val. rewrite A. apply H3; assumption.
  - destruct G as (W & _). destruct (c13_csc_sort_indexes I m W) as (s & E' & Ws & R1 & R2 & R3 & _ & _ & A). destruct (CSC_sort_spare I m s W E') as (_ & K2 & _).
    rewrite E' in E. injection E as <-. split.
    + cbn. unfold csc_count. rewrite R2, R3. eapply kept_zpad; [exact K2|exact V].
    + unfold holds. cbn. rewrite R1, R2. sp; try assumption. intros i j Hi Hj. unfold csc_val. rewrite A. apply H3; assumption.
  - assert (W := proj1 G). destruct (c14_csr_sum_duplicates I m W H) as (s & E' & Ws & R1 & R2 & _ & A & S1 & S2 & _). rewrite E' in E. injection E as <-. split.
    + destruct (c11_csr_has_canonical_format I m W H) as (b & _ & Hb). destruct b; [rewrite S1 by tauto; exact V|]. cbn. apply tight_zpad. apply S2. right. intros C. apply Hb in C. discriminate.
    + unfold holds. cbn. rewrite R1, R2. sp; try assumption. intros i j Hi Hj. unfold csr_val. rewrite A, sum0_dup_sum. apply H3; assumption.
  - assert (W := proj1 G). destruct (c14_csc_sum_duplicates I m W H) as (s & E' & Ws & R1 & R2 & _ & A & S1 & S2 & _). rewrite E' in E. injection E as <-. split.
    + destruct (c11_csc_has_canonical_format I m W H) as (b & _ & Hb). destruct b; [rewrite S1 by tauto; exact V|]. cbn. apply tight_zpad. apply S2. right. intros C. apply Hb in C. discriminate.
    + unfold holds. cbn. rewrite R1, R2. sp; try assumption. intros i j Hi Hj. unfold csc_val. rewrite A, sum0_dup_sum. apply H3; assumption.
  - injection E as <-. split; [exact Logic.I|]. apply push_holds; [apply G|exact Ht].
  - injection E as <-. destruct H as (L1 & L2 & F). split; [exact Logic.I|]. apply extend_holds; assumption.
  - destruct (dok_apply I m o) as [d| | |] eqn:Ed; try discriminate. injection E as <-. split; [exact Logic.I|]. cbn [mat_rows mat_cols] in H. destruct G as (W & _).
    destruct o as [i j v|i j v|i j v]; destruct H as (Hi & Hr & Hc); cbn [dok_apply] in Ed.
    + exact (dok_set_holds m d t i j v (fun _ => v) W Ht Hi Hr Hc eq_refl Ed).
    + exact (dok_set_holds m d t i j _ (fun w => sadd w v) W Ht Hi Hr Hc eq_refl Ed).
    + exact (dok_set_holds m d t i j _ (fun w => ssub w v) W Ht Hi Hr Hc eq_refl Ed).
Qed.

Lemma csc_op_add_val (a b s : CSC T) : wf_csc I a -> wf_csc I b -> csc_rows b = csc_rows a -> csc_cols b = csc_cols a ->
  (Z.of_nat (csc_count a + csc_count b) < imax I)%Z -> CSC_op_add I a b = Ok s ->
  forall i j, j < csc_cols a -> csc_val s i j = sadd (csc_val a i j) (csc_val b i j).
Proof.
  intros HA HB E1 E2 Hf Es i j Hj. destruct (c20_csc_op_add I a b HA HB E1 E2 Hf) as (s' & Es' & _ & _ & _ & _ & _ & _ & S1 & S2). rewrite Es in Es'. injection Es' as <-.
  assert (En : csc_entrywise sum0 sadd a b s).
  { destruct (wf_csc_rep _ _ HA) as [RA RPA], (wf_csc_rep _ _ HB) as [RB RPB].
    destruct (both_dec RA RB) as [B|B]; rewrite (both_csc I a b RA RB RPA RPB) in B; [|auto].
    specialize (S2 B). destruct B as [CA CB]. intros i' j' Hj'. rewrite (S2 i' j' Hj'). unfold csc_at. rewrite !canonical_at_read; [reflexivity|apply CB; lia|apply CA, Hj']. }
  unfold csc_val. rewrite (En i j Hj), keep_sum; [reflexivity|]. intros E. apply app_eq_nil in E as [-> ->]. rewrite sum0_nil. ring.
Qed.
Lemma mul_csc_vpad (a b r : CSC T) : CSC_mat_mat I a b = Ok r -> vpad (MCsc r).
Proof. intros E. apply (CSC_mat_mat_spare I a b r E). Qed.
Lemma to_coo_val_pad (m : CSR T) r : csr_good I m -> zpad s0 (csr_count m) (csr_values m) -> CSR_to_coo I m = Ok r -> forall i j, i < csr_rows m -> coo_val r i j = csr_val m i j.
Proof. intros G Z E. apply (to_coo_val m r G Z E). Qed.
Lemma binary_holds b x y r t u : binary_ok I b x y -> good I x -> good I y -> vpad x -> vpad y -> holds x t -> holds y u -> do_binary I b x y = Some (Ok r) -> vpad r /\ holds r (table_binary b t u).
Proof.
  intros [D H] GX GY VX VY (H1 & H2 & H3) (U1 & U2 & U3) E. destruct b; destruct x as [a|a|a|a]; destruct y as [b|b|b|b]; cbn [do_binary] in *; try (exfalso; apply D; reflexivity); clear D; cbn in H, H1, H2, H3, U1, U2, U3.
  - destruct H as (E1 & E2 & Hf). destruct GX as (WA & _), GY as (WB & _). destruct (proj2 (c24_coo_add I a b WA WB) E1 E2 Hf) as (r' & E' & W & Tt & R1 & R2 & _ & A).
    rewrite E' in E. injection E as <-. split; [apply tight_zpad, Tt|]. unfold holds. cbn. rewrite R1, R2. sp; try assumption. intros i j Hi Hj. unfold csr_val. rewrite A, sum0_dup_sum, sum0_app by congruence.
    f_equal; [apply H3; assumption|apply U3; congruence].
  - destruct H as (E1 & E2 & Hf). symmetry in E1, E2. destruct GX as (WA & _), GY as (WB & _). destruct (c19_csr_add I a b WA WB E1 E2 Hf) as (r' & E' & W & R1 & R2 & _).
    destruct (c19_csr_sum I a b WA WB E1 E2 Hf) as (s & d & Es & _ & A). rewrite E' in Es. injection Es as <-. pose proof (CSR_add_spare I a b r' E') as [_ Z1].
    rewrite E' in E. injection E as <-. split; [exact Z1|]. unfold holds. cbn. rewrite R1, R2. sp; try assumption. intros i j Hi Hj. rewrite (proj1 (A i j ltac:(congruence))). f_equal; [apply H3; assumption|apply U3; congruence].
  - destruct H as (E1 & E2 & Hf). symmetry in E1, E2. destruct GX as (WA & _), GY as (WB & _). destruct (c20_csc_op_add I a b WA WB E1 E2 Hf) as (r' & E' & W & R1 & R2 & _).
    pose proof (csc_op_add_val a b r' WA WB E1 E2 Hf E') as A. pose proof (CSC_op_add_spare I a b r' E') as [_ Z1].
    rewrite E' in E. injection E as <-. split; [exact Z1|]. unfold holds. cbn. rewrite R1, R2. sp; try assumption. intros i j Hi Hj. rewrite (A i j ltac:(congruence)). f_equal; [apply H3; assumption|apply U3; congruence].
  - destruct H as (E1 & E2 & Hf). symmetry in E1, E2. destruct GX as (WA & _), GY as (WB & _). destruct (c19_csr_sub I a b WA WB E1 E2 Hf) as (r' & E' & W & R1 & R2 & _).
    destruct (c19_csr_sum I a b WA WB E1 E2 Hf) as (s & d & _ & Es & A). rewrite E' in Es. injection Es as <-. pose proof (CSR_sub_spare I a b r' E') as [_ Z1].
    rewrite E' in E. injection E as <-. split; [exact Z1|]. unfold holds. cbn. rewrite R1, R2. sp; try assumption. intros i j Hi Hj. rewrite (proj2 (A i j ltac:(congruence))). f_equal; [apply H3; assumption|apply U3; congruence].
  - destruct H as (E1 & E2 & Hf). symmetry in E1, E2. destruct GX as (WA & _), GY as (WB & _). destruct (c20_csc_subtract I a b WA WB E1 E2 Hf) as (r' & E' & Tt & W & R1 & R2 & _).
    destruct (c20_csc_sum I a b WA WB E1 E2 Hf) as (s & d & _ & Es & A). rewrite E' in Es. injection Es as <-.
    rewrite E' in E. injection E as <-. split; [apply tight_zpad, Tt|]. unfold holds. cbn. rewrite R1, R2. sp; try assumption. intros i j Hi Hj. rewrite (proj2 (A i j ltac:(congruence))). f_equal; [apply H3; assumption|apply U3; congruence].
  - destruct H as (E1 & Hf). destruct GX as (WA & _), GY as (WB & _). destruct (c17_csr_mat_mat I a b WA WB E1 Hf) as (r' & E3 & E' & W & R1 & R2 & _).
    pose proof (c17_csr_product I a b r' WA WB E1 Hf E3) as A. pose proof (CSR_mat_mat_spare I a b r' E3) as [_ Z1].
    rewrite E' in E. injection E as <-. split; [exact Z1|]. unfold holds. cbn. rewrite R1, R2. sp; try assumption. intros i j Hi Hj. rewrite (A i j ltac:(congruence)), H2. apply rsum_ext. intros q Hq. f_equal; [apply H3; assumption|apply U3; congruence].
  - destruct H as (E1 & Hf). destruct GX as (WA & G1 & G2 & _), GY as (WB & G3 & _). destruct (c03_csr_to_csc I b WB (csr_rows_fit_ok I b G3)) as (bc & Eb & Wb & _ & B1 & B2 & _ & Ab & _).
    assert (Hf2 : (Z.of_nat (csc_product_count a bc) <= imax I)%Z) by (rewrite (mixed_count_csc I a b bc Wb B1 B2 Ab); exact Hf).
    destruct (c18_csc_mat_mat I a bc WA Wb) as (r' & E3 & E' & W & R1 & R2 & _); [congruence|exact Hf2|].
    pose proof (c18_csc_product I a bc r' WA Wb ltac:(congruence) Hf2 E3) as A. pose proof (mul_csc_vpad a bc r' E3) as Z1.
    unfold CSC_mul_csr in E. rewrite Eb in E. cbn [bind] in E. fold (CSC_mul I a bc) in E. rewrite E' in E. injection E as <-. split; [exact Z1|]. unfold holds. cbn. rewrite R1, R2, B2. sp; try assumption.
    intros i j Hi Hj. rewrite (A i j ltac:(congruence)), H2. apply rsum_ext. intros q Hq. f_equal; [apply H3; assumption|]. unfold csc_val. rewrite Ab by congruence. apply U3; congruence.
  - destruct H as (E1 & Hf). destruct GX as (WA & _), GY as (WB & _). destruct (c18_csc_mat_mat I a b WA WB E1 Hf) as (r' & E3 & E' & W & R1 & R2 & _).
    pose proof (c18_csc_product I a b r' WA WB E1 Hf E3) as A. pose proof (mul_csc_vpad a b r' E3) as Z1.
    rewrite E' in E. injection E as <-. split; [exact Z1|]. unfold holds. cbn. rewrite R1, R2. sp; try assumption. intros i j Hi Hj. rewrite (A i j ltac:(congruence)), H2. apply rsum_ext. intros q Hq. f_equal; [apply H3; assumption|apply U3; congruence].
  - destruct H as (E1 & Hi). destruct (over_good I a b GX GY E1 Hi) as (r' & E' & _ & R1 & R2 & A). rewrite E' in E. injection E as <-. split; [exact Logic.I|].
    unfold holds. cbn [mat_rows mat_cols mat_val table_binary table_over table_beside t_rows t_cols t_at]. rewrite R1, R2, <- H1, <- U1. sp; try assumption. intros i j Hi' Hj. rewrite A. destruct (Nat.ltb_spec i (coo_rows a)); [apply H3; congruence|apply U3; lia].
  - destruct H as (E1 & Hi & _). destruct (beside_good I a b GX GY E1 Hi) as (r' & E' & _ & R1 & R2 & _ & A). rewrite E' in E. injection E as <-. split; [exact Logic.I|].
    unfold holds. cbn [mat_rows mat_cols mat_val table_binary table_over table_beside t_rows t_cols t_at]. rewrite R1, R2, <- H2, <- U2. sp; try assumption. intros i j Hi' Hj. rewrite A. destruct (Nat.ltb_spec j (coo_cols a)); [apply H3; congruence|apply U3; lia].
  - destruct H as (E1 & Hi & Hf). destruct (csr_beside_good I a b GX GY E1 Hi Hf) as (ca & cb & c & r' & Ea & Eb & _ & Gc & C1 & C2 & C3 & Hc & E' & Er & _). rewrite E' in E. injection E as <-.
    destruct (c01_coo_to_csr I c (proj1 Gc) Hc) as (r'' & E2 & Wr & Tt & Q1 & Q2 & _ & B). rewrite Er in E2. injection E2 as <-. split; [apply tight_zpad, Tt|].
    unfold holds. cbn [mat_rows mat_cols mat_val table_binary table_over table_beside t_rows t_cols t_at]. rewrite Q1, Q2, C1, C2, <- H2, <- U2. sp; try assumption. intros i j Hi' Hj. unfold csr_val. rewrite B, sum0_dup_sum by congruence. etransitivity; [apply C3|].
    destruct (Nat.ltb_spec j (csr_cols a)).
    + rewrite (to_coo_val_pad a ca GX VX Ea) by congruence. apply H3; congruence.
    + rewrite (to_coo_val_pad b cb GY VY Eb) by congruence. apply U3; [congruence|lia].
Qed.
Definition sim (m : mat T) (t : table T) : Prop := good I m /\ vpad m /\ holds m t.
Lemma forall2_upd {A B} (P : A -> B -> Prop) l k v a b : Forall2 P l k -> P a b -> Forall2 P (upd l v a) (upd k v b).
Proof. intros H Ha. revert v. induction H as [|c d l k Hb H IH]; intros [|v]; cbn [upd]; constructor; auto. Qed.
Lemma forall2_nth {A B} (P : A -> B -> Prop) l k v a d : Forall2 P l k -> nth_error l v = Some a -> P a (nth v k d).
Proof. intros H. revert v. induction H as [|c e l k Hb H IH]; intros [|v] E; cbn in *; try discriminate; [injection E as <-; exact Hb|apply IH, E]. Qed.
Lemma forall2_snoc {A B} (P : A -> B -> Prop) l k a b : Forall2 P l k -> P a b -> Forall2 P (l ++ [a]) (k ++ [b]).
Proof. intros H Ha. apply Forall2_app; [exact H|]. constructor; [exact Ha|constructor]. Qed.
Lemma holds_coo (m : Coo T) (t : table T) f : coo_rows m = t_rows t -> coo_cols m = t_cols t -> (forall i j, coo_val m i j = f i j) -> (forall i j, i < t_rows t -> j < t_cols t -> f i j = t_at t i j) -> holds (MCoo m) t.
Proof. intros H1 H2 H3 H4. unfold holds. cbn. sp; try assumption. intros i j Hi Hj. rewrite H3. apply H4; assumption. Qed.
Ltac split_blocks :=
  repeat match goal with
  | H : coo_rows ?a = t_rows _ |- context [coo_rows ?a] => rewrite H
  | H : coo_cols ?a = t_cols _ |- context [coo_cols ?a] => rewrite H
  | H : csc_rows ?a = t_rows _ |- context [csc_rows ?a] => rewrite H
  | H : csc_cols ?a = t_cols _ |- context [csc_cols ?a] => rewrite H
  end;
  repeat match goal with |- context [?x <? ?y] => destruct (Nat.ltb_spec x y) end; try lia;
  repeat match goal with H : forall i j, i < t_rows ?t -> j < t_cols ?t -> _ = t_at ?t i j |- _ = t_at ?t _ _ => apply H; lia end.
Lemma blocks_holds k ms r ts : blocks_ok I k ms -> Forall (good I) ms -> Forall2 holds ms ts -> do_blocks I k ms = Some (Ok r) -> vpad r /\ holds r (table_blocks k ts).
Proof.
  intros [D H] G F E. destruct (blocks_cases I k ms D) as [(a & b & c & -> & [-> | ->])|[(a & b & c & d & -> & ->)|[(a & b & c & d & -> & ->)|(a & b & c & d & e & f & g & h & l & -> & ->)]]];
    clear D; unfold rows_ok, row_ok, width, all_equal, index_ok in H; cbn in H; cbn [do_blocks] in E; fcons; repeat (cbn [width map list_sum fold_right mat_rows mat_cols hd mat_count csc_mat] in *; fcons); cbn [good mat_rows mat_cols] in *; fcons;
    repeat match goal with F : Forall2 holds (_ :: _) _ |- _ => inversion F as [|? ? ? ? (? & ? & ?) ?]; clear F; subst | F : Forall2 holds [] _ |- _ => inversion F; clear F; subst end;
    cbn [mat_rows mat_cols mat_val] in *; cbn [table_blocks].
  - destruct (over3_good I a b c) as (r' & E' & _ & R1 & R2 & A); try assumption; try lia; try (unfold index_ok; lia). rewrite E' in E. injection E as <-. split; [exact Logic.I|].
    refine (holds_coo _ _ _ _ _ A _); [cbn [mat_rows mat_cols mat_val table_binary table_over table_beside t_rows t_cols t_at]; lia|cbn [mat_rows mat_cols mat_val table_binary table_over table_beside t_rows t_cols t_at]; lia|]. intros i j Hi Hj. cbn [mat_rows mat_cols mat_val table_binary table_over table_beside t_rows t_cols t_at] in *. unfold over. split_blocks.
  - destruct (beside3_good I a b c) as (r' & E' & _ & R1 & R2 & A); try assumption; try lia; try (unfold index_ok; lia). rewrite E' in E. injection E as <-. split; [exact Logic.I|].
    refine (holds_coo _ _ _ _ _ A _); [cbn [mat_rows mat_cols mat_val table_binary table_over table_beside t_rows t_cols t_at]; lia|cbn [mat_rows mat_cols mat_val table_binary table_over table_beside t_rows t_cols t_at]; lia|]. intros i j Hi Hj. cbn [mat_rows mat_cols mat_val table_binary table_over table_beside t_rows t_cols t_at] in *. unfold beside. split_blocks.
  - destruct (square_good I a b c d) as (r' & E' & _ & R1 & R2 & _ & A); try assumption; try lia; try (unfold index_ok; lia). rewrite E' in E. injection E as <-. split; [exact Logic.I|].
    refine (holds_coo _ _ _ _ _ A _); [cbn [mat_rows mat_cols mat_val table_binary table_over table_beside t_rows t_cols t_at]; lia|cbn [mat_rows mat_cols mat_val table_binary table_over table_beside t_rows t_cols t_at]; lia|]. intros i j Hi Hj. cbn [mat_rows mat_cols mat_val table_binary table_over table_beside t_rows t_cols t_at] in *. unfold over, beside. split_blocks.
  - destruct (csc_square_good I a b c d) as (q & r' & E' & Gq & Hq & Er & Q1 & Q2 & A); try assumption; try lia; try (unfold index_ok; lia).
    destruct (c02_coo_to_csc I q (proj1 Gq) Hq) as (r'' & Er' & Wr & Tt & R1 & R2 & _ & B). rewrite Er in Er'. injection Er' as <-. rewrite E' in E. injection E as <-. split; [apply tight_zpad, Tt|].
    unfold holds. cbn [mat_rows mat_cols mat_val table_binary table_over table_beside t_rows t_cols t_at]. rewrite R1, R2, Q1, Q2. sp; try lia. intros i j Hi Hj. unfold csc_val. rewrite B, sum0_dup_sum by lia. etransitivity; [apply A; lia|]. unfold over, beside. split_blocks.
  - destruct (square3_good I a b c d e f g h l) as (r' & E' & _ & R1 & R2 & A); try assumption; try lia; try (unfold index_ok; lia). rewrite E' in E. injection E as <-. split; [exact Logic.I|].
    refine (holds_coo _ _ _ _ _ A _); [cbn [mat_rows mat_cols mat_val table_binary table_over table_beside t_rows t_cols t_at]; lia|cbn [mat_rows mat_cols mat_val table_binary table_over table_beside t_rows t_cols t_at]; lia|]. intros i j Hi Hj. cbn [mat_rows mat_cols mat_val table_binary table_over table_beside t_rows t_cols t_at] in *. unfold over, beside. split_blocks.
Qed.
Lemma vars_sim st ts vs ms : Forall2 sim st ts -> vars st vs = Some ms -> Forall2 sim ms (map (fun v => nth v ts no_table) vs).
Proof.
  intros G. revert ms. induction vs as [|v vs IH]; intros ms E; cbn in E; [injection E as <-; constructor|].
  destruct (nth_error st v) eqn:E1; [|discriminate]. cbn in E. destruct (vars st vs) eqn:E2; [|discriminate]. injection E as <-. cbn. constructor; [exact (forall2_nth _ _ _ _ _ _ G E1)|apply IH; reflexivity].
Qed.
Lemma step_sim st ts c : Forall2 sim st ts -> call_ok I st c -> exists st', step I st c = Ok st' /\ Forall2 sim st' (table_step ts c).
Proof.
  intros G. destruct c as [f k|u v|p v|b v w|k vs]; cbn [call_ok step table_step].
  - intros H. destruct (make_good I f k H) as (m & E & Gm). rewrite E. destruct (make_holds f k m H E) as [Vm Hm]. eexists. split; [reflexivity|]. apply forall2_snoc; [assumption|]. split; [exact Gm|split; assumption].
  - intros (m & E & H). rewrite E. cbn [obind]. destruct (forall2_nth sim st ts v _ no_table G E) as (Gm & Vm & Hm). destruct (unary_good I u m H Gm) as (r & Er & Gr). rewrite Er.
    destruct (unary_holds u m r _ H Gm Vm Hm Er) as [Vr Hr]. eexists. split; [reflexivity|]. apply forall2_snoc; [assumption|]. split; [exact Gr|split; assumption].
  - intros (m & E & H). rewrite E. cbn [obind]. destruct (forall2_nth sim st ts v _ no_table G E) as (Gm & Vm & Hm). destruct (inplace_good I p m H Gm) as (r & Er & Gr). rewrite Er.
    eexists. split; [reflexivity|]. apply forall2_upd; [exact G|]. destruct (inplace_holds p m r _ H Gm Vm Hm Er) as [Vr Hr]. split; [exact Gr|split; assumption].
  - intros (x & y & E1 & E2 & H). rewrite E1, E2. cbn [obind]. destruct (forall2_nth sim st ts v _ no_table G E1) as (Gx & Vx & Hx). destruct (forall2_nth sim st ts w _ no_table G E2) as (Gy & Vy & Hy).
    destruct (binary_good I b x y H Gx Gy) as (r & Er & Gr). rewrite Er. destruct (binary_holds b x y r _ _ H Gx Gy Vx Vy Hx Hy Er) as [Vr Hr]. eexists. split; [reflexivity|]. apply forall2_snoc; [assumption|]. split; [exact Gr|split; assumption].
  - intros (ms & E & H). rewrite E. cbn [obind]. pose proof (vars_sim st ts vs ms G E) as S.
    assert (S1 : Forall (good I) ms) by (clear - S; induction S as [|x t l k (? & _) S IH]; constructor; assumption).
    assert (S2 : Forall2 holds ms (map (fun v => nth v ts no_table) vs)) by (clear - S; induction S as [|x t l k (_ & _ & ?) S IH]; constructor; assumption).
    destruct (blocks_good I k ms H S1) as (r & Er & Gr). rewrite Er. destruct (blocks_holds k ms r _ H S1 S2 Er) as [Vr Hr]. eexists. split; [reflexivity|]. apply forall2_snoc; [assumption|]. split; [exact Gr|split; assumption].
Qed.
Lemma run_sim cs : forall st ts, Forall2 sim st ts -> calls_ok I st cs -> exists st', run I st cs = Ok st' /\ Forall2 sim st' (table_run ts cs).
Proof.
  induction cs as [|c cs IH]; intros st ts G H; [exists st; split; [reflexivity|exact G]|]. destruct H as [Hc H]. destruct (step_sim st ts c G Hc) as (st' & E & G'). rewrite E in H.
  cbn [run]. rewrite E. cbn [bind]. apply IH; assumption.
Qed.

(** ** what a program sees *)
Lemma list_by_nth {A} (l : list A) n d (g : nat -> A) : length l = n -> (forall i, i < n -> nth i l d = g i) -> l = map g (seq 0 n).
Proof.
  intros L H. apply (nth_ext _ _ d (g 0)); [rewrite map_length, seq_length; exact L|]. intros i Hi. rewrite L in Hi. rewrite H by exact Hi. rewrite map_nth, seq_nth by exact Hi. reflexivity.
Qed.
Lemma is_table_list (d : list (list T)) r c f g : is_table d r c f -> (forall i j, i < r -> j < c -> f i j = g i j) -> d = map (fun i => map (g i) (seq 0 c)) (seq 0 r).
Proof.
  intros [L H] E. apply (list_by_nth _ _ []); [exact L|]. intros i Hi. destruct (H i Hi) as [L1 H1]. apply (list_by_nth _ _ s0); [exact L1|]. intros j Hj. rewrite H1 by exact Hj. apply E; assumption.
Qed.
Lemma look_holds o m t : good I m -> holds m t -> look_ok I o m -> do_look I o m = Some (Ok (table_look o t)).
Proof.
  intros G (H1 & H2 & H3) [D H]. destruct o as [order|x| |i j]; destruct m as [m|m|m|m]; cbn [do_look] in *; try (exfalso; apply D; reflexivity); clear D; cbn [mat_rows mat_cols mat_val] in *; cbn [table_look].
  - destruct (c09_coo_to_dense I m (proj1 G)) as (d & -> & Td). cbn. do 3 f_equal. rewrite H1, H2 in Td. apply (is_table_list _ _ _ _ _ Td H3).
  - destruct (c09_csr_to_dense I m (proj1 G)) as (d & -> & Td). cbn. do 3 f_equal. rewrite H1, H2 in Td. apply (is_table_list _ _ _ _ _ Td H3).
  - destruct G as (W & G1 & G2 & _). destruct (c09_csc_to_dense I m W (csc_cols_fit_ok I m G2)) as (d & -> & Td). cbn. do 3 f_equal. rewrite H1, H2 in Td. apply (is_table_list _ _ _ _ _ Td H3).
  - destruct (DoK_to_dense_spec I m order (proj1 G) H) as (d & -> & Td). cbn. do 3 f_equal. rewrite H1, H2 in Td. apply (is_table_list _ _ _ _ _ Td H3).
  - destruct (c15_csr_mat_vec_ring I m x (proj1 G) H) as (y & -> & L & A). cbn. do 3 f_equal. rewrite H1 in L, A. rewrite H2 in A. apply (list_by_nth _ _ s0); [exact L|]. intros i Hi. rewrite A by exact Hi. apply rsum_ext. intros j Hj. rewrite H3 by assumption. reflexivity.
  - destruct (c16_csc_mat_vec_ring I m x (proj1 G) H) as (y & -> & L & A). cbn. do 3 f_equal. rewrite H1 in L, A. rewrite H2 in A. apply (list_by_nth _ _ s0); [exact L|]. intros i Hi. rewrite A by exact Hi. apply rsum_ext. intros j Hj. rewrite H3 by assumption. reflexivity.
  - destruct (c28_coo_diagonal I m (proj1 G)) as (y & -> & L & A). cbn [vec bind]. do 3 f_equal. rewrite H1, H2 in L, A. apply (list_by_nth _ _ s0); [exact L|]. intros i Hi. rewrite A by exact Hi. apply H3; lia.
  - destruct (c28_csr_diagonal I m (proj1 G)) as (y & -> & L & A). cbn [vec bind]. do 3 f_equal. rewrite H1, H2 in L, A. apply (list_by_nth _ _ s0); [exact L|]. intros i Hi. rewrite A by exact Hi. apply H3; lia.
  - destruct (c28_csc_diagonal I m (proj1 G)) as (y & -> & L & A). cbn [vec bind]. do 3 f_equal. rewrite H1, H2 in L, A. apply (list_by_nth _ _ s0); [exact L|]. intros i Hi. rewrite A by exact Hi. apply H3; lia.
  - destruct H as (Hi & Hj & N). destruct (c32_csr_get_dense I m (proj1 G) N) as (d & Ed & A). destruct (c09_csr_to_dense I m (proj1 G)) as (d' & Ed' & [_ Td]). rewrite Ed in Ed'. injection Ed' as <-.
    rewrite A by assumption. cbn. do 3 f_equal. destruct (Td i Hi) as [_ Td']. rewrite Td' by exact Hj. apply H3; congruence.
  - destruct H as (Hi & Hj). do 3 f_equal. apply H3; congruence.
Qed.
Lemma run_look cs st v m o : calls_ok I [] cs -> run I [] cs = Ok st -> nth_error st v = Some m -> look_ok I o m -> do_look I o m = Some (Ok (table_look o (nth v (table_run [] cs) no_table))).
Proof.
  intros H E Ev Ho. destruct (run_sim cs [] [] (Forall2_nil _) H) as (st' & E' & G). rewrite E in E'. injection E' as <-. destruct (forall2_nth sim st _ v m no_table G Ev) as (Gm & _ & Hm). apply look_holds; assumption.
Qed.
End Holds.
