(** Dense tables and the rows built from them. *)
From Verif Require Import Rust Scalar Model_kernels Model_matrix Spec Wp Rep CanonProofs ConvProofs LinProofs Lin2Proofs StructProofs BlockProofs.

Section Table.
Context {T : Type} {SC : Scalar T}.
Implicit Type a : list (list T).

Lemma nzs_flat k l : nzs k l = flat_map (fun j => map (fun v => (k + j, v)) (nz (nth j l s0))) (seq 0 (length l)).
Proof.
  revert k. induction l as [|v l IH]; intros k; [reflexivity|]. cbn [nzs length seq flat_map nth]. rewrite IH, <- seq_shift, flat_map_concat_map, (flat_map_concat_map _ (map S _)), map_map.
  unfold nz at 2. rewrite Nat.add_0_r. f_equal; [destruct (seqb v s0); reflexivity|]. f_equal. apply map_ext. intros j. cbn [nth]. rewrite Nat.add_succ_comm. reflexivity.
Qed.
Lemma nzs_length k l : length (nzs k l) = length (flat_map nz l).
Proof. revert k. induction l as [|v l IH]; intros k; [reflexivity|]. cbn [nzs flat_map]. unfold nz at 1. rewrite !app_length, (IH (S k)). destruct (seqb v s0); reflexivity. Qed.
Lemma rows_count a : length (concat (map (nzs 0) a)) = nz_count a.
Proof.
  unfold nz_count. induction a as [|l a IH]; [reflexivity|]. cbn [map concat]. rewrite flat_map_app, !app_length, IH, nzs_length. reflexivity.
Qed.
Lemma flat_map_length_sum {A B} (f : A -> list B) l : length (flat_map f l) = list_sum (map (fun x => length (f x)) l).
Proof. unfold list_sum. induction l as [|x l IH]; [reflexivity|]. cbn. rewrite app_length, IH. reflexivity. Qed.
Lemma concat_length_sum {A B} (f : A -> list B) l : length (concat (map f l)) = list_sum (map (fun x => length (f x)) l).
Proof. rewrite <- flat_map_concat_map. apply flat_map_length_sum. Qed.
Lemma list_sum_add {A} (f g : A -> nat) l : list_sum (map (fun x => f x + g x) l) = list_sum (map f l) + list_sum (map g l).
Proof. unfold list_sum. induction l as [|x l IH]; [reflexivity|]. cbn. rewrite IH. lia. Qed.
Lemma sum_nth (f : T -> nat) l c : length l = c -> list_sum (map (fun i => f (nth i l s0)) (seq 0 c)) = list_sum (map f l).
Proof.
  intros <-. f_equal. induction l as [|v l IH]; [reflexivity|]. cbn [length seq map nth]. f_equal. rewrite <- seq_shift, map_map. exact IH.
Qed.
Lemma columns_count c a : rectangular c a -> length (concat (map (nzs 0) (columns c a))) = nz_count a.
Proof.
  intros H. rewrite concat_length_sum. unfold columns. rewrite map_map. unfold nz_count. rewrite (map_ext _ (fun i => length (flat_map nz (map (fun l => nth i l s0) a)))) by (intros; apply nzs_length).
  induction H as [|l a Hl H IH].
  - cbn. unfold list_sum. induction (seq 0 c) as [|x l IH]; [reflexivity|exact IH].
  - cbn [map concat flat_map]. rewrite flat_map_app, app_length, <- IH. rewrite (map_ext _ (fun i => length (nz (nth i l s0)) + length (flat_map nz (map (fun l0 => nth i l0 s0) a)))) by (intros; apply app_length).
    rewrite list_sum_add, flat_map_length_sum. f_equal. apply (sum_nth (fun v => length (nz v))), Hl.
Qed.
Lemma nth_columns c a j : j < c -> nth j (columns c a) [] = map (fun l => nth j l s0) a.
Proof.
  intros H. unfold columns. rewrite (nth_indep _ [] (map (fun l => nth 0 l s0) a)) by (rewrite map_length, seq_length; exact H).
  rewrite (map_nth (fun i => map (fun l => nth i l s0) a)), seq_nth by exact H. reflexivity.
Qed.
Lemma nth_column a i j : i < length a -> nth i (map (fun l => nth j l s0) a) s0 = tcell a i j.
Proof. intros H. rewrite (nth_indep _ s0 (nth j [] s0)) by (rewrite map_length; exact H). apply (map_nth (fun l => nth j l s0)). Qed.
Lemma nz_nil v : seqb v s0 = true -> nz v = [].
Proof. unfold nz. intros ->. reflexivity. Qed.
Lemma nzs_at0 l i : i < length l -> at_ i (nzs 0 l) = nz (nth i l s0).
Proof. intros H. rewrite nzs_at. cbn [plus]. replace (i <? length l) with true by (symmetry; apply Nat.ltb_lt, H). rewrite Nat.sub_0_r. reflexivity. Qed.
Lemma in_nzs l j v : In (j, v) (nzs 0 l) <-> j < length l /\ v = nth j l s0 /\ seqb v s0 = false.
Proof.
  split.
  - intros H. apply nzs_in in H. cbn [fst snd] in H. rewrite Nat.sub_0_r in H. destruct H as (H1 & H2 & H3). repeat split; [lia|congruence|exact H3].
  - intros (H & -> & E). rewrite nzs_flat. apply in_flat_map. exists j. split; [apply in_seq; lia|]. unfold nz. rewrite E. left. reflexivity.
Qed.
Lemma nth_length c a i : rectangular c a -> i < length a -> length (nth i a []) = c.
Proof. intros H Hi. unfold rectangular in H. rewrite Forall_forall in H. apply H, nth_In, Hi. Qed.
Lemma cols_fit_iff I c a : rectangular c a -> (cols_fit I a <-> nz_cols_fit I c a).
Proof.
  intros H. unfold cols_fit. rewrite Forall_forall. split.
  - intros F i j Hi Hj E. specialize (F _ (nth_In _ [] Hi)). rewrite Forall_forall in F.
    apply (F (j, tcell a i j)). apply in_nzs. rewrite (nth_length c) by assumption. repeat split; assumption.
  - intros F l Hl. apply (In_nth _ _ []) in Hl as (i & Hi & <-). apply Forall_forall. intros [j v] He. apply in_nzs in He as (Hj & -> & E).
    cbn [fst]. rewrite (nth_length c) in Hj by assumption. apply (F i j); assumption.
Qed.
Lemma cols_fit_columns I c a : cols_fit I (columns c a) <-> nz_rows_fit I c a.
Proof.
  unfold cols_fit. rewrite Forall_forall. split.
  - intros F i j Hi Hj E. assert (Hj' : j < length (columns c a)) by (rewrite columns_length; exact Hj). specialize (F _ (nth_In _ [] Hj')). rewrite Forall_forall in F.
    apply (F (i, tcell a i j)). apply in_nzs. rewrite nth_columns, map_length, nth_column by assumption. repeat split; assumption.
  - intros F l Hl. apply (In_nth _ _ []) in Hl as (j & Hj & <-). apply Forall_forall. intros [i v] He. rewrite columns_length in Hj. rewrite nth_columns in He by exact Hj.
    apply in_nzs in He as (Hi & -> & E). rewrite map_length in Hi. rewrite nth_column in E by exact Hi. cbn [fst]. apply (F i j); assumption.
Qed.
Lemma dents_flat k c a : rectangular c a -> dents k a = map (fun e => ((k + fst (fst e), snd (fst e)), snd e)) (table_entries (length a) c a).
Proof.
  intros H. revert k. induction H as [|l a Hl H IH]; intros k; [reflexivity|]. cbn [dents length table_entries]. unfold table_entries. cbn [seq flat_map]. rewrite map_app. f_equal.
  - rewrite nzs_flat, Hl. cbn [tcell nth]. unfold tcell. cbn [nth]. rewrite !flat_map_concat_map, !concat_map, !map_map. f_equal. apply map_ext. intros j. rewrite !map_map. apply map_ext. intros v. cbn. rewrite Nat.add_0_r. reflexivity.
  - rewrite IH, <- seq_shift. unfold table_entries. rewrite !flat_map_concat_map, !concat_map, !map_map. f_equal. apply map_ext. intros i. unfold tcell. cbn [nth].
    rewrite !flat_map_concat_map, !concat_map, !map_map. f_equal. apply map_ext. intros j. rewrite !map_map. apply map_ext. intros v. cbn. rewrite Nat.add_succ_r. reflexivity.
Qed.
Lemma dents_table c a : rectangular c a -> dents 0 a = table_entries (length a) c a.
Proof. intros H. rewrite (dents_flat 0 c) by exact H. rewrite <- (map_id (table_entries _ _ _)) at 2. apply map_ext. intros [[i j] v]. reflexivity. Qed.
Lemma in_table r c a i j v : In ((i, j), v) (table_entries r c a) <-> i < r /\ j < c /\ v = tcell a i j /\ seqb v s0 = false.
Proof.
  unfold table_entries. rewrite in_flat_map. split.
  - intros (i' & Hi & H). apply in_flat_map in H as (j' & Hj & H). apply in_map_iff in H as (v' & E & H). unfold nz in H. destruct (seqb (tcell a i' j') s0) eqn:Ez; [destruct H|]. destruct H as [<-|[]].
    injection E as <- <- <-. apply in_seq in Hi, Hj. repeat split; try lia. exact Ez.
  - intros (Hi & Hj & -> & E). exists i. split; [apply in_seq; lia|]. apply in_flat_map. exists j. split; [apply in_seq; lia|]. apply in_map_iff. exists (tcell a i j). split; [reflexivity|]. unfold nz. rewrite E. left. reflexivity.
Qed.
Lemma ent_fit_iff I c a : Forall (ent_fit I) (table_entries (length a) c a) <-> nz_rows_fit I c a /\ nz_cols_fit I c a.
Proof.
  rewrite Forall_forall. split.
  - intros F. split; intros i j Hi Hj E; apply (F ((i, j), tcell a i j)); apply in_table; repeat split; assumption.
  - intros [F1 F2] [[i j] v] He. apply in_table in He as (Hi & Hj & -> & E). split; cbn; [apply (F1 i j)|apply (F2 i j)]; assumption.
Qed.

Lemma filter_flat_map {A B} (p : B -> bool) (f : A -> list B) l : filter p (flat_map f l) = flat_map (fun x => filter p (f x)) l.
Proof. induction l as [|x l IH]; [reflexivity|]. cbn. rewrite filter_app, IH. reflexivity. Qed.
Lemma flat_map_nil {A B} (f : A -> list B) l : (forall x, In x l -> f x = []) -> flat_map f l = [].
Proof. induction l as [|x l IH]; intros H; [reflexivity|]. cbn. rewrite H by (left; reflexivity). apply IH. intros. apply H. right. assumption. Qed.
Lemma flat_map_pick {B} (f : nat -> list B) k n : k < n -> (forall i, i < n -> i <> k -> f i = []) -> flat_map f (seq 0 n) = f k.
Proof.
  intros H G. replace n with (k + S (n - S k)) by lia. rewrite seq_app, flat_map_app. cbn [seq flat_map plus].
  rewrite (flat_map_nil f (seq 0 k)), (flat_map_nil f (seq (S k) _)); [cbn; apply app_nil_r| |]; intros i Hi; apply in_seq in Hi; apply G; lia.
Qed.
Lemma table_at r c a i j : i < r -> j < c -> map snd (filter (fun e => (fst (fst e) =? i) && (snd (fst e) =? j)) (table_entries r c a)) = nz (tcell a i j).
Proof.
  intros Hi Hj. unfold table_entries. rewrite filter_flat_map.
  assert (F : forall i' j' (l : list T), filter (fun e => (fst (fst e) =? i) && (snd (fst e) =? j)) (map (fun v => ((i', j'), v)) l) = if (i' =? i) && (j' =? j) then map (fun v => ((i', j'), v)) l else []).
  { intros i' j' l. induction l as [|v l IH]; cbn [map filter fst snd]; [destruct (_ && _); reflexivity|]. rewrite IH. destruct (_ && _); reflexivity. }
  rewrite (flat_map_pick _ i); [|exact Hi|].
  - rewrite filter_flat_map, (flat_map_pick _ j); [|exact Hj|].
    + rewrite F, !Nat.eqb_refl. cbn. rewrite map_map. apply map_id.
    + intros j' _ N. rewrite F. replace (j' =? j) with false by (symmetry; apply Nat.eqb_neq, N). rewrite andb_false_r. reflexivity.
  - intros i' _ N. rewrite filter_flat_map. apply flat_map_nil. intros j' _. rewrite F. replace (i' =? i) with false by (symmetry; apply Nat.eqb_neq, N). reflexivity.
Qed.

(** ** The three matrices *)
Variable I : ity.
Lemma CSR_from_dense_spec c a : a <> [] -> rectangular c a -> nz_cols_fit I c a -> (Z.of_nat (nz_count a) <= imax I)%Z ->
  exists r, CSR_from_dense I a = Ok r /\ wf_csr I r /\ csr_tight r /\ csr_rows r = length a /\ csr_cols r = c /\ csr_canonical r /\ csr_count r = nz_count a /\
    forall i j, i < length a -> j < c -> csr_at r i j = nz (tcell a i j).
Proof.
  intros N H F Hf. destruct a as [|a0 a]; [congruence|]. assert (Ec : length a0 = c) by (inversion H; assumption). subst c.
  pose proof (proj2 (cols_fit_iff I _ _ H) F) as F'. rewrite <- rows_count in Hf.
  pose proof (CSR_from_dense_rep I a0 a H F' Hf) as E. cbv zeta in E. eexists. split; [exact E|]. set (A := a0 :: a) in *. set (R := map (nzs 0) A) in *.
  assert (HR : csr_rep I (mkCSR (length A) (length a0) (ptrs R) (zfst (concat R)) (map snd (concat R))) R).
  { split; [apply map_length|]. cbn [csr_cols csr_rowptr csr_colidx csr_values]. apply crep_exact; [apply concat_fit; assumption|exact Hf]. }
  sp.
  - eapply csr_rep_wf, HR.
  - apply (csr_tight_rep _ _ _ HR). cbn [csr_colidx csr_values]. unfold zfst. rewrite !map_length. split; reflexivity.
  - refine (proj2 (csr_rep_rows canonical_row _ _ _ HR) _). apply Forall_map, Forall_forall. intros l _. apply nzs_canonical.
  - rewrite (csr_rep_count _ _ _ HR). apply rows_count.
  - intros i j Hi Hj. rewrite (csr_rep_at _ _ _ _ _ HR). unfold R. change (@nil (nat * T)) with (nzs 0 (@nil T)). rewrite map_nth, nzs_at0; [reflexivity|]. rewrite (nth_length (length a0)) by assumption. exact Hj.
Qed.
Lemma CSC_from_dense_spec c a : a <> [] -> rectangular c a -> nz_rows_fit I c a -> (Z.of_nat (nz_count a) <= imax I)%Z ->
  exists r, CSC_from_dense I a = Ok r /\ wf_csc I r /\ csc_tight r /\ csc_rows r = length a /\ csc_cols r = c /\ csc_canonical r /\ csc_count r = nz_count a /\
    forall i j, i < length a -> j < c -> csc_at r i j = nz (tcell a i j).
Proof.
  intros N H F Hf. destruct a as [|a0 a]; [congruence|]. assert (Ec : length a0 = c) by (inversion H; assumption). subst c.
  pose proof (proj2 (cols_fit_columns I _ _) F) as F'. rewrite <- (columns_count _ _ H) in Hf.
  pose proof (CSC_from_dense_rep I a0 a H F' Hf) as E. cbv zeta in E. eexists. split; [exact E|]. set (A := a0 :: a) in *. set (R := map (nzs 0) (columns (length a0) A)) in *.
  assert (HR : csc_rep I (mkCSC (length A) (length a0) (zfst (concat R)) (ptrs R) (map snd (concat R))) R).
  { split; [unfold R; rewrite map_length; apply columns_length|]. cbn [csc_rows csc_colptr csc_rowidx csc_values]. apply crep_exact; [apply concat_fit; [apply columns_rect|assumption]|exact Hf]. }
  sp.
  - eapply csc_rep_wf, HR.
  - apply (csc_tight_rep _ _ _ HR). cbn [csc_rowidx csc_values]. unfold zfst. rewrite !map_length. split; reflexivity.
  - refine (proj2 (csc_rep_cols canonical_row _ _ _ HR) _). apply Forall_map, Forall_forall. intros l _. apply nzs_canonical.
  - rewrite (csc_rep_count _ _ _ HR). apply columns_count, H.
  - intros i j Hi Hj. rewrite (csc_rep_at _ _ _ _ _ HR). unfold R. change (@nil (nat * T)) with (nzs 0 (@nil T)). rewrite map_nth, nth_columns by exact Hj.
    rewrite nzs_at0 by (rewrite map_length; exact Hi). rewrite nth_column by exact Hi. reflexivity.
Qed.
Lemma Coo_from_dense_spec c a : a <> [] -> rectangular c a -> nz_rows_fit I c a -> nz_cols_fit I c a ->
  exists r, Coo_from_dense I a = Ok r /\ wf_coo I r /\ coo_rows r = length a /\ coo_cols r = c /\ coo_entries r = table_entries (length a) c a /\
    forall i j, i < length a -> j < c -> coo_at r i j = nz (tcell a i j).
Proof.
  intros N H F1 F2. assert (Ec : length (hd [] a) = c) by (destruct H; [congruence|assumption]).
  pose proof (proj2 (ent_fit_iff I c a) (conj F1 F2)) as F. destruct (Coo_from_dense_cases I a) as [[_ NF]|[E _]].
  - rewrite (dents_table c) in NF by exact H. contradiction.
  - rewrite (dents_table c) in E by exact H. rewrite Ec in E. eexists. split; [exact E|]. sp.
    + apply wf_coo_of. apply Forall_forall. intros [[i j] v] He. rewrite Forall_forall in F. specialize (F _ He). apply in_table in He. unfold inside. unfold ent_fit in F. cbn [fst snd] in *. lia.
    + apply coo_of_entries.
    + intros i j Hi Hj. unfold coo_at. rewrite coo_of_entries. apply table_at; assumption.
Qed.
Lemma CSR_from_dense_panic c a : a <> [] -> rectangular c a -> ~ (nz_cols_fit I c a /\ (Z.of_nat (nz_count a) <= imax I)%Z) -> CSR_from_dense I a = Panic.
Proof.
  intros N H F. destruct a as [|a0 a]; [congruence|]. assert (Ec : length a0 = c) by (inversion H; assumption). subst c.
  apply CSR_from_dense_over; [exact H|]. rewrite rows_count, (cols_fit_iff I _ _ H). exact F.
Qed.
Lemma CSC_from_dense_panic c a : a <> [] -> rectangular c a -> ~ (nz_rows_fit I c a /\ (Z.of_nat (nz_count a) <= imax I)%Z) -> CSC_from_dense I a = Panic.
Proof.
  intros N H F. destruct a as [|a0 a]; [congruence|]. assert (Ec : length a0 = c) by (inversion H; assumption). subst c.
  apply CSC_from_dense_over; [exact H|]. rewrite (columns_count _ _ H), cols_fit_columns. exact F.
Qed.
Lemma Coo_from_dense_panic c a : rectangular c a -> ~ (nz_rows_fit I c a /\ nz_cols_fit I c a) -> Coo_from_dense I a = Panic.
Proof.
  intros H F. destruct (Coo_from_dense_cases I a) as [[E _]|[_ G]]; [exact E|]. exfalso. apply F, ent_fit_iff. rewrite <- (dents_table c) by exact H. exact G.
Qed.

(** ** Placed blocks *)
Lemma placed_at dr dc (L : list (nat * nat * T)) i j :
  map snd (filter (fun e => (fst (fst e) =? i) && (snd (fst e) =? j)) (placed dr dc L)) =
  if (dr <=? i) && (dc <=? j) then map snd (filter (fun e => (fst (fst e) =? i - dr) && (snd (fst e) =? j - dc)) L) else [].
Proof.
  induction L as [|[[r c] v] L IH]; [cbn; destruct (_ && _); reflexivity|]. cbn [placed map filter fst snd]. fold (placed dr dc L).
  destruct (Nat.leb_spec dr i), (Nat.leb_spec dc j); cbn [andb] in *.
  - destruct (Nat.eqb_spec (dr + r) i), (Nat.eqb_spec r (i - dr)); try lia; cbn [andb]; [|exact IH].
    destruct (Nat.eqb_spec (dc + c) j), (Nat.eqb_spec c (j - dc)); try lia; cbn [map snd]; [|exact IH]. rewrite IH. reflexivity.
  - destruct (Nat.eqb_spec (dc + c) j); [lia|]. rewrite andb_false_r. exact IH.
  - destruct (Nat.eqb_spec (dr + r) i); [lia|]. exact IH.
  - destruct (Nat.eqb_spec (dr + r) i); [lia|]. exact IH.
Qed.
Lemma outside_at r c (L : list (nat * nat * T)) i j : Forall (inside I r c) L -> r <= i \/ c <= j -> map snd (filter (fun e => (fst (fst e) =? i) && (snd (fst e) =? j)) L) = [].
Proof.
  intros H N. induction H as [|[[k l] v] L (H1 & H2 & _) HL IH]; [reflexivity|]. cbn [filter fst snd] in *. destruct (Nat.eqb_spec k i), (Nat.eqb_spec l j); cbn [andb]; try exact IH. lia.
Qed.

Definition entries_at (L : list (nat * nat * T)) (i j : nat) : list T := map snd (filter (fun e => (fst (fst e) =? i) && (snd (fst e) =? j)) L).
Lemma entries_at_app L1 L2 i j : entries_at (L1 ++ L2) i j = entries_at L1 i j ++ entries_at L2 i j.
Proof. unfold entries_at. rewrite filter_app, map_app. reflexivity. Qed.
Lemma coo_at_entries (m : Coo T) i j : coo_at m i j = entries_at (coo_entries m) i j.
Proof. reflexivity. Qed.
Lemma v_at r1 c (L1 L2 : list (nat * nat * T)) i j : Forall (inside I r1 c) L1 -> entries_at (L1 ++ placed r1 0 L2) i j = if i <? r1 then entries_at L1 i j else entries_at L2 (i - r1) j.
Proof.
  intros H. rewrite entries_at_app. unfold entries_at at 2. rewrite placed_at. cbn [Nat.leb]. rewrite andb_true_r, Nat.sub_0_r. fold (entries_at L2 (i - r1) j).
  destruct (Nat.ltb_spec i r1), (Nat.leb_spec r1 i); try lia; [apply app_nil_r|]. unfold entries_at at 1. rewrite (outside_at r1 c) by (try assumption; lia). reflexivity.
Qed.
Lemma h_at r c1 (L1 L2 : list (nat * nat * T)) i j : Forall (inside I r c1) L1 -> entries_at (L1 ++ placed 0 c1 L2) i j = if j <? c1 then entries_at L1 i j else entries_at L2 i (j - c1).
Proof.
  intros H. rewrite entries_at_app. unfold entries_at at 2. rewrite placed_at. cbn [Nat.leb andb]. rewrite Nat.sub_0_r. fold (entries_at L2 i (j - c1)).
  destruct (Nat.ltb_spec j c1), (Nat.leb_spec c1 j); try lia; [apply app_nil_r|]. unfold entries_at at 1. rewrite (outside_at r c1) by (try assumption; lia). reflexivity.
Qed.
Lemma v_inside r1 r2 c (L1 L2 : list (nat * nat * T)) : Forall (inside I r1 c) L1 -> Forall (inside I r2 c) L2 -> (Z.of_nat (r1 + r2) <= Z.min (imax I + 1) (imax Usize))%Z -> Forall (inside I (r1 + r2) c) (L1 ++ placed r1 0 L2).
Proof. intros F1 F2 H. apply Forall_app. split; [eapply inside_mono; [exact F1| |]; lia|]. eapply placed_inside; [exact F2|lia|lia|right; lia|left; reflexivity]. Qed.
Lemma h_inside r c1 c2 (L1 L2 : list (nat * nat * T)) : Forall (inside I r c1) L1 -> Forall (inside I r c2) L2 -> (Z.of_nat (c1 + c2) <= Z.min (imax I + 1) (imax Usize))%Z -> Forall (inside I r (c1 + c2)) (L1 ++ placed 0 c1 L2).
Proof. intros F1 F2 H. apply Forall_app. split; [eapply inside_mono; [exact F1| |]; lia|]. eapply placed_inside; [exact F2|lia|lia|left; reflexivity|right; lia]. Qed.

(** stacking by representation: dimensions and entries *)
Definition is_coo (r c : nat) (L : list (nat * nat * T)) (m : Coo T) : Prop := m = coo_of r c L /\ Forall (inside I r c) L.
Lemma is_coo_wf r c L m : is_coo r c L m -> wf_coo I m /\ coo_rows m = r /\ coo_cols m = c /\ coo_entries m = L.
Proof. intros [-> H]. sp; [apply wf_coo_of, H|apply coo_of_entries]. Qed.
Lemma wf_is_coo m : wf_coo I m -> is_coo (coo_rows m) (coo_cols m) (coo_entries m) m.
Proof. intros H. apply wf_coo_is in H. exact H. Qed.
Lemma v_stack_is r1 r2 c1 c2 L1 L2 m1 m2 : is_coo r1 c1 L1 m1 -> is_coo r2 c2 L2 m2 -> c1 = c2 -> (Z.of_nat (r1 + r2) <= Z.min (imax I + 1) (imax Usize))%Z ->
  exists m, Coo_v_stack I m1 m2 = Ok m /\ is_coo (r1 + r2) c1 (L1 ++ placed r1 0 L2) m.
Proof. intros [-> F1] [-> F2] <- H. eexists. split; [apply v_stack_of; assumption|]. split; [reflexivity|]. apply v_inside; assumption. Qed.
Lemma h_stack_is r1 r2 c1 c2 L1 L2 m1 m2 : is_coo r1 c1 L1 m1 -> is_coo r2 c2 L2 m2 -> r1 = r2 -> (Z.of_nat (c1 + c2) <= Z.min (imax I + 1) (imax Usize))%Z ->
  exists m, Coo_h_stack I m1 m2 = Ok m /\ is_coo r1 (c1 + c2) (L1 ++ placed 0 c1 L2) m.
Proof. intros [-> F1] [-> F2] <- H. eexists. split; [apply h_stack_of; assumption|]. split; [reflexivity|]. apply h_inside; assumption. Qed.
Lemma v_stack_err (a b : Coo T) : coo_cols a <> coo_cols b -> Coo_v_stack I a b = Err EDim.
Proof. intros H. unfold Coo_v_stack. destruct (Nat.eqb_spec (coo_cols a) (coo_cols b)); [contradiction|reflexivity]. Qed.
Lemma h_stack_err (a b : Coo T) : coo_rows a <> coo_rows b -> Coo_h_stack I a b = Err EDim.
Proof. intros H. unfold Coo_h_stack. destruct (Nat.eqb_spec (coo_rows a) (coo_rows b)); [contradiction|reflexivity]. Qed.
Lemma v_stack3_err (a b c : Coo T) : coo_cols a <> coo_cols b \/ coo_cols a <> coo_cols c -> Coo_v_stack3 I a b c = Err EDim.
Proof. intros H. unfold Coo_v_stack3. destruct (Nat.eqb_spec (coo_cols a) (coo_cols b)); [|reflexivity]. destruct (Nat.eqb_spec (coo_cols a) (coo_cols c)); [tauto|reflexivity]. Qed.
Lemma h_stack3_err (a b c : Coo T) : coo_rows a <> coo_rows b \/ coo_rows a <> coo_rows c -> Coo_h_stack3 I a b c = Err EDim.
Proof. intros H. unfold Coo_h_stack3. destruct (Nat.eqb_spec (coo_rows a) (coo_rows b)); [|reflexivity]. destruct (Nat.eqb_spec (coo_rows a) (coo_rows c)); [tauto|reflexivity]. Qed.
Lemma v_stack3_is r1 r2 r3 c1 c2 c3 L1 L2 L3 m1 m2 m3 : is_coo r1 c1 L1 m1 -> is_coo r2 c2 L2 m2 -> is_coo r3 c3 L3 m3 -> c1 = c2 -> c1 = c3 -> (Z.of_nat (r1 + r2 + r3) <= Z.min (imax I + 1) (imax Usize))%Z ->
  exists m, Coo_v_stack3 I m1 m2 m3 = Ok m /\ is_coo (r1 + r2 + r3) c1 ((L1 ++ placed r1 0 L2) ++ placed (r1 + r2) 0 L3) m.
Proof.
  intros H1 H2 H3 E2 E3 H. destruct (v_stack_is _ _ _ _ _ _ _ _ H1 H2 E2 ltac:(lia)) as (m12 & E & H12). destruct (v_stack_is _ _ _ _ _ _ _ _ H12 H3 E3 H) as (m & E' & Hm).
  exists m. split; [|exact Hm]. unfold Coo_v_stack3. destruct H1 as [-> _], H2 as [-> _], H3 as [-> _]. cbn [coo_of coo_cols]. rewrite <- E2 at 1. rewrite <- E3 at 1. rewrite Nat.eqb_refl. cbn [negb].
  subst. rewrite E. exact E'.
Qed.
Lemma h_stack3_is r1 r2 r3 c1 c2 c3 L1 L2 L3 m1 m2 m3 : is_coo r1 c1 L1 m1 -> is_coo r2 c2 L2 m2 -> is_coo r3 c3 L3 m3 -> r1 = r2 -> r1 = r3 -> (Z.of_nat (c1 + c2 + c3) <= Z.min (imax I + 1) (imax Usize))%Z ->
  exists m, Coo_h_stack3 I m1 m2 m3 = Ok m /\ is_coo r1 (c1 + c2 + c3) ((L1 ++ placed 0 c1 L2) ++ placed 0 (c1 + c2) L3) m.
Proof.
  intros H1 H2 H3 E2 E3 H. destruct (h_stack_is _ _ _ _ _ _ _ _ H1 H2 E2 ltac:(lia)) as (m12 & E & H12). destruct (h_stack_is _ _ _ _ _ _ _ _ H12 H3 E3 H) as (m & E' & Hm).
  exists m. split; [|exact Hm]. unfold Coo_h_stack3. destruct H1 as [-> _], H2 as [-> _], H3 as [-> _]. cbn [coo_of coo_rows]. rewrite <- E2 at 1. rewrite <- E3 at 1. rewrite Nat.eqb_refl. cbn [negb].
  subst. rewrite E. exact E'.
Qed.
Lemma compose_is r00 c00 L00 r01 c01 L01 r10 c10 L10 r11 c11 L11 m00 m01 m10 m11 :
  is_coo r00 c00 L00 m00 -> is_coo r01 c01 L01 m01 -> is_coo r10 c10 L10 m10 -> is_coo r11 c11 L11 m11 ->
  r00 = r01 -> r10 = r11 -> c00 + c01 = c10 + c11 -> (Z.of_nat (c00 + c01) <= Z.min (imax I + 1) (imax Usize))%Z -> (Z.of_nat (r00 + r10) <= Z.min (imax I + 1) (imax Usize))%Z ->
  exists m, Coo_compose I m00 m01 m10 m11 = Ok m /\
    is_coo (r00 + r10) (c00 + c01) ((L00 ++ placed 0 c00 L01) ++ placed r00 0 (L10 ++ placed 0 c10 L11)) m.
Proof.
  intros H0 H1 H2 H3 E1 E2 E3 Fc Fr. unfold Coo_compose. destruct (h_stack_is _ _ _ _ _ _ _ _ H0 H1 E1 Fc) as (m1 & -> & M1).
  rewrite E3 in Fc. destruct (h_stack_is _ _ _ _ _ _ _ _ H2 H3 E2 Fc) as (m2 & -> & M2). cbn [bind]. apply (v_stack_is _ _ _ _ _ _ _ _ M1 M2 E3 Fr).
Qed.
Lemma compose_at r00 c00 (L00 L01 L10 L11 : list (nat * nat * T)) r01 c01 r10 c10 i j : Forall (inside I r00 c00) L00 -> Forall (inside I r01 c01) L01 -> r00 = r01 -> (Z.of_nat (c00 + c01) <= Z.min (imax I + 1) (imax Usize))%Z ->
  Forall (inside I r10 c10) L10 ->
  entries_at ((L00 ++ placed 0 c00 L01) ++ placed r00 0 (L10 ++ placed 0 c10 L11)) i j =
    if i <? r00 then (if j <? c00 then entries_at L00 i j else entries_at L01 i (j - c00))
    else (if j <? c10 then entries_at L10 (i - r00) j else entries_at L11 (i - r00) (j - c10)).
Proof.
  intros F0 F1 <- Fc F2. rewrite (v_at _ (c00 + c01)) by (apply h_inside; assumption). destruct (i <? r00).
  - apply (h_at r00); assumption.
  - apply (h_at r10); assumption.
Qed.
End Table.

Section Counts.
Context {T : Type} {SC : Scalar T}.
Variable I : ity.
Lemma coo_entries_length (m : Coo T) : wf_coo I m -> length (coo_entries m) = length (coo_values m).
Proof. intros [H1 H2 _ _]. unfold coo_entries. rewrite !combine_length, !map_length. lia. Qed.
Lemma csr_entries_count (m : CSR T) : wf_csr I m -> length (csr_entries m) = csr_count m.
Proof. intros H. destruct (wf_csr_rep _ _ H) as [R HR]. rewrite (csr_rep_count _ _ _ HR), (csr_entries_rep _ _ _ HR), map_length. apply flat_length. Qed.
Lemma csc_entries_count (m : CSC T) : wf_csc I m -> length (csc_entries m) = csc_count m.
Proof. intros H. destruct (wf_csc_rep _ _ H) as [R HR]. rewrite (csc_rep_count _ _ _ HR), (csc_entries_rep _ _ _ HR), map_length. apply flat_length. Qed.
Lemma diag_entries_map (d : list T) : diag_entries d = map (fun i => ((i, i), nth i d s0)) (seq 0 (length d)).
Proof.
  unfold diag_entries. assert (G : forall l k, combine (combine (seq k (length l)) (seq k (length l))) l = map (fun i => ((k + i, k + i), nth i l s0)) (seq 0 (length l))).
  { induction l as [|v l IH]; intros k; [reflexivity|]. cbn [length seq combine map nth]. rewrite Nat.add_0_r. f_equal. rewrite IH, <- seq_shift, map_map. apply map_ext. intros i. rewrite Nat.add_succ_comm. reflexivity. }
  apply G.
Qed.
Lemma diag_rows_length (d : list T) l : length (concat (map (fun i => [(i, nth i d s0)]) l)) = length l.
Proof. induction l as [|x l IH]; [reflexivity|]. cbn. rewrite IH. reflexivity. Qed.
Lemma diag_rows_at (d : list T) i j : i < length d -> at_ j (nth i (map (fun i => [(i, nth i d s0)]) (seq 0 (length d))) []) = if i =? j then [nth i d s0] else [].
Proof.
  intros H. rewrite (nth_indep _ [] [(0, nth 0 d s0)]) by (rewrite map_length, seq_length; exact H). rewrite (map_nth (fun i => [(i, nth i d s0)])), seq_nth by exact H.
  unfold at_. cbn. destruct (i =? j); reflexivity.
Qed.
Lemma combine_app {A B} (a1 a2 : list A) (b1 b2 : list B) : length a1 = length b1 -> combine (a1 ++ a2) (b1 ++ b2) = combine a1 b1 ++ combine a2 b2.
Proof. revert b1. induction a1 as [|x a1 IH]; intros [|y b1] H; try discriminate; [reflexivity|]. cbn. rewrite IH by (cbn in H; lia). reflexivity. Qed.
End Counts.

(** ** Lengths *)
Section Sized.
Context {T U : Type}.
Lemma CSR_new_sized (m : CSR T) : csr_sized m -> CSR_new (csr_rows m) (csr_cols m) (csr_rowptr m) (csr_colidx m) (csr_values m) = Ok m.
Proof.
  intros (H1 & H2 & H3 & H4). rewrite CSR_new_get by assumption. unfold csr_count in *. destruct (Nat.ltb_spec (length (csr_colidx m)) (ptr (csr_rowptr m) (csr_rows m))); [lia|].
  destruct (Nat.ltb_spec (length (csr_values m)) (ptr (csr_rowptr m) (csr_rows m))); [lia|]. destruct m; reflexivity.
Qed.
Lemma CSC_new_sized (m : CSC T) : csc_sized m -> CSC_new (csc_rows m) (csc_cols m) (csc_rowidx m) (csc_colptr m) (csc_values m) = Ok m.
Proof.
  intros H. pose proof (CSR_new_sized (mkCSR (csc_cols m) (csc_rows m) (csc_colptr m) (csc_rowidx m) (csc_values m)) H) as E. cbn [csr_rows csr_cols csr_rowptr csr_colidx csr_values] in E.
  rewrite CSC_new_csr, E. destruct m; reflexivity.
Qed.
Lemma CSR_new_mk r c p j (x : list T) : csr_sized (mkCSR r c p j x) -> CSR_new r c p j x = Ok (mkCSR r c p j x).
Proof. apply (CSR_new_sized (mkCSR r c p j x)). Qed.
Lemma CSC_new_mk r c j p (x : list T) : csc_sized (mkCSC r c j p x) -> CSC_new r c j p x = Ok (mkCSC r c j p x).
Proof. apply (CSC_new_sized (mkCSC r c j p x)). Qed.
Lemma coo_map_ok (f : T -> U) m : coo_sized m -> exists r, Coo_new (coo_rows m) (coo_cols m) (coo_rowidx m) (coo_colidx m) (map f (coo_values m)) = Ok r /\ coo_mapped f m r.
Proof.
  intros [H1 H2]. eexists. split; [apply Coo_new_ok; rewrite map_length; assumption|]. unfold coo_mapped. sp. intros i j. destruct m. apply coo_at_map.
Qed.
Lemma csr_map_ok (f : T -> U) m : csr_sized m -> exists r, CSR_new (csr_rows m) (csr_cols m) (csr_rowptr m) (csr_colidx m) (map f (csr_values m)) = Ok r /\ csr_mapped f m r.
Proof.
  intros H. destruct m as [r c p j x]. exists (mkCSR r c p j (map f x)). split.
  - cbn [csr_rows csr_cols csr_rowptr csr_colidx csr_values]. unfold csr_sized in H. cbn [csr_rows csr_cols csr_rowptr csr_colidx csr_values csr_count] in H. destruct H as (H1 & H2 & H3 & H4).
    rewrite CSR_new_get by assumption. rewrite map_length. unfold csr_count in *. cbn [csr_rowptr csr_rows] in *. destruct (Nat.ltb_spec (length j) (ptr p r)); [lia|]. destruct (Nat.ltb_spec (length x) (ptr p r)); [lia|]. reflexivity.
  - unfold csr_mapped. sp. intros i k. apply csr_at_map.
Qed.
Lemma csc_map_ok (f : T -> U) m : csc_sized m -> exists r, CSC_new (csc_rows m) (csc_cols m) (csc_rowidx m) (csc_colptr m) (map f (csc_values m)) = Ok r /\ csc_mapped f m r.
Proof.
  intros H. destruct m as [r c j p x]. exists (mkCSC r c j p (map f x)). split.
  - cbn [csc_rows csc_cols csc_colptr csc_rowidx csc_values]. rewrite CSC_new_csr. destruct (csr_map_ok f (mkCSR c r p j x) H) as (r' & E & _). cbn [csr_rows csr_cols csr_rowptr csr_colidx csr_values] in E. rewrite E. reflexivity.
  - unfold csc_mapped. sp. intros i k. apply csc_at_map.
Qed.
Lemma csr_mapped_sized (f : T -> U) m r : csr_sized m -> csr_mapped f m r -> csr_sized r.
Proof. intros H (E1 & E2 & E3 & E4 & E5 & _). unfold csr_sized, csr_count in *. rewrite E1, E3, E4, E5, map_length. exact H. Qed.
Lemma csc_mapped_sized (f : T -> U) m r : csc_sized m -> csc_mapped f m r -> csc_sized r.
Proof. intros H (E1 & E2 & E3 & E4 & E5 & _). unfold csc_sized, csc_count in *. rewrite E2, E3, E4, E5, map_length. exact H. Qed.
End Sized.
