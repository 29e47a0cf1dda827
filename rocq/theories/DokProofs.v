(** Dictionary of keys: histories and conversions. *)
From Verif Require Import Rust Scalar Model_kernels Model_matrix Model_dok Spec Wp Rep ScatterProofs CanonProofs ConvProofs LinProofs Lin2Proofs StructProofs BlockProofs TableProofs.

Lemma key_eqb_spec a b : reflect (a = b) (key_eqb a b).
Proof.
  destruct a as [a1 a2], b as [b1 b2]. unfold key_eqb. cbn. destruct (Z.eqb_spec a1 b1), (Z.eqb_spec a2 b2); constructor; congruence.
Qed.
Lemma NoDup_app_intro {A} (l1 l2 : list A) : NoDup l1 -> NoDup l2 -> (forall a, In a l1 -> ~ In a l2) -> NoDup (l1 ++ l2).
Proof.
  intros N1 N2 D. induction N1 as [|a l1 Ha N1 IH]; [exact N2|]. cbn. constructor; [|apply IH; intros b Hb; apply D; right; exact Hb]. rewrite in_app_iff. intros [X|X]; [contradiction|]. apply (D a); [left; reflexivity|exact X].
Qed.
Lemma filter_none {A} (f : A -> bool) l : (forall a, In a l -> f a = false) -> filter f l = [].
Proof. induction l as [|a l IH]; intros H; [reflexivity|]. cbn. rewrite H by (left; reflexivity). apply IH. intros b Hb. apply H. right. exact Hb. Qed.
Section Map.
Context {T : Type} {SC : Scalar T}.
Implicit Type m : list ((Z * Z) * T).
Lemma remove_cons e m k : hm_remove (e :: m) k = if key_eqb (fst e) k then hm_remove m k else e :: hm_remove m k.
Proof. unfold hm_remove. cbn [filter]. destruct (key_eqb (fst e) k); reflexivity. Qed.
Lemma get_remove m k k' : hm_get (hm_remove m k) k' = if key_eqb k k' then None else hm_get m k'.
Proof.
  induction m as [|[q v] m IH]; [cbn; destruct (key_eqb k k'); reflexivity|]. rewrite remove_cons. cbn [fst hm_get]. destruct (key_eqb_spec q k) as [->|N]; cbn [hm_get].
  - rewrite IH. destruct (key_eqb k k'); reflexivity.
  - rewrite IH. destruct (key_eqb_spec k k') as [->|]; [|reflexivity]. destruct (key_eqb_spec q k'); [congruence|reflexivity].
Qed.
Lemma get_insert m k v k' : hm_get (hm_insert m k v) k' = if key_eqb k k' then Some v else hm_get m k'.
Proof. unfold hm_insert. cbn [hm_get]. rewrite get_remove. destruct (key_eqb k k'); reflexivity. Qed.
Lemma remove_in m k e : In e (hm_remove m k) <-> In e m /\ fst e <> k.
Proof. unfold hm_remove. rewrite filter_In. destruct (key_eqb_spec (fst e) k); cbn; intuition congruence. Qed.
Lemma remove_nodup m k : NoDup (map fst m) -> NoDup (map fst (hm_remove m k)).
Proof.
  induction m as [|e m IH]; intros N; [exact N|]. inversion N as [|? ? N1 N2]; subst. rewrite remove_cons. destruct (key_eqb _ _); [apply IH, N2|]. cbn [map]. constructor; [|apply IH, N2].
  intros X. apply N1. apply in_map_iff in X. destruct X as (d & E & Hd). apply remove_in in Hd. apply in_map_iff. exists d. split; [exact E|apply Hd].
Qed.
Lemma insert_nodup m k v : NoDup (map fst m) -> NoDup (map fst (hm_insert m k v)).
Proof.
  intros N. unfold hm_insert. cbn [map fst]. constructor; [|apply remove_nodup, N]. intros X. apply in_map_iff in X. destruct X as (d & E & Hd). apply remove_in in Hd. tauto.
Qed.
Lemma get_in m k v : NoDup (map fst m) -> (hm_get m k = Some v <-> In (k, v) m).
Proof.
  induction m as [|[q w] m IH]; intros N; [split; [discriminate|intros []]|]. cbn in N. inversion N as [|? ? N1 N2]; subst. cbn. destruct (key_eqb_spec q k) as [->|D].
  - split; [intros [= ->]; left; reflexivity|]. intros [[= ->]|X]; [reflexivity|]. exfalso. apply N1. apply in_map_iff. exists (k, v). auto.
  - rewrite IH by exact N2. split; [tauto|]. intros [[= -> ->]|X]; [congruence|exact X].
Qed.
Lemma get_none m k : hm_get m k = None <-> ~ In k (map fst m).
Proof.
  induction m as [|[q w] m IH]; cbn; [tauto|]. destruct (key_eqb_spec q k) as [->|D]; [split; [discriminate|tauto]|]. rewrite IH. tauto.
Qed.
End Map.

Section DoKs.
Context {T : Type} {SC : Scalar T}.
Variable I : ity.
Implicit Type d : DoK T.

Lemma DoK_new_wf rows cols : wf_dok I (DoK_new (T := T) rows cols).
Proof. split; constructor. Qed.
Lemma DoK_set_ok d i j v : wf_dok I d -> (Z.of_nat (dok_rows d) <= imax I)%Z -> (Z.of_nat (dok_cols d) <= imax I)%Z ->
  if in_bounds (dok_rows d) (dok_cols d) i j then
    exists d', DoK_set I d i j v = Ok d' /\ wf_dok I d' /\ dok_rows d' = dok_rows d /\ dok_cols d' = dok_cols d /\
      forall i' j', DoK_get d' i' j' = put (DoK_get d) i j v i' j'
  else DoK_set I d i j v = Err ERange.
Proof.
  intros [N F] Hr Hc. unfold in_bounds, DoK_set. destruct (Z.leb_spec 0 i); cbn [andb]; [|destruct (Z.ltb_spec i 0); [reflexivity|lia]].
  destruct (Z.ltb_spec i 0); [lia|]. rewrite ifrom_ok by exact Hr. cbn [bind].
  destruct (Z.ltb_spec i (Z.of_nat (dok_rows d))), (Z.leb_spec (Z.of_nat (dok_rows d)) i); try lia; cbn [andb]; [|reflexivity].
  destruct (Z.leb_spec 0 j); cbn [andb]; [|destruct (Z.ltb_spec j 0); [reflexivity|lia]].
  destruct (Z.ltb_spec j 0); [lia|]. rewrite ifrom_ok by exact Hc. cbn [bind].
  destruct (Z.ltb_spec j (Z.of_nat (dok_cols d))), (Z.leb_spec (Z.of_nat (dok_cols d)) j); try lia; cbn [andb]; [|reflexivity].
  rewrite Forall_forall in F. destruct (seqb v s0) eqn:Ev; eexists; (split; [reflexivity|]); unfold wf_dok; cbn [dok_values dok_rows dok_cols]; rewrite Forall_forall; sp.
  - apply remove_nodup, N.
  - intros e He. apply remove_in in He. apply F, He.
  - intros i' j'. unfold DoK_get, put, clean. cbn [dok_values]. rewrite get_remove, Ev. unfold key_eqb. cbn [fst snd]. rewrite (Z.eqb_sym i'), (Z.eqb_sym j'). destruct (_ && _); reflexivity.
  - apply insert_nodup, N.
  - intros e [<-|He]; [cbn; repeat split; try lia; exact Ev|]. apply remove_in in He. apply F, He.
  - intros i' j'. unfold DoK_get, put, clean. cbn [dok_values]. rewrite get_insert, Ev. unfold key_eqb. cbn [fst snd]. rewrite (Z.eqb_sym i'), (Z.eqb_sym j'). destruct (_ && _); reflexivity.
Qed.
Lemma put_ext f g i j v : (forall i j, f i j = g i j) -> forall i' j', put (T := T) f i j v i' j' = put g i j v i' j'.
Proof. intros H i' j'. unfold put. rewrite H. reflexivity. Qed.
Lemma dok_apply_ok d o f : wf_dok I d -> (Z.of_nat (dok_rows d) <= imax I)%Z -> (Z.of_nat (dok_cols d) <= imax I)%Z -> (forall i j, DoK_get d i j = f i j) ->
  let '(f', b) := table_apply (dok_rows d) (dok_cols d) f o in
  if b then exists d', dok_apply I d o = Ok d' /\ wf_dok I d' /\ dok_rows d' = dok_rows d /\ dok_cols d' = dok_cols d /\ forall i j, DoK_get d' i j = f' i j
  else dok_apply I d o = Err ERange /\ f' = f.
Proof.
  intros H Hr Hc G. assert (K : forall i j v, let '(f', b) := (if in_bounds (dok_rows d) (dok_cols d) i j then (put f i j v, true) else (f, false)) in
    if b then exists d', DoK_set I d i j v = Ok d' /\ wf_dok I d' /\ dok_rows d' = dok_rows d /\ dok_cols d' = dok_cols d /\ forall i j, DoK_get d' i j = f' i j else DoK_set I d i j v = Err ERange /\ f' = f).
  { intros i j v. pose proof (DoK_set_ok d i j v H Hr Hc) as X. destruct (in_bounds _ _ i j); [|auto]. destruct X as (d' & E & W & E1 & E2 & E3). exists d'. sp; try assumption. intros i' j'. rewrite E3. apply put_ext, G. }
  destruct o as [i j v|i j v|i j v]; cbn [table_apply dok_apply]; unfold DoK_add, DoK_sub; rewrite ?G; apply K.
Qed.
Lemma dok_history_ok ops d f : wf_dok I d -> (Z.of_nat (dok_rows d) <= imax I)%Z -> (Z.of_nat (dok_cols d) <= imax I)%Z -> (forall i j, DoK_get d i j = f i j) ->
  exists d', dok_history I d ops = Ok (d', snd (table_history (dok_rows d) (dok_cols d) f ops)) /\ wf_dok I d' /\ dok_rows d' = dok_rows d /\ dok_cols d' = dok_cols d /\
    forall i j, DoK_get d' i j = fst (table_history (dok_rows d) (dok_cols d) f ops) i j.
Proof.
  revert d f. induction ops as [|o ops IH]; intros d f H Hr Hc G; [exists d; sp; try assumption|].
  pose proof (dok_apply_ok d o f H Hr Hc G) as X. cbn [dok_history table_history]. destruct (table_apply (dok_rows d) (dok_cols d) f o) as [f' b]. destruct b.
  - destruct X as (d1 & -> & W & E1 & E2 & E3). destruct (IH d1 f' W) as (d2 & E & W2 & D1 & D2 & D3); [rewrite E1; exact Hr|rewrite E2; exact Hc|exact E3|]. rewrite E1, E2 in *. destruct (table_history _ _ f' ops) as [g bs]. cbn [fst snd] in *. rewrite E. cbn [bind].
    exists d2. sp; assumption.
  - destruct X as [-> ->]. destruct (IH d f H Hr Hc G) as (d2 & E & W2 & D1 & D2 & D3). destruct (table_history _ _ f ops) as [g bs]. cbn [fst snd] in *. rewrite E. cbn [bind]. exists d2. sp; assumption.
Qed.

Lemma wf_dok_get d i j v : wf_dok I d -> In ((i, j), v) (dok_values d) -> DoK_get d i j = v.
Proof. intros [N _] H. unfold DoK_get. rewrite (proj2 (get_in _ _ _ N) H). reflexivity. Qed.
Lemma wf_dok_occ d i j : wf_dok I d -> seqb s0 s0 = true -> (seqb (DoK_get d i j) s0 = false <-> In (i, j) (map fst (dok_values d))).
Proof.
  intros [N F] Z0. unfold DoK_get. destruct (hm_get (dok_values d) (i, j)) as [v|] eqn:E.
  - apply (get_in _ _ _ N) in E. rewrite Forall_forall in F. pose proof (F _ E) as (_ & _ & Ev). cbn in Ev. split; [|intros _; exact Ev]. intros _. apply in_map_iff. exists ((i, j), v). auto.
  - apply get_none in E. rewrite Z0. split; [discriminate|tauto].
Qed.
Lemma dok_nnz_count d : wf_dok I d -> seqb (T := T) s0 s0 = true ->
  DoK_nnz d = length (filter (fun p => negb (seqb (DoK_get d (Z.of_nat (fst p)) (Z.of_nat (snd p))) s0)) (list_prod (seq 0 (dok_rows d)) (seq 0 (dok_cols d)))).
Proof.
  intros W Z0. pose proof W as [N F]. set (L := filter _ _). unfold DoK_nnz. rewrite <- (map_length fst (dok_values d)). rewrite <- (map_length (fun p : nat * nat => (Z.of_nat (fst p), Z.of_nat (snd p))) L).
  assert (ND : NoDup (map (fun p : nat * nat => (Z.of_nat (fst p), Z.of_nat (snd p))) L)).
  { apply FinFun.Injective_map_NoDup; [intros [a1 a2] [b1 b2]; cbn; intros [=]; f_equal; lia|]. unfold L. apply NoDup_filter.
    assert (G : forall (l1 l2 : list nat), NoDup l1 -> NoDup l2 -> NoDup (list_prod l1 l2)).
    { intros l1 l2 N1 N2. induction N1 as [|a l1 Ha N1 IH]; [constructor|]. cbn. apply NoDup_app_intro; [apply FinFun.Injective_map_NoDup; [congruence|exact N2]|exact IH|].
      intros [x y] X Y. apply in_map_iff in X. destruct X as (z & [= <- <-] & _). apply in_prod_iff in Y. tauto. }
    apply G; apply seq_NoDup. }
  apply Nat.le_antisymm; apply NoDup_incl_length; try assumption; intros [i j] X.
  - apply in_map_iff. apply in_map_iff in X. destruct X as ([[i' j'] v] & [= -> ->] & Hv). rewrite Forall_forall in F. pose proof (F _ Hv) as (B1 & B2 & B3). cbn [fst snd] in *.
    exists (Z.to_nat i, Z.to_nat j). cbn [fst snd]. split; [f_equal; lia|]. unfold L. apply filter_In. split; [apply in_prod_iff; rewrite !in_seq; lia|]. cbn [fst snd]. rewrite !Z2Nat.id by lia. rewrite (wf_dok_get d i j v W Hv), B3. reflexivity.
  - apply in_map_iff in X. destruct X as ([i' j'] & [= <- <-] & X). unfold L in X. apply filter_In in X. destruct X as [_ X]. cbn [fst snd] in X. apply negb_true_iff in X. apply (wf_dok_occ d _ _ W Z0), X.
Qed.

(** ** conversions *)
Lemma get_perm (l l' : list ((Z * Z) * T)) k : NoDup (map fst l) -> Permutation l' l -> hm_get l' k = hm_get l k.
Proof.
  intros N P. assert (N' : NoDup (map fst l')) by (eapply Permutation_NoDup; [symmetry; apply Permutation_map, P|exact N]).
  destruct (hm_get l k) as [v|] eqn:E.
  - apply (get_in _ _ _ N) in E. apply (get_in _ _ _ N'). rewrite P. exact E.
  - apply get_none. apply get_none in E. rewrite P. exact E.
Qed.
Definition pos (e : (Z * Z) * T) : Prop := (0 <= fst (fst e) /\ 0 <= snd (fst e))%Z.
Lemma filter_get (l : list ((Z * Z) * T)) i j : NoDup (map fst l) -> Forall pos l ->
  map snd (filter (fun e => (Z.to_nat (fst (fst e)) =? i) && (Z.to_nat (snd (fst e)) =? j)) l) = match hm_get l (Z.of_nat i, Z.of_nat j) with Some v => [v] | None => [] end.
Proof.
  intros N F. induction F as [|[[p q] w] l [B1 B2] F IH]; [reflexivity|]. cbn [fst snd] in B1, B2. cbn [map fst] in N. inversion N as [|? ? N1 N2]; subst. cbn [filter hm_get fst snd]. specialize (IH N2).
  unfold key_eqb. cbn [fst snd]. destruct (Nat.eqb_spec (Z.to_nat p) i), (Z.eqb_spec p (Z.of_nat i)); try lia; [|exact IH]. destruct (Nat.eqb_spec (Z.to_nat q) j), (Z.eqb_spec q (Z.of_nat j)); try lia; cbn [andb]; [|exact IH].
  cbn [map snd]. f_equal. rewrite IH. subst p q. rewrite (proj2 (get_none l _) N1). reflexivity.
Qed.
Lemma dok_cell_get d i j : wf_dok I d -> seqb (T := T) s0 s0 = true -> dok_cell d i j = match hm_get (dok_values d) (Z.of_nat i, Z.of_nat j) with Some v => [v] | None => [] end.
Proof.
  intros [N F] Z0. unfold dok_cell, DoK_get, nz. destruct (hm_get _ _) as [v|] eqn:E; [|rewrite Z0; reflexivity]. apply (get_in _ _ _ N) in E. rewrite Forall_forall in F. pose proof (F _ E) as (_ & _ & Ev). cbn in Ev. rewrite Ev. reflexivity.
Qed.
Lemma wf_dok_pos d : wf_dok I d -> Forall pos (dok_values d).
Proof. intros [_ F]. eapply Forall_impl; [|exact F]. unfold pos. intros e. lia. Qed.

Lemma DoK_to_coo_spec d order : wf_dok I d -> Permutation order (dok_values d) ->
  exists r, DoK_to_coo d order = Ok r /\ wf_coo I r /\ coo_rows r = dok_rows d /\ coo_cols r = dok_cols d /\
    coo_entries r = map (fun e => ((Z.to_nat (fst (fst e)), Z.to_nat (snd (fst e))), snd e)) order /\ length (coo_values r) = DoK_nnz d /\
    (seqb (T := T) s0 s0 = true -> forall i j, coo_at r i j = dok_cell d i j).
Proof.
  intros W P. assert (E : DoK_to_coo d order = Ok (mkCoo (dok_rows d) (dok_cols d) (map (fun e => fst (fst e)) order) (map (fun e => snd (fst e)) order) (map snd order))).
  { unfold DoK_to_coo. apply wp_eq, wp_bind. eapply (wp_for_each (fun pre s => s = (map (fun e => fst (fst e)) pre, map (fun e => snd (fst e)) pre, map snd pre))).
    - reflexivity.
    - intros pre [[i j] v] post s _ ->. apply wp_ok. rewrite !map_app. reflexivity.
    - intros s ->. rewrite Coo_new_ok by (rewrite !map_length; reflexivity). cbn [unwrap]. apply wp_ok. reflexivity. }
  eexists. split; [exact E|]. cbn [coo_rows coo_cols coo_values]. pose proof W as [N F].
  assert (Fo : Forall (fun e => (0 <= fst (fst e) < Z.of_nat (dok_rows d) /\ fst (fst e) <= imax I) /\ (0 <= snd (fst e) < Z.of_nat (dok_cols d) /\ snd (fst e) <= imax I) /\ seqb (snd e) s0 = false)%Z order) by (rewrite P; exact F).
  assert (EE : coo_entries (mkCoo (dok_rows d) (dok_cols d) (map (fun e => fst (fst e)) order) (map (fun e => snd (fst e)) order) (map snd order)) = map (fun e => ((Z.to_nat (fst (fst e)), Z.to_nat (snd (fst e))), snd e)) order).
  { unfold coo_entries. cbn. clear. induction order as [|e l IH]; [reflexivity|]. cbn. rewrite IH. reflexivity. }
  sp.
  - constructor; cbn [coo_rowidx coo_colidx coo_values coo_rows coo_cols]; rewrite ?map_length; try reflexivity; apply Forall_map; (eapply Forall_impl; [|exact Fo]); cbn beta; intros e He; apply He.
  - exact EE.
  - rewrite map_length. apply (Permutation_length P).
  - intros Z0 i j. unfold coo_at. rewrite EE, (dok_cell_get d i j W Z0), <- (get_perm _ order _ N P), <- filter_get.
    + clear. induction order as [|e l IH]; [reflexivity|]. cbn [map filter fst snd]. destruct (_ && _); cbn [map]; rewrite IH; reflexivity.
    + eapply Permutation_NoDup; [symmetry; apply Permutation_map, P|exact N].
    + rewrite P. apply wf_dok_pos, W.
Qed.
Lemma DoK_to_dense_spec d order : wf_dok I d -> Permutation order (dok_values d) ->
  exists t, DoK_to_dense d order = Ok t /\ is_table t (dok_rows d) (dok_cols d) (fun i j => DoK_get d (Z.of_nat i) (Z.of_nat j)).
Proof.
  intros W P. unfold DoK_to_dense. pose proof W as [N F].
  assert (Fo : Forall (fun e => (0 <= fst (fst e) < Z.of_nat (dok_rows d) /\ fst (fst e) <= imax I) /\ (0 <= snd (fst e) < Z.of_nat (dok_cols d) /\ snd (fst e) <= imax I) /\ seqb (snd e) s0 = false)%Z order) by (rewrite P; exact F).
  eapply (wp_for_each (fun pre t => is_table t (dok_rows d) (dok_cols d) (fun i j => match hm_get (rev pre) (Z.of_nat i, Z.of_nat j) with Some v => v | None => s0 end))).
  - apply is_table_zero.
  - intros pre [[i j] v] post t E H. rewrite Forall_forall in Fo. destruct (Fo ((i, j), v)) as (B1 & B2 & _); [rewrite E; apply in_or_app; right; left; reflexivity|]. cbn [fst snd] in *.
    rewrite to_usize_ok by lia. cbn [bind]. destruct (is_table_row _ _ _ _ (Z.to_nat i) H) as [G1 G2]; [lia|]. rewrite G1. cbn [bind]. rewrite to_usize_ok by lia. cbn [bind].
    destruct (is_vec_set _ _ _ (Z.to_nat j) v G2) as (y & Ey & Hy); [lia|]. rewrite Ey. cbn [bind]. destruct (is_table_setrow _ _ _ _ (Z.to_nat i) y _ H ltac:(lia) Hy) as (t' & Et & Ht).
    exists t'. split; [exact Et|]. eapply is_table_ext; [exact Ht|]. intros a b Ha Hb. cbv beta. rewrite rev_app_distr. cbn [rev app hm_get]. unfold key_eqb. cbn [fst snd].
    destruct (Nat.eqb_spec a (Z.to_nat i)), (Z.eqb_spec i (Z.of_nat a)); try lia; cbn [andb]; [|reflexivity]. destruct (Nat.eqb_spec b (Z.to_nat j)), (Z.eqb_spec j (Z.of_nat b)); try lia; [reflexivity|]. subst a. reflexivity.
  - intros t H. eapply is_table_ext; [exact H|]. intros i j _ _. cbv beta. unfold DoK_get. rewrite (get_perm (dok_values d) (rev order)); [reflexivity|exact N|]. rewrite <- Permutation_rev. exact P.
Qed.

Lemma DoK_from_dense_spec c (a : list (list T)) : a <> [] -> rectangular c a -> (Z.of_nat (length a) <= imax I)%Z -> (Z.of_nat c <= imax I)%Z ->
  exists d, DoK_from_dense I a = Ok d /\ wf_dok I d /\ dok_rows d = length a /\ dok_cols d = c /\
    forall i j, i < length a -> j < c -> DoK_get d (Z.of_nat i) (Z.of_nat j) = clean (tcell a i j).
Proof.
  intros Ne H Hr Hc. destruct a as [|l0 a0]; [congruence|]. set (a := l0 :: a0) in *. unfold DoK_from_dense. change (0 <? length a) with true. cbv iota. change (vget a 0) with (Ok l0). cbn [bind].
  assert (El : length l0 = c) by (inversion H; assumption). rewrite El.
  set (done := fun (n m : nat) (d : DoK T) => wf_dok I d /\ dok_rows d = length a /\ dok_cols d = c /\ forall i j, i < length a -> j < c -> DoK_get d (Z.of_nat i) (Z.of_nat j) = if (i <? n) || ((i =? n) && (j <? m)) then clean (tcell a i j) else s0).
  change (wp (for_enum 0 a (fun i row mat => for_enum 0 row (fun j v mat => if negb (seqb v s0) then let* zi := ifrom I i in let* zj := ifrom I j in unwrap (DoK_set I mat zi zj v) else Ok mat) mat) (DoK_new (length a) c))
    (fun d => wf_dok I d /\ dok_rows d = length a /\ dok_cols d = c /\ forall i j, i < length a -> j < c -> DoK_get d (Z.of_nat i) (Z.of_nat j) = clean (tcell a i j))).
  eapply (wp_for_enum (fun pre d => done (length pre) 0 d) a).
  - cbn. split; [apply DoK_new_wf|]. sp. intros i j _ _. cbn [length Nat.ltb Nat.leb orb andb]. rewrite andb_false_r. reflexivity.
  - intros pre l post d Ea Hd. cbn [plus]. assert (Ll : length l = c) by (unfold rectangular in H; rewrite Forall_forall in H; apply H; rewrite Ea; apply in_or_app; right; left; reflexivity).
    assert (En : nth (length pre) a [] = l) by (rewrite Ea; apply nth_middle). assert (Hp : length pre < length a) by (rewrite Ea, app_length; cbn; lia).
    eapply (wp_for_enum (fun ip d => done (length pre) (length ip) d) l).
    + exact Hd.
    + intros ip v iq d1 Ev (W & D1 & D2 & D3). cbn [plus]. assert (Hi : length ip < c) by (rewrite <- Ll, Ev, app_length; cbn; lia).
      assert (Et : tcell a (length pre) (length ip) = v) by (unfold tcell; rewrite En, Ev; apply nth_middle).
      assert (Step : forall i j, i < length a -> j < c -> (if ((Z.of_nat i =? Z.of_nat (length pre)) && (Z.of_nat j =? Z.of_nat (length ip)))%Z then clean v else DoK_get d1 (Z.of_nat i) (Z.of_nat j)) = if (i <? length pre) || ((i =? length pre) && (j <? length (ip ++ [v]))) then clean (tcell a i j) else s0).
      { intros i j Hi' Hj'. rewrite D3 by assumption. rewrite app_length. cbn [length].
        destruct (Z.eqb_spec (Z.of_nat i) (Z.of_nat (length pre))), (Nat.eqb_spec i (length pre)), (Nat.ltb_spec i (length pre)); try lia; cbn [andb orb]; try reflexivity.
        destruct (Z.eqb_spec (Z.of_nat j) (Z.of_nat (length ip))), (Nat.ltb_spec j (length ip)), (Nat.ltb_spec j (length ip + 1)); try lia; try reflexivity.
        replace i with (length pre) by lia. replace j with (length ip) by lia. rewrite Et. reflexivity. }
      destruct (seqb v s0) eqn:Ez; cbn [negb].
      * apply wp_ok. unfold done. sp; try assumption. intros i j Hi' Hj'. rewrite <- Step by assumption. destruct (_ && _)%Z eqn:Eq; [|reflexivity]. apply andb_true_iff in Eq. destruct Eq as [E1 E2]. apply Z.eqb_eq in E1, E2.
        rewrite D3 by assumption. replace i with (length pre) by lia. replace j with (length ip) by lia. rewrite !Nat.ltb_irrefl, andb_false_r. cbn [orb]. unfold clean. rewrite Ez. reflexivity.
      * rewrite ifrom_ok by lia. cbn [bind]. rewrite ifrom_ok by lia. cbn [bind]. pose proof (DoK_set_ok d1 (Z.of_nat (length pre)) (Z.of_nat (length ip)) v W ltac:(rewrite D1; exact Hr) ltac:(rewrite D2; exact Hc)) as X.
        replace (in_bounds (dok_rows d1) (dok_cols d1) (Z.of_nat (length pre)) (Z.of_nat (length ip))) with true in X.
        -- destruct X as (d2 & -> & W2 & F1 & F2 & F3). cbn [unwrap]. apply wp_ok. unfold done. sp; try assumption; try congruence. intros i j Hi' Hj'. rewrite F3. unfold put. apply Step; assumption.
        -- unfold in_bounds. rewrite D1, D2. symmetry. rewrite !andb_true_iff. lia.
    + intros d1 (W & D1 & D2 & D3). rewrite app_length. cbn [length]. unfold done. sp; try assumption. intros i j Hi Hj. rewrite D3 by assumption. rewrite Ll. destruct (Nat.ltb_spec j c); [|lia]. rewrite andb_true_r, andb_false_r, orb_false_r.
      destruct (Nat.ltb_spec i (length pre)), (Nat.eqb_spec i (length pre)), (Nat.ltb_spec i (length pre + 1)); try lia; reflexivity.
  - intros d (W & D1 & D2 & D3). sp; try assumption. intros i j Hi Hj. rewrite D3 by assumption. destruct (Nat.ltb_spec i (length a)); [reflexivity|lia].
Qed.
End DoKs.

(** ** Canonical arrays are determined by what they store *)
Section Unique.
Context {T : Type}.
Lemma canonical_cons (e : nat * T) r : canonical_row (e :: r) -> canonical_row r /\ forall k, k <= fst e -> at_ k r = [].
Proof.
  unfold canonical_row. cbn. intros H. apply StronglySorted_inv in H. destruct H as [H F]. split; [exact H|]. intros k Hk. clear H. induction r as [|d r IH]; [reflexivity|]. cbn in F. inversion F; subst. rewrite at_cons. destruct (Nat.eqb_spec (fst d) k); [lia|]. apply IH. assumption.
Qed.
Lemma canonical_ext (r1 r2 : list (nat * T)) : canonical_row r1 -> canonical_row r2 -> (forall k, at_ k r1 = at_ k r2) -> r1 = r2.
Proof.
  revert r2. induction r1 as [|[k1 v1] r1 IH]; intros r2 H1 H2 E.
  - destruct r2 as [|[k v] r2]; [reflexivity|]. pose proof (E k) as E'. rewrite at_cons in E'. cbn in E'. rewrite Nat.eqb_refl in E'. discriminate.
  - destruct r2 as [|[k2 v2] r2]; [specialize (E k1); rewrite at_cons in E; cbn in E; rewrite Nat.eqb_refl in E; discriminate|].
    apply canonical_cons in H1. destruct H1 as [C1 A1]. apply canonical_cons in H2. destruct H2 as [C2 A2]. cbn [fst] in *.
    assert (K : k1 = k2).
    { destruct (Nat.lt_trichotomy k1 k2) as [L|[L|L]]; [|exact L|].
      - specialize (E k1). rewrite !at_cons in E. cbn [fst snd] in E. rewrite Nat.eqb_refl, (A2 k1) in E by lia. destruct (Nat.eqb_spec k2 k1); [lia|discriminate].
      - specialize (E k2). rewrite !at_cons in E. cbn [fst snd] in E. rewrite Nat.eqb_refl, (A1 k2) in E by lia. destruct (Nat.eqb_spec k1 k2); [lia|discriminate]. }
    subst k2. assert (Ek : forall k, at_ k r1 = at_ k r2).
    { intros k. pose proof (E k) as Ek. rewrite !at_cons in Ek. cbn [fst snd] in Ek. destruct (Nat.eqb_spec k1 k) as [Eq|_]; [rewrite (A1 k), (A2 k) by lia; reflexivity|exact Ek]. }
    f_equal; [|apply IH; assumption]. specialize (E k1). rewrite !at_cons in E. cbn [fst snd] in E. rewrite Nat.eqb_refl in E. injection E as ->. reflexivity.
Qed.
Lemma csr_canonical_unique I (m1 m2 : CSR T) : wf_csr I m1 -> wf_csr I m2 -> csr_canonical m1 -> csr_canonical m2 -> csr_tight m1 -> csr_tight m2 ->
  csr_rows m1 = csr_rows m2 -> csr_cols m1 = csr_cols m2 -> (forall i j, i < csr_rows m1 -> j < csr_cols m1 -> csr_at m1 i j = csr_at m2 i j) -> m1 = m2.
Proof.
  intros W1 W2 C1 C2 T1 T2 Er Ec E. destruct (wf_csr_rep _ _ W1) as [R1 H1]. destruct (wf_csr_rep _ _ W2) as [R2 H2].
  unfold csr_canonical in *. rewrite (csr_rep_rows canonical_row _ _ _ H1) in C1. rewrite (csr_rep_rows canonical_row _ _ _ H2) in C2.
  assert (ER : R1 = R2).
  { apply (nth_ext _ _ [] []); [rewrite (proj1 H1), (proj1 H2); exact Er|]. intros i Hi. rewrite Forall_forall in C1, C2. apply canonical_ext; [apply C1, nth_In, Hi|apply C2, nth_In; rewrite (proj1 H2), <- Er, <- (proj1 H1); exact Hi|].
    intros k. destruct (Nat.lt_ge_cases k (csr_cols m1)) as [Hk|Hk].
    - rewrite <- (csr_rep_at _ _ _ _ _ H1), <- (csr_rep_at _ _ _ _ _ H2). apply E; [rewrite <- (proj1 H1); exact Hi|exact Hk].
    - assert (G : forall (m : CSR T) R, csr_rep I m R -> csr_cols m <= k -> at_ k (nth i R []) = []).
      { intros m R [L HC] Hm. pose proof (cr_idx _ _ _ _ _ _ HC) as F. unfold at_. rewrite filter_none; [reflexivity|]. intros e He. apply Nat.eqb_neq. rewrite Forall_forall in F. specialize (F e). destruct F as [F _]; [|lia].
        apply in_concat. exists (nth i R []). split; [|exact He]. destruct (Nat.lt_ge_cases i (length R)); [apply nth_In; assumption|rewrite nth_overflow in He by assumption; destruct He]. }
      rewrite (G m1 R1 H1 Hk), (G m2 R2 H2) by lia. reflexivity. }
  subst R2. apply (csr_tight_rep _ _ _ H1) in T1. apply (csr_tight_rep _ _ _ H2) in T2.
  destruct (crep_tight_eq _ _ _ _ _ _ _ _ _ _ _ (proj2 H1) (proj2 H2)) as (G1 & G2 & G3); try tauto. destruct m1, m2. cbn in *. congruence.
Qed.
Lemma csc_canonical_unique I (m1 m2 : CSC T) : wf_csc I m1 -> wf_csc I m2 -> csc_canonical m1 -> csc_canonical m2 -> csc_tight m1 -> csc_tight m2 ->
  csc_rows m1 = csc_rows m2 -> csc_cols m1 = csc_cols m2 -> (forall i j, i < csc_rows m1 -> j < csc_cols m1 -> csc_at m1 i j = csc_at m2 i j) -> m1 = m2.
Proof.
  intros W1 W2 C1 C2 T1 T2 Er Ec E. destruct m1 as [r1 c1 j1 p1 x1], m2 as [r2 c2 j2 p2 x2].
  assert (X : mkCSR c1 r1 p1 j1 x1 = mkCSR c2 r2 p2 j2 x2); [|congruence].
  apply (csr_canonical_unique I); try assumption. intros i j Hi Hj. apply (E j i); assumption.
Qed.
End Unique.
