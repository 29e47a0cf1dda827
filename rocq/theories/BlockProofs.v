(** Coordinate matrices: dense input, diagonals, triangles, stacking; overflow. *)
From Verif Require Import Rust Scalar Model_kernels Model_matrix Spec Wp Rep CanonProofs ConvProofs LinProofs Lin2Proofs StructProofs.

(** ** Success or panic *)
Definition pw {A} (m : res A) (Q : A -> Prop) : Prop := m = Panic \/ wp m Q.
Lemma pw_panic {A} Q : pw (A := A) Panic Q.
Proof. left. reflexivity. Qed.
Lemma pw_ok {A} (a : A) (Q : A -> Prop) : Q a -> pw (Ok a) Q.
Proof. intros H. right. apply wp_ok, H. Qed.
Lemma pw_wp {A} (m : res A) Q : wp m Q -> pw m Q.
Proof. right. assumption. Qed.
Lemma pw_mono {A} (m : res A) (P Q : A -> Prop) : pw m P -> (forall a, P a -> Q a) -> pw m Q.
Proof. intros [->|H] HQ; [left; reflexivity|right; eapply wp_mono; eassumption]. Qed.
Lemma pw_bind {A B} (m : res A) (f : A -> res B) Q : pw m (fun a => pw (f a) Q) -> pw (bind m f) Q.
Proof. intros [->|(a & -> & H)]; [left; reflexivity|exact H]. Qed.
Lemma pw_bind_panic {A B} (m : res A) (f : A -> res B) P : pw m P -> (forall a, P a -> f a = Panic) -> bind m f = Panic.
Proof. intros [->|(a & -> & H)] G; [reflexivity|]. cbn. apply G, H. Qed.
Lemma pw_for_list {A St} (Inv : list A -> St -> Prop) (l : list A) lo hi f (s : St) (Q : St -> Prop) :
  hi = lo + length l -> Inv [] s ->
  (forall pre a post s, l = pre ++ a :: post -> Inv pre s -> pw (f (lo + length pre) s) (Inv (pre ++ [a]))) ->
  (forall s, Inv l s -> Q s) -> pw (for_range lo hi f s) Q.
Proof.
  intros Hhi H0 Hstep HQ.
  assert (G : forall post pre s, l = pre ++ post -> Inv pre s -> pw (for_range (lo + length pre) hi f s) (Inv l)).
  { clear H0. induction post as [|a post IH]; intros pre s' E Hs.
    - rewrite for_range_nil. 2:{ subst l hi. rewrite app_nil_r. lia. } apply pw_ok. rewrite app_nil_r in E. subst. exact Hs.
    - rewrite for_range_cons. 2:{ subst l hi. rewrite app_length; cbn. lia. }
      apply pw_bind. eapply pw_mono; [apply (Hstep _ _ _ _ E Hs)|].
      intros s2 H2. replace (S (lo + length pre)) with (lo + length (pre ++ [a])) by (rewrite app_length; cbn; lia).
      apply IH; [|exact H2]. rewrite <- app_assoc. exact E. }
  eapply pw_mono; [|exact HQ]. specialize (G l [] s eq_refl H0). cbn in G. rewrite Nat.add_0_r in G. exact G.
Qed.
Lemma pw_for_any {St} lo hi f (s : St) : (forall k s, lo <= k < hi -> pw (f k s) (fun _ => True)) -> pw (for_range lo hi f s) (fun _ => True).
Proof.
  unfold for_range. remember (hi - lo) as n eqn:En. revert lo s En. induction n as [|n IH]; intros lo s En H; cbn [for_n].
  - apply pw_ok. exact Logic.I.
  - apply pw_bind. eapply pw_mono; [apply H; lia|]. intros s' _. apply IH; [lia|]. intros. apply H. lia.
Qed.
(** a loop one of whose iterations always panics *)
Lemma for_range_panic {St} lo hi f (s : St) k : lo <= k < hi ->
  (forall i s, lo <= i < k -> pw (f i s) (fun _ => True)) -> (forall s, f k s = Panic) -> for_range lo hi f s = Panic.
Proof.
  unfold for_range. remember (hi - lo) as n eqn:En. revert lo s En. induction n as [|n IH]; intros lo s En Hk H HP; [lia|]. cbn [for_n].
  destruct (Nat.eq_dec k lo) as [->|Hn]; [rewrite HP; reflexivity|].
  destruct (H lo s ltac:(lia)) as [->|(s' & -> & _)]; [reflexivity|]. cbn [bind]. apply IH; [lia|lia| |exact HP]. intros. apply H. lia.
Qed.
Lemma pw_vget {A} (l : list A) i : pw (vget l i) (fun a => nth_error l i = Some a).
Proof. unfold vget. destruct (nth_error l i) as [a|]; [apply pw_ok; reflexivity|apply pw_panic]. Qed.
Lemma pw_vset {A} (l : list A) i a : pw (vset l i a) (fun l' => length l' = length l).
Proof. unfold vset. destruct (i <? length l); [apply pw_ok, upd_length|apply pw_panic]. Qed.
Lemma pw_icheck I z : pw (icheck I z) (fun r => r = z /\ in_ity I z).
Proof. unfold icheck, in_ity. destruct ((_ <=? _) && (_ <=? _))%Z eqn:E; [apply pw_ok; split; [reflexivity|]; lia|apply pw_panic]. Qed.
Lemma pw_to_usize z : pw (to_usize z) (fun _ => True).
Proof. unfold to_usize. destruct (0 <=? z)%Z; [apply pw_ok; exact Logic.I|apply pw_panic]. Qed.
Lemma pw_pget l i : pw (pget l i) (fun _ => True).
Proof. unfold pget. apply pw_bind. eapply pw_mono; [apply pw_vget|]. intros z _. apply pw_to_usize. Qed.
Lemma pw_vinc I v i z : pw (vinc I v i z) (fun _ => True).
Proof.
  unfold vinc. apply pw_bind. eapply pw_mono; [apply pw_vget|]. intros t _. apply pw_bind. eapply pw_mono; [apply pw_icheck|]. intros t' _.
  eapply pw_mono; [apply pw_vset|]. trivial.
Qed.

(** the positions 0, 1, ..., n-1 written one by one *)
Lemma fill_iota_ok I v n : n = length v -> (Z.of_nat n <= imax I + 1)%Z -> fill_iota I v n = Ok (map Z.of_nat (seq 0 n)).
Proof.
  intros L H. unfold fill_iota. apply wp_eq.
  eapply (wp_for (fun k w => length w = n /\ firstn k w = map Z.of_nat (seq 0 k))); [lia|split; [auto|reflexivity]| |].
  - intros k w [_ Hk] [Lw Ew]. rewrite ifrom_ok by lia. cbn [bind]. rewrite vset_ok by lia. apply wp_ok. rewrite upd_length. split; [exact Lw|].
    rewrite firstn_upd_snoc by lia. rewrite Ew, seq_S, map_app. reflexivity.
  - intros w [Lw Ew]. rewrite <- Ew. symmetry. rewrite firstn_all2 by lia. reflexivity.
Qed.
Lemma fill_iota_panic I v n : (imax I + 1 < Z.of_nat n)%Z -> fill_iota I v n = Panic.
Proof.
  intros H. unfold fill_iota. pose proof (imax_ge_127 I). apply (for_range_panic _ _ _ _ (Z.to_nat (imax I + 1))); [lia| |].
  - intros i s Hi. apply pw_bind. eapply pw_mono; [apply pw_icheck|]. intros z _. eapply pw_mono; [apply pw_vset|]. trivial.
  - intros s. rewrite ifrom_panic by lia. reflexivity.
Qed.

Lemma firstn_S_nth {A} (d : A) k l : k < length l -> firstn (S k) l = firstn k l ++ [nth k l d].
Proof. revert k. induction l as [|x l IH]; intros [|k] H; cbn in *; try lia; [reflexivity|]. rewrite IH by lia. reflexivity. Qed.
Lemma firstn_seq k s n : k <= n -> firstn k (seq s n) = seq s k.
Proof. revert k s. induction n as [|n IH]; intros [|k] s H; cbn; try reflexivity; [lia|]. rewrite IH by lia. reflexivity. Qed.
Lemma nth_repeat_any {A} (a d : A) k n : k < n -> nth k (repeat a n) d = a.
Proof. revert k. induction n as [|n IH]; intros [|k] H; cbn; try lia; [reflexivity|]. apply IH. lia. Qed.

Section Coo.
Context {T : Type}.
Variable I : ity.
Implicit Type L : list (nat * nat * T).

Definition zrow L := map (fun e => Z.of_nat (fst (fst e))) L.
Definition zcol L := map (fun e => Z.of_nat (snd (fst e))) L.
Definition coo_of (r c : nat) L : Coo T := mkCoo r c (zrow L) (zcol L) (map snd L).
Lemma coo_of_entries r c L : coo_entries (coo_of r c L) = L.
Proof.
  unfold coo_entries, coo_of, zrow, zcol. cbn [coo_rowidx coo_colidx coo_values]. rewrite !map_map.
  rewrite (map_ext _ (fun e => fst (fst e))) by (intros; apply Nat2Z.id). rewrite (map_ext (fun e => Z.to_nat (Z.of_nat (snd (fst e)))) (fun e => snd (fst e))) by (intros; apply Nat2Z.id).
  induction L as [|[[i j] v] L IH]; [reflexivity|]. cbn. rewrite IH. reflexivity.
Qed.
Definition inside (r c : nat) (e : nat * nat * T) : Prop :=
  fst (fst e) < r /\ snd (fst e) < c /\ (Z.of_nat (fst (fst e)) <= imax I)%Z /\ (Z.of_nat (snd (fst e)) <= imax I)%Z.
Lemma wf_coo_of r c L : Forall (inside r c) L -> wf_coo I (coo_of r c L).
Proof.
  intros H. unfold coo_of, zrow, zcol. constructor; cbn [coo_rowidx coo_colidx coo_values coo_rows coo_cols]; rewrite ?map_length; try reflexivity;
    apply Forall_map; (eapply Forall_impl; [|exact H]); intros e (H1 & H2 & H3 & H4); lia.
Qed.
Lemma wf_coo_is (m : Coo T) : wf_coo I m -> m = coo_of (coo_rows m) (coo_cols m) (coo_entries m) /\ Forall (inside (coo_rows m) (coo_cols m)) (coo_entries m).
Proof.
  intros H. destruct (wf_coo_arrays I m H) as (E1 & E2 & E3 & E4 & E5). split.
  - destruct m as [r c i j x]. unfold coo_of, zrow, zcol. cbn [coo_rows coo_cols coo_rowidx coo_colidx coo_values] in *. congruence.
  - eapply Forall_impl; [|exact E5]. cbv beta. unfold inside. intros e. tauto.
Qed.
Lemma zrow_app L1 L2 : zrow (L1 ++ L2) = zrow L1 ++ zrow L2.
Proof. apply map_app. Qed.
Lemma zcol_app L1 L2 : zcol (L1 ++ L2) = zcol L1 ++ zcol L2.
Proof. apply map_app. Qed.

(** ** Stacking *)
Lemma mapM_shift (f : nat * nat * T -> nat) (d : nat) L : (forall e, In e L -> (Z.of_nat (d + f e) <= imax I)%Z) ->
  mapM (fun z => let* s := ifrom I d in iadd I z s) (map (fun e => Z.of_nat (f e)) L) = Ok (map (fun e => Z.of_nat (d + f e)) L).
Proof.
  induction L as [|e L IH]; intros H; [reflexivity|]. cbn [map mapM]. pose proof (H e (or_introl eq_refl)).
  rewrite IH by (intros; apply H; right; assumption). rewrite ifrom_ok by lia. cbn [bind]. rewrite iadd_ok by lia. cbn [bind].
  f_equal. f_equal. lia.
Qed.
Lemma placed_inside r c L dr dc r' c' : Forall (inside r c) L -> dr + r <= r' -> dc + c <= c' -> dr = 0 \/ (Z.of_nat (dr + r) <= imax I + 1)%Z -> dc = 0 \/ (Z.of_nat (dc + c) <= imax I + 1)%Z ->
  Forall (inside r' c') (placed dr dc L).
Proof. intros H H1 H2 H3 H4. apply Forall_map. eapply Forall_impl; [|exact H]. unfold inside. cbn [fst snd]. intros e. lia. Qed.
Lemma inside_mono r c r' c' L : Forall (inside r c) L -> r <= r' -> c <= c' -> Forall (inside r' c') L.
Proof. intros H H1 H2. eapply Forall_impl; [|exact H]. unfold inside. lia. Qed.
Lemma placed_0 L : placed 0 0 L = L.
Proof. unfold placed. rewrite <- (map_id L) at 2. apply map_ext. intros [[i j] v]. reflexivity. Qed.
Lemma placed_app dr dc L1 L2 : placed dr dc (L1 ++ L2) = placed dr dc L1 ++ placed dr dc L2.
Proof. apply map_app. Qed.
Lemma placed_placed a b c d L : placed a b (placed c d L) = placed (a + c) (b + d) L.
Proof. unfold placed. rewrite map_map. apply map_ext. intros e. cbn [fst snd]. rewrite !Nat.add_assoc. reflexivity. Qed.
Lemma mapM_zrow d dc L : (forall e, In e L -> (Z.of_nat (d + fst (fst e)) <= imax I)%Z) ->
  mapM (fun z => let* s := ifrom I d in iadd I z s) (zrow L) = Ok (zrow (placed d dc L)).
Proof. intros H. unfold zrow at 1. rewrite mapM_shift by exact H. unfold zrow, placed. rewrite map_map. reflexivity. Qed.
Lemma mapM_zcol d dr L : (forall e, In e L -> (Z.of_nat (d + snd (fst e)) <= imax I)%Z) ->
  mapM (fun z => let* s := ifrom I d in iadd I z s) (zcol L) = Ok (zcol (placed dr d L)).
Proof. intros H. unfold zcol at 1. rewrite mapM_shift by exact H. unfold zcol, placed. rewrite map_map. reflexivity. Qed.
Lemma zrow_placed_0 dc L : zrow (placed 0 dc L) = zrow L.
Proof. unfold zrow, placed. rewrite map_map. reflexivity. Qed.
Lemma zcol_placed_0 dr L : zcol (placed dr 0 L) = zcol L.
Proof. unfold zcol, placed. rewrite map_map. reflexivity. Qed.
Lemma snd_placed dr dc L : map snd (placed dr dc L) = map snd L.
Proof. unfold placed. rewrite map_map. reflexivity. Qed.
Lemma v_stack_of r1 r2 c L1 L2 : Forall (inside r2 c) L2 -> (Z.of_nat (r1 + r2) <= Z.min (imax I + 1) (imax Usize))%Z ->
  Coo_v_stack I (coo_of r1 c L1) (coo_of r2 c L2) = Ok (coo_of (r1 + r2) c (L1 ++ placed r1 0 L2)).
Proof.
  intros H Hf. unfold Coo_v_stack, coo_of. cbn [coo_rows coo_cols coo_rowidx coo_colidx coo_values]. rewrite Nat.eqb_refl. cbn [negb].
  rewrite uadd_ok by lia. cbn [bind]. rewrite (mapM_zrow r1 0).
  - cbn [bind]. rewrite zrow_app, zcol_app, map_app, zcol_placed_0, snd_placed. reflexivity.
  - intros e He. rewrite Forall_forall in H. specialize (H e He). unfold inside in H. lia.
Qed.
Lemma h_stack_of r c1 c2 L1 L2 : Forall (inside r c2) L2 -> (Z.of_nat (c1 + c2) <= Z.min (imax I + 1) (imax Usize))%Z ->
  Coo_h_stack I (coo_of r c1 L1) (coo_of r c2 L2) = Ok (coo_of r (c1 + c2) (L1 ++ placed 0 c1 L2)).
Proof.
  intros H Hf. unfold Coo_h_stack, coo_of. cbn [coo_rows coo_cols coo_rowidx coo_colidx coo_values]. rewrite Nat.eqb_refl. cbn [negb].
  rewrite uadd_ok by lia. cbn [bind]. rewrite (mapM_zcol c1 0).
  - cbn [bind]. rewrite Coo_new_ok by (unfold zrow, zcol, placed; rewrite !app_length, !map_length; reflexivity).
    rewrite zrow_app, zcol_app, map_app, zrow_placed_0, snd_placed. reflexivity.
  - intros e He. rewrite Forall_forall in H. specialize (H e He). unfold inside in H. lia.
Qed.
End Coo.

Section Coo2.
Context {T : Type} {SC : Scalar T}.
Variable I : ity.
Implicit Type L : list (nat * nat * T).

(** ** Dense input *)
Fixpoint dents (k : nat) (a : list (list T)) : list (nat * nat * T) :=
  match a with [] => [] | l :: a' => map (fun e => ((k, fst e), snd e)) (nzs 0 l) ++ dents (S k) a' end.
Lemma dents_app k a b : dents k (a ++ b) = dents k a ++ dents (k + length a) b.
Proof.
  revert k. induction a as [|l a IH]; intros k; cbn [dents app length]; [rewrite Nat.add_0_r; reflexivity|].
  rewrite IH, <- app_assoc. replace (S k + length a) with (k + S (length a)) by lia. reflexivity.
Qed.
Lemma dents_in k a e : In e (dents k a) -> k <= fst (fst e) < k + length a /\ In (snd (fst e), snd e) (nzs 0 (nth (fst (fst e) - k) a [])).
Proof.
  revert k. induction a as [|l a IH]; intros k H; [destruct H|]. cbn [dents] in H. apply in_app_iff in H as [H|H].
  - apply in_map_iff in H as ([j v] & <- & H). cbn [fst snd length]. rewrite Nat.sub_diag. cbn [nth]. split; [lia|exact H].
  - apply IH in H as [H1 H2]. cbn [length]. split; [lia|]. replace (fst (fst e) - k) with (S (fst (fst e) - S k)) by lia. exact H2.
Qed.
(** the row and column number fit *)
Definition ent_fit (e : nat * nat * T) : Prop := (Z.of_nat (fst (fst e)) <= imax I /\ Z.of_nat (snd (fst e)) <= imax I)%Z.
Definition arrs L := (zrow L, zcol L, map snd L).
Lemma arrs_snoc L (i j : nat) (v : T) : (zrow L ++ [Z.of_nat i], zcol L ++ [Z.of_nat j], map snd L ++ [v]) = arrs (L ++ [((i, j), v)]).
Proof. unfold arrs. rewrite zrow_app, zcol_app, map_app. reflexivity. Qed.
Definition push_body (i j : nat) (v : T) : list Z * list Z * list T -> res (list Z * list Z * list T) := fun '(rowidx, colidx, values) =>
  if negb (seqb v s0) then
    let* zi := ifrom I i in
    let* zj := ifrom I j in
    Ok (rowidx ++ [zi], colidx ++ [zj], values ++ [v])
  else Ok (rowidx, colidx, values).
Lemma push_body_nz i j v L : seqb v s0 = false ->
  push_body i j v (arrs L) = Panic /\ ~ ent_fit ((i, j), v) \/ push_body i j v (arrs L) = Ok (arrs (L ++ [((i, j), v)])) /\ ent_fit ((i, j), v).
Proof.
  intros E. unfold push_body, arrs at 1 2, ent_fit. cbn [fst snd]. rewrite E. cbn [negb].
  destruct (Z_le_gt_dec (Z.of_nat i) (imax I)).
  - rewrite ifrom_ok by lia. cbn [bind]. destruct (Z_le_gt_dec (Z.of_nat j) (imax I)).
    + rewrite ifrom_ok by lia. cbn [bind]. right. rewrite arrs_snoc. split; [reflexivity|lia].
    + rewrite ifrom_panic by lia. left. split; [reflexivity|lia].
  - rewrite ifrom_panic by lia. left. split; [reflexivity|lia].
Qed.
(** either everything fits and the entries are appended, or the loop panics *)
Lemma coo_push_row i (l : list T) k L : let E := map (fun e => ((i, fst e), snd e)) (nzs k l) in
  for_enum k l (push_body i) (arrs L) = Panic /\ ~ Forall ent_fit E \/ for_enum k l (push_body i) (arrs L) = Ok (arrs (L ++ E)) /\ Forall ent_fit E.
Proof.
  revert k L. induction l as [|v l IH]; intros k L; cbn [for_enum nzs map].
  - right. rewrite app_nil_r. split; [reflexivity|constructor].
  - destruct (seqb v s0) eqn:E.
    + replace (push_body i k v (arrs L)) with (Ok (arrs L)) by (unfold push_body, arrs; rewrite E; reflexivity). cbn [bind app]. apply IH.
    + cbn [app map fst snd]. destruct (push_body_nz i k v L E) as [[-> N]|[-> F]]; cbn [bind].
      * left. split; [reflexivity|]. intros HF. apply N. inversion HF; assumption.
      * destruct (IH (S k) (L ++ [((i, k), v)])) as [[-> N]|[-> F2]].
        -- left. split; [reflexivity|]. intros HF. apply N. inversion HF; assumption.
        -- right. rewrite <- app_assoc. split; [reflexivity|constructor; assumption].
Qed.
Lemma Coo_from_dense_cases (a : list (list T)) :
  Coo_from_dense I a = Panic /\ ~ Forall ent_fit (dents 0 a) \/
  Coo_from_dense I a = Ok (coo_of (length a) (length (hd [] a)) (dents 0 a)) /\ Forall ent_fit (dents 0 a).
Proof.
  assert (G : forall k L, for_enum k a (fun i r st => for_enum 0 r (push_body i) st) (arrs L) = Panic /\ ~ Forall ent_fit (dents k a) \/
    for_enum k a (fun i r st => for_enum 0 r (push_body i) st) (arrs L) = Ok (arrs (L ++ dents k a)) /\ Forall ent_fit (dents k a)).
  { induction a as [|l a' IH]; intros k L; cbn [for_enum dents].
    - right. rewrite app_nil_r. split; [reflexivity|constructor].
    - destruct (coo_push_row k l 0 L) as [[-> N]|[-> F]]; cbn [bind].
      + left. split; [reflexivity|]. rewrite Forall_app. tauto.
      + destruct (IH (S k) (L ++ map (fun e => ((k, fst e), snd e)) (nzs 0 l))) as [[-> N]|[-> F2]].
        * left. split; [reflexivity|]. rewrite Forall_app. tauto.
        * right. rewrite <- app_assoc, Forall_app. tauto. }
  unfold Coo_from_dense. replace (if 0 <? length a then _ else _) with (Ok (length (hd [] a))) by (destruct a; reflexivity). cbn [bind].
  match goal with |- context [bind ?m _] => change m with (for_enum 0 a (fun i r st => for_enum 0 r (push_body i) st) (arrs [])) end.
  destruct (G 0 []) as [[-> N]|[-> F]]; cbn [bind]; [left|right]; split; solve [reflexivity|assumption].
Qed.

(** ** Overflow of dense input *)
Lemma push_row_pw (l : list T) c colidx (values : list T) n (get : nat -> res T) : length l = c ->
  (forall j, j < c -> get j = Ok (nth j l s0)) ->
  pw (for_range 0 c (fun j '(colidx, values, idxptr) =>
        let* v := get j in
        if negb (seqb v s0) then
          let* zj := ifrom I j in
          Ok (colidx ++ [zj], values ++ [v], idxptr + 1)
        else Ok (colidx, values, idxptr)) (colidx, values, n))
  (fun s => s = (colidx ++ zfst (nzs 0 l), values ++ map snd (nzs 0 l), n + length (nzs 0 l)) /\ Forall (fun e => (Z.of_nat (fst e) <= imax I)%Z) (nzs 0 l)).
Proof.
  intros L G.
  eapply (pw_for_list (fun pre s => s = (colidx ++ zfst (nzs 0 pre), values ++ map snd (nzs 0 pre), n + length (nzs 0 pre)) /\ Forall (fun e => (Z.of_nat (fst e) <= imax I)%Z) (nzs 0 pre)) l); [lia| | |].
  - cbn. rewrite !app_nil_r, Nat.add_0_r. split; [reflexivity|constructor].
  - intros pre v post s E [-> F]. cbn [plus]. rewrite G by (rewrite <- L, E, app_length; cbn; lia). cbn [bind].
    assert (EN : nth (length pre) l s0 = v) by (rewrite E; apply nth_middle). rewrite EN, nzs_snoc.
    destruct (seqb v s0) eqn:Ev; cbn [negb].
    + rewrite app_nil_r. apply pw_ok. split; [reflexivity|exact F].
    + destruct (Z_le_gt_dec (Z.of_nat (length pre)) (imax I)) as [Hle|Hgt].
      * rewrite ifrom_ok by exact Hle. cbn [bind]. apply pw_ok. rewrite zfst_app, map_app, app_length, !app_assoc. cbn. rewrite Nat.add_assoc. split; [reflexivity|].
        apply Forall_app. split; [exact F|]. constructor; [exact Hle|constructor].
      * rewrite ifrom_panic by lia. apply pw_panic.
  - intros s H. exact H.
Qed.
Lemma CSR_from_dense_over a0 a : let A := a0 :: a in let R := map (nzs 0) A in rect (length a0) A ->
  ~ (cols_fit I A /\ (Z.of_nat (length (concat R)) <= imax I)%Z) -> CSR_from_dense I A = Panic.
Proof.
  intros A R HR N. unfold CSR_from_dense. change (vget A 0) with (Ok a0). cbn [bind].
  eapply pw_bind_panic.
  { eapply (pw_for_list (fun pre s => s = (starts (map (nzs 0) pre), zfst (concat (map (nzs 0) pre)), map snd (concat (map (nzs 0) pre)), length (concat (map (nzs 0) pre))) /\ cols_fit I pre) A); [reflexivity|split; [reflexivity|constructor]| |intros s H; exact H].
    intros pre l post s E [-> F]. cbn [plus].
    destruct (Z_le_gt_dec (Z.of_nat (length (concat (map (nzs 0) pre)))) (imax I)) as [Hle|Hgt]; [|rewrite ifrom_panic by lia; apply pw_panic].
    rewrite ifrom_ok by exact Hle. cbn [bind]. unfold rect in HR. rewrite Forall_forall in HR. assert (Hl : In l A) by (rewrite E; apply in_elt).
    rewrite (for_range_ext 0 (length a0) _ (fun j '(colidx, values, idxptr) =>
        let* v := vget l j in
        if negb (seqb v s0) then
          let* zj := ifrom I j in
          Ok (colidx ++ [zj], values ++ [v], idxptr + 1)
        else Ok (colidx, values, idxptr))).
    2:{ intros k [[cj vs] n] _. assert (G : vget A (length pre) = Ok l) by (rewrite E; apply vget_some; rewrite nth_error_app2, Nat.sub_diag by lia; reflexivity). rewrite G. reflexivity. }
    apply pw_bind. eapply pw_mono; [apply (push_row_pw l (length a0) _ _ _ (vget l) (HR l Hl)); intros j Hj; apply vget_nth; rewrite (HR l Hl); exact Hj|].
    intros s [-> F2]. cbv beta iota. apply pw_ok. rewrite (map_app (nzs 0)). cbn [map]. rewrite starts_snoc, concat_app. cbn [concat]. rewrite app_nil_r, zfst_app, map_app, app_length. split; [reflexivity|].
    apply Forall_app. split; [exact F|]. constructor; [exact F2|constructor]. }
  intros s [-> F]. cbv beta iota.
  destruct (Z_le_gt_dec (Z.of_nat (length (concat R))) (imax I)) as [Hle|Hgt]; [exfalso; apply N; split; assumption|].
  fold R. rewrite ifrom_panic by lia. reflexivity.
Qed.
Lemma CSC_from_dense_over a0 a : let A := a0 :: a in let R := map (nzs 0) (columns (length a0) A) in rect (length a0) A ->
  ~ (cols_fit I (columns (length a0) A) /\ (Z.of_nat (length (concat R)) <= imax I)%Z) -> CSC_from_dense I A = Panic.
Proof.
  intros A R HR N. unfold CSC_from_dense. change (vget A 0) with (Ok a0). cbn [bind].
  eapply pw_bind_panic.
  { eapply (pw_for_list (fun pre s => s = (starts (map (nzs 0) pre), zfst (concat (map (nzs 0) pre)), map snd (concat (map (nzs 0) pre)), length (concat (map (nzs 0) pre))) /\ cols_fit I pre) (columns (length a0) A)); [rewrite columns_length; reflexivity|split; [reflexivity|constructor]| |intros s H; exact H].
    intros pre l post s E [-> F]. cbn [plus].
    destruct (Z_le_gt_dec (Z.of_nat (length (concat (map (nzs 0) pre)))) (imax I)) as [Hle|Hgt]; [|rewrite ifrom_panic by lia; apply pw_panic].
    rewrite ifrom_ok by exact Hle. cbn [bind].
    pose proof (columns_elt _ _ _ _ _ E) as El.
    assert (Hpre : length pre < length a0) by (rewrite <- (columns_length (length a0) A), E, app_length; cbn; lia).
    rewrite (for_range_ext 0 (length A) _ (fun j '(rowidx, values, idxptr) =>
        let* v := (let* aj := vget A j in vget aj (length pre)) in
        if negb (seqb v s0) then
          let* zj := ifrom I j in
          Ok (rowidx ++ [zj], values ++ [v], idxptr + 1)
        else Ok (rowidx, values, idxptr))).
    2:{ intros k [[cj vs] n] _. destruct (vget A k); reflexivity. }
    apply pw_bind. eapply pw_mono; [apply (push_row_pw l (length A))|].
    - rewrite El. apply map_length.
    - intros j Hj. rewrite (vget_nth _ _ []) by exact Hj. cbn [bind]. rewrite (vget_nth _ _ s0).
      + rewrite El. f_equal. symmetry. rewrite (nth_indep _ s0 (nth (length pre) [] s0)) by (rewrite map_length; exact Hj). apply (map_nth (fun l => nth (length pre) l s0)).
      + unfold rect in HR. rewrite Forall_forall in HR. rewrite (HR (nth j A [])) by (apply nth_In, Hj). exact Hpre.
    - intros s [-> F2]. cbv beta iota. apply pw_ok. rewrite (map_app (nzs 0)). cbn [map]. rewrite starts_snoc, concat_app. cbn [concat]. rewrite app_nil_r, zfst_app, map_app, app_length. split; [reflexivity|].
      apply Forall_app. split; [exact F|]. constructor; [exact F2|constructor]. }
  intros s [-> F]. cbv beta iota.
  destruct (Z_le_gt_dec (Z.of_nat (length (concat R))) (imax I)) as [Hle|Hgt]; [exfalso; apply N; split; assumption|].
  fold R. rewrite ifrom_panic by lia. reflexivity.
Qed.

(** more entries than the index type can count *)
Lemma coo_tocsr_over n c nnz ai aj (ax : list T) bp bj bx : (imax I < Z.of_nat nnz)%Z -> coo_tocsr I n c nnz ai aj ax bp bj bx = Panic.
Proof.
  intros H. unfold coo_tocsr. eapply pw_bind_panic.
  { apply (pw_for_any 0 nnz). intros k p _. apply pw_bind. eapply pw_mono; [apply pw_pget|]. intros i _. apply pw_vinc. }
  intros p _. eapply pw_bind_panic.
  { apply (pw_for_any 0 n). intros k [q s] _. apply pw_bind. eapply pw_mono; [apply pw_vget|]. intros t _.
    apply pw_bind. eapply pw_mono; [apply pw_vset|]. intros q' _. apply pw_bind. eapply pw_mono; [apply pw_icheck|]. intros z _. apply pw_ok. exact Logic.I. }
  intros [q s] _. rewrite ifrom_panic by exact H. reflexivity.
Qed.
Lemma Coo_to_csr_over (m : Coo T) : (imax I < Z.of_nat (Coo_nnz m))%Z -> Coo_to_csr I m = Panic.
Proof. intros H. unfold Coo_to_csr. rewrite coo_tocsr_over by exact H. reflexivity. Qed.
Lemma Coo_to_csc_over (m : Coo T) : (imax I < Z.of_nat (Coo_nnz m))%Z -> Coo_to_csc I m = Panic.
Proof. intros H. unfold Coo_to_csc. rewrite coo_tocsr_over by exact H. reflexivity. Qed.

(** ** Diagonals *)
Definition diag_entries (d : list T) : list (nat * nat * T) := combine (combine (seq 0 (length d)) (seq 0 (length d))) d.
Lemma diag_entries_arrs d : arrs (diag_entries d) = (map Z.of_nat (seq 0 (length d)), map Z.of_nat (seq 0 (length d)), d).
Proof.
  unfold arrs, diag_entries, zrow, zcol. generalize 0 as k. induction d as [|v d IH]; intros k; cbn [length seq combine map fst snd]; [reflexivity|].
  specialize (IH (S k)). injection IH as E1 E2 E3. rewrite E1, E2, E3. reflexivity.
Qed.
Lemma diag_entries_in d e : In e (diag_entries d) -> fst (fst e) = snd (fst e) /\ fst (fst e) < length d /\ snd e = nth (fst (fst e)) d s0.
Proof.
  unfold diag_entries. intros H.
  assert (G : forall k, In e (combine (combine (seq k (length d)) (seq k (length d))) d) -> fst (fst e) = snd (fst e) /\ k <= fst (fst e) < k + length d /\ snd e = nth (fst (fst e) - k) d s0).
  { clear H. induction d as [|v d IH]; intros k H; [destruct H|]. cbn [length seq combine] in H. destruct H as [<-|H].
    - cbn. rewrite Nat.sub_diag. repeat split; lia.
    - apply IH in H as (H1 & H2 & H3). cbn [length]. replace (fst (fst e) - k) with (S (fst (fst e) - S k)) by lia. cbn [nth]. repeat split; try lia; assumption. }
  apply G in H as (H1 & H2 & H3). rewrite Nat.sub_0_r in H3. repeat split; try lia; assumption.
Qed.
Definition diag_body (get : nat -> res T) (i : nat) : list Z * list Z * list T -> res (list Z * list Z * list T) := fun '(rowidx, colidx, values) =>
  let* zi := ifrom I i in
  let* rowidx := vset rowidx i zi in
  let* colidx := vset colidx i zi in
  let* d := get i in
  let* values := vset values i d in
  Ok (rowidx, colidx, values).
Lemma diag_loop get d ri ci (vs : list T) : length ri = length d -> length ci = length d -> length vs = length d -> (forall i, i < length d -> get i = Ok (nth i d s0)) ->
  (Z.of_nat (length d) <= imax I + 1)%Z -> for_range 0 (length d) (diag_body get) (ri, ci, vs) = Ok (map Z.of_nat (seq 0 (length d)), map Z.of_nat (seq 0 (length d)), d).
Proof.
  intros L1 L2 L3 G H. apply wp_eq.
  eapply (wp_for (fun k '(r, c, v) => length r = length d /\ length c = length d /\ length v = length d /\ firstn k r = map Z.of_nat (seq 0 k) /\ firstn k c = map Z.of_nat (seq 0 k) /\ firstn k v = firstn k d)); [lia|sp; assumption| |].
  - intros k [[r c] v] [_ Hk] (R1 & R2 & R3 & R4 & R5 & R6). unfold diag_body. rewrite ifrom_ok by lia. cbn [bind]. rewrite !vset_ok by lia. cbn [bind]. rewrite G by exact Hk. cbn [bind].
    rewrite vset_ok by lia. cbn [bind]. apply wp_ok. rewrite !upd_length. sp; try assumption.
    + rewrite firstn_upd_snoc by lia. rewrite R4, seq_S, map_app. reflexivity.
    + rewrite firstn_upd_snoc by lia. rewrite R5, seq_S, map_app. reflexivity.
    + rewrite firstn_upd_snoc by lia. rewrite R6. symmetry. apply firstn_S_nth. exact Hk.
  - intros [[r c] v] (R1 & R2 & R3 & R4 & R5 & R6). rewrite <- R4 at 1. rewrite <- R5. rewrite <- (firstn_all d) at 3. rewrite <- R6, <- R1. rewrite firstn_all, R1, <- R2, firstn_all, R2, <- R3, firstn_all. reflexivity.
Qed.
Lemma diag_loop_over get n s : (forall i, i < n -> exists v, get i = Ok v) -> (imax I + 1 < Z.of_nat n)%Z -> for_range 0 n (diag_body get) s = Panic.
Proof.
  intros G H. pose proof (imax_ge_127 I). apply (for_range_panic _ _ _ _ (Z.to_nat (imax I + 1))); [lia| |].
  - intros i [[r c] v] Hi. unfold diag_body. apply pw_bind. eapply pw_mono; [apply pw_icheck|]. intros z _.
    apply pw_bind. eapply pw_mono; [apply pw_vset|]. intros r' _. apply pw_bind. eapply pw_mono; [apply pw_vset|]. intros c' _.
    destruct (G i ltac:(lia)) as [x ->]. cbn [bind]. apply pw_bind. eapply pw_mono; [apply pw_vset|]. intros v' _. apply pw_ok. exact Logic.I.
  - intros [[r c] v]. unfold diag_body. rewrite ifrom_panic by lia. reflexivity.
Qed.
Lemma Coo_with_diagonal_ok (d : list T) : (Z.of_nat (length d) <= imax I + 1)%Z -> Coo_with_diagonal I d = Ok (coo_of (length d) (length d) (diag_entries d)).
Proof.
  intros H. unfold Coo_with_diagonal.
  match goal with |- bind ?m _ = _ => change m with (for_range 0 (length d) (diag_body (vget d)) (repeat 0%Z (length d), repeat 0%Z (length d), repeat s0 (length d))) end.
  rewrite diag_loop; rewrite ?repeat_length; try reflexivity; try assumption; [|intros; apply vget_nth; assumption]. cbn [bind].
  unfold coo_of. pose proof (diag_entries_arrs d) as E. unfold arrs in E. injection E as -> -> ->. reflexivity.
Qed.
Lemma Coo_with_diagonal_over (d : list T) : (imax I + 1 < Z.of_nat (length d))%Z -> Coo_with_diagonal I d = Panic.
Proof.
  intros H. unfold Coo_with_diagonal.
  match goal with |- bind ?m _ = _ => change m with (for_range 0 (length d) (diag_body (vget d)) (repeat 0%Z (length d), repeat 0%Z (length d), repeat s0 (length d))) end.
  rewrite diag_loop_over; [reflexivity| |exact H]. intros i Hi. exists (nth i d s0). apply vget_nth, Hi.
Qed.
Lemma Coo_identity_eq n : Coo_identity I n = Coo_with_diagonal I (repeat s1 n).
Proof.
  unfold Coo_identity, Coo_with_diagonal. rewrite repeat_length. f_equal. apply for_range_ext.
  intros i [[r c] v] Hi. destruct (ifrom I i); cbn [bind]; try reflexivity. destruct (vset r i a); cbn [bind]; try reflexivity. destruct (vset c i a); cbn [bind]; try reflexivity.
  rewrite (vget_nth _ _ s0) by (rewrite repeat_length; lia). cbn [bind]. rewrite nth_repeat_any by lia. reflexivity.
Qed.
Lemma CSR_with_diagonal_ok (d : list T) : (Z.of_nat (length d) <= imax I)%Z ->
  CSR_with_diagonal I d = Ok (mkCSR (length d) (length d) (map Z.of_nat (seq 0 (length d + 1))) (map Z.of_nat (seq 0 (length d))) d).
Proof. intros H. unfold CSR_with_diagonal. rewrite !fill_iota_ok by (rewrite ?repeat_length; lia). reflexivity. Qed.
Lemma CSC_with_diagonal_ok (d : list T) : (Z.of_nat (length d) <= imax I)%Z ->
  CSC_with_diagonal I d = Ok (mkCSC (length d) (length d) (map Z.of_nat (seq 0 (length d))) (map Z.of_nat (seq 0 (length d + 1))) d).
Proof. intros H. unfold CSC_with_diagonal. rewrite !fill_iota_ok by (rewrite ?repeat_length; lia). reflexivity. Qed.
Lemma CSR_with_diagonal_over (d : list T) : (imax I < Z.of_nat (length d))%Z -> CSR_with_diagonal I d = Panic.
Proof. intros H. unfold CSR_with_diagonal. rewrite fill_iota_panic by lia. reflexivity. Qed.
Lemma CSC_with_diagonal_over (d : list T) : (imax I < Z.of_nat (length d))%Z -> CSC_with_diagonal I d = Panic.
Proof.
  intros H. unfold CSC_with_diagonal. destruct (Z_le_gt_dec (Z.of_nat (length d)) (imax I + 1)).
  - rewrite fill_iota_ok by (rewrite ?repeat_length; lia). cbn [bind]. rewrite fill_iota_panic by lia. reflexivity.
  - rewrite fill_iota_panic by lia. reflexivity.
Qed.
Lemma diag_rep_at (d : list T) : (Z.of_nat (length d) <= imax I)%Z ->
  crep I (length d) (map Z.of_nat (seq 0 (length d + 1))) (map Z.of_nat (seq 0 (length d))) d (map (fun i => [(i, nth i d s0)]) (seq 0 (length d))).
Proof.
  intros H. set (R := map (fun i => [(i, nth i d s0)]) (seq 0 (length d))).
  assert (EC : concat R = map (fun i => (i, nth i d s0)) (seq 0 (length d))).
  { unfold R. induction (seq 0 (length d)) as [|i l IH]; cbn; [reflexivity|]. rewrite IH. reflexivity. }
  assert (E : map Z.of_nat (seq 0 (length d + 1)) = ptrs R).
  { unfold ptrs, starts. rewrite EC, map_length, seq_length. unfold R at 2. rewrite map_length, seq_length, Nat.add_1_r, seq_S, map_app. cbn [map plus]. f_equal.
    apply map_ext_in. intros i Hi. apply in_seq in Hi. f_equal. unfold R. rewrite firstn_map, firstn_seq by lia.
    assert (G : forall l, length (concat (map (fun i => [(i, nth i d s0)]) l)) = length l) by (induction l as [|x l IH]; cbn; congruence). rewrite G, seq_length. reflexivity. }
  rewrite E. replace (map Z.of_nat (seq 0 (length d))) with (zfst (concat R)) by (unfold zfst; rewrite EC, map_map; reflexivity).
  assert (ED : map snd (concat R) = d).
  { rewrite EC, map_map. cbn [snd]. apply (nth_ext _ _ s0 s0); rewrite map_length, seq_length; [reflexivity|]. intros n Hn.
    rewrite (nth_indep _ s0 (nth 0 d s0)) by (rewrite map_length, seq_length; exact Hn). rewrite (map_nth (fun i => nth i d s0)), seq_nth by exact Hn. reflexivity. }
  assert (C : crep I (length d) (ptrs R) (zfst (concat R)) (map snd (concat R)) R).
  { apply crep_exact; rewrite EC.
    - apply Forall_map, Forall_forall. intros i Hi. apply in_seq in Hi. cbn. lia.
    - rewrite map_length, seq_length. exact H. }
  rewrite ED in C. exact C.
Qed.

(** ** Upper triangle *)
Definition upper_body (m : Coo T) (k : Z) (i : nat) : list Z * list Z * list T -> res (list Z * list Z * list T) := fun '(rowidx, colidx, values) =>
  let* r := vget (coo_rowidx m) i in
  let* rk := iadd I r k in
  let* c := vget (coo_colidx m) i in
  if (rk <=? c)%Z then
    let* v := vget (coo_values m) i in
    Ok (rowidx ++ [r], colidx ++ [c], values ++ [v])
  else Ok (rowidx, colidx, values).
Definition on_upper (k : Z) (e : nat * nat * T) : bool := (Z.of_nat (fst (fst e)) + k <=? Z.of_nat (snd (fst e)))%Z.
Lemma upper_body_get r c L k pre e post s : L = pre ++ e :: post ->
  upper_body (coo_of r c L) k (length pre) (arrs s) =
    let* rk := iadd I (Z.of_nat (fst (fst e))) k in
    if (rk <=? Z.of_nat (snd (fst e)))%Z then Ok (arrs (s ++ [e])) else Ok (arrs s).
Proof.
  intros ->. unfold upper_body, coo_of, arrs. cbn [coo_rowidx coo_colidx coo_values].
  unfold zrow at 1, zcol at 1. rewrite !map_app. cbn [map].
  assert (G : forall {A} (f : nat * nat * T -> A), vget (map f pre ++ f e :: map f post) (length pre) = Ok (f e)).
  { intros A f. apply vget_some. rewrite nth_error_app2 by (rewrite map_length; lia). rewrite map_length, Nat.sub_diag. reflexivity. }
  rewrite (G Z (fun e => Z.of_nat (fst (fst e)))). cbn [bind]. destruct (iadd I (Z.of_nat (fst (fst e))) k) as [rk| | |]; cbn [bind]; try reflexivity.
  rewrite (G Z (fun e => Z.of_nat (snd (fst e)))). cbn [bind]. destruct (rk <=? Z.of_nat (snd (fst e)))%Z; [|reflexivity].
  rewrite (G T snd). cbn [bind]. rewrite zrow_app, zcol_app. reflexivity.
Qed.
Lemma Coo_upper_eq m k : Coo_upper I m k = let* '(r, c, v) := for_range 0 (Coo_nnz m) (upper_body m k) (arrs []) in Ok (mkCoo (coo_rows m) (coo_cols m) r c v).
Proof. reflexivity. Qed.
Lemma Coo_upper_of r c L k : (forall e, In e L -> in_ity I (Z.of_nat (fst (fst e)) + k)) -> Coo_upper I (coo_of r c L) k = Ok (coo_of r c (filter (on_upper k) L)).
Proof.
  intros H. rewrite Coo_upper_eq. apply wp_eq, wp_bind.
  eapply (wp_for_list (fun pre s => s = arrs (filter (on_upper k) pre)) L); [unfold Coo_nnz, coo_of; cbn; apply map_length|reflexivity| |].
  - intros pre e post s E ->. cbn [plus]. rewrite (upper_body_get _ _ _ _ _ _ _ _ E). pose proof (H e ltac:(rewrite E; apply in_elt)) as He.
    unfold iadd. rewrite icheck_ok by exact He. cbn [bind]. rewrite filter_app. cbn [filter]. unfold on_upper at 1 4. destruct (_ <=? _)%Z; apply wp_ok; [reflexivity|rewrite app_nil_r; reflexivity].
  - intros s ->. apply wp_ok. reflexivity.
Qed.
Lemma Coo_upper_over r c L k e : In e L -> ~ in_ity I (Z.of_nat (fst (fst e)) + k) -> Coo_upper I (coo_of r c L) k = Panic.
Proof.
  intros He N. rewrite Coo_upper_eq. eapply pw_bind_panic with (P := fun _ => False); [|intros a []].
  apply in_split in He as (pre0 & post0 & E0).
  eapply (pw_for_list (fun pre s => length pre <= length pre0 /\ exists s', s = arrs s') L); [unfold Coo_nnz, coo_of; cbn; apply map_length|split; [cbn; lia|exists []; reflexivity]| |].
  - intros pre f post s E [Hle [s' ->]]. cbn [plus]. rewrite (upper_body_get _ _ _ _ _ _ _ _ E). apply pw_bind. eapply pw_mono; [apply pw_icheck|].
    intros z [-> Hz]. cbv beta.
    assert (Hlt : length pre < length pre0).
    { apply Nat.lt_eq_cases in Hle as [Hlt|Heq]; [exact Hlt|]. exfalso. apply N. replace e with f; [exact Hz|].
      assert (X : nth_error L (length pre) = Some f) by (rewrite E, nth_error_app2, Nat.sub_diag by lia; reflexivity).
      rewrite Heq, E0, nth_error_app2, Nat.sub_diag in X by lia. cbn in X. congruence. }
    rewrite app_length. cbn [length]. destruct (_ <=? _)%Z; apply pw_ok; (split; [lia|]); eexists; reflexivity.
  - intros s [Hle _]. rewrite E0, app_length in Hle. cbn in Hle. lia.
Qed.
End Coo2.
