(** The counting sort shared by coo_tocsr and csr_tocsc. *)
From Verif Require Import Rust Scalar Model_kernels Model_matrix Spec Wp Rep.

Lemma part_upd_out {A} s e d (l : list A) a : d < s \/ e <= d -> part s e (upd l d a) = part s e l.
Proof.
  intros [H|H]; unfold part.
  - rewrite skipn_upd_lt by exact H. reflexivity.
  - destruct (Nat.lt_ge_cases e s); [replace (e - s) with 0 by lia; reflexivity|].
    remember (e - s) as w. assert (Hw : s + w <= d) by lia. clear -Hw. revert d l Hw.
    induction s as [|s IH]; intros d l Hw; cbn.
    + apply firstn_upd_ge. lia.
    + destruct l as [|x l]; [reflexivity|]. destruct d as [|d]; [lia|]. cbn. apply IH. lia.
Qed.

Lemma part_upd_snoc {A} s d (l : list A) a : s <= d < length l ->
  part s (S d) (upd l d a) = part s d l ++ [a].
Proof.
  intros [H1 H2]. unfold part. replace (S d - s) with (S (d - s)) by lia.
  revert s l H1 H2. induction d as [|d IH]; intros s l H1 H2.
  - replace s with 0 by lia. destruct l; [cbn in *; lia|]. reflexivity.
  - destruct s as [|s].
    + cbn [skipn]. rewrite Nat.sub_0_r. apply firstn_upd_snoc. exact H2.
    + destruct l as [|x l]; [cbn in H2; lia|]. cbn [skipn upd]. apply (IH s l); cbn in H2; lia.
Qed.

Lemma pget_nth p i : i < length p -> (0 <= nth i p 0)%Z -> pget p i = Ok (Z.to_nat (nth i p 0%Z)).
Proof. intros H H0. unfold pget. rewrite (vget_nth _ _ 0%Z H). cbn. apply to_usize_ok, H0. Qed.

Lemma vinc_ok I v i z : i < length v -> (0 <= nth i v 0 + z <= imax I)%Z ->
  vinc I v i z = Ok (upd v i (nth i v 0 + z)%Z).
Proof.
  intros H H0. unfold vinc. rewrite (vget_nth _ _ 0%Z H). cbn. rewrite iadd_ok by exact H0. cbn.
  apply vset_ok, H.
Qed.

Section Scatter.
Context {T : Type}.
Implicit Types E pre post : list (nat * (nat * T)).

Definition bucket E (i : nat) : list (nat * T) := map snd (filter (fun e => fst e =? i) E).
Definition buckets (n : nat) E : list (list (nat * T)) := map (bucket E) (seq 0 n).
Definition cnt E i := length (bucket E i).
Definition boff E i := length (concat (buckets i E)).

Lemma bucket_app E1 E2 i : bucket (E1 ++ E2) i = bucket E1 i ++ bucket E2 i.
Proof. unfold bucket. rewrite filter_app, map_app. reflexivity. Qed.
Lemma bucket_one e i : bucket [e] i = if fst e =? i then [snd e] else [].
Proof. unfold bucket. cbn. destruct (fst e =? i); reflexivity. Qed.
Lemma cnt_snoc E e i : cnt (E ++ [e]) i = cnt E i + (if fst e =? i then 1 else 0).
Proof. unfold cnt. rewrite bucket_app, bucket_one, app_length. destruct (fst e =? i); reflexivity. Qed.
Lemma cnt_le_app E1 E2 i : cnt E1 i <= cnt (E1 ++ E2) i.
Proof. unfold cnt. rewrite bucket_app, app_length. lia. Qed.
Lemma buckets_S n E : buckets (S n) E = buckets n E ++ [bucket E n].
Proof. unfold buckets. rewrite seq_S, map_app. reflexivity. Qed.
Lemma boff_0 E : boff E 0 = 0.
Proof. reflexivity. Qed.
Lemma boff_S E i : boff E (S i) = boff E i + cnt E i.
Proof. unfold boff. rewrite buckets_S, concat_app, app_length. cbn. rewrite app_nil_r. reflexivity. Qed.
Lemma boff_mono E i k : i <= k -> boff E i <= boff E k.
Proof. induction 1; [lia|]. rewrite boff_S. lia. Qed.
Lemma boff_total E n : Forall (fun e => fst e < n) E -> boff E n = length E.
Proof.
  intros H. induction E as [|e E IH].
  - clear H. induction n; [reflexivity|]. rewrite boff_S, IHn. reflexivity.
  - inversion H; subst. specialize (IH H3). cbn [length]. rewrite <- IH.
    change (e :: E) with ([e] ++ E).
    assert (G : forall k, boff ([e] ++ E) k = boff E k + (if fst e <? k then 1 else 0)).
    { induction k as [|k IHk]; [reflexivity|]. rewrite !boff_S, IHk. unfold cnt.
      rewrite bucket_app, bucket_one, app_length.
      destruct (Nat.ltb_spec (fst e) k), (Nat.ltb_spec (fst e) (S k)), (Nat.eqb_spec (fst e) k); cbn [length]; lia. }
    rewrite G. apply Nat.ltb_lt in H2. rewrite H2. lia.
Qed.
Lemma nth_buckets n E i : i < n -> nth i (buckets n E) [] = bucket E i.
Proof.
  intros H. unfold buckets. rewrite (nth_indep _ [] (bucket E 0)) by (rewrite map_length, seq_length; exact H).
  rewrite map_nth, seq_nth by exact H. reflexivity.
Qed.
Lemma firstn_buckets n k E : k <= n -> firstn k (buckets n E) = buckets k E.
Proof.
  intros H. unfold buckets. rewrite firstn_map. f_equal.
  replace n with (k + (n - k)) by lia. rewrite seq_app. apply firstn_app_exact. rewrite seq_length. reflexivity.
Qed.
Lemma buckets_length n E : length (buckets n E) = n.
Proof. unfold buckets. rewrite map_length, seq_length. reflexivity. Qed.
Lemma in_buckets n E e : In e (concat (buckets n E)) -> exists k, In (k, e) E.
Proof.
  intros H. apply in_concat in H as (b & Hb & He). unfold buckets in Hb.
  apply in_map_iff in Hb as (i & <- & _). unfold bucket in He. apply in_map_iff in He as ([k e'] & <- & H).
  apply filter_In in H as [H _]. exists k. exact H.
Qed.
Lemma at_bucket E i k : at_ k (bucket E i) =
  map (fun e => snd (snd e)) (filter (fun e => (fst e =? i) && (fst (snd e) =? k)) E).
Proof.
  unfold at_, bucket. induction E as [|e E IH]; [reflexivity|]. cbn.
  destruct (fst e =? i); cbn; [|exact IH]. destruct (fst (snd e) =? k); cbn; rewrite IH; reflexivity.
Qed.

Variable I : ity.
Variable E : list (nat * (nat * T)).
Variable n : nat.
Hypothesis Hkeys : Forall (fun e => fst e < n) E.
Hypothesis Hfit : (Z.of_nat (length E) <= imax I)%Z.

Lemma key_lt pre e post : E = pre ++ e :: post -> fst e < n.
Proof.
  intros Ee. rewrite Forall_forall in Hkeys. apply Hkeys. rewrite Ee. apply in_or_app. right. left. reflexivity.
Qed.
Lemma boff_le i : i <= n -> boff E i <= length E.
Proof. intros H. rewrite <- (boff_total _ _ Hkeys). apply boff_mono, H. Qed.
Lemma cnt_le pre post i : E = pre ++ post -> i < n -> boff E i + cnt pre i <= boff E (S i).
Proof. intros -> H. rewrite boff_S. pose proof (cnt_le_app pre post i). lia. Qed.

(** counting *)
Definition count_inv pre (b_p : list Z) :=
  length b_p = S n /\ forall i, i <= n -> nth i b_p 0%Z = Z.of_nat (cnt pre i).

Lemma count_init b_p : length b_p = S n -> count_inv [] (vfill b_p 0%Z).
Proof.
  intros H. unfold vfill. split; [rewrite repeat_length; exact H|]. intros i Hi. rewrite nth_repeat. reflexivity.
Qed.

Lemma count_step pre e post b_p : E = pre ++ e :: post -> count_inv pre b_p ->
  wp (vinc I b_p (fst e) 1) (count_inv (pre ++ [e])).
Proof.
  intros Ee [L H]. pose proof (key_lt _ _ _ Ee) as K.
  assert (C : S (cnt pre (fst e)) <= length E).
  { pose proof (cnt_le (pre ++ [e]) post (fst e)) as C. rewrite <- app_assoc in C. specialize (C Ee K).
    rewrite cnt_snoc, Nat.eqb_refl in C. pose proof (boff_le (S (fst e)) ltac:(lia)). lia. }
  rewrite vinc_ok; [|lia|rewrite H by lia; lia].
  apply wp_ok. split; [rewrite upd_length; exact L|]. intros i Hi. rewrite cnt_snoc.
  destruct (Nat.eqb_spec (fst e) i) as [<-|D].
  - rewrite nth_upd_eq by lia. rewrite H by lia. lia.
  - rewrite nth_upd_ne by lia. rewrite H by lia. lia.
Qed.

(** cumulative sums *)
Lemma cumsum_phase b_p (Q : _ -> Prop) : count_inv E b_p ->
  (forall b_p cs, length b_p = S n -> (forall i, i < n -> nth i b_p 0%Z = Z.of_nat (boff E i)) -> Q (b_p, cs)) ->
  wp (for_range 0 n (fun i '(b_p, cumsum) =>
    let* temp := vget b_p i in
    let* b_p := vset b_p i cumsum in
    let* cumsum := iadd I cumsum temp in
    Ok (b_p, cumsum)) (b_p, 0%Z)) Q.
Proof.
  intros [L H] HQ.
  apply (wp_for (fun i '(b_p, cumsum) => length b_p = S n /\
     (forall k, k < i -> nth k b_p 0%Z = Z.of_nat (boff E k)) /\
     (forall k, i <= k <= n -> nth k b_p 0%Z = Z.of_nat (cnt E k)) /\
     cumsum = Z.of_nat (boff E i))).
  - lia.
  - repeat split; try assumption. intros; lia. intros; apply H; lia.
  - intros k [b cs] Hk (Lb & H1 & H2 & ->).
    rewrite (vget_nth _ _ 0%Z) by lia. cbn [bind].
    rewrite vset_ok by lia. cbn [bind]. rewrite H2 by lia.
    pose proof (boff_S E k). pose proof (boff_le (S k) ltac:(lia)).
    rewrite iadd_ok by lia. cbn [bind]. apply wp_ok. repeat split.
    + rewrite upd_length. exact Lb.
    + intros q Hq. destruct (Nat.eq_dec q k) as [->|D].
      * rewrite nth_upd_eq by lia. reflexivity.
      * rewrite nth_upd_ne by lia. apply H1. lia.
    + intros q Hq. rewrite nth_upd_ne by lia. apply H2. lia.
    + lia.
  - intros [b cs] (Lb & H1 & _ & _). apply HQ; assumption.
Qed.

(** scattering *)
Definition scatter_inv pre (st : list Z * list Z * list T) :=
  let '(b_p, b_j, b_x) := st in
  length b_p = S n /\ length E <= length b_j /\ length E <= length b_x /\
  (forall i, i < n -> nth i b_p 0%Z = Z.of_nat (boff E i + cnt pre i)) /\
  nth n b_p 0%Z = Z.of_nat (length E) /\
  (forall i, i < n -> part (boff E i) (boff E i + cnt pre i) b_j = map (fun e => Z.of_nat (fst e)) (bucket pre i)) /\
  (forall i, i < n -> part (boff E i) (boff E i + cnt pre i) b_x = map snd (bucket pre i)).

Lemma scatter_init b_p b_j b_x : length b_p = S n ->
  (forall i, i < n -> nth i b_p 0%Z = Z.of_nat (boff E i)) ->
  length E <= length b_j -> length E <= length b_x ->
  scatter_inv [] (upd b_p n (Z.of_nat (length E)), b_j, b_x).
Proof.
  intros L H Lj Lx. unfold scatter_inv. repeat split; try assumption.
  - rewrite upd_length. exact L.
  - intros i Hi. rewrite nth_upd_ne by lia. rewrite H by exact Hi. cbn. rewrite Nat.add_0_r. reflexivity.
  - rewrite nth_upd_eq by lia. reflexivity.
  - intros i Hi. rewrite part_nil by (cbn; lia). reflexivity.
  - intros i Hi. rewrite part_nil by (cbn; lia). reflexivity.
Qed.

Lemma scatter_step pre e post b_p b_j b_x : E = pre ++ e :: post -> scatter_inv pre (b_p, b_j, b_x) ->
  let dest := boff E (fst e) + cnt pre (fst e) in
  pget b_p (fst e) = Ok dest /\ dest < length b_j /\ dest < length b_x /\
  vinc I b_p (fst e) 1 = Ok (upd b_p (fst e) (Z.of_nat dest + 1)%Z) /\
  scatter_inv (pre ++ [e]) (upd b_p (fst e) (Z.of_nat dest + 1)%Z,
     upd b_j dest (Z.of_nat (fst (snd e))), upd b_x dest (snd (snd e))).
Proof.
  intros Ee (L & Lj & Lx & H & Hn & Hj & Hx) dest. pose proof (key_lt _ _ _ Ee) as K.
  assert (D : dest < boff E (S (fst e))).
  { pose proof (cnt_le (pre ++ [e]) post (fst e)) as C. rewrite <- app_assoc in C. specialize (C Ee K).
    rewrite cnt_snoc, Nat.eqb_refl in C. unfold dest. lia. }
  pose proof (boff_le (S (fst e)) ltac:(lia)) as B.
  assert (Hd : nth (fst e) b_p 0%Z = Z.of_nat dest) by (apply H; exact K).
  repeat split; try (rewrite ?upd_length; lia).
  - rewrite pget_nth; rewrite ?Hd; try lia. rewrite Nat2Z.id. reflexivity.
  - rewrite vinc_ok; rewrite ?Hd; try lia. reflexivity.
  - intros i Hi. rewrite cnt_snoc. destruct (Nat.eqb_spec (fst e) i) as [<-|Di].
    + rewrite nth_upd_eq by lia. unfold dest. lia.
    + rewrite nth_upd_ne by lia. rewrite H by exact Hi. lia.
  - rewrite nth_upd_ne by lia. exact Hn.
  - intros i Hi. rewrite cnt_snoc, bucket_app, bucket_one, map_app.
    destruct (Nat.eqb_spec (fst e) i) as [<-|Di].
    + replace (boff E (fst e) + (cnt pre (fst e) + 1)) with (S dest) by (unfold dest; lia).
      rewrite part_upd_snoc by (unfold dest in *; lia). rewrite Hj by exact K. reflexivity.
    + rewrite Nat.add_0_r. cbn [map]. rewrite app_nil_r. rewrite part_upd_out; [apply Hj; exact Hi|].
      destruct (Nat.lt_ge_cases i (fst e)).
      * right. pose proof (cnt_le pre (e :: post) i Ee Hi). pose proof (boff_mono E (S i) (fst e) ltac:(lia)).
        unfold dest. lia.
      * left. pose proof (boff_mono E (S (fst e)) i ltac:(lia)). lia.
  - intros i Hi. rewrite cnt_snoc, bucket_app, bucket_one, map_app.
    destruct (Nat.eqb_spec (fst e) i) as [<-|Di].
    + replace (boff E (fst e) + (cnt pre (fst e) + 1)) with (S dest) by (unfold dest; lia).
      rewrite part_upd_snoc by (unfold dest in *; lia). rewrite Hx by exact K. reflexivity.
    + rewrite Nat.add_0_r. cbn [map]. rewrite app_nil_r. rewrite part_upd_out; [apply Hx; exact Hi|].
      destruct (Nat.lt_ge_cases i (fst e)).
      * right. pose proof (cnt_le pre (e :: post) i Ee Hi). pose proof (boff_mono E (S i) (fst e) ltac:(lia)).
        unfold dest. lia.
      * left. pose proof (boff_mono E (S (fst e)) i ltac:(lia)). lia.
Qed.

Lemma parts_concat {A} (l : list A) (f : nat * T -> A) :
  (forall i, i < n -> part (boff E i) (boff E i + cnt E i) l = map f (bucket E i)) ->
  firstn (length E) l = map f (concat (buckets n E)).
Proof.
  intros H. rewrite <- (boff_total _ _ Hkeys).
  assert (G : forall k, k <= n -> firstn (boff E k) l = map f (concat (buckets k E))).
  { induction k as [|k IH]; intros Hk; [reflexivity|].
    rewrite boff_S, buckets_S, concat_app, map_app.
    rewrite (firstn_part (boff E k)) by lia. rewrite IH, H by lia. cbn. rewrite app_nil_r. reflexivity. }
  apply G. lia.
Qed.

(** restoring the pointers *)
Lemma shift_phase b_p b_j b_x (Q : _ -> Prop) : scatter_inv E (b_p, b_j, b_x) ->
  (forall b_p last, bptr b_p (buckets n E) -> length b_p = S n -> Q (b_p, last)) ->
  wp (for_range 0 (n + 1) (fun i '(b_p, last) =>
    let* temp := vget b_p i in
    let* b_p := vset b_p i last in
    Ok (b_p, temp)) (b_p, 0%Z)) Q.
Proof.
  intros (L & _ & _ & H & Hn & _ & _) HQ.
  apply (wp_for (fun i '(b_p, last) => length b_p = S n /\
     (forall k, k < i -> nth k b_p 0%Z = Z.of_nat (boff E k)) /\
     (forall k, i <= k < n -> nth k b_p 0%Z = Z.of_nat (boff E (S k))) /\
     (i <= n -> last = Z.of_nat (boff E i)))).
  - lia.
  - repeat split; try assumption. intros; lia. intros. rewrite H by lia. rewrite boff_S. reflexivity.
  - intros k [b last] Hk (Lb & H1 & H2 & H3).
    rewrite (vget_nth _ _ 0%Z) by lia. cbn [bind]. rewrite vset_ok by lia. cbn [bind]. apply wp_ok. repeat split.
    + rewrite upd_length. exact Lb.
    + intros q Hq. destruct (Nat.eq_dec q k) as [->|D].
      * rewrite nth_upd_eq by lia. apply H3. lia.
      * rewrite nth_upd_ne by lia. apply H1. lia.
    + intros q Hq. rewrite nth_upd_ne by lia. apply H2. lia.
    + intros Hk2. apply H2. lia.
  - intros [b last] (Lb & H1 & _ & _). apply HQ; [|exact Lb].
    intros pre post Ep.
    assert (Lp : length pre <= n) by (rewrite <- (buckets_length n E), Ep, app_length; lia).
    assert (pre = buckets (length pre) E) as ->.
    { rewrite <- (firstn_buckets n) by exact Lp. rewrite Ep. rewrite firstn_app_exact; reflexivity. }
    rewrite buckets_length. fold (boff E (length pre)). rewrite <- H1 by lia.
    apply nth_error_nth'. lia.
Qed.

Lemma scatter_crep c b_p b_p' b_j b_x : scatter_inv E (b_p', b_j, b_x) ->
  Forall (fun e => fst (snd e) < c /\ (Z.of_nat (fst (snd e)) <= imax I)%Z) E ->
  bptr b_p (buckets n E) -> length b_p = S n ->
  crep I c b_p b_j b_x (buckets n E).
Proof.
  intros (_ & _ & _ & _ & _ & Hj & Hx) Hc Hp L.
  assert (LE : length (concat (buckets n E)) = length E) by (apply (boff_total _ _ Hkeys)).
  constructor.
  - rewrite buckets_length. exact L.
  - exact Hp.
  - unfold bdat. rewrite LE. split; apply parts_concat; assumption.
  - apply Forall_forall. intros e He. apply in_buckets in He as (k & He).
    rewrite Forall_forall in Hc. apply (Hc _ He).
  - rewrite LE. exact Hfit.
Qed.
End Scatter.

Section Kernels.
Context {T : Type} {SC : Scalar T}.

(** entries of a coordinate matrix keyed by row *)
Definition keyed (l : list (nat * nat * T)) : list (nat * (nat * T)) :=
  map (fun e => (fst (fst e), (snd (fst e), snd e))) l.

(** arrays of a coordinate matrix *)
Definition coo_arrays (a_i a_j : list Z) (a_x : list T) (E : list (nat * (nat * T))) : Prop :=
  a_i = map (fun e => Z.of_nat (fst e)) E /\ a_j = map (fun e => Z.of_nat (fst (snd e))) E /\
  a_x = map (fun e => snd (snd e)) E.

Lemma vget_map {A B} (f : A -> B) l pre e post : l = pre ++ e :: post -> vget (map f l) (length pre) = Ok (f e).
Proof.
  intros ->. apply vget_some. rewrite map_app, nth_error_app2; rewrite map_length; [|lia].
  rewrite Nat.sub_diag. reflexivity.
Qed.
Lemma pget_map {A} (f : A -> nat) l pre e post : l = pre ++ e :: post ->
  pget (map (fun a => Z.of_nat (f a)) l) (length pre) = Ok (f e).
Proof.
  intros E. unfold pget. rewrite (vget_map _ _ _ _ _ E). cbn. apply to_usize_nat.
Qed.

Lemma coo_tocsr_spec I n c a_i a_j (a_x : list T) E b_p b_j b_x :
  coo_arrays a_i a_j a_x E ->
  Forall (fun e => fst e < n) E ->
  Forall (fun e => fst (snd e) < c /\ (Z.of_nat (fst (snd e)) <= imax I)%Z) E ->
  (Z.of_nat (length E) <= imax I)%Z ->
  length b_p = S n -> length b_j = length E -> length b_x = length E ->
  wp (coo_tocsr I n c (length E) a_i a_j a_x b_p b_j b_x) (fun '(p, j, x) =>
    crep I c p j x (buckets n E) /\ length j = length E /\ length x = length E).
Proof.
  intros (-> & -> & ->) Hk Hc Hf Lp Lj Lx. unfold coo_tocsr.
  apply wp_bind. eapply (wp_for_list (count_inv n) E).
  { reflexivity. }
  { apply count_init, Lp. }
  { intros pre e post b Ee Hb. cbn [plus]. rewrite (pget_map _ _ _ _ _ Ee). cbn [bind].
    eapply count_step; eassumption. }
  intros bp Hbp. cbv beta. apply wp_bind. eapply cumsum_phase; try eassumption.
  clear bp Hbp. intros bp cs Lbp Hbp. cbv beta iota.
  rewrite ifrom_ok by exact Hf. cbn [bind]. rewrite vset_ok by lia. cbn [bind].
  apply wp_bind. eapply (wp_for_list (fun pre st => scatter_inv E n pre st /\
      length (snd (fst st)) = length E /\ length (snd st) = length E) E).
  { reflexivity. }
  { split; [apply scatter_init; lia || assumption|]. auto. }
  { intros pre e post [[b1 b2] b3] Ee [Hb [L2 L3]]. cbn [plus fst snd] in *.
    destruct (scatter_step I E n Hk Hf _ _ _ _ _ _ Ee Hb) as (G1 & G2 & G3 & G4 & G5).
    rewrite (pget_map _ _ _ _ _ Ee). cbn [bind]. rewrite G1. cbn [bind].
    rewrite (vget_map _ _ _ _ _ Ee). cbn [bind]. rewrite vset_ok by exact G2. cbn [bind].
    rewrite (vget_map _ _ _ _ _ Ee). cbn [bind]. rewrite vset_ok by exact G3. cbn [bind].
    rewrite G4. cbn [bind]. apply wp_ok. cbn [fst snd]. rewrite !upd_length. auto. }
  intros [[b1 b2] b3] [Hb [L2 L3]]. cbv beta iota. cbn [fst snd] in *.
  apply wp_bind. eapply shift_phase; try eassumption.
  intros b4 last H4 L4. cbv beta iota. apply wp_ok. split; [|auto].
  eapply scatter_crep; eassumption.
Qed.

(** the entries of compressed rows, keyed by minor index *)
Definition row_entries (i : nat) (r : list (nat * T)) : list (nat * (nat * T)) :=
  map (fun e => (fst e, (i, snd e))) r.
Fixpoint rows_entries (i : nat) (R : list (list (nat * T))) : list (nat * (nat * T)) :=
  match R with [] => [] | r :: R' => row_entries i r ++ rows_entries (S i) R' end.

Lemma rows_entries_app i R1 R2 : rows_entries i (R1 ++ R2) = rows_entries i R1 ++ rows_entries (i + length R1) R2.
Proof.
  revert i. induction R1 as [|r R1 IH]; intros i; cbn; [rewrite Nat.add_0_r; reflexivity|].
  rewrite IH, <- app_assoc. do 3 f_equal. lia.
Qed.
Lemma rows_entries_length i R : length (rows_entries i R) = length (concat R).
Proof.
  revert i. induction R as [|r R IH]; intros i; cbn; [reflexivity|]. rewrite !app_length, IH.
  unfold row_entries. rewrite map_length. reflexivity.
Qed.
Lemma rows_entries_fst i R : map fst (rows_entries i R) = map fst (concat R).
Proof.
  revert i. induction R as [|r R IH]; intros i; cbn; [reflexivity|]. rewrite !map_app, IH.
  f_equal. unfold row_entries. rewrite map_map. reflexivity.
Qed.

(** columns of a list of rows *)
Definition transpose_rows (n_col : nat) (R : list (list (nat * T))) : list (list (nat * T)) :=
  buckets n_col (rows_entries 0 R).

Lemma csr_tocsc_spec I n c p j (x : list T) R b_p b_i b_x :
  crep I c p j x R -> length R = n ->
  (forall i r, nth_error R i = Some r -> r <> [] -> (Z.of_nat i <= imax I)%Z) ->
  length b_p = S c -> length b_i = length (concat R) -> length b_x = length (concat R) ->
  wp (csr_tocsc I n c p j x b_p b_i b_x) (fun '(p', i', x') =>
    crep I n p' i' x' (transpose_rows c R) /\ length i' = length (concat R) /\ length x' = length (concat R)).
Proof.
  intros H Ln Hrow Lp Li Lx. unfold csr_tocsc.
  set (E := rows_entries 0 R).
  assert (LE : length E = length (concat R)) by apply rows_entries_length.
  assert (Hf : (Z.of_nat (length E) <= imax I)%Z) by (rewrite LE; apply (cr_fit _ _ _ _ _ _ H)).
  assert (Hk : Forall (fun e => fst e < c) E).
  { apply Forall_map with (f := fst) (P := fun k => k < c). unfold E. rewrite rows_entries_fst.
    apply Forall_map. eapply Forall_impl; [|apply (cr_idx _ _ _ _ _ _ H)]. cbn. tauto. }
  assert (Hc : Forall (fun e => fst (snd e) < n /\ (Z.of_nat (fst (snd e)) <= imax I)%Z) E).
  { subst n. unfold E. rewrite <- (Nat.add_0_l (length R)). 
    assert (G : forall R' i, (forall k r, nth_error R' k = Some r -> r <> [] -> (Z.of_nat (i + k) <= imax I)%Z) ->
        Forall (fun e => fst (snd e) < i + length R' /\ (Z.of_nat (fst (snd e)) <= imax I)%Z) (rows_entries i R')).
    { induction R' as [|r R' IH]; intros i Hi; cbn; [constructor|]. apply Forall_app. split.
      - apply Forall_forall. intros e He. unfold row_entries in He. apply in_map_iff in He as (e' & <- & He). cbn.
        specialize (Hi 0 r eq_refl ltac:(intros ->; destruct He)). lia.
      - eapply Forall_impl; [|apply IH].
        + cbn. intros. lia.
        + intros k r' Hk'. replace (S i + k) with (i + S k) by lia. apply (Hi (S k)). exact Hk'. }
    apply (G R 0). exact Hrow. }
  assert (Hnnz : vget p n = Ok (Z.of_nat (length E))).
  { rewrite LE, <- Ln. eapply bptr_startz; [apply (cr_ptr _ _ _ _ _ _ H)|]. symmetry. apply app_nil_r. }
  rewrite Hnnz. cbn [bind]. rewrite to_usize_nat. cbn [bind].
  apply wp_bind. eapply (wp_for_list (count_inv c) E).
  { reflexivity. }
  { apply count_init, Lp. }
  { intros pre e post b Ee Hb. cbn [plus].
    assert (G : pget j (length pre) = Ok (fst e)).
    { eapply bdat_pj_nth; [apply (cr_dat _ _ _ _ _ _ H)|].
      rewrite <- (rows_entries_fst 0 R). fold E. rewrite Ee, map_app, nth_error_app2 by (rewrite map_length; lia).
      rewrite map_length, Nat.sub_diag. reflexivity. }
    rewrite G. cbn [bind]. eapply count_step; eassumption. }
  intros bp Hbp. cbv beta. apply wp_bind. eapply cumsum_phase; try eassumption.
  clear bp Hbp. intros bp cs Lbp Hbp. cbv beta iota.
  rewrite vset_ok by lia. cbn [bind].
  apply wp_bind.
  set (SI := fun pre st => scatter_inv E c pre st /\
      length (snd (fst st)) = length E /\ length (snd st) = length E).
  eapply (wp_for_list (fun pre st => SI (rows_entries 0 pre) st) R).
  { exact (eq_sym Ln). }
  { split; [apply scatter_init; lia || assumption|]. cbn [fst snd]. lia. }
  { intros pre r post [[q1 q2] q3] ER Hst. cbn [plus].
    rewrite (crep_start H ER). cbn [bind]. rewrite (crep_end H ER). cbn [bind].
    eapply (wp_for_list (fun ip st => SI (rows_entries 0 pre ++ row_entries (length pre) ip) st) r).
    - reflexivity.
    - cbn [row_entries map]. rewrite app_nil_r. exact Hst.
    - intros ip e iq [[b1 b2] b3] Er [Hb [L2 L3]]. cbn [fst snd] in *.
      rewrite (crep_pj H ER Er). cbn [bind].
      assert (Ee : E = (rows_entries 0 pre ++ row_entries (length pre) ip) ++ (fst e, (length pre, snd e)) ::
                     (row_entries (length pre) iq ++ rows_entries (S (length pre)) post)).
      { unfold E. rewrite ER, rows_entries_app. cbn. rewrite <- !app_assoc. f_equal. rewrite Er.
        unfold row_entries. rewrite map_app, <- app_assoc. reflexivity. }
      destruct (scatter_step I E c Hk Hf _ _ _ _ _ _ Ee Hb) as (G1 & G2 & G3 & G4 & G5).
      cbn [fst snd] in *. rewrite G1. cbn [bind].
      assert (Hz : (Z.of_nat (length pre) <= imax I)%Z).
      { apply (Hrow (length pre) r).
        - rewrite ER, nth_error_app2 by lia. rewrite Nat.sub_diag. reflexivity.
        - rewrite Er. destruct ip; discriminate. }
      rewrite ifrom_ok by exact Hz. cbn [bind]. rewrite vset_ok by exact G2. cbn [bind].
      rewrite (crep_vx H ER Er). cbn [bind]. rewrite vset_ok by exact G3. cbn [bind].
      rewrite G4. cbn [bind]. apply wp_ok. split; [|cbn [fst snd]; rewrite !upd_length; auto].
      unfold row_entries. rewrite map_app. cbn [map]. rewrite app_assoc. exact G5.
    - intros st2 H2. rewrite rows_entries_app. cbn. rewrite app_nil_r. exact H2. }
  intros [[b1 b2] b3] [Hb [L2 L3]]. cbv beta iota. cbn [fst snd] in *.
  apply wp_bind. eapply shift_phase; try eassumption.
  intros b4 last H4 L4. cbv beta iota. apply wp_ok. split; [|rewrite <- LE; auto].
  unfold transpose_rows. eapply scatter_crep; eassumption.
Qed.
End Kernels.
