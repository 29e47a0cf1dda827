(** Proofs of the theorems of Props_arrays.v, under the same names in lower case. *)
From Verif Require Import Rust Scalar Model_kernels Model_matrix Spec SpecMore Wp Check Rep ConvProofs PadProofs Main_frame Main_convert.

(** ** Loops that either go through or panic *)
Lemma for_total {St} (Inv : St -> Prop) (ok : nat -> bool) (g : nat -> St -> St) (f : nat -> St -> res St) : forall n lo s, Inv s ->
  (forall i s, lo <= i < lo + n -> Inv s -> f i s = (if ok i then Ok (g i s) else Panic) /\ (ok i = true -> Inv (g i s))) ->
  for_n n lo f s = (if forallb ok (seq lo n) then Ok (fold_left (fun s i => g i s) (seq lo n) s) else Panic) /\
  (forallb ok (seq lo n) = true -> Inv (fold_left (fun s i => g i s) (seq lo n) s)).
Proof.
  induction n as [|n IH]; intros lo s Hs Hf; cbn [for_n seq forallb fold_left]; [easy|].
  destruct (Hf lo s ltac:(lia) Hs) as [E Hg]. rewrite E. destruct (ok lo); [|easy]. cbn [bind andb]. apply IH; [now apply Hg|].
  intros. apply Hf; [lia|assumption].
Qed.

Lemma vget_if {A} (l : list A) i d : vget l i = if i <? length l then Ok (nth i l d) else Panic.
Proof.
  unfold vget. destruct (Nat.ltb_spec i (length l)) as [H|H].
  - now rewrite (nth_error_nth' l d H).
  - now rewrite (proj2 (nth_error_None l i) H).
Qed.
Lemma pget_if p i : pget p i = if (i <? length p) && (0 <=? nth i p 0)%Z then Ok (ptr p i) else Panic.
Proof.
  unfold pget. rewrite (vget_if _ _ 0%Z). destruct (i <? length p); [|reflexivity]. cbn [bind andb]. unfold to_usize, ptr. now destruct (0 <=? _)%Z.
Qed.

Section Arrays.
Context {T : Type} {SC : Scalar T}.

Definition cellb (c : nat) (j : list Z) (x : list T) (k : nat) : bool :=
  (k <? length j) && (k <? length x) && (0 <=? nth k j 0)%Z && (nth k j 0 <? Z.of_nat c)%Z.
Definition readb (c : nat) (p j : list Z) (x : list T) (i : nat) : bool :=
  ((i <? length p) && (0 <=? nth i p 0)%Z) && ((S i <? length p) && (0 <=? nth (S i) p 0)%Z) &&
  forallb (cellb c j x) (seq (ptr p i) (ptr p (S i) - ptr p i)).
Lemma cellb_spec c j x k : cellb c j x k = true <-> k < length j /\ k < length x /\ (0 <= nth k j 0 < Z.of_nat c)%Z.
Proof. unfold cellb. rewrite !andb_true_iff, !Nat.ltb_lt, Z.leb_le, Z.ltb_lt. tauto. Qed.
Lemma readb_spec c p j x i : readb c p j x i = true <-> readable c p j x i.
Proof.
  unfold readb, readable. rewrite !andb_true_iff, !Nat.ltb_lt, !Z.leb_le, forallb_forall. split.
  - intros [[[H1 H2] [H3 H4]] H5]. split; [assumption|]. split; [assumption|]. split; [assumption|]. intros k Hk. apply cellb_spec, H5, in_seq. lia.
  - intros (H1 & H2 & H3 & H4). repeat split; try assumption; try lia. intros k Hk. apply in_seq in Hk. apply cellb_spec, H4. lia.
Qed.
Lemma readb_all c p j x n : forallb (readb c p j x) (seq 0 n) = true <-> forall i, i < n -> readable c p j x i.
Proof.
  rewrite forallb_forall. split; intros H i Hi.
  - apply readb_spec, H, in_seq. lia.
  - apply readb_spec, H. apply in_seq in Hi. lia.
Qed.

Lemma skipn_nth {A} (d : A) l s : s < length l -> skipn s l = nth s l d :: skipn (S s) l.
Proof. revert s. induction l as [|a l IH]; intros [|s] H; cbn in *; try lia; [reflexivity|]. now rewrite (IH s) by lia. Qed.
Lemma part_seq {A} (d : A) l : forall n s, (forall k, s <= k < s + n -> k < length l) -> firstn n (skipn s l) = map (fun k => nth k l d) (seq s n).
Proof.
  induction n as [|n IH]; intros s H; [reflexivity|]. rewrite (skipn_nth d) by (apply H; lia). cbn [firstn seq map]. f_equal. apply IH. intros. apply H. lia.
Qed.
Lemma combine_maps {A B C} (f : A -> B) (g : A -> C) l : combine (map f l) (map g l) = map (fun a => (f a, g a)) l.
Proof. induction l; cbn; congruence. Qed.
Lemma crow_seq c p j (x : list T) i : forallb (cellb c j x) (seq (ptr p i) (ptr p (S i) - ptr p i)) = true ->
  crow p j x i = map (fun k => (Z.to_nat (nth k j 0%Z), nth k x s0)) (seq (ptr p i) (ptr p (S i) - ptr p i)).
Proof.
  intros H. rewrite forallb_forall in H. unfold crow, part.
  assert (H' : forall k, ptr p i <= k < ptr p i + (ptr p (S i) - ptr p i) -> k < length j /\ k < length x).
  { intros k Hk. specialize (H k ltac:(apply in_seq; lia)). apply cellb_spec in H. tauto. }
  rewrite (part_seq 0%Z) by (intros; now apply H'). rewrite (part_seq s0) by (intros; now apply H'). rewrite map_map. apply combine_maps.
Qed.

Lemma fold_map {A B C} (h : A -> B) (f : C -> B -> C) l c : fold_left f (map h l) c = fold_left (fun c a => f c (h a)) l c.
Proof. revert c. induction l; intros; [reflexivity|]. cbn. apply IHl. Qed.
(** reading row [i] *)
Lemma row_total {St} (Inv : St -> Prop) c p j x i (body : nat -> T -> St -> St) (f : nat -> St -> res St) s : Inv s ->
  (forall k s, Inv s -> cellb c j x k = true -> Inv (body (Z.to_nat (nth k j 0%Z)) (nth k x s0) s)) ->
  (forall k s, Inv s -> f k s = if cellb c j x k then Ok (body (Z.to_nat (nth k j 0%Z)) (nth k x s0) s) else Panic) ->
  (let* st := pget p i in let* e := pget p (i + 1) in for_range st e f s) =
    (if readb c p j x i then Ok (fold_left (fun s e => body (fst e) (snd e) s) (crow p j x i) s) else Panic) /\
  (readb c p j x i = true -> Inv (fold_left (fun s e => body (fst e) (snd e) s) (crow p j x i) s)).
Proof.
  intros Hs Hb Hf. rewrite !pget_if. replace (i + 1) with (S i) by lia. unfold readb.
  destruct ((i <? length p) && _); [|easy]. cbn [bind andb]. destruct ((S i <? length p) && _); [|easy]. cbn [bind andb]. unfold for_range.
  destruct (for_total Inv (cellb c j x) (fun k s => body (Z.to_nat (nth k j 0%Z)) (nth k x s0) s) f (ptr p (S i) - ptr p i) (ptr p i) s Hs) as [E Hi].
  { intros k s' _ Hs'. split; [now apply Hf|now apply Hb]. }
  rewrite E. destruct (forallb _ _) eqn:Ef; [|easy]. rewrite (crow_seq c) by assumption.
  rewrite fold_map. split; [reflexivity|exact Hi].
Qed.

(** CSR::mat_vec *)
Lemma len_upd {A} (l : list A) i a : length (upd l i a) = length l.
Proof. revert i. induction l; intros [|i]; cbn; congruence. Qed.
Lemma nth_upd_same {A} (l : list A) i a d : i < length l -> nth i (upd l i a) d = a.
Proof. revert i. induction l; intros [|i] H; cbn in *; try lia; [reflexivity|]. apply IHl. lia. Qed.
Lemma nth_upd_other {A} (l : list A) i k a d : k <> i -> nth k (upd l i a) d = nth k l d.
Proof. revert i k. induction l; intros [|i] [|k] H; cbn; try reflexivity; try lia. apply IHl. lia. Qed.
Lemma fold_upd {A} (h : nat -> A) d : forall n y, n <= length y ->
  let r := fold_left (fun y i => upd y i (h i)) (seq 0 n) y in
  length r = length y /\ forall i, nth i r d = if i <? n then h i else nth i y d.
Proof.
  induction n as [|n IH]; intros y Hy; cbv zeta; [split; [reflexivity|intros; reflexivity]|].
  rewrite seq_S, fold_left_app. cbn [fold_left]. destruct (IH y ltac:(lia)) as [L N]. cbv zeta in *. rewrite len_upd. split; [exact L|].
  intros i. destruct (Nat.eq_dec i (0 + n)) as [->|NE].
  - rewrite nth_upd_same by lia. now destruct (Nat.ltb_spec (0 + n) (S n)); [|lia].
  - rewrite nth_upd_other by assumption. rewrite N. destruct (Nat.ltb_spec i n), (Nat.ltb_spec i (S n)); try reflexivity; lia.
Qed.
Lemma fold_sadd (f : nat * T -> T) l s : fold_left (fun s e => sadd s (f (fst e, snd e))) l s = fold_left sadd (map f l) s.
Proof. revert s. induction l as [|[a b] l IH]; intros; [reflexivity|]. cbn [fold_left map fst snd]. apply IH. Qed.

Lemma c86_csr_mat_vec (m : CSR T) (x : list T) : length x = csr_cols m ->
  (csr_readable m ->
   CSR_mat_vec m x = Ok (map (fun i => sum0 (map (fun e => smul (snd e) (nth (fst e) x s0)) (csr_row m i))) (seq 0 (csr_rows m)))) /\
  (~ csr_readable m -> CSR_mat_vec m x = Panic).
Proof.
  intros Hx. unfold csr_readable, csc_readable. rewrite <- readb_all. unfold CSR_mat_vec. rewrite Hx, Nat.eqb_refl. cbn [negb]. unfold csr_matvec, for_range at 1 3. rewrite Nat.sub_0_r.
  set (p := csr_rowptr m). set (j := csr_colidx m). set (v := csr_values m).
  set (h := fun i => sum0 (map (fun e => smul (snd e) (nth (fst e) x s0)) (csr_row m i))).
  set (Y := fun (n : nat) (y : list T) => length y = csr_rows m /\ forall i, n <= i -> nth i y s0 = s0).
  set (g := fun i (y : list T) => upd y i (h i)).
  match goal with |- context [for_n ?n 0 ?f ?s] => set (F := f); set (s_ := s) end.
  assert (K : forall n lo y, lo + n = csr_rows m -> Y lo y ->
    for_n n lo F y = if forallb (readb (csr_cols m) p j v) (seq lo n) then Ok (fold_left (fun y i => g i y) (seq lo n) y) else Panic).
  { induction n as [|n IH]; intros lo y E [L Z0]; [reflexivity|]. cbn [for_n seq forallb fold_left].
    assert (EF : F lo y = if readb (csr_cols m) p j v lo then Ok (g lo y) else Panic).
    { unfold F. rewrite (vget_if _ _ s0). destruct (Nat.ltb_spec lo (length y)); [|lia]. cbn [bind]. rewrite (Z0 lo) by lia.
      pose proof (row_total (fun _ : T => True) (csr_cols m) p j v lo (fun c w s => sadd s (smul w (nth c x s0)))
        (fun jj sum => let* v := vget v jj in let* j := pget j jj in let* x := vget x j in Ok (sadd sum (smul v x))) s0 Logic.I) as [R _].
      { trivial. }
      { intros k s _. rewrite (vget_if _ _ s0), pget_if. unfold cellb. destruct (k <? length v) eqn:E1; destruct (k <? length j) eqn:E2; try reflexivity; cbn [bind andb].
        destruct (0 <=? nth k j 0)%Z eqn:E3; [|reflexivity]. cbn [bind andb]. rewrite (vget_if _ _ s0), Hx. unfold ptr.
        destruct (Z.ltb_spec (nth k j 0%Z) (Z.of_nat (csr_cols m))), (Nat.ltb_spec (Z.to_nat (nth k j 0%Z)) (csr_cols m)); try reflexivity; lia. }
      transitivity (let* sum := (if readb (csr_cols m) p j v lo then Ok (h lo) else Panic) in vset y lo sum).
      2: { destruct (readb _ _ _ _ _); [|reflexivity]. cbn [bind]. unfold vset. destruct (Nat.ltb_spec lo (length y)); [reflexivity|lia]. }
      unfold h, sum0. unfold csr_row. fold p j v. rewrite <- (fold_sadd (fun e => smul (snd e) (nth (fst e) x s0))). cbn [fst snd]. rewrite <- R.
      rewrite !pget_if. destruct (_ && _); [|reflexivity]. cbn [bind]. now destruct (_ && _). }
    rewrite EF. destruct (readb _ _ _ _ lo); [|reflexivity]. cbn [bind andb]. apply IH; [lia|]. split; [unfold g; now rewrite len_upd|].
    intros i Hi. unfold g. rewrite nth_upd_other by lia. apply Z0. lia. }
  rewrite (K (csr_rows m) 0 s_ eq_refl (conj (repeat_length _ _) (fun _ _ => nth_repeat _ _ _))).
  destruct (forallb _ _); [|split; easy]. split; [intros _|intros N; exfalso; now apply N]. f_equal.
  destruct (fold_upd h s0 (csr_rows m) s_) as [L N]. { unfold s_. now rewrite repeat_length. }
  apply (nth_ext _ _ s0 s0). { unfold g. rewrite L, map_length, seq_length. apply repeat_length. }
  intros i Hi. unfold g in *. rewrite L in Hi. unfold s_ in Hi. rewrite repeat_length in Hi. rewrite N. destruct (Nat.ltb_spec i (csr_rows m)); [|lia].
  fold h. erewrite nth_indep by (rewrite map_length, seq_length; lia). rewrite (map_nth h (seq 0 (csr_rows m)) 0 i). now rewrite seq_nth by lia.
Qed.

(** CSR::to_dense *)
Definition addat (i : nat) (c : nat) (v : T) (d : list (list T)) : list (list T) := upd d i (upd (nth i d []) c (sadd (nth c (nth i d []) s0) v)).
Definition shaped (r c : nat) (d : list (list T)) : Prop := length d = r /\ forall i, i < r -> length (nth i d []) = c.
Lemma addat_shaped r c i k v d : i < r -> k < c -> shaped r c d -> shaped r c (addat i k v d) /\
  forall i' k', nth k' (nth i' (addat i k v d) []) s0 = if (i' =? i) && (k' =? k) then sadd (nth k (nth i d []) s0) v else nth k' (nth i' d []) s0.
Proof.
  intros Hi Hk [L Lr]. unfold addat. split; [split|].
  - now rewrite len_upd.
  - intros i' Hi'. destruct (Nat.eq_dec i' i) as [->|N]; [|rewrite nth_upd_other by assumption; now apply Lr].
    rewrite nth_upd_same by lia. rewrite len_upd. now apply Lr.
  - intros i' k'. destruct (Nat.eqb_spec i' i) as [->|N]; [|now rewrite nth_upd_other by assumption]. rewrite nth_upd_same by lia. cbn [andb].
    destruct (Nat.eqb_spec k' k) as [->|N]; [|now rewrite nth_upd_other by assumption]. apply nth_upd_same. rewrite Lr; assumption.
Qed.
Lemma addat_row r c i : forall l d, i < r -> (forall e, In e l -> fst e < c) -> shaped r c d ->
  let d' := fold_left (fun d e => addat i (fst e) (snd e) d) l d in
  shaped r c d' /\ forall i' k, nth k (nth i' d' []) s0 = if i' =? i then fold_left sadd (at_ k l) (nth k (nth i d []) s0) else nth k (nth i' d []) s0.
Proof.
  induction l as [|[k v] l IH]; intros d Hi Hl Hd; cbv zeta; cbn [fold_left fst snd].
  - split; [assumption|]. intros. cbn. now destruct (Nat.eqb_spec i' i) as [->|]. 
  - destruct (addat_shaped r c i k v d Hi (Hl (k, v) (or_introl eq_refl)) Hd) as [Hs N].
    destruct (IH (addat i k v d) Hi ltac:(intros; apply Hl; now right) Hs) as [Hs' N']. cbv zeta in *. split; [assumption|].
    intros i' k'. rewrite N', !N. destruct (Nat.eqb_spec i' i) as [->|]; [|reflexivity]. rewrite Nat.eqb_refl. unfold at_. cbn [filter fst andb].
    rewrite (Nat.eqb_sym k k'). destruct (Nat.eqb_spec k' k) as [->|]; reflexivity.
Qed.
Lemma readb_cols c p j (x : list T) i : readb c p j x i = true -> forall e, In e (crow p j x i) -> fst e < c.
Proof.
  unfold readb. rewrite !andb_true_iff. intros [_ H] e He. rewrite (crow_seq c) in He by assumption. rewrite forallb_forall in H.
  apply in_map_iff in He as (k & <- & Hk). specialize (H k Hk). apply cellb_spec in H. cbn [fst]. lia.
Qed.
Lemma addat_rows r c p j (x : list T) : forall n d, n <= r -> (forall i, i < n -> readb c p j x i = true) -> shaped r c d ->
  let d' := fold_left (fun d i => fold_left (fun d e => addat i (fst e) (snd e) d) (crow p j x i) d) (seq 0 n) d in
  shaped r c d' /\ forall i k, nth k (nth i d' []) s0 = if i <? n then fold_left sadd (at_ k (crow p j x i)) (nth k (nth i d []) s0) else nth k (nth i d []) s0.
Proof.
  induction n as [|n IH]; intros d Hn Hr Hd; cbv zeta; [split; [assumption|reflexivity]|].
  rewrite seq_S, fold_left_app. cbn [fold_left]. destruct (IH d ltac:(lia) ltac:(intros; apply Hr; lia) Hd) as [Hs N]. cbv zeta in *.
  destruct (addat_row r c (0 + n) (crow p j x n) _ ltac:(lia) (readb_cols c p j x n (Hr n ltac:(lia))) Hs) as [Hs' N']. cbv zeta in *. split; [exact Hs'|].
  intros i k. cbn [plus] in *. rewrite N', !N. destruct (Nat.eqb_spec i n) as [->|NE].
  - now rewrite Nat.ltb_irrefl, (proj2 (Nat.ltb_lt n (S n))) by lia.
  - destruct (Nat.ltb_spec i n), (Nat.ltb_spec i (S n)); try reflexivity; lia.
Qed.
Lemma c86_csr_to_dense (m : CSR T) :
  (csr_readable m ->
   exists d, CSR_to_dense m = Ok d /\ is_table d (csr_rows m) (csr_cols m) (csr_val m)) /\
  (~ csr_readable m -> CSR_to_dense m = Panic).
Proof.
  unfold csr_readable, csc_readable. rewrite <- readb_all. unfold CSR_to_dense, csr_todense. unfold for_range at 1 3. rewrite Nat.sub_0_r.
  set (p := csr_rowptr m). set (j := csr_colidx m). set (v := csr_values m). set (r := csr_rows m). set (c := csr_cols m).
  match goal with |- context [for_n ?n 0 ?f ?s] => set (F := f); set (s_ := s) end.
  assert (S0 : shaped r c s_). { unfold s_. split; [apply repeat_length|]. intros i Hi. rewrite (nth_indep _ [] (repeat s0 c)) by now rewrite repeat_length. now rewrite nth_repeat, repeat_length. }
  destruct (for_total (shaped r c) (readb c p j v) (fun i d => fold_left (fun d e => addat i (fst e) (snd e) d) (crow p j v i) d) F r 0 s_ S0) as [E Hi].
  { intros i d Hi Hd. unfold F. apply (row_total (shaped r c) c p j v i (addat i)); [assumption| |].
    - intros k s Hs Hk. apply addat_shaped; try assumption; [lia|]. apply cellb_spec in Hk. lia.
    - intros k s [L Lr]. rewrite pget_if, (vget_if v _ s0). unfold cellb. destruct (k <? length j) eqn:E1; destruct (k <? length v) eqn:E2; cbn [bind andb]; try reflexivity.
      + destruct (0 <=? nth k j 0)%Z eqn:E3; [|reflexivity]. cbn [bind andb]. rewrite (vget_if _ _ []), L. destruct (Nat.ltb_spec i r); [|lia]. cbn [bind].
        unfold vaddto. rewrite (vget_if _ _ s0), Lr by assumption. unfold ptr.
        destruct (Z.ltb_spec (nth k j 0%Z) (Z.of_nat c)), (Nat.ltb_spec (Z.to_nat (nth k j 0%Z)) c); try reflexivity; try lia. cbn [bind]. unfold vset.
        rewrite Lr by assumption. destruct (Nat.ltb_spec (Z.to_nat (nth k j 0%Z)) c); [|lia]. cbn [bind]. rewrite L. destruct (Nat.ltb_spec i r); [reflexivity|lia].
      + now destruct (0 <=? nth k j 0)%Z. }
  rewrite E. destruct (forallb _ _) eqn:Ef; [|split; easy]. split; [intros _|intros N; exfalso; now apply N].
  eexists. split; [reflexivity|]. rewrite forallb_forall in Ef.
  destruct (addat_rows r c p j v r s_ (le_n r) ltac:(intros; apply Ef, in_seq; lia) S0) as [[L Lr] N]. cbv zeta in *. split; [exact L|]. intros i Hir. split; [now apply Lr|].
  intros k Hk. rewrite N. destruct (Nat.ltb_spec i r); [|lia]. unfold csr_val, csr_at, sum0, csr_row. fold p j v. f_equal. unfold s_.
  rewrite (nth_indep _ [] (repeat s0 c)) by now rewrite repeat_length. now rewrite !nth_repeat.
Qed.

(** CSC::mat_vec *)
Definition addto (i : nat) (v : T) (y : list T) : list T := upd y i (sadd (nth i y s0) v).
Lemma addto_col c (w : T) : forall l y, (forall e, In e l -> fst e < c) -> length y = c ->
  let y' := fold_left (fun y e => addto (fst e) (smul (snd e) w) y) l y in
  length y' = c /\ forall i, nth i y' s0 = fold_left sadd (map (fun v => smul v w) (at_ i l)) (nth i y s0).
Proof.
  induction l as [|[k v] l IH]; intros y Hl Hy; cbv zeta; cbn [fold_left fst snd]; [split; [assumption|reflexivity]|].
  assert (Hk : k < c) by exact (Hl (k, v) (or_introl eq_refl)).
  destruct (IH (addto k (smul v w) y) ltac:(intros; apply Hl; now right) ltac:(unfold addto; now rewrite len_upd)) as [L N]. cbv zeta in *. split; [assumption|].
  intros i. rewrite N. unfold at_. cbn [filter fst]. unfold addto. destruct (Nat.eqb_spec k i) as [->|NE].
  - rewrite nth_upd_same by lia. reflexivity.
  - now rewrite nth_upd_other by lia.
Qed.
Lemma addto_cols c p j (x : list T) (z : list T) : forall n y, (forall i, i < n -> readb c p j x i = true) -> length y = c ->
  let y' := fold_left (fun y k => fold_left (fun y e => addto (fst e) (smul (snd e) (nth k z s0)) y) (crow p j x k) y) (seq 0 n) y in
  length y' = c /\ forall i, nth i y' s0 = fold_left sadd (flat_map (fun k => map (fun v => smul v (nth k z s0)) (at_ i (crow p j x k))) (seq 0 n)) (nth i y s0).
Proof.
  induction n as [|n IH]; intros y Hr Hy; cbv zeta; [split; [assumption|reflexivity]|].
  rewrite seq_S, fold_left_app. cbn [fold_left plus]. destruct (IH y ltac:(intros; apply Hr; lia) Hy) as [L N]. cbv zeta in *.
  destruct (addto_col c (nth n z s0) (crow p j x n) _ (readb_cols c p j x n (Hr n ltac:(lia))) L) as [L' N']. cbv zeta in *. split; [exact L'|].
  intros i. rewrite N', N, flat_map_app, fold_left_app. cbn [flat_map]. now rewrite app_nil_r.
Qed.
Lemma c86_csc_mat_vec (m : CSC T) (x : list T) : length x = csc_cols m ->
  (csc_readable m ->
   CSC_mat_vec m x = Ok (map (fun i => sum0 (flat_map (fun j => map (fun v => smul v (nth j x s0)) (csc_at m i j)) (seq 0 (csc_cols m)))) (seq 0 (csc_rows m)))) /\
  (~ csc_readable m -> CSC_mat_vec m x = Panic).
Proof.
  intros Hx. unfold csr_readable, csc_readable. rewrite <- readb_all. unfold CSC_mat_vec. rewrite Hx, Nat.eqb_refl. cbn [negb]. unfold csc_matvec, for_range at 1 3. rewrite Nat.sub_0_r.
  unfold csc_at, csc_col. set (p := csc_colptr m). set (j := csc_rowidx m). set (v := csc_values m). set (r := csc_rows m). set (c := csc_cols m).
  match goal with |- context [for_n ?n 0 ?f ?s] => set (F := f); set (s_ := s) end.
  assert (S0 : length s_ = r) by apply repeat_length.
  destruct (for_total (fun y => length y = r) (readb r p j v) (fun k y => fold_left (fun y e => addto (fst e) (smul (snd e) (nth k x s0)) y) (crow p j v k) y) F c 0 s_ S0) as [E Hi].
  { intros i d Hi Hd. unfold F. apply (row_total (fun y => length y = r) r p j v i (fun i w y => addto i (smul w (nth _ x s0)) y)); [assumption| |].
    - intros k s Hs Hk. unfold addto. now rewrite len_upd.
    - intros k s L. rewrite pget_if, (vget_if v _ s0). unfold cellb. destruct (k <? length j) eqn:E1; destruct (k <? length v) eqn:E2; cbn [bind andb]; try reflexivity.
      + destruct (0 <=? nth k j 0)%Z eqn:E3; [|reflexivity]. cbn [bind andb]. rewrite (vget_if _ _ s0), Hx. destruct (Nat.ltb_spec i (csc_cols m)); [|lia]. cbn [bind].
        unfold vaddto. rewrite (vget_if _ _ s0), L. unfold ptr.
        destruct (Z.ltb_spec (nth k j 0%Z) (Z.of_nat r)), (Nat.ltb_spec (Z.to_nat (nth k j 0%Z)) r); try reflexivity; try lia. cbn [bind]. unfold vset.
        rewrite L. destruct (Nat.ltb_spec (Z.to_nat (nth k j 0%Z)) r); [reflexivity|lia].
      + now destruct (0 <=? nth k j 0)%Z. }
  rewrite E. destruct (forallb _ _) eqn:Ef; [|split; easy]. split; [intros _|intros N; exfalso; now apply N]. f_equal. rewrite forallb_forall in Ef.
  destruct (addto_cols r p j v x c s_ ltac:(intros; apply Ef, in_seq; lia) S0) as [L N]. cbv zeta in *.
  apply (nth_ext _ _ s0 s0). { rewrite L, map_length, seq_length. reflexivity. }
  intros i Hir. rewrite L in Hir. rewrite N. unfold s_. rewrite nth_repeat.
  match goal with |- _ = nth i (map ?h _) _ => erewrite nth_indep by (rewrite map_length, seq_length; lia); rewrite (map_nth h (seq 0 r) 0 i) end. now rewrite seq_nth by lia.
Qed.

(** diagonals *)
Lemma forallb_filter_nil {A} (f : A -> bool) l : filter f l = [] <-> forall a, In a l -> f a = false.
Proof.
  induction l as [|a l IH]; cbn; [easy|]. destruct (f a) eqn:E; split; intros H.
  - discriminate.
  - rewrite (H a) in E by now left. discriminate.
  - intros b [<-|Hb]; [assumption|]. now apply IH.
  - apply IH. intros. apply H. now right.
Qed.
Lemma at_crow_short (q : nat) j (x : list T) : forall n s,
  (forall k, s <= k < s + n -> k < length j) -> (forall k, s <= k < s + n -> Z.to_nat (nth k j 0%Z) = q -> k < length x) ->
  at_ q (combine (map Z.to_nat (firstn n (skipn s j))) (firstn n (skipn s x))) = map (fun k => nth k x s0) (filter (fun k => Z.to_nat (nth k j 0%Z) =? q) (seq s n)).
Proof.
  induction n as [|n IH]; intros s Hj Hx; [reflexivity|]. rewrite (skipn_nth 0%Z j) by (apply Hj; lia). cbn [firstn map].
  destruct (Nat.lt_ge_cases s (length x)) as [L|L].
  - rewrite (skipn_nth s0 x) by assumption. cbn [firstn combine]. unfold at_ in *. cbn [filter fst seq]. specialize (IH (S s)).
    destruct (_ =? q); cbn [map snd]; [f_equal|]; (apply IH; intros; [apply Hj; lia|apply Hx; [lia|assumption]]).
  - rewrite (skipn_all2 x) by assumption. cbn [firstn combine]. unfold at_. cbn [filter map].
    rewrite (proj2 (forallb_filter_nil _ _)); [reflexivity|]. intros k Hk. apply in_seq in Hk. apply Nat.eqb_neq. intros E. specialize (Hx k ltac:(lia) E). lia.
Qed.

Definition diagcell (j : list Z) (x : list T) (i k : nat) : bool :=
  (k <? length j) && (0 <=? nth k j 0)%Z && ((k <? length x) || negb (Z.to_nat (nth k j 0%Z) =? i)).
Definition diagb (p j : list Z) (x : list T) (i : nat) : bool :=
  ((i <? length p) && (0 <=? nth i p 0)%Z) && ((S i <? length p) && (0 <=? nth (S i) p 0)%Z) &&
  forallb (diagcell j x i) (seq (ptr p i) (ptr p (S i) - ptr p i)).
Lemma diagb_spec p j x i : diagb p j x i = true <-> diagonal_readable p j x i.
Proof.
  unfold diagb, diagonal_readable. rewrite !andb_true_iff, !Nat.ltb_lt, !Z.leb_le, forallb_forall. unfold diagcell. split.
  - intros [[[H1 H2] [H3 H4]] H5]. split; [assumption|]. split; [assumption|]. split; [assumption|]. intros k Hk.
    specialize (H5 k ltac:(apply in_seq; lia)). rewrite !andb_true_iff, Nat.ltb_lt, Z.leb_le, orb_true_iff, Nat.ltb_lt, negb_true_iff, Nat.eqb_neq in H5.
    destruct H5 as [[A B] C]. repeat split; try assumption. intros E. destruct C as [C|C]; [assumption|]. rewrite E, Nat2Z.id in C. congruence.
  - intros (H1 & H2 & H3 & H4). repeat split; try assumption; try lia. intros k Hk. apply in_seq in Hk. destruct (H4 k ltac:(lia)) as (A & B & C).
    rewrite !andb_true_iff, Nat.ltb_lt, Z.leb_le, orb_true_iff, Nat.ltb_lt, negb_true_iff, Nat.eqb_neq. repeat split; try assumption.
    destruct (Z.eq_dec (nth k j 0%Z) (Z.of_nat i)); [left; auto|right; lia].
Qed.
Lemma diagb_all p j x n : forallb (diagb p j x) (seq 0 n) = true <-> forall i, i < n -> diagonal_readable p j x i.
Proof.
  rewrite forallb_forall. split; intros H i Hi.
  - apply diagb_spec, H, in_seq. lia.
  - apply diagb_spec, H. apply in_seq in Hi. lia.
Qed.
Lemma fold_filter {A B} (q : A -> bool) (f : B -> A -> B) l b : fold_left (fun b a => if q a then f b a else b) l b = fold_left f (filter q l) b.
Proof. revert b. induction l as [|a l IH]; intros; [reflexivity|]. cbn. destruct (q a); apply IH. Qed.
Lemma csr_diagonal_arrays (b : Build) r c p j (x : list T) : let n := Nat.min r c in
  csr_diagonal 0 r c p j x (repeat s0 n) =
  if forallb (diagb p j x) (seq 0 n) then Ok (map (fun i => sum0 (at_ i (crow p j x i))) (seq 0 n)) else Panic.
Proof.
  cbv zeta. unfold csr_diagonal, usub. cbn [Z.leb Z.compare Z.to_nat Nat.leb bind]. rewrite !Nat.sub_0_r. unfold for_range at 1. rewrite Nat.sub_0_r. set (n := Nat.min r c).
  match goal with |- for_n n 0 ?f ?s = _ => set (F := f); set (s_ := s) end.
  destruct (for_total (fun y => length y = n) (diagb p j x) (fun i y => upd y i (sum0 (at_ i (crow p j x i)))) F n 0 s_ (repeat_length _ _)) as [E _].
  { intros i y Hi Hy. split; [|now rewrite len_upd]. unfold F. cbn [plus]. rewrite !pget_if. replace (i + 1) with (S i) by lia. unfold diagb.
    destruct ((i <? length p) && _); [|reflexivity]. cbn [bind andb]. destruct ((S i <? length p) && _); [|reflexivity]. cbn [bind andb].
    unfold for_range.
    match goal with |- context [for_n ?a ?b ?f s0] => 
      destruct (for_total (fun _ => True) (diagcell j x i) (fun k s => if Z.to_nat (nth k j 0%Z) =? i then sadd s (nth k x s0) else s) f a b s0 Logic.I) as [E _] end.
    { intros k s _ _. split; [|trivial]. rewrite pget_if, (vget_if _ _ s0). unfold diagcell. destruct ((k <? length j) && _); [|reflexivity]. cbn [bind andb]. fold (ptr j k).
      destruct (ptr j k =? i); [|now rewrite orb_true_r]. now destruct (k <? length x). }
    rewrite E. destruct (forallb _ _) eqn:Ef; [|reflexivity]. cbn [bind]. unfold vset. rewrite Hy. destruct (Nat.ltb_spec i n); [|lia]. do 2 f_equal.
    rewrite (fold_filter (fun k => Z.to_nat (nth k j 0%Z) =? i) (fun s k => sadd s (nth k x s0))). unfold sum0, crow, part. rewrite forallb_forall in Ef.
    rewrite at_crow_short.
    - now rewrite fold_map.
    - intros k Hk. specialize (Ef k ltac:(apply in_seq; lia)). unfold diagcell in Ef. rewrite !andb_true_iff, Nat.ltb_lt in Ef. tauto.
    - intros k Hk Ek. specialize (Ef k ltac:(apply in_seq; lia)). unfold diagcell in Ef. rewrite Ek, Nat.eqb_refl in Ef. cbn [negb] in Ef. rewrite orb_false_r, !andb_true_iff, !Nat.ltb_lt in Ef. tauto. }
  rewrite E. destruct (forallb _ _); [|reflexivity]. f_equal.
  destruct (fold_upd (fun i => sum0 (at_ i (crow p j x i))) s0 n s_) as [L N]. { unfold s_. now rewrite repeat_length. } cbv zeta in *.
  apply (nth_ext _ _ s0 s0). { rewrite L, map_length, seq_length. apply repeat_length. }
  intros i Hi. rewrite L in Hi. unfold s_ in Hi. rewrite repeat_length in Hi. rewrite N. destruct (Nat.ltb_spec i n); [|lia].
  match goal with |- _ = nth i (map ?h _) _ => erewrite nth_indep by (rewrite map_length, seq_length; lia); rewrite (map_nth h (seq 0 n) 0 i) end. now rewrite seq_nth by lia.
Qed.
Lemma c86_csr_diagonal (b : Build) (m : CSR T) : let n := Nat.min (csr_rows m) (csr_cols m) in
  ((forall i, i < n -> diagonal_readable (csr_rowptr m) (csr_colidx m) (csr_values m) i) -> CSR_diagonal m = Ok (map (fun i => csr_val m i i) (seq 0 n))) /\
  (~ (forall i, i < n -> diagonal_readable (csr_rowptr m) (csr_colidx m) (csr_values m) i) -> CSR_diagonal m = Panic).
Proof.
  cbv zeta. rewrite <- diagb_all. unfold CSR_diagonal. rewrite csr_diagonal_arrays. destruct (forallb _ _); (split; intros H; [|reflexivity || (exfalso; now apply H)]); [reflexivity|discriminate].
Qed.
Lemma c86_csc_diagonal (b : Build) (m : CSC T) : let n := Nat.min (csc_rows m) (csc_cols m) in
  ((forall i, i < n -> diagonal_readable (csc_colptr m) (csc_rowidx m) (csc_values m) i) -> CSC_diagonal m = Ok (map (fun i => csc_val m i i) (seq 0 n))) /\
  (~ (forall i, i < n -> diagonal_readable (csc_colptr m) (csc_rowidx m) (csc_values m) i) -> CSC_diagonal m = Panic).
Proof.
  cbv zeta. rewrite <- diagb_all. unfold CSC_diagonal. rewrite (Nat.min_comm (csc_rows m)). rewrite csr_diagonal_arrays.
  destruct (forallb _ _); (split; intros H; [|reflexivity || (exfalso; now apply H)]); [reflexivity|discriminate].
Qed.

(** coordinate matrices *)
Lemma entries_seq (m : Coo T) : length (coo_values m) <= length (coo_rowidx m) -> length (coo_values m) <= length (coo_colidx m) ->
  coo_entries m = map (fun k => (Z.to_nat (nth k (coo_rowidx m) 0%Z), Z.to_nat (nth k (coo_colidx m) 0%Z), nth k (coo_values m) s0)) (seq 0 (length (coo_values m))).
Proof.
  unfold coo_entries. generalize (coo_values m) (coo_rowidx m) (coo_colidx m). induction l as [|v l IH]; intros [|i li] [|j lj] H1 H2; cbn in *; try lia; try reflexivity.
  f_equal. rewrite IH by lia. rewrite <- seq_shift, map_map. reflexivity.
Qed.

Lemma below_forallb r n (l : list Z) : forallb (fun k => (0 <=? nth k l 0)%Z && (nth k l 0 <? Z.of_nat r)%Z) (seq 0 n) = true <-> below r n l.
Proof.
  rewrite forallb_forall. unfold below. split; intros H k Hk.
  - specialize (H k ltac:(apply in_seq; lia)). rewrite andb_true_iff, Z.leb_le, Z.ltb_lt in H. assumption.
  - apply in_seq in Hk. specialize (H k ltac:(lia)). rewrite andb_true_iff, Z.leb_le, Z.ltb_lt. assumption.
Qed.
Lemma below_len (r : nat) n (l : list Z) : (forall k, k < n -> k < length l) <-> n <= length l.
Proof. split; intros H; [|lia]. destruct n; [lia|]. specialize (H n ltac:(lia)). lia. Qed.
Lemma addat_entries r c : forall l d, (forall e, In e l -> fst (fst e) < r /\ snd (fst e) < c) -> shaped r c d ->
  let d' := fold_left (fun d e => addat (fst (fst e)) (snd (fst e)) (snd e) d) l d in
  shaped r c d' /\ forall i j, nth j (nth i d' []) s0 =
    fold_left sadd (map snd (filter (fun e => (fst (fst e) =? i) && (snd (fst e) =? j)) l)) (nth j (nth i d []) s0).
Proof.
  induction l as [|[[i j] v] l IH]; intros d Hl Hd; cbv zeta; cbn [fold_left fst snd]; [split; [assumption|reflexivity]|].
  destruct (Hl (i, j, v) (or_introl eq_refl)) as [Hi Hj]. cbn [fst snd] in *.
  destruct (addat_shaped r c i j v d Hi Hj Hd) as [Hs N].
  destruct (IH (addat i j v d) ltac:(intros; apply Hl; now right) Hs) as [Hs' N']. cbv zeta in *. split; [assumption|].
  intros i' j'. rewrite N', N. cbn [filter fst snd]. rewrite (Nat.eqb_sym i i'), (Nat.eqb_sym j j').
  destruct (Nat.eqb_spec i' i) as [->|]; [|reflexivity]. destruct (Nat.eqb_spec j' j) as [->|]; reflexivity.
Qed.
Lemma c86_coo_to_dense (m : Coo T) : let n := length (coo_values m) in
  (paired m /\ below (coo_rows m) n (coo_rowidx m) /\ below (coo_cols m) n (coo_colidx m) ->
   exists d, Coo_to_dense m = Ok d /\ is_table d (coo_rows m) (coo_cols m) (coo_val m)) /\
  (~ (paired m /\ below (coo_rows m) n (coo_rowidx m) /\ below (coo_cols m) n (coo_colidx m)) -> Coo_to_dense m = Panic).
Proof.
  cbv zeta. unfold Coo_to_dense. unfold for_range, Coo_nnz. rewrite Nat.sub_0_r.
  set (ri := coo_rowidx m). set (ci := coo_colidx m). set (v := coo_values m). set (r := coo_rows m). set (c := coo_cols m). set (n := length v).
  match goal with |- context [for_n ?n 0 ?f ?s] => set (F := f); set (s_ := s) end.
  assert (S0 : shaped r c s_). { unfold s_. split; [apply repeat_length|]. intros i Hi. rewrite (nth_indep _ [] (repeat s0 c)) by now rewrite repeat_length. now rewrite nth_repeat, repeat_length. }
  set (ok := fun k => (k <? length ri) && (k <? length ci) && ((0 <=? nth k ri 0)%Z && (nth k ri 0 <? Z.of_nat r)%Z) && ((0 <=? nth k ci 0)%Z && (nth k ci 0 <? Z.of_nat c)%Z)).
  assert (OK : forallb ok (seq 0 n) = true <-> paired m /\ below r n ri /\ below c n ci).
  { rewrite forallb_forall. unfold ok, paired, below. fold ri ci v n. split.
    - intros H. assert (H' : forall k, k < n -> (k < length ri /\ k < length ci) /\ (0 <= nth k ri 0 < Z.of_nat r)%Z /\ (0 <= nth k ci 0 < Z.of_nat c)%Z).
      { intros k Hk. specialize (H k ltac:(apply in_seq; lia)). rewrite !andb_true_iff, !Nat.ltb_lt, !Z.leb_le, !Z.ltb_lt in H. tauto. }
      split; [|split; intros; now apply H']. split; apply (below_len 0); intros; now apply H'.
    - intros [[H1 H2] [H3 H4]] k Hk. apply in_seq in Hk. rewrite !andb_true_iff, !Nat.ltb_lt, !Z.leb_le, !Z.ltb_lt. specialize (H3 k ltac:(lia)). specialize (H4 k ltac:(lia)). lia. }
  rewrite <- OK.
  destruct (for_total (shaped r c) ok (fun k d => addat (Z.to_nat (nth k ri 0%Z)) (Z.to_nat (nth k ci 0%Z)) (nth k v s0) d) F n 0 s_ S0) as [E _].
  { intros k d Hk [L Lr]. split.
    - unfold F. rewrite !pget_if. unfold ok. destruct (k <? length ri); [|reflexivity]. cbn [bind andb]. destruct (Z.leb_spec 0 (nth k ri 0%Z)) as [P1|P1]; [|now rewrite !andb_false_r]. cbn [bind].
      destruct (k <? length ci); [|reflexivity]. cbn [andb bind]. destruct (Z.leb_spec 0 (nth k ci 0%Z)) as [P2|P2]; [|now rewrite !andb_false_r]. cbn [bind andb].
      rewrite (vget_if d _ []), L. unfold ptr. destruct (Z.ltb_spec (nth k ri 0%Z) (Z.of_nat r)), (Nat.ltb_spec (Z.to_nat (nth k ri 0%Z)) r); try lia; [|reflexivity]. cbn [bind andb].
      rewrite (vget_if _ _ s0), Lr by assumption. destruct (Z.ltb_spec (nth k ci 0%Z) (Z.of_nat c)), (Nat.ltb_spec (Z.to_nat (nth k ci 0%Z)) c); try lia; [|reflexivity]. cbn [bind].
      rewrite (vget_if _ _ s0). fold n. destruct (Nat.ltb_spec k n); [|lia]. cbn [bind]. unfold vset. rewrite Lr by assumption. destruct (Nat.ltb_spec (Z.to_nat (nth k ci 0%Z)) c); [|lia]. cbn [bind].
      rewrite L. destruct (Nat.ltb_spec (Z.to_nat (nth k ri 0%Z)) r); [reflexivity|lia].
    - intros Ok. apply addat_shaped; [| |now split]; unfold ok in Ok; rewrite !andb_true_iff, !Z.leb_le, !Z.ltb_lt in Ok; lia. }
  rewrite E. destruct (forallb _ _) eqn:Ef; [|split; easy]. split; [intros _|intros N; exfalso; now apply N].
  eexists. split; [reflexivity|]. destruct (proj1 OK eq_refl) as [[P1 P2] [B1 B2]].
  destruct (addat_entries r c (coo_entries m) s_) as [[L Lr] N]; [|exact S0|].
  { rewrite entries_seq by assumption. intros e He. apply in_map_iff in He as (k & <- & Hk). apply in_seq in Hk. cbn [fst snd]. assert (Hkn : k < n) by (unfold n, v; lia). specialize (B1 k Hkn). specialize (B2 k Hkn). fold ri ci. lia. }
  cbv zeta in *. rewrite entries_seq in L, Lr, N by assumption. rewrite fold_map in L, Lr, N. cbn [fst snd] in L, Lr, N. split; [exact L|]. intros i Hir. split; [now apply Lr|].
  intros k Hk. rewrite N. unfold coo_val, coo_at, sum0. rewrite entries_seq by assumption. f_equal. unfold s_.
  rewrite (nth_indep _ [] (repeat s0 c)) by now rewrite repeat_length. now rewrite !nth_repeat.
Qed.

(** outcomes other than errors and running on *)
Definition sane {A} (m : res A) (Q : A -> Prop) : Prop := match m with Ok a => Q a | Panic => True | _ => False end.
Lemma sane_bind {A B} (m : res A) (f : A -> res B) (P : A -> Prop) Q : sane m P -> (forall a, P a -> sane (f a) Q) -> sane (bind m f) Q.
Proof. destruct m; cbn; auto. Qed.
Lemma sane_mono {A} (m : res A) (P Q : A -> Prop) : sane m P -> (forall a, P a -> Q a) -> sane m Q.
Proof. destruct m; cbn; auto. Qed.
Lemma sane_for {St} (Inv : nat -> St -> Prop) hi f (s : St) : Inv 0 s ->
  (forall i s, i < hi -> Inv i s -> sane (f i s) (Inv (S i))) -> sane (for_range 0 hi f s) (Inv hi).
Proof.
  intros H0 H. unfold for_range. rewrite Nat.sub_0_r. assert (G : forall k i s, Inv i s -> i + k = hi -> sane (for_n k i f s) (Inv hi)).
  { clear s H0. induction k as [|k IH]; intros i s Hi E; cbn [for_n].
    - replace hi with i by lia. exact Hi.
    - eapply sane_bind; [apply H; [lia|exact Hi]|]. intros s' Hs. apply IH; [exact Hs|lia]. }
  apply G; [exact H0|lia].
Qed.
Lemma sane_vget {A} (l : list A) i : sane (vget l i) (fun a => nth_error l i = Some a).
Proof. unfold vget. destruct (nth_error l i) eqn:E; cbn; auto. Qed.
Lemma sane_vset {A} (l : list A) i a : sane (vset l i a) (fun l' => i < length l /\ l' = upd l i a).
Proof. unfold vset. destruct (Nat.ltb_spec i (length l)); cbn; auto. Qed.
Lemma sane_pget p i : sane (pget p i) (fun n => nth_error p i = Some (Z.of_nat n)).
Proof. unfold pget, vget. destruct (nth_error p i) eqn:E; cbn; auto. unfold to_usize. destruct (Z.leb_spec 0 z); cbn; auto. f_equal. lia. Qed.
Lemma sane_iadd (b : Build) I u v : sane (iadd I u v) (fun _ => True).
Proof. unfold iadd, icheck. destruct b; cbn; auto. destruct (_ && _); cbn; auto. Qed.
Lemma sane_ifrom I n : sane (ifrom I n) (fun z => z = Z.of_nat n).
Proof. unfold ifrom, icheck. destruct (_ && _); cbn; auto. Qed.
Lemma sane_vinc (b : Build) I l i z : sane (vinc I l i z) (fun l' => i < length l /\ exists t, l' = upd l i t).
Proof.
  unfold vinc. eapply sane_bind; [apply sane_vget|]. intros t _. cbv beta. eapply sane_bind; [apply sane_iadd|]. intros t' _. eapply sane_mono; [apply sane_vset|].
  intros l' [H ->]. split; [assumption|now exists t'].
Qed.
Lemma nth_error_upd_other {A} (l : list A) i k a : k <> i -> nth_error (upd l i a) k = nth_error l k.
Proof. revert i k. induction l; intros [|i] [|k] H; cbn; try reflexivity; try lia. apply IHl. lia. Qed.
Lemma nth_error_upd_same {A} (l : list A) i a : i < length l -> nth_error (upd l i a) i = Some a.
Proof. revert i. induction l; intros [|i] H; cbn in *; try lia; try reflexivity. apply IHl. lia. Qed.

Lemma coo_tocsr_rows (b : Build) I n_row n_col nnz a_i a_j (a_x : list T) b_p b_j b_x : length b_p = n_row + 1 -> length b_j = nnz ->
  sane (coo_tocsr I n_row n_col nnz a_i a_j a_x b_p b_j b_x) (fun _ => nnz <= length a_i /\ nnz <= length a_j /\ below n_row nnz a_i).
Proof.
  intros Lp Lj. unfold coo_tocsr. cbv zeta.
  eapply sane_bind.
  { apply (sane_for (fun _ bp => length bp = n_row + 1)); [unfold vfill; now rewrite repeat_length|]. intros i s Hi L. eapply sane_bind; [apply sane_pget|]. intros k _. cbv beta.
    eapply sane_mono; [apply sane_vinc|]. intros s' [_ [t ->]]. now rewrite len_upd. }
  intros bp1 L1. cbv beta in L1. eapply sane_bind.
  { apply (sane_for (fun _ '(bp, _) => length bp = n_row + 1)); [assumption|]. intros i [s cs] Hi L. eapply sane_bind; [apply sane_vget|]. intros t _. cbv beta.
    eapply sane_bind; [apply sane_vset|]. intros s' [_ ->]. eapply sane_bind; [apply sane_iadd|]. intros c' _. cbn. now rewrite len_upd. }
  intros [bp2 cs] L2. cbv beta iota in L2. eapply sane_bind; [apply sane_ifrom|]. intros z ->. cbv beta. eapply sane_bind; [apply sane_vset|]. intros bp3 [H3 ->]. cbv beta.
  eapply sane_bind.
  { apply (sane_for (fun n '(bp, bj, _) => length bj = nnz /\ nth_error bp n_row = Some (Z.of_nat nnz) /\ n <= length a_i /\ n <= length a_j /\ below n_row n a_i /\ length bp = n_row + 1)
      nnz _ (upd bp2 n_row (Z.of_nat nnz), b_j, b_x)).
    - repeat split; try assumption; try lia; [now apply nth_error_upd_same|now rewrite len_upd].
    - intros n [[bp bj] bx] Hn (I1 & I2 & I3 & I4 & I5 & I6). eapply sane_bind; [apply sane_pget|]. intros row Hrow. cbv beta in *. eapply sane_bind; [apply sane_pget|]. intros dest Hd. cbv beta in *.
      eapply sane_bind; [apply sane_vget|]. intros jn Hjn. cbv beta in *. eapply sane_bind; [apply sane_vset|]. intros bj' [Hdest ->]. cbv beta in *.
      eapply sane_bind; [apply sane_vget|]. intros xn _. cbv beta. eapply sane_bind; [apply sane_vset|]. intros bx' _. cbv beta. eapply sane_bind; [apply sane_vinc|]. intros bp' [Hr [t ->]]. cbv beta.
      assert (NR : row <> n_row). { intros ->. rewrite I2 in Hd. injection Hd as Hd. lia. }
      assert (Rn : nth n a_i 0%Z = Z.of_nat row) by now apply nth_error_nth.
      assert (n < length a_i) by (apply nth_error_Some; congruence). assert (n < length a_j) by (apply nth_error_Some; congruence).
      cbn. rewrite len_upd. repeat split; try assumption; try lia.
      + rewrite nth_error_upd_other by lia. assumption.
      + destruct (Nat.eq_dec k n) as [->|]; [lia|]. apply I5. lia.
      + destruct (Nat.eq_dec k n) as [->|]; [lia|]. apply I5. lia.
      + now rewrite len_upd. }
  intros [[bp4 bj4] bx4] (I1 & I2 & I3 & I4 & I5 & I6). eapply sane_bind.
  { apply (sane_for (fun _ _ => True)); [trivial|]. intros i [s l] _ _. eapply sane_bind; [apply sane_vget|]. intros t _. cbv beta. eapply sane_bind; [apply sane_vset|]. intros s' _. exact Logic.I. }
  intros [bp5 l5] _. cbn. auto.
Qed.
Lemma c86_coo_to_csr_rows (b : Build) I (m : Coo T) : let n := length (coo_values m) in ~ (paired m /\ below (coo_rows m) n (coo_rowidx m)) -> Coo_to_csr I m = Panic.
Proof.
  cbv zeta. intros N. unfold Coo_to_csr, Coo_nnz. cbv zeta.
  pose proof (coo_tocsr_rows b I (coo_rows m) (coo_cols m) (length (coo_values m)) (coo_rowidx m) (coo_colidx m) (coo_values m) (repeat 0%Z (coo_rows m + 1)) (repeat 0%Z (length (coo_values m)))
    (repeat s0 (length (coo_values m))) (repeat_length _ _) (repeat_length _ _)) as S.
  destruct (coo_tocsr _ _ _ _ _ _ _ _ _ _); cbn in S; try contradiction; [|reflexivity]. exfalso. apply N. unfold paired. tauto.
Qed.
Lemma c86_coo_to_csc_cols (b : Build) I (m : Coo T) : let n := length (coo_values m) in ~ (paired m /\ below (coo_cols m) n (coo_colidx m)) -> Coo_to_csc I m = Panic.
Proof.
  cbv zeta. intros N. unfold Coo_to_csc, Coo_nnz. cbv zeta.
  pose proof (coo_tocsr_rows b I (coo_cols m) (coo_rows m) (length (coo_values m)) (coo_colidx m) (coo_rowidx m) (coo_values m) (repeat 0%Z (coo_cols m + 1)) (repeat 0%Z (length (coo_values m)))
    (repeat s0 (length (coo_values m))) (repeat_length _ _) (repeat_length _ _)) as S.
  destruct (coo_tocsr _ _ _ _ _ _ _ _ _ _); cbn in S; try contradiction; [|reflexivity]. exfalso. apply N. unfold paired. tauto.
Qed.

Definition recol (c : nat) (r : CSR T) : CSR T := mkCSR (csr_rows r) c (csr_rowptr r) (csr_colidx r) (csr_values r).
Definition rerow (c : nat) (r : CSC T) : CSC T := mkCSC c (csc_cols r) (csc_rowidx r) (csc_colptr r) (csc_values r).
Lemma CSR_prune_cols c (m r : CSR T) : CSR_prune m = Ok r -> CSR_prune (recol c m) = Ok (recol c r).
Proof.
  unfold CSR_prune, CSR_nnz. cbn [recol csr_rows csr_cols csr_rowptr csr_colidx csr_values]. destruct (negb _); [discriminate|]. intros H.
  destruct (if _ =? 0 then _ else _); try discriminate. cbn [bind] in *. destruct (_ <? _); [discriminate|]. destruct (_ <? _); [discriminate|]. injection H as <-. reflexivity.
Qed.
Lemma CSR_sum_duplicates_cols I c (m r : CSR T) : CSR_sum_duplicates I m = Ok r -> CSR_sum_duplicates I (recol c m) = Ok (recol c r).
Proof.
  unfold CSR_sum_duplicates, CSR_has_canonical_format. cbn [recol csr_rows csr_cols csr_rowptr csr_colidx csr_values].
  destruct (let* n := usub _ _ in _) as [[]| | |]; try discriminate; cbn [bind]; [intros H; injection H as <-; reflexivity|].
  unfold CSR_sort_indexes. cbn [recol csr_rows csr_cols csr_rowptr csr_colidx csr_values]. destruct (usub _ _); try discriminate. cbn [bind].
  destruct (csr_sort_indices _ _ _ _) as [[j x]| | |]; try discriminate. cbn [bind csr_rows csr_cols csr_rowptr csr_colidx csr_values].
  unfold csr_sum_duplicates. destruct (for_range _ _ _ _) as [[[[[p' j'] x'] n'] e']| | |]; try discriminate. cbn [bind]. apply CSR_prune_cols.
Qed.
Lemma CSC_prune_rows c (m r : CSC T) : CSC_prune m = Ok r -> CSC_prune (rerow c m) = Ok (rerow c r).
Proof.
  unfold CSC_prune, CSC_nnz. cbn [rerow csc_rows csc_cols csc_rowidx csc_colptr csc_values]. destruct (negb _); [discriminate|]. intros H.
  destruct (if _ =? 0 then _ else _); try discriminate. cbn [bind] in *. destruct (_ <? _); [discriminate|]. destruct (_ <? _); [discriminate|].
  destruct (vslice _ _ _); try discriminate. cbn [bind] in *. destruct (vslice _ _ _); try discriminate. cbn [bind] in *. injection H as <-. reflexivity.
Qed.
Lemma CSC_sum_duplicates_rows I c (m r : CSC T) : CSC_sum_duplicates I m = Ok r -> CSC_sum_duplicates I (rerow c m) = Ok (rerow c r).
Proof.
  unfold CSC_sum_duplicates, CSC_has_canonical_format. cbn [rerow csc_rows csc_cols csc_rowidx csc_colptr csc_values].
  destruct (let* n := usub _ _ in _) as [[]| | |]; try discriminate; cbn [bind]; [intros H; injection H as <-; reflexivity|].
  unfold CSC_sort_indexes. cbn [rerow csc_rows csc_cols csc_rowidx csc_colptr csc_values]. destruct (usub _ _); try discriminate. cbn [bind].
  destruct (csr_sort_indices _ _ _ _) as [[j x]| | |]; try discriminate. cbn [bind csc_rows csc_cols csc_rowidx csc_colptr csc_values].
  unfold csr_sum_duplicates. destruct (for_range _ _ _ _) as [[[[[p' j'] x'] n'] e']| | |]; try discriminate. cbn [bind]. intros H.
  destruct (CSC_prune _) eqn:E; cbn in H; try discriminate. injection H as <-. apply (CSC_prune_rows c) in E. unfold rerow in E at 1. cbn [csc_rows csc_cols csc_rowidx csc_colptr csc_values] in E. rewrite E. reflexivity.
Qed.
(** the coordinate matrix cut to its values, with other dimensions *)
Definition cut (r c : nat) (m : Coo T) : Coo T :=
  let n := length (coo_values m) in mkCoo r c (firstn n (coo_rowidx m)) (firstn n (coo_colidx m)) (coo_values m).
Lemma cut_entries r c m : paired m -> coo_entries (cut r c m) = coo_entries m.
Proof.
  intros [P1 P2]. rewrite (entries_seq m) by assumption. rewrite entries_seq by (cbn; rewrite firstn_length; lia). cbn [cut coo_values coo_rowidx coo_colidx].
  apply map_ext_in. intros k Hk. apply in_seq in Hk. f_equal. f_equal; f_equal.
  - rewrite <- (firstn_skipn (length (coo_values m)) (coo_rowidx m)) at 2. rewrite app_nth1; [reflexivity|rewrite firstn_length; lia].
  - rewrite <- (firstn_skipn (length (coo_values m)) (coo_colidx m)) at 2. rewrite app_nth1; [reflexivity|rewrite firstn_length; lia].
Qed.
Lemma Coo_to_csr_cut I c (m : Coo T) r : Coo_to_csr I (cut (coo_rows m) c m) = Ok r -> Coo_to_csr I m = Ok (recol (coo_cols m) r).
Proof.
  unfold Coo_to_csr, Coo_nnz, cut. cbn [coo_rows coo_cols coo_rowidx coo_colidx coo_values]. cbv zeta.
  destruct (coo_tocsr _ _ c _ _ _ _ _ _ _) as [[[p j] x]| | |] eqn:E; try discriminate. cbn [bind].
  pose proof (c80_coo_tocsr I _ _ _ _ _ _ _ _ _ _ _ _ (skipn (length (coo_values m)) (coo_rowidx m)) (skipn (length (coo_values m)) (coo_colidx m)) [] [] [] E) as E2.
  rewrite !firstn_skipn, !app_nil_r in E2. change (coo_tocsr I (coo_rows m) c) with (coo_tocsr (T := T) I (coo_rows m) (coo_cols m)) in E2. rewrite E2. cbn [bind].
  unfold CSR_new. destruct (negb _); [unfold bad_length; destruct (Z.eqb _ _); discriminate|]. destruct (usub _ _); try discriminate. cbn [bind]. destruct (pget _ _); try discriminate. cbn [bind].
  destruct (_ <? _); [discriminate|]. destruct (_ <? _); [discriminate|]. cbn [unwrap bind]. intros H.
  destruct (CSR_sum_duplicates I _) eqn:E3; cbn in H; try discriminate. injection H as <-. apply (CSR_sum_duplicates_cols I (coo_cols m)) in E3. unfold recol in E3 at 1. cbn [csr_rows csr_cols csr_rowptr csr_colidx csr_values] in E3.
  rewrite E3. reflexivity.
Qed.
Lemma Coo_to_csc_cut I c (m : Coo T) r : Coo_to_csc I (cut c (coo_cols m) m) = Ok r -> Coo_to_csc I m = Ok (rerow (coo_rows m) r).
Proof.
  unfold Coo_to_csc, Coo_nnz, cut. cbn [coo_rows coo_cols coo_rowidx coo_colidx coo_values]. cbv zeta.
  destruct (coo_tocsr _ _ c _ _ _ _ _ _ _) as [[[p j] x]| | |] eqn:E; try discriminate. cbn [bind].
  pose proof (c80_coo_tocsr I _ _ _ _ _ _ _ _ _ _ _ _ (skipn (length (coo_values m)) (coo_colidx m)) (skipn (length (coo_values m)) (coo_rowidx m)) [] [] [] E) as E2.
  rewrite !firstn_skipn, !app_nil_r in E2. change (coo_tocsr I (coo_cols m) c) with (coo_tocsr (T := T) I (coo_cols m) (coo_rows m)) in E2. rewrite E2. cbn [bind].
  unfold CSC_new. destruct (negb _); [unfold bad_length; destruct (Z.eqb _ _); discriminate|]. destruct (usub _ _); try discriminate. cbn [bind]. destruct (pget _ _); try discriminate. cbn [bind].
  destruct (_ <? _); [discriminate|]. destruct (_ <? _); [discriminate|]. cbn [unwrap bind]. intros H.
  apply (CSC_sum_duplicates_rows I (coo_rows m)) in H. exact H.
Qed.
Lemma bounded_cols n (l : list Z) : exists c, forall k, k < n -> (nth k l 0 < Z.of_nat c)%Z.
Proof.
  induction n as [|n [c IH]]; [exists 0; lia|]. exists (Nat.max c (S (Z.to_nat (nth n l 0%Z)))). intros k Hk.
  destruct (Nat.eq_dec k n) as [->|]; [lia|]. specialize (IH k ltac:(lia)). lia.
Qed.
Lemma Forall_firstn_nth n (l : list Z) (P : Z -> Prop) : n <= length l -> (forall k, k < n -> P (nth k l 0%Z)) -> Forall P (firstn n l).
Proof.
  intros L H. apply Forall_forall. intros z Hz. apply (In_nth _ _ 0%Z) in Hz as (k & Hk & <-). rewrite firstn_length in Hk.
  rewrite <- (firstn_skipn n l) in H. specialize (H k ltac:(lia)). rewrite app_nth1 in H by (rewrite firstn_length; lia). exact H.
Qed.
Lemma c86_coo_to_csr I (m : Coo T) : let n := length (coo_values m) in
  (Z.of_nat n < imax I)%Z -> (forall k, k < n -> (nth k (coo_rowidx m) 0 <= imax I)%Z) -> (forall k, k < n -> (0 <= nth k (coo_colidx m) 0 <= imax I)%Z) ->
  paired m /\ below (coo_rows m) n (coo_rowidx m) ->
  exists r, Coo_to_csr I m = Ok r /\ csr_tight r /\ csr_rows r = coo_rows m /\ csr_cols r = coo_cols m /\ csr_canonical r /\
    forall i j, i < coo_rows m -> csr_at r i j = dup_sum (coo_at m i j).
Proof.
  cbv zeta. intros Hn Hr Hc [[P1 P2] B]. destruct (bounded_cols (length (coo_values m)) (coo_colidx m)) as [c Bc].
  destruct (c01_coo_to_csr I (cut (coo_rows m) c m)) as (r & E & W & Ti & R1 & R2 & Ca & At).
  { unfold cut. constructor; cbn [coo_rows coo_cols coo_rowidx coo_colidx coo_values]; try (rewrite firstn_length; lia).
    - apply Forall_firstn_nth; [assumption|]. intros k Hk. split; [now apply B|now apply Hr].
    - apply Forall_firstn_nth; [assumption|]. intros k Hk. specialize (Hc k Hk). specialize (Bc k Hk). lia. }
  { exact Hn. }
  exists (recol (coo_cols m) r). split; [now apply (Coo_to_csr_cut I c)|]. split; [exact Ti|]. split; [exact R1|]. split; [reflexivity|]. split; [exact Ca|].
  intros i j Hi. unfold coo_at. rewrite <- (cut_entries (coo_rows m) c m) by now split. now apply At.
Qed.
Lemma c86_coo_to_csc I (m : Coo T) : let n := length (coo_values m) in
  (Z.of_nat n < imax I)%Z -> (forall k, k < n -> (nth k (coo_colidx m) 0 <= imax I)%Z) -> (forall k, k < n -> (0 <= nth k (coo_rowidx m) 0 <= imax I)%Z) ->
  paired m /\ below (coo_cols m) n (coo_colidx m) ->
  exists r, Coo_to_csc I m = Ok r /\ csc_tight r /\ csc_rows r = coo_rows m /\ csc_cols r = coo_cols m /\ csc_canonical r /\
    forall i j, j < coo_cols m -> csc_at r i j = dup_sum (coo_at m i j).
Proof.
  cbv zeta. intros Hn Hr Hc [[P1 P2] B]. destruct (bounded_cols (length (coo_values m)) (coo_rowidx m)) as [c Bc].
  destruct (c02_coo_to_csc I (cut c (coo_cols m) m)) as (r & E & W & Ti & R1 & R2 & Ca & At).
  { unfold cut. constructor; cbn [coo_rows coo_cols coo_rowidx coo_colidx coo_values]; try (rewrite firstn_length; lia).
    - apply Forall_firstn_nth; [assumption|]. intros k Hk. specialize (Hc k Hk). specialize (Bc k Hk). lia.
    - apply Forall_firstn_nth; [assumption|]. intros k Hk. split; [now apply B|now apply Hr]. }
  { exact Hn. }
  exists (rerow (coo_rows m) r). split; [now apply (Coo_to_csc_cut I c)|]. split; [exact Ti|]. split; [reflexivity|]. split; [exact R2|]. split; [exact Ca|].
  intros i j Hi. unfold coo_at. rewrite <- (cut_entries c (coo_cols m) m) by now split. now apply At.
Qed.

Lemma wf_readable I n c p j (x : list T) : wf_arrays I n c p j x -> forall i, i < n -> readable c p j x i.
Proof.
  intros [L S_ M J X D F] i Hi. assert (P : forall k, k <= n -> (0 <= nth k p 0)%Z).
  { induction k as [|k IH]; intros Hk; [lia|]. specialize (M k ltac:(lia)). specialize (IH ltac:(lia)). lia. }
  assert (Q : forall a b, a <= b <= n -> ptr p a <= ptr p b).
  { intros a b [Hab Hb]. induction Hab as [|b Hab IH]; [lia|]. specialize (IH ltac:(lia)). specialize (M b ltac:(lia)). unfold ptr in *. lia. }
  split; [lia|]. split; [apply P; lia|]. split; [apply P; lia|]. intros k Hk. specialize (Q (S i) n ltac:(lia)). specialize (D k ltac:(lia)). lia.
Qed.
Lemma c86_wf_readable I : (forall m : CSR T, wf_csr I m -> csr_readable m) /\ (forall m : CSC T, wf_csc I m -> csc_readable m).
Proof. split; intros m H; exact (wf_readable I _ _ _ _ _ H). Qed.
(** CSR::to_coo *)
Lemma pc_mono' {A} (m : res A) (P Q : A -> Prop) : pc m P -> (forall a, P a -> Q a) -> pc m Q.
Proof. unfold pc. auto. Qed.
Lemma expandptr_pc I n p (b0 : list Z) : pc (expandptr I n p b0) (fun b => length b = length b0 /\
  forall k, (exists i, i < n /\ ptr p i <= k < ptr p (S i) /\ (forall i', i < i' < n -> ~ ptr p i' <= k < ptr p (S i')) /\ nth k b 0%Z = Z.of_nat i) \/
    ((forall i, i < n -> ~ ptr p i <= k < ptr p (S i)) /\ nth k b 0%Z = nth k b0 0%Z)).
Proof.
  unfold expandptr. apply (pc_for (fun n b => length b = length b0 /\
    forall k, (exists i, i < n /\ ptr p i <= k < ptr p (S i) /\ (forall i', i < i' < n -> ~ ptr p i' <= k < ptr p (S i')) /\ nth k b 0%Z = Z.of_nat i) \/
      ((forall i, i < n -> ~ ptr p i <= k < ptr p (S i)) /\ nth k b 0%Z = nth k b0 0%Z))); [lia| | |].
  - split; [reflexivity|]. intros k. right. split; [lia|reflexivity].
  - intros i b Hi [L H]. eapply pc_bind; [apply pc_pget|]. intros s ->. cbv beta. eapply pc_bind; [apply pc_pget|]. intros e ->. cbv beta. replace (i + 1) with (S i) by lia.
    assert (G : pc (for_range (ptr p i) (ptr p (S i)) (fun jj b_i => let* zi := ifrom I i in vset b_i jj zi) b)
      (fun b' => length b' = length b /\ forall k, nth k b' 0%Z = if (ptr p i <=? k) && (k <? ptr p (S i)) then Z.of_nat i else nth k b 0%Z)).
    { destruct (Nat.le_gt_cases (ptr p i) (ptr p (S i))) as [Hle|Hgt].
      - apply (pc_for (fun t b' => length b' = length b /\ forall k, nth k b' 0%Z = if (ptr p i <=? k) && (k <? t) then Z.of_nat i else nth k b 0%Z)); [exact Hle| | |trivial].
        + split; [reflexivity|]. intros k. destruct (Nat.leb_spec (ptr p i) k), (Nat.ltb_spec k (ptr p i)); try reflexivity; lia.
        + intros t b' Ht [L' H']. eapply (pc_bind _ _ (fun z => z = Z.of_nat i)). { intros z. unfold ifrom, icheck. destruct (_ && _); [|discriminate]. congruence. }
          intros z ->. eapply pc_mono'; [apply pc_vset|]. intros b'' [Hl ->]. split; [now rewrite len_upd|]. intros k. destruct (Nat.eq_dec k t) as [->|NE].
          * rewrite nth_upd_same by assumption. destruct (Nat.leb_spec (ptr p i) t), (Nat.ltb_spec t (S t)); try reflexivity; lia.
          * rewrite nth_upd_other by assumption. rewrite H'. destruct (Nat.leb_spec (ptr p i) k), (Nat.ltb_spec k t), (Nat.ltb_spec k (S t)); try reflexivity; lia.
      - unfold for_range. replace (ptr p (S i) - ptr p i) with 0 by lia. cbn [for_n]. apply pc_ok. split; [reflexivity|]. intros k.
        destruct (Nat.leb_spec (ptr p i) k), (Nat.ltb_spec k (ptr p (S i))); try reflexivity; lia. }
    eapply pc_mono'; [exact G|]. intros b' [L' H']. split; [congruence|]. intros k. rewrite H'. destruct (Nat.leb_spec (ptr p i) k); [destruct (Nat.ltb_spec k (ptr p (S i)))|]; cbn [andb].
    + left. exists i. repeat split; lia.
    + destruct (H k) as [(i0 & A1 & A2 & A3 & A4)|[A1 A2]]; [left; exists i0|right]; (split; [|]); try assumption; try lia.
      * split; [assumption|]. split; [|assumption]. intros i' Hi'. destruct (Nat.eq_dec i' i) as [->|]; [lia|]. apply A3. lia.
      * intros i' Hi'. destruct (Nat.eq_dec i' i) as [->|]; [lia|]. apply A1. lia.
    + destruct (H k) as [(i0 & A1 & A2 & A3 & A4)|[A1 A2]]; [left; exists i0|right]; (split; [|]); try assumption; try lia.
      * split; [assumption|]. split; [|assumption]. intros i' Hi'. destruct (Nat.eq_dec i' i) as [->|]; [lia|]. apply A3. lia.
      * intros i' Hi'. destruct (Nat.eq_dec i' i) as [->|]; [lia|]. apply A1. lia.
  - trivial.
Qed.
Lemma c86_csr_to_coo I (m : CSR T) (r : Coo T) : CSR_to_coo I m = Ok r ->
  coo_rows r = csr_rows m /\ coo_cols r = csr_cols m /\ coo_colidx r = csr_colidx m /\ coo_values r = csr_values m /\ length (coo_rowidx r) = length (csr_colidx m) /\
  forall k, let inside i := ptr (csr_rowptr m) i <= k < ptr (csr_rowptr m) (S i) in
    (exists i, i < csr_rows m /\ inside i /\ (forall i', i < i' < csr_rows m -> ~ inside i') /\ nth k (coo_rowidx r) 0%Z = Z.of_nat i) \/
    ((forall i, i < csr_rows m -> ~ inside i) /\ nth k (coo_rowidx r) 0%Z = 0%Z).
Proof.
  unfold CSR_to_coo. intros H. destruct (expandptr _ _ _ _) as [b| | |] eqn:E; try discriminate. cbn [bind] in H. apply expandptr_pc in E as [L N].
  unfold Coo_new in H. destruct (_ || _) in H; [discriminate|]. injection H as <-. cbn. rewrite repeat_length in L. repeat split; try assumption.
  intros k. destruct (N k) as [A|[A B]]; [left; exact A|right; split; [exact A|]]. rewrite B. apply nth_repeat.
Qed.
(** CSC::to_coo *)
Definition filled {A} (z : A) (N : nat) (l done : list A) : Prop := length done <= N /\ l = done ++ repeat z (N - length done).
Lemma upd_end {A} (l1 : list A) a b l2 : upd (l1 ++ a :: l2) (length l1) b = l1 ++ b :: l2.
Proof. induction l1 as [|c l1 IH]; cbn; [reflexivity|]. now rewrite IH. Qed.
Lemma nth_skip {A} (l : list A) s k d : nth k (skipn s l) d = nth (s + k) l d.
Proof. revert s. induction l as [|a l IH]; intros [|s]; cbn [skipn plus]; try reflexivity; [now destruct k|]. rewrite IH. reflexivity. Qed.
Lemma vget_lt {A} (l : list A) i a : vget l i = Ok a -> i < length l.
Proof. unfold vget. destruct (nth_error l i) eqn:E; [|discriminate]. intros _. apply nth_error_Some. congruence. Qed.
Lemma filled_upd {A} (z v : A) N l done : filled z N l done -> length done < length l -> filled z N (upd l (length done) v) (done ++ [v]).
Proof.
  intros [H ->] L. rewrite app_length, repeat_length in L. split; [rewrite app_length; cbn; lia|]. rewrite app_length. cbn [length].
  replace (N - length done) with (S (N - (length done + 1))) by lia. cbn [repeat]. rewrite upd_end, <- app_assoc. reflexivity.
Qed.
Lemma firstn_snoc {A} (d : A) k l : k < length l -> firstn (S k) l = firstn k l ++ [nth k l d].
Proof. revert l. induction k as [|k IH]; intros [|a l] H; cbn [length] in H; try lia; [reflexivity|]. cbn [firstn nth app]. f_equal. apply IH. lia. Qed.
Lemma part_snoc {A} (d : A) l s t : s <= t -> t < length l -> firstn (S t - s) (skipn s l) = firstn (t - s) (skipn s l) ++ [nth t l d].
Proof.
  intros H L. replace (S t - s) with (S (t - s)) by lia. rewrite (firstn_snoc d) by (rewrite skipn_length; lia). f_equal. f_equal. rewrite nth_skip. f_equal. lia.
Qed.
Definition tocoo_inv N (A B : list Z) (X : list T) (st : list Z * list Z * list T * nat) : Prop :=
  let '(a, b, x, k) := st in filled 0%Z N a A /\ filled 0%Z N b B /\ filled s0 N x X /\ length A = k /\ length B = k /\ length X = k.
Lemma csr_tocoo_pc I n c p (j : list Z) (x : list T) N : pc (csr_tocoo I n c p j x (repeat 0%Z N) (repeat 0%Z N) (repeat s0 N)) (fun r => let '(a, b, y) := r in
  filled 0%Z N a (flat_map (fun i => repeat (Z.of_nat i) (ptr p (S i) - ptr p i)) (seq 0 n)) /\ filled 0%Z N b (flat_map (seg p j) (seq 0 n)) /\ filled s0 N y (flat_map (seg p x) (seq 0 n)) /\
  length (flat_map (fun i => repeat (Z.of_nat i) (ptr p (S i) - ptr p i)) (seq 0 n)) = length (flat_map (seg p x) (seq 0 n)) /\ length (flat_map (seg p j) (seq 0 n)) = length (flat_map (seg p x) (seq 0 n))).
Proof.
  unfold csr_tocoo. eapply pc_bind.
  - apply (pc_for (fun i => tocoo_inv N (flat_map (fun i => repeat (Z.of_nat i) (ptr p (S i) - ptr p i)) (seq 0 i)) (flat_map (seg p j) (seq 0 i)) (flat_map (seg p x) (seq 0 i)))); [lia| | |intros st H; exact H].
    + cbn. unfold filled. cbn. rewrite Nat.sub_0_r. repeat split; lia.
    + intros i st Hi H. eapply pc_bind; [apply pc_pget|]. intros s ->. cbv beta. eapply pc_bind; [apply pc_pget|]. intros e ->. cbv beta. replace (i + 1) with (S i) by lia.
      rewrite seq_S. cbn [plus]. rewrite !flat_map_app. cbn [flat_map]. rewrite !app_nil_r. set (A := flat_map _ (seq 0 i)) in *. set (B := flat_map (seg p j) _) in *. set (X := flat_map (seg p x) _) in *.
      unfold seg. destruct (Nat.le_gt_cases (ptr p i) (ptr p (S i))) as [Hle|Hgt].
      * apply (pc_for (fun t => tocoo_inv N (A ++ repeat (Z.of_nat i) (t - ptr p i)) (B ++ firstn (t - ptr p i) (skipn (ptr p i) j)) (X ++ firstn (t - ptr p i) (skipn (ptr p i) x)))); [exact Hle| | |trivial].
        -- rewrite Nat.sub_diag. cbn [repeat firstn]. rewrite !app_nil_r. exact H.
        -- intros t [[[a b] y] k] Ht (F1 & F2 & F3 & L1 & L2 & L3). cbv beta iota.
           eapply (pc_bind _ _ (fun z => z = Z.of_nat i)). { intros z. unfold ifrom, icheck. destruct (_ && _); [|discriminate]. congruence. } intros z ->.
           eapply pc_bind; [apply pc_vset|]. intros a' [G1 ->]. eapply (pc_bind _ _ (fun v => t < length j /\ v = nth t j 0%Z)). { intros v E. apply vget_lt in E as E'. split; [exact E'|]. rewrite (vget_nth j t 0%Z) in E by exact E'. congruence. }
           intros v [Lv ->]. eapply pc_bind; [apply pc_vset|]. intros b' [G2 ->]. eapply (pc_bind _ _ (fun v => t < length x /\ v = nth t x s0)). { intros v E. apply vget_lt in E as E'. split; [exact E'|]. rewrite (vget_nth x t s0) in E by exact E'. congruence. }
           intros v [Lx ->]. eapply pc_bind; [apply pc_vset|]. intros y' [G3 ->]. apply pc_ok. unfold tocoo_inv.
           rewrite (part_snoc 0%Z) by lia. rewrite (part_snoc s0) by lia. replace (S t - ptr p i) with (t - ptr p i + 1) by lia. rewrite repeat_app, !app_assoc. cbn [repeat].
           split; [rewrite <- L1; apply filled_upd; [exact F1|lia]|]. split; [rewrite <- L2; apply filled_upd; [exact F2|lia]|]. split; [rewrite <- L3; apply filled_upd; [exact F3|lia]|].
           rewrite !(app_length _ [_]), L1, L2, L3. cbn [length]. lia.
      * unfold for_range. replace (ptr p (S i) - ptr p i) with 0 by lia. cbn [for_n repeat firstn]. rewrite !app_nil_r. apply pc_ok. exact H.
  - intros [[[a b] y] k] (F1 & F2 & F3 & L1 & L2 & L3). apply pc_ok. repeat (split; [assumption|]). split; congruence.
Qed.
Lemma c86_csc_to_coo I (bd : Build) (m : CSC T) (r : Coo T) : csc_sized m -> CSC_to_coo (BD:=bd) I m = Ok r ->
  coo_rows r = csc_rows m /\ coo_cols r = csc_cols m /\ length (coo_values r) = csc_count m /\ exists unused,
    coo_rowidx r = flat_map (seg (csc_colptr m) (csc_rowidx m)) (seq 0 (csc_cols m)) ++ repeat 0%Z unused /\
    coo_colidx r = flat_map (fun j => repeat (Z.of_nat j) (ptr (csc_colptr m) (S j) - ptr (csc_colptr m) j)) (seq 0 (csc_cols m)) ++ repeat 0%Z unused /\
    coo_values r = flat_map (seg (csc_colptr m) (csc_values m)) (seq 0 (csc_cols m)) ++ repeat s0 unused.
Proof.
  intros (L & P & _) H. unfold CSC_to_coo in H.
  assert (N : CSC_nnz (BD:=bd) m = Ok (csc_count m)).
  { unfold CSC_nnz, csc_count. rewrite L. replace (csc_cols m + 1 =? 0) with false by (symmetry; apply Nat.eqb_neq; lia). unfold usub. replace (1 <=? csc_cols m + 1) with true by (symmetry; apply Nat.leb_le; lia).
    cbn [bind]. replace (csc_cols m + 1 - 1) with (csc_cols m) by lia. rewrite pget_if, L. replace (csc_cols m <? csc_cols m + 1) with true by (symmetry; apply Nat.ltb_lt; lia).
    destruct (Z.leb_spec 0 (nth (csc_cols m) (csc_colptr m) 0%Z)); [reflexivity|lia]. }
  rewrite N in H. cbn [bind] in H. destruct (csr_tocoo _ _ _ _ _ _ _ _ _) as [[[a b] y]| | |] eqn:E; try discriminate. cbn [bind] in H.
  apply csr_tocoo_pc in E as ((F1 & ->) & (F2 & ->) & (F3 & ->) & E1 & E2). unfold Coo_new in H. destruct (_ || _) in H; [discriminate|]. injection H as <-. cbn [coo_rows coo_cols coo_rowidx coo_colidx coo_values].
  split; [reflexivity|]. split; [reflexivity|]. split; [rewrite app_length, repeat_length; lia|]. exists (csc_count m - length (flat_map (seg (csc_colptr m) (csc_values m)) (seq 0 (csc_cols m)))).
  rewrite E1, E2. auto.
Qed.
(** CSR::prune *)
Lemma c86_csr_prune (b : Build) (m : CSR T) :
  (csr_sized m -> CSR_prune m = Ok (mkCSR (csr_rows m) (csr_cols m) (csr_rowptr m) (firstn (csr_count m) (csr_colidx m)) (firstn (csr_count m) (csr_values m)))) /\
  (length (csr_rowptr m) <> csr_rows m + 1 \/ (0 <= nth (csr_rows m) (csr_rowptr m) 0)%Z /\ (length (csr_colidx m) < csr_count m \/ length (csr_values m) < csr_count m) ->
   CSR_prune m = Err ELength) /\
  (length (csr_rowptr m) = csr_rows m + 1 -> (nth (csr_rows m) (csr_rowptr m) 0 < 0)%Z -> CSR_prune m = Panic).
Proof.
  unfold CSR_prune, csr_sized, CSR_nnz, csr_count. destruct (Nat.eqb_spec (length (csr_rowptr m)) (csr_rows m + 1)) as [L|L]; cbn [negb].
  2: { repeat split; intros; try tauto; try lia. }
  rewrite L. replace (csr_rows m + 1 =? 0) with false by (symmetry; apply Nat.eqb_neq; lia). unfold usub. replace (1 <=? csr_rows m + 1) with true by (symmetry; apply Nat.leb_le; lia).
  cbn [bind]. replace (csr_rows m + 1 - 1) with (csr_rows m) by lia. rewrite pget_if, L. replace (csr_rows m <? csr_rows m + 1) with true by (symmetry; apply Nat.ltb_lt; lia).
  destruct (Z.leb_spec 0 (nth (csr_rows m) (csr_rowptr m) 0%Z)) as [P|P]; cbn [andb bind]. 2: { repeat split; intros; lia || reflexivity. }
  split; [|split]; intros.
  - destruct H as (_ & _ & H1 & H2). destruct (Nat.ltb_spec (length (csr_colidx m)) (ptr (csr_rowptr m) (csr_rows m))); [lia|].
    destruct (Nat.ltb_spec (length (csr_values m)) (ptr (csr_rowptr m) (csr_rows m))); [lia|]. rewrite !ConvProofs.vresize_firstn by lia. reflexivity.
  - destruct H as [H|[_ H]]; [lia|]. destruct (Nat.ltb_spec (length (csr_colidx m)) (ptr (csr_rowptr m) (csr_rows m))); [reflexivity|].
    destruct (Nat.ltb_spec (length (csr_values m)) (ptr (csr_rowptr m) (csr_rows m))); [reflexivity|lia].
  - lia.
Qed.
(** CSC::prune *)
Lemma c86_csc_prune (b : Build) (m : CSC T) : 
  (csc_sized m -> CSC_prune m = Ok (mkCSC (csc_rows m) (csc_cols m) (firstn (csc_count m) (csc_rowidx m)) (csc_colptr m) (firstn (csc_count m) (csc_values m)))) /\
  (length (csc_colptr m) <> csc_cols m + 1 \/ (0 <= nth (csc_cols m) (csc_colptr m) 0)%Z /\ (length (csc_rowidx m) < csc_count m \/ length (csc_values m) < csc_count m) ->
   CSC_prune m = Err ELength) /\
  (length (csc_colptr m) = csc_cols m + 1 -> (nth (csc_cols m) (csc_colptr m) 0 < 0)%Z -> CSC_prune m = Panic).
Proof.
  unfold CSC_prune, csc_sized, CSC_nnz, csc_count. destruct (Nat.eqb_spec (length (csc_colptr m)) (csc_cols m + 1)) as [L|L]; cbn [negb].
  2: { repeat split; intros; try tauto; try lia. }
  rewrite L. replace (csc_cols m + 1 =? 0) with false by (symmetry; apply Nat.eqb_neq; lia). unfold usub. replace (1 <=? csc_cols m + 1) with true by (symmetry; apply Nat.leb_le; lia).
  cbn [bind]. replace (csc_cols m + 1 - 1) with (csc_cols m) by lia. rewrite pget_if, L. replace (csc_cols m <? csc_cols m + 1) with true by (symmetry; apply Nat.ltb_lt; lia).
  destruct (Z.leb_spec 0 (nth (csc_cols m) (csc_colptr m) 0%Z)) as [P|P]; cbn [andb bind]. 2: { repeat split; intros; lia || reflexivity. }
  split; [|split]; intros.
  - destruct H as (_ & _ & H1 & H2). destruct (Nat.ltb_spec (length (csc_rowidx m)) (ptr (csc_colptr m) (csc_cols m))); [lia|].
    destruct (Nat.ltb_spec (length (csc_values m)) (ptr (csc_colptr m) (csc_cols m))); [lia|]. unfold vslice. cbn [Nat.leb andb].
    rewrite (proj2 (Nat.leb_le _ _) H2), (proj2 (Nat.leb_le _ _) H1). cbn [bind skipn]. now rewrite !Nat.sub_0_r.
  - destruct H as [H|[_ H]]; [lia|]. destruct (Nat.ltb_spec (length (csc_rowidx m)) (ptr (csc_colptr m) (csc_cols m))); [reflexivity|].
    destruct (Nat.ltb_spec (length (csc_values m)) (ptr (csc_colptr m) (csc_cols m))); [reflexivity|lia].
  - lia.
Qed.
End Arrays.

Lemma c86_csr_to_csc_refuted : exists (m : CSR Z) r d e, csr_sized m /\ csr_readable m /\
  CSR_to_dense m = Ok d /\ CSR_to_csc I32 m = Ok r /\ wf_csc I32 r /\ CSC_to_dense I32 r = Ok e /\ d <> e.
Proof.
  exists (mkCSR 3 2 [1; 3; 2; 4]%Z [1; 0; 0; 1]%Z [5; 6; 7; 8]%Z), (mkCSC 3 2 [0; 0; 2; 0]%Z [0; 3; 3]%Z [6; 7; 8; 0]%Z), [[13; 0]; [0; 0]; [7; 8]]%Z, [[13; 0]; [0; 0]; [8; 0]]%Z.
  split; [repeat split; cbn; lia|]. split. { unfold csr_readable. apply readb_all. reflexivity. }
  split; [reflexivity|]. split; [reflexivity|]. split; [check|]. split; [reflexivity|]. discriminate.
Qed.
