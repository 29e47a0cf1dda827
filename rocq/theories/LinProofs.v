(** Kernels that walk over all entries: expansion to coordinates, dense tables, products with
    vectors, diagonals, scaling. *)
From Verif Require Import Rust Scalar Model_kernels Model_matrix Spec Wp Rep ScatterProofs CanonProofs ConvProofs.

Lemma wp_eq1 {A} (m : res A) a : wp m (fun b => b = a) -> m = Ok a.
Proof. intros (b & -> & ->). reflexivity. Qed.

(** ** Entries in storage order *)
Section Flat.
Context {T : Type}.
Implicit Types R : list (list (nat * T)).

(** (row number, entry) in storage order, rows numbered from [s] *)
Fixpoint flat (s : nat) R : list (nat * (nat * T)) :=
  match R with [] => [] | r :: R' => map (pair s) r ++ flat (S s) R' end.

Lemma flat_app s R1 R2 : flat s (R1 ++ R2) = flat s R1 ++ flat (s + length R1) R2.
Proof.
  revert s. induction R1 as [|r R1 IH]; intros s; cbn; [rewrite Nat.add_0_r; reflexivity|].
  rewrite IH, <- app_assoc. replace (S s + length R1) with (s + S (length R1)) by lia. reflexivity.
Qed.
Lemma flat_length s R : length (flat s R) = length (concat R).
Proof. revert s. induction R as [|r R IH]; intros s; cbn; [reflexivity|]. rewrite !app_length, map_length, IH. reflexivity. Qed.
Lemma flat_snd s R : map snd (flat s R) = concat R.
Proof.
  revert s. induction R as [|r R IH]; intros s; cbn; [reflexivity|]. rewrite map_app, map_map, IH. f_equal.
  cbn. apply map_id.
Qed.
Lemma in_flat s R t : In t (flat s R) -> s <= fst t < s + length R /\ In (snd t) (nth (fst t - s) R []).
Proof.
  revert s. induction R as [|r R IH]; intros s; cbn [flat]; [intros []|]. intros H. apply in_app_or in H as [H|H].
  - apply in_map_iff in H as (e & <- & H). cbn. rewrite Nat.sub_diag. split; [lia|exact H].
  - apply IH in H as [H1 H2]. cbn [length nth]. split; [lia|]. replace (fst t - s) with (S (fst t - S s)) by lia. exact H2.
Qed.
Lemma flat_seq s R : flat s R = flat_map (fun i => map (pair i) (nth (i - s) R [])) (seq s (length R)).
Proof.
  revert s. induction R as [|r R IH]; intros s; cbn; [reflexivity|]. rewrite Nat.sub_diag. f_equal. rewrite IH.
  rewrite !flat_map_concat_map. f_equal. apply map_ext_in. intros i Hi. apply in_seq in Hi.
  replace (i - s) with (S (i - S s)) by lia. reflexivity.
Qed.
(** the values of one cell *)
Definition cell (F : list (nat * (nat * T))) (i k : nat) : list T :=
  map (fun t => snd (snd t)) (filter (fun t => (fst t =? i) && (fst (snd t) =? k)) F).
Lemma cell_snoc F t i k : cell (F ++ [t]) i k = cell F i k ++ (if (fst t =? i) && (fst (snd t) =? k) then [snd (snd t)] else []).
Proof. unfold cell. rewrite filter_app, map_app. cbn. destruct (_ && _); reflexivity. Qed.
Lemma cell_flat R i k s : cell (flat s R) i k = if i <? s then [] else at_ k (nth (i - s) R []).
Proof.
  revert s. induction R as [|r R IH]; intros s; cbn [flat].
  - destruct (i <? s); [reflexivity|]. destruct (i - s); reflexivity.
  - unfold cell in *. rewrite filter_app, map_app, IH.
    assert (G : map (fun t : nat * (nat * T) => snd (snd t)) (filter (fun t => (fst t =? i) && (fst (snd t) =? k)) (map (pair s) r))
              = if s =? i then at_ k r else []).
    { clear. unfold at_. induction r as [|e r IHr]; cbn; [destruct (s =? i); reflexivity|].
      destruct (s =? i); cbn; [|exact IHr]. destruct (fst e =? k); cbn; rewrite IHr; reflexivity. }
    rewrite G. clear G. destruct (Nat.eqb_spec s i) as [E|D]; [subst s|].
    + rewrite Nat.ltb_irrefl, Nat.sub_diag. destruct (Nat.ltb_spec i (S i)); [|lia]. apply app_nil_r.
    + destruct (Nat.ltb_spec i s), (Nat.ltb_spec i (S s)); try lia; [reflexivity|].
      cbn [app]. replace (i - s) with (S (i - S s)) by lia. reflexivity.
Qed.

(** what is known about an entry met by a loop *)
Record met (I : ity) (c n : nat) (j : list Z) (x : list T) R (k i : nat) (e : nat * T) : Prop := {
  met_vj : vget j k = Ok (Z.of_nat (fst e));
  met_pj : pget j k = Ok (fst e);
  met_vx : vget x k = Ok (snd e);
  met_i : i < n;
  met_c : fst e < c;
  met_fit : (Z.of_nat (fst e) <= imax I)%Z;
  met_in : In e (nth i R []) }.

Lemma wp_flat {St} (Inv : list (nat * (nat * T)) -> St -> Prop) I c p j (x : list T) R n
  (body : nat -> nat -> St -> res St) (s : St) (Q : St -> Prop) :
  crep I c p j x R -> length R = n ->
  Inv [] s ->
  (forall pre i e post s, flat 0 R = pre ++ (i, e) :: post -> met I c n j x R (length pre) i e -> Inv pre s ->
     wp (body i (length pre) s) (Inv (pre ++ [(i, e)]))) ->
  (forall s, Inv (flat 0 R) s -> Q s) ->
  wp (for_range 0 n (fun i s =>
        let* start := pget p i in
        let* end_ := pget p (i + 1) in
        for_range start end_ (fun k s => body i k s) s) s) Q.
Proof.
  intros H L H0 Hstep HQ.
  eapply (wp_for_list (fun pre => Inv (flat 0 pre)) R).
  - exact (eq_sym L).
  - exact H0.
  - intros pre r post s1 ER Hs. cbn [plus]. rewrite (crep_start H ER). cbn [bind]. rewrite (crep_end H ER). cbn [bind].
    eapply (wp_for_list (fun ip => Inv (flat 0 pre ++ map (pair (length pre)) ip)) r).
    + reflexivity.
    + cbn. rewrite app_nil_r. exact Hs.
    + intros ip e iq s2 Er Hs2. pose proof (crep_col H ER Er) as [Hc Hf].
      replace (length (concat pre) + length ip) with (length (flat 0 pre ++ map (pair (length pre)) ip))
        by (rewrite app_length, flat_length, map_length; reflexivity).
      eapply wp_mono; [eapply Hstep|].
      * rewrite ER, flat_app. cbn [flat plus]. rewrite Er, map_app. cbn [map]. rewrite <- !app_assoc. reflexivity.
      * rewrite app_length, flat_length, map_length. constructor.
        -- exact (crep_vj H ER Er).
        -- exact (crep_pj H ER Er).
        -- exact (crep_vx H ER Er).
        -- subst. rewrite app_length. cbn. lia.
        -- exact Hc.
        -- exact Hf.
        -- rewrite ER, nth_middle, Er. apply in_or_app. right. left. reflexivity.
      * exact Hs2.
      * intros s3. rewrite map_app, app_assoc. auto.
    + intros s2 Hs2. rewrite flat_app. cbn. rewrite app_nil_r. exact Hs2.
  - exact HQ.
Qed.

Lemma csr_entries_rep I (m : CSR T) R : csr_rep I m R ->
  csr_entries m = map (fun t => ((fst t, fst (snd t)), snd (snd t))) (flat 0 R).
Proof.
  intros H. unfold csr_entries. rewrite flat_seq, (proj1 H), !flat_map_concat_map, concat_map, !map_map. f_equal.
  apply map_ext. intros i. rewrite (csr_rep_row _ _ _ _ H), Nat.sub_0_r, map_map. reflexivity.
Qed.
Lemma csc_entries_rep I (m : CSC T) R : csc_rep I m R ->
  csc_entries m = map (fun t => ((fst (snd t), fst t), snd (snd t))) (flat 0 R).
Proof.
  intros H. unfold csc_entries. rewrite flat_seq, (proj1 H), !flat_map_concat_map, concat_map, !map_map. f_equal.
  apply map_ext. intros i. rewrite (csc_rep_col _ _ _ _ H), Nat.sub_0_r, map_map. reflexivity.
Qed.
End Flat.

(** ** Accumulating into vectors and tables *)
Section Acc.
Context {T : Type} {SC : Scalar T}.

Lemma sum0_snoc (l : list T) v : sum0 (l ++ [v]) = sadd (sum0 l) v.
Proof. unfold sum0. rewrite fold_left_app. reflexivity. Qed.

(** a vector of [n] elements given by a function *)
Definition is_vec (y : list T) (n : nat) (f : nat -> T) : Prop :=
  length y = n /\ forall i, i < n -> nth i y s0 = f i.
Lemma is_vec_ext y n f g : is_vec y n f -> (forall i, i < n -> f i = g i) -> is_vec y n g.
Proof. intros [H1 H2] H. split; [exact H1|]. intros i Hi. rewrite H2, H by exact Hi. reflexivity. Qed.
Lemma is_vec_repeat n a : is_vec (repeat a n) n (fun _ => a).
Proof.
  split; [apply repeat_length|]. intros i Hi. rewrite (nth_indep _ s0 a) by (rewrite repeat_length; exact Hi). apply nth_repeat.
Qed.
Lemma is_vec_self y n : length y = n -> is_vec y n (fun i => nth i y s0).
Proof. split; auto. Qed.
Lemma is_vec_unique y1 y2 n f : is_vec y1 n f -> is_vec y2 n f -> y1 = y2.
Proof.
  intros [L1 H1] [L2 H2]. apply nth_ext with (d := s0) (d' := s0); [congruence|]. intros i Hi.
  rewrite H1, H2 by lia. reflexivity.
Qed.
Lemma is_vec_get y n f i : is_vec y n f -> i < n -> vget y i = Ok (f i).
Proof. intros [L H] Hi. rewrite (vget_nth _ _ s0) by lia. rewrite H by exact Hi. reflexivity. Qed.
Lemma is_vec_set y n f i v : is_vec y n f -> i < n ->
  exists y', vset y i v = Ok y' /\ is_vec y' n (fun k => if k =? i then v else f k).
Proof.
  intros [L H] Hi. rewrite vset_ok by lia. eexists. split; [reflexivity|]. split; [rewrite upd_length; exact L|].
  intros k Hk. destruct (Nat.eqb_spec k i) as [->|D]; [apply nth_upd_eq; lia|]. rewrite nth_upd_ne by exact D. apply H, Hk.
Qed.
Lemma vaddto_vec y n f i v : is_vec y n f -> i < n ->
  wp (vaddto y i v) (fun y' => is_vec y' n (fun k => if k =? i then sadd (f k) v else f k)).
Proof.
  intros H Hi. unfold vaddto. rewrite (is_vec_get _ _ _ _ H Hi). cbn [bind].
  destruct (is_vec_set _ _ _ i (sadd (f i) v) H Hi) as (y' & E & H'). exists y'. split; [exact E|].
  eapply is_vec_ext; [exact H'|]. intros k _. cbv beta. destruct (Nat.eqb_spec k i); [subst k|]; reflexivity.
Qed.

Lemma is_table_ext d r c f g : is_table d r c f -> (forall i k, i < r -> k < c -> f i k = g i k) -> is_table d r c g.
Proof.
  intros [H1 H2] H. split; [exact H1|]. intros i Hi. destruct (H2 i Hi) as [L G]. split; [exact L|].
  intros k Hk. rewrite G, H by assumption. reflexivity.
Qed.
Lemma is_table_unique d1 d2 r c f : is_table d1 r c f -> is_table d2 r c f -> d1 = d2.
Proof.
  intros [L1 H1] [L2 H2]. apply nth_ext with (d := []) (d' := []); [congruence|]. intros i Hi.
  destruct (H1 i) as [M1 G1]; [lia|]. destruct (H2 i) as [M2 G2]; [lia|].
  apply nth_ext with (d := s0) (d' := s0); [congruence|]. intros k Hk. rewrite G1, G2 by lia. reflexivity.
Qed.
Lemma is_table_zero r c : is_table (repeat (repeat s0 c) r) r c (fun _ _ => s0).
Proof.
  split; [apply repeat_length|]. intros i Hi. rewrite (nth_indep _ [] (repeat s0 c)) by (rewrite repeat_length; exact Hi).
  rewrite nth_repeat. split; [apply repeat_length|]. intros k Hk. apply nth_repeat.
Qed.
Lemma is_table_row d r c f i : is_table d r c f -> i < r -> vget d i = Ok (nth i d []) /\ is_vec (nth i d []) c (f i).
Proof. intros [L H] Hi. split; [apply vget_nth; lia|]. apply H, Hi. Qed.
Lemma is_table_setrow d r c f i y g : is_table d r c f -> i < r -> is_vec y c g ->
  exists d', vset d i y = Ok d' /\ is_table d' r c (fun a b => if a =? i then g b else f a b).
Proof.
  intros [L H] Hi Hy. rewrite vset_ok by lia. eexists. split; [reflexivity|]. split; [rewrite upd_length; exact L|].
  intros a Ha. destruct (Nat.eqb_spec a i) as [->|D].
  - rewrite nth_upd_eq by lia. exact Hy.
  - rewrite nth_upd_ne by exact D. apply H, Ha.
Qed.

Lemma todense_spec I c n p j (x : list T) R d f : crep I c p j x R -> length R = n -> is_table d n c f ->
  wp (csr_todense n c p j x d) (fun d' => is_table d' n c (fun i k => fold_left sadd (at_ k (nth i R [])) (f i k))).
Proof.
  intros H L Hd. unfold csr_todense.
  eapply (wp_flat (fun F d => is_table d n c (fun i k => fold_left sadd (cell F i k) (f i k)))); [exact H|exact L| | |].
  - exact Hd.
  - intros pre i e post d1 _ M Hd1. rewrite (met_pj _ _ _ _ _ _ _ _ _ M). cbn [bind]. rewrite (met_vx _ _ _ _ _ _ _ _ _ M). cbn [bind].
    destruct (is_table_row _ _ _ _ i Hd1 (met_i _ _ _ _ _ _ _ _ _ M)) as [G1 G2]. rewrite G1. cbn [bind].
    apply wp_bind. eapply wp_mono; [apply (vaddto_vec _ _ _ _ (snd e) G2 (met_c _ _ _ _ _ _ _ _ _ M))|]. intros y Hy.
    destruct (is_table_setrow _ _ _ _ i y _ Hd1 (met_i _ _ _ _ _ _ _ _ _ M) Hy) as (d' & E & Hd'). exists d'. split; [exact E|].
    eapply is_table_ext; [exact Hd'|]. intros a b Ha Hb. cbv beta. rewrite cell_snoc. cbn [fst snd].
    rewrite (Nat.eqb_sym i a), (Nat.eqb_sym (fst e) b). destruct (Nat.eqb_spec a i) as [->|]; cbn [andb].
    + destruct (b =? fst e); [rewrite fold_left_app; reflexivity|rewrite app_nil_r; reflexivity].
    + rewrite app_nil_r. reflexivity.
  - intros d1 Hd1. eapply is_table_ext; [exact Hd1|]. intros a b Ha Hb. cbv beta. rewrite cell_flat, Nat.sub_0_r. reflexivity.
Qed.

Lemma upd_length_app {A} (l1 : list A) a b l2 n : n = length l1 -> upd (l1 ++ a :: l2) n b = l1 ++ b :: l2.
Proof. intros ->. induction l1 as [|c l1 IH]; [reflexivity|]. cbn. rewrite IH. reflexivity. Qed.

(** writing element after element over a buffer *)
Definition over {A} (l old : list A) : list A := l ++ skipn (length l) old.
Lemma over_nil {A} (old : list A) : over [] old = old.
Proof. reflexivity. Qed.
Lemma over_set {A} (l old : list A) a n : n = length l -> n < length old -> vset (over l old) n a = Ok (over (l ++ [a]) old).
Proof.
  intros -> H. unfold over. rewrite vset_ok by (rewrite app_length, skipn_length; lia). f_equal.
  destruct (skipn (length l) old) as [|z t] eqn:Es.
  { apply (f_equal (@length _)) in Es. rewrite skipn_length in Es. cbn in Es. lia. }
  rewrite (upd_length_app _ _ _ _ _ eq_refl), app_length, <- app_assoc. cbn.
  rewrite Nat.add_1_r, (skipn_S _ _ _ _ Es). reflexivity.
Qed.
Lemma over_all {A} (l old : list A) : length old <= length l -> over l old = l.
Proof. intros H. unfold over. rewrite skipn_all2 by exact H. apply app_nil_r. Qed.

Lemma rows_fit_met I c n j (x : list T) R k i e : rows_fit I R -> length R = n -> met I c n j x R k i e -> (Z.of_nat i <= imax I)%Z.
Proof.
  intros Hf L M. apply (Hf i (nth i R [])).
  - apply nth_error_nth'. rewrite L. apply (met_i _ _ _ _ _ _ _ _ _ M).
  - intros G. pose proof (met_in _ _ _ _ _ _ _ _ _ M) as G2. rewrite G in G2. exact G2.
Qed.

Lemma expandptr_spec I c n p j (x : list T) R b_i : crep I c p j x R -> length R = n -> rows_fit I R ->
  length (concat R) <= length b_i ->
  expandptr I n p b_i = Ok (over (map (fun t => Z.of_nat (fst t)) (flat 0 R)) b_i).
Proof.
  intros H L Hf Hb. apply wp_eq1. unfold expandptr.
  eapply (wp_flat (fun F b => b = over (map (fun t => Z.of_nat (fst t)) F) b_i)); [exact H|exact L| | |].
  - reflexivity.
  - intros pre i e post b Eb M ->.
    assert (Hl : length pre < length b_i).
    { pose proof (flat_length 0 R) as G. rewrite Eb, app_length in G. cbn in G. lia. }
    rewrite ifrom_ok by apply (rows_fit_met _ _ _ _ _ _ _ _ _ Hf L M). cbn [bind].
    rewrite over_set by (rewrite ?map_length; lia).
    apply wp_ok. rewrite map_app. reflexivity.
  - intros b ->. reflexivity.
Qed.

Lemma tocoo_spec I c n p j (x : list T) R a_i b_j b_x : crep I c p j x R -> length R = n -> rows_fit I R ->
  length a_i = length (concat R) -> length b_j = length (concat R) -> length b_x = length (concat R) ->
  csr_tocoo I n c p j x a_i b_j b_x = Ok (map (fun t => Z.of_nat (fst t)) (flat 0 R),
    map (fun t => Z.of_nat (fst (snd t))) (flat 0 R), map (fun t => snd (snd t)) (flat 0 R)).
Proof.
  intros H L Hf La Lj Lx. apply wp_eq1. unfold csr_tocoo. apply wp_bind.
  eapply (wp_flat (fun F '(a_i', b_j', b_x', k) => a_i' = over (map (fun t => Z.of_nat (fst t)) F) a_i /\
     b_j' = over (map (fun t => Z.of_nat (fst (snd t))) F) b_j /\ b_x' = over (map (fun t => snd (snd t)) F) b_x /\ k = length F));
    [exact H|exact L| | |].
  - sp.
  - intros pre i e post [[[a1 j1] x1] k] Eb M (-> & -> & -> & ->).
    assert (Hl : length pre < length (concat R)).
    { pose proof (flat_length 0 R) as G. rewrite Eb, app_length in G. cbn in G. lia. }
    rewrite ifrom_ok by apply (rows_fit_met _ _ _ _ _ _ _ _ _ Hf L M). cbn [bind].
    rewrite over_set by (rewrite ?map_length; lia). cbn [bind].
    rewrite (met_vj _ _ _ _ _ _ _ _ _ M). cbn [bind].
    rewrite over_set by (rewrite ?map_length; lia). cbn [bind].
    rewrite (met_vx _ _ _ _ _ _ _ _ _ M). cbn [bind].
    rewrite over_set by (rewrite ?map_length; lia). cbn [bind].
    apply wp_ok. rewrite !map_app, app_length. sp.
  - intros [[[a1 j1] x1] k] (-> & -> & -> & ->). apply wp_ok. rewrite !over_all by (rewrite map_length, flat_length; lia).
    reflexivity.
Qed.

(** ** Products with vectors *)
Definition prods (x : list T) (r : list (nat * T)) : list T := map (fun e => smul (snd e) (nth (fst e) x s0)) r.

Lemma matvec_spec I c n p j (a : list T) R x y f : crep I c p j a R -> length R = n -> length x = c -> is_vec y n f ->
  wp (csr_matvec n c p j a x y) (fun y' => is_vec y' n (fun i => fold_left sadd (prods x (nth i R [])) (f i))).
Proof.
  intros H L Hx Hy. unfold csr_matvec.
  eapply (wp_for_list (fun pre y => is_vec y n (fun i => if i <? length pre then fold_left sadd (prods x (nth i R [])) (f i) else f i)) R).
  - exact (eq_sym L).
  - exact Hy.
  - intros pre r post y1 ER Hy1. cbn [plus].
    assert (Hi : length pre < n) by (subst; rewrite app_length; cbn; lia).
    rewrite (is_vec_get _ _ _ _ Hy1 Hi). cbn [bind]. rewrite Nat.ltb_irrefl.
    rewrite (crep_start H ER). cbn [bind]. rewrite (crep_end H ER). cbn [bind]. apply wp_bind.
    eapply (wp_for_list (fun ip s => s = fold_left sadd (prods x ip) (f (length pre))) r).
    + reflexivity.
    + reflexivity.
    + intros ip e iq s Er ->. rewrite (crep_vx H ER Er). cbn [bind]. rewrite (crep_pj H ER Er). cbn [bind].
      rewrite (vget_nth _ _ s0). 2:{ rewrite Hx. apply (crep_col H ER Er). } cbn [bind]. apply wp_ok.
      unfold prods. rewrite map_app, fold_left_app. reflexivity.
    + intros s ->. destruct (is_vec_set _ _ _ _ (fold_left sadd (prods x r) (f (length pre))) Hy1 Hi) as (y2 & E2 & H2).
      exists y2. split; [exact E2|]. eapply is_vec_ext; [exact H2|]. intros i Hi2. cbv beta. rewrite app_length. cbn [length].
      destruct (Nat.eqb_spec i (length pre)) as [->|D].
      * destruct (Nat.ltb_spec (length pre) (length pre + 1)); [|lia]. rewrite ER, nth_middle. reflexivity.
      * destruct (Nat.ltb_spec i (length pre)), (Nat.ltb_spec i (length pre + 1)); try lia; reflexivity.
  - intros y1 Hy1. eapply is_vec_ext; [exact Hy1|]. intros i Hi. cbv beta. destruct (Nat.ltb_spec i (length R)); [reflexivity|lia].
Qed.

(** products contributing to row [i], columns first *)
Definition cprods (x : list T) (F : list (nat * (nat * T))) (i : nat) : list T :=
  map (fun t => smul (snd (snd t)) (nth (fst t) x s0)) (filter (fun t => fst (snd t) =? i) F).
Lemma cprods_snoc x F t i : cprods x (F ++ [t]) i =
  cprods x F i ++ (if fst (snd t) =? i then [smul (snd (snd t)) (nth (fst t) x s0)] else []).
Proof. unfold cprods. rewrite filter_app, map_app. cbn. destruct (_ =? _); reflexivity. Qed.

Lemma csc_matvec_spec I r n p j (a : list T) R x y f : crep I r p j a R -> length R = n -> length x = n -> is_vec y r f ->
  wp (csc_matvec r n p j a x y) (fun y' => is_vec y' r (fun i => fold_left sadd (cprods x (flat 0 R) i) (f i))).
Proof.
  intros H L Hx Hy. unfold csc_matvec.
  eapply (wp_flat (fun F y => is_vec y r (fun i => fold_left sadd (cprods x F i) (f i)))); [exact H|exact L|exact Hy| |].
  - intros pre i e post y1 _ M Hy1. rewrite (met_pj _ _ _ _ _ _ _ _ _ M). cbn [bind]. rewrite (met_vx _ _ _ _ _ _ _ _ _ M). cbn [bind].
    rewrite (vget_nth _ _ s0). 2:{ rewrite Hx. apply (met_i _ _ _ _ _ _ _ _ _ M). } cbn [bind].
    eapply wp_mono; [apply (vaddto_vec _ _ _ _ _ Hy1 (met_c _ _ _ _ _ _ _ _ _ M))|]. intros y2 H2.
    eapply is_vec_ext; [exact H2|]. intros k Hk. cbv beta. rewrite cprods_snoc. cbn [fst snd]. rewrite (Nat.eqb_sym (fst e) k).
    destruct (k =? fst e); [rewrite fold_left_app|rewrite app_nil_r]; reflexivity.
  - auto.
Qed.

Lemma cprods_flat x s R i : cprods x (flat s R) i =
  flat_map (fun k => map (fun v => smul v (nth k x s0)) (at_ i (nth (k - s) R []))) (seq s (length R)).
Proof.
  revert s. induction R as [|r R IH]; intros s; cbn [flat length seq flat_map]; [reflexivity|].
  unfold cprods in *. rewrite filter_app, map_app, IH. rewrite Nat.sub_diag. cbn [nth]. f_equal.
  - clear. unfold at_. induction r as [|e r IH]; [reflexivity|]. cbn. destruct (fst e =? i); cbn; rewrite IH; reflexivity.
  - rewrite !flat_map_concat_map. f_equal. apply map_ext_in. intros k Hk. apply in_seq in Hk.
    replace (k - s) with (S (k - S s)) by lia. reflexivity.
Qed.

(** a sorted row listed column by column *)
Lemma at_by_col k c (g : nat -> list T) s : at_ k (flat_map (fun q => map (pair q) (g q)) (seq s c)) =
  if (s <=? k) && (k <? s + c) then g k else [].
Proof.
  revert s. induction c as [|c IH]; intros s; cbn [seq flat_map].
  - rewrite Nat.add_0_r. destruct (Nat.leb_spec s k), (Nat.ltb_spec k s); try lia; reflexivity.
  - rewrite at_app, IH. rewrite (at_const (T := T)).
    destruct (Nat.eqb_spec s k) as [->|D].
    + destruct (Nat.leb_spec k k), (Nat.ltb_spec k (k + S c)), (Nat.leb_spec (S k) k); try lia. cbn. apply app_nil_r.
    + destruct (Nat.leb_spec s k), (Nat.leb_spec (S s) k), (Nat.ltb_spec k (S s + c)), (Nat.ltb_spec k (s + S c)); try lia; reflexivity.
Qed.
Lemma by_col_sorted c (g : nat -> list T) s : sorted_row (flat_map (fun q => map (pair q) (g q)) (seq s c)).
Proof.
  revert s. induction c as [|c IH]; intros s; cbn [seq flat_map]; [constructor|].
  unfold sorted_row in *. rewrite map_app, map_map. cbn [fst].
  assert (G : forall q, In q (map fst (flat_map (fun q => map (pair q) (g q)) (seq (S s) c))) -> s <= q).
  { intros q Hq. apply in_map_iff in Hq as (e & <- & He). apply in_flat_map in He as (q' & Hq' & He).
    apply in_map_iff in He as (v & <- & _). apply in_seq in Hq'. cbn. lia. }
  induction (g s) as [|v l IHl]; cbn; [apply IH|]. constructor; [exact IHl|].
  apply Forall_app. split.
  - apply Forall_forall. intros q Hq. apply in_map_iff in Hq as (? & <- & _). lia.
  - apply Forall_forall. exact G.
Qed.
Lemma sorted_by_col c (r : list (nat * T)) : sorted_row r -> Forall (fun e => fst e < c) r ->
  r = flat_map (fun q => map (pair q) (at_ q r)) (seq 0 c).
Proof.
  intros S F. apply sorted_at_ext; [exact S|apply by_col_sorted|]. intros k. rewrite at_by_col. cbn [Nat.leb].
  destruct (Nat.ltb_spec k (0 + c)); [reflexivity|]. apply at_not_in. intros G. apply in_map_iff in G as (e & <- & He).
  rewrite Forall_forall in F. specialize (F e He). lia.
Qed.
Lemma prods_by_col x c r : sorted_row r -> Forall (fun e => fst e < c) r ->
  prods x r = flat_map (fun q => map (fun v => smul v (nth q x s0)) (at_ q r)) (seq 0 c).
Proof.
  intros S F. rewrite (sorted_by_col c r S F) at 1. unfold prods. rewrite !flat_map_concat_map, concat_map, map_map.
  f_equal. apply map_ext. intros q. rewrite map_map. reflexivity.
Qed.
End Acc.
