(** The element-wise binary kernels. *)
From Verif Require Import Rust Scalar Model_kernels Model_matrix Spec Wp Rep CanonProofs ConvProofs LinProofs LinkProofs.

Section Binop.
Context {T : Type} {SC : Scalar T}.
Variable I : ity.

Lemma binop_scan_spec c p j (x : list T) R pre r post next acc head len L f :
  crep I c p j x R -> R = pre ++ r :: post ->
  linked c next head L -> len = Z.of_nat (length L) -> is_vec acc c f ->
  (Z.of_nat (length L + length r) <= imax I)%Z ->
  wp (binop_scan I (length (concat pre)) (length (concat pre) + length r) j x (next, acc, head, len))
    (fun '(next, acc, head, len) => let L' := fold_left touch (map fst r) L in
      linked c next head L' /\ len = Z.of_nat (length L') /\ is_vec acc c (fun k => fold_left sadd (at_ k r) (f k))).
Proof.
  intros H ER HL Hlen Hv Hfit. unfold binop_scan.
  eapply (wp_for_list (fun ip '(next, acc, head, len) => let L' := fold_left touch (map fst ip) L in
      linked c next head L' /\ len = Z.of_nat (length L') /\ is_vec acc c (fun k => fold_left sadd (at_ k ip) (f k))) r); [reflexivity| | |auto].
  - cbn. sp; assumption.
  - clear next acc head len HL Hlen Hv. intros ip e iq [[[next acc] head] len] Er (HL & Hlen & Hv).
    rewrite (crep_pj H ER Er). cbn [bind]. rewrite (crep_vx H ER Er). cbn [bind].
    destruct (crep_col H ER Er) as [Hc Hcf]. apply wp_bind. eapply wp_mono; [apply (vaddto_vec _ _ _ _ _ Hv Hc)|]. intros acc' Hv'.
    eapply (wp_link I c next head _ (fst e) len (fun n h l => Ok (n, acc', h, l))); [exact HL|exact Hc|exact Hlen| |].
    + pose proof (touches_len (map fst (ip ++ [e])) L) as G. rewrite map_app, fold_left_app in G. cbn in G.
      rewrite app_length in G. cbn in G. rewrite map_length in G. subst r. rewrite app_length in Hfit. cbn in Hfit. lia.
    + intros n h l Hn Hl. apply wp_ok. cbn zeta. rewrite map_app, fold_left_app. cbn [map fold_left]. sp; try assumption.
      eapply is_vec_ext; [exact Hv'|]. intros k Hk. cbv beta. rewrite at_snoc, fold_left_app, Nat.eqb_sym.
      destruct (fst e =? k); reflexivity.
Qed.

Context {T2 : Type} {NZ : Nonzero T2}.
Variable op : T -> T -> res T2.

(** one result row: the union of the columns, with values [g], zeros dropped *)
Definition binrow (g : nat -> T2) (ra rb : list (nat * T)) (row : list (nat * T2)) : Prop :=
  exists M, NoDup M /\ (forall k, In k M <-> In k (map fst ra) \/ In k (map fst rb)) /\ row = emit g M.
Definition mrow (g : nat -> T2) (ra rb : list (nat * T)) (row : list (nat * T2)) : Prop :=
  exists M, StronglySorted lt M /\ (forall k, In k M <-> In k (map fst ra) \/ In k (map fst rb)) /\ row = emit g M.
Lemma sslt_nodup M : StronglySorted lt M -> NoDup M.
Proof.
  induction 1 as [|a M H IH F]; constructor; [|exact IH]. intros Hi. rewrite Forall_forall in F. specialize (F _ Hi). lia.
Qed.
Lemma mrow_binrow g ra rb row : mrow g ra rb row -> binrow g ra rb row.
Proof. intros (M & H1 & H2 & H3). exists M. sp; try assumption. apply sslt_nodup, H1. Qed.
Lemma binrow_len g ra rb row : binrow g ra rb row -> length row <= length ra + length rb.
Proof.
  intros (M & HN & HM & ->). pose proof (emit_len g M). pose proof (NoDup_incl_length (l := M) (l' := map fst ra ++ map fst rb) HN) as G.
  rewrite app_length, !map_length in G. enough (incl M (map fst ra ++ map fst rb)) by (specialize (G H0); lia).
  intros k Hk. apply in_or_app. apply HM, Hk.
Qed.
Lemma binrow_at g ra rb row k : binrow g ra rb row -> (at_ k ra <> [] \/ at_ k rb <> []) ->
  at_ k row = if nonzero (g k) then [g k] else [].
Proof.
  intros (M & HN & HM & ->) Ho. rewrite (emit_at _ _ _ HN). destruct (in_dec Nat.eq_dec k M) as [Hi|Hi]; [reflexivity|].
  exfalso. apply Hi, HM. rewrite !at_nil_iff in Ho.
  destruct (in_dec Nat.eq_dec k (map fst ra)); [auto|]. destruct (in_dec Nat.eq_dec k (map fst rb)); [auto|]. tauto.
Qed.
Lemma binrow_at_none g ra rb row k : binrow g ra rb row -> at_ k ra = [] -> at_ k rb = [] -> at_ k row = [].
Proof.
  intros (M & HN & HM & ->) Ha Hb. rewrite (emit_at _ _ _ HN). destruct (in_dec Nat.eq_dec k M) as [Hi|Hi]; [|reflexivity].
  exfalso. apply HM in Hi. rewrite at_nil_iff in *. tauto.
Qed.

(** bookkeeping of the rows produced so far *)
Record bout (Rel : nat -> list (nat * T) -> list (nat * T) -> list (nat * T2) -> Prop) (c : nat) (RA RB : list (list (nat * T)))
  (p j : list Z) (x : list T2) (R : list (list (nat * T2))) : Prop := {
  bo_ptr : bptr p R;
  bo_dat : bdat j x (concat R);
  bo_idx : Forall (fun e => fst e < c /\ (Z.of_nat (fst e) <= imax I)%Z) (concat R);
  bo_row : forall i, i < length R -> Rel i (nth i RA []) (nth i RB []) (nth i R []) }.

Lemma concat_firstn_le {A} (R : list (list A)) n : length (concat (firstn n R)) <= length (concat R).
Proof. rewrite <- (firstn_skipn n R) at 2. rewrite concat_app, app_length. lia. Qed.

Lemma rows_len_sum g RA RB R : length R <= length RA -> length R <= length RB ->
  (forall i, i < length R -> binrow (g i) (nth i RA []) (nth i RB []) (nth i R [])) ->
  length (concat R) <= length (concat (firstn (length R) RA)) + length (concat (firstn (length R) RB)).
Proof.
  revert g RA RB. induction R as [|r R IH]; intros g RA RB LA LB H; [cbn; lia|].
  destruct RA as [|ra RA]; [cbn in LA; lia|]. destruct RB as [|rb RB]; [cbn in LB; lia|].
  cbn. rewrite !app_length. pose proof (binrow_len _ _ _ _ (H 0 ltac:(cbn; lia))) as G. cbn in G.
  specialize (IH (fun i => g (S i)) RA RB ltac:(cbn in *; lia) ltac:(cbn in *; lia)).
  enough (length (concat R) <= length (concat (firstn (length R) RA)) + length (concat (firstn (length R) RB))) by lia.
  apply IH. intros i Hi. apply (H (S i)). cbn. lia.
Qed.

Lemma firstn_next {A} (l : list A) n d : n < length l -> firstn (S n) l = firstn n l ++ [nth n l d].
Proof.
  revert n. induction l as [|a l IH]; intros n H; cbn in H; [lia|]. destruct n; [reflexivity|]. cbn. f_equal. apply IH. lia.
Qed.

Section Merge.
Variables (cj0 cx0 : nat) (D : list (nat * T2)) (ra rb : list (nat * T)) (gk : nat -> T2).
Hypothesis SA : canonical_row ra.
Hypothesis SB : canonical_row rb.
Hypothesis Hop : forall k, In k (map fst ra) \/ In k (map fst rb) -> op (hd s0 (at_ k ra)) (hd s0 (at_ k rb)) = Ok (gk k).
Hypothesis Cj : length D + (length ra + length rb) <= cj0.
Hypothesis Cx : length D + (length ra + length rb) <= cx0.

Record minv (qa qb : list (nat * T)) (ia ib : list (nat * T)) (M : list nat) (out : list Z * list T2 * nat) : Prop := {
  mi_a : ra = ia ++ qa;
  mi_b : rb = ib ++ qb;
  mi_sort : StronglySorted lt M;
  mi_in : forall k, In k M <-> In k (map fst ia) \/ In k (map fst ib);
  mi_lt : forall m k, In m M -> In k (map fst qa) \/ In k (map fst qb) -> m < k;
  mi_dat : bdat (fst (fst out)) (snd (fst out)) (D ++ emit gk M);
  mi_n : snd out = length (D ++ emit gk M);
  mi_j : length (fst (fst out)) = cj0;
  mi_x : length (snd (fst out)) = cx0 }.

Lemma ss_snoc M k : StronglySorted lt M -> (forall m, In m M -> m < k) -> StronglySorted lt (M ++ [k]).
Proof.
  induction 1 as [|a M H IH F]; intros Hk; cbn; [repeat constructor|]. constructor.
  - apply IH. intros m Hm. apply Hk. right. exact Hm.
  - apply Forall_app. split; [exact F|]. repeat constructor. apply Hk. left. reflexivity.
Qed.
Lemma canonical_split ip (e : nat * T) iq : canonical_row (ip ++ e :: iq) ->
  (forall k, In k (map fst ip) -> k < fst e) /\ (forall k, In k (map fst iq) -> fst e < k) /\ at_ (fst e) (ip ++ e :: iq) = [snd e].
Proof.
  intros H. assert (H2 := H). unfold canonical_row in H. rewrite map_app in H. cbn in H. sp.
  - intros k Hk. clear - H Hk. induction (map fst ip) as [|a l IH]; [destruct Hk|]. cbn in H. apply StronglySorted_inv in H as [H F].
    destruct Hk as [->|Hk]; [|apply IH; assumption]. rewrite Forall_forall in F. apply F, in_or_app. right. left. reflexivity.
  - intros k Hk. clear - H Hk. induction (map fst ip) as [|a l IH].
    + cbn in H. apply StronglySorted_inv in H as [H F]. rewrite Forall_forall in F. apply F, Hk.
    + cbn in H. apply StronglySorted_inv in H as [H F]. apply IH, H.
  - apply at_nodup; [apply sslt_nodup; exact H2|]. apply in_or_app. right. left. destruct e; reflexivity.
Qed.

Lemma minv_len qa qb ia ib M out : minv qa qb ia ib M out -> length (D ++ emit gk M) + (length qa + length qb) <= length D + (length ra + length rb).
Proof.
  intros [Ea Eb Hs Hi _ _ _ _ _]. rewrite app_length. pose proof (emit_len gk M).
  pose proof (NoDup_incl_length (l := M) (l' := map fst ia ++ map fst ib) (sslt_nodup _ Hs)) as G. rewrite app_length, !map_length in G.
  rewrite Ea, Eb, !app_length. enough (incl M (map fst ia ++ map fst ib)) by (specialize (G H0); lia).
  intros k Hk. apply in_or_app, Hi, Hk.
Qed.

Lemma binop_emit_step M k out : bdat (fst (fst out)) (snd (fst out)) (D ++ emit gk M) -> snd out = length (D ++ emit gk M) ->
  length (fst (fst out)) = cj0 -> length (snd (fst out)) = cx0 -> length (D ++ emit gk M) < length D + (length ra + length rb) ->
  wp (binop_emit (Z.of_nat k) (gk k) out) (fun out => bdat (fst (fst out)) (snd (fst out)) (D ++ emit gk (M ++ [k])) /\
    snd out = length (D ++ emit gk (M ++ [k])) /\ length (fst (fst out)) = cj0 /\ length (snd (fst out)) = cx0).
Proof.
  destruct out as [[cj cx] nnz]. cbn [fst snd]. intros HD Hn Lj Lx Hr. unfold binop_emit.
  rewrite emit_app. unfold emit at 2 4. cbn [flat_map]. rewrite app_nil_r. destruct (nonzero (gk k)).
  - rewrite !vset_ok by lia. cbn [bind]. apply wp_ok. cbn [fst snd]. rewrite !upd_length, app_assoc. sp; try assumption.
    + rewrite Hn. apply bdat_push; [exact HD|lia|lia].
    + rewrite (app_length (_ ++ _) [_]). cbn [length]. lia.
  - rewrite app_nil_r. apply wp_ok. cbn [fst snd]. sp; assumption.
Qed.

Lemma minv_both ea qa eb qb ia ib M out : minv (ea :: qa) (eb :: qb) ia ib M out -> fst ea = fst eb ->
  op (snd ea) (snd eb) = Ok (gk (fst ea)) /\
  wp (binop_emit (Z.of_nat (fst ea)) (gk (fst ea)) out) (fun out => minv qa qb (ia ++ [ea]) (ib ++ [eb]) (M ++ [fst ea]) out).
Proof.
  intros H E. pose proof (minv_len _ _ _ _ _ _ H) as Hl. destruct H as [Ea Eb Hs Hi Hlt HD Hn Lj Lx].
  assert (SA' := SA). rewrite Ea in SA'. assert (SB' := SB). rewrite Eb in SB'.
  destruct (canonical_split _ _ _ SA') as (A1 & A2 & A3). destruct (canonical_split _ _ _ SB') as (B1 & B2 & B3).
  rewrite <- Ea in A3. rewrite <- Eb in B3. rewrite <- E in B1, B2, B3. split.
  - rewrite <- Hop; [rewrite A3, B3; reflexivity|]. left. rewrite Ea, map_app. apply in_or_app. right. left. reflexivity.
  - cbn [length] in Hl. eapply wp_mono; [apply (binop_emit_step M (fst ea) out HD Hn Lj Lx); lia|].
    intros o (D1 & D2 & D3 & D4). constructor; try assumption.
    + rewrite <- app_assoc. exact Ea.
    + rewrite <- app_assoc. exact Eb.
    + apply ss_snoc; [exact Hs|]. intros m Hm. apply Hlt; [exact Hm|]. left. left. reflexivity.
    + intros k. rewrite !map_app, !in_app_iff, Hi. cbn. rewrite <- E. tauto.
    + intros m k Hm Hk. apply in_app_iff in Hm as [Hm|[<-|[]]].
      * apply Hlt; [exact Hm|]. destruct Hk; [left|right]; right; assumption.
      * destruct Hk; auto.
Qed.
Lemma minv_left ea qa qb ia ib M out : minv (ea :: qa) qb ia ib M out -> (forall k, In k (map fst qb) -> fst ea < k) ->
  op (snd ea) s0 = Ok (gk (fst ea)) /\
  wp (binop_emit (Z.of_nat (fst ea)) (gk (fst ea)) out) (fun out => minv qa qb (ia ++ [ea]) ib (M ++ [fst ea]) out).
Proof.
  intros H Hlt2. pose proof (minv_len _ _ _ _ _ _ H) as Hl. destruct H as [Ea Eb Hs Hi Hlt HD Hn Lj Lx].
  assert (SA' := SA). rewrite Ea in SA'. destruct (canonical_split _ _ _ SA') as (A1 & A2 & A3). rewrite <- Ea in A3.
  assert (B3 : at_ (fst ea) rb = []).
  { apply at_not_in. rewrite Eb, map_app, in_app_iff. intros [Hk|Hk].
    - enough (fst ea < fst ea) by lia. apply Hlt; [apply Hi; auto|left; left; reflexivity].
    - specialize (Hlt2 _ Hk). lia. }
  split.
  - rewrite <- Hop; [rewrite A3, B3; reflexivity|]. left. rewrite Ea, map_app. apply in_or_app. right. left. reflexivity.
  - cbn [length] in Hl. eapply wp_mono; [apply (binop_emit_step M (fst ea) out HD Hn Lj Lx); lia|].
    intros o (D1 & D2 & D3 & D4). constructor; try assumption.
    + rewrite <- app_assoc. exact Ea.
    + apply ss_snoc; [exact Hs|]. intros m Hm. apply Hlt; [exact Hm|]. left. left. reflexivity.
    + intros k. rewrite !map_app, !in_app_iff, Hi. cbn. tauto.
    + intros m k Hm Hk. apply in_app_iff in Hm as [Hm|[<-|[]]].
      * apply Hlt; [exact Hm|]. destruct Hk; [left; right|right]; assumption.
      * destruct Hk; auto.
Qed.
Lemma minv_right qa eb qb ia ib M out : minv qa (eb :: qb) ia ib M out -> (forall k, In k (map fst qa) -> fst eb < k) ->
  op s0 (snd eb) = Ok (gk (fst eb)) /\
  wp (binop_emit (Z.of_nat (fst eb)) (gk (fst eb)) out) (fun out => minv qa qb ia (ib ++ [eb]) (M ++ [fst eb]) out).
Proof.
  intros H Hlt2. pose proof (minv_len _ _ _ _ _ _ H) as Hl. destruct H as [Ea Eb Hs Hi Hlt HD Hn Lj Lx].
  assert (SB' := SB). rewrite Eb in SB'. destruct (canonical_split _ _ _ SB') as (B1 & B2 & B3). rewrite <- Eb in B3.
  assert (A3 : at_ (fst eb) ra = []).
  { apply at_not_in. rewrite Ea, map_app, in_app_iff. intros [Hk|Hk].
    - enough (fst eb < fst eb) by lia. apply Hlt; [apply Hi; auto|right; left; reflexivity].
    - specialize (Hlt2 _ Hk). lia. }
  split.
  - rewrite <- Hop; [rewrite A3, B3; reflexivity|]. right. rewrite Eb, map_app. apply in_or_app. right. left. reflexivity.
  - cbn [length] in Hl. eapply wp_mono; [apply (binop_emit_step M (fst eb) out HD Hn Lj Lx); lia|].
    intros o (D1 & D2 & D3 & D4). constructor; try assumption.
    + rewrite <- app_assoc. exact Eb.
    + apply ss_snoc; [exact Hs|]. intros m Hm. apply Hlt; [exact Hm|]. right. left. reflexivity.
    + intros k. rewrite !map_app, !in_app_iff, Hi. cbn. tauto.
    + intros m k Hm Hk. apply in_app_iff in Hm as [Hm|[<-|[]]].
      * apply Hlt; [exact Hm|]. destruct Hk; [left|right; right]; assumption.
      * destruct Hk; auto.
Qed.
End Merge.

Section Gen.
Variables (c n : nat) (a_p a_j b_p b_j : list Z) (a_x b_x : list T) (RA RB : list (list (nat * T))).
Variable g : nat -> nat -> T2.
Hypothesis HA : crep I c a_p a_j a_x RA.
Hypothesis HB : crep I c b_p b_j b_x RB.
Hypothesis LA : length RA = n.
Hypothesis LB : length RB = n.

Lemma room R i : length R = i -> i < n ->
  (forall i, i < length R -> binrow (g i) (nth i RA []) (nth i RB []) (nth i R [])) ->
  length (concat R) + (length (nth i RA []) + length (nth i RB [])) <= length (concat RA) + length (concat RB).
Proof.
  intros LR Hi HR. pose proof (rows_len_sum g RA RB R ltac:(lia) ltac:(lia) HR) as G. rewrite LR in G.
  pose proof (concat_firstn_le RA (S i)) as GA. pose proof (concat_firstn_le RB (S i)) as GB.
  rewrite (firstn_next _ _ []) in GA by lia. rewrite (firstn_next _ _ []) in GB by lia. rewrite concat_app, app_length in GA, GB. cbn in GA, GB. rewrite app_nil_r in GA, GB. lia.
Qed.

Lemma touched_bound i k : i < n -> In k (map fst (nth i RA [])) \/ In k (map fst (nth i RB [])) ->
  k < c /\ (Z.of_nat k <= imax I)%Z.
Proof.
  intros Hi [Hk|Hk]; apply in_map_iff in Hk as (e & <- & He).
  - pose proof (cr_idx _ _ _ _ _ _ HA) as F. rewrite Forall_forall in F. apply F. apply in_concat. exists (nth i RA []). split; [apply nth_In; lia|exact He].
  - pose proof (cr_idx _ _ _ _ _ _ HB) as F. rewrite Forall_forall in F. apply F. apply in_concat. exists (nth i RB []). split; [apply nth_In; lia|exact He].
Qed.

Hypothesis Hfit : (Z.of_nat (length (concat RA) + length (concat RB)) <= imax I)%Z.

Section General.
Hypothesis Hop : forall i k, i < n -> In k (map fst (nth i RA [])) \/ In k (map fst (nth i RB [])) ->
  op (sum0 (at_ k (nth i RA []))) (sum0 (at_ k (nth i RB []))) = Ok (g i k).

Definition gen_out (cj0 : nat) (cx0 : nat) '(p, j, x) : Prop :=
  length j = cj0 /\ length x = cx0 /\
  exists R, length R = n /\ crep I c p j x R /\ forall i, i < n -> binrow (g i) (nth i RA []) (nth i RB []) (nth i R []).

Lemma binop_general_spec c_p c_j (c_x : list T2) : length c_p = S n ->
  length (concat RA) + length (concat RB) <= length c_j -> length (concat RA) + length (concat RB) <= length c_x ->
  wp (csr_binop_csr_general I op n c a_p a_j a_x b_p b_j b_x c_p c_j c_x) (gen_out (length c_j) (length c_x)).
Proof.
  intros LP LJ LX. unfold csr_binop_csr_general.
  rewrite vset_ok by lia. cbn [bind]. apply wp_bind.
  set (Rel := fun i => binrow (g i)).
  eapply (wp_for (fun i '(next, a_row, b_row, nnz, p, j, x) => exists R, length R = i /\ bout Rel c RA RB p j x R /\
     length p = S n /\ length j = length c_j /\ length x = length c_x /\ nnz = Z.of_nat (length (concat R)) /\
     linked c next (-2)%Z [] /\ is_vec a_row c (fun _ => s0) /\ is_vec b_row c (fun _ => s0))); [lia| | |].
  - exists []. sp; try assumption.
    + constructor; [|apply bdat_nil|constructor|cbn; lia]. apply bptr_nil. rewrite nth_error_upd, LP. reflexivity.
    + rewrite upd_length. exact LP.
    + apply linked_init.
    + apply is_vec_repeat.
    + apply is_vec_repeat.
  - intros i [[[[[[next a_row] b_row] nnz] p] j] x] [_ Hi] (R & LR & BO & Lp & Lj & Lx & Hnnz & HL & HVA & HVB).
    destruct (nth_split_app RA i []) as (prea & posta & EA & La); [lia|].
    destruct (nth_split_app RB i []) as (preb & postb & EB & Lb); [lia|].
    set (ra := nth i RA []) in *. set (rb := nth i RB []) in *.
    pose proof (room R i LR Hi (bo_row _ _ _ _ _ _ _ _ BO)) as Room. fold ra rb in Room.
    pose proof (crep_start HA EA) as S1. pose proof (crep_end HA EA) as S2. pose proof (crep_start HB EB) as S3. pose proof (crep_end HB EB) as S4.
    rewrite La in S1, S2. rewrite Lb in S3, S4.
    rewrite S1, S2. cbn [bind].
    apply wp_bind. eapply wp_mono; [apply (binop_scan_spec _ _ _ _ _ _ _ _ _ _ _ _ _ _ HA EA HL eq_refl HVA)|].
    { cbn. pose proof (crep_row_le HA EA). lia. }
    clear next a_row HL HVA. intros [[[next a_row] head] len] (HL & Hlen & HVA).
    rewrite S3, S4. cbn [bind].
    apply wp_bind. eapply wp_mono; [apply (binop_scan_spec _ _ _ _ _ _ _ _ _ _ _ _ _ _ HB EB HL Hlen HVB)|].
    { pose proof (touches_len (map fst ra) []) as G. rewrite map_length in G. cbn in G. pose proof (crep_row_le HA EA). pose proof (crep_row_le HB EB). lia. }
    clear next b_row HL HVB head len Hlen. intros [[[next b_row] head] len] (HL & Hlen & HVB).
    rewrite <- fold_left_app, <- map_app in *. set (M := fold_left touch (map fst (ra ++ rb)) []) in *.
    assert (HM : forall k, In k M <-> In k (map fst ra) \/ In k (map fst rb)).
    { intros k. unfold M. rewrite in_touches, map_app, in_app_iff. cbn. tauto. }
    assert (HMl : length M <= length ra + length rb).
    { pose proof (touches_len (map fst (ra ++ rb)) []) as G. rewrite map_length, app_length in G. exact G. }
    assert (HN : NoDup M) by apply (lk_nodup _ _ _ _ HL).
    rewrite Hlen, to_usize_nat. cbn [bind]. apply wp_bind.
    eapply (wp_for_list (fun done '(next, a_row, b_row, head, nnz, cj, cx) => exists todo, M = done ++ todo /\
       linked c next head todo /\
       is_vec a_row c (fun k => if existsb (Nat.eqb k) done then s0 else sum0 (at_ k ra)) /\
       is_vec b_row c (fun k => if existsb (Nat.eqb k) done then s0 else sum0 (at_ k rb)) /\
       bdat cj cx (concat R ++ emit (g i) done) /\ length cj = length c_j /\ length cx = length c_x /\
       nnz = Z.of_nat (length (concat R ++ emit (g i) done))) M); [reflexivity| | |].
    + exists M. cbn [existsb emit flat_map]. rewrite app_nil_r. sp; try assumption.
      apply (bo_dat _ _ _ _ _ _ _ _ BO).
    + clear next a_row b_row HL HVA HVB head len Hlen Hnnz nnz. intros done k rest [[[[[[next a_row] b_row] head] nnz] cj] cx] EM
        (todo & EM2 & HL & HVA & HVB & BD & Lcj & Lcx & Hnnz).
      rewrite EM in EM2. apply app_inv_head in EM2. subst todo.
      destruct (linked_pop _ _ _ _ _ HL) as (Eh & Hk & Gn & Sn & HL').
      assert (HkM : In k M) by (rewrite EM; apply in_or_app; right; left; reflexivity).
      assert (Hkd : ~ In k done).
      { rewrite EM in HN. apply NoDup_remove_2 in HN. intros Hd. apply HN, in_or_app. auto. }
      assert (Hex : existsb (Nat.eqb k) done = false).
      { destruct (existsb (Nat.eqb k) done) eqn:E; [|reflexivity]. apply existsb_exists in E as (a & Ha & Ea). apply Nat.eqb_eq in Ea. subst a. contradiction. }
      destruct (touched_bound i k Hi (proj1 (HM k) HkM)) as [_ Hkf].
      rewrite Eh, to_usize_nat. cbn [bind]. rewrite (is_vec_get _ _ _ _ HVA Hk), (is_vec_get _ _ _ _ HVB Hk). cbn [bind].
      rewrite Hex. pose proof (Hop i k Hi (proj1 (HM k) HkM)) as Eop. fold ra rb in Eop. rewrite Eop. cbn [bind].
      assert (Hcap : length (concat R ++ emit (g i) done) < length (concat RA) + length (concat RB)).
      { rewrite app_length. pose proof (emit_len (g i) done). pose proof (f_equal (@length _) EM) as LM. rewrite app_length in LM. cbn in LM. lia. }
      apply wp_bind. eapply wp_mono with (P := fun '(nnz, cj, cx) => bdat cj cx (concat R ++ emit (g i) (done ++ [k])) /\
         length cj = length c_j /\ length cx = length c_x /\ nnz = Z.of_nat (length (concat R ++ emit (g i) (done ++ [k])))).
      * rewrite emit_app. unfold emit at 2 4. cbn [flat_map]. rewrite app_nil_r. destruct (nonzero (g i k)).
        -- rewrite Hnnz, to_usize_nat. cbn [bind]. rewrite icheck_ok by (pose proof (imin_le_0 I); lia). cbn [bind].
           rewrite !vset_ok by lia. cbn [bind]. rewrite iadd_ok by lia. cbn [bind]. apply wp_ok.
           rewrite !upd_length, app_assoc. sp; try assumption.
           ++ apply bdat_push; [exact BD|lia|lia].
           ++ rewrite (app_length (_ ++ _) [_]). cbn [length]. lia.
        -- rewrite app_nil_r. apply wp_ok. sp; assumption.
      * intros [[nnz' cj'] cx'] (BD' & Lcj' & Lcx' & Hnnz'). rewrite Gn, Sn. cbn [bind].
        destruct (is_vec_set _ _ _ _ s0 HVA Hk) as (ar & Ea & HVA'). destruct (is_vec_set _ _ _ _ s0 HVB Hk) as (br & Eb & HVB').
        rewrite Ea, Eb. cbn [bind]. apply wp_ok. exists rest. sp; try assumption.
        -- rewrite EM, <- app_assoc. reflexivity.
        -- eapply is_vec_ext; [exact HVA'|]. intros q _. cbv beta. rewrite existsb_app. cbn [existsb]. rewrite orb_false_r.
           destruct (Nat.eqb_spec q k); [rewrite orb_true_r; reflexivity|rewrite orb_false_r; reflexivity].
        -- eapply is_vec_ext; [exact HVB'|]. intros q _. cbv beta. rewrite existsb_app. cbn [existsb]. rewrite orb_false_r.
           destruct (Nat.eqb_spec q k); [rewrite orb_true_r; reflexivity|rewrite orb_false_r; reflexivity].
    + clear next a_row b_row HL HVA HVB head len Hlen Hnnz nnz. intros [[[[[[next a_row] b_row] head] nnz] cj] cx]
        (todo & EM2 & HL & HVA & HVB & BD & Lcj & Lcx & Hnnz).
      assert (todo = []) by (rewrite <- (app_nil_r M) in EM2 at 1; apply app_inv_head in EM2; auto). subst todo.
      assert (Hzero : forall r q, (forall k, In k (map fst r) -> In k M) -> (if existsb (Nat.eqb q) M then s0 else sum0 (at_ q r)) = s0).
      { intros r q Hr. destruct (existsb (Nat.eqb q) M) eqn:E; [reflexivity|]. rewrite at_not_in; [reflexivity|].
        intros Hq. apply Hr in Hq. enough (existsb (Nat.eqb q) M = true) by congruence. apply existsb_exists. exists q. rewrite Nat.eqb_refl. auto. }
      rewrite vset_ok by lia. cbn [bind]. apply wp_ok. exists (R ++ [emit (g i) M]).
      assert (EC : concat (R ++ [emit (g i) M]) = concat R ++ emit (g i) M) by (rewrite concat_app; cbn; rewrite app_nil_r; reflexivity).
      rewrite EC, app_length, upd_length. cbn [length]. sp; try assumption.
      * lia.
      * constructor.
        -- replace (i + 1) with (S (length R)) by lia. apply bptr_push; [apply (bo_ptr _ _ _ _ _ _ _ _ BO)|lia|]. rewrite Hnnz, app_length. reflexivity.
        -- rewrite EC. exact BD.
        -- rewrite EC. apply Forall_app. split; [apply (bo_idx _ _ _ _ _ _ _ _ BO)|]. apply Forall_forall. intros e He.
           apply emit_in in He as (He & _). apply (touched_bound i _ Hi), HM, He.
        -- intros q Hq. rewrite app_length in Hq. cbn in Hq. destruct (Nat.lt_ge_cases q (length R)) as [Hq2|Hq2].
           ++ rewrite app_nth1 by exact Hq2. apply (bo_row _ _ _ _ _ _ _ _ BO), Hq2.
           ++ replace q with i by lia. rewrite nth_middle_len by lia. exists M. sp; assumption.
      * apply (linked_restart _ _ _ HL).
      * eapply is_vec_ext; [exact HVA|]. intros q _. apply Hzero. intros k Hk. apply HM. auto.
      * eapply is_vec_ext; [exact HVB|]. intros q _. apply Hzero. intros k Hk. apply HM. auto.
  - intros [[[[[[next a_row] b_row] nnz] p] j] x] (R & LR & BO & Lp & Lj & Lx & Hnnz & _).
    apply wp_ok. unfold gen_out. sp; try assumption. exists R. sp; try assumption.
    + constructor.
      * lia.
      * apply (bo_ptr _ _ _ _ _ _ _ _ BO).
      * apply (bo_dat _ _ _ _ _ _ _ _ BO).
      * apply (bo_idx _ _ _ _ _ _ _ _ BO).
      * pose proof (rows_len_sum g RA RB R ltac:(lia) ltac:(lia) (bo_row _ _ _ _ _ _ _ _ BO)) as G.
        rewrite LR, <- LA in G at 1. rewrite firstn_all in G. rewrite LR, <- LB, firstn_all in G. lia.
    + intros i Hi. apply (bo_row _ _ _ _ _ _ _ _ BO). lia.
Qed.
End General.

Section Canonical.
Hypothesis CA : forall i, i < n -> canonical_row (nth i RA []).
Hypothesis CB : forall i, i < n -> canonical_row (nth i RB []).
Hypothesis Hop : forall i k, i < n -> In k (map fst (nth i RA [])) \/ In k (map fst (nth i RB [])) ->
  op (hd s0 (at_ k (nth i RA []))) (hd s0 (at_ k (nth i RB []))) = Ok (g i k).

Definition can_out (cj0 : nat) (cx0 : nat) '(p, j, x) : Prop :=
  length j = cj0 /\ length x = cx0 /\
  exists R, length R = n /\ crep I c p j x R /\ forall i, i < n -> mrow (g i) (nth i RA []) (nth i RB []) (nth i R []).

Lemma binop_canonical_spec c_p c_j (c_x : list T2) : length c_p = S n ->
  length (concat RA) + length (concat RB) <= length c_j -> length (concat RA) + length (concat RB) <= length c_x ->
  wp (csr_binop_csr_canonical I op n c a_p a_j a_x b_p b_j b_x c_p c_j c_x) (can_out (length c_j) (length c_x)).
Proof.
  intros LP LJ LX. unfold csr_binop_csr_canonical.
  rewrite vset_ok by lia. cbn [bind]. apply wp_bind.
  set (Rel := fun i => mrow (g i)).
  eapply (wp_for (fun i '(p, j, x, nnz) => exists R, length R = i /\ bout Rel c RA RB p j x R /\
     length p = S n /\ length j = length c_j /\ length x = length c_x /\ nnz = length (concat R))); [lia| | |].
  - exists []. sp; try assumption.
    + constructor; [|apply bdat_nil|constructor|cbn; lia]. apply bptr_nil. rewrite nth_error_upd, LP. reflexivity.
    + rewrite upd_length. exact LP.
  - intros i [[[p j] x] nnz] [_ Hi] (R & LR & BO & Lp & Lj & Lx & Hnnz).
    destruct (nth_split_app RA i []) as (prea & posta & EA & La); [lia|].
    destruct (nth_split_app RB i []) as (preb & postb & EB & Lb); [lia|].
    assert (BR : forall i, i < length R -> binrow (g i) (nth i RA []) (nth i RB []) (nth i R [])).
    { intros q Hq. apply mrow_binrow, (bo_row _ _ _ _ _ _ _ _ BO), Hq. }
    pose proof (room R i LR Hi BR) as Room. specialize (CA i Hi). specialize (CB i Hi). pose proof (fun k => Hop i k Hi) as Hopi.
    pose proof (fun k => touched_bound i k Hi) as TB.
    set (ra := nth i RA []) in *. set (rb := nth i RB []) in *.
    pose proof (crep_start HA EA) as S1. pose proof (crep_end HA EA) as S2. pose proof (crep_start HB EB) as S3. pose proof (crep_end HB EB) as S4.
    rewrite La in S1, S2. rewrite Lb in S3, S4. rewrite S1, S3, S2, S4. cbn [bind].
    set (la := length (concat prea)) in *. set (lb := length (concat preb)) in *.
    set (mi := minv (length c_j) (length c_x) (concat R) ra rb (g i)).
    assert (Cj : length (concat R) + (length ra + length rb) <= length c_j) by lia.
    assert (Cx : length (concat R) + (length ra + length rb) <= length c_x) by lia.
    match goal with |- wp (bind _ ?k) _ => set (rest := k) end.
    assert (tails : forall qa qb ia ib M out ap bp, mi qa qb ia ib M out -> ap = la + length ia -> bp = lb + length ib ->
       la + length ra <= ap \/ lb + length rb <= bp -> wp (rest (ap, bp, out)) (fun '(p, j, x, nnz) => exists R, length R = S i /\ bout Rel c RA RB p j x R /\
         length p = S n /\ length j = length c_j /\ length x = length c_x /\ nnz = length (concat R))).
    { intros qa qb ia ib M out ap bp HM Hap Hbp Hex. unfold rest. apply wp_bind.
      eapply (wp_while (fun '(ap, out) => exists qa ia M, mi qa qb ia ib M out /\ ap = la + length ia /\ (qa = [] \/ qb = []))
         (fun '(ap, _) => la + length ra - ap)).
      { lia. }
      { exists qa, ia, M. sp; try assumption.
        pose proof (mi_a _ _ _ _ _ _ _ _ _ _ _ _ HM) as Ea. pose proof (mi_b _ _ _ _ _ _ _ _ _ _ _ _ HM) as Eb.
        apply (f_equal (@length _)) in Ea, Eb. rewrite app_length in Ea, Eb.
        destruct Hex; [left|right]; apply length_zero_iff_nil; lia. }
      clear qa ia M out ap HM Hap Hex. intros [ap out] (qa & ia & M & HM & Hap & Hex). apply wp_ok.
      pose proof (mi_a _ _ _ _ _ _ _ _ _ _ _ _ HM) as Ea.
      assert (La' : length ra = length ia + length qa) by (rewrite Ea, app_length; reflexivity).
      destruct (Nat.ltb_spec ap (la + length ra)) as [Ha|Ha].
      - destruct qa as [|ea qa]; [cbn in *; lia|]. destruct Hex as [Hex|Hex]; [discriminate|]. subst qb. cbn [length] in *.
        rewrite Hap. unfold la. rewrite (crep_vx HA EA Ea), (crep_vj HA EA Ea). cbn [bind]. fold la.
        destruct (minv_left _ _ _ _ _ _ CA Hopi Cj Cx _ _ _ _ _ _ _ HM) as [E1 E2]; [intros k []|].
        rewrite E1. cbn [bind]. apply wp_bind. eapply wp_mono; [exact E2|]. intros o Ho. apply wp_ok. split; [|lia].
        exists qa, (ia ++ [ea]), (M ++ [fst ea]). rewrite !app_length. cbn [length]. sp; [exact Ho|lia|auto].
      - assert (qa = []) by (apply length_zero_iff_nil; lia). subst qa. clear La' Ha Hap ap Hex. apply wp_bind.
        eapply (wp_while (fun '(bp, out) => exists qb ib M, mi [] qb ia ib M out /\ bp = lb + length ib)
         (fun '(bp, _) => lb + length rb - bp)).
        { lia. }
        { exists qb, ib, M. sp; assumption. }
        clear qb ib M out bp HM Hbp. intros [bp out] (qb & ib & M & HM & Hbp). apply wp_ok.
        pose proof (mi_b _ _ _ _ _ _ _ _ _ _ _ _ HM) as Eb.
        assert (Lb' : length rb = length ib + length qb) by (rewrite Eb, app_length; reflexivity).
        destruct (Nat.ltb_spec bp (lb + length rb)) as [Hb|Hb].
        + destruct qb as [|eb qb]; [cbn in *; lia|]. cbn [length] in *.
          rewrite Hbp. unfold lb. rewrite (crep_vx HB EB Eb), (crep_vj HB EB Eb). cbn [bind]. fold lb.
          destruct (minv_right _ _ _ _ _ _ CB Hopi Cj Cx _ _ _ _ _ _ _ HM) as [E1 E2]; [intros k []|].
          rewrite E1. cbn [bind]. apply wp_bind. eapply wp_mono; [exact E2|]. intros o Ho. apply wp_ok. split; [|lia].
          exists qb, (ib ++ [eb]), (M ++ [fst eb]). rewrite !app_length. cbn [length]. sp; [exact Ho|lia].
        + assert (qb = []) by (apply length_zero_iff_nil; lia). subst qb.
          rewrite app_nil_r in Eb. subst ib. rewrite app_nil_r in Ea. subst ia.
          pose proof (minv_len _ _ _ _ _ _ Cj Cx _ _ _ _ _ _ HM) as ML.
          destruct HM as [_ _ Hs HM _ HD Hn Hj Hx]. destruct out as [[cj cx] nnz']. cbn [fst snd] in *.
          rewrite ifrom_ok by lia. cbn [bind]. rewrite vset_ok by lia. cbn [bind]. apply wp_ok.
          exists (R ++ [emit (g i) M]).
          assert (EC : concat (R ++ [emit (g i) M]) = concat R ++ emit (g i) M) by (rewrite concat_app; cbn; rewrite app_nil_r; reflexivity).
          rewrite EC, app_length, upd_length. cbn [length]. sp; try assumption.
          * lia.
          * constructor.
            -- replace (i + 1) with (S (length R)) by lia. apply bptr_push; [apply (bo_ptr _ _ _ _ _ _ _ _ BO)|lia|]. rewrite Hn, app_length. reflexivity.
            -- rewrite EC. exact HD.
            -- rewrite EC. apply Forall_app. split; [apply (bo_idx _ _ _ _ _ _ _ _ BO)|]. apply Forall_forall. intros e He.
               apply emit_in in He as (He & _). apply TB, HM, He.
            -- intros q Hq. rewrite app_length in Hq. cbn in Hq. destruct (Nat.lt_ge_cases q (length R)) as [Hq2|Hq2].
               ++ rewrite app_nth1 by exact Hq2. apply (bo_row _ _ _ _ _ _ _ _ BO), Hq2.
               ++ replace q with i by lia. rewrite nth_middle_len by lia. exists M. sp; assumption. }
    apply wp_bind.
    eapply (wp_while (fun '(ap, bp, out) => exists qa qb ia ib M, mi qa qb ia ib M out /\ ap = la + length ia /\ bp = lb + length ib)
       (fun '(ap, bp, out) => (la + length ra - ap) + (lb + length rb - bp))).
    { lia. }
    { exists ra, rb, [], [], []. cbn [length]. sp; try lia. constructor; try reflexivity; cbn [fst snd]; try assumption.
      - constructor.
      - intros k. cbn. tauto.
      - intros m k [].
      - cbn. rewrite app_nil_r. apply (bo_dat _ _ _ _ _ _ _ _ BO).
      - cbn. rewrite app_nil_r. exact Hnnz. }
    + intros [[ap bp] out] (qa & qb & ia & ib & M & HM & Hap & Hbp). apply wp_ok.
      pose proof (mi_a _ _ _ _ _ _ _ _ _ _ _ _ HM) as Ea. pose proof (mi_b _ _ _ _ _ _ _ _ _ _ _ _ HM) as Eb.
      assert (La' : length ra = length ia + length qa) by (rewrite Ea, app_length; reflexivity).
      assert (Lb' : length rb = length ib + length qb) by (rewrite Eb, app_length; reflexivity).
      destruct (Nat.ltb_spec ap (la + length ra)) as [Ha|Ha], (Nat.ltb_spec bp (lb + length rb)) as [Hb|Hb]; cbn [andb].
      * destruct qa as [|ea qa]; [cbn in *; lia|]. destruct qb as [|eb qb]; [cbn in *; lia|]. cbn [length] in *.
        rewrite Hap, Hbp. unfold la, lb. rewrite (crep_vj HA EA Ea), (crep_vj HB EB Eb). cbn [bind]. fold la lb.
        assert (CA' := CA). rewrite Ea in CA'. destruct (canonical_split _ _ _ CA') as (_ & A2 & _).
        assert (CB' := CB). rewrite Eb in CB'. destruct (canonical_split _ _ _ CB') as (_ & B2 & _).
        destruct (Z.eqb_spec (Z.of_nat (fst ea)) (Z.of_nat (fst eb))) as [E|E].
        { unfold la, lb. rewrite (crep_vx HA EA Ea), (crep_vx HB EB Eb). cbn [bind]. fold la lb.
          destruct (minv_both _ _ _ _ _ _ CA CB Hopi Cj Cx _ _ _ _ _ _ _ _ HM) as [E1 E2]; [lia|]. rewrite E1. cbn [bind].
          apply wp_bind. eapply wp_mono; [exact E2|]. intros o Ho. apply wp_ok. split; [|lia].
          exists qa, qb, (ia ++ [ea]), (ib ++ [eb]), (M ++ [fst ea]). rewrite !app_length. cbn [length]. sp; [exact Ho|lia|lia]. }
        destruct (Z.ltb_spec (Z.of_nat (fst ea)) (Z.of_nat (fst eb))) as [E'|E'].
        { unfold la. rewrite (crep_vx HA EA Ea). cbn [bind]. fold la.
          destruct (minv_left _ _ _ _ _ _ CA Hopi Cj Cx _ _ _ _ _ _ _ HM) as [E1 E2].
          { intros k [<-|Hk]; [lia|]. specialize (B2 _ Hk). lia. }
          rewrite E1. cbn [bind]. apply wp_bind. eapply wp_mono; [exact E2|]. intros o Ho. apply wp_ok. split; [|lia].
          exists qa, (eb :: qb), (ia ++ [ea]), ib, (M ++ [fst ea]). rewrite !app_length. cbn [length]. sp; [exact Ho|lia]. }
        { unfold lb. rewrite (crep_vx HB EB Eb). cbn [bind]. fold lb.
          destruct (minv_right _ _ _ _ _ _ CB Hopi Cj Cx _ _ _ _ _ _ _ HM) as [E1 E2].
          { intros k [<-|Hk]; [lia|]. specialize (A2 _ Hk). lia. }
          rewrite E1. cbn [bind]. apply wp_bind. eapply wp_mono; [exact E2|]. intros o Ho. apply wp_ok. split; [|lia].
          exists (ea :: qa), qb, ia, (ib ++ [eb]), (M ++ [fst eb]). rewrite !app_length. cbn [length]. sp; [exact Ho|lia]. }
      * exact (tails _ _ _ _ _ _ _ _ HM Hap Hbp (or_intror Hb)).
      * exact (tails _ _ _ _ _ _ _ _ HM Hap Hbp (or_introl Ha)).
      * exact (tails _ _ _ _ _ _ _ _ HM Hap Hbp (or_introl Ha)).
  - intros [[[p j] x] nnz] (R & LR & BO & Lp & Lj & Lx & Hnnz).
    assert (BR : forall i, i < length R -> binrow (g i) (nth i RA []) (nth i RB []) (nth i R [])).
    { intros q Hq. apply mrow_binrow, (bo_row _ _ _ _ _ _ _ _ BO), Hq. }
    apply wp_ok. unfold can_out. sp; try assumption. exists R. sp; try assumption.
    + constructor.
      * lia.
      * apply (bo_ptr _ _ _ _ _ _ _ _ BO).
      * apply (bo_dat _ _ _ _ _ _ _ _ BO).
      * apply (bo_idx _ _ _ _ _ _ _ _ BO).
      * pose proof (rows_len_sum g RA RB R ltac:(lia) ltac:(lia) BR) as G.
        rewrite LR, <- LA in G at 1. rewrite firstn_all in G. rewrite LR, <- LB, firstn_all in G. lia.
    + intros i Hi. apply (bo_row _ _ _ _ _ _ _ _ BO). lia.
Qed.
End Canonical.

Definition both_canonical : Prop := Forall canonical_row RA /\ Forall canonical_row RB.

Lemma binop_spec c_p c_j (c_x : list T2) : length c_p = S n ->
  length (concat RA) + length (concat RB) <= length c_j -> length (concat RA) + length (concat RB) <= length c_x ->
  (Z.of_nat (length (concat RA)) < imax I)%Z -> (Z.of_nat (length (concat RB)) < imax I)%Z ->
  (~ both_canonical -> forall i k, i < n -> In k (map fst (nth i RA [])) \/ In k (map fst (nth i RB [])) ->
     op (sum0 (at_ k (nth i RA []))) (sum0 (at_ k (nth i RB []))) = Ok (g i k)) ->
  (both_canonical -> forall i k, i < n -> In k (map fst (nth i RA [])) \/ In k (map fst (nth i RB [])) ->
     op (hd s0 (at_ k (nth i RA []))) (hd s0 (at_ k (nth i RB []))) = Ok (g i k)) ->
  wp (csr_binop_csr I op n c a_p a_j a_x b_p b_j b_x c_p c_j c_x) (fun '(p, j, x) =>
    length j = length c_j /\ length x = length c_x /\
    exists R, length R = n /\ crep I c p j x R /\
      (forall i, i < n -> binrow (g i) (nth i RA []) (nth i RB []) (nth i R [])) /\
      (both_canonical -> Forall canonical_row R)).
Proof.
  intros LP LJ LX FA FB HS HH. unfold csr_binop_csr.
  destruct (has_canonical_spec _ _ _ _ _ _ _ HA LA FA) as (ba & Ea & Ha). rewrite Ea. cbn [bind].
  assert (HG : ~ both_canonical -> wp (csr_binop_csr_general I op n c a_p a_j a_x b_p b_j b_x c_p c_j c_x) (fun '(p, j, x) =>
    length j = length c_j /\ length x = length c_x /\
    exists R, length R = n /\ crep I c p j x R /\
      (forall i, i < n -> binrow (g i) (nth i RA []) (nth i RB []) (nth i R [])) /\
      (both_canonical -> Forall canonical_row R))).
  { intros HN. eapply wp_mono; [apply (binop_general_spec (HS HN)); assumption|].
    intros [[p j] x] (Lj & Lx & R & LR & HR & Hrow). sp; try assumption. exists R. sp; try assumption. tauto. }
  destruct ba; cbn [bind].
  - destruct (has_canonical_spec _ _ _ _ _ _ _ HB LB FB) as (bb & Eb & Hb). rewrite Eb. cbn [bind]. destruct bb.
    + assert (BC : both_canonical) by (split; tauto). assert (BC' := BC). destruct BC' as [CA CB]. rewrite (nth_Forall _ _ []) in CA. rewrite (nth_Forall _ _ []) in CB.
      eapply wp_mono; [apply (binop_canonical_spec); [intros i Hi; apply CA; lia|intros i Hi; apply CB; lia|exact (HH BC)|assumption..]|].
      intros [[p j] x] (Lj & Lx & R & LR & HR & Hrow). sp; try assumption. exists R. sp; try assumption.
      * intros i Hi. apply mrow_binrow, Hrow, Hi.
      * intros _. apply (nth_Forall _ _ []). intros i Hi. destruct (Hrow i ltac:(lia)) as (M & HM & _ & ->). apply emit_sorted, HM.
    + apply HG. intros [_ BC]. apply Hb in BC. discriminate.
  - apply HG. intros [BC _]. apply Ha in BC. discriminate.
Qed.
End Gen.
End Binop.
