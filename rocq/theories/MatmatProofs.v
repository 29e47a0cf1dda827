(** The sparse product kernels. *)
From Verif Require Import Rust Scalar Model_kernels Model_matrix Spec Wp Rep CanonProofs ConvProofs LinProofs LinkProofs BinopProofs.

Section Pattern.
Context {T : Type}.
Implicit Types R : list (list (nat * T)).

(** columns met while multiplying one row, in traversal order *)
Definition pcols (RB : list (list (nat * T))) (ra : list (nat * T)) : list nat :=
  flat_map (fun e => map fst (nth (fst e) RB [])) ra.
Definition rowcount (RB : list (list (nat * T))) (ra : list (nat * T)) : nat :=
  length (fold_left touch (pcols RB ra) []).
Definition total RB RA : nat := list_sum (map (rowcount RB) RA).
Lemma total_app RB R1 R2 : total RB (R1 ++ R2) = total RB R1 + total RB R2.
Proof. unfold total. rewrite map_app, list_sum_app. reflexivity. Qed.
Lemma total_snoc RB R r : total RB (R ++ [r]) = total RB R + rowcount RB r.
Proof. rewrite total_app. unfold total at 2. cbn. lia. Qed.

(** mask of maxnnz while working on row [i] *)
Definition masked (c i : nat) (mask : list Z) (L : list nat) : Prop :=
  length mask = c /\ NoDup L /\ (forall k, k < c -> (nth k mask 0 <= Z.of_nat i)%Z) /\
  forall k, k < c -> nth k mask 0%Z = Z.of_nat i <-> In k L.
Lemma masked_next c i mask L : masked c i mask L -> masked c (S i) mask [].
Proof.
  intros (H1 & H2 & H3 & H4). unfold masked. sp; [exact H1|constructor| |].
  - intros k Hk. specialize (H3 k Hk). lia.
  - intros k Hk. specialize (H3 k Hk). cbn. split; [lia|tauto].
Qed.

Lemma maxnnz_spec I c n m a_p a_j b_p b_j (a_x b_x : list T) RA RB :
  crep I m a_p a_j a_x RA -> crep I c b_p b_j b_x RB -> length RA = n -> length RB = m ->
  csr_matmat_maxnnz n c a_p a_j b_p b_j = Ok (total RB RA).
Proof.
  intros HA HB LA LB. unfold csr_matmat_maxnnz. apply wp_eq1. apply wp_bind.
  eapply (wp_for_list (fun pre '(mask, nnz) => masked c (length pre) mask [] /\ nnz = total RB pre) RA); [lia| | |].
  - split; [|reflexivity]. unfold masked. rewrite repeat_length. sp; [apply NoDup_nil| |]; intros k Hk; rewrite (nth_indep _ _ (-1)%Z), nth_repeat by (rewrite repeat_length; exact Hk); cbn; [lia|split; [lia|tauto]].
  - intros pre ra post [mask nnz] EA (HM & Hn). cbn [plus]. rewrite (crep_start HA EA), (crep_end HA EA). cbn [bind].
    apply wp_bind.
    eapply (wp_for_list (fun ip '(mask, rn) => let L := fold_left touch (pcols RB ip) [] in masked c (length pre) mask L /\ rn = length L) ra); [reflexivity| | |].
    + cbn. auto.
    + clear mask HM. intros ip e iq [mask rn] Er (HM & Hr).
      rewrite (crep_pj HA EA Er). cbn [bind]. destruct (crep_col HA EA Er) as [Hc _].
      destruct (nth_split_app RB (fst e) []) as (preb & postb & EB & Lb); [lia|]. set (rb := nth (fst e) RB []) in *.
      pose proof (crep_start HB EB) as S3. pose proof (crep_end HB EB) as S4. rewrite Lb in S3, S4. rewrite S3, S4. cbn [bind].
      eapply (wp_for_list (fun jp '(mask, rn) => let L := fold_left touch (pcols RB ip ++ map fst jp) [] in masked c (length pre) mask L /\ rn = length L) rb); [reflexivity| | |].
      * cbn [map]. rewrite app_nil_r. auto.
      * clear mask HM rn Hr. intros jp f jq [mask rn] Erb (HM & Hr).
        rewrite (crep_pj HB EB Erb). cbn [bind]. destruct (crep_col HB EB Erb) as [Hk _]. destruct (HM) as (M1 & M2 & M3 & M4).
        rewrite (vget_nth _ _ 0%Z) by lia. cbn [bind]. rewrite map_app, app_assoc, fold_left_app. cbn [map fold_left].
        set (L := fold_left touch (pcols RB ip ++ map fst jp) []) in *.
        destruct (Z.eqb_spec (nth (fst f) mask 0%Z) (Z.of_nat (length pre))) as [E|E]; cbn [negb].
        -- apply wp_ok. rewrite touch_in by (apply M4; assumption). auto.
        -- rewrite vset_ok by lia. cbn [bind]. apply wp_ok.
           assert (HnL : ~ In (fst f) L) by (intros Hi; apply E, M4; assumption).
           rewrite touch_new by exact HnL. cbn zeta. split; [|cbn; lia]. unfold masked. rewrite upd_length. sp; try assumption.
           ++ constructor; assumption.
           ++ intros k Hk2. rewrite nth_upd. destruct (_ && _); [lia|]. apply M3, Hk2.
           ++ intros k Hk2. destruct (Nat.eq_dec k (fst f)) as [Ek|Ek].
              ** subst k. rewrite nth_upd_eq by lia. cbn. split; auto.
              ** rewrite nth_upd_ne by exact Ek. cbn. rewrite M4 by exact Hk2. intuition congruence.
      * intros [mask' rn'] H. unfold pcols. rewrite flat_map_app. cbn [flat_map]. rewrite app_nil_r. exact H.
    + intros [mask' rn'] (HM' & Hr'). apply wp_ok. rewrite app_length, total_app. cbn [length]. rewrite Nat.add_1_r. split.
      * eapply masked_next, HM'.
      * unfold total at 2. cbn. unfold rowcount. rewrite Hn, Hr'. lia.
  - intros [mask nnz] (_ & ->). apply wp_ok. reflexivity.
Qed.

Lemma rowcount_le_total RB RA i : i < length RA -> rowcount RB (nth i RA []) <= total RB RA.
Proof.
  intros Hi. destruct (nth_split_app RA i [] Hi) as (pre & post & E & _). rewrite E at 2. rewrite total_app. unfold total. cbn. lia.
Qed.
End Pattern.

Section Mat.
Context {T : Type} {SC : Scalar T}.
Variable I : ity.
Variables (n m c : nat) (a_p a_j b_p b_j : list Z) (a_x b_x : list T) (RA RB : list (list (nat * T))).
Hypothesis HA : crep I m a_p a_j a_x RA.
Hypothesis HB : crep I c b_p b_j b_x RB.
Hypothesis LA : length RA = n.
Hypothesis LB : length RB = m.
Hypothesis Hfit : (Z.of_nat (total RB RA) <= imax I)%Z.

(** products met while multiplying one row *)
Definition prodrow (ra : list (nat * T)) : list (nat * T) :=
  flat_map (fun e => map (fun f => (fst f, smul (snd e) (snd f))) (nth (fst e) RB [])) ra.
Lemma prodrow_app r1 r2 : prodrow (r1 ++ r2) = prodrow r1 ++ prodrow r2.
Proof. apply flat_map_app. Qed.
Lemma prodrow_cols ra : map fst (prodrow ra) = pcols RB ra.
Proof.
  unfold prodrow, pcols. induction ra as [|e r IH]; [reflexivity|]. cbn. rewrite map_app, IH, map_map. reflexivity.
Qed.
Lemma at_prodrow k ra : at_ k (prodrow ra) = flat_map (fun e => map (fun v => smul (snd e) v) (at_ k (nth (fst e) RB []))) ra.
Proof.
  induction ra as [|e r IH]; [reflexivity|]. unfold prodrow. cbn [flat_map]. rewrite at_app. fold (prodrow r). rewrite IH. f_equal.
  induction (nth (fst e) RB []) as [|f l IH2]; [reflexivity|]. cbn [map]. rewrite !at_cons. cbn [fst snd].
  rewrite map_app, IH2. destruct (fst f =? k); reflexivity.
Qed.
Definition gval (ra : list (nat * T)) (k : nat) : T := sum0 (at_ k (prodrow ra)).
Definition matrow (ra row : list (nat * T)) : Prop :=
  exists M, NoDup M /\ (forall k, In k M <-> In k (pcols RB ra)) /\ row = emit (gval ra) M.

Lemma matrow_len ra row : matrow ra row -> length row <= rowcount RB ra.
Proof.
  clear HA HB LA LB Hfit. intros (M & HN & HM & ->). pose proof (emit_len (gval ra) M). unfold rowcount.
  pose proof (NoDup_incl_length (l := M) (l' := fold_left touch (pcols RB ra) []) HN) as G.
  enough (incl M (fold_left touch (pcols RB ra) [])) by (specialize (G H0); lia).
  intros k Hk. apply in_touches. right. apply HM, Hk.
Qed.
Lemma rows_total R : length R <= length RA -> (forall i, i < length R -> matrow (nth i RA []) (nth i R [])) ->
  length (concat R) <= total RB (firstn (length R) RA).
Proof.
  clear HA HB LA LB Hfit. revert RA. induction R as [|r R IH]; intros A L H; [cbn; lia|]. destruct A as [|a A]; [cbn in L; lia|].
  cbn [concat]. rewrite app_length. pose proof (matrow_len _ _ (H 0 ltac:(cbn; lia))) as G. cbn [nth] in G.
  change (total RB (firstn (length (r :: R)) (a :: A))) with (rowcount RB a + total RB (firstn (length R) A)).
  enough (length (concat R) <= total RB (firstn (length R) A)) by lia.
  apply IH; [cbn in L; lia|]. intros i Hi. apply (H (S i)). cbn. lia.
Qed.
Lemma pcols_bound ra k : In ra RA -> In k (pcols RB ra) -> k < c /\ (Z.of_nat k <= imax I)%Z.
Proof.
  intros Hr Hk. unfold pcols in Hk. apply in_flat_map in Hk as (e & He & Hk). apply in_map_iff in Hk as (f & <- & Hf).
  pose proof (cr_idx _ _ _ _ _ _ HB) as F. rewrite Forall_forall in F. apply F. apply in_concat. exists (nth (fst e) RB []). split; [|exact Hf].
  apply nth_In. destruct (Nat.lt_ge_cases (fst e) (length RB)) as [Hl|Hl]; [exact Hl|]. rewrite nth_overflow in Hf by exact Hl. destruct Hf.
Qed.

Record mout (p j : list Z) (x : list T) (R : list (list (nat * T))) : Prop := {
  mo_ptr : bptr p R;
  mo_dat : bdat j x (concat R);
  mo_idx : Forall (fun e => fst e < c /\ (Z.of_nat (fst e) <= imax I)%Z) (concat R);
  mo_row : forall i, i < length R -> matrow (nth i RA []) (nth i R []) }.

Lemma matmat_spec c_p c_j (c_x : list T) : length c_p = S n -> total RB RA <= length c_j -> total RB RA <= length c_x ->
  wp (csr_matmat I n c a_p a_j a_x b_p b_j b_x c_p c_j c_x) (fun '(p, j, x) =>
    length j = length c_j /\ length x = length c_x /\
    exists R, length R = n /\ crep I c p j x R /\ forall i, i < n -> matrow (nth i RA []) (nth i R [])).
Proof.
  intros LP LJ LX. unfold csr_matmat. rewrite vset_ok by lia. cbn [bind]. apply wp_bind.
  eapply (wp_for (fun i '(next, sums, nnz, p, j, x) => exists R, length R = i /\ mout p j x R /\
     length p = S n /\ length j = length c_j /\ length x = length c_x /\ nnz = Z.of_nat (length (concat R)) /\
     linked c next (-2)%Z [] /\ is_vec sums c (fun _ => s0))); [lia| | |].
  - exists []. sp; try assumption.
    + constructor; [|apply bdat_nil|constructor|cbn; lia]. apply bptr_nil. rewrite nth_error_upd, LP. reflexivity.
    + rewrite upd_length. exact LP.
    + apply linked_init.
    + apply is_vec_repeat.
  - intros i [[[[[next sums] nnz] p] j] x] [_ Hi] (R & LR & BO & Lp & Lj & Lx & Hnnz & HL & HV).
    destruct (nth_split_app RA i []) as (prea & posta & EA & La); [lia|].
    pose proof (rows_total R ltac:(lia) (mo_row _ _ _ _ BO)) as Room. rewrite LR in Room.
    assert (Room2 : total RB (firstn i RA) + rowcount RB (nth i RA []) <= total RB RA).
    { rewrite <- (firstn_skipn (S i) RA) at 3. rewrite (firstn_next _ _ []) by lia. rewrite total_app, total_snoc. lia. }
    assert (HraI : In (nth i RA []) RA) by (apply nth_In; lia).
    set (ra := nth i RA []) in *. set (Rsum := total RB (firstn i RA)) in *.
    pose proof (crep_start HA EA) as S1. pose proof (crep_end HA EA) as S2. rewrite La in S1, S2. rewrite S1, S2. cbn [bind].
    apply wp_bind.
    eapply (wp_for_list (fun ip '(next, sums, head, len) => let L := fold_left touch (pcols RB ip) [] in
       linked c next head L /\ len = Z.of_nat (length L) /\ is_vec sums c (fun k => sum0 (at_ k (prodrow ip)))) ra); [reflexivity| | |].
    { cbn. sp; assumption. }
    { clear next sums HL HV. intros ip e iq [[[next sums] head] len] Er (HL & Hlen & HV).
      rewrite (crep_pj HA EA Er), (crep_vx HA EA Er). cbn [bind]. destruct (crep_col HA EA Er) as [Hc _].
      destruct (nth_split_app RB (fst e) []) as (preb & postb & EB & Lb); [lia|]. set (rb := nth (fst e) RB []) in *.
      pose proof (crep_start HB EB) as S3. pose proof (crep_end HB EB) as S4. rewrite Lb in S3, S4. rewrite S3, S4. cbn [bind].
      eapply (wp_for_list (fun jp '(next, sums, head, len) => let L := fold_left touch (pcols RB ip ++ map fst jp) [] in
         linked c next head L /\ len = Z.of_nat (length L) /\
         is_vec sums c (fun k => sum0 (at_ k (prodrow ip ++ map (fun f => (fst f, smul (snd e) (snd f))) jp)))) rb); [reflexivity| | |].
      - cbn [map]. rewrite !app_nil_r. sp; assumption.
      - clear next sums head len HL Hlen HV. intros jp f jq [[[next sums] head] len] Erb (HL & Hlen & HV).
        rewrite (crep_pj HB EB Erb), (crep_vx HB EB Erb). cbn [bind]. destruct (crep_col HB EB Erb) as [Hk _].
        apply wp_bind. eapply wp_mono; [apply (vaddto_vec _ _ _ _ _ HV Hk)|]. intros sums' HV'. cbv beta in HV'.
        eapply (wp_link I c next head _ (fst f) len (fun nx h l => Ok (nx, sums', h, l))); [exact HL|exact Hk|exact Hlen| |].
        + assert (G : length (touch (fold_left touch (pcols RB ip ++ map fst jp) []) (fst f)) <= rowcount RB ra).
          { unfold rowcount. rewrite Er. unfold pcols at 2. rewrite flat_map_app. cbn [flat_map]. fold (pcols RB ip) (pcols RB iq). fold rb.
            rewrite Erb, map_app. cbn [map].
            replace (pcols RB ip ++ (map fst jp ++ fst f :: map fst jq) ++ pcols RB iq)
              with ((pcols RB ip ++ map fst jp) ++ [fst f] ++ (map fst jq ++ pcols RB iq)) by (rewrite <- !app_assoc; reflexivity).
            rewrite (fold_left_app _ (pcols RB ip ++ map fst jp)), (fold_left_app _ [fst f]). cbn [fold_left]. apply touches_mono. }
          lia.
        + intros nx h l Hn Hl. apply wp_ok. cbn zeta. rewrite !map_app, (app_assoc (pcols RB ip)), fold_left_app. cbn [map fold_left].
          sp; try assumption. eapply is_vec_ext; [exact HV'|]. intros k Hk2. cbv beta.
          rewrite app_assoc, at_snoc, Nat.eqb_sym. cbn [fst snd]. destruct (fst f =? k); [rewrite sum0_snoc|rewrite app_nil_r]; reflexivity.
      - intros [[[nx sm] h] l] H. unfold pcols. rewrite flat_map_app, prodrow_app. cbn [flat_map]. rewrite app_nil_r.
        unfold prodrow at 2. cbn [flat_map]. rewrite app_nil_r. exact H. }
    clear next sums HL HV. intros [[[next sums] head] len] (HL & Hlen & HV).
    set (M := fold_left touch (pcols RB ra) []) in *.
    assert (HM : forall k, In k M <-> In k (pcols RB ra)).
    { intros k. unfold M. rewrite in_touches. cbn. tauto. }
    assert (HMl : length M = rowcount RB ra) by reflexivity.
    assert (HN : NoDup M) by apply (lk_nodup _ _ _ _ HL).
    rewrite Hlen, to_usize_nat. cbn [bind]. apply wp_bind.
    eapply (wp_for_list (fun done '(next, sums, head, nnz, cj, cx) => exists todo, M = done ++ todo /\
       linked c next head todo /\
       is_vec sums c (fun k => if existsb (Nat.eqb k) done then s0 else gval ra k) /\
       bdat cj cx (concat R ++ emit (gval ra) done) /\ length cj = length c_j /\ length cx = length c_x /\
       nnz = Z.of_nat (length (concat R ++ emit (gval ra) done))) M); [reflexivity| | |].
    + exists M. cbn [existsb emit flat_map]. rewrite app_nil_r. sp; try assumption. apply (mo_dat _ _ _ _ BO).
    + clear next sums HL HV head len Hlen Hnnz nnz. intros done k rest [[[[[next sums] head] nnz] cj] cx] EM
        (todo & EM2 & HL & HV & BD & Lcj & Lcx & Hnnz).
      rewrite EM in EM2. apply app_inv_head in EM2. subst todo.
      destruct (linked_pop _ _ _ _ _ HL) as (Eh & Hk & Gn & Sn & HL').
      assert (HkM : In k M) by (rewrite EM; apply in_or_app; right; left; reflexivity).
      assert (Hkd : ~ In k done).
      { rewrite EM in HN. apply NoDup_remove_2 in HN. intros Hd. apply HN, in_or_app. auto. }
      assert (Hex : existsb (Nat.eqb k) done = false).
      { destruct (existsb (Nat.eqb k) done) eqn:E; [|reflexivity]. apply existsb_exists in E as (a & Ha & Ea). apply Nat.eqb_eq in Ea. subst a. contradiction. }
      destruct (pcols_bound ra k HraI (proj1 (HM k) HkM)) as [_ Hkf].
      rewrite Eh, to_usize_nat. cbn [bind]. rewrite (is_vec_get _ _ _ _ HV Hk). cbn [bind]. rewrite Hex.
      assert (Hcap : length (concat R ++ emit (gval ra) done) < total RB RA).
      { rewrite app_length. pose proof (emit_len (gval ra) done). pose proof (f_equal (@length _) EM) as LM. rewrite app_length in LM. cbn in LM. lia. }
      apply wp_bind. eapply wp_mono with (P := fun '(nnz, cj, cx) => bdat cj cx (concat R ++ emit (gval ra) (done ++ [k])) /\
         length cj = length c_j /\ length cx = length c_x /\ nnz = Z.of_nat (length (concat R ++ emit (gval ra) (done ++ [k])))).
      * rewrite emit_app. unfold emit at 2 4. cbn [flat_map]. rewrite app_nil_r. change (negb (seqb (gval ra k) s0)) with (nonzero (gval ra k)). destruct (nonzero (gval ra k)).
        -- rewrite Hnnz, to_usize_nat. cbn [bind]. rewrite icheck_ok by (pose proof (imin_le_0 I); lia). cbn [bind].
           rewrite !vset_ok by lia. cbn [bind]. rewrite iadd_ok by lia. cbn [bind]. apply wp_ok.
           rewrite !upd_length, app_assoc. sp; try assumption.
           ++ apply bdat_push; [exact BD|lia|lia].
           ++ rewrite (app_length (_ ++ _) [_]). cbn [length]. lia.
        -- rewrite app_nil_r. apply wp_ok. sp; assumption.
      * intros [[nnz' cj'] cx'] (BD' & Lcj' & Lcx' & Hnnz'). rewrite Gn, Sn. cbn [bind].
        destruct (is_vec_set _ _ _ _ s0 HV Hk) as (ar & Ea & HV'). rewrite Ea. cbn [bind]. apply wp_ok. exists rest. sp; try assumption.
        -- rewrite EM, <- app_assoc. reflexivity.
        -- eapply is_vec_ext; [exact HV'|]. intros q _. cbv beta. rewrite existsb_app. cbn [existsb]. rewrite orb_false_r.
           destruct (Nat.eqb_spec q k); [rewrite orb_true_r; reflexivity|rewrite orb_false_r; reflexivity].
    + clear next sums HL HV head len Hlen Hnnz nnz. intros [[[[[next sums] head] nnz] cj] cx]
        (todo & EM2 & HL & HV & BD & Lcj & Lcx & Hnnz).
      assert (todo = []) by (rewrite <- (app_nil_r M) in EM2 at 1; apply app_inv_head in EM2; auto). subst todo.
      rewrite vset_ok by lia. cbn [bind]. apply wp_ok. exists (R ++ [emit (gval ra) M]).
      assert (EC : concat (R ++ [emit (gval ra) M]) = concat R ++ emit (gval ra) M) by (rewrite concat_app; cbn; rewrite app_nil_r; reflexivity).
      rewrite EC, app_length, upd_length. cbn [length]. sp; try assumption.
      * lia.
      * constructor.
        -- replace (i + 1) with (S (length R)) by lia. apply bptr_push; [apply (mo_ptr _ _ _ _ BO)|lia|]. rewrite Hnnz, app_length. reflexivity.
        -- rewrite EC. exact BD.
        -- rewrite EC. apply Forall_app. split; [apply (mo_idx _ _ _ _ BO)|]. apply Forall_forall. intros e He.
           apply emit_in in He as (He & _). apply (pcols_bound ra _ HraI), HM, He.
        -- intros q Hq. rewrite app_length in Hq. cbn in Hq. destruct (Nat.lt_ge_cases q (length R)) as [Hq2|Hq2].
           ++ rewrite app_nth1 by exact Hq2. apply (mo_row _ _ _ _ BO), Hq2.
           ++ replace q with i by lia. rewrite nth_middle_len by lia. exists M. sp; assumption.
      * apply (linked_restart _ _ _ HL).
      * eapply is_vec_ext; [exact HV|]. intros q _. cbv beta. destruct (existsb (Nat.eqb q) M) eqn:E; [reflexivity|].
        unfold gval. rewrite at_not_in; [reflexivity|]. rewrite prodrow_cols. intros Hq. apply HM in Hq.
        enough (existsb (Nat.eqb q) M = true) by congruence. apply existsb_exists. exists q. rewrite Nat.eqb_refl. auto.
  - intros [[[[[next sums] nnz] p] j] x] (R & LR & BO & Lp & Lj & Lx & Hnnz & _).
    apply wp_ok. sp; try assumption. exists R. sp; try assumption.
    + constructor.
      * lia.
      * apply (mo_ptr _ _ _ _ BO).
      * apply (mo_dat _ _ _ _ BO).
      * apply (mo_idx _ _ _ _ BO).
      * pose proof (rows_total R ltac:(lia) (mo_row _ _ _ _ BO)) as G. rewrite LR, <- LA, firstn_all in G. lia.
    + intros i Hi. apply (mo_row _ _ _ _ BO). lia.
Qed.
End Mat.
