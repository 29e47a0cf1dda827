(** When the sparse product overflows. *)
From Verif Require Import Rust Debug Scalar Model_kernels Model_matrix Model_checked Spec SpecBoundary SpecChecked Wp Rep CanonProofs ConvProofs LinProofs
  LinkProofs BinopProofs MatmatProofs BinopExact MatmatExact ArithProofs Main_product CheckedProofs CheckedExact CheckedDup.

Section Mat.
Context {T : Type} {SC : Scalar T} {CK : Checked T} {LW : CheckedLaw True T}.
Variable I : ity.
Variables (n m c : nat) (a_p a_j b_p b_j : list Z) (a_x b_x : list T) (RA RB : list (list (nat * T))).
Hypothesis HA : crep I m a_p a_j a_x RA.
Hypothesis HB : crep I c b_p b_j b_x RB.
Hypothesis LA : length RA = n.
Hypothesis LB : length RB = m.
Section Pw.
Variable P : Prop.
Hypothesis HPr : forall i, i < n -> (imax I < Z.of_nat (rowcount RB (nth i RA [])))%Z -> P.
Hypothesis HPt : forall i R M, i < n -> length R = i -> (forall q, q < i -> matrow RB (nth q RA []) (nth q R [])) ->
  NoDup M -> (forall k, In k M -> In k (pcols RB (nth i RA []))) ->
  (imax I < Z.of_nat (length (concat R ++ emit (gval RB (nth i RA [])) M)))%Z -> P.
Hypothesis HPm : forall i e f, i < n -> In e (nth i RA []) -> In f (nth (fst e) RB []) -> cmul (snd e) (snd f) = Panic -> P.
Hypothesis HPs : forall i k, i < n -> sum_overflows (at_ k (prodrow RB (nth i RA []))) -> P.
(** nothing overflows in the row of the product that comes from [r] *)
Definition mcalm (r : list (nat * T)) : Prop :=
  (forall e f, In e r -> In f (nth (fst e) RB []) -> cmul (snd e) (snd f) <> Panic) /\ forall k, ~ sum_overflows (at_ k (prodrow RB r)).

Lemma matmat_ck_pw c_p c_j (c_x : list T) : length c_p = S n -> total RB RA <= length c_j -> total RB RA <= length c_x ->
  pw P (csr_matmat_ck I n c a_p a_j a_x b_p b_j b_x c_p c_j c_x) (fun _ => forall q, q < n -> mcalm (nth q RA [])).
Proof.
  intros LP LJ LX. unfold csr_matmat_ck. rewrite vset_ok by lia. cbn [bind]. apply pw_bind.
  eapply (pw_for P (fun i '(next, sums, nnz, p, j, x) => exists R, length R = i /\ mout I c RA RB p j x R /\
     length p = S n /\ length j = length c_j /\ length x = length c_x /\ nnz = Z.of_nat (length (concat R)) /\
     linked c next (-2)%Z [] /\ is_vec sums c (fun _ => s0) /\ (nnz <= imax I)%Z /\
     (forall q, q < i -> (Z.of_nat (rowcount RB (nth q RA [])) <= imax I)%Z) /\ forall q, q < i -> mcalm (nth q RA []))); [lia| | |].
  - exists []. sp; try assumption.
    + constructor; [|apply bdat_nil|constructor|cbn; lia]. apply bptr_nil. rewrite nth_error_upd, LP. reflexivity.
    + rewrite upd_length. exact LP.
    + apply linked_init.
    + apply is_vec_repeat.
    + pose proof (imax_ge_127 I). lia.
    + lia.
    + lia.
  - intros i [[[[[next sums] nnz] p] j] x] [_ Hi] (R & LR & BO & Lp & Lj & Lx & Hnnz & HL & HV & Hnf & Hrc & Hcalm).
    pose proof (HPr i) as HPri. pose proof (HPt i R) as HPti. pose proof (HPm i) as HPmi. pose proof (HPs i) as HPsi.
    destruct (nth_split_app RA i []) as (prea & posta & EA & La); [lia|].
    pose proof (rows_total RA RB R ltac:(lia) (mo_row _ _ _ _ _ _ _ _ BO)) as Room. rewrite LR in Room.
    assert (Room2 : total RB (firstn i RA) + rowcount RB (nth i RA []) <= total RB RA).
    { rewrite <- (firstn_skipn (S i) RA) at 3. rewrite (firstn_next _ _ []) by lia. rewrite total_app, total_snoc. lia. }
    assert (HraI : In (nth i RA []) RA) by (apply nth_In; lia).
    set (ra := nth i RA []) in *. set (Rsum := total RB (firstn i RA)) in *.
    pose proof (crep_start HA EA) as S1. pose proof (crep_end HA EA) as S2. rewrite La in S1, S2. rewrite S1, S2. cbn [bind].
    apply pw_bind.
    eapply (pw_for_list P (fun ip '(next, sums, head, len) => let L := fold_left touch (pcols RB ip) [] in
       linked c next head L /\ len = Z.of_nat (length L) /\ is_vec sums c (fun k => sum0 (at_ k (prodrow RB ip))) /\ (len <= imax I)%Z /\ mcalm ip) ra); [reflexivity| | |].
    { cbn. sp; try assumption. pose proof (imax_ge_127 I). lia. split; [intros e f []|]. intros k. apply so_nil. }
    { clear next sums HL HV. intros ip e iq [[[next sums] head] len] Er (HL & Hlen & HV & Hlf & HC).
      rewrite (crep_pj HA EA Er), (crep_vx HA EA Er). cbn [bind]. destruct (crep_col HA EA Er) as [Hc _].
      destruct (nth_split_app RB (fst e) []) as (preb & postb & EB & Lb); [lia|]. set (rb := nth (fst e) RB []) in *.
      pose proof (crep_start HB EB) as S3. pose proof (crep_end HB EB) as S4. rewrite Lb in S3, S4. rewrite S3, S4. cbn [bind].
      eapply (pw_for_list P (fun jp '(next, sums, head, len) => let L := fold_left touch (pcols RB ip ++ map fst jp) [] in
         linked c next head L /\ len = Z.of_nat (length L) /\
         is_vec sums c (fun k => sum0 (at_ k (prodrow RB ip ++ map (fun f => (fst f, smul (snd e) (snd f))) jp))) /\ (len <= imax I)%Z /\
         (forall f, In f jp -> cmul (snd e) (snd f) <> Panic) /\ forall k, ~ sum_overflows (at_ k (prodrow RB ip ++ map (fun f => (fst f, smul (snd e) (snd f))) jp))) rb); [reflexivity| | |].
      - cbn [map]. rewrite !app_nil_r. sp; try assumption; [intros f []|]. exact (proj2 HC).
      - clear next sums head len HL Hlen HV Hlf. intros jp f jq [[[next sums] head] len] Erb (HL & Hlen & HV & Hlf & HC1 & HC2).
        rewrite (crep_pj HB EB Erb), (crep_vx HB EB Erb). cbn [bind]. destruct (crep_col HB EB Erb) as [Hk _].
        apply cmul_pw. { apply (HPmi e f Hi); [fold ra; rewrite Er; apply in_or_app; right; left; reflexivity|]. fold rb. rewrite Erb. apply in_or_app. right. left. reflexivity. }
        intros Hm. apply pw_bind. eapply pw_mono; [apply (vaddto_pw P _ _ _ _ _ HV Hk)|].
        { intros G. apply (HPsi (fst f) Hi). fold ra. rewrite Er, prodrow_app. unfold prodrow at 2. cbn [flat_map]. fold rb. rewrite Erb, map_app. cbn [map].
          rewrite <- app_assoc, app_assoc, at_app. cbn [app]. rewrite at_cons. cbn [fst snd]. rewrite Nat.eqb_refl. cbn [app]. apply so_here, G. }
        intros sums' [HV' Hn']. cbv beta in HV'.
        eapply (pw_link P I c next head _ (fst f) len (fun nx h l => Ok (nx, sums', h, l))); [exact HL|exact Hk|exact Hlen| |rewrite <- Hlen; exact Hlf|].
        + assert (G : length (touch (fold_left touch (pcols RB ip ++ map fst jp) []) (fst f)) <= rowcount RB ra).
          { unfold rowcount. rewrite Er. unfold pcols at 2. rewrite flat_map_app. cbn [flat_map]. fold (pcols RB ip) (pcols RB iq). fold rb.
            rewrite Erb, map_app. cbn [map].
            replace (pcols RB ip ++ (map fst jp ++ fst f :: map fst jq) ++ pcols RB iq)
              with ((pcols RB ip ++ map fst jp) ++ [fst f] ++ (map fst jq ++ pcols RB iq)) by (rewrite <- !app_assoc; reflexivity).
            rewrite (fold_left_app _ (pcols RB ip ++ map fst jp)), (fold_left_app _ [fst f]). cbn [fold_left]. apply touches_mono. }
          intros G2. apply HPri; [exact Hi|lia].
        + intros nx h l Hn Hl Hlf2. apply pw_ok. cbn zeta. rewrite !map_app, (app_assoc (pcols RB ip)), fold_left_app. cbn [map fold_left].
          sp; try assumption; [|lia| |].
          2:{ intros q Hq. apply in_app_or in Hq as [Hq|[<-|[]]]; [apply HC1, Hq|exact Hm]. }
          2:{ intros k. rewrite app_assoc, at_snoc. cbn [fst snd]. destruct (Nat.eqb_spec (fst f) k) as [Ek|]; [|rewrite app_nil_r; apply HC2].
              subst k. apply so_snoc; [apply HC2|exact Hn']. }
          eapply is_vec_ext; [exact HV'|]. intros k Hk2. cbv beta.
          rewrite app_assoc, at_snoc, Nat.eqb_sym. cbn [fst snd]. destruct (fst f =? k); [rewrite sum0_snoc|rewrite app_nil_r]; reflexivity.
      - intros [[[nx sm] h] l] H. unfold pcols. rewrite flat_map_app, prodrow_app. cbn [flat_map]. rewrite app_nil_r.
        unfold prodrow at 2. cbn [flat_map]. rewrite app_nil_r. destruct H as (H1 & H2 & H3 & H4 & H5 & H6). sp; try assumption. split.
        + intros e' f' He Hf. apply in_app_or in He as [He|[<-|[]]]; [apply (proj1 HC e' f' He Hf)|apply H5, Hf].
        + intros k. rewrite prodrow_app. unfold prodrow at 2. cbn [flat_map]. rewrite app_nil_r. apply H6. }
    clear next sums HL HV. intros [[[next sums] head] len] (HL & Hlen & HV & Hlf & HC).
    set (M := fold_left touch (pcols RB ra) []) in *.
    assert (HM : forall k, In k M <-> In k (pcols RB ra)).
    { intros k. unfold M. rewrite in_touches. cbn. tauto. }
    assert (HMl : length M = rowcount RB ra) by reflexivity.
    assert (HN : NoDup M) by apply (lk_nodup _ _ _ _ HL).
    rewrite Hlen, to_usize_nat. cbn [bind]. apply pw_bind.
    eapply (pw_for_list P (fun done '(next, sums, head, nnz, cj, cx) => exists todo, M = done ++ todo /\
       linked c next head todo /\
       is_vec sums c (fun k => if existsb (Nat.eqb k) done then s0 else gval RB ra k) /\
       bdat cj cx (concat R ++ emit (gval RB ra) done) /\ length cj = length c_j /\ length cx = length c_x /\
       nnz = Z.of_nat (length (concat R ++ emit (gval RB ra) done)) /\ (nnz <= imax I)%Z) M); [reflexivity| | |].
    + exists M. cbn [existsb emit flat_map]. rewrite app_nil_r. sp; try assumption. apply (mo_dat _ _ _ _ _ _ _ _ BO).
    + assert (HlM : (Z.of_nat (length M) <= imax I)%Z) by (rewrite <- Hlen; exact Hlf).
      clear next sums HL HV head len Hlen Hlf Hnnz Hnf nnz. intros done k rest [[[[[next sums] head] nnz] cj] cx] EM
        (todo & EM2 & HL & HV & BD & Lcj & Lcx & Hnnz & Hnf).
      rewrite EM in EM2. apply app_inv_head in EM2. subst todo.
      destruct (linked_pop _ _ _ _ _ HL) as (Eh & Hk & Gn & Sn & HL').
      assert (HkM : In k M) by (rewrite EM; apply in_or_app; right; left; reflexivity).
      assert (Hkd : ~ In k done).
      { rewrite EM in HN. apply NoDup_remove_2 in HN. intros Hd. apply HN, in_or_app. auto. }
      assert (Hex : existsb (Nat.eqb k) done = false).
      { destruct (existsb (Nat.eqb k) done) eqn:E; [|reflexivity]. apply existsb_exists in E as (a & Ha & Ea). apply Nat.eqb_eq in Ea. subst a. contradiction. }
      destruct (pcols_bound I c _ _ _ RA RB HB ra k HraI (proj1 (HM k) HkM)) as [_ Hkf].
      rewrite Eh, to_usize_nat. cbn [bind]. rewrite (is_vec_get _ _ _ _ HV Hk). cbn [bind]. rewrite Hex.
      assert (Hcap : length (concat R ++ emit (gval RB ra) done) < total RB RA).
      { rewrite app_length. pose proof (emit_len (gval RB ra) done). pose proof (f_equal (@length _) EM) as LM. rewrite app_length in LM. cbn in LM. lia. }
      apply pw_bind. eapply pw_mono with (Q := fun '(nnz, cj, cx) => bdat cj cx (concat R ++ emit (gval RB ra) (done ++ [k])) /\
         length cj = length c_j /\ length cx = length c_x /\ nnz = Z.of_nat (length (concat R ++ emit (gval RB ra) (done ++ [k]))) /\ (nnz <= imax I)%Z).
      * rewrite emit_app. unfold emit at 2 4. cbn [flat_map]. rewrite app_nil_r. change (negb (seqb (gval RB ra k) s0)) with (nonzero (gval RB ra k)). destruct (nonzero (gval RB ra k)) eqn:EN.
        -- rewrite Hnnz, to_usize_nat. cbn [bind]. rewrite icheck_ok by (pose proof (imin_le_0 I); lia). cbn [bind].
           rewrite !vset_ok by lia. cbn [bind]. apply pw_bind. apply iadd_pw; [lia| |].
           { intros G. apply (HPti (done ++ [k])); try assumption.
             - intros q Hq. apply (mo_row _ _ _ _ _ _ _ _ BO). lia.
             - rewrite EM in HN. change (k :: rest) with ([k] ++ rest) in HN. rewrite app_assoc in HN. apply nodup_app_l in HN. exact HN.
             - intros q Hq. apply HM. rewrite EM. apply in_app_or in Hq as [Hq|[->|[]]]; apply in_or_app; [left; exact Hq|right; left; reflexivity].
             - rewrite emit_app. unfold emit at 2. cbn [flat_map]. rewrite EN, app_nil_r, app_assoc, (app_length (_ ++ _) [_]). cbn [length]. lia. }
           intros Hnf'. apply pw_ok.
           rewrite !upd_length, app_assoc. sp; try assumption.
           ++ apply bdat_push; [exact BD|lia|lia].
           ++ rewrite (app_length (_ ++ _) [_]). cbn [length]. lia.
        -- rewrite app_nil_r. apply pw_ok. sp; assumption.
      * intros [[nnz' cj'] cx'] (BD' & Lcj' & Lcx' & Hnnz' & Hnf'). rewrite Gn, Sn. cbn [bind].
        destruct (is_vec_set _ _ _ _ s0 HV Hk) as (ar & Ea & HV'). rewrite Ea. cbn [bind]. apply pw_ok. exists rest. sp; try assumption.
        -- rewrite EM, <- app_assoc. reflexivity.
        -- eapply is_vec_ext; [exact HV'|]. intros q _. cbv beta. rewrite existsb_app. cbn [existsb]. rewrite orb_false_r.
           destruct (Nat.eqb_spec q k); [rewrite orb_true_r; reflexivity|rewrite orb_false_r; reflexivity].
    + assert (HlM : (Z.of_nat (length M) <= imax I)%Z) by (rewrite <- Hlen; exact Hlf).
      clear next sums HL HV head len Hlen Hlf Hnnz Hnf nnz. intros [[[[[next sums] head] nnz] cj] cx]
        (todo & EM2 & HL & HV & BD & Lcj & Lcx & Hnnz & Hnf).
      assert (todo = []) by (rewrite <- (app_nil_r M) in EM2 at 1; apply app_inv_head in EM2; auto). subst todo.
      rewrite vset_ok by lia. cbn [bind]. apply pw_ok. exists (R ++ [emit (gval RB ra) M]).
      assert (EC : concat (R ++ [emit (gval RB ra) M]) = concat R ++ emit (gval RB ra) M) by (rewrite concat_app; cbn; rewrite app_nil_r; reflexivity).
      rewrite EC, app_length, upd_length. cbn [length]. sp; try assumption.
      * lia.
      * constructor.
        -- replace (i + 1) with (S (length R)) by lia. apply bptr_push; [apply (mo_ptr _ _ _ _ _ _ _ _ BO)|lia|]. rewrite Hnnz, app_length. reflexivity.
        -- rewrite EC. exact BD.
        -- rewrite EC. apply Forall_app. split; [apply (mo_idx _ _ _ _ _ _ _ _ BO)|]. apply Forall_forall. intros e He.
           apply emit_in in He as (He & _). apply (pcols_bound I c _ _ _ RA RB HB ra _ HraI), HM, He.
        -- intros q Hq. rewrite app_length in Hq. cbn in Hq. destruct (Nat.lt_ge_cases q (length R)) as [Hq2|Hq2].
           ++ rewrite app_nth1 by exact Hq2. apply (mo_row _ _ _ _ _ _ _ _ BO), Hq2.
           ++ replace q with i by lia. rewrite nth_middle_len by lia. exists M. sp; assumption.
      * apply (linked_restart _ _ _ HL).
      * eapply is_vec_ext; [exact HV|]. intros q _. cbv beta. destruct (existsb (Nat.eqb q) M) eqn:E; [reflexivity|].
        unfold gval. rewrite at_not_in; [reflexivity|]. rewrite prodrow_cols. intros Hq. apply HM in Hq.
        enough (existsb (Nat.eqb q) M = true) by congruence. apply existsb_exists. exists q. rewrite Nat.eqb_refl. auto.
      * intros q Hq. destruct (Nat.eq_dec q i) as [->|Hne]; [exact HlM|apply Hrc; lia].
      * intros q Hq. destruct (Nat.eq_dec q i) as [->|Hne]; [exact HC|apply Hcalm; lia].
  - intros [[[[[next sums] nnz] p] j] x] (R & _ & _ & _ & _ & _ & _ & _ & _ & _ & _ & Hcalm). apply pw_ok. exact Hcalm.
Qed.
End Pw.
(** some product of entries overflows, or some sum of products *)
Definition prod_ov : Prop :=
  exists i, i < n /\ ((exists e f, In e (nth i RA []) /\ In f (nth (fst e) RB []) /\ cmul (snd e) (snd f) = Panic) \/
    exists k, sum_overflows (at_ k (prodrow RB (nth i RA [])))).
Lemma matmat_iff c_p c_j (c_x : list T) : length c_p = S n -> total RB RA <= length c_j -> total RB RA <= length c_x ->
  panics_iff prod_ov (csr_matmat_ck I n c a_p a_j a_x b_p b_j b_x c_p c_j c_x) (csr_matmat I n c a_p a_j a_x b_p b_j b_x c_p c_j c_x).
Proof.
  intros LP LJ LX. set (ck := csr_matmat_ck _ _ _ _ _ _ _ _ _ _ _ _). set (pl := csr_matmat _ _ _ _ _ _ _ _ _ _ _ _).
  assert (May : panics_or True ck pl) by apply may_csr_matmat.
  assert (W : pw (prod_ov \/ prod_fails I n c RA RB) ck (fun _ => ~ prod_ov)).
  { eapply pw_mono; [apply matmat_ck_pw; try assumption|].
    - intros i Hi G. pose proof (row_fits I n m c _ _ _ RA RB HB LA LB (nth i RA [])). lia.
    - intros i R M Hi LR HR HN HM G. right. apply (over_matrow I n m c _ _ _ RA RB HB LA LB i R M); assumption.
    - intros i e f Hi He Hf Hp. left. exists i. split; [exact Hi|]. left. eauto.
    - intros i k Hi Ho. left. exists i. split; [exact Hi|]. right. eauto.
    - intros ? G (i & Hi & [(e & f & He & Hf & Hp)|(k & Ho)]); destruct (G i Hi) as [G1 G2]; [apply (G1 e f He Hf Hp)|apply (G2 k Ho)]. }
  split.
  - intros Ho. destruct W as [[Ep _]|(r & Er & N)]; [exact Ep|contradiction].
  - intros N. destruct May as [[Ep _]|M]; [|exact M]. destruct W as [[_ [Ho|Hf]]|(r & Er & _)]; [contradiction| |congruence].
    rewrite Ep. symmetry. apply (matmat_exact I n m c _ _ _ _ _ _ RA RB HA HB LA LB c_p c_j c_x LP LJ LX), Hf.
Qed.
End Mat.
