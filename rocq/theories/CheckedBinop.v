(** When the element-wise kernels overflow. *)
From Verif Require Import Rust Debug Scalar Model_kernels Model_matrix Model_checked Spec SpecBoundary SpecChecked Wp Rep ScatterProofs CanonProofs
  ConvProofs LinProofs LinkProofs BinopProofs ArithProofs Main_boundary Main_addition BinopExact PanicProofs SpecHom HomProofs HomAll CheckedProofs CheckedExact CheckedDup.

Section Binop.
Context {T : Type} {SC : Scalar T} {CK : Checked T} {LW : CheckedLaw True T}.
Variable I : ity.

Lemma scan_ck_pw (P : Prop) c p j (x : list T) R pre r post next acc head len L :
  crep I c p j x R -> R = pre ++ r :: post ->
  linked c next head L -> len = Z.of_nat (length L) -> is_vec acc c (fun _ => s0) -> (Z.of_nat (length L) <= imax I)%Z ->
  ((imax I < Z.of_nat (length (fold_left touch (map fst r) L)))%Z -> P) -> (forall k, sum_overflows (at_ k r) -> P) ->
  pw P (binop_scan_ck I (length (concat pre)) (length (concat pre) + length r) j x (next, acc, head, len))
    (fun '(next, acc, head, len) => let L' := fold_left touch (map fst r) L in
      linked c next head L' /\ len = Z.of_nat (length L') /\ is_vec acc c (fun k => sum0 (at_ k r)) /\ (Z.of_nat (length L') <= imax I)%Z /\
      forall k, ~ sum_overflows (at_ k r)).
Proof.
  intros H ER HL Hlen Hv HLf HP HPo. unfold binop_scan_ck.
  eapply (pw_for_list P (fun ip '(next, acc, head, len) => let L' := fold_left touch (map fst ip) L in
      linked c next head L' /\ len = Z.of_nat (length L') /\ is_vec acc c (fun k => sum0 (at_ k ip)) /\ (Z.of_nat (length L') <= imax I)%Z /\
      forall k, ~ sum_overflows (at_ k ip)) r); [reflexivity| | |auto].
  - cbn. sp; try assumption. intros k. apply so_nil.
  - clear next acc head len HL Hlen Hv. intros ip e iq [[[next acc] head] len] Er (HL & Hlen & Hv & Hf' & Ho).
    rewrite (crep_pj H ER Er). cbn [bind]. rewrite (crep_vx H ER Er). cbn [bind].
    destruct (crep_col H ER Er) as [Hc Hcf]. apply pw_bind. eapply pw_mono; [apply (vaddto_pw P _ _ _ _ (snd e) Hv Hc)|].
    { intros G. apply (HPo (fst e)). rewrite Er, at_app, at_cons, Nat.eqb_refl. cbn [app]. apply so_here, G. }
    intros acc' [Hv' Hn'].
    eapply (pw_link P I c next head _ (fst e) len (fun n h l => Ok (n, acc', h, l))); [exact HL|exact Hc|exact Hlen| |exact Hf'|].
    + intros G. apply HP. pose proof (touches_mono (map fst iq) (touch (fold_left touch (map fst ip) L) (fst e))) as G2.
      rewrite Er, map_app, fold_left_app. cbn [map fold_left]. lia.
    + intros n h l Hn Hl Hlf. apply pw_ok. cbn zeta. rewrite map_app, fold_left_app. cbn [map fold_left]. sp; try assumption.
      * eapply is_vec_ext; [exact Hv'|]. intros k Hk. cbv beta. rewrite at_snoc, Nat.eqb_sym. unfold sum0.
        destruct (fst e =? k); [rewrite fold_left_app|rewrite app_nil_r]; reflexivity.
      * intros k. rewrite at_snoc. destruct (Nat.eqb_spec (fst e) k) as [<-|]; [|rewrite app_nil_r; apply Ho]. apply so_snoc; [apply Ho|exact Hn'].
Qed.

Context {T2 : Type} {NZ : Nonzero T2}.
Variable op : T -> T -> res T2.
Section Gen.
Variables (c n : nat) (a_p a_j b_p b_j : list Z) (a_x b_x : list T) (RA RB : list (list (nat * T))).
Variable g : nat -> nat -> T2.
Hypothesis HA : crep I c a_p a_j a_x RA.
Hypothesis HB : crep I c b_p b_j b_x RB.
Hypothesis LA : length RA = n.
Hypothesis LB : length RB = n.
Variable P : Prop.
Hypothesis HPt : forall i R M, i < n -> length R = i -> (forall q, q < i -> binrow (g q) (nth q RA []) (nth q RB []) (nth q R [])) ->
  NoDup M -> (forall k, In k M -> In k (map fst (nth i RA [])) \/ In k (map fst (nth i RB []))) ->
  (imax I < Z.of_nat (length (concat R ++ emit (g i) M)))%Z -> P.
Hypothesis HPr : forall i M, i < n -> NoDup M -> (forall k, In k M -> In k (map fst (nth i RA [])) \/ In k (map fst (nth i RB []))) ->
  (imax I < Z.of_nat (length M))%Z -> P.
Hypothesis HPa : forall i k, i < n -> sum_overflows (at_ k (nth i RA [])) -> P.
Hypothesis HPb : forall i k, i < n -> sum_overflows (at_ k (nth i RB [])) -> P.
Hypothesis HPo : forall i k, i < n -> In k (map fst (nth i RA [])) \/ In k (map fst (nth i RB [])) ->
  op (sum0 (at_ k (nth i RA []))) (sum0 (at_ k (nth i RB []))) = Panic -> P.
Hypothesis Hop : forall i k, i < n -> In k (map fst (nth i RA [])) \/ In k (map fst (nth i RB [])) ->
  op (sum0 (at_ k (nth i RA []))) (sum0 (at_ k (nth i RB []))) = Panic \/ op (sum0 (at_ k (nth i RA []))) (sum0 (at_ k (nth i RB []))) = Ok (g i k).
Definition calm (i : nat) : Prop :=
  (forall k, ~ sum_overflows (at_ k (nth i RA []))) /\ (forall k, ~ sum_overflows (at_ k (nth i RB []))) /\
  forall k, In k (map fst (nth i RA [])) \/ In k (map fst (nth i RB [])) -> op (sum0 (at_ k (nth i RA []))) (sum0 (at_ k (nth i RB []))) <> Panic.

Lemma general_ck_pw c_p c_j (c_x : list T2) : length c_p = S n ->
  length (concat RA) + length (concat RB) <= length c_j -> length (concat RA) + length (concat RB) <= length c_x ->
  pw P (csr_binop_csr_general_ck I op n c a_p a_j a_x b_p b_j b_x c_p c_j c_x) (fun _ => forall q, q < n -> calm q).
Proof.
  intros LP LJ LX. unfold csr_binop_csr_general_ck.
  rewrite vset_ok by lia. cbn [bind]. apply pw_bind.
  set (Rel := fun i => xrow (T := T) I (g i)).
  eapply (pw_for P (fun i '(next, a_row, b_row, nnz, p, j, x) => exists R, length R = i /\ bout I Rel c RA RB p j x R /\
     length p = S n /\ length j = length c_j /\ length x = length c_x /\ nnz = Z.of_nat (length (concat R)) /\ (nnz <= imax I)%Z /\
     linked c next (-2)%Z [] /\ is_vec a_row c (fun _ => s0) /\ is_vec b_row c (fun _ => s0) /\ forall q, q < i -> calm q)); [lia| | |].
  - exists []. sp; try assumption.
    + constructor; [|apply bdat_nil|constructor|cbn; lia]. apply bptr_nil. rewrite nth_error_upd, LP. reflexivity.
    + rewrite upd_length. exact LP.
    + cbn. pose proof (imax_ge_127 I). lia.
    + apply linked_init.
    + apply is_vec_repeat.
    + apply is_vec_repeat.
    + intros q Hq. lia.
  - intros i [[[[[[next a_row] b_row] nnz] p] j] x] [_ Hi] (R & LR & BO & Lp & Lj & Lx & Hnnz & Hnf & HL & HVA & HVB & Hcalm).
    assert (BR : forall i, i < length R -> binrow (g i) (nth i RA []) (nth i RB []) (nth i R [])).
    { intros q Hq. apply (xrow_binrow I), (bo_row _ _ _ _ _ _ _ _ _ BO), Hq. }
    pose proof (HPr i) as HPri. pose proof (HPt i R) as HPti. pose proof (fun k => HPa i k Hi) as HPai. pose proof (fun k => HPb i k Hi) as HPbi. pose proof (fun k => HPo i k Hi) as HPoi.
    destruct (nth_split_app RA i []) as (prea & posta & EA & La); [lia|].
    destruct (nth_split_app RB i []) as (preb & postb & EB & Lb); [lia|].
    set (ra := nth i RA []) in *. set (rb := nth i RB []) in *.
    pose proof (room n RA RB g LA LB R i LR Hi BR) as Room. fold ra rb in Room.
    pose proof (crep_start HA EA) as S1. pose proof (crep_end HA EA) as S2. pose proof (crep_start HB EB) as S3. pose proof (crep_end HB EB) as S4.
    rewrite La in S1, S2. rewrite Lb in S3, S4.
    rewrite S1, S2. cbn [bind].
    apply pw_bind. eapply pw_mono; [apply (scan_ck_pw P _ _ _ _ _ _ _ _ _ _ _ _ _ HA EA HL eq_refl HVA)|].
    { cbn. pose proof (imax_ge_127 I). lia. }
    { intros G. apply (HPri _ Hi (touches_nodup (map fst ra) [] (NoDup_nil _))); [|exact G]. intros k Hk. apply in_touches in Hk as [[]|Hk]. auto. }
    { exact HPai. }
    clear next a_row HL HVA. intros [[[next a_row] head] len] (HL & Hlen & HVA & HLf & HOA).
    rewrite S3, S4. cbn [bind].
    apply pw_bind. eapply pw_mono; [apply (scan_ck_pw P _ _ _ _ _ _ _ _ _ _ _ _ _ HB EB HL Hlen HVB)|].
    { exact HLf. }
    { rewrite <- fold_left_app. intros G. apply (HPri _ Hi (touches_nodup (map fst ra ++ map fst rb) [] (NoDup_nil _))); [|exact G].
      intros k Hk. apply in_touches in Hk as [[]|Hk]. apply in_app_iff, Hk. }
    { exact HPbi. }
    clear next b_row HL HVB head len Hlen HLf. intros [[[next b_row] head] len] (HL & Hlen & HVB & HLf & HOB).
    rewrite <- fold_left_app, <- map_app in *. set (M := fold_left touch (map fst (ra ++ rb)) []) in *.
    assert (HM : forall k, In k M <-> In k (map fst ra) \/ In k (map fst rb)).
    { intros k. unfold M. rewrite in_touches, map_app, in_app_iff. cbn. tauto. }
    assert (HMl : length M <= length ra + length rb).
    { pose proof (touches_len (map fst (ra ++ rb)) []) as G. rewrite map_length, app_length in G. exact G. }
    assert (HN : NoDup M) by apply (lk_nodup _ _ _ _ HL).
    rewrite Hlen, to_usize_nat. cbn [bind]. apply pw_bind.
    eapply (pw_for_list P (fun done '(next, a_row, b_row, head, nnz, cj, cx) => exists todo, M = done ++ todo /\
       linked c next head todo /\
       is_vec a_row c (fun k => if existsb (Nat.eqb k) done then s0 else sum0 (at_ k ra)) /\
       is_vec b_row c (fun k => if existsb (Nat.eqb k) done then s0 else sum0 (at_ k rb)) /\
       bdat cj cx (concat R ++ emit (g i) done) /\ length cj = length c_j /\ length cx = length c_x /\
       nnz = Z.of_nat (length (concat R ++ emit (g i) done)) /\ (nnz <= imax I)%Z /\ forall k, In k done -> op (sum0 (at_ k ra)) (sum0 (at_ k rb)) <> Panic) M); [reflexivity| | |].
    + exists M. cbn [existsb emit flat_map]. rewrite app_nil_r. sp; try assumption.
      { apply (bo_dat _ _ _ _ _ _ _ _ _ BO). }
      intros k [].
    + clear next a_row b_row HL HVA HVB head len Hlen Hnnz Hnf nnz. intros done k rest [[[[[[next a_row] b_row] head] nnz] cj] cx] EM
        (todo & EM2 & HL & HVA & HVB & BD & Lcj & Lcx & Hnnz & Hnf & Hdone).
      rewrite EM in EM2. apply app_inv_head in EM2. subst todo.
      destruct (linked_pop _ _ _ _ _ HL) as (Eh & Hk & Gn & Sn & HL').
      assert (HkM : In k M) by (rewrite EM; apply in_or_app; right; left; reflexivity).
      assert (Hkd : ~ In k done).
      { rewrite EM in HN. apply NoDup_remove_2 in HN. intros Hd. apply HN, in_or_app. auto. }
      assert (Hex : existsb (Nat.eqb k) done = false).
      { destruct (existsb (Nat.eqb k) done) eqn:E; [|reflexivity]. apply existsb_exists in E as (a & Ha & Ea). apply Nat.eqb_eq in Ea. subst a. contradiction. }
      destruct (touched_bound I c n a_p a_j b_p b_j a_x b_x RA RB HA HB LA LB i k Hi (proj1 (HM k) HkM)) as [_ Hkf].
      rewrite Eh, to_usize_nat. cbn [bind]. rewrite (is_vec_get _ _ _ _ HVA Hk), (is_vec_get _ _ _ _ HVB Hk). cbn [bind].
      rewrite Hex. pose proof (Hop i k Hi (proj1 (HM k) HkM)) as Eop. fold ra rb in Eop.
      destruct Eop as [Eop|Eop]; rewrite Eop; cbn [bind]; [apply pw_panic, (HPoi k (proj1 (HM k) HkM) Eop)|].
      assert (Hcap : length (concat R ++ emit (g i) done) < length (concat RA) + length (concat RB)).
      { rewrite app_length. pose proof (emit_len (g i) done). pose proof (f_equal (@length _) EM) as LM. rewrite app_length in LM. cbn in LM. lia. }
      apply pw_bind. eapply pw_mono with (Q := fun '(nnz, cj, cx) => bdat cj cx (concat R ++ emit (g i) (done ++ [k])) /\
         length cj = length c_j /\ length cx = length c_x /\ nnz = Z.of_nat (length (concat R ++ emit (g i) (done ++ [k]))) /\ (nnz <= imax I)%Z).
      * rewrite emit_app. unfold emit at 2 4. cbn [flat_map]. rewrite app_nil_r. destruct (nonzero (g i k)) eqn:Ek.
        -- rewrite Hnnz, to_usize_nat. cbn [bind]. rewrite icheck_ok by (pose proof (imin_le_0 I); lia). cbn [bind].
           rewrite !vset_ok by lia. cbn [bind]. apply pw_bind. apply iadd_pw; [lia| |].
           { intros G. apply (HPti (done ++ [k]) Hi LR).
             - intros q Hq. apply BR. lia.
             - rewrite EM in HN. replace (done ++ k :: rest) with ((done ++ [k]) ++ rest) in HN by (rewrite <- app_assoc; reflexivity). apply (nodup_app_l _ _ HN).
             - intros q Hq. apply HM. rewrite EM. apply in_app_iff in Hq as [Hq|[<-|[]]]; apply in_or_app; [left; exact Hq|right; left; reflexivity].
             - rewrite emit_app, app_assoc, app_length. unfold emit at 2. cbn [flat_map]. rewrite Ek. cbn [length app]. lia. }
           intros G. apply pw_ok.
           rewrite !upd_length, app_assoc. sp; try assumption.
           ++ apply bdat_push; [exact BD|lia|lia].
           ++ rewrite (app_length (_ ++ _) [_]). cbn [length]. lia.
        -- rewrite app_nil_r. apply pw_ok. sp; assumption.
      * intros [[nnz' cj'] cx'] (BD' & Lcj' & Lcx' & Hnnz' & Hnf'). rewrite Gn, Sn. cbn [bind].
        destruct (is_vec_set _ _ _ _ s0 HVA Hk) as (ar & Ea & HVA'). destruct (is_vec_set _ _ _ _ s0 HVB Hk) as (br & Eb & HVB').
        rewrite Ea, Eb. cbn [bind]. apply pw_ok. exists rest. sp; try assumption.
        -- rewrite EM, <- app_assoc. reflexivity.
        -- eapply is_vec_ext; [exact HVA'|]. intros q _. cbv beta. rewrite existsb_app. cbn [existsb]. rewrite orb_false_r.
           destruct (Nat.eqb_spec q k); [rewrite orb_true_r; reflexivity|rewrite orb_false_r; reflexivity].
        -- eapply is_vec_ext; [exact HVB'|]. intros q _. cbv beta. rewrite existsb_app. cbn [existsb]. rewrite orb_false_r.
           destruct (Nat.eqb_spec q k); [rewrite orb_true_r; reflexivity|rewrite orb_false_r; reflexivity].
        -- intros q Hq. apply in_app_iff in Hq as [Hq|[<-|[]]]; [apply Hdone, Hq|]. rewrite Eop. discriminate.
    + clear next a_row b_row HL HVA HVB head len Hlen Hnnz Hnf nnz. intros [[[[[[next a_row] b_row] head] nnz] cj] cx]
        (todo & EM2 & HL & HVA & HVB & BD & Lcj & Lcx & Hnnz & Hnf & Hdone).
      assert (todo = []) by (rewrite <- (app_nil_r M) in EM2 at 1; apply app_inv_head in EM2; auto). subst todo.
      assert (Hzero : forall r q, (forall k, In k (map fst r) -> In k M) -> (if existsb (Nat.eqb q) M then s0 else sum0 (at_ q r)) = s0).
      { intros r q Hr. destruct (existsb (Nat.eqb q) M) eqn:E; [reflexivity|]. rewrite at_not_in; [reflexivity|].
        intros Hq. apply Hr in Hq. enough (existsb (Nat.eqb q) M = true) by congruence. apply existsb_exists. exists q. rewrite Nat.eqb_refl. auto. }
      rewrite vset_ok by lia. cbn [bind]. apply pw_ok. exists (R ++ [emit (g i) M]).
      assert (EC : concat (R ++ [emit (g i) M]) = concat R ++ emit (g i) M) by (rewrite concat_app; cbn; rewrite app_nil_r; reflexivity).
      rewrite EC, app_length, upd_length. cbn [length]. sp; try assumption.
      * lia.
      * constructor.
        -- replace (i + 1) with (S (length R)) by lia. apply bptr_push; [apply (bo_ptr _ _ _ _ _ _ _ _ _ BO)|lia|]. rewrite Hnnz, app_length. reflexivity.
        -- rewrite EC. exact BD.
        -- rewrite EC. apply Forall_app. split; [apply (bo_idx _ _ _ _ _ _ _ _ _ BO)|]. apply Forall_forall. intros e He.
           apply emit_in in He as (He & _). apply (touched_bound I c n a_p a_j b_p b_j a_x b_x RA RB HA HB LA LB i _ Hi), HM, He.
        -- intros q Hq. rewrite app_length in Hq. cbn in Hq. destruct (Nat.lt_ge_cases q (length R)) as [Hq2|Hq2].
           ++ rewrite app_nth1 by exact Hq2. apply (bo_row _ _ _ _ _ _ _ _ _ BO), Hq2.
           ++ replace q with i by lia. rewrite nth_middle_len by lia. exists M. sp; try assumption.
      * apply (linked_restart _ _ _ HL).
      * eapply is_vec_ext; [exact HVA|]. intros q _. apply Hzero. intros k Hk. apply HM. auto.
      * eapply is_vec_ext; [exact HVB|]. intros q _. apply Hzero. intros k Hk. apply HM. auto.
      * intros q Hq. destruct (Nat.eq_dec q i) as [->|Ne]; [|apply Hcalm; lia]. split; [exact HOA|]. split; [exact HOB|]. intros k Hk. apply Hdone, HM, Hk.
  - intros [[[[[[next a_row] b_row] nnz] p] j] x] (R & _ & _ & _ & _ & _ & _ & _ & _ & _ & _ & Hcalm). apply pw_ok. exact Hcalm.
Qed.
End Gen.
End Binop.

(** ** The kernel: exactly when it overflows *)
Section Kernel.
Context {T : Type} {SC : Scalar T} {CK : Checked T} {LW : CheckedLaw True T}.
Variable I : ity.
Context {T2 : Type} {NZ : Nonzero T2}.
Variables (cop op : T -> T -> res T2) (f : T -> T -> T2).
Hypothesis Hcop : forall u v, cop u v = Panic \/ cop u v = Ok (f u v).
Hypothesis Hop : forall u v, panics_or True (cop u v) (op u v).
Variables (n c : nat) (a_p a_j : list Z) (a_x : list T) (b_p b_j : list Z) (b_x : list T) (RA RB : list (list (nat * T))).
Hypothesis HA : crep I c a_p a_j a_x RA.
Hypothesis HB : crep I c b_p b_j b_x RB.
Hypothesis LA : length RA = n.
Hypothesis LB : length RB = n.
Definition touched i k := i < n /\ (In k (map fst (nth i RA [])) \/ In k (map fst (nth i RB []))).
Definition rep_ov : Prop :=
  both_canonical RA RB /\ (exists i k, touched i k /\ cop (hd s0 (at_ k (nth i RA []))) (hd s0 (at_ k (nth i RB []))) = Panic) \/
  ~ both_canonical RA RB /\ (exists i k, touched i k /\
    (sum_overflows (at_ k (nth i RA [])) \/ sum_overflows (at_ k (nth i RB [])) \/ cop (sum0 (at_ k (nth i RA []))) (sum0 (at_ k (nth i RB []))) = Panic)).
Variables (c_p c_j : list Z) (c_x : list T2).
Hypothesis LP : length c_p = S n.
Hypothesis LJ : length (concat RA) + length (concat RB) <= length c_j.
Hypothesis LX : length (concat RA) + length (concat RB) <= length c_x.
Let ck := csr_binop_csr_ck I cop n c a_p a_j a_x b_p b_j b_x c_p c_j c_x.
Let pl := csr_binop_csr I op n c a_p a_j a_x b_p b_j b_x c_p c_j c_x.

Lemma touched_at i k : i < n -> at_ k (nth i RA []) <> [] \/ at_ k (nth i RB []) <> [] -> touched i k.
Proof. intros Hi H. split; [exact Hi|]. rewrite !at_occ in H. exact H. Qed.
Lemma so_ne (l : list T) : sum_overflows l -> l <> [].
Proof. intros H ->. apply (so_nil H). Qed.

(** the two kernels with an operation that records a panic *)
Definition rec_nz : Nonzero (option T2) := {| ndefault := Some ndefault; nonzero := fun o : option T2 => match o with Some v => nonzero v | None => true end |}.
Definition recop u v : res (option T2) := Ok (match cop u v with Ok w => Some w | _ => None end).
Lemma recorded p j x : csr_binop_csr I cop n c a_p a_j a_x b_p b_j b_x c_p c_j c_x = Ok (p, j, x) ->
  forall i k, touched i k -> cop (rd RA RB (at_ k (nth i RA []))) (rd RA RB (at_ k (nth i RB []))) <> Panic.
Proof.
  intros E i k [Hi Hk] Hp.
  pose proof (hom_csr_binop_csr (ST := SC) (SU := SC) (fun v : T => v) eq_refl (fun _ _ => eq_refl) (NZ' := rec_nz) (h2 := Some) (fun _ => eq_refl) cop
    (fun u v => rmap Some (cop u v)) (fun _ _ => eq_refl) I n c a_p a_j a_x b_p b_j b_x c_p c_j c_x) as H.
  rewrite !map_id, E in H. unfold hmap in H. cbn in H.
  assert (M : may (csr_binop_csr (NZ := rec_nz) I (fun u v => rmap Some (cop u v)) n c a_p a_j a_x b_p b_j b_x c_p c_j (map Some c_x))
    (csr_binop_csr (NZ := rec_nz) I recop n c a_p a_j a_x b_p b_j b_x c_p c_j (map Some c_x))).
  { apply may_binop. intros u v. unfold recop. destruct (Hcop u v) as [-> | ->]; [left; reflexivity|right; reflexivity]. }
  rewrite H in M. destruct M as [M|M]; [discriminate|]. symmetry in M.
  set (f' u v := match cop u v with Ok w => Some w | _ => None end).
  destruct (kern_exact (NZ := rec_nz) I f' n c a_p a_j a_x b_p b_j b_x RA RB HA HB LA LB recop (fun _ _ _ _ _ => eq_refl) (fun _ _ _ _ _ => eq_refl) c_p c_j (map Some c_x)) as [K1 K2];
    [assumption..|rewrite map_length; assumption|]. unfold kern in K1, K2. rewrite M in K1, K2.
  destruct K2 as ([[p' j'] x'] & E' & _ & _ & R & LR & HR & Hrow & _). { intros G. discriminate (K1 G). }
  injection E' as <- <- <-. destruct (Hrow i Hi) as (M' & _ & HM & Er).
  assert (Hin : In (k, None) (nth i R [])).
  { rewrite Er. unfold emit. apply in_flat_map. exists k. split; [apply HM, Hk|]. unfold f'. rewrite Hp. left. reflexivity. }
  destruct (nth_split_app R i []) as (pre & post & ER & _); [lia|]. apply in_split in Hin as (r1 & r2 & Er2).
  pose proof (crep_vx HR ER Er2) as V. cbn [snd] in V. apply vget_inv in V. apply nth_error_In, in_map_iff in V as (w & Ew & _). discriminate.
Qed.


Lemma outcome : ck = Panic \/ exists r, ck = Ok r.
Proof.
  assert (M : panics_or True ck (csr_binop_csr I (fun u v => Ok (f u v)) n c a_p a_j a_x b_p b_j b_x c_p c_j c_x)).
  { apply may_csr_binop_csr. intros u v. destruct (Hcop u v) as [-> | ->]; [left; auto|right; reflexivity]. }
  destruct M as [[M _]|M]; [left; exact M|]. rewrite M.
  destruct (kern_exact I f n c a_p a_j a_x b_p b_j b_x RA RB HA HB LA LB (fun u v => Ok (f u v)) (fun _ _ _ _ _ => eq_refl) (fun _ _ _ _ _ => eq_refl) c_p c_j c_x LP LJ LX) as [K1 K2].
  unfold kern in K1, K2. destruct (csr_binop_csr I (fun u v : T => Ok (f u v)) n c a_p a_j a_x b_p b_j b_x c_p c_j c_x) as [r|e| |]; [right; eauto|exfalso|left; reflexivity|exfalso];
    (destruct K2 as (r & E & _); [intros G; discriminate (K1 G)|discriminate E]).
Qed.
Lemma op_calm u v : cop u v <> Panic -> cop u v = Ok (f u v) /\ op u v = Ok (f u v).
Proof. intros H. destruct (Hcop u v) as [E|E]; [contradiction|]. split; [exact E|]. destruct (Hop u v) as [[E' _]|E']; [contradiction|]. rewrite <- E'. exact E. Qed.

Lemma binop_iff : panics_iff rep_ov ck pl.
Proof.
  assert (May : panics_or True ck pl) by (apply may_csr_binop_csr; exact Hop).
  destruct (both_dec RA RB) as [BC|NB].
  - assert (E : ck = csr_binop_csr I cop n c a_p a_j a_x b_p b_j b_x c_p c_j c_x).
    { unfold ck, csr_binop_csr_ck, csr_binop_csr. destruct (stuck_dec I RA) as [S|S].
      { rewrite (stuck_panics I _ _ _ _ _ _ HA LA S). reflexivity. }
      destruct (has_canonical_exact I _ _ _ _ _ _ HA LA S) as (ba & Ea & Ha). rewrite Ea. cbn [bind].
      assert (ba = true) by (apply Ha, BC). subst ba. destruct (stuck_dec I RB) as [S'|S'].
      { rewrite (stuck_panics I _ _ _ _ _ _ HB LB S'). reflexivity. }
      destruct (has_canonical_exact I _ _ _ _ _ _ HB LB S') as (bb & Eb & Hb). rewrite Eb. cbn [bind].
      assert (bb = true) by (apply Hb, BC). subst bb. reflexivity. }
    split.
    + intros [[_ (i & k & Ht & Hp)]|[NB _]]; [|contradiction]. destruct outcome as [M|[[[p j] x] M]]; [exact M|].
      exfalso. rewrite E in M. apply (recorded p j x M i k Ht). unfold rd. destruct (both_dec RA RB); [exact Hp|contradiction].
    + intros N.
      assert (C : forall i k, i < n -> In k (map fst (nth i RA [])) \/ In k (map fst (nth i RB [])) -> cop (hd s0 (at_ k (nth i RA []))) (hd s0 (at_ k (nth i RB []))) <> Panic).
      { intros i k Hi Hk Hp. apply N. left. split; [exact BC|]. exists i, k. split; [split; assumption|exact Hp]. }
      destruct May as [[Ep _]|M]; [|exact M].
      destruct (kern_exact I f n c a_p a_j a_x b_p b_j b_x RA RB HA HB LA LB cop) with (c_p := c_p) (c_j := c_j) (c_x := c_x) as [K1 K2]; try assumption.
      { intros NB. contradiction. } { intros _ i k Hi Hk. apply op_calm, C; assumption. }
      destruct (kern_exact I f n c a_p a_j a_x b_p b_j b_x RA RB HA HB LA LB op) with (c_p := c_p) (c_j := c_j) (c_x := c_x) as [K1' K2']; try assumption.
      { intros NB. contradiction. } { intros _ i k Hi Hk. apply op_calm, C; assumption. }
      unfold kern in *. rewrite Ep. rewrite E in Ep. rewrite Ep in K2. fold pl in K1', K2'.
      assert (G : pl <> Panic -> False).
      { intros Hn. destruct K2 as (r & Er & _); [intros G; apply Hn, K1', G|discriminate Er]. }
      destruct pl; [exfalso; apply G; discriminate..|reflexivity|exfalso; apply G; discriminate].
  - destruct (stuck_dec I RA) as [S|S].
    { assert (E : ck = Panic /\ pl = Panic).
      { unfold ck, pl, csr_binop_csr_ck, csr_binop_csr. rewrite (stuck_panics I _ _ _ _ _ _ HA LA S). split; reflexivity. }
      destruct E as [-> ->]. split; reflexivity. }
    assert (E : ck = csr_binop_csr_general_ck I cop n c a_p a_j a_x b_p b_j b_x c_p c_j c_x).
    { unfold ck, csr_binop_csr_ck. destruct (has_canonical_exact I _ _ _ _ _ _ HA LA S) as (ba & Ea & Ha). rewrite Ea. cbn [bind].
      destruct ba; [|reflexivity]. destruct (stuck_dec I RB) as [S'|S'].
      { exfalso. apply NB. split; [apply Ha; reflexivity|apply S']. }
      destruct (has_canonical_exact I _ _ _ _ _ _ HB LB S') as (bb & Eb & Hb). rewrite Eb. cbn [bind].
      destruct bb; [|reflexivity]. exfalso. apply NB. split; [apply Ha|apply Hb]; reflexivity. }
    assert (W : pw (rep_ov \/ rep_fails I f n RA RB) ck (fun _ => ~ rep_ov)).
    { rewrite E. eapply pw_mono; [apply (general_ck_pw I cop c n _ _ _ _ _ _ RA RB (fun i k => f (sum0 (at_ k (nth i RA []))) (sum0 (at_ k (nth i RB [])))) HA HB LA LB) with (c_p := c_p) (c_j := c_j) (c_x := c_x); try assumption|].
      - intros i R M Hi LR HR HN HM G. right. right. right. split; [exact NB|]. right. apply over_row with (rd := sum0) (i := i) (R := R) (M := M); assumption.
      - intros i M Hi HN HM G. right. right. right. split; [exact NB|]. left. exists i. split; [exact Hi|].
        pose proof (NoDup_incl_length (l := M) (l' := used (nth i RA []) (nth i RB [])) HN ltac:(intros k Hk; apply used_in, HM, Hk)). lia.
      - intros i k Hi Ho. left. right. split; [exact NB|]. exists i, k. split; [|auto]. apply touched_at; [exact Hi|left; apply so_ne, Ho].
      - intros i k Hi Ho. left. right. split; [exact NB|]. exists i, k. split; [|auto]. apply touched_at; [exact Hi|right; apply so_ne, Ho].
      - intros i k Hi Hk Ho. left. right. split; [exact NB|]. exists i, k. split; [split; assumption|auto].
      - intros i k Hi Hk. apply Hcop.
      - intros ? Hc [[BC _]|[_ (i & k & [Hi Hk] & Ho)]]; [contradiction|]. destruct (Hc i Hi) as (H1 & H2 & H3).
        destruct Ho as [Ho|[Ho|Ho]]; [apply (H1 k Ho)|apply (H2 k Ho)|apply (H3 k Hk Ho)]. }
    split.
    + intros Ho. destruct W as [[Ep _]|(r & Er & N)]; [exact Ep|contradiction].
    + intros N. destruct May as [[Ep _]|M]; [|exact M]. destruct W as [[_ [Ho|Hf]]|(r & Er & _)]; [contradiction| |congruence].
      destruct (kern_exact I f n c a_p a_j a_x b_p b_j b_x RA RB HA HB LA LB op) with (c_p := c_p) (c_j := c_j) (c_x := c_x) as [K1' _]; try assumption.
      { intros _ i k Hi Hk. apply op_calm. intros Hp. apply N. right. split; [exact NB|]. exists i, k. split; [split; assumption|auto]. }
      { intros BC. contradiction. }
      rewrite Ep. symmetry. apply K1', Hf.
Qed.
End Kernel.
