(** The element-wise binary kernels, with exactly when they panic. *)
From Verif Require Import Rust Scalar Model_kernels Model_matrix Spec Wp Rep CanonProofs ConvProofs LinProofs LinkProofs BinopProofs.

Lemma nodup_app_l {A} (l l' : list A) : NoDup (l ++ l') -> NoDup l.
Proof.
  induction l as [|a l IH]; cbn; intros H; [constructor|]. inversion_clear H as [|? ? Ha Hl]. constructor; [|apply IH, Hl].
  intros Hi. apply Ha, in_or_app. auto.
Qed.

(** a value with [Q], or a panic and then [P] *)
Definition pw (P : Prop) {A} (m : res A) (Q : A -> Prop) : Prop := (m = Panic /\ P) \/ wp m Q.
Lemma pw_of (P : Prop) {A} (m : res A) (Q : A -> Prop) : wp m Q -> pw P m Q.
Proof. right. assumption. Qed.
Lemma pw_ok (P : Prop) {A} (a : A) (Q : A -> Prop) : Q a -> pw P (Ok a) Q.
Proof. intros H. right. apply wp_ok, H. Qed.
Lemma pw_panic (P : Prop) {A} (Q : A -> Prop) : P -> pw P Panic Q.
Proof. intros H. left. auto. Qed.
Lemma pw_bind (P : Prop) {A B} (m : res A) (f : A -> res B) Q : pw P m (fun a => pw P (f a) Q) -> pw P (bind m f) Q.
Proof. intros [[-> H]|(a & -> & H)]; [apply pw_panic, H|exact H]. Qed.
Lemma pw_mono (P : Prop) {A} (m : res A) (Q R : A -> Prop) : pw P m Q -> (forall a, Q a -> R a) -> pw P m R.
Proof. intros [H|H] HR; [left; exact H|right; eapply wp_mono; eassumption]. Qed.
Lemma pw_for_list (P : Prop) {A St} (Inv : list A -> St -> Prop) (l : list A) lo hi f (s : St) (Q : St -> Prop) :
  hi = lo + length l -> Inv [] s ->
  (forall pre a post s, l = pre ++ a :: post -> Inv pre s -> pw P (f (lo + length pre) s) (Inv (pre ++ [a]))) ->
  (forall s, Inv l s -> Q s) -> pw P (for_range lo hi f s) Q.
Proof.
  intros Hhi H0 Hstep HQ.
  assert (G : forall post pre s, l = pre ++ post -> Inv pre s -> pw P (for_range (lo + length pre) hi f s) (Inv l)).
  { clear H0. induction post as [|a post IH]; intros pre s' E Hs.
    - rewrite for_range_nil. 2:{ subst l hi. rewrite app_nil_r. lia. }
      apply pw_ok. rewrite app_nil_r in E. subst. exact Hs.
    - rewrite for_range_cons. 2:{ subst l hi. rewrite app_length. cbn. lia. }
      apply pw_bind. eapply pw_mono; [apply (Hstep _ _ _ _ E Hs)|]. intros s2 H2.
      specialize (IH (pre ++ [a]) s2). rewrite app_length in IH. cbn [length] in IH. replace (S (lo + length pre)) with (lo + (length pre + 1)) by lia.
      apply IH; [rewrite <- app_assoc; exact E|exact H2]. }
  eapply pw_mono; [|exact HQ]. specialize (G l [] s eq_refl H0). cbn in G. rewrite Nat.add_0_r in G. exact G.
Qed.
Lemma pw_for (P : Prop) {St} (Inv : nat -> St -> Prop) lo hi f (s : St) (Q : St -> Prop) :
  lo <= hi -> Inv lo s -> (forall k s, lo <= k < hi -> Inv k s -> pw P (f k s) (Inv (S k))) -> (forall s, Inv hi s -> Q s) ->
  pw P (for_range lo hi f s) Q.
Proof.
  intros Hle H0 Hstep HQ.
  eapply (pw_for_list P (fun pre => Inv (lo + length pre)) (repeat tt (hi - lo))).
  - rewrite repeat_length. lia.
  - cbn. rewrite Nat.add_0_r. exact H0.
  - intros pre a post s' E Hs. eapply pw_mono.
    + apply Hstep; [|exact Hs].
      assert (length (pre ++ a :: post) = hi - lo) by (rewrite <- E, repeat_length; reflexivity).
      rewrite app_length in *; cbn in *. lia.
    + intros s2 H2. rewrite app_length; cbn.
      replace (lo + (length pre + 1)) with (S (lo + length pre)) by lia. exact H2.
  - intros s'. rewrite repeat_length. replace (lo + (hi - lo)) with hi by lia. apply HQ.
Qed.
Lemma iadd_pw (P : Prop) I a (Q : Z -> Prop) : (0 <= a)%Z -> ((imax I < a + 1)%Z -> P) -> ((a + 1 <= imax I)%Z -> Q (a + 1)%Z) -> pw P (iadd I a 1) Q.
Proof.
  intros Ha HP HQ. destruct (Z.le_gt_cases (a + 1) (imax I)) as [H|H].
  - rewrite iadd_ok by lia. apply pw_ok, HQ, H.
  - unfold iadd, icheck. destruct (_ && _)%bool eqn:E; [|apply pw_panic, HP; lia].
    apply andb_prop in E as [_ E]. apply Z.leb_le in E. lia.
Qed.

Lemma pw_while (P : Prop) {St} (Inv : St -> Prop) (measure : St -> nat) fuel cond body (s : St) (Q : St -> Prop) :
  measure s < fuel -> Inv s ->
  (forall s, Inv s -> pw P (cond s) (fun b : bool => if b then pw P (body s) (fun s' => Inv s' /\ measure s' < measure s) else Q s)) ->
  pw P (while fuel cond body s) Q.
Proof.
  intros Hm Hs Hstep. revert s Hm Hs.
  induction fuel as [|k IH]; intros s Hm Hs; [lia|].
  cbn. apply pw_bind. eapply pw_mono; [apply (Hstep s Hs)|].
  intros [|] H; [|apply pw_ok; exact H].
  apply pw_bind. eapply pw_mono; [exact H|]. intros s' [H1 H2]. apply IH; [lia|exact H1].
Qed.
Lemma ifrom_pw (P : Prop) I n (Q : Z -> Prop) : ((imax I < Z.of_nat n)%Z -> P) -> ((Z.of_nat n <= imax I)%Z -> Q (Z.of_nat n)) -> pw P (ifrom I n) Q.
Proof.
  intros HP HQ. destruct (Z.le_gt_cases (Z.of_nat n) (imax I)) as [H|H].
  - rewrite ifrom_ok by lia. apply pw_ok, HQ, H.
  - unfold ifrom, icheck. destruct (_ && _)%bool eqn:E; [|apply pw_panic, HP; lia].
    apply andb_prop in E as [_ E]. apply Z.leb_le in E. lia.
Qed.

Lemma pw_link (P : Prop) {B} I c next head L k len (f : list Z -> Z -> Z -> res B) (Q : B -> Prop) :
  linked c next head L -> k < c -> len = Z.of_nat (length L) -> ((imax I < Z.of_nat (length (touch L k)))%Z -> P) ->
  (Z.of_nat (length L) <= imax I)%Z ->
  (forall next head len, linked c next head (touch L k) -> len = Z.of_nat (length (touch L k)) -> (Z.of_nat (length (touch L k)) <= imax I)%Z -> pw P (f next head len) Q) ->
  pw P (let* nk := vget next k in
      if (nk =? -1)%Z then
        let* next := vset next k head in
        let* length := iadd I len 1 in
        f next (Z.of_nat k) length
      else f next head len) Q.
Proof.
  intros H Hk Hlen HP Hfit Hf. destruct (H) as [HL HN HC HF].
  rewrite (vget_nth _ _ (-1)%Z) by lia. cbn [bind]. destruct (in_dec Nat.eq_dec k L) as [Hi|Hi].
  - rewrite (touch_in _ _ Hi) in *. pose proof (chain_in _ _ _ _ HC Hi) as Hne.
    destruct (Z.eqb_spec (nth k next (-1)%Z) (-1)); [contradiction|]. apply Hf; assumption.
  - rewrite (touch_new _ _ Hi) in *. rewrite HF by assumption. cbn [Z.eqb Pos.eqb].
    rewrite vset_ok by lia. cbn [bind]. apply pw_bind. apply iadd_pw; [lia|intros G; apply HP; cbn [length]; lia|].
    intros G. apply Hf; [|cbn; lia|cbn [length]; lia].
    constructor.
    + rewrite upd_length. exact HL.
    + constructor; assumption.
    + cbn. rewrite upd_length. sp; [lia|]. rewrite nth_upd_eq by lia. eapply chain_ext; [apply upd_length| |exact HC].
      intros a Ha. apply nth_upd_ne. intros ->. contradiction.
    + intros a Ha Hn. cbn in Hn. rewrite nth_upd_ne by (intros ->; apply Hn; auto). apply HF; [exact Ha|tauto].
Qed.

Section Binop.
Context {T : Type} {SC : Scalar T}.
Variable I : ity.

Lemma binop_scan_pw (P : Prop) c p j (x : list T) R pre r post next acc head len L f :
  crep I c p j x R -> R = pre ++ r :: post ->
  linked c next head L -> len = Z.of_nat (length L) -> is_vec acc c f -> (Z.of_nat (length L) <= imax I)%Z ->
  ((imax I < Z.of_nat (length (fold_left touch (map fst r) L)))%Z -> P) ->
  pw P (binop_scan I (length (concat pre)) (length (concat pre) + length r) j x (next, acc, head, len))
    (fun '(next, acc, head, len) => let L' := fold_left touch (map fst r) L in
      linked c next head L' /\ len = Z.of_nat (length L') /\ is_vec acc c (fun k => fold_left sadd (at_ k r) (f k)) /\ (Z.of_nat (length L') <= imax I)%Z).
Proof.
  intros H ER HL Hlen Hv HLf HP. unfold binop_scan.
  eapply (pw_for_list P (fun ip '(next, acc, head, len) => let L' := fold_left touch (map fst ip) L in
      linked c next head L' /\ len = Z.of_nat (length L') /\ is_vec acc c (fun k => fold_left sadd (at_ k ip) (f k)) /\ (Z.of_nat (length L') <= imax I)%Z) r); [reflexivity| | |auto].
  - cbn. sp; assumption.
  - clear next acc head len HL Hlen Hv. intros ip e iq [[[next acc] head] len] Er (HL & Hlen & Hv & Hf').
    rewrite (crep_pj H ER Er). cbn [bind]. rewrite (crep_vx H ER Er). cbn [bind].
    destruct (crep_col H ER Er) as [Hc Hcf]. apply pw_bind. eapply pw_mono; [apply pw_of, (vaddto_vec _ _ _ _ _ Hv Hc)|]. intros acc' Hv'.
    eapply (pw_link P I c next head _ (fst e) len (fun n h l => Ok (n, acc', h, l))); [exact HL|exact Hc|exact Hlen| |exact Hf'|].
    + intros G. apply HP. pose proof (touches_mono (map fst iq) (touch (fold_left touch (map fst ip) L) (fst e))) as G2.
      rewrite Er, map_app, fold_left_app. cbn [map fold_left]. lia.
    + intros n h l Hn Hl Hlf. apply pw_ok. cbn zeta. rewrite map_app, fold_left_app. cbn [map fold_left]. sp; try assumption.
      eapply is_vec_ext; [exact Hv'|]. intros k Hk. cbv beta. rewrite at_snoc, fold_left_app, Nat.eqb_sym.
      destruct (fst e =? k); reflexivity.
Qed.

Context {T2 : Type} {NZ : Nonzero T2}.
Variable op : T -> T -> res T2.

(** as [binrow], and the columns of the union can be counted *)
Definition xrow (g : nat -> T2) (ra rb : list (nat * T)) (row : list (nat * T2)) : Prop :=
  exists M, NoDup M /\ (forall k, In k M <-> In k (map fst ra) \/ In k (map fst rb)) /\ row = emit g M /\ (Z.of_nat (length M) <= imax I)%Z.
Lemma xrow_binrow g ra rb row : xrow g ra rb row -> binrow g ra rb row.
Proof. intros (M & H1 & H2 & H3 & _). exists M. sp; try assumption. Qed.

Section Gen.
Variables (c n : nat) (a_p a_j b_p b_j : list Z) (a_x b_x : list T) (RA RB : list (list (nat * T))).
Variable g : nat -> nat -> T2.
Hypothesis HA : crep I c a_p a_j a_x RA.
Hypothesis HB : crep I c b_p b_j b_x RB.
Hypothesis LA : length RA = n.
Hypothesis LB : length RB = n.
Variable P : Prop.
Hypothesis HPt : forall i R M, i < n -> length R = i -> (forall q, q < i -> binrow (g q) (nth q RA []) (nth q RB []) (nth q R [])) ->
  NoDup M -> (forall k, In k M -> In k (map fst (nth i RA [])) \/ In k (map fst (nth i RB []))) ->
  (imax I < Z.of_nat (length (concat R ++ emit (g i) M)))%Z -> P.

Section General.
Hypothesis HPr : forall i M, i < n -> NoDup M -> (forall k, In k M -> In k (map fst (nth i RA [])) \/ In k (map fst (nth i RB []))) ->
  (imax I < Z.of_nat (length M))%Z -> P.
Hypothesis Hop : forall i k, i < n -> In k (map fst (nth i RA [])) \/ In k (map fst (nth i RB [])) ->
  op (sum0 (at_ k (nth i RA []))) (sum0 (at_ k (nth i RB []))) = Ok (g i k).

Definition genx_out (cj0 : nat) (cx0 : nat) '(p, j, x) : Prop :=
  length j = cj0 /\ length x = cx0 /\
  exists R, length R = n /\ crep I c p j x R /\ forall i, i < n -> xrow (g i) (nth i RA []) (nth i RB []) (nth i R []).

Lemma binop_general_pw c_p c_j (c_x : list T2) : length c_p = S n ->
  length (concat RA) + length (concat RB) <= length c_j -> length (concat RA) + length (concat RB) <= length c_x ->
  pw P (csr_binop_csr_general I op n c a_p a_j a_x b_p b_j b_x c_p c_j c_x) (genx_out (length c_j) (length c_x)).
Proof.
  intros LP LJ LX. unfold csr_binop_csr_general.
  rewrite vset_ok by lia. cbn [bind]. apply pw_bind.
  set (Rel := fun i => xrow (g i)).
  eapply (pw_for P (fun i '(next, a_row, b_row, nnz, p, j, x) => exists R, length R = i /\ bout I Rel c RA RB p j x R /\
     length p = S n /\ length j = length c_j /\ length x = length c_x /\ nnz = Z.of_nat (length (concat R)) /\ (nnz <= imax I)%Z /\
     linked c next (-2)%Z [] /\ is_vec a_row c (fun _ => s0) /\ is_vec b_row c (fun _ => s0))); [lia| | |].
  - exists []. sp; try assumption.
    + constructor; [|apply bdat_nil|constructor|cbn; lia]. apply bptr_nil. rewrite nth_error_upd, LP. reflexivity.
    + rewrite upd_length. exact LP.
    + cbn. pose proof (imax_ge_127 I). lia.
    + apply linked_init.
    + apply is_vec_repeat.
    + apply is_vec_repeat.
  - intros i [[[[[[next a_row] b_row] nnz] p] j] x] [_ Hi] (R & LR & BO & Lp & Lj & Lx & Hnnz & Hnf & HL & HVA & HVB).
    assert (BR : forall i, i < length R -> binrow (g i) (nth i RA []) (nth i RB []) (nth i R [])).
    { intros q Hq. apply xrow_binrow, (bo_row _ _ _ _ _ _ _ _ _ BO), Hq. }
    pose proof (HPr i) as HPri. pose proof (HPt i R) as HPti.
    destruct (nth_split_app RA i []) as (prea & posta & EA & La); [lia|].
    destruct (nth_split_app RB i []) as (preb & postb & EB & Lb); [lia|].
    set (ra := nth i RA []) in *. set (rb := nth i RB []) in *.
    pose proof (room n RA RB g LA LB R i LR Hi BR) as Room. fold ra rb in Room.
    pose proof (crep_start HA EA) as S1. pose proof (crep_end HA EA) as S2. pose proof (crep_start HB EB) as S3. pose proof (crep_end HB EB) as S4.
    rewrite La in S1, S2. rewrite Lb in S3, S4.
    rewrite S1, S2. cbn [bind].
    apply pw_bind. eapply pw_mono; [apply (binop_scan_pw P _ _ _ _ _ _ _ _ _ _ _ _ _ _ HA EA HL eq_refl HVA)|].
    { cbn. pose proof (imax_ge_127 I). lia. }
    { intros G. apply (HPri _ Hi (touches_nodup (map fst ra) [] (NoDup_nil _))); [|exact G]. intros k Hk. apply in_touches in Hk as [[]|Hk]. auto. }
    clear next a_row HL HVA. intros [[[next a_row] head] len] (HL & Hlen & HVA & HLf).
    rewrite S3, S4. cbn [bind].
    apply pw_bind. eapply pw_mono; [apply (binop_scan_pw P _ _ _ _ _ _ _ _ _ _ _ _ _ _ HB EB HL Hlen HVB)|].
    { exact HLf. }
    { rewrite <- fold_left_app. intros G. apply (HPri _ Hi (touches_nodup (map fst ra ++ map fst rb) [] (NoDup_nil _))); [|exact G].
      intros k Hk. apply in_touches in Hk as [[]|Hk]. apply in_app_iff, Hk. }
    clear next b_row HL HVB head len Hlen HLf. intros [[[next b_row] head] len] (HL & Hlen & HVB & HLf).
    rewrite <- fold_left_app, <- map_app in *. set (M := fold_left touch (map fst (ra ++ rb)) []) in *.
    assert (HM : forall k, In k M <-> In k (map fst ra) \/ In k (map fst rb)).
    { intros k. unfold M. rewrite in_touches, map_app, in_app_iff. cbn. tauto. }
    assert (HMl : length M <= length ra + length rb).
    { pose proof (touches_len (map fst (ra ++ rb)) []) as G. rewrite map_length, app_length in G. exact G. }
    assert (HN : NoDup M) by apply (lk_nodup _ _ _ _ HL).
    rewrite Hlen, to_usize_nat. cbn [bind]. apply pw_bind.
    eapply (pw_for_list P (fun done '(next, a_row, b_row, head, nnz, cj, cx) => exists todo, M = done ++ todo /\
       linked c next head todo /\
       is_vec a_row c (fun k => if existsb (Nat.eqb k) done then s0 else sum0 (at_ k ra)) /\
       is_vec b_row c (fun k => if existsb (Nat.eqb k) done then s0 else sum0 (at_ k rb)) /\
       bdat cj cx (concat R ++ emit (g i) done) /\ length cj = length c_j /\ length cx = length c_x /\
       nnz = Z.of_nat (length (concat R ++ emit (g i) done)) /\ (nnz <= imax I)%Z) M); [reflexivity| | |].
    + exists M. cbn [existsb emit flat_map]. rewrite app_nil_r. sp; try assumption.
      apply (bo_dat _ _ _ _ _ _ _ _ _ BO).
    + clear next a_row b_row HL HVA HVB head len Hlen Hnnz Hnf nnz. intros done k rest [[[[[[next a_row] b_row] head] nnz] cj] cx] EM
        (todo & EM2 & HL & HVA & HVB & BD & Lcj & Lcx & Hnnz & Hnf).
      rewrite EM in EM2. apply app_inv_head in EM2. subst todo.
      destruct (linked_pop _ _ _ _ _ HL) as (Eh & Hk & Gn & Sn & HL').
      assert (HkM : In k M) by (rewrite EM; apply in_or_app; right; left; reflexivity).
      assert (Hkd : ~ In k done).
      { rewrite EM in HN. apply NoDup_remove_2 in HN. intros Hd. apply HN, in_or_app. auto. }
      assert (Hex : existsb (Nat.eqb k) done = false).
      { destruct (existsb (Nat.eqb k) done) eqn:E; [|reflexivity]. apply existsb_exists in E as (a & Ha & Ea). apply Nat.eqb_eq in Ea. subst a. contradiction. }
      destruct (touched_bound I c n a_p a_j b_p b_j a_x b_x RA RB HA HB LA LB i k Hi (proj1 (HM k) HkM)) as [_ Hkf].
      rewrite Eh, to_usize_nat. cbn [bind]. rewrite (is_vec_get _ _ _ _ HVA Hk), (is_vec_get _ _ _ _ HVB Hk). cbn [bind].
      rewrite Hex. pose proof (Hop i k Hi (proj1 (HM k) HkM)) as Eop. fold ra rb in Eop. rewrite Eop. cbn [bind].
      assert (Hcap : length (concat R ++ emit (g i) done) < length (concat RA) + length (concat RB)).
      { rewrite app_length. pose proof (emit_len (g i) done). pose proof (f_equal (@length _) EM) as LM. rewrite app_length in LM. cbn in LM. lia. }
      apply pw_bind. eapply pw_mono with (Q := fun '(nnz, cj, cx) => bdat cj cx (concat R ++ emit (g i) (done ++ [k])) /\
         length cj = length c_j /\ length cx = length c_x /\ nnz = Z.of_nat (length (concat R ++ emit (g i) (done ++ [k]))) /\ (nnz <= imax I)%Z).
      * rewrite emit_app. unfold emit at 2 4. cbn [flat_map]. rewrite app_nil_r. destruct (nonzero (g i k)) eqn:Ek.
        -- rewrite Hnnz, to_usize_nat. cbn [bind]. rewrite icheck_ok by (pose proof (imin_le_0 I); lia). cbn [bind].
           rewrite !vset_ok by lia. cbn [bind]. apply pw_bind. apply iadd_pw; [lia| |].
           { intros G. apply (HPti (done ++ [k]) Hi LR).
             - intros q Hq. apply BR. lia.
             - rewrite EM in HN. replace (done ++ k :: rest) with ((done ++ [k]) ++ rest) in HN by (rewrite <- app_assoc; reflexivity). apply (nodup_app_l _ _ HN).
             - intros q Hq. apply HM. rewrite EM. apply in_app_iff in Hq as [Hq|[<-|[]]]; apply in_or_app; [left; exact Hq|right; left; reflexivity].
             - rewrite emit_app, app_assoc, app_length. unfold emit at 2. cbn [flat_map]. rewrite Ek. cbn [length app]. lia. }
           intros G. apply pw_ok.
           rewrite !upd_length, app_assoc. sp; try assumption.
           ++ apply bdat_push; [exact BD|lia|lia].
           ++ rewrite (app_length (_ ++ _) [_]). cbn [length]. lia.
        -- rewrite app_nil_r. apply pw_ok. sp; assumption.
      * intros [[nnz' cj'] cx'] (BD' & Lcj' & Lcx' & Hnnz' & Hnf'). rewrite Gn, Sn. cbn [bind].
        destruct (is_vec_set _ _ _ _ s0 HVA Hk) as (ar & Ea & HVA'). destruct (is_vec_set _ _ _ _ s0 HVB Hk) as (br & Eb & HVB').
        rewrite Ea, Eb. cbn [bind]. apply pw_ok. exists rest. sp; try assumption.
        -- rewrite EM, <- app_assoc. reflexivity.
        -- eapply is_vec_ext; [exact HVA'|]. intros q _. cbv beta. rewrite existsb_app. cbn [existsb]. rewrite orb_false_r.
           destruct (Nat.eqb_spec q k); [rewrite orb_true_r; reflexivity|rewrite orb_false_r; reflexivity].
        -- eapply is_vec_ext; [exact HVB'|]. intros q _. cbv beta. rewrite existsb_app. cbn [existsb]. rewrite orb_false_r.
           destruct (Nat.eqb_spec q k); [rewrite orb_true_r; reflexivity|rewrite orb_false_r; reflexivity].
    + clear next a_row b_row HL HVA HVB head len Hlen Hnnz Hnf nnz. intros [[[[[[next a_row] b_row] head] nnz] cj] cx]
        (todo & EM2 & HL & HVA & HVB & BD & Lcj & Lcx & Hnnz & Hnf).
      assert (todo = []) by (rewrite <- (app_nil_r M) in EM2 at 1; apply app_inv_head in EM2; auto). subst todo.
      assert (Hzero : forall r q, (forall k, In k (map fst r) -> In k M) -> (if existsb (Nat.eqb q) M then s0 else sum0 (at_ q r)) = s0).
      { intros r q Hr. destruct (existsb (Nat.eqb q) M) eqn:E; [reflexivity|]. rewrite at_not_in; [reflexivity|].
        intros Hq. apply Hr in Hq. enough (existsb (Nat.eqb q) M = true) by congruence. apply existsb_exists. exists q. rewrite Nat.eqb_refl. auto. }
      rewrite vset_ok by lia. cbn [bind]. apply pw_ok. exists (R ++ [emit (g i) M]).
      assert (EC : concat (R ++ [emit (g i) M]) = concat R ++ emit (g i) M) by (rewrite concat_app; cbn; rewrite app_nil_r; reflexivity).
      rewrite EC, app_length, upd_length. cbn [length]. sp; try assumption.
      * lia.
      * constructor.
        -- replace (i + 1) with (S (length R)) by lia. apply bptr_push; [apply (bo_ptr _ _ _ _ _ _ _ _ _ BO)|lia|]. rewrite Hnnz, app_length. reflexivity.
        -- rewrite EC. exact BD.
        -- rewrite EC. apply Forall_app. split; [apply (bo_idx _ _ _ _ _ _ _ _ _ BO)|]. apply Forall_forall. intros e He.
           apply emit_in in He as (He & _). apply (touched_bound I c n a_p a_j b_p b_j a_x b_x RA RB HA HB LA LB i _ Hi), HM, He.
        -- intros q Hq. rewrite app_length in Hq. cbn in Hq. destruct (Nat.lt_ge_cases q (length R)) as [Hq2|Hq2].
           ++ rewrite app_nth1 by exact Hq2. apply (bo_row _ _ _ _ _ _ _ _ _ BO), Hq2.
           ++ replace q with i by lia. rewrite nth_middle_len by lia. exists M. sp; try assumption.
      * apply (linked_restart _ _ _ HL).
      * eapply is_vec_ext; [exact HVA|]. intros q _. apply Hzero. intros k Hk. apply HM. auto.
      * eapply is_vec_ext; [exact HVB|]. intros q _. apply Hzero. intros k Hk. apply HM. auto.
  - intros [[[[[[next a_row] b_row] nnz] p] j] x] (R & LR & BO & Lp & Lj & Lx & Hnnz & Hnf & _).
    apply pw_ok. unfold genx_out. sp; try assumption. exists R. sp; try assumption.
    + constructor.
      * lia.
      * apply (bo_ptr _ _ _ _ _ _ _ _ _ BO).
      * apply (bo_dat _ _ _ _ _ _ _ _ _ BO).
      * apply (bo_idx _ _ _ _ _ _ _ _ _ BO).
      * lia.
    + intros i Hi. apply (bo_row _ _ _ _ _ _ _ _ _ BO). lia.
Qed.
End General.

Section Canonical.
Hypothesis CA : forall i, i < n -> canonical_row (nth i RA []).
Hypothesis CB : forall i, i < n -> canonical_row (nth i RB []).
Hypothesis Hop : forall i k, i < n -> In k (map fst (nth i RA [])) \/ In k (map fst (nth i RB [])) ->
  op (hd s0 (at_ k (nth i RA []))) (hd s0 (at_ k (nth i RB []))) = Ok (g i k).

Definition canx_out (cj0 : nat) (cx0 : nat) '(p, j, x) : Prop :=
  length j = cj0 /\ length x = cx0 /\
  exists R, length R = n /\ crep I c p j x R /\ forall i, i < n -> mrow (g i) (nth i RA []) (nth i RB []) (nth i R []).

Lemma binop_canonical_pw c_p c_j (c_x : list T2) : length c_p = S n ->
  length (concat RA) + length (concat RB) <= length c_j -> length (concat RA) + length (concat RB) <= length c_x ->
  pw P (csr_binop_csr_canonical I op n c a_p a_j a_x b_p b_j b_x c_p c_j c_x) (canx_out (length c_j) (length c_x)).
Proof.
  intros LP LJ LX. unfold csr_binop_csr_canonical.
  rewrite vset_ok by lia. cbn [bind]. apply pw_bind.
  set (Rel := fun i => mrow (T := T) (g i)).
  eapply (pw_for P (fun i '(p, j, x, nnz) => exists R, length R = i /\ bout I Rel c RA RB p j x R /\
     length p = S n /\ length j = length c_j /\ length x = length c_x /\ nnz = length (concat R) /\ (Z.of_nat nnz <= imax I)%Z)); [lia| | |].
  - exists []. sp; try assumption.
    + constructor; [|apply bdat_nil|constructor|cbn; lia]. apply bptr_nil. rewrite nth_error_upd, LP. reflexivity.
    + rewrite upd_length. exact LP.
    + cbn. pose proof (imax_ge_127 I). lia.
  - intros i [[[p j] x] nnz] [_ Hi] (R & LR & BO & Lp & Lj & Lx & Hnnz & Hnf).
    destruct (nth_split_app RA i []) as (prea & posta & EA & La); [lia|].
    destruct (nth_split_app RB i []) as (preb & postb & EB & Lb); [lia|].
    assert (BR : forall i, i < length R -> binrow (g i) (nth i RA []) (nth i RB []) (nth i R [])).
    { intros q Hq. apply mrow_binrow, (bo_row _ _ _ _ _ _ _ _ _ BO), Hq. }
    pose proof (room n RA RB g LA LB R i LR Hi BR) as Room. specialize (CA i Hi). specialize (CB i Hi). pose proof (fun k => Hop i k Hi) as Hopi.
    pose proof (fun k => touched_bound I c n a_p a_j b_p b_j a_x b_x RA RB HA HB LA LB i k Hi) as TB.
    set (ra := nth i RA []) in *. set (rb := nth i RB []) in *.
    pose proof (crep_start HA EA) as S1. pose proof (crep_end HA EA) as S2. pose proof (crep_start HB EB) as S3. pose proof (crep_end HB EB) as S4.
    rewrite La in S1, S2. rewrite Lb in S3, S4. rewrite S1, S3, S2, S4. cbn [bind].
    set (la := length (concat prea)) in *. set (lb := length (concat preb)) in *.
    set (mi := minv (length c_j) (length c_x) (concat R) ra rb (g i)).
    assert (Cj : length (concat R) + (length ra + length rb) <= length c_j) by lia.
    assert (Cx : length (concat R) + (length ra + length rb) <= length c_x) by lia.
    match goal with |- pw P (bind _ ?k) _ => set (rest := k) end.
    assert (tails : forall qa qb ia ib M out ap bp, mi qa qb ia ib M out -> ap = la + length ia -> bp = lb + length ib ->
       la + length ra <= ap \/ lb + length rb <= bp -> pw P (rest (ap, bp, out)) (fun '(p, j, x, nnz) => exists R, length R = S i /\ bout I Rel c RA RB p j x R /\
         length p = S n /\ length j = length c_j /\ length x = length c_x /\ nnz = length (concat R) /\ (Z.of_nat nnz <= imax I)%Z)).
    { intros qa qb ia ib M out ap bp HM Hap Hbp Hex. unfold rest. apply pw_bind.
      eapply (pw_while P (fun '(ap, out) => exists qa ia M, mi qa qb ia ib M out /\ ap = la + length ia /\ (qa = [] \/ qb = []))
         (fun '(ap, _) => la + length ra - ap)).
      { lia. }
      { exists qa, ia, M. sp; try assumption.
        pose proof (mi_a _ _ _ _ _ _ _ _ _ _ _ _ HM) as Ea. pose proof (mi_b _ _ _ _ _ _ _ _ _ _ _ _ HM) as Eb.
        apply (f_equal (@length _)) in Ea, Eb. rewrite app_length in Ea, Eb.
        destruct Hex; [left|right]; apply length_zero_iff_nil; lia. }
      clear qa ia M out ap HM Hap Hex. intros [ap out] (qa & ia & M & HM & Hap & Hex). apply pw_ok.
      pose proof (mi_a _ _ _ _ _ _ _ _ _ _ _ _ HM) as Ea.
      assert (La' : length ra = length ia + length qa) by (rewrite Ea, app_length; reflexivity).
      destruct (Nat.ltb_spec ap (la + length ra)) as [Ha|Ha].
      - destruct qa as [|ea qa]; [cbn in *; lia|]. destruct Hex as [Hex|Hex]; [discriminate|]. subst qb. cbn [length] in *.
        rewrite Hap. unfold la. rewrite (crep_vx HA EA Ea), (crep_vj HA EA Ea). cbn [bind]. fold la.
        destruct (minv_left op _ _ _ _ _ _ CA Hopi Cj Cx _ _ _ _ _ _ _ HM) as [E1 E2]; [intros k []|].
        rewrite E1. cbn [bind]. apply pw_bind. eapply pw_mono; [apply pw_of; exact E2|]. intros o Ho. apply pw_ok. split; [|lia].
        exists qa, (ia ++ [ea]), (M ++ [fst ea]). rewrite !app_length. cbn [length]. sp; [exact Ho|lia|auto].
      - assert (qa = []) by (apply length_zero_iff_nil; lia). subst qa. clear La' Ha Hap ap Hex. apply pw_bind.
        eapply (pw_while P (fun '(bp, out) => exists qb ib M, mi [] qb ia ib M out /\ bp = lb + length ib)
         (fun '(bp, _) => lb + length rb - bp)).
        { lia. }
        { exists qb, ib, M. sp; assumption. }
        clear qb ib M out bp HM Hbp. intros [bp out] (qb & ib & M & HM & Hbp). apply pw_ok.
        pose proof (mi_b _ _ _ _ _ _ _ _ _ _ _ _ HM) as Eb.
        assert (Lb' : length rb = length ib + length qb) by (rewrite Eb, app_length; reflexivity).
        destruct (Nat.ltb_spec bp (lb + length rb)) as [Hb|Hb].
        + destruct qb as [|eb qb]; [cbn in *; lia|]. cbn [length] in *.
          rewrite Hbp. unfold lb. rewrite (crep_vx HB EB Eb), (crep_vj HB EB Eb). cbn [bind]. fold lb.
          destruct (minv_right op _ _ _ _ _ _ CB Hopi Cj Cx _ _ _ _ _ _ _ HM) as [E1 E2]; [intros k []|].
          rewrite E1. cbn [bind]. apply pw_bind. eapply pw_mono; [apply pw_of; exact E2|]. intros o Ho. apply pw_ok. split; [|lia].
          exists qb, (ib ++ [eb]), (M ++ [fst eb]). rewrite !app_length. cbn [length]. sp; [exact Ho|lia].
        + assert (qb = []) by (apply length_zero_iff_nil; lia). subst qb.
          rewrite app_nil_r in Eb. subst ib. rewrite app_nil_r in Ea. subst ia.
          pose proof (minv_len _ _ _ _ _ _ Cj Cx _ _ _ _ _ _ HM) as ML.
          destruct HM as [_ _ Hs HM _ HD Hn Hj Hx]. destruct out as [[cj cx] nnz']. cbn [fst snd] in *.
          apply pw_bind. apply ifrom_pw.
          { intros G. apply (HPt i R M Hi LR); [intros q Hq; apply BR; lia|apply sslt_nodup, Hs|intros k Hk; apply HM, Hk|lia]. }
          intros Hnf'. rewrite vset_ok by lia. cbn [bind]. apply pw_ok.
          exists (R ++ [emit (g i) M]).
          assert (EC : concat (R ++ [emit (g i) M]) = concat R ++ emit (g i) M) by (rewrite concat_app; cbn; rewrite app_nil_r; reflexivity).
          rewrite EC, app_length, upd_length. cbn [length]. sp; try assumption.
          * lia.
          * constructor.
            -- replace (i + 1) with (S (length R)) by lia. apply bptr_push; [apply (bo_ptr _ _ _ _ _ _ _ _ _ BO)|lia|]. rewrite Hn, app_length. reflexivity.
            -- rewrite EC. exact HD.
            -- rewrite EC. apply Forall_app. split; [apply (bo_idx _ _ _ _ _ _ _ _ _ BO)|]. apply Forall_forall. intros e He.
               apply emit_in in He as (He & _). apply TB, HM, He.
            -- intros q Hq. rewrite app_length in Hq. cbn in Hq. destruct (Nat.lt_ge_cases q (length R)) as [Hq2|Hq2].
               ++ rewrite app_nth1 by exact Hq2. apply (bo_row _ _ _ _ _ _ _ _ _ BO), Hq2.
               ++ replace q with i by lia. rewrite nth_middle_len by lia. exists M. sp; assumption. }
    apply pw_bind.
    eapply (pw_while P (fun '(ap, bp, out) => exists qa qb ia ib M, mi qa qb ia ib M out /\ ap = la + length ia /\ bp = lb + length ib)
       (fun '(ap, bp, out) => (la + length ra - ap) + (lb + length rb - bp))).
    { lia. }
    { exists ra, rb, [], [], []. cbn [length]. sp; try lia. constructor; try reflexivity; cbn [fst snd]; try assumption.
      - constructor.
      - intros k. cbn. tauto.
      - intros m k [].
      - cbn. rewrite app_nil_r. apply (bo_dat _ _ _ _ _ _ _ _ _ BO).
      - cbn. rewrite app_nil_r. exact Hnnz. }
    + intros [[ap bp] out] (qa & qb & ia & ib & M & HM & Hap & Hbp). apply pw_ok.
      pose proof (mi_a _ _ _ _ _ _ _ _ _ _ _ _ HM) as Ea. pose proof (mi_b _ _ _ _ _ _ _ _ _ _ _ _ HM) as Eb.
      assert (La' : length ra = length ia + length qa) by (rewrite Ea, app_length; reflexivity).
      assert (Lb' : length rb = length ib + length qb) by (rewrite Eb, app_length; reflexivity).
      destruct (Nat.ltb_spec ap (la + length ra)) as [Ha|Ha], (Nat.ltb_spec bp (lb + length rb)) as [Hb|Hb]; cbn [andb].
      * destruct qa as [|ea qa]; [cbn in *; lia|]. destruct qb as [|eb qb]; [cbn in *; lia|]. cbn [length] in *.
        rewrite Hap, Hbp. unfold la, lb. rewrite (crep_vj HA EA Ea), (crep_vj HB EB Eb). cbn [bind]. fold la lb.
        assert (CA' := CA). rewrite Ea in CA'. destruct (canonical_split _ _ _ CA') as (_ & A2 & _).
        assert (CB' := CB). rewrite Eb in CB'. destruct (canonical_split _ _ _ CB') as (_ & B2 & _).
        destruct (Z.eqb_spec (Z.of_nat (fst ea)) (Z.of_nat (fst eb))) as [E|E].
        { unfold la, lb. rewrite (crep_vx HA EA Ea), (crep_vx HB EB Eb). cbn [bind]. fold la lb.
          destruct (minv_both op _ _ _ _ _ _ CA CB Hopi Cj Cx _ _ _ _ _ _ _ _ HM) as [E1 E2]; [lia|]. rewrite E1. cbn [bind].
          apply pw_bind. eapply pw_mono; [apply pw_of; exact E2|]. intros o Ho. apply pw_ok. split; [|lia].
          exists qa, qb, (ia ++ [ea]), (ib ++ [eb]), (M ++ [fst ea]). rewrite !app_length. cbn [length]. sp; [exact Ho|lia|lia]. }
        destruct (Z.ltb_spec (Z.of_nat (fst ea)) (Z.of_nat (fst eb))) as [E'|E'].
        { unfold la. rewrite (crep_vx HA EA Ea). cbn [bind]. fold la.
          destruct (minv_left op _ _ _ _ _ _ CA Hopi Cj Cx _ _ _ _ _ _ _ HM) as [E1 E2].
          { intros k [<-|Hk]; [lia|]. specialize (B2 _ Hk). lia. }
          rewrite E1. cbn [bind]. apply pw_bind. eapply pw_mono; [apply pw_of; exact E2|]. intros o Ho. apply pw_ok. split; [|lia].
          exists qa, (eb :: qb), (ia ++ [ea]), ib, (M ++ [fst ea]). rewrite !app_length. cbn [length]. sp; [exact Ho|lia]. }
        { unfold lb. rewrite (crep_vx HB EB Eb). cbn [bind]. fold lb.
          destruct (minv_right op _ _ _ _ _ _ CB Hopi Cj Cx _ _ _ _ _ _ _ HM) as [E1 E2].
          { intros k [<-|Hk]; [lia|]. specialize (A2 _ Hk). lia. }
          rewrite E1. cbn [bind]. apply pw_bind. eapply pw_mono; [apply pw_of; exact E2|]. intros o Ho. apply pw_ok. split; [|lia].
          exists (ea :: qa), qb, ia, (ib ++ [eb]), (M ++ [fst eb]). rewrite !app_length. cbn [length]. sp; [exact Ho|lia]. }
      * exact (tails _ _ _ _ _ _ _ _ HM Hap Hbp (or_intror Hb)).
      * exact (tails _ _ _ _ _ _ _ _ HM Hap Hbp (or_introl Ha)).
      * exact (tails _ _ _ _ _ _ _ _ HM Hap Hbp (or_introl Ha)).
  - intros [[[p j] x] nnz] (R & LR & BO & Lp & Lj & Lx & Hnnz & Hnf).
    assert (BR : forall i, i < length R -> binrow (g i) (nth i RA []) (nth i RB []) (nth i R [])).
    { intros q Hq. apply mrow_binrow, (bo_row _ _ _ _ _ _ _ _ _ BO), Hq. }
    apply pw_ok. unfold canx_out. sp; try assumption. exists R. sp; try assumption.
    + constructor.
      * lia.
      * apply (bo_ptr _ _ _ _ _ _ _ _ _ BO).
      * apply (bo_dat _ _ _ _ _ _ _ _ _ BO).
      * apply (bo_idx _ _ _ _ _ _ _ _ _ BO).
      * lia.
    + intros i Hi. apply (bo_row _ _ _ _ _ _ _ _ _ BO). lia.
Qed.
End Canonical.
End Gen.
End Binop.
