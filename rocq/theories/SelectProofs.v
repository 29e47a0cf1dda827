(** select, get, sub-matrices, row and column gathering, diagonal counting *)
From Verif Require Import Rust Scalar Model_kernels Model_matrix Spec Wp Rep CanonProofs ConvProofs LinProofs Lin2Proofs StructProofs BlockProofs.

Lemma for_each_map {A B St} (g : A -> B) l (f : B -> St -> res St) s : for_each (map g l) f s = for_each l (fun a => f (g a)) s.
Proof. revert s. induction l as [|a l IH]; intros s; [reflexivity|]. cbn. destruct (f (g a) s); [|reflexivity..]. apply IH. Qed.
Lemma for_enum_map {A B St} (g : A -> B) l (f : nat -> B -> St -> res St) k s : for_enum k (map g l) f s = for_enum k l (fun k a => f k (g a)) s.
Proof. revert k s. induction l as [|a l IH]; intros k s; [reflexivity|]. cbn. destruct (f k (g a) s); [|reflexivity..]. apply IH. Qed.
Lemma vresize_nil {A} n (a : A) : vresize [] n a = repeat a n.
Proof. unfold vresize. rewrite firstn_nil, Nat.sub_0_r. reflexivity. Qed.

Section Select.
Context {T : Type} {SC : Scalar T}.
Variable I : ity.
Implicit Types (R : list (list (nat * T))) (r : list (nat * T)) (cs rs : list nat).

Lemma crep_at_row c p j (x : list T) R i : crep I c p j x R -> i < length R ->
  exists pre post, R = pre ++ nth i R [] :: post /\ length pre = i /\
    pget p i = Ok (length (concat pre)) /\ pget p (i + 1) = Ok (length (concat pre) + length (nth i R [])).
Proof.
  intros H Hi. destruct (nth_split_rows R i Hi) as (pre & post & E & L). exists pre, post. split; [exact E|]. split; [exact L|].
  pose proof (crep_start H E) as G1. pose proof (crep_end H E) as G2. rewrite L in G1, G2. split; assumption.
Qed.

Definition colmap (r : list (nat * T)) (s : nat) (M : list (nat * nat)) : Prop :=
  forall c, match map_get M c with
            | Some jj => exists ip v iq, r = ip ++ (c, v) :: iq /\ jj = s + length ip
            | None => ~ In c (map fst r) end.
Lemma row_colptrs_spec c p j (x : list T) R pre r post : crep I c p j x R -> R = pre ++ r :: post ->
  wp (row_colptrs j (length (concat pre)) (length (concat pre) + length r)) (colmap r (length (concat pre))).
Proof.
  intros H E. unfold row_colptrs. eapply (wp_for_list (fun ip M => colmap ip (length (concat pre)) M) r).
  - reflexivity.
  - intros k. cbn. tauto.
  - intros ip e iq M Er HM. rewrite (crep_pj H E Er). cbn [bind]. apply wp_ok. intros k. cbn [map_get].
    destruct (Nat.eqb_spec (fst e) k) as [<-|N].
    + exists ip, (snd e), []. destruct e. split; reflexivity.
    + specialize (HM k). destruct (map_get M k) as [jj|].
      * destruct HM as (a & v & b & -> & ->). exists a, v, (b ++ [e]). rewrite <- app_assoc. split; reflexivity.
      * rewrite map_app, in_app_iff. cbn. tauto.
  - intros M HM. exact HM.
Qed.

(** the entries of the selected columns of a row, numbered from [k] *)
Fixpoint sel (k : nat) cs r : list (nat * T) :=
  match cs with [] => [] | c :: cs' => map (pair k) (at_ c r) ++ sel (S k) cs' r end.
Lemma sel_app k cs1 cs2 r : sel k (cs1 ++ cs2) r = sel k cs1 r ++ sel (k + length cs1) cs2 r.
Proof.
  revert k. induction cs1 as [|c cs1 IH]; intros k; cbn [sel app length]; [rewrite Nat.add_0_r; reflexivity|].
  rewrite IH, <- app_assoc, Nat.add_succ_comm. reflexivity.
Qed.
Lemma sel_snoc k cs c r : sel k (cs ++ [c]) r = sel k cs r ++ map (pair (k + length cs)) (at_ c r).
Proof. rewrite sel_app. cbn [sel]. rewrite app_nil_r. reflexivity. Qed.
Lemma sel_in k cs r e : In e (sel k cs r) -> k <= fst e < k + length cs /\ In (snd e) (at_ (nth (fst e - k) cs 0) r).
Proof.
  revert k. induction cs as [|c cs IH]; intros k; cbn [sel]; [intros []|]. rewrite in_app_iff, in_map_iff. intros [(v & <- & H)|H].
  - cbn. rewrite Nat.sub_diag. split; [lia|exact H].
  - apply IH in H as [H1 H2]. cbn [length]. split; [lia|]. replace (fst e - k) with (S (fst e - S k)) by lia. exact H2.
Qed.
Lemma sel_at k cs r i : at_ i (sel k cs r) = if (k <=? i) && (i <? k + length cs) then at_ (nth (i - k) cs 0) r else [].
Proof.
  revert k. induction cs as [|c cs IH]; intros k; cbn [sel length].
  - rewrite Nat.add_0_r. destruct (Nat.leb_spec k i), (Nat.ltb_spec i k); try lia; reflexivity.
  - rewrite at_app, IH. assert (G : at_ i (map (pair k) (at_ c r)) = if k =? i then at_ c r else []).
    { induction (at_ c r) as [|v l IHl]; [destruct (k =? i); reflexivity|]. cbn [map]. rewrite at_cons, IHl. cbn [fst snd]. destruct (k =? i); reflexivity. }
    rewrite G. clear G. destruct (Nat.eqb_spec k i) as [->|N].
    + destruct (Nat.leb_spec (S i) i); [lia|]. cbn [andb]. rewrite app_nil_r, Nat.leb_refl. destruct (Nat.ltb_spec i (i + S (length cs))); [|lia]. cbn. rewrite Nat.sub_diag. reflexivity.
    + cbn [app]. replace (k + S (length cs)) with (S k + length cs) by lia. destruct (Nat.leb_spec (S k) i), (Nat.leb_spec k i); try lia; [|reflexivity]. cbn [andb].
      destruct (i <? S k + length cs); [|reflexivity]. replace (i - k) with (S (i - S k)) by lia. reflexivity.
Qed.
Lemma nodup_at_le1 r c : nodup_row r -> length (at_ c r) <= 1.
Proof. intros H. rewrite at_length. pose proof (proj1 (NoDup_count_occ Nat.eq_dec _) H c). lia. Qed.
Lemma canonical_nodup r : canonical_row r -> nodup_row r.
Proof.
  unfold canonical_row, nodup_row. induction (map fst r) as [|a l IH]; intros H; constructor.
  - apply StronglySorted_inv in H as [_ H]. intros Hin. rewrite Forall_forall in H. specialize (H a Hin). lia.
  - apply IH. apply StronglySorted_inv in H. apply H.
Qed.
Lemma sel_canonical k cs r : nodup_row r -> canonical_row (sel k cs r).
Proof.
  intros H. unfold canonical_row. revert k. induction cs as [|c cs IH]; intros k; cbn [sel]; [constructor|].
  pose proof (nodup_at_le1 r c H) as L. destruct (at_ c r) as [|v [|w l]]; cbn in L; try lia; cbn [map app]; [apply IH|]. constructor; [apply IH|].
  apply Forall_forall. intros i Hi. apply in_map_iff in Hi as (e & <- & He). apply sel_in in He. cbn. lia.
Qed.

Lemma colmap_at r s M c : nodup_row r -> colmap r s M ->
  match map_get M c with
  | Some jj => exists ip v iq, r = ip ++ (c, v) :: iq /\ jj = s + length ip /\ at_ c r = [v]
  | None => at_ c r = [] end.
Proof.
  intros Hn HM. specialize (HM c). destruct (map_get M c) as [jj|].
  - destruct HM as (ip & v & iq & E & ->). exists ip, v, iq. split; [exact E|]. split; [reflexivity|]. apply at_nodup; [exact Hn|]. rewrite E. apply in_or_app. right. left. reflexivity.
  - apply at_not_in, HM.
Qed.

Lemma csr_select_spec n0 c0 c p j (x : list T) R rs cs : crep I c p j x R -> Forall nodup_row R -> Forall (fun i => i < length R) rs ->
  let R' := map (fun i => sel 0 cs (nth i R [])) rs in
  (Z.of_nat (length cs) <= imax I + 1)%Z -> (Z.of_nat (length (concat R')) <= imax I)%Z ->
  csr_select I n0 c0 p j x (map Z.of_nat rs) (map Z.of_nat cs) [] [] [] = Ok (ptrs R', zfst (concat R'), map snd (concat R')).
Proof.
  intros H Hn Hrs R' Hc Hf. unfold csr_select. rewrite map_length, !vresize_nil. set (G := fun i => sel 0 cs (nth i R [])) in *.
  apply wp_eq, wp_bind. rewrite for_each_map. eapply (wp_for_each (fun pre k => k = length (concat (map G pre)))).
  - reflexivity.
  - intros pre i post k E ->. rewrite to_usize_nat. cbn [bind]. assert (Hi : i < length R) by (rewrite Forall_forall in Hrs; apply Hrs; rewrite E; apply in_or_app; right; left; reflexivity).
    destruct (crep_at_row _ _ _ _ _ _ H Hi) as (pr & po & ER & L & -> & ->). cbn [bind]. apply wp_bind. eapply wp_mono; [exact (row_colptrs_spec _ _ _ _ _ _ _ _ H ER)|]. intros M HM.
    assert (Hnr : nodup_row (nth i R [])) by (rewrite Forall_forall in Hn; apply Hn, nth_In, Hi).
    rewrite for_each_map. eapply (wp_for_each (fun cp k => k = length (concat (map G pre)) + length (sel 0 cp (nth i R [])))).
    + cbn. lia.
    + intros cp cc cq k Ec ->. rewrite to_usize_nat. cbn [bind]. pose proof (colmap_at _ _ _ cc Hnr HM) as A. rewrite sel_snoc, app_length, map_length.
      destruct (map_get M cc); [destruct A as (ip & v & iq & _ & _ & ->)|rewrite A]; apply wp_ok; cbn [length]; lia.
    + intros k ->. rewrite map_app, concat_app, app_length. cbn [map concat]. rewrite app_nil_r. reflexivity.
  - intros k ->. fold R'. rewrite !vresize_nil.
    assert (V0 : vset (repeat 0%Z (length rs + 1)) 0 0%Z = Ok (over (ptrs (map G [])) (repeat 0%Z (length rs + 1)))).
    { rewrite <- (over_nil (repeat 0%Z (length rs + 1))) at 1. rewrite over_set; [reflexivity|reflexivity|rewrite repeat_length; lia]. }
    rewrite V0. cbn [bind]. apply wp_bind. rewrite for_enum_map.
    set (P0 := repeat 0%Z (length rs + 1)). set (J0 := repeat 0%Z (length (concat R'))). set (X0 := repeat s0 (length (concat R'))).
    eapply (wp_for_enum (fun pre '(bp, bj, bx, k) => bp = over (ptrs (map G pre)) P0 /\ bj = over (zfst (concat (map G pre))) J0 /\ bx = over (map snd (concat (map G pre))) X0 /\ k = length (concat (map G pre)))).
    + sp.
    + intros pre i post [[[bp bj] bx] k] E (-> & -> & -> & ->). cbn [plus]. rewrite to_usize_nat. cbn [bind]. assert (Hi : i < length R) by (rewrite Forall_forall in Hrs; apply Hrs; rewrite E; apply in_or_app; right; left; reflexivity).
      destruct (crep_at_row _ _ _ _ _ _ H Hi) as (pr & po & ER & L & -> & ->). cbn [bind]. apply wp_bind. eapply wp_mono; [exact (row_colptrs_spec _ _ _ _ _ _ _ _ H ER)|]. intros M HM.
      assert (Hnr : nodup_row (nth i R [])) by (rewrite Forall_forall in Hn; apply Hn, nth_In, Hi).
      assert (Tot : length (concat (map G pre)) + length (G i) + length (concat (map G post)) = length (concat R')).
      { unfold R'. rewrite E, map_app, concat_app, app_length. cbn [map concat]. rewrite app_length. lia. }
      apply wp_bind. rewrite for_enum_map.
      eapply (wp_for_enum (fun cp '(bj, bx, k) => let L' := concat (map G pre) ++ sel 0 cp (nth i R []) in bj = over (zfst L') J0 /\ bx = over (map snd L') X0 /\ k = length L')).
      * cbn. rewrite !app_nil_r. sp.
      * intros cp cc cq [[bj bx] k] Ec (-> & -> & ->). cbn [plus]. rewrite to_usize_nat. cbn [bind]. pose proof (colmap_at _ _ _ cc Hnr HM) as A. cbv zeta. rewrite sel_snoc.
        assert (Lc : length cp < length cs) by (rewrite Ec, app_length; cbn; lia).
        assert (Le : length (sel 0 cp (nth i R [])) + length (at_ cc (nth i R [])) <= length (G i)).
        { unfold G. rewrite Ec. replace (cp ++ cc :: cq) with ((cp ++ [cc]) ++ cq) by (rewrite <- app_assoc; reflexivity). rewrite sel_app, sel_snoc, !app_length, map_length. lia. }
        destruct (map_get M cc); [destruct A as (ip & v & iq & Er & -> & A)|]; rewrite A in *; cbn [map length plus] in *.
        -- rewrite ifrom_ok by lia. cbn [bind]. rewrite over_set; [|unfold zfst; rewrite map_length; reflexivity|unfold J0; rewrite repeat_length, app_length; lia]. cbn [bind].
           rewrite (crep_vx H ER Er). cbn [bind snd]. rewrite over_set; [|rewrite map_length; reflexivity|unfold X0; rewrite repeat_length, app_length; lia]. cbn [bind]. apply wp_ok.
           set (L' := concat (map G pre) ++ sel 0 cp (nth i R [])). rewrite app_assoc. fold L'. rewrite zfst_app, (map_app snd), app_length. cbn. sp.
        -- apply wp_ok. rewrite app_nil_r. sp.
      * intros [[bj bx] k] (-> & -> & ->). cbn [bind]. fold (G i). assert (EG : concat (map G (pre ++ [i])) = concat (map G pre) ++ G i) by (rewrite map_app, concat_app; cbn; rewrite app_nil_r; reflexivity).
        rewrite <- EG. rewrite ifrom_ok by (rewrite EG, app_length; lia). cbn [bind]. rewrite over_set.
        -- cbn [bind]. apply wp_ok. sp. rewrite map_app. cbn [map]. rewrite ptrs_snoc. reflexivity.
        -- rewrite ptrs_length, map_length. lia.
        -- unfold P0. rewrite repeat_length, E, app_length. cbn. lia.
    + intros [[[bp bj] bx] k] (-> & -> & -> & ->). cbn [bind]. fold R'. rewrite !over_all; [apply wp_ok; reflexivity|..].
      * unfold X0. rewrite repeat_length, map_length. lia.
      * unfold J0, zfst. rewrite repeat_length, map_length. lia.
      * unfold P0, R'. rewrite repeat_length, ptrs_length, map_length. lia.
Qed.
End Select.

Section Get.
Context {T : Type} {SC : Scalar T}.
Variable I : ity.
Implicit Types (R : list (list (nat * T))) (r : list (nat * T)) (cs rs : list nat).

Lemma CSR_get_rep (m : CSR T) R i k : csr_rep I m R -> i < csr_rows m -> CSR_get m (Z.of_nat i) (Z.of_nat k) = Ok (hd s0 (at_ k (nth i R []))).
Proof.
  intros [L H] Hi. unfold CSR_get. rewrite !to_usize_nat. cbn [bind]. rewrite <- L in Hi.
  destruct (crep_at_row _ _ _ _ _ _ _ H Hi) as (pre & post & ER & Lp & -> & ->). cbn [bind]. set (r := nth i R []) in *.
  apply wp_eq, wp_bind. eapply (wp_for_exit_list (fun ip _ => at_ k ip = []) (fun v => hd s0 (at_ k r) = v) r).
  - reflexivity.
  - reflexivity.
  - intros ip e iq [] Er Hip. rewrite (crep_pj H ER Er). cbn [bind]. destruct (Nat.eqb_spec (fst e) k) as [<-|N].
    + rewrite (crep_vx H ER Er). cbn [bind]. apply wp_ok. rewrite Er, at_app, Hip, at_cons, Nat.eqb_refl. reflexivity.
    + apply wp_ok. rewrite at_snoc, Hip. destruct (Nat.eqb_spec (fst e) k); [contradiction|reflexivity].
  - intros [] Hr. rewrite Hr. apply wp_ok. reflexivity.
  - intros v <-. apply wp_ok. reflexivity.
Qed.
Lemma CSR_get_neg (m : CSR T) i k : (i < 0 \/ k < 0)%Z -> CSR_get m i k = Panic.
Proof.
  intros H. unfold CSR_get, to_usize. destruct (Z.leb_spec 0 i); [|reflexivity]. cbn [bind]. destruct (Z.leb_spec 0 k); [lia|reflexivity].
Qed.
Lemma CSR_get_out (m : CSR T) R i k : csr_rep I m R -> csr_rows m <= i -> CSR_get m (Z.of_nat i) (Z.of_nat k) = Panic.
Proof.
  intros [L H] Hi. unfold CSR_get. rewrite !to_usize_nat. cbn [bind]. pose proof (cr_len _ _ _ _ _ _ H) as Lp.
  assert (G : pget (csr_rowptr m) (i + 1) = Panic). { unfold pget, vget. rewrite (proj2 (nth_error_None _ _)) by lia. reflexivity. }
  rewrite G. unfold pget. unfold vget. destruct (nth_error (csr_rowptr m) i) as [z|]; [|reflexivity]. cbn [bind]. unfold to_usize. destruct (0 <=? z)%Z; reflexivity.
Qed.

(** ** index lists *)
Lemma select_none n : (Z.of_nat n <= imax I + 1)%Z -> select_indices I n None = Ok (map Z.of_nat (seq 0 n)).
Proof. intros H. unfold select_indices. rewrite vresize_nil. apply fill_iota_ok; [rewrite repeat_length; reflexivity|exact H]. Qed.
Lemma for_each_tt {A} (f : A -> unit -> res unit) l : Forall (fun z => f z tt = Ok tt) l -> for_each l f tt = Ok tt.
Proof. intros F. induction F as [|z l Hz F IH]; [reflexivity|]. cbn [for_each]. rewrite Hz. cbn [bind]. exact IH. Qed.
Lemma for_each_err {A} (f : A -> unit -> res unit) (P : A -> Prop) e l : (forall z, P z -> f z tt = Ok tt) -> (forall z, P z \/ f z tt = Err e) -> ~ Forall P l -> for_each l f tt = Err e.
Proof.
  intros G1 G2. induction l as [|z l IH]; intros N; [exfalso; apply N; constructor|]. cbn [for_each]. destruct (G2 z) as [Hz| ->]; [|reflexivity]. rewrite (G1 z Hz). cbn [bind]. apply IH. intros F. apply N. constructor; assumption.
Qed.
Lemma select_some n l : (Z.of_nat n <= imax I)%Z -> in_range n l -> select_indices I n (Some l) = Ok l.
Proof.
  intros H F. unfold select_indices. rewrite for_each_tt; [reflexivity|]. eapply Forall_impl; [|exact F]. cbn beta. intros z Hz. destruct (Z.ltb_spec z 0); [lia|]. rewrite ifrom_ok by exact H. cbn [bind]. destruct (Z.leb_spec (Z.of_nat n) z); [lia|reflexivity].
Qed.
Lemma select_bad n l : (Z.of_nat n <= imax I)%Z -> ~ in_range n l -> select_indices I n (Some l) = Err ERange.
Proof.
  intros H N. unfold select_indices. rewrite (for_each_err _ (fun z => 0 <= z < Z.of_nat n)%Z ERange); [reflexivity|..|exact N]; cbn beta.
  - intros z Hz. destruct (Z.ltb_spec z 0); [lia|]. rewrite ifrom_ok by exact H. cbn [bind]. destruct (Z.leb_spec (Z.of_nat n) z); [lia|reflexivity].
  - intros z. destruct (Z.ltb_spec z 0); [right; reflexivity|]. rewrite ifrom_ok by exact H. cbn [bind]. destruct (Z.leb_spec (Z.of_nat n) z); [right; reflexivity|left; lia].
Qed.
Lemma select_ok n idx : (Z.of_nat n <= imax I)%Z -> picked_ok n idx -> select_indices I n idx = Ok (map Z.of_nat (picked n idx)) /\ Forall (fun i => i < n) (picked n idx).
Proof.
  intros H G. destruct idx as [l|]; cbn [picked picked_ok] in *.
  - split.
    + rewrite select_some by assumption. f_equal. rewrite map_map. rewrite <- (map_id l) at 1. apply map_ext_in. intros z Hz. unfold in_range in G. rewrite Forall_forall in G. specialize (G z Hz). lia.
    + apply Forall_map. eapply Forall_impl; [|exact G]. cbn. intros z Hz. lia.
  - split; [apply select_none; lia|]. apply Forall_forall. intros i Hi. apply in_seq in Hi. lia.
Qed.
Lemma select_nok n idx : (Z.of_nat n <= imax I)%Z -> ~ picked_ok n idx -> select_indices I n idx = Err ERange.
Proof. intros H G. destruct idx as [l|]; cbn [picked_ok] in *; [apply select_bad; assumption|tauto]. Qed.
Lemma picked_ok_dec n idx : picked_ok n idx \/ ~ picked_ok n idx.
Proof.
  destruct idx as [l|]; [|left; exact Logic.I]. cbn. induction l as [|z l IH]; [left; constructor|]. destruct (Z_lt_dec z 0); [right; intros F; inversion F; lia|]. destruct (Z_lt_dec z (Z.of_nat n)); [|right; intros F; inversion F; lia].
  destruct IH as [IH|IH]; [left; constructor; [lia|exact IH]|right; intros F; inversion F; contradiction].
Qed.

Lemma select_rows_fit R rs cs : (Z.of_nat (length cs) <= imax I + 1)%Z ->
  Forall (fun e => fst e < length cs /\ (Z.of_nat (fst e) <= imax I)%Z) (concat (map (fun i => sel 0 cs (nth i R [])) rs)).
Proof.
  intros H. apply Forall_concat, Forall_map, Forall_forall. intros i _. apply Forall_forall. intros e He. apply sel_in in He. lia.
Qed.
Lemma select_count R rs cs : length (concat (map (fun i => sel 0 cs (nth i R [])) rs)) = list_sum (map (fun i => list_sum (map (fun k => length (at_ k (nth i R []))) cs)) rs).
Proof.
  induction rs as [|i rs IH]; [reflexivity|]. cbn [map concat]. rewrite app_length, IH. change (list_sum (?a :: ?l)) with (a + list_sum l). f_equal.
  clear IH. generalize 0 as k. induction cs as [|c cs IHc]; intros k; [reflexivity|]. cbn [sel map]. rewrite app_length, map_length, IHc. reflexivity.
Qed.
Lemma select_crep R rs cs : (Z.of_nat (length cs) <= imax I + 1)%Z ->
  let R' := map (fun i => sel 0 cs (nth i R [])) rs in (Z.of_nat (length (concat R')) <= imax I)%Z ->
  crep I (length cs) (ptrs R') (zfst (concat R')) (map snd (concat R')) R'.
Proof. intros H R' Hf. apply crep_exact; [apply select_rows_fit, H|exact Hf]. Qed.
Lemma select_nth R rs cs i j : i < length rs -> j < length cs -> at_ j (nth i (map (fun i => sel 0 cs (nth i R [])) rs) []) = at_ (nth j cs 0) (nth (nth i rs 0) R []).
Proof.
  intros Hi Hj. rewrite (nth_indep _ [] (sel 0 cs (nth 0 R []))) by (rewrite map_length; exact Hi). rewrite (map_nth (fun i => sel 0 cs (nth i R []))). rewrite sel_at. cbn [Nat.leb andb plus].
  destruct (Nat.ltb_spec j (length cs)); [|lia]. rewrite Nat.sub_0_r. reflexivity.
Qed.
End Get.

(** ** Sub-matrices and rows *)
Section Sub.
Context {T : Type} {SC : Scalar T}.
Variable I : ity.
Implicit Types (R : list (list (nat * T))) (r : list (nat * T)).
Lemma vresize_length {A} (l : list A) n a : length (vresize l n a) = n.
Proof. unfold vresize. rewrite app_length, firstn_length, repeat_length. lia. Qed.

Lemma cut_snoc a b r e : cut a b (r ++ [e]) = cut a b r ++ (if (a <=? fst e) && (fst e <? b) then [(fst e - a, snd e)] else []).
Proof. unfold cut. rewrite filter_app, map_app. cbn. destruct (_ && _); reflexivity. Qed.
Lemma cut_app a b r1 r2 : cut a b (r1 ++ r2) = cut a b r1 ++ cut a b r2.
Proof. unfold cut. rewrite filter_app, map_app. reflexivity. Qed.
Lemma zcmp (a b c : nat) : ((Z.of_nat a <=? Z.of_nat c) && (Z.of_nat c <? Z.of_nat b))%Z = (a <=? c) && (c <? b).
Proof. f_equal; [destruct (Z.leb_spec (Z.of_nat a) (Z.of_nat c)), (Nat.leb_spec a c); lia|destruct (Z.ltb_spec (Z.of_nat c) (Z.of_nat b)), (Nat.ltb_spec c b); lia]. Qed.

Lemma skipn_nth {A} (l : list A) s d : s < length l -> skipn s l = nth s l d :: skipn (S s) l.
Proof. revert s. induction l as [|a l IH]; intros s H; cbn in H; [lia|]. destruct s as [|s]; [reflexivity|]. cbn [skipn nth]. rewrite IH by lia. reflexivity. Qed.
Lemma rows_le R s k : length (concat (map (fun i => nth (s + i) R []) (seq 0 k))) <= length (concat R).
Proof.
  assert (G : length (concat (map (fun i => nth (s + i) R []) (seq 0 k))) <= length (concat (skipn s R))).
  { revert s. induction k as [|k IH]; intros s; [cbn; lia|]. cbn [seq map concat]. rewrite <- seq_shift, map_map, app_length, Nat.add_0_r.
    rewrite (map_ext _ (fun i => nth (S s + i) R [])) by (intros; f_equal; lia). specialize (IH (S s)).
    destruct (Nat.lt_ge_cases s (length R)) as [Hs|Hs].
    - rewrite (skipn_nth R s []) by exact Hs. cbn [concat]. rewrite app_length. lia.
    - rewrite (nth_overflow R) by exact Hs. rewrite (skipn_all2 (n := S s)) in IH by lia. cbn in *. lia. }
  eapply Nat.le_trans; [apply G|]. rewrite <- (firstn_skipn s R) at 2. rewrite concat_app, app_length. lia.
Qed.
Lemma submatrix_spec n0 c0 c p j (x : list T) R (r0 r1 a b : nat) bp bj (bx : list T) : crep I c p j x R -> r0 <= r1 <= length R -> (Z.of_nat r1 <= imax I)%Z ->
  let R' := map (fun i => cut a b (nth (r0 + i) R [])) (seq 0 (r1 - r0)) in
  get_csr_submatrix I n0 c0 p j x (Z.of_nat r0) (Z.of_nat r1) (Z.of_nat a) (Z.of_nat b) bp bj bx = Ok (ptrs R', zfst (concat R'), map snd (concat R')).
Proof.
  intros H Hr Hi R'. unfold get_csr_submatrix. rewrite to_usize_nat. cbn [bind]. rewrite isub_ok by lia. cbn [bind]. replace (Z.of_nat r1 - Z.of_nat r0)%Z with (Z.of_nat (r1 - r0)) by lia. rewrite to_usize_nat. cbn [bind].
  set (n := r1 - r0) in *. set (G := fun i => cut a b (nth (r0 + i) R [])) in *.
  assert (Row : forall pre i post, seq 0 n = pre ++ i :: post -> length pre = i /\ i < n).
  { intros pre i post E. pose proof (f_equal (@length _) E) as E1. rewrite seq_length, app_length in E1. cbn in E1. pose proof (f_equal (fun l => nth (length pre) l 0) E) as E2. cbn beta in E2. rewrite nth_middle, seq_nth in E2 by lia. split; lia. }
  assert (Fit : forall k, length (concat (map G (seq 0 k))) <= length (concat R)).
  { intros k. apply Nat.le_trans with (length (concat (map (fun i => nth (r0 + i) R []) (seq 0 k)))).
    - induction (seq 0 k) as [|i l IH]; [reflexivity|]. cbn [map concat]. rewrite !app_length. unfold G at 1, cut. rewrite map_length. pose proof (filter_length_le (fun e : nat * T => (a <=? fst e) && (fst e <? b)) (nth (r0 + i) R [])). lia.
    - apply rows_le. }
  pose proof (cr_fit _ _ _ _ _ _ H) as Hfit.
  apply wp_eq, wp_bind. eapply (wp_for_list (fun pre k => k = length (concat (map G pre))) (seq 0 n)).
  - rewrite seq_length. reflexivity.
  - reflexivity.
  - intros pre i post k E ->. cbn [plus]. destruct (Row _ _ _ E) as [Li Hi']. rewrite Li. destruct (crep_at_row _ _ _ _ _ _ (r0 + i) H ltac:(lia)) as (pr & po & ER & L & -> & ->). cbn [bind].
    eapply (wp_for_list (fun ip k => k = length (concat (map G pre)) + length (cut a b ip)) (nth (r0 + i) R [])).
    + reflexivity.
    + cbn. lia.
    + intros ip e iq k Er ->. rewrite (crep_vj H ER Er). cbn [bind]. rewrite zcmp, cut_snoc, app_length. destruct (_ && _); apply wp_ok; cbn; lia.
    + intros k ->. rewrite map_app, concat_app, app_length. cbn [map concat]. rewrite app_nil_r. reflexivity.
  - intros k ->. fold R'.
    set (P0 := vresize bp (n + 1) 0%Z). set (J0 := vresize bj (length (concat R')) 0%Z). set (X0 := vresize bx (length (concat R')) s0).
    assert (V0 : vset P0 0 0%Z = Ok (over (ptrs (map G [])) P0)).
    { rewrite <- (over_nil P0) at 1. rewrite over_set; [reflexivity|reflexivity|unfold P0; rewrite vresize_length; lia]. }
    rewrite V0. cbn [bind]. apply wp_bind.
    eapply (wp_for_list (fun pre '(bp, bj, bx, k) => bp = over (ptrs (map G pre)) P0 /\ bj = over (zfst (concat (map G pre))) J0 /\ bx = over (map snd (concat (map G pre))) X0 /\ k = length (concat (map G pre))) (seq 0 n)).
    + rewrite seq_length. reflexivity.
    + sp.
    + intros pre i post [[[bp' bj'] bx'] k] E (-> & -> & -> & ->). cbn [plus]. destruct (Row _ _ _ E) as [Li Hi']. rewrite Li. destruct (crep_at_row _ _ _ _ _ _ (r0 + i) H ltac:(lia)) as (pr & po & ER & L & -> & ->). cbn [bind].
      assert (Tot : length (concat (map G pre)) + length (G i) + length (concat (map G post)) = length (concat R')).
      { unfold R'. rewrite E, map_app, concat_app, app_length. cbn [map concat]. rewrite app_length. lia. }
      apply wp_bind.
      eapply (wp_for_list (fun ip '(bj, bx, k) => let L' := concat (map G pre) ++ cut a b ip in bj = over (zfst L') J0 /\ bx = over (map snd L') X0 /\ k = length L') (nth (r0 + i) R [])).
      * reflexivity.
      * cbn. rewrite !app_nil_r. sp.
      * intros ip e iq [[bj' bx'] k] Er (-> & -> & ->). rewrite (crep_vj H ER Er). cbn [bind]. cbv zeta. rewrite zcmp, cut_snoc.
        assert (Le : length (cut a b ip) + length (if (a <=? fst e) && (fst e <? b) then [(fst e - a, snd e)] else []) <= length (G i)).
        { unfold G. rewrite Er. replace (ip ++ e :: iq) with ((ip ++ [e]) ++ iq) by (rewrite <- app_assoc; reflexivity). rewrite cut_app, cut_snoc, !app_length. lia. }
        destruct (Nat.leb_spec a (fst e)) as [La|La]; [destruct (fst e <? b)|]; cbn [andb length] in *.
        -- pose proof (crep_col H ER Er) as [_ Hc2]. rewrite isub_ok by lia. cbn [bind]. rewrite over_set; [|unfold zfst; rewrite map_length; reflexivity|unfold J0; rewrite vresize_length, app_length; lia]. cbn [bind].
           rewrite (crep_vx H ER Er). cbn [bind]. rewrite over_set; [|rewrite map_length; reflexivity|unfold X0; rewrite vresize_length, app_length; lia]. cbn [bind]. apply wp_ok.
           set (L' := concat (map G pre) ++ cut a b ip). rewrite app_assoc. fold L'. rewrite zfst_app, (map_app snd), app_length. cbn. replace (Z.of_nat (fst e) - Z.of_nat a)%Z with (Z.of_nat (fst e - a)) by lia. sp.
        -- apply wp_ok. rewrite app_nil_r. sp.
        -- apply wp_ok. rewrite app_nil_r. sp.
      * intros [[bj' bx'] k] (-> & -> & ->). cbn [bind]. fold (G i). assert (EG : concat (map G (pre ++ [i])) = concat (map G pre) ++ G i) by (rewrite map_app, concat_app; cbn; rewrite app_nil_r; reflexivity).
        rewrite <- EG. specialize (Fit n). fold R' in Fit. rewrite ifrom_ok by (rewrite EG, app_length; lia). cbn [bind]. rewrite over_set.
        -- cbn [bind]. apply wp_ok. sp. rewrite map_app. cbn [map]. rewrite ptrs_snoc. reflexivity.
        -- rewrite ptrs_length, map_length. lia.
        -- unfold P0. rewrite vresize_length. lia.
    + intros [[[bp' bj'] bx'] k] (-> & -> & -> & ->). cbn [bind]. fold R'. rewrite !over_all; [apply wp_ok; reflexivity|..].
      * unfold X0. rewrite vresize_length, map_length. lia.
      * unfold J0, zfst. rewrite vresize_length, map_length. lia.
      * unfold P0, R'. rewrite vresize_length, ptrs_length, map_length, seq_length. lia.
Qed.

Lemma crep_slices c p j (x : list T) R i : crep I c p j x R -> i < length R ->
  exists s e, pget p i = Ok s /\ pget p (i + 1) = Ok e /\ vslice j s e = Ok (zfst (nth i R [])) /\ vslice x s e = Ok (map snd (nth i R [])).
Proof.
  intros H Hi. destruct (crep_at_row _ _ _ _ _ _ i H Hi) as (pre & post & ER & L & E1 & E2). set (r := nth i R []) in *. eexists _, _. split; [exact E1|]. split; [exact E2|].
  destruct (cr_dat _ _ _ _ _ _ H) as [Hj Hx]. assert (EC : concat R = concat pre ++ r ++ concat post) by (rewrite ER, concat_app; reflexivity).
  pose proof (bdat_len_j _ _ _ (cr_dat _ _ _ _ _ _ H)) as Lj. pose proof (bdat_len_x _ _ _ (cr_dat _ _ _ _ _ _ H)) as Lx. rewrite EC, !app_length in Lj, Lx. rewrite EC, !map_app in Hj, Hx.
  split.
  - rewrite vslice_ok by lia. f_equal. replace (length (concat pre) + length r - length (concat pre)) with (length r) by lia.
    rewrite <- (firstn_skipn (length (concat pre ++ r ++ concat post)) j), Hj, <- !app_assoc. rewrite skipn_app_exact by (rewrite map_length; reflexivity). apply firstn_app_exact. unfold zfst. rewrite map_length. reflexivity.
  - rewrite vslice_ok by lia. f_equal. replace (length (concat pre) + length r - length (concat pre)) with (length r) by lia.
    rewrite <- (firstn_skipn (length (concat pre ++ r ++ concat post)) x), Hx, <- !app_assoc. rewrite skipn_app_exact by (rewrite map_length; reflexivity). apply firstn_app_exact. rewrite map_length. reflexivity.
Qed.
Definition rows_of R (rs : list nat) : list (nat * T) := flat_map (fun i => nth i R []) rs.
Lemma rows_of_snoc R rs i : rows_of R (rs ++ [i]) = rows_of R rs ++ nth i R [].
Proof. unfold rows_of. rewrite flat_map_app. cbn. rewrite app_nil_r. reflexivity. Qed.

Lemma row_index_spec c p j (x : list T) R rs bj bx : crep I c p j x R -> Forall (fun i => i < length R) rs ->
  csr_row_index (length rs) rs p j x bj bx = Ok (bj ++ zfst (rows_of R rs), bx ++ map snd (rows_of R rs)).
Proof.
  intros H F. unfold csr_row_index. apply wp_eq. eapply (wp_for_list (fun pre st => st = (bj ++ zfst (rows_of R pre), bx ++ map snd (rows_of R pre))) rs).
  - reflexivity.
  - cbn. rewrite !app_nil_r. reflexivity.
  - intros pre i post [bj' bx'] E Est. injection Est as -> ->. cbn [plus]. rewrite (vget_nth _ _ 0) by (rewrite E, app_length; cbn; lia). rewrite E, nth_middle. cbn [bind].
    assert (Hi : i < length R) by (rewrite Forall_forall in F; apply F; rewrite E; apply in_or_app; right; left; reflexivity).
    destruct (crep_slices _ _ _ _ _ i H Hi) as (s & e & -> & -> & E3 & E4). cbn [bind]. rewrite E3, E4. cbn [bind]. apply wp_ok. rewrite rows_of_snoc, zfst_app, map_app, !app_assoc. reflexivity.
  - intros st ->. reflexivity.
Qed.

Lemma stepped_nil start stop step : stop <= start -> stepped start stop step = [].
Proof. intros H. unfold stepped. replace (stop - start) with 0 by lia. reflexivity. Qed.
Lemma stepped_cons start stop step : 0 < step -> start < stop -> stepped start stop step = start :: stepped (start + step) stop step.
Proof.
  intros Hs H. unfold stepped.
  assert (G1 : forall k, 0 < k <= step -> filter (fun i => (i - start) mod step =? 0) (seq start k) = [start]).
  { intros k Hk. destruct k as [|k]; [lia|]. cbn [seq filter]. rewrite Nat.sub_diag, Nat.mod_0_l by lia. cbn [Nat.eqb]. f_equal.
    rewrite (filter_ext_in _ (fun _ => false)); [induction (seq (S start) k); [reflexivity|assumption]|]. intros i Hi. apply in_seq in Hi. rewrite Nat.mod_small by lia. apply Nat.eqb_neq. lia. }
  destruct (Nat.le_gt_cases (stop - start) step) as [L|L].
  - rewrite G1 by lia. replace (stop - (start + step)) with 0 by lia. reflexivity.
  - replace (stop - start) with (step + (stop - (start + step))) by lia. rewrite seq_app, filter_app, G1 by lia. cbn [app]. f_equal. apply filter_ext_in. intros i Hi. apply in_seq in Hi.
    replace (i - start) with (i - (start + step) + 1 * step) by lia. rewrite Nat.mod_add by lia. reflexivity.
Qed.

Lemma row_slice_spec c p j (x : list T) R start stop step fuel bj bx : crep I c p j x R -> stop <= length R -> 0 < step -> stop - start < fuel ->
  (Z.of_nat (start + length (stepped start stop step) * step) <= imax Usize)%Z ->
  csr_row_slice fuel start stop step p j x bj bx = Ok (bj ++ zfst (rows_of R (stepped start stop step)), bx ++ map snd (rows_of R (stepped start stop step))).
Proof.
  intros H Hr Hs Hf. unfold csr_row_slice. destruct (Nat.ltb_spec 0 step) as [_|]; [|lia].
  set (J := bj ++ zfst (rows_of R (stepped start stop step))). set (X := bx ++ map snd (rows_of R (stepped start stop step))). set (E := start + length (stepped start stop step) * step). intros HE.
  apply wp_eq, wp_bind.
  eapply (wp_while (fun '(row, bj, bx) => J = bj ++ zfst (rows_of R (stepped row stop step)) /\ X = bx ++ map snd (rows_of R (stepped row stop step)) /\ row + length (stepped row stop step) * step = E) (fun '(row, _, _) => stop - row)).
  - exact Hf.
  - repeat split; reflexivity.
  - intros [[row bj'] bx'] (EJ & EX & EE). apply wp_ok. destruct (Nat.ltb_spec row stop) as [Hl|Hl].
    + rewrite stepped_cons in EJ, EX, EE by lia. cbn [length] in EE.
      destruct (crep_slices _ _ _ _ _ row H ltac:(lia)) as (s & e & -> & -> & E3 & E4). cbn [bind]. rewrite E3, E4. cbn [bind]. rewrite uadd_ok by (cbn [imax] in *; nia). cbn [bind]. apply wp_ok. split; [|lia].
      unfold rows_of in *. cbn [flat_map] in EJ, EX. rewrite zfst_app in EJ. rewrite map_app in EX. rewrite <- !app_assoc. repeat split; [assumption|assumption|lia].
    + rewrite stepped_nil in EJ, EX by lia. cbn in EJ, EX. rewrite app_nil_r in EJ, EX. subst. apply wp_ok. reflexivity.
Qed.
Lemma row_slice_over c p j (x : list T) R start stop step fuel bj bx : crep I c p j x R -> stop <= length R -> 0 < step -> stop - start < fuel ->
  (Z.of_nat start <= imax Usize < Z.of_nat (start + length (stepped start stop step) * step))%Z ->
  csr_row_slice fuel start stop step p j x bj bx = Panic.
Proof.
  intros H Hr Hs Hf HE. unfold csr_row_slice. destruct (Nat.ltb_spec 0 step) as [_|]; [|lia]. cbv zeta.
  match goal with |- context [while fuel ?c ?b _] => assert (G : while fuel c b (start, bj, bx) = Panic) end; [|rewrite G; reflexivity].
  revert start bj bx Hf HE. induction fuel as [|fuel IH]; intros start bj bx Hf HE; [lia|]. cbn [while bind]. destruct (Nat.ltb_spec start stop) as [L|L].
  - destruct (crep_slices _ _ _ _ _ start H ltac:(lia)) as (s & e & -> & -> & E3 & E4). cbn [bind]. rewrite E3, E4. cbn [bind].
    destruct (Z_le_gt_dec (Z.of_nat (start + step)) (imax Usize)) as [O|O]; [|rewrite uadd_over by lia; reflexivity]. rewrite uadd_ok by exact O. cbn [bind]. apply IH; [lia|].
    rewrite stepped_cons in HE by lia. cbn [length] in HE. split; [exact O|]. destruct HE as [_ HE]. eapply Z.lt_le_trans; [exact HE|]. lia.
  - rewrite stepped_nil in HE by exact L. cbn [length] in HE. rewrite Nat.mul_0_l, Nat.add_0_r in HE. lia.
Qed.
Lemma row_slice_zero start stop fuel p j (x : list T) bj bx : start <= stop -> csr_row_slice (S fuel) start stop 0 p j x bj bx = Ok (bj, bx).
Proof. intros H. unfold csr_row_slice. cbn [while bind]. change (0 <? 0) with false. cbv iota beta. destruct (Nat.ltb_spec stop start); [lia|]. reflexivity. Qed.
Lemma row_slice_loop c p j (x : list T) R start stop fuel bj bx : crep I c p j x R -> stop < start -> start < length R -> (Z.of_nat start <= imax Usize)%Z -> csr_row_slice fuel start stop 0 p j x bj bx = NoFuel.
Proof.
  intros H H1 H2 HU. unfold csr_row_slice. change (0 <? 0) with false. cbv iota beta zeta. destruct (crep_slices _ _ _ _ _ start H H2) as (s & e & E1 & E2 & E3 & E4).
  match goal with |- context [while fuel ?c ?b _] => assert (G : forall bj bx, while fuel c b (start, bj, bx) = NoFuel) end.
  { induction fuel as [|fuel IH]; intros bj' bx'; [reflexivity|]. cbn [while bind]. destruct (Nat.ltb_spec stop start); [|lia]. rewrite E1, E2. cbn [bind]. rewrite E3, E4. cbn [bind]. rewrite uadd_ok by (rewrite Nat.add_0_r; exact HU). cbn [bind]. rewrite Nat.add_0_r. apply IH. }
  rewrite G. reflexivity.
Qed.

(** ** occupied diagonals *)
Lemma set_insert_in d l k : In k (set_insert d l) <-> k = d \/ In k l.
Proof.
  unfold set_insert. destruct (existsb (Nat.eqb d) l) eqn:E; [|cbn; intuition].
  apply existsb_exists in E. destruct E as (y & Hy & E). apply Nat.eqb_eq in E. subst y. split; [tauto|]. intros [->|]; assumption.
Qed.
Lemma set_insert_nodup d l : NoDup l -> NoDup (set_insert d l).
Proof.
  intros H. unfold set_insert. destruct (existsb (Nat.eqb d) l) eqn:E; [exact H|]. constructor; [|exact H]. intros Hd. assert (existsb (Nat.eqb d) l = true) by (apply existsb_exists; exists d; split; [exact Hd|apply Nat.eqb_refl]). congruence.
Qed.
Lemma count_diagonals_spec c p j (x : list T) R : crep I c p j x R -> Forall (fun t => fst t <= fst (snd t)) (flat 0 R) ->
  csr_count_diagonals (length R) p j = Ok (length (nodup Nat.eq_dec (map (fun t => fst (snd t) - fst t) (flat 0 R)))).
Proof.
  intros H F. unfold csr_count_diagonals. apply wp_eq, wp_bind.
  eapply (wp_flat (fun pre st => NoDup st /\ forall d, In d st <-> In d (map (fun t => fst (snd t) - fst t) pre)) _ _ _ _ _ _ (length R) (fun i jj diagonals => let* j := pget j jj in let* d := usub j i in Ok (set_insert d diagonals))); [exact H|reflexivity|..].
  - split; [constructor|reflexivity].
  - intros pre i e post st E M [N Hd]. rewrite (met_pj _ _ _ _ _ _ _ _ _ M). cbn [bind]. assert (Le : i <= fst e). { rewrite Forall_forall in F. apply (F (i, e)). rewrite E. apply in_or_app. right. left. reflexivity. }
    rewrite usub_ok by exact Le. cbn [bind]. apply wp_ok. split; [apply set_insert_nodup, N|]. intros d. rewrite set_insert_in, Hd, map_app, in_app_iff. cbn. intuition.
  - intros st [N Hd]. apply wp_ok. apply Nat.le_antisymm; apply NoDup_incl_length; try exact N; try apply NoDup_nodup; intros d; rewrite nodup_In, Hd; tauto.
Qed.
Lemma count_diagonals_lower c p j (x : list T) R : crep I c p j x R -> Exists (fun t => fst (snd t) < fst t) (flat 0 R) -> csr_count_diagonals (length R) p j = Panic.
Proof.
  intros H Ex. unfold csr_count_diagonals. eapply (pw_bind_panic _ _ (fun _ => Forall (fun t => fst t <= fst (snd t)) (flat 0 R))).
  2:{ intros a F. exfalso. apply Exists_exists in Ex. destruct Ex as (t & Ht & L). rewrite Forall_forall in F. specialize (F t Ht). lia. }
  clear Ex. eapply (pw_for_list (fun pre _ => Forall (fun t => fst t <= fst (snd t)) (flat 0 pre)) R).
  - reflexivity.
  - constructor.
  - intros pre r post st E F. cbn [plus]. rewrite (crep_start H E). cbn [bind]. rewrite (crep_end H E). cbn [bind].
    rewrite flat_app. cbn [flat plus]. rewrite app_nil_r. eapply pw_mono; [|intros a Fr; apply Forall_app; split; [exact F|exact Fr]]. clear F.
    eapply (pw_for_list (fun ip _ => Forall (fun t => fst t <= fst (snd t)) (map (pair (length pre)) ip)) r).
    + reflexivity.
    + constructor.
    + intros ip e iq st' Er F. rewrite (crep_pj H E Er). cbn [bind]. unfold usub. destruct (Nat.leb_spec (length pre) (fst e)).
      * cbn [bind]. apply pw_ok. rewrite map_app. apply Forall_app. split; [exact F|]. constructor; [assumption|constructor].
      * apply pw_panic.
    + intros _ F. exact F.
  - intros _ F. exact F.
Qed.
End Sub.

(** ** Columns gathered through an ordering of the positions *)
Lemma nth_map_seq {A} (f : nat -> A) s n k d : k < n -> nth k (map f (seq s n)) d = f (s + k).
Proof. intros H. rewrite (nth_indep _ d (f 0)) by (rewrite map_length, seq_length; exact H). rewrite map_nth, seq_nth by exact H. reflexivity. Qed.
Lemma crep_flat_met {T} I c p j (x : list T) R pre e post : crep I c p j x R -> concat R = pre ++ e :: post ->
  pget j (length pre) = Ok (fst e) /\ vget x (length pre) = Ok (snd e) /\ fst e < c.
Proof.
  intros H E. split; [exact (bdat_pj _ _ _ _ _ _ (cr_dat _ _ _ _ _ _ H) E)|]. split; [exact (bdat_vx _ _ _ _ _ _ (cr_dat _ _ _ _ _ _ H) E)|].
  pose proof (cr_idx _ _ _ _ _ _ H) as F. rewrite Forall_forall in F. apply F. rewrite E. apply in_or_app. right. left. reflexivity.
Qed.
Lemma repeat_map_seq {A} (a : A) s n : repeat a n = map (fun _ => a) (seq s n).
Proof. revert s. induction n as [|n IH]; intros s; [reflexivity|]. cbn. f_equal. apply IH. Qed.
Section Cols.
Context {T : Type} {SC : Scalar T}.
Variable I : ity.
Implicit Types (R : list (list (nat * T))) (r : list (nat * T)).
Variables (cs o : list nat).
Notation key k := (nth k cs 0).
Definition seg (v : nat) : list nat := filter (fun k => key k =? v) o.
Definition cnt (v : nat) : nat := count_occ Nat.eq_dec cs v.

Lemma filter_filter {A} (f g : A -> bool) l : filter f (filter g l) = filter (fun a => g a && f a) l.
Proof. induction l as [|a l IH]; [reflexivity|]. cbn. destruct (g a); cbn; [destruct (f a)|]; rewrite ?IH; reflexivity. Qed.
Lemma sorted_split (l : list nat) c : StronglySorted (fun a b => key a <= key b) l -> l = filter (fun k => key k <? c) l ++ filter (fun k => c <=? key k) l.
Proof.
  intros S. induction S as [|a l S IH F]; [reflexivity|]. cbn [filter]. destruct (Nat.ltb_spec (key a) c), (Nat.leb_spec c (key a)); try lia.
  - cbn [app]. f_equal. exact IH.
  - assert (E1 : filter (fun k => key k <? c) l = []). { clear IH S. induction F as [|b l Hb F IHF]; [reflexivity|]. cbn [filter]. destruct (Nat.ltb_spec (key b) c); [lia|]. exact IHF. }
    assert (E2 : filter (fun k => c <=? key k) l = l). { rewrite E1 in IH. symmetry. exact IH. }
    rewrite E1, E2. reflexivity.
Qed.
Lemma seg_all c : StronglySorted (fun a b => key a <= key b) o -> filter (fun k => key k <? c) o = concat (map seg (seq 0 c)).
Proof.
  intros SS. induction c as [|c IH].
  - cbn. induction o; [reflexivity|]. cbn. inversion SS; subst. auto.
  - rewrite seq_S, map_app, concat_app. cbn [map concat plus]. rewrite app_nil_r, <- IH. rewrite (sorted_split (filter (fun k => key k <? S c) o) c) at 1.
    + rewrite !filter_filter. f_equal; [apply filter_ext|unfold seg; apply filter_ext]; intros k; lia || idtac.
      * destruct (Nat.ltb_spec (key k) (S c)), (Nat.ltb_spec (key k) c); cbn; lia.
      * destruct (Nat.ltb_spec (key k) (S c)), (Nat.leb_spec c (key k)), (Nat.eqb_spec (key k) c); cbn; lia.
    + clear IH. induction SS as [|a l SS IH F]; [constructor|]. cbn [filter]. destruct (_ <? _); [|exact IH]. constructor; [exact IH|]. apply Forall_forall. intros b Hb. apply filter_In in Hb. rewrite Forall_forall in F. apply F, Hb.
Qed.
Hypothesis Ho : Permutation o (seq 0 (length cs)).
Hypothesis Hs : StronglySorted (fun a b => key a <= key b) o.
Lemma perm_filter_length {A} (f : A -> bool) l l' : Permutation l l' -> length (filter f l) = length (filter f l').
Proof. intros P. induction P; cbn; try (destruct (f x)); try (destruct (f y)); cbn; congruence || lia. Qed.
Lemma seg_length v : length (seg v) = cnt v.
Proof.
  unfold seg, cnt. rewrite (perm_filter_length _ _ _ Ho). clear. set (g := fun n (l : list nat) => filter (fun k => nth (k - n) l 0 =? v) (seq n (length l))).
  assert (G : forall l n, length (g n l) = count_occ Nat.eq_dec l v).
  { induction l as [|a l IH]; intros n; [reflexivity|]. unfold g in *. cbn [length seq filter count_occ]. rewrite Nat.sub_diag. cbn [nth]. specialize (IH (S n)).
    rewrite (filter_ext_in _ (fun k => nth (k - S n) l 0 =? v)) by (intros k Hk; apply in_seq in Hk; replace (k - n) with (S (k - S n)) by lia; reflexivity).
    destruct (Nat.eqb_spec a v), (Nat.eq_dec a v); try contradiction; cbn [length]; lia. }
  rewrite <- (G cs 0). unfold g. f_equal. apply filter_ext. intros k. rewrite Nat.sub_0_r. reflexivity.
Qed.
Variable c : nat.
Hypothesis Hc : Forall (fun v => v < c) cs.
Lemma key_lt k : In k o -> key k < c.
Proof. intros Hk. rewrite Ho in Hk. apply in_seq in Hk. rewrite Forall_forall in Hc. apply Hc, nth_In. lia. Qed.
Lemma o_segs : o = concat (map seg (seq 0 c)).
Proof.
  rewrite <- seg_all by exact Hs. symmetry. assert (F : Forall (fun k => key k < c) o) by (apply Forall_forall; exact key_lt). clear Ho Hs. induction F as [|a l Ha F IH]; [reflexivity|]. cbn [filter]. destruct (Nat.ltb_spec (nth a cs 0) c); [|lia]. f_equal. exact IH.
Qed.
(** entries in columns before [v] *)
Definition cum (v : nat) : nat := list_sum (map cnt (seq 0 v)).
Lemma cum_S v : cum (S v) = cum v + cnt v.
Proof. unfold cum. rewrite seq_S, map_app, list_sum_app. cbn. lia. Qed.
Lemma cum_concat v : cum v = length (concat (map seg (seq 0 v))).
Proof. induction v as [|v IH]; [reflexivity|]. rewrite cum_S, IH, seq_S, map_app, concat_app, app_length. cbn. rewrite app_nil_r, seg_length. reflexivity. Qed.
Lemma cum_le v w : v <= w -> cum v <= cum w.
Proof. intros H. induction H; [lia|]. rewrite cum_S. lia. Qed.
Lemma cum_all v : v <= c -> cum v <= length cs.
Proof.
  intros H. apply Nat.le_trans with (cum c); [apply cum_le, H|]. rewrite cum_concat, <- o_segs, (Permutation_length Ho), seq_length. lia.
Qed.
Lemma o_split v : v < c -> exists post, o = concat (map seg (seq 0 v)) ++ seg v ++ post.
Proof.
  intros H. assert (E : seq 0 c = seq 0 v ++ v :: seq (S v) (c - v - 1)) by (replace c with (v + S (c - v - 1)) at 1 by lia; rewrite seq_app; reflexivity). exists (concat (map seg (seq (S v) (c - v - 1)))). rewrite o_segs at 1. rewrite E, map_app, concat_app. reflexivity.
Qed.

Definition pick r : list (nat * T) := flat_map (fun e => map (fun k => (k, snd e)) (seg (fst e))) r.
Lemma pick_app r1 r2 : pick (r1 ++ r2) = pick r1 ++ pick r2.
Proof. apply flat_map_app. Qed.
Lemma pick_length r : length (pick r) = list_sum (map (fun e => cnt (fst e)) r).
Proof. induction r as [|e r IH]; [reflexivity|]. cbn [pick flat_map map]. rewrite app_length, map_length, seg_length. change (list_sum (?a :: ?l)) with (a + list_sum l). unfold pick in IH. rewrite IH. reflexivity. Qed.
Lemma pick_concat R : concat (map pick R) = pick (concat R).
Proof. induction R as [|r R IH]; [reflexivity|]. cbn [map concat]. rewrite pick_app, IH. reflexivity. Qed.
Lemma pick_at k r : k < length cs -> at_ k (pick r) = at_ (key k) r.
Proof.
  intros Hk. induction r as [|e r IH]; [reflexivity|]. change (pick (e :: r)) with (map (fun k => (k, snd e)) (seg (fst e)) ++ pick r). rewrite at_app, IH, (at_cons _ e). clear IH.
  assert (G : at_ k (map (fun k => (k, snd e)) (seg (fst e))) = if fst e =? key k then [snd e] else []).
  { unfold seg. assert (N : NoDup o) by (eapply Permutation_NoDup; [symmetry; exact Ho|apply seq_NoDup]).
    assert (Hin : In k o) by (rewrite Ho; apply in_seq; lia). apply in_split in Hin. destruct Hin as (l1 & l2 & E). rewrite E in N |- *. apply NoDup_remove_2 in N. rewrite in_app_iff in N.
    rewrite filter_app, map_app, at_app.
    assert (Z : forall l, ~ In k l -> at_ k (map (fun k => (k, snd e)) (filter (fun k => key k =? fst e) l)) = []).
    { induction l as [|a l IH]; intros Hn; [reflexivity|]. cbn in Hn. cbn [filter]. destruct (_ =? _); [|apply IH; tauto]. cbn [map]. rewrite at_cons. cbn [fst snd]. destruct (Nat.eqb_spec a k); [tauto|]. apply IH. tauto. }
    rewrite Z by tauto. cbn [app filter]. rewrite (Nat.eqb_sym (fst e)). destruct (Nat.eqb_spec (key k) (fst e)) as [Ek|Ek].
    - cbn [map]. rewrite at_cons. cbn [fst snd]. rewrite Nat.eqb_refl, Z by tauto. reflexivity.
    - apply Z. tauto. }
  rewrite G. destruct (fst e =? key k); reflexivity.
Qed.
Lemma pick_lt e r : In e (pick r) -> fst e < length cs.
Proof. unfold pick. rewrite in_flat_map. intros (d & _ & He). apply in_map_iff in He. destruct He as (k & <- & Hk). cbn. apply filter_In in Hk. destruct Hk as [Hk _]. rewrite Ho in Hk. apply in_seq in Hk. lia. Qed.

Hypothesis Hfit : (Z.of_nat (length cs) <= imax I)%Z.
Lemma cnt_le v : cnt v <= length cs.
Proof. rewrite <- seg_length. unfold seg. rewrite filter_length_le. rewrite (Permutation_length Ho), seq_length. lia. Qed.
Lemma column_index1_spec p j (x : list T) R bp : crep I c p j x R -> length bp = S (length R) -> (Z.of_nat (length (pick (concat R))) <= imax I)%Z ->
  csr_column_index1 I (length cs) cs (length R) c p j (repeat 0%Z c) bp = Ok (map (fun v => Z.of_nat (cum (S v))) (seq 0 c), ptrs (map pick R)).
Proof.
  intros H Lb Hf. unfold csr_column_index1. apply wp_eq, wp_bind.
  eapply (wp_for_list (fun pre co => co = map (fun v => Z.of_nat (count_occ Nat.eq_dec pre v)) (seq 0 c)) cs).
  - reflexivity.
  - apply repeat_map_seq.
  - intros pre v post co E ->. cbn [plus]. rewrite (vget_nth _ _ 0) by (rewrite E, app_length; cbn; lia). rewrite E at 1. rewrite nth_middle. cbn [bind].
    assert (Hv : v < c) by (rewrite Forall_forall in Hc; apply Hc; rewrite E; apply in_or_app; right; left; reflexivity).
    unfold vinc. rewrite (vget_nth _ _ 0%Z) by (rewrite map_length, seq_length; exact Hv). rewrite nth_map_seq by exact Hv. cbn [bind plus]. pose proof (count_occ_bound Nat.eq_dec v pre) as Hle. pose proof (f_equal (@length _) E) as EL. rewrite app_length in EL. cbn in EL.
    rewrite iadd_ok by lia. cbn [bind]. rewrite vset_ok by (rewrite map_length, seq_length; exact Hv). apply wp_ok.
    apply (nth_ext _ _ 0%Z 0%Z); [rewrite upd_length, !map_length; reflexivity|]. intros k Hk. rewrite upd_length, map_length, seq_length in Hk. rewrite nth_upd, map_length, seq_length, (proj2 (Nat.ltb_lt v c) Hv), andb_true_r. rewrite !nth_map_seq by exact Hk. cbn [plus]. rewrite count_occ_app. cbn [count_occ].
    destruct (Nat.eqb_spec k v) as [->|N]; destruct (Nat.eq_dec v _); try congruence; lia.
  - intros co ->. fold cnt. rewrite <- (over_nil bp) at 1. rewrite over_set by (cbn; lia). cbn [bind app]. apply wp_bind.
    eapply (wp_for_list (fun pre '(b, n) => b = over (ptrs (map pick pre)) bp /\ n = Z.of_nat (length (pick (concat pre)))) R).
    + reflexivity.
    + sp.
    + intros pre r post [b n] E (-> & ->). cbn [plus]. rewrite (crep_start H E). cbn [bind]. rewrite (crep_end H E). cbn [bind]. apply wp_bind.
      eapply (wp_for_list (fun ip n => n = Z.of_nat (length (pick (concat pre ++ ip)))) r).
      * reflexivity.
      * rewrite app_nil_r. reflexivity.
      * intros ip e iq n Er ->. rewrite (crep_pj H E Er). cbn [bind]. pose proof (crep_col H E Er) as [Hcol _]. rewrite (vget_nth _ _ 0%Z) by (rewrite map_length, seq_length; exact Hcol). rewrite nth_map_seq by exact Hcol. cbn [bind plus].
        assert (Le : length (pick (concat pre ++ ip)) + cnt (fst e) <= length (pick (concat R))).
        { rewrite E, concat_app. cbn [concat]. rewrite Er. change (e :: iq) with ([e] ++ iq). rewrite !pick_app, !app_length, (pick_length [e]). cbn. lia. }
        fold (cnt (fst e)). rewrite iadd_ok by lia. apply wp_ok. rewrite app_assoc, (pick_app (concat pre ++ ip)), (app_length (pick _)), (pick_length [e]). cbn. lia.
      * intros n ->. rewrite over_set.
        -- cbn [bind]. apply wp_ok. rewrite concat_app. cbn [concat]. rewrite app_nil_r. split; [|reflexivity]. f_equal. rewrite map_app. cbn [map]. rewrite ptrs_snoc. change [pick r] with (map pick [r]). rewrite <- map_app, pick_concat, concat_app. cbn [concat]. rewrite app_nil_r. reflexivity.
        -- rewrite ptrs_length, map_length. lia.
        -- rewrite E in Lb. rewrite app_length in Lb. cbn in Lb. lia.
    + intros [b n] (-> & ->). cbn [bind]. apply wp_bind. rewrite over_all by (rewrite ptrs_length, map_length; lia).
      destruct (Nat.eq_dec c 0) as [->|Nc]; [rewrite for_range_nil by lia; apply wp_ok; apply wp_ok; reflexivity|].
      apply (wp_for (fun jj co => length co = c /\ forall v, v < c -> nth v co 0%Z = Z.of_nat (if v <? jj then cum (S v) else cnt v))).
      * lia.
      * split; [rewrite map_length, seq_length; reflexivity|]. intros v Hv. rewrite nth_map_seq by exact Hv. cbn [plus]. destruct (Nat.ltb_spec v 1); [|reflexivity]. replace v with 0 by lia. unfold cum. cbn. fold (cnt 0). lia.
      * intros k co Hk [Lc Hco]. rewrite (vget_nth _ _ 0%Z) by lia. cbn [bind]. unfold vinc. rewrite (vget_nth _ _ 0%Z) by lia. cbn [bind]. rewrite !Hco by lia. rewrite Nat.ltb_irrefl. destruct (Nat.ltb_spec (k - 1) k); [|lia]. replace (S (k - 1)) with k by lia.
        pose proof (cum_S k). pose proof (cum_all (S k) ltac:(lia)). rewrite iadd_ok by lia. cbn [bind]. rewrite vset_ok by lia. apply wp_ok. split; [rewrite upd_length; exact Lc|]. intros v Hv. destruct (Nat.eq_dec v k) as [->|N].
        -- rewrite nth_upd_eq by lia. destruct (Nat.ltb_spec k (S k)); [|lia]. lia.
        -- rewrite nth_upd_ne by exact N. rewrite Hco by exact Hv. destruct (Nat.ltb_spec v k), (Nat.ltb_spec v (S k)); try lia; reflexivity.
      * intros co [Lc Hco]. apply wp_ok. f_equal. symmetry. apply (nth_ext _ _ 0%Z 0%Z); [rewrite map_length, seq_length; exact Lc|]. intros v Hv. rewrite Lc in Hv. rewrite Hco by exact Hv. rewrite nth_map_seq by exact Hv. cbn [plus]. destruct (Nat.ltb_spec v c); [reflexivity|lia].
Qed.
Lemma column_index2_spec p j (x : list T) R bj bx : crep I c p j x R -> length bj = length (pick (concat R)) -> length bx = length (pick (concat R)) ->
  csr_column_index2 (map Z.of_nat o) (map (fun v => Z.of_nat (cum (S v))) (seq 0 c)) (length (concat R)) j x bj bx = Ok (zfst (pick (concat R)), map snd (pick (concat R))).
Proof.
  intros H Lj Lx. unfold csr_column_index2.
  assert (Hcum : forall v, v < c -> pget (map (fun v => Z.of_nat (cum (S v))) (seq 0 c)) v = Ok (cum (S v))).
  { intros v Hv. unfold pget. rewrite (vget_nth _ _ 0%Z) by (rewrite map_length, seq_length; exact Hv). rewrite nth_map_seq by exact Hv. cbn [bind plus]. apply to_usize_nat. }
  apply wp_eq, wp_bind.
  eapply (wp_for_list (fun pre '(b, y, n) => b = over (zfst (pick pre)) bj /\ y = over (map snd (pick pre)) bx /\ n = length (pick pre)) (concat R)).
  - reflexivity.
  - sp.
  - intros pre e post [[b y] n] E (-> & -> & ->). cbn [plus]. destruct (crep_flat_met _ _ _ _ _ _ _ _ _ H E) as (Mj & Mx & Mc). rewrite Mj. cbn [bind]. rewrite Hcum by exact Mc. cbn [bind].
    assert (P : (if fst e =? 0 then Ok 0 else pget (map (fun v => Z.of_nat (cum (S v))) (seq 0 c)) (fst e - 1)) = Ok (cum (fst e))).
    { destruct (Nat.eqb_spec (fst e) 0) as [->|N]; [reflexivity|]. rewrite Hcum by lia. replace (S (fst e - 1)) with (fst e) by lia. reflexivity. }
    rewrite P. cbn [bind]. rewrite cum_S.
    assert (EP : pick (pre ++ [e]) = pick pre ++ map (fun k => (k, snd e)) (seg (fst e))) by (rewrite pick_app; cbn; rewrite app_nil_r; reflexivity).
    destruct (Nat.eqb_spec (cum (fst e) + cnt (fst e)) (cum (fst e))) as [Ez|Nz]; cbn [negb].
    + apply wp_ok. rewrite EP. rewrite <- seg_length in Ez. destruct (seg (fst e)); [|cbn in Ez; lia]. cbn [map]. rewrite app_nil_r. sp.
    + rewrite Mx. cbn [bind]. rewrite EP.
      assert (Tot : length (pick pre) + length (seg (fst e)) <= length (pick (concat R))).
      { rewrite E. change (e :: post) with ([e] ++ post). rewrite !pick_app, !app_length. cbn. rewrite app_nil_r, map_length. lia. }
      eapply (wp_for_list (fun ip '(b, y, n) => let L := pick pre ++ map (fun k => (k, snd e)) ip in b = over (zfst L) bj /\ y = over (map snd L) bx /\ n = length L) (seg (fst e))).
      * rewrite seg_length. reflexivity.
      * cbn [map]. cbv zeta. rewrite app_nil_r. sp.
      * intros ip k iq [[b y] n] Ek (-> & -> & ->). destruct (o_split (fst e) Mc) as (po & Eo).
        rewrite cum_concat. rewrite (vget_nth _ _ 0%Z) by (rewrite map_length, Eo, Ek, !app_length; cbn; lia). change 0%Z with (Z.of_nat 0) at 1. rewrite map_nth. rewrite Eo, Ek, <- app_assoc. cbn [app]. rewrite app_nth2_plus. rewrite nth_middle. cbn [bind].
        rewrite Ek, app_length in Tot. cbn in Tot. rewrite over_set; [|unfold zfst; rewrite map_length; reflexivity|rewrite app_length, map_length; lia]. cbn [bind]. rewrite over_set; [|rewrite map_length; reflexivity|rewrite app_length, map_length; lia]. cbn [bind]. apply wp_ok. cbv zeta.
        set (L := pick pre ++ map (fun k => (k, snd e)) ip). rewrite map_app, app_assoc. fold L. cbn [map]. rewrite zfst_app, (map_app snd), app_length. cbn. sp.
      * intros [[b y] n] (-> & -> & ->). sp.
  - intros [[b y] n] (-> & -> & ->). apply wp_ok. rewrite !over_all; [reflexivity|rewrite map_length; lia|unfold zfst; rewrite map_length; lia].
Qed.
End Cols.

Section SubPanic.
Context {T : Type} {SC : Scalar T}.
Variable I : ity.
Lemma pget_out p i : length p <= i -> pget p i = Panic.
Proof. intros H. unfold pget, vget. rewrite (proj2 (nth_error_None _ _)) by exact H. reflexivity. Qed.
Lemma submatrix_reversed n0 c0 p j (x : list T) r0 r1 a b bp bj bx : (r1 < r0)%Z -> get_csr_submatrix I n0 c0 p j x r0 r1 a b bp bj bx = Panic.
Proof.
  intros H. unfold get_csr_submatrix. unfold to_usize at 1. destruct (0 <=? r0)%Z; [|reflexivity]. cbn [bind]. unfold isub. destruct (pw_icheck I (r1 - r0)%Z) as [->|(z & -> & -> & _)]; [reflexivity|]. cbn [bind].
  unfold to_usize at 1. destruct (Z.leb_spec 0 (r1 - r0)); [lia|reflexivity].
Qed.
Lemma submatrix_outside n0 c0 c p j (x : list T) R (r0 r1 : nat) a b bp bj bx : crep I c p j x R -> r0 < r1 -> length R < r1 ->
  get_csr_submatrix I n0 c0 p j x (Z.of_nat r0) (Z.of_nat r1) a b bp bj bx = Panic.
Proof.
  intros H H1 H2. unfold get_csr_submatrix. rewrite to_usize_nat. cbn [bind]. unfold isub. destruct (pw_icheck I (Z.of_nat r1 - Z.of_nat r0)%Z) as [->|(z & -> & -> & _)]; [reflexivity|]. cbn [bind].
  replace (Z.of_nat r1 - Z.of_nat r0)%Z with (Z.of_nat (r1 - r0)) by lia. rewrite to_usize_nat. cbn [bind].
  rewrite (for_range_panic _ _ _ _ (r1 - r0 - 1)); [reflexivity|lia|..].
  - intros i s _. apply pw_bind. eapply pw_mono; [apply pw_pget|]. intros s1 _. apply pw_bind. eapply pw_mono; [apply pw_pget|]. intros e1 _. apply pw_for_any. intros k s' _. apply pw_bind. eapply pw_mono; [apply pw_vget|]. intros z _. destruct (_ && _); apply pw_ok; exact Logic.I.
  - intros s. destruct (pw_pget p (r0 + (r1 - r0 - 1))) as [->|(s1 & -> & _)]; [reflexivity|]. cbn [bind]. rewrite pget_out; [reflexivity|]. rewrite (cr_len _ _ _ _ _ _ H). lia.
Qed.
End SubPanic.
