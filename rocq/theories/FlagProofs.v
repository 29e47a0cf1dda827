(** Component flags: [cs_graph_components]. *)
From Verif Require Import Rust Scalar Model_kernels Model_matrix Model_graph Spec SpecGraph Wp Rep ScatterProofs ConvProofs GraphProofs.

Lemma pget_inv p i s : pget p i = Ok s -> vget p i = Ok (Z.of_nat s).
Proof.
  unfold pget. destruct (vget p i) as [z| | |]; cbn; try discriminate. unfold to_usize. destruct (Z.leb_spec 0 z); [|discriminate]. intros [= <-]. rewrite Z2Nat.id by assumption. reflexivity.
Qed.
Lemma pget_of p i s : vget p i = Ok (Z.of_nat s) -> pget p i = Ok s.
Proof. unfold pget. intros ->. cbn. apply to_usize_nat. Qed.

Section Seed.
Variable n : nat.
(** first node still flagged -1 *)
Lemma seed_ok flag : length flag = n -> (exists u, u < n /\ nth u flag 0%Z = (-1)%Z) -> (forall u, u < n -> (nth u flag 0 = -1 \/ nth u flag 0 = -2 \/ 0 <= nth u flag 0)%Z) ->
  wp (while (S n) (fun ii => let* f := vget flag ii in Ok ((0 <=? f)%Z || (f =? -2)%Z))
      (fun ii => let ii := ii + 1 in if n <=? ii then Err ECorrupt else Ok ii) 0)
    (fun ii => ii < n /\ nth ii flag 0%Z = (-1)%Z /\ forall j, j < ii -> nth j flag 0%Z <> (-1)%Z).
Proof.
  intros L (u & Hu & Eu) Hall. eapply (wp_while (fun ii => ii <= u /\ forall j, j < ii -> nth j flag 0%Z <> (-1)%Z) (fun ii => n - ii)).
  - lia.
  - split; lia.
  - intros ii [Hii Hj]. rewrite (vget_nth _ _ 0%Z) by lia. cbn [bind]. apply wp_ok. specialize (Hall ii ltac:(lia)). destruct (Z.leb_spec 0 (nth ii flag 0%Z)), (Z.eqb_spec (nth ii flag 0%Z) (-2)); cbn [orb].
    1-3: assert (ii <> u) by (intros ->; lia); destruct (Nat.leb_spec n (ii + 1)); [lia|]; apply wp_ok; (split; [split; [lia|]|lia]); intros j Hj'; (destruct (Nat.eq_dec j ii) as [->|D]; [lia|apply Hj; lia]).
    sp; [lia|lia|exact Hj].
Qed.
Lemma seed_none flag : length flag = n -> 0 < n -> (forall u, u < n -> nth u flag 0%Z = (-2)%Z) ->
  while (S n) (fun ii => let* f := vget flag ii in Ok ((0 <=? f)%Z || (f =? -2)%Z))
      (fun ii => let ii := ii + 1 in if n <=? ii then Err ECorrupt else Ok ii) 0 = Err ECorrupt.
Proof.
  intros L Hn Hall. set (c := fun ii => _). set (b := fun ii => _).
  assert (K : forall fuel ii, ii < n -> n - ii < fuel -> while fuel c b ii = Err ECorrupt).
  { induction fuel as [|fuel IH]; intros ii Hi Hf; [lia|]. cbn [while]. unfold c at 1. rewrite (vget_nth _ _ 0%Z) by lia. cbn [bind]. rewrite (Hall ii Hi). cbn [orb Z.leb Z.eqb]. cbn. unfold b at 1. destruct (Nat.leb_spec n (ii + 1)); [reflexivity|]. cbn [bind]. apply IH; lia. }
  apply K; lia.
Qed.

End Seed.

Section Flags.
Variables (I F : ity) (n : nat) (idx ptr : list Z) (adj : nat -> list nat).
Hypothesis G : is_graph n idx ptr adj.
Definition busy (v : nat) : bool := match adj v with [] => false | _ => true end.
Definition busies : list nat := filter busy (seq 0 n).
Hypothesis F_signed : (imin F <= -2)%Z.
Hypothesis F_fit : (Z.of_nat (length busies) <= imax F + 1)%Z.
Hypothesis I_fit : (Z.of_nat (length busies) <= imax I)%Z.
Hypothesis I_rows : forall v, v < n -> busy v = true -> (Z.of_nat v <= imax I)%Z.

Definition hop (x y : nat) : Prop := x < n /\ In y (adj x) /\ busy y = true.
Notation path := (clos_refl_trans nat hop).

Lemma in_busies u : In u busies <-> u < n /\ busy u = true.
Proof. unfold busies. rewrite filter_In, in_seq. intuition lia. Qed.
Lemma busies_nodup : NoDup busies.
Proof. apply NoDup_filter, seq_NoDup. Qed.

(** state after [c] components *)
Definition flags_ok (c : nat) (flag : list Z) : Prop :=
  length flag = n /\
  (forall u, u < n -> busy u = false -> nth u flag 0%Z = (-2)%Z) /\
  (forall u, u < n -> busy u = true -> nth u flag 0%Z = (-1)%Z \/ (0 <= nth u flag 0 < Z.of_nat c)%Z) /\
  (forall k x y, k < c -> x < n -> (0 <= nth x flag 0 <= Z.of_nat k)%Z -> hop x y -> (0 <= nth y flag 0 <= Z.of_nat k)%Z) /\
  (forall k, k < c -> exists s, s < n /\ nth s flag 0%Z = Z.of_nat k /\ (forall u, u < n -> nth u flag 0%Z = Z.of_nat k -> path s u) /\
     forall j, j < s -> busy j = true -> (0 <= nth j flag 0 < Z.of_nat k)%Z).

Section Search.
Variables (flag0 : list Z) (c ii : nat).
Definition bfs (Q : list nat) (flag pos : list Z) : Prop :=
  length flag = n /\ length pos = n /\ NoDup Q /\ In ii Q /\ firstn (length Q) pos = map Z.of_nat Q /\
  (forall u, In u Q -> u < n /\ busy u = true /\ nth u flag0 0%Z = (-1)%Z /\ path ii u /\ nth u flag 0%Z = Z.of_nat c) /\
  (forall u, ~ In u Q -> nth u flag 0%Z = nth u flag0 0%Z).
Definition handled (Q : list nat) (x : nat) : Prop := forall y, hop x y -> In y Q \/ nth y flag0 0%Z <> (-1)%Z.
Hypothesis H0 : flags_ok c flag0.

Lemma bfs_len Q flag pos : bfs Q flag pos -> length Q <= n.
Proof. intros (_ & _ & N & _ & _ & B & _). apply nodup_bound; [exact N|]. intros u Hu. apply B, Hu. Qed.
Lemma bfs_add Q flag pos x y : bfs Q flag pos -> In x Q -> In y (adj x) -> y < n -> nth y flag 0%Z = (-1)%Z ->
  length Q < n /\ bfs (Q ++ [y]) (upd flag y (Z.of_nat c)) (upd pos (length Q) (Z.of_nat y)).
Proof.
  intros (L1 & L2 & N & Hi & Hq & B & K) Hx Hy Ly Ey. assert (Ny : ~ In y Q) by (intros X; apply B in X; lia).
  assert (E0 : nth y flag0 0%Z = (-1)%Z) by (rewrite <- K; assumption).
  assert (By : busy y = true). { destruct (busy y) eqn:E; [reflexivity|]. destruct H0 as (_ & X & _). rewrite X in E0 by assumption. discriminate. }
  assert (LQ : length (y :: Q) <= n) by (apply nodup_bound; [constructor; assumption|intros u [<-|Hu]; [exact Ly|apply B, Hu]]). cbn in LQ. split; [lia|]. unfold bfs. rewrite !upd_length, app_length. cbn [length]. sp; try assumption.
  - eapply Permutation_NoDup; [apply Permutation_cons_append|]. constructor; assumption.
  - apply in_or_app. left. exact Hi.
  - rewrite Nat.add_1_r, firstn_upd_snoc by lia. rewrite Hq, map_app. reflexivity.
  - intros u Hu. apply in_app_or in Hu. destruct Hu as [Hu|[<-|[]]].
    + destruct (B u Hu) as (B1 & B2 & B3 & B4 & B5). sp; try assumption. rewrite nth_upd_ne by (intros ->; contradiction). exact B5.
    + sp; try assumption; [|apply nth_upd_eq; lia]. destruct (B x Hx) as (B1 & B2 & B3 & B4 & B5). eapply rt_trans; [exact B4|]. apply rt_step. split; auto.
  - intros u Hu. rewrite in_app_iff in Hu. cbn in Hu. rewrite nth_upd_ne by (intros ->; tauto). apply K. tauto.
Qed.

(** the neighbours of one node *)
Lemma bfs_row x Q flag pos start : bfs Q flag pos -> In x Q -> pget ptr x = Ok start -> (Z.of_nat c <= imax F)%Z ->
  forall n_new, wp (for_range start (start + length (adj x)) (fun ic '(flag, pos, n_pos_new, n_new) =>
            let* aj_ic := pget idx ic in
            let* f := vget flag aj_ic in
            if (f =? -1)%Z then
              let* flag := vset flag aj_ic (Z.of_nat c) in
              let* j := vget idx ic in
              let* pos := vset pos n_pos_new j in
              Ok (flag, pos, n_pos_new + 1, n_new + 1)
            else Ok (flag, pos, n_pos_new, n_new)) (flag, pos, length Q, n_new))
    (fun '(flag', pos', n_pos_new', n_new') => exists New, bfs (Q ++ New) flag' pos' /\ n_pos_new' = length (Q ++ New) /\ n_new' = n_new + length New /\ handled (Q ++ New) x).
Proof.
  intros H Hx Es Fc n_new. assert (Bx : x < n) by (apply H, Hx). destruct (G x Bx) as (s & E1 & E2 & E3 & E4). rewrite E1 in Es. injection Es as <-.
  eapply (wp_for_list (fun pre '(flag', pos', n_pos_new', n_new') => exists New, bfs (Q ++ New) flag' pos' /\ n_pos_new' = length (Q ++ New) /\ n_new' = n_new + length New /\
    forall y, In y pre -> busy y = true -> In y (Q ++ New) \/ nth y flag0 0%Z <> (-1)%Z) (adj x)).
  - reflexivity.
  - exists []. rewrite app_nil_r. sp; try assumption; [cbn; lia|]. intros y [].
  - intros pre y post [[[flag' pos'] npn] nn] E (New & HB & -> & -> & Hd). assert (Ly : y < n) by (rewrite Forall_forall in E4; apply E4; rewrite E; apply in_or_app; right; left; reflexivity).
    rewrite (E3 _ _ _ E). cbn [bind]. pose proof HB as (L1 & L2 & _). rewrite (vget_nth _ _ 0%Z) by lia. cbn [bind]. destruct (Z.eqb_spec (nth y flag' 0%Z) (-1)) as [Ey|Ey].
    + rewrite vset_ok by lia. cbn [bind]. rewrite (pget_inv _ _ _ (E3 _ _ _ E)). cbn [bind].
      destruct (bfs_add _ _ _ x y HB) as [LQ HB']; try assumption; [apply in_or_app; left; exact Hx|rewrite E; apply in_or_app; right; left; reflexivity|].
      rewrite vset_ok by lia. cbn [bind]. apply wp_ok. exists (New ++ [y]). rewrite app_assoc. sp.
      * exact HB'.
      * rewrite (app_length (Q ++ New)). reflexivity.
      * rewrite app_length. cbn. lia.
      * intros z Hz Bz. apply in_app_or in Hz. destruct Hz as [Hz|[<-|[]]]; [|left; apply in_or_app; right; left; reflexivity]. destruct (Hd z Hz Bz) as [X|X]; [left; apply in_or_app; left; exact X|right; exact X].
    + apply wp_ok. exists New. sp; try assumption. intros z Hz Bz. apply in_app_or in Hz. destruct Hz as [Hz|[<-|[]]]; [apply Hd; assumption|]. destruct (in_dec Nat.eq_dec y (Q ++ New)) as [X|X]; [left; exact X|]. right.
      destruct HB as (_ & _ & _ & _ & _ & _ & K). rewrite <- K by exact X. exact Ey.
  - intros [[[flag' pos'] npn] nn] (New & HB & E5 & E6 & Hd). exists New. sp; try assumption. intros y (_ & Hy & By). apply Hd; assumption.
Qed.
Lemma handled_mono Q New x : handled Q x -> handled (Q ++ New) x.
Proof. intros H y Hy. destruct (H y Hy) as [X|X]; [left; apply in_or_app; left; exact X|right; exact X]. Qed.

(** one level *)
Lemma bfs_level Q flag pos p0 : bfs Q flag pos -> p0 <= length Q -> (forall x, In x (firstn p0 Q) -> handled Q x) -> (Z.of_nat c <= imax F)%Z ->
  wp (for_range p0 (length Q)
        (fun ir '(flag, pos, n_pos_new, n_new) =>
          let* pos_ir := pget pos ir in
          let* start := pget ptr pos_ir in
          let* end_ := pget ptr (pos_ir + 1) in
          for_range start end_ (fun ic '(flag, pos, n_pos_new, n_new) =>
            let* aj_ic := pget idx ic in
            let* f := vget flag aj_ic in
            if (f =? -1)%Z then
              let* flag := vset flag aj_ic (Z.of_nat c) in
              let* j := vget idx ic in
              let* pos := vset pos n_pos_new j in
              Ok (flag, pos, n_pos_new + 1, n_new + 1)
            else Ok (flag, pos, n_pos_new, n_new)) (flag, pos, n_pos_new, n_new))
        (flag, pos, length Q, 0))
    (fun '(flag', pos', n_pos_new', n_new') => exists New, bfs (Q ++ New) flag' pos' /\ n_pos_new' = length (Q ++ New) /\ n_new' = length New /\ forall x, In x Q -> handled (Q ++ New) x).
Proof.
  intros H Hp Hh Fc.
  eapply (wp_for (fun ir '(flag', pos', n_pos_new', n_new') => exists New, bfs (Q ++ New) flag' pos' /\ n_pos_new' = length (Q ++ New) /\ n_new' = length New /\ forall x, In x (firstn ir Q) -> handled (Q ++ New) x)).
  - exact Hp.
  - exists []. rewrite app_nil_r. sp; assumption.
  - intros ir [[[flag' pos'] npn] nn] Hir (New & HB & -> & -> & Hd). assert (Hx : exists x Qa Qb, Q = Qa ++ x :: Qb /\ length Qa = ir).
    { destruct (nth_split Q 0 (proj2 Hir)) as (Qa & Qb & E & El). exists (nth ir Q 0), Qa, Qb. auto. } destruct Hx as (x & Qa & Qb & EQ & El).
    assert (Ex : pget pos' ir = Ok x).
    { apply pget_of. pose proof HB as (L1 & L2 & _ & _ & Eq & _). pose proof (bfs_len _ _ _ HB) as LQ. rewrite app_length in LQ. rewrite (vget_nth _ _ 0%Z) by lia. f_equal. rewrite <- (firstn_skipn (length (Q ++ New)) pos'), Eq. rewrite app_nth1 by (rewrite map_length, app_length; lia).
      change 0%Z with (Z.of_nat 0). rewrite map_nth. f_equal. rewrite app_nth1 by lia. rewrite EQ, app_nth2, El, Nat.sub_diag by lia. reflexivity. }
    rewrite Ex. cbn [bind]. assert (Hx : In x (Q ++ New)) by (apply in_or_app; left; rewrite EQ; apply in_or_app; right; left; reflexivity).
    assert (Bx : x < n) by (apply HB, Hx). destruct (G x Bx) as (s & E1 & E2 & _). rewrite E1. cbn [bind]. rewrite E2. cbn [bind].
    eapply wp_mono; [apply (bfs_row x _ _ _ s HB Hx E1 Fc)|]. intros [[[flag2 pos2] npn2] nn2] (New2 & HB2 & -> & -> & Hd2). exists (New ++ New2). rewrite app_assoc. sp; try assumption; [rewrite app_length; reflexivity|].
    intros y Hy. replace (firstn (S ir) Q) with (Qa ++ [x]) in Hy by (rewrite EQ, firstn_app, firstn_all2, El by lia; replace (S ir - ir) with 1 by lia; reflexivity).
    apply in_app_or in Hy. destruct Hy as [Hy|[<-|[]]]; [|exact Hd2]. apply handled_mono, Hd. rewrite EQ, firstn_app, firstn_all2 by lia. apply in_or_app. left. exact Hy.
  - intros [[[flag' pos'] npn] nn] (New & HB & E1 & E2 & Hd). exists New. sp; try assumption. rewrite firstn_all in Hd. exact Hd.
Qed.

(** all levels *)
Lemma bfs_levels flag pos : bfs [ii] flag pos -> (Z.of_nat c <= imax F)%Z ->
  wp (for_range_exit 0 n (fun _ '(flag, pos, n_pos0, n_pos, n_pos_new) =>
      let* '(flag, pos, n_pos_new, n_new) := for_range n_pos0 n_pos
        (fun ir '(flag, pos, n_pos_new, n_new) =>
          let* pos_ir := pget pos ir in
          let* start := pget ptr pos_ir in
          let* end_ := pget ptr (pos_ir + 1) in
          for_range start end_ (fun ic '(flag, pos, n_pos_new, n_new) =>
            let* aj_ic := pget idx ic in
            let* f := vget flag aj_ic in
            if (f =? -1)%Z then
              let* flag := vset flag aj_ic (Z.of_nat c) in
              let* j := vget idx ic in
              let* pos := vset pos n_pos_new j in
              Ok (flag, pos, n_pos_new + 1, n_new + 1)
            else Ok (flag, pos, n_pos_new, n_new)) (flag, pos, n_pos_new, n_new))
        (flag, pos, n_pos_new, 0) in
      let n_pos0 := n_pos in
      let n_pos := n_pos_new in
      if n_new =? 0 then Ok (Stop (flag, pos, n_pos0, n_pos, n_pos_new))
      else Ok (Cont (flag, pos, n_pos0, n_pos, n_pos_new))) (flag, pos, 0, 1, 1))
    (fun r => let '(flag', pos', _, n_pos, _) := ctl_state r in exists Q, bfs Q flag' pos' /\ n_pos = length Q /\ forall x, In x Q -> handled Q x).
Proof.
  intros H Fc. eapply (wp_for_exit_list (fun (pre : list unit) '(flag', pos', p0, np, npn) => exists Q, bfs Q flag' pos' /\ p0 <= length Q /\ np = length Q /\ npn = length Q /\ length pre < length Q /\ forall x, In x (firstn p0 Q) -> handled Q x)
    (fun '(flag', pos', _, n_pos, _) => exists Q, bfs Q flag' pos' /\ n_pos = length Q /\ forall x, In x Q -> handled Q x) (repeat tt n)).
  - rewrite repeat_length. reflexivity.
  - exists [ii]. cbn [length]. sp; try assumption; try lia. cbn. tauto.
  - intros pre [] post [[[[flag' pos'] p0] np] npn] E (Q & HB & Hp & -> & -> & Hl & Hh). apply wp_bind. eapply wp_mono; [apply (bfs_level Q flag' pos' p0 HB Hp Hh Fc)|].
    intros [[[flag2 pos2] npn2] nn2] (New & HB2 & -> & -> & Hd). destruct (Nat.eqb_spec (length New) 0) as [E0|E0]; apply wp_ok.
    + destruct New; [|discriminate]. rewrite app_nil_r in *. exists Q. auto.
    + exists (Q ++ New). rewrite !app_length. cbn [length]. sp; try assumption; try lia. rewrite firstn_app, firstn_all, Nat.sub_diag, firstn_O, app_nil_r. exact Hd.
  - intros [[[[flag' pos'] p0] np] npn] (Q & HB & _ & _ & _ & Hl & _). exfalso. pose proof (bfs_len _ _ _ HB). rewrite repeat_length in Hl. lia.
  - intros [[[[flag' pos'] p0] np] npn] X. exact X.
Qed.

(** the state after the component has been filled *)
Lemma bfs_flags Q flag pos : bfs Q flag pos -> (forall x, In x Q -> handled Q x) -> (forall j, j < ii -> busy j = true -> nth j flag0 0%Z <> (-1)%Z) -> flags_ok (S c) flag.
Proof.
  intros (L1 & L2 & N & Hi & Hq & B & K) Hh Hmin. destruct H0 as (A1 & A2 & A3 & A4 & A5).
  assert (QD : forall u, In u Q \/ ~ In u Q) by (intros u; destruct (in_dec Nat.eq_dec u Q); auto).
  unfold flags_ok. sp.
  - exact L1.
  - intros u Hu Eb. rewrite K; [apply A2; assumption|]. intros X. apply B in X. destruct X as (_ & X & _). congruence.
  - intros u Hu Eb. destruct (QD u) as [X|X]; [right; apply B in X; lia|]. rewrite K by exact X. destruct (A3 u Hu Eb); [left; assumption|right; lia].
  - intros k x y Hk Hx Ex Hy. assert (By : y < n) by (destruct Hy as (X & Y & _); destruct (G x X) as (? & _ & _ & _ & Fo); rewrite Forall_forall in Fo; apply Fo, Y).
    destruct (QD y) as [Y|Y].
    + destruct (QD x) as [X|X]; [apply B in X, Y; lia|]. rewrite K in Ex by exact X. destruct (Nat.eq_dec k c) as [->|Dk]; [apply B in Y; lia|].
      specialize (A4 k x y ltac:(lia) Hx Ex Hy). apply B in Y. lia.
    + rewrite K by exact Y. destruct (QD x) as [X|X].
      * destruct (Hh x X y Hy) as [Z|Z]; [contradiction|]. destruct Hy as (_ & _ & Eb). destruct (A3 y By Eb) as [W|W]; [contradiction|]. apply B in X. lia.
      * rewrite K in Ex by exact X. destruct (Nat.eq_dec k c) as [->|Dk]; [|apply (A4 k x y); try assumption; lia]. destruct (busy x) eqn:Ebx; [|rewrite (A2 x Hx Ebx) in Ex; lia].
        destruct (A3 x Hx Ebx) as [W|W]; [lia|]. assert (Hc : 0 < c) by lia. specialize (A4 (c - 1) x y ltac:(lia) Hx ltac:(lia) Hy). lia.
  - intros k Hk. destruct (Nat.eq_dec k c) as [->|Dk].
    + exists ii. sp; [apply B, Hi|apply B, Hi| |].
      * intros u Hu Eu. destruct (QD u) as [X|X]; [apply B, X|]. exfalso. rewrite K in Eu by exact X. destruct (busy u) eqn:Eb; [destruct (A3 u Hu Eb); lia|rewrite (A2 u Hu Eb) in Eu; lia].
      * intros j Hj Eb. assert (Bj : j < n) by (destruct (B ii Hi); lia). specialize (Hmin j Hj Eb). rewrite K; [destruct (A3 j Bj Eb); [contradiction|assumption]|]. intros X. apply B in X. tauto.
    + destruct (A5 k) as (s & S1 & S2 & S3 & S4); [lia|]. assert (NQ : forall u, nth u flag0 0%Z <> (-1)%Z -> ~ In u Q) by (intros u Hu X; apply B in X; tauto).
      exists s. sp; [exact S1|rewrite K by (apply NQ; lia); exact S2| |].
      * intros u Hu Eu. destruct (QD u) as [X|X]; [apply B in X; lia|]. rewrite K in Eu by exact X. apply S3; assumption.
      * intros j Hj Eb. specialize (S4 j Hj Eb). rewrite K by (apply NQ; lia). exact S4.
Qed.
End Search.

Lemma flags_init flag : length flag = n ->
  wp (for_range 0 n (fun ir '(flag, n_stop) =>
    let* flag := vset flag ir (-1)%Z in
    let* p1 := vget ptr (ir + 1) in
    let* p0 := vget ptr ir in
    if (p1 =? p0)%Z then
      let* n_stop := usub n_stop 1 in
      let* flag := vset flag ir (-2)%Z in
      Ok (flag, n_stop)
    else Ok (flag, n_stop)) (flag, n))
  (fun '(flag, n_stop) => n_stop = length busies /\ flags_ok 0 flag).
Proof.
  intros L. eapply (wp_for (fun ir '(flag, n_stop) => length flag = n /\ n_stop + ir = n + length (filter busy (seq 0 ir)) /\ forall u, u < ir -> nth u flag 0%Z = if busy u then (-1)%Z else (-2)%Z)).
  - lia.
  - split; [exact L|]. split; [cbn; lia|]. intros u Hu. lia.
  - intros ir [fl ns] Hir (L' & Ens & Hf). rewrite vset_ok by lia. cbn [bind]. destruct (G ir) as (s & E1 & E2 & _); [lia|]. rewrite (pget_inv _ _ _ E2). cbn [bind]. rewrite (pget_inv _ _ _ E1). cbn [bind].
    rewrite seq_S, filter_app, app_length in *. cbn [plus filter length]. unfold busy in *. destruct (adj ir) as [|w l] eqn:Ea; cbn [length].
    + destruct (Z.eqb_spec (Z.of_nat (s + 0)) (Z.of_nat s)); [|lia]. assert (length (filter (fun v => match adj v with [] => false | _ => true end) (seq 0 ir)) >= 0) by lia. rewrite usub_ok by lia. cbn [bind]. rewrite vset_ok by (rewrite upd_length; lia). cbn [bind]. apply wp_ok.
      rewrite !upd_length. sp; [exact L'|lia|]. intros u Hu. destruct (Nat.eq_dec u ir) as [->|D]; [rewrite nth_upd_eq by (rewrite upd_length; lia); rewrite Ea; reflexivity|]. rewrite !nth_upd_ne by exact D. apply Hf. lia.
    + destruct (Z.eqb_spec (Z.of_nat (s + S (length l))) (Z.of_nat s)); [lia|]. apply wp_ok. rewrite upd_length. sp; [exact L'|cbn; lia|]. intros u Hu. destruct (Nat.eq_dec u ir) as [->|D]; [rewrite nth_upd_eq by lia; rewrite Ea; reflexivity|]. rewrite nth_upd_ne by exact D. apply Hf. lia.
  - intros [fl ns] (L' & Ens & Hf). split; [unfold busies; lia|]. unfold flags_ok. sp; try lia.
    + intros u Hu Eb. rewrite Hf, Eb by exact Hu. reflexivity.
    + intros u Hu Eb. rewrite Hf, Eb by exact Hu. left. reflexivity.
Qed.

Lemma flags_main flag : length flag = n -> 0 < length busies ->
  wp (cs_graph_components I F n ptr idx flag) (fun '(k, flag') => exists c, k = Z.of_nat c /\ flags_ok c flag' /\ forall u, u < n -> busy u = true -> (0 <= nth u flag' 0)%Z).
Proof.
  intros L Hb. unfold cs_graph_components. pose proof (imax_ge_127 F) as HF. rewrite !icheck_ok by lia. cbn [bind]. apply wp_bind. eapply wp_mono; [apply flags_init, L|]. intros [flag1 ns] [-> H1]. cbn beta iota. apply wp_bind.
  assert (LB : length busies <= n) by (apply nodup_bound; [apply busies_nodup|intros u Hu; apply in_busies in Hu; tauto]).
  eapply (wp_for_exit_list (fun (pre : list unit) '(flag', pos', nc, nt) => flags_ok (length pre) flag' /\ length pos' = n /\ exists V, NoDup V /\ (forall u, In u V <-> u < n /\ (0 <= nth u flag' 0)%Z) /\ nt = length V /\ length pre <= length V /\ length V < length busies)
    (fun '(flag', _, k, _) => exists c, k = Z.of_nat c /\ flags_ok c flag' /\ forall u, u < n -> busy u = true -> (0 <= nth u flag' 0)%Z) (repeat tt n)).
  - rewrite repeat_length. reflexivity.
  - split; [exact H1|]. split; [apply repeat_length|]. exists []. split; [constructor|]. split; [|cbn; lia]. intros u. split; [intros []|]. intros [Hu Eu]. destruct H1 as (_ & A2 & A3 & _). destruct (busy u) eqn:Eb; [destruct (A3 u Hu Eb); lia|rewrite (A2 u Hu Eb) in Eu; lia].
  - intros pre [] post [[[flag' pos'] nc] nt] E (HF' & LP & V & NV & HV & -> & HpV & HVb). cbn [plus]. set (c := length pre) in *. pose proof HF' as (A1 & A2 & A3 & A4 & A5).
    assert (Bu : forall u, In u V -> In u busies). { intros u Hu. apply HV in Hu. apply in_busies. split; [tauto|]. destruct (busy u) eqn:Eb; [reflexivity|]. rewrite (A2 u) in Hu by tauto. lia. }
    assert (Ex : exists u, u < n /\ nth u flag' 0%Z = (-1)%Z).
    { destruct (Exists_dec (fun u => ~ In u V) busies) as [X|X]; [intros u; destruct (in_dec Nat.eq_dec u V); tauto| |].
      - apply Exists_exists in X. destruct X as (u & Hu & Nu). apply in_busies in Hu. exists u. split; [tauto|]. destruct (A3 u) as [W|W]; try tauto. exfalso. apply Nu, HV. lia.
      - exfalso. assert (length busies <= length V); [|lia]. apply NoDup_incl_length; [apply busies_nodup|]. intros u Hu. destruct (in_dec Nat.eq_dec u V) as [Y|Y]; [exact Y|]. exfalso. apply X, Exists_exists. exists u. auto. }
    apply wp_bind. eapply wp_mono; [apply (seed_ok n flag' A1 Ex)|].
    { intros u Hu. destruct (busy u) eqn:Eb; [destruct (A3 u Hu Eb); lia|rewrite (A2 u Hu Eb); lia]. }
    intros ii (Hii & Eii & Hmin). assert (Bii : busy ii = true) by (destruct (busy ii) eqn:Eb; [reflexivity|rewrite (A2 ii Hii Eb) in Eii; discriminate]).
    assert (Fc : (Z.of_nat c <= imax F)%Z) by lia. rewrite ifrom_ok by exact Fc. cbn [bind]. rewrite vset_ok by lia. cbn [bind]. rewrite ifrom_ok by (apply I_rows; assumption). cbn [bind]. rewrite vset_ok by lia. cbn [bind].
    apply wp_bind. eapply wp_mono; [apply (bfs_levels flag' c ii HF' (upd flag' ii (Z.of_nat c)) (upd pos' 0 (Z.of_nat ii)))|].
    + unfold bfs. rewrite !upd_length. cbn [length]. sp; try assumption.
      * constructor; [intros []|constructor].
      * left. reflexivity.
      * rewrite firstn_upd_snoc by lia. reflexivity.
      * intros u [<-|[]]. sp; try assumption; [apply rt_refl|]. apply nth_upd_eq. lia.
      * intros u Hu. apply nth_upd_ne. intros ->. apply Hu. left. reflexivity.
    + exact Fc.
    + intros r Hr. cbn beta in Hr. revert Hr. destruct (ctl_state r) as [[[[flag2 pos2] p0] np] npn]. cbn beta iota. intros (Q & HB & -> & Hh).
      pose proof (bfs_flags flag' c ii HF' Q flag2 pos2 HB Hh ltac:(intros j Hj _; apply Hmin, Hj)) as HF2. pose proof HB as (B1 & B2 & B3 & B4 & B5 & B6 & B7).
      assert (ND : NoDup (V ++ Q)).
      { assert (DJ : forall u, In u V -> ~ In u Q) by (intros u Hu Hq; apply HV in Hu; apply B6 in Hq; lia).
        clear -NV B3 DJ. induction NV as [|a V Ha NV IH]; [exact B3|]. cbn [app]. constructor.
        - rewrite in_app_iff. intros [X|X]; [contradiction|]. exact (DJ a (or_introl eq_refl) X).
        - apply IH. intros u Hu. apply DJ. right. exact Hu. }
      assert (HV2 : forall u, In u (V ++ Q) <-> u < n /\ (0 <= nth u flag2 0)%Z).
      { intros u. rewrite in_app_iff. destruct (in_dec Nat.eq_dec u Q) as [X|X]; [pose proof (B6 u X); intuition lia|]. rewrite B7 by exact X. rewrite <- HV. tauto. }
      assert (Bu2 : forall u, In u (V ++ Q) -> In u busies) by (intros u Hu; apply in_app_or in Hu; destruct Hu as [Hu|Hu]; [apply Bu, Hu|apply in_busies; split; apply B6, Hu]).
      assert (LV2 : length (V ++ Q) <= length busies) by (apply NoDup_incl_length; [exact ND|exact Bu2]).
      assert (LQ : 1 <= length Q) by (destruct Q; [destruct B4|cbn; lia]). rewrite app_length in LV2.
      destruct (Nat.eqb_spec (length V + length Q) (length busies)) as [En|En].
      * rewrite ifrom_ok by lia. cbn [bind]. apply wp_ok. exists (S c). rewrite Nat.add_1_r. sp; [exact HF2|]. intros u Hu Eb. apply HV2.
        assert (In u busies) by (apply in_busies; auto). revert H. apply (NoDup_length_incl ND); [rewrite app_length; lia|exact Bu2].
      * apply wp_ok. rewrite app_length. cbn [length]. fold c. rewrite Nat.add_1_r. split; [exact HF2|]. split; [exact B2|]. exists (V ++ Q). rewrite app_length. sp; try assumption; try lia.
  - intros [[[flag' pos'] nc] nt] (_ & _ & V & _ & _ & _ & X & Y). rewrite repeat_length in X. lia.
  - intros [[[flag' pos'] nc] nt] X. cbn [ctl_state]. apply wp_ok. exact X.
Qed.
End Flags.

Lemma choice_list (P : nat -> nat -> Prop) c : (forall k, k < c -> exists s, P k s) -> exists l, length l = c /\ forall k, k < c -> P k (nth k l 0).
Proof.
  induction c as [|c IH]; intros H; [exists []; split; [reflexivity|lia]|]. destruct IH as (l & L & Hl); [intros k Hk; apply H; lia|]. destruct (H c) as [s Hs]; [lia|]. exists (l ++ [s]). rewrite app_length. split; [cbn; lia|].
  intros k Hk. destruct (Nat.eq_dec k c) as [->|D]; [rewrite app_nth2, L, Nat.sub_diag by lia; exact Hs|]. rewrite app_nth1 by lia. apply Hl. lia.
Qed.

Section FlagApi.
Context {T : Type}.
Variables I F : ity.

Lemma busy_row (g : CSR T) u : busy (next_nodes g) u = true <-> csr_row g u <> [].
Proof. unfold busy, next_nodes. destruct (csr_row g u); cbn; split; congruence. Qed.
Lemma busy_row_not (g : CSR T) u : busy (next_nodes g) u = false <-> csr_row g u = [].
Proof. unfold busy, next_nodes. destruct (csr_row g u); cbn; split; congruence. Qed.

Lemma busies_nnz (g : CSR T) : wf_csr I g -> (Z.of_nat (length (busies (csr_rows g) (next_nodes g))) <= imax I)%Z.
Proof.
  intros W. destruct (wf_csr_rep _ _ W) as [R HR]. pose proof (cr_fit _ _ _ _ _ _ (proj2 HR)) as Ft. enough (length (busies (csr_rows g) (next_nodes g)) <= length (concat R)) by lia.
  unfold busies. rewrite (filter_ext _ (fun u => match nth u R [] with [] => false | _ => true end)).
  - rewrite <- (proj1 HR). clear. induction R as [|r R IH]; [reflexivity|]. cbn [length seq filter concat nth]. rewrite <- seq_shift. rewrite app_length.
    assert (E : forall (f : nat -> bool) l, length (filter f (map S l)) = length (filter (fun u => f (S u)) l)) by (intros f l; induction l as [|a l IHl]; [reflexivity|]; cbn; destruct (f (S a)); cbn; congruence).
    destruct r; cbn [length]; rewrite E; cbn [nth]; lia.
  - intros u. unfold busy, next_nodes. rewrite (csr_rep_row _ _ _ _ HR). destruct (nth u R []); reflexivity.
Qed.

Lemma hop_reaches (g : CSR T) x y : clos_refl_trans nat (hop (csr_rows g) (next_nodes g)) x y -> reaches g x y.
Proof. intros H. induction H as [x y (H1 & H2 & _)|x|x y z _ H1 _ H2]; [apply rt_step; split; assumption|apply rt_refl|eapply rt_trans; eassumption]. Qed.
Lemma reaches_hop (g : CSR T) x y : csr_row g y <> [] -> reaches g x y -> clos_refl_trans nat (hop (csr_rows g) (next_nodes g)) x y.
Proof.
  intros B H. apply clos_rt_rt1n in H. induction H as [|x z y [Hx Hz] H IH]; [apply rt_refl|]. eapply rt_trans; [apply rt_step|apply IH, B]. split; [exact Hx|]. split; [exact Hz|]. apply busy_row. destruct H as [|w y' [_ Hw] _]; [exact B|]. unfold next_nodes in Hw. intros E. rewrite E in Hw. destruct Hw.
Qed.

Lemma CSR_flags_ok (g : CSR T) : wf_csr I g -> csr_rows_fit I g -> csr_rows g = csr_cols g -> (imin F <= -2)%Z -> (Z.of_nat (csr_rows g) <= imax F)%Z -> (exists i, i < csr_rows g /\ csr_row g i <> []) ->
  wp (CSR_connected_components I F g) (fun '(k, flag) => length flag = csr_rows g /\ exists seeds, k = Z.of_nat (length seeds) /\
    (forall u, u < csr_rows g -> csr_row g u = [] -> nth u flag 0%Z = (-2)%Z) /\
    (forall u, u < csr_rows g -> csr_row g u <> [] -> exists c, c < length seeds /\ nth u flag 0%Z = Z.of_nat c /\ reaches g (nth c seeds 0) u /\ forall c', c' < c -> ~ reaches g (nth c' seeds 0) u) /\
    (forall c, c < length seeds -> let s := nth c seeds 0 in s < csr_rows g /\ csr_row g s <> [] /\ nth s flag 0%Z = Z.of_nat c /\ forall j, j < s -> csr_row g j <> [] -> (0 <= nth j flag 0 < Z.of_nat c)%Z)).
Proof.
  intros W RF Sq HF1 HF2 (i0 & Hi0 & Bi0). unfold CSR_connected_components. rewrite Sq, Nat.eqb_refl. cbn [negb]. rewrite <- Sq. set (n := csr_rows g) in *.
  pose proof (csr_is_graph I g W Sq) as G. fold n in G. pose proof (busies_nnz g W) as BF. fold n in BF.
  assert (In0 : In i0 (busies n (next_nodes g))) by (apply in_busies; split; [exact Hi0|apply busy_row, Bi0]).
  assert (LB : length (busies n (next_nodes g)) <= n) by (apply nodup_bound; [apply busies_nodup|intros u Hu; apply in_busies in Hu; tauto]).
  eapply wp_mono; [eapply (flags_main I F n); [exact G|exact HF1|lia|exact BF| |apply repeat_length|destruct (busies n (next_nodes g)); [destruct In0|cbn; lia]]|].
  { intros v Hv Bv. apply RF; [exact Hv|]. apply busy_row, Bv. }
  intros [k flag] (c & -> & (A1 & A2 & A3 & A4 & A5) & Hall). split; [exact A1|]. apply choice_list in A5. destruct A5 as (seeds & L & A5). exists seeds. rewrite L. sp.
  - intros u Hu E. apply A2; [exact Hu|]. apply busy_row_not, E.
  - intros u Hu B. pose proof (proj2 (busy_row g u) B) as Bu. destruct (A3 u Hu Bu) as [X|X]; [specialize (Hall u Hu Bu); lia|]. exists (Z.to_nat (nth u flag 0%Z)). assert (Ez : nth u flag 0%Z = Z.of_nat (Z.to_nat (nth u flag 0%Z))) by lia. set (d := Z.to_nat _) in *. assert (Hd : d < c) by lia.
    sp; try assumption.
    + destruct (A5 d Hd) as (_ & _ & S3 & _). apply hop_reaches, S3; assumption.
    + intros c' Hc' Hr. destruct (A5 c') as (S1 & S2 & _); [lia|]. apply reaches_hop in Hr; [|exact B]. fold n in Hr.
      assert (K : forall x y, clos_refl_trans nat (hop n (next_nodes g)) x y -> (x < n -> (0 <= nth x flag 0 <= Z.of_nat c')%Z -> y < n /\ (0 <= nth y flag 0 <= Z.of_nat c')%Z)).
      { intros x y H. induction H as [x y H|x|x y z _ H1 _ H2]; intros Hx Ex; [|auto|destruct (H1 Hx Ex); auto]. split; [|apply (A4 c' x y); try assumption; lia]. destruct H as (X1 & X2 & _). destruct (G x X1) as (? & _ & _ & _ & Fo). rewrite Forall_forall in Fo. apply Fo, X2. }
      destruct (K _ _ Hr S1); lia.
  - intros d Hd. cbn zeta. set (s := nth d seeds 0). destruct (A5 d Hd) as (S1 & S2 & S3 & S4). fold s in S1, S2, S3, S4. sp; try assumption.
    + apply busy_row. destruct (busy (next_nodes g) s) eqn:E; [reflexivity|]. exfalso. rewrite (A2 s S1 E) in S2. lia.
    + intros j Hj Bj. apply S4; [exact Hj|apply busy_row, Bj].
Qed.

Lemma for_exit_first {St R} n (f : nat -> St -> res (ctl St R)) s : 0 < n ->
  for_range_exit 0 n f s = (let* c := f 0 s in match c with Cont s' => for_n_exit (n - 1) 1 f s' | Stop r => Ok (Stop r) end).
Proof. intros H. destruct n as [|n]; [lia|]. cbn. rewrite Nat.sub_0_r. reflexivity. Qed.
Lemma CSR_flags_none (g : CSR T) : wf_csr I g -> csr_rows g = csr_cols g -> (imin F <= -2)%Z -> 0 < csr_rows g -> (forall i, i < csr_rows g -> csr_row g i = []) -> CSR_connected_components I F g = Err ECorrupt.
Proof.
  intros W Sq HF1 Hn Hall. unfold CSR_connected_components. rewrite Sq, Nat.eqb_refl. cbn [negb]. rewrite <- Sq. set (n := csr_rows g) in *.
  pose proof (csr_is_graph I g W Sq) as G. fold n in G. unfold cs_graph_components. pose proof (imax_ge_127 F). rewrite !icheck_ok by lia. cbn [bind].
  destruct (flags_init n _ _ _ G (repeat 0%Z n) (repeat_length _ _)) as ([fl ns] & E & _ & (A1 & A2 & _)). rewrite E. cbn [bind].
  rewrite for_exit_first by exact Hn. rewrite seed_none; [reflexivity|exact A1|lia|]. intros u Hu. apply A2; [exact Hu|]. apply busy_row_not, Hall, Hu.
Qed.
End FlagApi.
