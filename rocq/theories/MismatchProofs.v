(** What + and - do to operands of different dimensions. *)
From Verif Require Import Rust Scalar Model_kernels Model_matrix Spec Wp Rep CanonProofs ConvProofs RingProofs
  LinProofs Lin2Proofs LinkProofs PadProofs BinopProofs MatmatProofs ArithProofs.

(** a value or a panic *)
Definition np {A} (m : res A) : Prop := match m with Ok _ | Panic => True | _ => False end.
Lemma np_bind {A B} (m : res A) (f : A -> res B) : np m -> (forall a, np (f a)) -> np (bind m f).
Proof. intros H K. destruct m; cbn in *; auto. Qed.
Lemma np_for {St} lo hi (f : nat -> St -> res St) s : (forall i s, np (f i s)) -> np (for_range lo hi f s).
Proof.
  intros H. unfold for_range. generalize (hi - lo) as n. intros n. revert lo s. induction n as [|n IH]; intros lo s; cbn [for_n]; [exact Logic.I|].
  apply np_bind; [apply H|]. intros t. apply IH.
Qed.
Lemma np_for_exit {St R} lo hi (f : nat -> St -> res (ctl St R)) s : (forall i s, np (f i s)) -> np (for_range_exit lo hi f s).
Proof.
  intros H. unfold for_range_exit. generalize (hi - lo) as n. intros n. revert lo s. induction n as [|n IH]; intros lo s; cbn [for_n_exit]; [exact Logic.I|].
  apply np_bind; [apply H|]. intros [t|t]; [apply IH|exact Logic.I].
Qed.
Lemma np_vget {A} (l : list A) i : np (vget l i).
Proof. unfold vget. destruct (nth_error l i); exact Logic.I. Qed.
Lemma np_vset {A} (l : list A) i a : np (vset l i a).
Proof. unfold vset. destruct (i <? length l); exact Logic.I. Qed.
Lemma np_icheck I z : np (icheck I z).
Proof. unfold icheck. destruct (_ && _); exact Logic.I. Qed.
Lemma np_to_usize z : np (to_usize z).
Proof. unfold to_usize. destruct (_ <=? _)%Z; exact Logic.I. Qed.
Lemma np_usub a b : np (usub a b).
Proof. unfold usub. destruct (_ <=? _); exact Logic.I. Qed.
Lemma np_pget p i : np (pget p i).
Proof. unfold pget. apply np_bind; [apply np_vget|apply np_to_usize]. Qed.
Lemma panic_of {A} (m : res A) : np m -> pc m (fun _ => False) -> m = Panic.
Proof. intros H P. destruct m as [a| | |]; cbn in H; try tauto. destruct (P a eq_refl). Qed.
Lemma for_range_ext {St} lo hi (f g : nat -> St -> res St) s : (forall i s, lo <= i < hi -> f i s = g i s) -> for_range lo hi f s = for_range lo hi g s.
Proof.
  intros H. unfold for_range. remember (hi - lo) as n eqn:En. revert lo s H En. induction n as [|n IH]; intros lo s H En; cbn [for_n]; [reflexivity|].
  rewrite H by lia. destruct (g lo s); cbn [bind]; try reflexivity. apply IH; [|lia]. intros i t Hi. apply H. lia.
Qed.
Lemma for_range_exit_ext {St R} lo hi (f g : nat -> St -> res (ctl St R)) s : (forall i s, lo <= i < hi -> f i s = g i s) -> for_range_exit lo hi f s = for_range_exit lo hi g s.
Proof.
  intros H. unfold for_range_exit. remember (hi - lo) as n eqn:En. revert lo s H En. induction n as [|n IH]; intros lo s H En; cbn [for_n_exit]; [reflexivity|].
  rewrite H by lia. destruct (g lo s) as [[t|t]| | |]; cbn [bind]; try reflexivity. apply IH; [|lia]. intros i u Hi. apply H. lia.
Qed.
Lemma pc_vget {A} (l : list A) i : pc (vget l i) (fun a => nth_error l i = Some a).
Proof. unfold vget. destruct (nth_error l i); [apply pc_ok; reflexivity|discriminate]. Qed.
Lemma pc_pget p i : pc (pget p i) (fun k => nth_error p i = Some (Z.of_nat k)).
Proof. unfold pget. eapply pc_bind; [apply pc_vget|]. intros z Ez. intros k E. apply pc_to_usize in E. subst z. exact Ez. Qed.
Lemma pc_ok_eq {A} (m : res A) (Q : A -> Prop) a : pc m Q -> m = Ok a -> Q a.
Proof. intros H E. apply H, E. Qed.
Lemma pc_mono {A} (m : res A) (P Q : A -> Prop) : pc m P -> (forall a, P a -> Q a) -> pc m Q.
Proof. intros H K a E. apply K, H, E. Qed.

Section Kernels.
Context {T T2 : Type} {SC : Scalar T} {NZ : Nonzero T2}.
Variable I : ity.

Ltac npt := repeat first [exact Logic.I | apply np_vget | apply np_vset | apply np_icheck | apply np_to_usize | apply np_usub | apply np_pget
  | apply np_bind; [|intros ?] | apply np_for; intros ? ? | apply np_for_exit; intros ? ?
  | match goal with |- np (let '(_, _) := ?x in _) => destruct x end
  | match goal with |- np (if ?x then _ else _) => destruct x end
  | match goal with |- np (match ?x with Cont _ => _ | Stop _ => _ end) => destruct x end ].
Lemma has_canonical_np n p j : np (csr_has_canonical_format I n p j).
Proof. unfold csr_has_canonical_format, iadd. npt. Qed.
Lemma binop_general_np (f : T -> T -> T2) n c a_p a_j a_x b_p b_j b_x c_p c_j (c_x : list T2) :
  np (csr_binop_csr_general I (fun x y => Ok (f x y)) n c a_p a_j a_x b_p b_j b_x c_p c_j c_x).
Proof. unfold csr_binop_csr_general, binop_scan, vaddto, iadd. npt. Qed.

(** a matrix found canonical has been read to its last row *)
Lemma pc_for_exit {St R} (Inv : nat -> St -> Prop) lo hi (f : nat -> St -> res (ctl St R)) (s : St) (Q : ctl St R -> Prop) : lo <= hi -> Inv lo s ->
  (forall i s, lo <= i < hi -> Inv i s -> pc (f i s) (fun c => match c with Cont t => Inv (S i) t | Stop r => Q (Stop r) end)) ->
  (forall s, Inv hi s -> Q (Cont s)) -> pc (for_range_exit lo hi f s) Q.
Proof.
  intros Hle H0 Hs HQ. unfold for_range_exit. remember (hi - lo) as n eqn:En. revert lo s Hle H0 Hs En.
  induction n as [|n IH]; intros lo s Hle H0 Hs En; cbn [for_n_exit].
  - apply pc_ok, HQ. replace hi with lo by lia. exact H0.
  - eapply pc_bind; [apply Hs; [lia|exact H0]|]. intros [t|r] H'; [|apply pc_ok, H']. apply IH; [lia|exact H'| |lia]. intros i u Hi. apply Hs. lia.
Qed.
Lemma pc_for_exit_inv {St R} (Inv : St -> Prop) lo hi (f : nat -> St -> res (ctl St R)) (s : St) (Q : R -> Prop) : Inv s ->
  (forall i s, Inv s -> pc (f i s) (fun c => match c with Cont t => Inv t | Stop r => Q r end)) ->
  pc (for_range_exit lo hi f s) (fun c => match c with Cont t => Inv t | Stop r => Q r end).
Proof.
  intros H0 Hs. unfold for_range_exit. generalize (hi - lo) as n. intros n. revert lo s H0. induction n as [|n IH]; intros lo s H0; cbn [for_n_exit].
  - apply pc_ok, H0.
  - eapply pc_bind; [apply Hs, H0|]. intros [t|r] H'; [apply IH, H'|apply pc_ok, H'].
Qed.
Lemma has_canonical_len n p j : pc (csr_has_canonical_format I n p j) (fun b => b = true -> n = 0 \/ n < length p).
Proof.
  unfold csr_has_canonical_format. eapply pc_bind.
  { eapply (pc_for_exit (fun i _ => i = 0 \/ i < length p) 0 n _ _ (fun c => match c with Stop b => b = false | Cont _ => n = 0 \/ n < length p end)); [lia|auto| |auto].
    intros i [] Hi _. apply pc_any. intros st. eapply pc_bind; [apply pc_pget|]. intros e He.
    assert (L : i + 1 < length p) by (apply nth_error_Some; congruence).
    destruct (e <? st); [apply pc_ok; reflexivity|]. do 4 (apply pc_any; intros ?).
    eapply pc_mono; [apply (pc_for_exit_inv (fun _ => True) _ _ _ _ (fun b => b = false)); [exact Logic.I|]|].
    - intros jj [] _. do 3 (apply pc_any; intros ?). destruct (negb _); apply pc_ok; [reflexivity|exact Logic.I].
    - intros [[]|b] Hb; [right; lia|exact Hb]. }
  intros [s|b] Hb; apply pc_ok; [auto|]. subst b. discriminate.
Qed.

(** a scan that succeeds has met only columns inside the accumulator *)
Lemma binop_scan_cols s e x_j (x_x : list T) next acc head len :
  pc (binop_scan I s e x_j x_x (next, acc, head, len)) (fun '(next', acc', _, _) => length acc' = length acc /\
    forall jj, s <= jj < e -> exists k, nth_error x_j jj = Some (Z.of_nat k) /\ k < length acc).
Proof.
  unfold binop_scan. destruct (Nat.le_gt_cases s e) as [Hle|Hgt].
  - eapply (pc_for (fun i '(_, acc', _, _) => length acc' = length acc /\
      forall jj, s <= jj < i -> exists k, nth_error x_j jj = Some (Z.of_nat k) /\ k < length acc)); [exact Hle|split; [reflexivity|lia]| |intros s' H; exact H].
    intros jj [[[nx ac] hd'] ln] Hj [La Hc]. eapply pc_bind; [apply pc_pget|]. intros k Hk. apply pc_any. intros x.
    eapply (pc_bind _ _ (fun ac' => length ac' = length acc /\ k < length acc)).
    { unfold vaddto. apply pc_any. intros t. eapply pc_mono; [apply pc_vset|]. intros a [Hl ->]. rewrite upd_length. lia. }
    intros ac' [La' Hkl]. apply pc_any. intros nj.
    assert (G : length ac' = length acc /\ forall q, s <= q < S jj -> exists k, nth_error x_j q = Some (Z.of_nat k) /\ k < length acc).
    { split; [exact La'|]. intros q Hq. destruct (Nat.eq_dec q jj) as [->|]; [exists k; auto|apply Hc; lia]. }
    destruct (nj =? -1)%Z; [|apply pc_ok, G]. do 2 (apply pc_any; intros ?). apply pc_ok, G.
  - unfold for_range. replace (e - s) with 0 by lia. apply pc_ok. split; [reflexivity|lia].
Qed.
Lemma binop_general_cols (op : T -> T -> res T2) n c a_p a_j a_x b_p b_j b_x c_p c_j (c_x : list T2) :
  pc (csr_binop_csr_general I op n c a_p a_j a_x b_p b_j b_x c_p c_j c_x) (fun _ =>
    forall i, i < n -> exists s e, nth_error b_p i = Some (Z.of_nat s) /\ nth_error b_p (S i) = Some (Z.of_nat e) /\
      forall jj, s <= jj < e -> exists k, nth_error b_j jj = Some (Z.of_nat k) /\ k < c).
Proof.
  unfold csr_binop_csr_general. eapply pc_bind; [apply pc_vset|]. intros p [Hp ->]. eapply pc_bind.
  { eapply (pc_for (fun q '(_, _, b_row, _, _, _, _) => length b_row = c /\
      forall i, i < q -> exists s e, nth_error b_p i = Some (Z.of_nat s) /\ nth_error b_p (S i) = Some (Z.of_nat e) /\
      forall jj, s <= jj < e -> exists k, nth_error b_j jj = Some (Z.of_nat k) /\ k < c)); [lia|split; [apply repeat_length|lia]| |intros s H; exact H].
    intros i [[[[[[next a_row] b_row] nnz] p] j] x] Hi [Lb Hc]. do 2 (apply pc_any; intros ?). apply pc_any. intros [[[next' a_row'] head] len].
    eapply pc_bind; [apply pc_pget|]. intros s Hs. eapply pc_bind; [apply pc_pget|]. intros e He.
    eapply pc_bind; [apply binop_scan_cols|]. intros [[[next2 b2] head2] len2] [L2 Hsc]. apply pc_any. intros ul.
    eapply (pc_bind _ _ (fun '(_, _, b, _, _, _, _) => length b = c)).
    { apply (pc_for_inv (fun '(_, _, b, _, _, _, _) => length b = c)); [lia|].
      intros _ [[[[[[nx ar] br] hd'] nz] jj] xx] Lbr. do 4 (apply pc_any; intros ?). apply pc_any. intros [[nz' jj'] xx']. do 3 (apply pc_any; intros ?).
      eapply pc_bind; [apply pc_vset|]. intros b' [_ ->]. apply pc_ok. rewrite upd_length. exact Lbr. }
    intros [[[[[[nx ar] br] hd'] nz] jj] xx] Lbr. apply pc_any. intros p'. apply pc_ok. split; [exact Lbr|].
    intros q Hq. destruct (Nat.eq_dec q i) as [->|]; [|apply Hc; lia]. exists s, e. rewrite Nat.add_1_r in He. sp; try assumption. intros z Hz. rewrite <- Lb. apply Hsc, Hz. }
  intros [[[[[[nx ar] br] nz] p] j] x] [_ H]. apply pc_ok. exact H.
Qed.

(** the kernel reads only the first n + 1 pointers of its operands *)
Lemma vget_firstn {A} (l : list A) n i : i < n -> vget (firstn n l) i = vget l i.
Proof.
  intros H. unfold vget. replace (nth_error (firstn n l) i) with (nth_error l i); [reflexivity|]. revert l i H. induction n as [|n IH]; intros l i H; [lia|].
  destruct l as [|a l]; [destruct i; reflexivity|]. destruct i as [|i]; [reflexivity|]. cbn. apply IH. lia.
Qed.
Lemma pget_firstn p n i : i < n -> pget (firstn n p) i = pget p i.
Proof. intros H. unfold pget. rewrite vget_firstn by exact H. reflexivity. Qed.
Lemma has_canonical_cut n p j : csr_has_canonical_format I n (firstn (S n) p) j = csr_has_canonical_format I n p j.
Proof.
  unfold csr_has_canonical_format. f_equal. apply for_range_exit_ext. intros i [] Hi.
  rewrite !pget_firstn, !vget_firstn by lia. reflexivity.
Qed.
Lemma binop_cut (op : T -> T -> res T2) n c a_p a_j a_x b_p b_j b_x c_p c_j (c_x : list T2) :
  csr_binop_csr I op n c a_p a_j a_x (firstn (S n) b_p) b_j b_x c_p c_j c_x = csr_binop_csr I op n c a_p a_j a_x b_p b_j b_x c_p c_j c_x.
Proof.
  unfold csr_binop_csr. rewrite has_canonical_cut. destruct (csr_has_canonical_format I n a_p a_j) as [ca| | |]; cbn [bind]; try reflexivity.
  destruct (if ca then csr_has_canonical_format I n b_p b_j else Ok false) as [cc| | |]; cbn [bind]; try reflexivity. destruct cc.
  - unfold csr_binop_csr_canonical. destruct (vset c_p 0 0%Z); cbn [bind]; try reflexivity. f_equal. apply for_range_ext.
    intros i [[[p j] x] k] Hi. rewrite !pget_firstn by lia. reflexivity.
  - unfold csr_binop_csr_general. destruct (vset c_p 0 0%Z); cbn [bind]; try reflexivity. f_equal. apply for_range_ext.
    intros i [[[[[[nx ar] br] nz] p] j] x] Hi. rewrite !pget_firstn by lia. reflexivity.
Qed.
End Kernels.

Section Mat.
Context {T : Type} {SC : Scalar T}.
Variable I : ity.
Implicit Types R : list (list (nat * T)).

Lemma crep_cut c p j (x : list T) R n : crep I c p j x R -> n <= length R -> crep I c (firstn (S n) p) j x (firstn n R).
Proof.
  intros H Hn. pose proof (cr_len _ _ _ _ _ _ H) as L. constructor.
  - rewrite !firstn_length. lia.
  - intros pre post E. assert (Lp : length pre <= n) by (apply (f_equal (@length _)) in E; rewrite firstn_length, app_length in E; lia).
    assert (EP : nth_error (firstn (S n) p) (length pre) = nth_error p (length pre)).
    { pose proof (vget_firstn p (S n) (length pre) ltac:(lia)) as G. unfold vget in G.
      destruct (nth_error (firstn (S n) p) (length pre)), (nth_error p (length pre)); congruence. }
    rewrite EP. apply (cr_ptr _ _ _ _ _ _ H pre (post ++ skipn n R)). rewrite app_assoc, <- E. symmetry. apply firstn_skipn.
  - destruct (cr_dat _ _ _ _ _ _ H) as [Hj Hx].
    assert (EC : concat R = concat (firstn n R) ++ concat (skipn n R)) by (rewrite <- concat_app, firstn_skipn; reflexivity).
    rewrite EC, app_length, map_app in Hj, Hx.
    split; [apply (f_equal (firstn (length (concat (firstn n R))))) in Hj|apply (f_equal (firstn (length (concat (firstn n R))))) in Hx].
    + rewrite firstn_firstn, Nat.min_l in Hj by lia. rewrite Hj, firstn_app, map_length, Nat.sub_diag, firstn_O, app_nil_r.
      rewrite <- (map_length (fun e => Z.of_nat (fst e)) (concat (firstn n R))), firstn_all. reflexivity.
    + rewrite firstn_firstn, Nat.min_l in Hx by lia. rewrite Hx, firstn_app, map_length, Nat.sub_diag, firstn_O, app_nil_r.
      rewrite <- (map_length snd (concat (firstn n R))), firstn_all. reflexivity.
  - pose proof (cr_idx _ _ _ _ _ _ H) as F. rewrite <- (firstn_skipn n R), concat_app in F. apply Forall_app in F. apply F.
  - pose proof (cr_fit _ _ _ _ _ _ H). pose proof (concat_firstn_le R n). lia.
Qed.
Lemma crep_cols c c' p j (x : list T) R : crep I c p j x R -> Forall (fun e => fst e < c') (concat R) -> crep I c' p j x R.
Proof.
  intros H F. constructor; try apply H. pose proof (cr_idx _ _ _ _ _ _ H) as G. rewrite Forall_forall in *. intros e He.
  split; [apply F, He|apply G, He].
Qed.
Lemma crep_widen c c' p j (x : list T) R : crep I c p j x R -> c <= c' -> crep I c' p j x R.
Proof.
  intros H L. apply (crep_cols _ _ _ _ _ _ H). eapply Forall_impl; [|apply (cr_idx _ _ _ _ _ _ H)]. cbn. intros e [G _]. lia.
Qed.
Lemma CSR_new_any r c c' p j (x : list T) R : crep I c' p j x R -> length R = r -> CSR_new r c p j x = Ok (mkCSR r c p j x).
Proof.
  intros H L. pose proof (CSR_new_rep _ _ _ _ _ _ _ H L) as E. unfold CSR_new in *.
  destruct (negb _); [unfold bad_length in E; destruct (Z.eqb _ _); discriminate E|]. destruct (usub _ _); try discriminate. cbn [bind] in *. destruct (pget _ _); try discriminate. cbn [bind] in *.
  destruct (_ <? _); [discriminate|]. destruct (_ <? _); [discriminate|]. reflexivity.
Qed.
Lemma CSC_new_any r c r' p j (x : list T) R : crep I r' p j x R -> length R = c -> CSC_new r c j p x = Ok (mkCSC r c j p x).
Proof.
  intros H L. pose proof (CSC_new_rep _ _ _ _ _ _ _ H L) as E. unfold CSC_new in *.
  destruct (negb _); [unfold bad_length in E; destruct (Z.eqb _ _); discriminate E|]. destruct (usub _ _); try discriminate. cbn [bind] in *. destruct (pget _ _); try discriminate. cbn [bind] in *.
  destruct (_ <? _); [discriminate|]. destruct (_ <? _); [discriminate|]. reflexivity.
Qed.

Section Kernel.
Variables (f : T -> T -> T) (n c cb : nat) (a_p a_j b_p b_j : list Z) (a_x b_x : list T) (RA RB : list (list (nat * T))).
Hypothesis HA : crep I c a_p a_j a_x RA.
Hypothesis HB : crep I cb b_p b_j b_x RB.
Hypothesis LA : length RA = n.
Hypothesis Hf : (Z.of_nat (length (concat RA) + length (concat RB)) < imax I)%Z.
Let RB' := firstn n RB.
Let kernel c_p c_j c_x := csr_binop_csr I (fun x y => Ok (f x y)) n c a_p a_j a_x b_p b_j b_x c_p c_j c_x.

Lemma mismatch_rows c_p c_j c_x : length RB < n -> kernel c_p c_j c_x = Panic.
Proof.
  intros L. unfold kernel, csr_binop_csr. destruct (has_canonical_spec _ _ _ _ _ _ _ HA LA ltac:(lia)) as (ba & Ea & _). rewrite Ea. cbn [bind].
  assert (Lp : length b_p <= n) by (rewrite (cr_len _ _ _ _ _ _ HB); lia).
  assert (G : csr_binop_csr_general I (fun x y => Ok (f x y)) n c a_p a_j a_x b_p b_j b_x c_p c_j c_x = Panic).
  { apply panic_of; [apply binop_general_np|]. eapply pc_mono; [apply binop_general_cols|]. intros ? H.
    destruct (H (n - 1) ltac:(lia)) as (s & e & _ & He & _). assert (S (n - 1) < length b_p) by (apply nth_error_Some; congruence). lia. }
  destruct ba; [|exact G]. pose proof (has_canonical_len I n b_p b_j) as HL. pose proof (has_canonical_np I n b_p b_j) as HN.
  destruct (csr_has_canonical_format I n b_p b_j) as [bb| | |]; cbn [bind np] in *; try tauto. destruct bb; [|exact G].
  destruct (HL true eq_refl eq_refl); lia.
Qed.

Hypothesis Hn : n <= length RB.
Lemma cut_len : length RB' = n.
Proof. unfold RB'. rewrite firstn_length. lia. Qed.
Lemma cut_count : length (concat RB') <= length (concat RB).
Proof. apply concat_firstn_le. Qed.

Lemma mismatch_cols c_p c_j c_x : ~ both_canonical RA RB' -> Exists (fun e => c <= fst e) (concat RB') -> kernel c_p c_j c_x = Panic.
Proof.
  intros HN HE. unfold kernel. rewrite <- binop_cut. unfold csr_binop_csr.
  destruct (has_canonical_spec _ _ _ _ _ _ _ HA LA ltac:(lia)) as (ba & Ea & Ha). rewrite Ea. cbn [bind].
  pose proof (crep_cut _ _ _ _ _ n HB Hn) as HC. pose proof cut_count as CC. fold RB' in HC.
  destruct (has_canonical_spec _ _ _ _ _ _ _ HC cut_len ltac:(lia)) as (bb & Eb & Hb).
  assert (G : csr_binop_csr_general I (fun x y => Ok (f x y)) n c a_p a_j a_x (firstn (S n) b_p) b_j b_x c_p c_j c_x = Panic).
  { apply panic_of; [apply binop_general_np|]. eapply pc_mono; [apply binop_general_cols|]. intros ? H.
    apply Exists_exists in HE as (e & He & Hc). apply in_concat in He as (r & Hr & He). apply (In_nth _ _ []) in Hr as (i & Hi & <-).
    rewrite cut_len in Hi. destruct (nth_split_app RB' i []) as (pre & post & ER & Lpre); [rewrite cut_len; exact Hi|].
    destruct (H i Hi) as (s & t & Hs & Ht & Hall).
    pose proof (crep_start HC ER) as S1. pose proof (crep_end HC ER) as S2. rewrite Lpre in S1, S2.
    apply pc_pget in S1. apply pc_pget in S2. rewrite Nat.add_1_r in S2.
    apply in_split in He as (iq & ir & Er). pose proof (crep_pj HC ER Er) as Ej. apply pc_pget in Ej.
    destruct (Hall (length (concat pre) + length iq)) as (k & Ek & Hk).
    { rewrite Hs in S1. injection S1 as S1. rewrite Ht in S2. injection S2 as S2. apply Nat2Z.inj in S1, S2. rewrite S1, S2, Er, app_length. cbn. lia. }
    rewrite Ej in Ek. injection Ek as Ek. apply Nat2Z.inj in Ek. lia. }
  destruct ba; [|exact G]. rewrite Eb. cbn [bind]. destruct bb; [|exact G].
  exfalso. apply HN. split; tauto.
Qed.

Lemma mismatch_ok c_p c_j c_x : length c_p = S n ->
  length (concat RA) + length (concat RB) <= length c_j -> length (concat RA) + length (concat RB) <= length c_x ->
  both_canonical RA RB' \/ Forall (fun e => fst e < c) (concat RB') ->
  wp (kernel c_p c_j c_x) (fun '(p, j, x) => length j = length c_j /\ length x = length c_x /\
    exists R : list (list (nat * T)), length R = n /\ crep I (c + cb) p j x R /\
      (forall i, i < n -> binrow (fun k => f (rd RA RB' (at_ k (nth i RA []))) (rd RA RB' (at_ k (nth i RB [])))) (nth i RA []) (nth i RB []) (nth i R [])) /\
      (both_canonical RA RB' -> Forall canonical_row R)).
Proof.
  intros LP LJ LX HC. pose proof cut_count as CC. pose proof (crep_cut _ _ _ _ _ n HB Hn) as HBC. fold RB' in HBC.
  assert (EN : forall i, i < n -> nth i RB' [] = nth i RB []).
  { intros i Hi. unfold RB'. rewrite <- (firstn_skipn n RB) at 2. rewrite app_nth1; [reflexivity|]. rewrite firstn_length. lia. }
  assert (K : forall c', crep I c' a_p a_j a_x RA -> crep I c' (firstn (S n) b_p) b_j b_x RB' -> c' <= c + cb -> kernel c_p c_j c_x =
     csr_binop_csr I (fun x y => Ok (f x y)) n c' a_p a_j a_x (firstn (S n) b_p) b_j b_x c_p c_j c_x ->
     wp (kernel c_p c_j c_x) (fun '(p, j, x) => length j = length c_j /\ length x = length c_x /\
    exists R : list (list (nat * T)), length R = n /\ crep I (c + cb) p j x R /\
      (forall i, i < n -> binrow (fun k => f (rd RA RB' (at_ k (nth i RA []))) (rd RA RB' (at_ k (nth i RB [])))) (nth i RA []) (nth i RB []) (nth i R [])) /\
      (both_canonical RA RB' -> Forall canonical_row R))).
  { intros c' A' B' Lc ->. eapply wp_mono; [apply (binop_total I f n c' _ _ _ _ _ _ RA RB' _ _ _ A' B' LA cut_len); lia|].
    intros [[p j] x] (Lj & Lx & R & LR & HR & Hrow & Hcan). sp; try assumption. exists R. sp; try assumption.
    - apply (crep_widen _ _ _ _ _ _ HR Lc).
    - intros i Hi. rewrite <- (EN i Hi). apply Hrow, Hi. }
  destruct HC as [HC|HC].
  - apply (K (c + cb)); [apply (crep_widen _ _ _ _ _ _ HA); lia|apply (crep_widen _ _ _ _ _ _ HBC); lia|lia|].
    unfold kernel. rewrite <- binop_cut. unfold csr_binop_csr.
    destruct (has_canonical_spec _ _ _ _ _ _ _ HA LA ltac:(lia)) as (ba & Ea & Ha). rewrite Ea. cbn [bind].
    destruct (has_canonical_spec _ _ _ _ _ _ _ HBC cut_len ltac:(lia)) as (bb & Eb & Hb). destruct HC as [C1 C2].
    apply Ha in C1. apply Hb in C2. subst ba bb. rewrite Eb. reflexivity.
  - apply (K c); [exact HA|apply (crep_cols _ _ _ _ _ _ HBC HC)|lia|]. unfold kernel. rewrite <- binop_cut. reflexivity.
Qed.
End Kernel.

(** a matrix seen through rows that may hold columns beyond its last one *)
Lemma over_wf n c c' p j (x : list T) R : crep I c' p j x R -> length R = n ->
  wf_arrays I n c p j x <-> forall i k, i < n -> c <= k -> at_ k (nth i R []) = [].
Proof.
  intros H L. split.
  - intros W i k Hi Hk. destruct (crep_of_wf _ _ _ _ _ _ W) as [W1 W2].
    rewrite <- (crep_crow _ _ _ _ _ _ i H), (crep_crow _ _ _ _ _ _ i W2). apply at_not_in. intros Hin. apply in_map_iff in Hin as (e & <- & He).
    pose proof (cr_idx _ _ _ _ _ _ W2) as F. rewrite Forall_forall in F. destruct (F e) as [F1 _]; [|lia].
    apply in_concat. eexists. split; [|exact He]. destruct (Nat.lt_ge_cases i (length (map (crow p j x) (seq 0 n)))) as [G|G]; [apply nth_In, G|].
    rewrite nth_overflow in He by exact G. destruct He.
  - intros G. rewrite <- L. apply crep_wf. apply (crep_cols _ _ _ _ _ _ H). apply Forall_forall. intros e He. apply in_concat in He as (r & Hr & He).
    apply (In_nth _ _ []) in Hr as (i & Hi & <-). destruct (Nat.lt_ge_cases (fst e) c) as [|Hc]; [assumption|exfalso].
    specialize (G i (fst e) ltac:(lia) Hc). apply at_nil_iff in G. apply G. apply in_map, He.
Qed.

Definition csr_op (f : T -> T -> T) (a b : CSR T) : res (CSR T) :=
  let* na := CSR_nnz a in
  let* nb := CSR_nnz b in
  let nnz := na + nb in
  let* '(rowptr, colidx, values) :=
    csr_binop_csr I (fun x y => Ok (f x y)) (csr_rows a) (csr_cols a) (csr_rowptr a) (csr_colidx a) (csr_values a)
      (csr_rowptr b) (csr_colidx b) (csr_values b)
      (repeat 0%Z (csr_rows a + 1)) (repeat 0%Z nnz) (repeat s0 nnz) in
  unwrap (CSR_new (csr_rows a) (csr_cols a) rowptr colidx values).
Lemma csr_op_add a b : CSR_add I a b = csr_op sadd a b.
Proof. reflexivity. Qed.
Lemma csr_op_sub a b : CSR_sub I a b = csr_op ssub a b.
Proof. reflexivity. Qed.

Section Csr.
Variables (f : T -> T -> T) (a b : CSR T).
Hypothesis WA : wf_csr I a.
Hypothesis WB : wf_csr I b.
Hypothesis Hf : (Z.of_nat (csr_count a + csr_count b) < imax I)%Z.

Lemma csr_op_rows : csr_rows b < csr_rows a -> csr_op f a b = Panic.
Proof.
  intros L. destruct (wf_csr_rep _ _ WA) as [RA RPA], (wf_csr_rep _ _ WB) as [RB RPB]. pose proof Hf as F.
  unfold csr_op. rewrite (CSR_nnz_rep _ _ _ RPA), (CSR_nnz_rep _ _ _ RPB). cbn [bind].
  rewrite (csr_rep_count _ _ _ RPA), (csr_rep_count _ _ _ RPB) in F. destruct RPA as [LA HA], RPB as [LB HB].
  rewrite (mismatch_rows f _ _ _ _ _ _ _ _ _ _ _ HA HB LA F) by lia. reflexivity.
Qed.

Lemma cut_canonical RA RB : csr_rep I a RA -> csr_rep I b RB -> csr_rows a <= csr_rows b ->
  both_canonical RA (firstn (csr_rows a) RB) <-> csr_both_canonical a b.
Proof.
  intros HA HB L. unfold both_canonical, csr_both_canonical, csr_canonical. rewrite (csr_rep_rows canonical_row _ _ _ HA).
  enough (G : Forall canonical_row (firstn (csr_rows a) RB) <-> (forall i, i < csr_rows a -> canonical_row (csr_row b i))) by tauto.
  rewrite (nth_Forall _ _ []), firstn_length, (proj1 HB), Nat.min_l by exact L.
  assert (EN : forall i, i < csr_rows a -> nth i (firstn (csr_rows a) RB) [] = csr_row b i).
  { intros i Hi. rewrite (csr_rep_row _ _ _ _ HB). rewrite <- (firstn_skipn (csr_rows a) RB) at 2. rewrite app_nth1; [reflexivity|].
    rewrite firstn_length, (proj1 HB). lia. }
  split; intros H i Hi; specialize (H i Hi); rewrite (EN i Hi) in *; exact H.
Qed.
Lemma cut_inside RA RB : csr_rep I a RA -> csr_rep I b RB -> csr_rows a <= csr_rows b ->
  Exists (fun e => csr_cols a <= fst e) (concat (firstn (csr_rows a) RB)) <-> csr_sticks_out a b.
Proof.
  intros HA HB L.
  assert (EN : forall i, i < csr_rows a -> nth i (firstn (csr_rows a) RB) [] = csr_row b i).
  { intros i Hi. rewrite (csr_rep_row _ _ _ _ HB). rewrite <- (firstn_skipn (csr_rows a) RB) at 2. rewrite app_nth1; [reflexivity|].
    rewrite firstn_length, (proj1 HB). lia. }
  assert (LN : length (firstn (csr_rows a) RB) = csr_rows a) by (rewrite firstn_length, (proj1 HB); lia).
  rewrite Exists_exists. unfold csr_sticks_out. split.
  - intros (e & He & Hc). apply in_concat in He as (r & Hr & He). apply (In_nth _ _ []) in Hr as (i & Hi & <-). rewrite LN in Hi.
    exists i, (fst e). sp; try assumption. unfold csr_at. rewrite at_nil_iff. intros G. apply G. rewrite <- (EN i Hi). apply in_map, He.
  - intros (i & j & Hi & Hj & Hne). unfold csr_at in Hne. rewrite at_nil_iff in Hne.
    destruct (in_dec Nat.eq_dec j (map fst (csr_row b i))) as [G|G]; [|contradiction]. apply in_map_iff in G as (e & Ee & He). exists e. split; [|lia].
    apply in_concat. exists (nth i (firstn (csr_rows a) RB) []). split; [apply nth_In; lia|]. rewrite (EN i Hi). exact He.
Qed.

Lemma csr_op_cols : csr_rows a <= csr_rows b -> ~ csr_both_canonical a b -> csr_sticks_out a b -> csr_op f a b = Panic.
Proof.
  intros L NC HS. destruct (wf_csr_rep _ _ WA) as [RA RPA], (wf_csr_rep _ _ WB) as [RB RPB]. pose proof Hf as F.
  unfold csr_op. rewrite (CSR_nnz_rep _ _ _ RPA), (CSR_nnz_rep _ _ _ RPB). cbn [bind].
  rewrite (csr_rep_count _ _ _ RPA), (csr_rep_count _ _ _ RPB) in F. rewrite <- (cut_canonical _ _ RPA RPB L) in NC. rewrite <- (cut_inside _ _ RPA RPB L) in HS.
  destruct RPA as [LA HA], RPB as [LB HB]. rewrite (mismatch_cols f _ _ _ _ _ _ _ _ _ _ _ HA HB LA F) by (assumption || lia). reflexivity.
Qed.

Lemma csr_op_ok : csr_rows a <= csr_rows b -> csr_both_canonical a b \/ ~ csr_sticks_out a b ->
  exists r, csr_op f a b = Ok r /\ csr_rows r = csr_rows a /\ csr_cols r = csr_cols a /\ csr_nodup r /\ csr_nonzero r /\
    (csr_both_canonical a b -> csr_canonical r) /\
    (~ csr_both_canonical a b -> csr_entrywise sum0 f a b r) /\
    (csr_both_canonical a b -> csr_entrywise (hd s0) f a b r) /\
    (wf_csr I r <-> ~ csr_sticks_out a r).
Proof.
  intros L HC. destruct (wf_csr_rep _ _ WA) as [RA RPA], (wf_csr_rep _ _ WB) as [RB RPB]. pose proof Hf as F.
  unfold csr_op. rewrite (CSR_nnz_rep _ _ _ RPA), (CSR_nnz_rep _ _ _ RPB). cbn [bind].
  rewrite (csr_rep_count _ _ _ RPA), (csr_rep_count _ _ _ RPB) in F. rewrite <- (cut_inside _ _ RPA RPB L) in HC. rewrite <- !(cut_canonical _ _ RPA RPB L) in *.
  assert (HC' : both_canonical RA (firstn (csr_rows a) RB) \/ Forall (fun e => fst e < csr_cols a) (concat (firstn (csr_rows a) RB))).
  { destruct HC as [HC|HC]; [left; exact HC|right]. apply Forall_Exists_neg in HC. eapply Forall_impl; [|exact HC]. cbn. intros e He. lia. }
  pose proof RPA as RPA'. pose proof RPB as RPB'. destruct RPA as [LA HA], RPB as [LB HB].
  destruct (mismatch_ok f _ _ _ _ _ _ _ _ _ _ _ HA HB LA F ltac:(lia) (repeat 0%Z (csr_rows a + 1)) (repeat 0%Z (length (concat RA) + length (concat RB)))
    (repeat s0 (length (concat RA) + length (concat RB))) ltac:(rewrite repeat_length; lia) ltac:(rewrite repeat_length; lia) ltac:(rewrite repeat_length; lia) HC')
    as ([[p j] x] & E & _ & _ & R & LR & HR & Hrow & Hcan).
  rewrite E. cbn [bind]. rewrite (CSR_new_any _ (csr_cols a) _ _ _ _ _ HR LR). cbn [unwrap].
  set (r := mkCSR (csr_rows a) (csr_cols a) p j x). exists r. rewrite <- !(cut_canonical _ _ RPA' RPB' L).
  assert (ER : forall i, csr_row r i = nth i R []) by (intros i; apply (crep_crow _ _ _ _ _ _ _ HR)).
  assert (EA : forall i k, csr_at r i k = at_ k (nth i R [])) by (intros i k; unfold csr_at; rewrite ER; reflexivity).
  split; [reflexivity|]. split; [reflexivity|]. split; [reflexivity|]. sp.
  - intros i Hi. rewrite ER. apply (binrow_nodup _ _ _ _ (Hrow i Hi)).
  - intros i v Hi Hv. rewrite ER in Hv. pose proof (binrow_nonzero _ _ _ _ (Hrow i Hi)) as G. rewrite Forall_forall in G.
    apply in_map_iff in Hv as (e & <- & He). apply G, He.
  - intros C i Hi. rewrite ER. specialize (Hcan C). rewrite (nth_Forall _ _ []) in Hcan. apply Hcan. rewrite LR. exact Hi.
  - intros C i k Hi. rewrite EA, (csr_rep_at _ _ _ _ _ RPA'), (csr_rep_at _ _ _ _ _ RPB'), (binrow_keep _ _ _ _ _ (Hrow i Hi)).
    unfold rd. destruct (both_dec _ _); [contradiction|reflexivity].
  - intros C i k Hi. rewrite EA, (csr_rep_at _ _ _ _ _ RPA'), (csr_rep_at _ _ _ _ _ RPB'), (binrow_keep _ _ _ _ _ (Hrow i Hi)).
    unfold rd. destruct (both_dec _ _); [reflexivity|contradiction].
  - unfold wf_csr. cbn [csr_rows csr_cols csr_rowptr csr_colidx csr_values r]. rewrite (over_wf _ _ _ _ _ _ _ HR LR). unfold csr_sticks_out. split.
    + intros G (i & k & Hi & Hk & Hne). apply Hne. rewrite EA. apply G; assumption.
    + intros G i k Hi Hk. destruct (at_ k (nth i R [])) eqn:Eq; [reflexivity|]. exfalso. apply G. exists i, k. rewrite EA, Eq. sp; try assumption. discriminate.
Qed.
End Csr.
Definition csc_op (f : T -> T -> T) (a b : CSC T) : res (CSC T) :=
  let* na := CSC_nnz a in
  let* nb := CSC_nnz b in
  let nnz := na + nb in
  let* '(rowptr, colidx, values) :=
    csr_binop_csr I (fun x y => Ok (f x y)) (csc_cols a) (csc_rows a) (csc_colptr a) (csc_rowidx a) (csc_values a)
      (csc_colptr b) (csc_rowidx b) (csc_values b)
      (repeat 0%Z (csc_cols a + 1)) (repeat 0%Z nnz) (repeat s0 nnz) in
  unwrap (CSC_new (csc_rows a) (csc_cols a) colidx rowptr values).
Lemma csc_op_add a b : CSC_op_add I a b = csc_op sadd a b.
Proof. reflexivity. Qed.

Section Csc.
Variables (f : T -> T -> T) (a b : CSC T).
Hypothesis WA : wf_csc I a.
Hypothesis WB : wf_csc I b.
Hypothesis Hf : (Z.of_nat (csc_count a + csc_count b) < imax I)%Z.

Lemma csc_op_rows : csc_cols b < csc_cols a -> csc_op f a b = Panic.
Proof.
  intros L. destruct (wf_csc_rep _ _ WA) as [RA RPA], (wf_csc_rep _ _ WB) as [RB RPB]. pose proof Hf as F.
  unfold csc_op. rewrite (CSC_nnz_rep _ _ _ RPA), (CSC_nnz_rep _ _ _ RPB). cbn [bind].
  rewrite (csc_rep_count _ _ _ RPA), (csc_rep_count _ _ _ RPB) in F. destruct RPA as [LA HA], RPB as [LB HB].
  rewrite (mismatch_rows f _ _ _ _ _ _ _ _ _ _ _ HA HB LA F) by lia. reflexivity.
Qed.

Lemma cut_canonical_c RA RB : csc_rep I a RA -> csc_rep I b RB -> csc_cols a <= csc_cols b ->
  both_canonical RA (firstn (csc_cols a) RB) <-> csc_both_canonical a b.
Proof.
  intros HA HB L. unfold both_canonical, csc_both_canonical, csc_canonical. rewrite (csc_rep_cols canonical_row _ _ _ HA).
  enough (G : Forall canonical_row (firstn (csc_cols a) RB) <-> (forall i, i < csc_cols a -> canonical_row (csc_col b i))) by tauto.
  rewrite (nth_Forall _ _ []), firstn_length, (proj1 HB), Nat.min_l by exact L.
  assert (EN : forall i, i < csc_cols a -> nth i (firstn (csc_cols a) RB) [] = csc_col b i).
  { intros i Hi. rewrite (csc_rep_col _ _ _ _ HB). rewrite <- (firstn_skipn (csc_cols a) RB) at 2. rewrite app_nth1; [reflexivity|].
    rewrite firstn_length, (proj1 HB). lia. }
  split; intros H i Hi; specialize (H i Hi); rewrite (EN i Hi) in *; exact H.
Qed.
Lemma cut_inside_c RA RB : csc_rep I a RA -> csc_rep I b RB -> csc_cols a <= csc_cols b ->
  Exists (fun e => csc_rows a <= fst e) (concat (firstn (csc_cols a) RB)) <-> csc_sticks_out a b.
Proof.
  intros HA HB L.
  assert (EN : forall i, i < csc_cols a -> nth i (firstn (csc_cols a) RB) [] = csc_col b i).
  { intros i Hi. rewrite (csc_rep_col _ _ _ _ HB). rewrite <- (firstn_skipn (csc_cols a) RB) at 2. rewrite app_nth1; [reflexivity|].
    rewrite firstn_length, (proj1 HB). lia. }
  assert (LN : length (firstn (csc_cols a) RB) = csc_cols a) by (rewrite firstn_length, (proj1 HB); lia).
  rewrite Exists_exists. unfold csc_sticks_out. split.
  - intros (e & He & Hc). apply in_concat in He as (r & Hr & He). apply (In_nth _ _ []) in Hr as (i & Hi & <-). rewrite LN in Hi.
    exists (fst e), i. sp; try assumption. unfold csc_at. rewrite at_nil_iff. intros G. apply G. rewrite <- (EN i Hi). apply in_map, He.
  - intros (j & i & Hi & Hj & Hne). unfold csc_at in Hne. rewrite at_nil_iff in Hne.
    destruct (in_dec Nat.eq_dec j (map fst (csc_col b i))) as [G|G]; [|contradiction]. apply in_map_iff in G as (e & Ee & He). exists e. split; [|lia].
    apply in_concat. exists (nth i (firstn (csc_cols a) RB) []). split; [apply nth_In; lia|]. rewrite (EN i Hi). exact He.
Qed.

Lemma csc_op_cols : csc_cols a <= csc_cols b -> ~ csc_both_canonical a b -> csc_sticks_out a b -> csc_op f a b = Panic.
Proof.
  intros L NC HS. destruct (wf_csc_rep _ _ WA) as [RA RPA], (wf_csc_rep _ _ WB) as [RB RPB]. pose proof Hf as F.
  unfold csc_op. rewrite (CSC_nnz_rep _ _ _ RPA), (CSC_nnz_rep _ _ _ RPB). cbn [bind].
  rewrite (csc_rep_count _ _ _ RPA), (csc_rep_count _ _ _ RPB) in F. rewrite <- (cut_canonical_c _ _ RPA RPB L) in NC. rewrite <- (cut_inside_c _ _ RPA RPB L) in HS.
  destruct RPA as [LA HA], RPB as [LB HB]. rewrite (mismatch_cols f _ _ _ _ _ _ _ _ _ _ _ HA HB LA F) by (assumption || lia). reflexivity.
Qed.

Lemma csc_op_ok : csc_cols a <= csc_cols b -> csc_both_canonical a b \/ ~ csc_sticks_out a b ->
  exists r, csc_op f a b = Ok r /\ csc_cols r = csc_cols a /\ csc_rows r = csc_rows a /\ csc_nodup r /\ csc_nonzero r /\
    (csc_both_canonical a b -> csc_canonical r) /\
    (~ csc_both_canonical a b -> csc_entrywise sum0 f a b r) /\
    (csc_both_canonical a b -> csc_entrywise (hd s0) f a b r) /\
    (wf_csc I r <-> ~ csc_sticks_out a r).
Proof.
  intros L HC. destruct (wf_csc_rep _ _ WA) as [RA RPA], (wf_csc_rep _ _ WB) as [RB RPB]. pose proof Hf as F.
  unfold csc_op. rewrite (CSC_nnz_rep _ _ _ RPA), (CSC_nnz_rep _ _ _ RPB). cbn [bind].
  rewrite (csc_rep_count _ _ _ RPA), (csc_rep_count _ _ _ RPB) in F. rewrite <- (cut_inside_c _ _ RPA RPB L) in HC. rewrite <- !(cut_canonical_c _ _ RPA RPB L) in *.
  assert (HC' : both_canonical RA (firstn (csc_cols a) RB) \/ Forall (fun e => fst e < csc_rows a) (concat (firstn (csc_cols a) RB))).
  { destruct HC as [HC|HC]; [left; exact HC|right]. apply Forall_Exists_neg in HC. eapply Forall_impl; [|exact HC]. cbn. intros e He. lia. }
  pose proof RPA as RPA'. pose proof RPB as RPB'. destruct RPA as [LA HA], RPB as [LB HB].
  destruct (mismatch_ok f _ _ _ _ _ _ _ _ _ _ _ HA HB LA F ltac:(lia) (repeat 0%Z (csc_cols a + 1)) (repeat 0%Z (length (concat RA) + length (concat RB)))
    (repeat s0 (length (concat RA) + length (concat RB))) ltac:(rewrite repeat_length; lia) ltac:(rewrite repeat_length; lia) ltac:(rewrite repeat_length; lia) HC')
    as ([[p j] x] & E & _ & _ & R & LR & HR & Hrow & Hcan).
  rewrite E. cbn [bind]. rewrite (CSC_new_any (csc_rows a) _ _ _ _ _ _ HR LR). cbn [unwrap].
  set (r := mkCSC (csc_rows a) (csc_cols a) j p x). exists r. rewrite <- !(cut_canonical_c _ _ RPA' RPB' L).
  assert (ER : forall i, csc_col r i = nth i R []) by (intros i; apply (crep_crow _ _ _ _ _ _ _ HR)).
  assert (EA : forall k i, csc_at r k i = at_ k (nth i R [])) by (intros k i; unfold csc_at; rewrite ER; reflexivity).
  split; [reflexivity|]. split; [reflexivity|]. split; [reflexivity|]. sp.
  - intros i Hi. rewrite ER. apply (binrow_nodup _ _ _ _ (Hrow i Hi)).
  - intros i v Hi Hv. rewrite ER in Hv. pose proof (binrow_nonzero _ _ _ _ (Hrow i Hi)) as G. rewrite Forall_forall in G.
    apply in_map_iff in Hv as (e & <- & He). apply G, He.
  - intros C i Hi. rewrite ER. specialize (Hcan C). rewrite (nth_Forall _ _ []) in Hcan. apply Hcan. rewrite LR. exact Hi.
  - intros C k i Hi. rewrite EA, (csc_rep_at _ _ _ _ _ RPA'), (csc_rep_at _ _ _ _ _ RPB'), (binrow_keep _ _ _ _ _ (Hrow i Hi)).
    unfold rd. destruct (both_dec _ _); [contradiction|reflexivity].
  - intros C k i Hi. rewrite EA, (csc_rep_at _ _ _ _ _ RPA'), (csc_rep_at _ _ _ _ _ RPB'), (binrow_keep _ _ _ _ _ (Hrow i Hi)).
    unfold rd. destruct (both_dec _ _); [reflexivity|contradiction].
  - unfold wf_csc. cbn [csc_cols csc_rows csc_colptr csc_rowidx csc_values r]. rewrite (over_wf _ _ _ _ _ _ _ HR LR). unfold csc_sticks_out. split.
    + intros G (k & i & Hi & Hk & Hne). apply Hne. rewrite EA. apply G; assumption.
    + intros G i k Hi Hk. destruct (at_ k (nth i R [])) eqn:Eq; [reflexivity|]. exfalso. apply G. exists k, i. rewrite EA, Eq. sp; try assumption. discriminate.
Qed.
End Csc.
End Mat.
