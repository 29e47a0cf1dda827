(** IEEE arithmetic of the standard library's SpecFloat rounds correctly: the error bounds. *)
From Verif Require Import Rust Scalar SpecRound.
From Coq Require Import ZArith QArith Qabs List Floats.SpecFloat Lia Lqa Qpower Bool.
Import ListNotations.

(** every float of the format has at least this exponent *)
Definition low (prec emax : Z) (x : spec_float) : Prop :=
  match x with S754_finite _ _ e => (emin prec emax <= e)%Z | _ => True end.

Section Fl.
Variables prec emax : Z.
Hypothesis Hp : (0 < prec)%Z.
Local Notation fexp := (fexp prec emax).
Local Notation emin := (emin prec emax).
Open Scope Z_scope.

Lemma pow_pos n : 0 <= n -> 0 < 2 ^ n.
Proof. intros. apply Z.pow_pos_nonneg; lia. Qed.

Lemma digits_pos p : 2 ^ (Zpos (digits2_pos p) - 1) <= Zpos p < 2 ^ (Zpos (digits2_pos p)).
Proof.
  induction p as [p IH|p IH|]; simpl digits2_pos; [| |simpl; lia];
    rewrite Pos2Z.inj_succ; set (d := Zpos (digits2_pos p)) in *;
    assert (0 < d) by (unfold d; lia); replace (Z.succ d - 1) with (Z.succ (d - 1)) by lia;
    rewrite !Z.pow_succ_r by lia; lia.
Qed.
Lemma digits_le m k : 0 <= m < 2 ^ k -> 0 <= k -> Zdigits2 m <= k.
Proof.
  intros H Hk. destruct m as [|p|p]; [simpl; lia| |lia]. simpl. destruct (digits_pos p) as [H1 _].
  destruct (Z.le_gt_cases (Zpos (digits2_pos p)) k) as [|G]; [assumption|].
  assert (2 ^ k <= 2 ^ (Zpos (digits2_pos p) - 1)) by (apply Z.pow_le_mono_r; lia). lia.
Qed.

(** the record after [n] shifts of [m] *)
Definition shifted (m n : Z) (x : shr_record) : Prop :=
  exists rho, m = shr_m x * 2 ^ n + rho /\ 0 <= rho < 2 ^ n /\ 0 <= shr_m x /\
  match shr_r x, shr_s x with
  | false, false => rho = 0
  | false, true => 0 < rho /\ 2 * rho < 2 ^ n
  | true, false => 2 * rho = 2 ^ n
  | true, true => 2 ^ n < 2 * rho
  end.
Lemma shifted_step m n x : 0 <= n -> shifted m n x -> shifted m (n + 1) (shr_1 x).
Proof.
  intros Hn (rho & E & B & P & C). pose proof (pow_pos n Hn).
  replace (n + 1) with (Z.succ n) by lia. unfold shifted. rewrite Z.pow_succ_r by lia.
  destruct x as [M r s]; cbn [shr_m shr_r shr_s] in *.
  destruct M as [|[p|p|]|p]; try lia; cbn [shr_1 shr_m shr_r shr_s].
  - exists rho. destruct r, s; cbn [orb]; repeat split; lia.
  - exists (2 ^ n + rho). destruct r, s; cbn [orb]; repeat split; try lia; rewrite E, (Pos2Z.inj_xI p); lia.
  - exists rho. destruct r, s; cbn [orb]; repeat split; try lia; rewrite E, (Pos2Z.inj_xO p); lia.
  - exists (2 ^ n + rho). destruct r, s; cbn [orb]; repeat split; lia.
Qed.
Lemma shifted_iter m p : forall n x, 0 <= n -> shifted m n x -> shifted m (n + Zpos p) (iter_pos shr_1 p x).
Proof.
  induction p as [p IH|p IH|]; intros n x Hn H; simpl iter_pos.
  - replace (n + Zpos p~1) with ((n + 1 + Zpos p) + Zpos p) by lia. apply IH; [lia|]. apply IH; [lia|]. apply shifted_step; assumption.
  - replace (n + Zpos p~0) with ((n + Zpos p) + Zpos p) by lia. apply IH; [lia|]. apply IH; assumption.
  - apply shifted_step; assumption.
Qed.
Lemma shifted_0 m : 0 <= m -> shifted m 0 (Build_shr_record m false false).
Proof. intros. exists 0. cbn [shr_m shr_r shr_s]. change (2 ^ 0) with 1. lia. Qed.

Lemma round_near m n x : 0 <= n -> shifted m n x ->
  let q := round_nearest_even (shr_m x) (loc_of_shr_record x) in
  0 <= q /\ 2 * Z.abs (q * 2 ^ n - m) <= 2 ^ n /\ shr_m x <= q <= shr_m x + 1.
Proof.
  intros Hn (rho & E & B & P & C). pose proof (pow_pos n Hn). destruct x as [M r s]; cbn [shr_m shr_r shr_s] in *.
  destruct r, s; cbn [loc_of_shr_record round_nearest_even]; try destruct (Z.even M); repeat split; try lia.
Qed.

(** rounding a positive number *)
Lemma round_aux_spec sx p ex :
  (exists q n, 0 <= n /\ 0 <= q /\ 2 * Z.abs (q * 2 ^ n - Zpos p) <= 2 ^ n /\
     (n = 0 -> q = Zpos p) /\
     (0 < n -> n = Zpos (digits2_pos p) - prec \/ n = emin - ex) /\ (emin <= ex -> 0 < n -> n = Zpos (digits2_pos p) - prec) /\
     match binary_round_aux prec emax sx (Zpos p) ex loc_Exact with
     | S754_zero s => s = sx /\ q = 0
     | S754_finite s m e => s = sx /\ emin <= e /\ (e = ex + n /\ Zpos m = q \/ e = ex + n + 1 /\ q = 2 * Zpos m) /\
         e <= emax - prec /\ (e = ex + n /\ q < 2 ^ prec \/ e = ex + n + 1 /\ q = 2 ^ prec) /\ n = Z.max 0 (fexp (Zpos (digits2_pos p) + ex) - ex)
     | S754_infinity _ => emax - prec < ex + n + 1 /\ (emax - prec < ex + n \/ q = 2 ^ prec) /\ n = Z.max 0 (fexp (Zpos (digits2_pos p) + ex) - ex)
     | S754_nan => False
     end).
Proof.
  unfold binary_round_aux, shr_fexp at 1. cbn [Zdigits2 shr_record_of_loc].
  destruct (digits_pos p) as [D1 D2]. set (d := Zpos (digits2_pos p)) in *.
  assert (Fd : fexp (d + ex) = Z.max (d + ex - prec) emin) by reflexivity.
  assert (second : forall q e, 0 <= q <= 2 ^ prec -> emin <= e -> 
     exists m', snd (shr_fexp prec emax q e loc_Exact) >= e /\ shr_m (fst (shr_fexp prec emax q e loc_Exact)) = m' /\
       (snd (shr_fexp prec emax q e loc_Exact) = e /\ m' = q /\ q < 2 ^ prec \/ snd (shr_fexp prec emax q e loc_Exact) = e + 1 /\ q = 2 * m' /\ q = 2 ^ prec)).
  { intros q e Hq He. unfold shr_fexp. cbn [shr_record_of_loc].
    assert (Fq : fexp (Zdigits2 q + e) = Z.max (Zdigits2 q + e - prec) emin) by reflexivity.
    destruct (Z.eq_dec q (2 ^ prec)) as [->|N].
    - assert (DQ : Zdigits2 (2 ^ prec) = prec + 1).
      { pose proof (pow_pos prec ltac:(lia)). destruct (2 ^ prec) as [|w|] eqn:W; try lia. cbn [Zdigits2].
        destruct (digits_pos w) as [A B]. set (dw := Zpos (digits2_pos w)) in *. rewrite <- W in *.
        assert (0 < dw) by (unfold dw; lia). apply Z.pow_le_mono_r_iff in A; [|lia|lia]. apply Z.pow_lt_mono_r_iff in B; lia. }
      rewrite DQ in *. replace (fexp (prec + 1 + e) - e) with 1 by lia. cbn [shr fst snd iter_pos].
      exists (2 ^ (prec - 1)). split; [lia|].
      assert (W : 2 ^ prec = 2 * 2 ^ (prec - 1)) by (rewrite <- Z.pow_succ_r by lia; f_equal; lia).
      split; [|right; split; [reflexivity|split; [exact W|reflexivity]]]. pose proof (pow_pos (prec - 1) ltac:(lia)).
      rewrite W. destruct (2 ^ (prec - 1)) as [|w|]; try lia. reflexivity.
    - assert (Zdigits2 q <= prec) by (apply digits_le; lia).
      exists q. assert (n2 : fexp (Zdigits2 q + e) - e <= 0) by lia.
      destruct (fexp (Zdigits2 q + e) - e) as [|n|n]; try lia; cbn [shr fst snd shr_m]; repeat split; try lia; left; repeat split; lia. }
  destruct (fexp (d + ex) - ex) as [|n|n] eqn:N.
  - exists (Zpos p), 0. cbn [shr shr_m loc_of_shr_record round_nearest_even]. change (2 ^ 0) with 1.
    repeat split; try lia.
    unfold shr_fexp. cbn [shr_record_of_loc Zdigits2]. fold d. rewrite N. cbn [shr shr_m].
    assert (Zpos p < 2 ^ prec) by (apply Z.lt_le_trans with (2 ^ d); [lia|apply Z.pow_le_mono_r; lia]).
    destruct (Z.leb_spec ex (emax - prec)); repeat split; lia.
  - cbn [shr].
    pose proof (shifted_iter (Zpos p) n 0 _ ltac:(lia) (shifted_0 (Zpos p) ltac:(lia))) as S. rewrite Z.add_0_l in S.
    set (x := iter_pos shr_1 n _) in *.
    pose proof (round_near (Zpos p) (Zpos n) x ltac:(lia) S) as R. cbn zeta in R.
    set (q := round_nearest_even _ _) in *. destruct R as (Q0 & Q1 & Q2).
    destruct S as (rho & E & B & P & _).
    assert (Hm : shr_m x < 2 ^ prec).
    { destruct (Z.lt_ge_cases (shr_m x) (2 ^ prec)) as [|G]; [assumption|].
      assert (2 ^ prec * 2 ^ Zpos n <= shr_m x * 2 ^ Zpos n) by (apply Z.mul_le_mono_nonneg_r; lia).
      rewrite <- Z.pow_add_r in H by lia. assert (2 ^ d <= 2 ^ (prec + Zpos n)) by (apply Z.pow_le_mono_r; lia). lia. }
    destruct (second q (ex + Zpos n) ltac:(lia) ltac:(lia)) as (m' & S1 & S2 & S3).
    destruct (shr_fexp prec emax q (ex + Zpos n) loc_Exact) as [y e''] eqn:Y. cbn [fst snd] in *.
    exists q, (Zpos n). split; [lia|]. split; [lia|]. split; [exact Q1|]. split; [lia|]. split; [lia|]. split; [lia|].
    rewrite S2. destruct m' as [|w|w]; [split; [reflexivity|lia]| |lia].
    destruct (Z.leb_spec e'' (emax - prec)); repeat split; try lia.
  - exists (Zpos p), 0. cbn [shr shr_m loc_of_shr_record round_nearest_even]. change (2 ^ 0) with 1.
    repeat split; try lia.
    unfold shr_fexp. cbn [shr_record_of_loc Zdigits2]. fold d. rewrite N. cbn [shr shr_m].
    assert (Zpos p < 2 ^ prec) by (apply Z.lt_le_trans with (2 ^ d); [lia|apply Z.pow_le_mono_r; lia]).
    destruct (Z.leb_spec ex (emax - prec)); repeat split; lia.
Qed.

Open Scope Q_scope.
Definition uu : Q := 2 ^ (- prec).
Definition ee : Q := 2 ^ (emin - 1).
Lemma two_pos e : 0 < 2 ^ e.
Proof. apply Qpower_0_lt. reflexivity. Qed.
Lemma two_plus a b : 2 ^ (a + b) == 2 ^ a * 2 ^ b.
Proof. apply Qpower_plus. discriminate. Qed.
Lemma two_inj n : (0 <= n)%Z -> inject_Z (2 ^ n) == 2 ^ n.
Proof. intros. rewrite Zpower_Qpower by assumption. reflexivity. Qed.
Lemma inj_abs z : inject_Z (Z.abs z) == Qabs (inject_Z z).
Proof. reflexivity. Qed.
Lemma inj_sub a b : inject_Z (a - b) == inject_Z a - inject_Z b.
Proof. unfold Z.sub. rewrite inject_Z_plus, inject_Z_opp. reflexivity. Qed.
Lemma abs_scaled a e : Qabs (a * 2 ^ e) == Qabs a * 2 ^ e.
Proof. rewrite Qabs_Qmult. rewrite (Qabs_pos (2 ^ e)); [reflexivity|]. apply Qlt_le_weak, two_pos. Qed.

Lemma near_abs q n p ex : (0 <= n)%Z -> (2 * Z.abs (q * 2 ^ n - Zpos p) <= 2 ^ n)%Z ->
  Qabs (inject_Z q * 2 ^ (ex + n) - inject_Z (Zpos p) * 2 ^ ex) <= 2 ^ (ex + n - 1).
Proof.
  intros Hn H.
  assert (E : inject_Z q * 2 ^ (ex + n) - inject_Z (Zpos p) * 2 ^ ex == inject_Z (q * 2 ^ n - Zpos p) * 2 ^ ex).
  { rewrite inj_sub, inject_Z_mult, two_inj, two_plus by assumption. ring. }
  rewrite E, abs_scaled, <- inj_abs. clear E.
  assert (W : 2 ^ (ex + n - 1) == (1#2) * inject_Z (2 ^ n) * 2 ^ ex).
  { rewrite two_inj by assumption. replace (ex + n - 1)%Z with (ex + (n + - (1)))%Z by lia. rewrite !two_plus. 
    change (2 ^ - (1)) with (1#2). ring. }
  rewrite W. apply Qmult_le_compat_r; [|apply Qlt_le_weak, two_pos].
  rewrite Zle_Qle, inject_Z_mult in H. change (inject_Z 2) with 2 in H. lra.
Qed.
Lemma rel_bound p ex n : n = (Zpos (digits2_pos p) - prec)%Z -> 2 ^ (ex + n - 1) <= uu * (inject_Z (Zpos p) * 2 ^ ex).
Proof.
  intros ->. destruct (digits_pos p) as [D _]. set (d := Zpos (digits2_pos p)) in *.
  assert (0 < d)%Z by (unfold d; lia).
  replace (ex + (d - prec) - 1)%Z with (ex + (- prec + (d - 1)))%Z by lia. rewrite !two_plus.
  rewrite Zle_Qle, two_inj in D by lia. unfold uu.
  assert (0 <= 2 ^ ex * 2 ^ (- prec)) by (apply Qmult_le_0_compat; apply Qlt_le_weak, two_pos).
  assert (2 ^ (d - 1) * (2 ^ ex * 2 ^ (- prec)) <= inject_Z (Zpos p) * (2 ^ ex * 2 ^ (- prec))) by (apply Qmult_le_compat_r; assumption).
  lra.
Qed.

Definition sgn (s : bool) (x : Q) : Q := if s then - x else x.
#[local] Instance sgn_proper s : Proper (Qeq ==> Qeq) (sgn s).
Proof. intros a b H. destruct s; cbn [sgn]; rewrite H; reflexivity. Qed.
Lemma off_sgn s u eta a b : off u eta a b -> off u eta (sgn s a) (sgn s b).
Proof.
  destruct s; [|trivial]. unfold off, sgn. intros H.
  assert (E : - a - - b == - (a - b)) by ring. rewrite E, !Qabs_opp. exact H.
Qed.
#[local] Instance off_proper : Proper (Qeq ==> Qeq ==> Qeq ==> Qeq ==> iff) off.
Proof. intros a a' Ha b b' Hb c c' Hc d d' Hd. unfold off. rewrite Ha, Hb, Hc, Hd. reflexivity. Qed.
Lemma real_sgn s m e : float_real (S754_finite s m e) == sgn s (inject_Z (Zpos m) * 2 ^ e).
Proof. destruct s; cbn [float_real sgn]; [|reflexivity]. change (Zneg m) with (- Zpos m)%Z. rewrite inject_Z_opp. ring. Qed.
Lemma uu_pos : 0 <= uu.
Proof. apply Qlt_le_weak, two_pos. Qed.
Lemma ee_pos : 0 <= ee.
Proof. apply Qlt_le_weak, two_pos. Qed.
Lemma off_exact u eta a b : 0 <= u -> 0 <= eta -> a == b -> off u eta a b.
Proof.
  intros U E H. unfold off. rewrite H. assert (Z : b - b == 0) by ring. rewrite Z. change (Qabs 0) with 0.
  pose proof (Qmult_le_0_compat u (Qabs b) U (Qabs_nonneg b)). lra.
Qed.

Lemma round_aux_off sx p ex :
  let r := binary_round_aux prec emax sx (Zpos p) ex loc_Exact in
  low prec emax r /\
  (float_fin r -> off uu ee (float_real r) (sgn sx (inject_Z (Zpos p) * 2 ^ ex)) /\
     ((emin <= ex)%Z -> off uu 0 (float_real r) (sgn sx (inject_Z (Zpos p) * 2 ^ ex)))).
Proof.
  intros r. destruct (round_aux_spec sx p ex) as (q & n & Hn & Hq & A & Z0 & N1 & N2 & C). fold r in C.
  set (t := inject_Z (Zpos p) * 2 ^ ex).
  assert (T : 0 <= t) by (unfold t; apply Qmult_le_0_compat; [rewrite <- (Zle_Qle 0); lia|apply Qlt_le_weak, two_pos]).
  assert (V : float_fin r -> float_real r == sgn sx (inject_Z q * 2 ^ (ex + n))).
  { intros F. destruct r as [s|s| |s m e]; try contradiction.
    - destruct C as [_ ->]. cbn [float_real]. destruct sx; cbn [sgn]; ring.
    - destruct C as (-> & _ & [[-> <-]|[-> ->]] & _); rewrite real_sgn; [reflexivity|].
      rewrite (two_plus (ex + n) 1), inject_Z_mult. change (2 ^ 1) with 2. change (inject_Z 2) with 2. destruct sx; cbn [sgn]; ring. }
  split.
  { destruct r; cbn; trivial. tauto. }
  intros F. rewrite (V F).
  assert (X : n = 0%Z -> inject_Z q * 2 ^ (ex + n) == t).
  { intros ->. rewrite (Z0 eq_refl), Z.add_0_r. reflexivity. }
  pose proof (near_abs q n p ex Hn A) as G. fold t in G.
  assert (R1 : n = (Zpos (digits2_pos p) - prec)%Z -> off uu 0 (inject_Z q * 2 ^ (ex + n)) t).
  { intros H. unfold off. rewrite (Qabs_pos t) by assumption. pose proof (rel_bound p ex n H) as B. fold t in B. lra. }
  pose proof uu_pos. pose proof ee_pos.
  assert (weak : forall a b, off uu 0 a b -> off uu ee a b) by (unfold off; intros a b W; lra).
  destruct (Z.eq_dec n 0) as [E|E].
  - split; [|intros _]; apply off_sgn; apply off_exact; try assumption; try lra; apply X; assumption.
  - split; [|intros M; apply off_sgn, R1, N2; [assumption|lia]].
    destruct (N1 ltac:(lia)) as [K|K]; apply off_sgn; [apply weak, R1, K|].
    unfold off. replace (ex + n - 1)%Z with (emin - 1)%Z in G by lia. fold ee in G.
    pose proof (Qmult_le_0_compat uu (Qabs t) uu_pos (Qabs_nonneg t)). lra.
Qed.

Lemma shift_pos_val d m : Zpos (shift_pos d m) = (Zpos m * 2 ^ Zpos d)%Z.
Proof.
  unfold shift_pos. rewrite Z.mul_comm. rewrite <- (Z.pow_pos_fold 2 d). 
  revert m. induction d using Pos.peano_ind; intros m.
  - simpl. lia.
  - rewrite Pos.iter_succ, Z.pow_pos_fold, Pos2Z.inj_succ, Z.pow_succ_r by lia.
    rewrite <- Z.pow_pos_fold. specialize (IHd m). lia.
Qed.
Lemma align_val m e e' : (fst (shl_align m e e'), snd (shl_align m e e')) = shl_align m e e' /\
  snd (shl_align m e e') = Z.min e e' /\ Zpos (fst (shl_align m e e')) = (Zpos m * 2 ^ (e - Z.min e e'))%Z.
Proof.
  unfold shl_align. destruct (e' - e)%Z as [|d|d] eqn:D; cbn [fst snd]; repeat split; try lia.
  - replace (e - Z.min e e')%Z with 0%Z by lia. lia.
  - replace (e - Z.min e e')%Z with 0%Z by lia. lia.
  - rewrite shift_pos_val. do 2 f_equal. lia.
Qed.
Lemma round_off sx p ex : (emin <= ex)%Z ->
  let r := binary_round prec emax sx p ex in
  low prec emax r /\ (float_fin r -> off uu 0 (float_real r) (sgn sx (inject_Z (Zpos p) * 2 ^ ex))).
Proof.
  intros H r. unfold r, binary_round.
  set (e' := fexp (Zpos (digits2_pos p) + ex)). destruct (align_val p ex e') as (_ & A & B).
  destruct (shl_align p ex e') as [mz ez]. cbn [fst snd] in *.
  assert (emin <= e')%Z by (unfold e', SpecFloat.fexp; lia).
  pose proof (round_aux_off sx mz ez) as R. cbn zeta in R. destruct R as [R1 R2]. split; [exact R1|].
  intros F. destruct (R2 F) as [_ R3]. specialize (R3 ltac:(lia)).
  assert (E : inject_Z (Zpos mz) * 2 ^ ez == inject_Z (Zpos p) * 2 ^ ex).
  { rewrite B, inject_Z_mult, two_inj, <- Qmult_assoc, <- two_plus by lia. rewrite A. 
    replace (ex - Z.min ex e' + Z.min ex e')%Z with ex by lia. reflexivity. }
  destruct sx; cbn [sgn] in *; rewrite E in R3; exact R3.
Qed.
Lemma normalize_off m ex sz : (emin <= ex)%Z ->
  let r := binary_normalize prec emax m ex sz in
  low prec emax r /\ (float_fin r -> off uu 0 (float_real r) (inject_Z m * 2 ^ ex)).
Proof.
  intros H r. destruct m as [|p|p]; cbn [binary_normalize] in r.
  - split; [exact I|]. intros _. apply off_exact; [apply uu_pos|lra|]. cbn [float_real r]. ring.
  - exact (round_off false p ex H).
  - destruct (round_off true p ex H) as [A B]. split; [exact A|]. intros F. specialize (B F). cbn [sgn] in B.
    change (Zneg p) with (- Zpos p)%Z. rewrite inject_Z_opp.
    assert (E : - inject_Z (Zpos p) * 2 ^ ex == - (inject_Z (Zpos p) * 2 ^ ex)) by ring. rewrite E. exact B.
Qed.
Lemma aligned s m e ez : (ez <= e)%Z ->
  inject_Z (cond_Zopp s (Zpos (fst (shl_align m e ez)))) * 2 ^ ez == float_real (S754_finite s m e).
Proof.
  intros H. destruct (align_val m e ez) as (_ & _ & B). rewrite real_sgn.
  assert (E : inject_Z (Zpos (fst (shl_align m e ez))) * 2 ^ ez == inject_Z (Zpos m) * 2 ^ e).
  { rewrite B, Z.min_r, inject_Z_mult, two_inj, <- Qmult_assoc, <- two_plus by lia. replace (e - ez + ez)%Z with e by lia. reflexivity. }
  destruct s; cbn [cond_Zopp sgn]; rewrite <- E; [rewrite inject_Z_opp; ring|reflexivity].
Qed.


Ltac easyfl := first [exact I | contradiction |
  split; [exact I|first [contradiction|solve [intros []]|intros _; split; [exact I|split; [exact I|apply off_exact; [apply uu_pos|first [apply ee_pos|apply Qle_refl]|cbn [float_real]; ring]]]]]].
Lemma fl_add x y : low prec emax x -> low prec emax y -> low prec emax (SFadd prec emax x y) /\
  (float_fin (SFadd prec emax x y) -> float_fin x /\ float_fin y /\ off uu 0 (float_real (SFadd prec emax x y)) (float_real x + float_real y)).
Proof.
  intros Hx Hy.
  assert (one : forall z, low prec emax z -> forall t, t == float_real z -> low prec emax z /\ (float_fin z -> True /\ float_fin z /\ off uu 0 (float_real z) t)).
  { intros z Hz t Ht. split; [exact Hz|]. intros F. split; [exact I|]. split; [exact F|]. apply off_exact; [apply uu_pos|apply Qle_refl|symmetry; exact Ht]. }
  destruct x as [sx|sx| |sx mx ex], y as [sy|sy| |sy my ey];
    try (unfold SFadd, low, float_fin; try (destruct (Bool.eqb sx sy)); easyfl).
  - apply (one (S754_finite sy my ey) Hy). cbn [float_real]. ring.
  - destruct (one (S754_finite sx mx ex) Hx (float_real (S754_finite sx mx ex) + 0)) as [A B]; [ring|]. split; [exact A|]. intros F. destruct (B F) as (_ & B1 & B2).
    split; [exact B1|]. split; [exact I|exact B2].
  - unfold low in Hx, Hy. unfold SFadd.
    destruct (normalize_off (cond_Zopp sx (Zpos (fst (shl_align mx ex (Z.min ex ey)))) + cond_Zopp sy (Zpos (fst (shl_align my ey (Z.min ex ey)))))
       (Z.min ex ey) false ltac:(lia)) as [A B]. split; [exact A|]. intros F. specialize (B F).
    rewrite inject_Z_plus, Qmult_plus_distr_l, !aligned in B by lia. split; [exact I|]. split; [exact I|]. exact B.
Qed.
Lemma fl_sub x y : low prec emax x -> low prec emax y -> low prec emax (SFsub prec emax x y) /\
  (float_fin (SFsub prec emax x y) -> float_fin x /\ float_fin y /\ off uu 0 (float_real (SFsub prec emax x y)) (float_real x - float_real y)).
Proof.
  intros Hx Hy.
  destruct x as [sx|sx| |sx mx ex], y as [sy|sy| |sy my ey];
    try (unfold SFsub, low, float_fin; try (destruct (Bool.eqb sx (negb sy))); easyfl).
  - split; [exact Hy|]. intros _. split; [exact I|]. split; [exact I|]. apply off_exact; [apply uu_pos|apply Qle_refl|].
    cbn [SFsub]. rewrite !real_sgn. cbn [float_real]. destruct sy; cbn [sgn negb]; ring.
  - split; [exact Hx|]. intros _. split; [exact I|]. split; [exact I|]. apply off_exact; [apply uu_pos|apply Qle_refl|].
    cbn [SFsub float_real]. ring.
  - unfold low in Hx, Hy. unfold SFsub.
    destruct (normalize_off (cond_Zopp sx (Zpos (fst (shl_align mx ex (Z.min ex ey)))) - cond_Zopp sy (Zpos (fst (shl_align my ey (Z.min ex ey)))))
       (Z.min ex ey) false ltac:(lia)) as [A B]. split; [exact A|]. intros F. specialize (B F).
    assert (E : forall a b c, inject_Z (a - b) * c == inject_Z a * c - inject_Z b * c) by (intros; rewrite inj_sub; ring).
    rewrite E, !aligned in B by lia. split; [exact I|]. split; [exact I|]. exact B.
Qed.
Lemma fl_mul x y : low prec emax x -> low prec emax y -> low prec emax (SFmul prec emax x y) /\
  (float_fin (SFmul prec emax x y) -> float_fin x /\ float_fin y /\ off uu ee (float_real (SFmul prec emax x y)) (float_real x * float_real y)).
Proof.
  intros Hx Hy.
  destruct x as [sx|sx| |sx mx ex], y as [sy|sy| |sy my ey];
    try (unfold SFmul, low, float_fin; easyfl).
  unfold SFmul. destruct (round_aux_off (xorb sx sy) (mx * my) (ex + ey)) as [A B]. split; [exact A|].
  intros F. destruct (B F) as [B1 _]. split; [exact I|]. split; [exact I|].
  assert (E : sgn (xorb sx sy) (inject_Z (Zpos (mx * my)) * 2 ^ (ex + ey)) == float_real (S754_finite sx mx ex) * float_real (S754_finite sy my ey)).
  { rewrite !real_sgn, Pos2Z.inj_mul, inject_Z_mult, two_plus. destruct sx, sy; cbn [sgn xorb]; ring. }
  rewrite E in B1. exact B1.
Qed.


Lemma fl_rounded_low one : @Rounded _ (scalar_float prec emax one) float_real float_fin (low prec emax) (2 ^ (- prec)) (2 ^ (emin - 1)).
Proof.
  constructor; cbn [s0 sadd ssub smul seqb scalar_float].
  - apply uu_pos.
  - apply ee_pos.
  - repeat split.
  - intros [s|s| |s m e]; unfold SFeqb; cbn [SFcompare]; try discriminate; try (destruct s; discriminate). intros _. split; [exact I|reflexivity].
  - intros [s|s| |s m e] H; cbn [SFadd low float_fin]; try (split; [exact I|tauto]).
    + destruct s; split; try exact I; intros _; split; try exact I; reflexivity.
    + split; [exact H|]. intros _. split; [exact I|reflexivity].
  - exact fl_add.
  - exact fl_sub.
  - exact fl_mul.
Qed.
(** ** Results are floats of the format, and finite unless too large *)
Section Valid.
Hypothesis He : (3 <= emax)%Z.
(** the largest float *)
Definition top : Q := inject_Z (2 ^ prec - 1) * 2 ^ (emax - prec).
Local Notation valid := (valid_binary prec emax).
Lemma digits_eq p d : (0 <= d - 1 -> 2 ^ (d - 1) <= Zpos p < 2 ^ d -> Zpos (digits2_pos p) = d)%Z.
Proof.
  intros H0 [A B]. destruct (digits_pos p) as [C D]. set (k := Zpos (digits2_pos p)) in *. assert (0 < k)%Z by (unfold k; lia).
  assert (2 ^ (d - 1) < 2 ^ k)%Z by lia. assert (2 ^ (k - 1) < 2 ^ d)%Z by lia.
  apply Z.pow_lt_mono_r_iff in H1; [|lia|lia]. apply Z.pow_lt_mono_r_iff in H2; lia.
Qed.
Lemma top_lt : top < 2 ^ emax.
Proof.
  unfold top. replace (2 ^ emax)%Q with (2 ^ (prec + (emax - prec)))%Q by (f_equal; lia). rewrite two_plus, <- (two_inj prec) by lia.
  apply Qmult_lt_compat_r; [apply two_pos|]. rewrite <- Zlt_Qlt. lia.
Qed.
Lemma two_mono a b : (a <= b)%Z -> 2 ^ a <= 2 ^ b.
Proof.
  intros H. replace b with (a + (b - a))%Z by lia. rewrite two_plus, <- (two_inj (b - a)) by lia.
  rewrite <- (Qmult_1_r (2 ^ a)) at 1. rewrite !(Qmult_comm (2 ^ a)). apply Qmult_le_compat_r; [|apply Qlt_le_weak, two_pos].
  change 1 with (inject_Z 1). rewrite <- Zle_Qle. pose proof (pow_pos (b - a) ltac:(lia)). lia.
Qed.
Lemma round_aux_valid sx p ex : (ex <= fexp (Zpos (digits2_pos p) + ex))%Z ->
  let r := binary_round_aux prec emax sx (Zpos p) ex loc_Exact in
  valid r = true /\ (inject_Z (Zpos p) * 2 ^ ex <= top -> float_fin r).
Proof.
  intros HX r. destruct (round_aux_spec sx p ex) as (q & n & Hn & Hq & A & Z0 & N1 & N2 & C). fold r in C.
  destruct (digits_pos p) as [D1 D2]. set (d := Zpos (digits2_pos p)) in *. assert (D0 : (0 < d)%Z) by (unfold d; lia).
  assert (Fd : fexp (d + ex) = Z.max (d + ex - prec) emin) by reflexivity. rewrite Fd in *. clear Fd.
  assert (Em : (emin < 0 /\ emin <= emax - prec)%Z) by (unfold SpecFloat.emin; lia).
  assert (Pn : (0 < 2 ^ n)%Z) by (apply pow_pos; lia).
  destruct r as [s|s| |s m e]; [split; [reflexivity|intros _; exact I]| |contradiction|].
  - split; [reflexivity|]. intros L. exfalso. destruct C as (C1 & C2 & C3).
    apply (Qle_not_lt _ _ L). clear L.
    destruct C2 as [C2|C2].
    + eapply Qlt_le_trans; [apply top_lt|]. apply Qle_trans with (2 ^ (d - 1 + ex)); [apply two_mono; lia|].
      rewrite two_plus. apply Qmult_le_compat_r; [|apply Qlt_le_weak, two_pos]. rewrite <- (two_inj (d - 1)), <- Zle_Qle by lia. assumption.
    + assert (B : ((2 ^ prec - 1) * 2 ^ n < Zpos p)%Z).
      { subst q. set (w := (2 ^ prec)%Z) in *. set (v := (2 ^ n)%Z) in *. nia. }
      apply Qle_lt_trans with (inject_Z ((2 ^ prec - 1) * 2 ^ n) * 2 ^ ex).
      * rewrite inject_Z_mult, two_inj, <- Qmult_assoc, <- two_plus by lia. unfold top. rewrite !(Qmult_comm (inject_Z (2 ^ prec - 1))).
        apply Qmult_le_compat_r; [apply two_mono; lia|]. change 0 with (inject_Z 0). rewrite <- Zle_Qle. pose proof (pow_pos prec ltac:(lia)). lia.
      * apply Qmult_lt_compat_r; [apply two_pos|]. rewrite <- Zlt_Qlt. exact B.
  - split; [|intros _; exact I]. destruct C as (_ & C1 & C2 & C3 & C4 & C5).
    cbn [valid_binary]. unfold bounded, canonical_mantissa. apply andb_true_iff. split; [|apply Z.leb_le; exact C3].
    apply Zeq_is_eq_bool. set (dm := Zpos (digits2_pos m)).
    change (Z.max (dm + e - prec) emin = e). 
    destruct C4 as [[C6 C7]|[C6 C7]].
    + assert (Zpos m = q) by lia.
      assert (DM : (dm <= prec)%Z) by (apply (digits_le (Zpos m) prec); lia).
      destruct (Z.eq_dec e emin) as [E|E]; [lia|].
      assert (n = d - prec)%Z by lia.
      assert (dm = prec); [|lia]. apply digits_eq; [lia|]. split; [|lia]. rewrite H.
      assert (W : (2 ^ (prec - 1) * 2 ^ n <= Zpos p)%Z) by (rewrite <- Z.pow_add_r by lia; replace (prec - 1 + n)%Z with (d - 1)%Z by lia; exact D1).
      set (w := (2 ^ (prec - 1))%Z) in *. set (v := (2 ^ n)%Z) in *. nia.
    + assert (Zpos m = 2 ^ (prec - 1))%Z.
      { assert (2 ^ prec = 2 * 2 ^ (prec - 1))%Z by (rewrite <- Z.pow_succ_r by lia; f_equal; lia). lia. }
      assert (dm = prec); [|lia]. apply digits_eq; [lia|]. rewrite H. split; [lia|]. apply Z.pow_lt_mono_r; lia.
Qed.
Lemma round_valid sx p ex :
  let r := binary_round prec emax sx p ex in
  valid r = true /\ (inject_Z (Zpos p) * 2 ^ ex <= top -> float_fin r).
Proof.
  intros r. unfold r, binary_round.
  set (e' := fexp (Zpos (digits2_pos p) + ex)). destruct (align_val p ex e') as (_ & A & B).
  destruct (shl_align p ex e') as [mz ez]. cbn [fst snd] in *.
  assert (DZ : (Zpos (digits2_pos mz) + ez = Zpos (digits2_pos p) + ex)%Z).
  { destruct (digits_pos p) as [D1 D2]. set (d := Zpos (digits2_pos p)) in *. assert (0 < d)%Z by (unfold d; lia).
    set (k := (ex - Z.min ex e')%Z) in *. assert (0 <= k)%Z by lia. pose proof (pow_pos k ltac:(lia)).
    assert (Zpos (digits2_pos mz) = d + k)%Z; [|lia].
    apply digits_eq; [lia|]. rewrite B. replace (d + k - 1)%Z with (d - 1 + k)%Z by lia. rewrite !Z.pow_add_r by lia. nia. }
  assert (E : inject_Z (Zpos mz) * 2 ^ ez == inject_Z (Zpos p) * 2 ^ ex).
  { rewrite B, inject_Z_mult, two_inj, <- Qmult_assoc, <- two_plus by lia. rewrite A. 
    replace (ex - Z.min ex e' + Z.min ex e')%Z with ex by lia. reflexivity. }
  pose proof (round_aux_valid sx mz ez) as R. cbn zeta in R. rewrite DZ, E in R. fold e' in R. apply R. lia.
Qed.
Lemma normalize_valid m ex sz :
  let r := binary_normalize prec emax m ex sz in
  valid r = true /\ (Qabs (inject_Z m * 2 ^ ex) <= top -> float_fin r).
Proof.
  intros r. destruct m as [|p|p]; cbn [binary_normalize] in r.
  - split; [reflexivity|]. intros _. exact I.
  - rewrite abs_scaled. exact (round_valid false p ex).
  - rewrite abs_scaled. exact (round_valid true p ex).
Qed.
Ltac easyv := first [ split; [reflexivity|intros; first [exact I|contradiction]] | split; [assumption|intros; first [exact I|contradiction]] ].
Lemma add_valid x y : valid x = true -> valid y = true -> valid (SFadd prec emax x y) = true /\
  (float_fin x -> float_fin y -> Qabs (float_real x + float_real y) <= top -> float_fin (SFadd prec emax x y)).
Proof.
  intros Hx Hy.
  destruct x as [sx|sx| |sx mx ex], y as [sy|sy| |sy my ey]; unfold SFadd; try (destruct (Bool.eqb sx sy)); try easyv.
  all: rewrite <- (aligned sx mx ex (Z.min ex ey)), <- (aligned sy my ey (Z.min ex ey)) by lia;
    rewrite <- Qmult_plus_distr_l, <- inject_Z_plus.
  all: match goal with |- context [binary_normalize prec emax ?m ?e ?z] => destruct (normalize_valid m e z) as [A B] end;
    (split; [exact A|intros _ _; exact B]).
Qed.
Lemma sub_valid x y : valid x = true -> valid y = true -> valid (SFsub prec emax x y) = true /\
  (float_fin x -> float_fin y -> Qabs (float_real x - float_real y) <= top -> float_fin (SFsub prec emax x y)).
Proof.
  intros Hx Hy.
  destruct x as [sx|sx| |sx mx ex], y as [sy|sy| |sy my ey]; unfold SFsub; try (destruct (Bool.eqb sx (negb sy))); try easyv.
  all: rewrite <- (aligned sx mx ex (Z.min ex ey)), <- (aligned sy my ey (Z.min ex ey)) by lia;
    assert (E : forall a b c, inject_Z a * c - inject_Z b * c == inject_Z (a - b) * c) by (intros; rewrite inj_sub; ring); rewrite E.
  all: match goal with |- context [binary_normalize prec emax ?m ?e ?z] => destruct (normalize_valid m e z) as [A B] end;
    (split; [exact A|intros _ _; exact B]).
Qed.
Lemma mul_valid x y : valid x = true -> valid y = true -> valid (SFmul prec emax x y) = true /\
  (float_fin x -> float_fin y -> Qabs (float_real x * float_real y) <= top -> float_fin (SFmul prec emax x y)).
Proof.
  intros Hx Hy.
  destruct x as [sx|sx| |sx mx ex], y as [sy|sy| |sy my ey]; unfold SFmul; try easyv.
  assert (EQ : Qabs (float_real (S754_finite sx mx ex) * float_real (S754_finite sy my ey)) == inject_Z (Zpos (mx * my)) * 2 ^ (ex + ey)).
  { rewrite !real_sgn, Pos2Z.inj_mul, inject_Z_mult, two_plus.
    assert (P : forall m e, 0 <= inject_Z (Zpos m) * 2 ^ e) by (intros; apply Qmult_le_0_compat; [change 0 with (inject_Z 0); rewrite <- Zle_Qle; lia|apply Qlt_le_weak, two_pos]).
    assert (S : forall s a, 0 <= a -> Qabs (sgn s a) == a) by (intros [] a Ha; cbn [sgn]; rewrite ?Qabs_opp; apply Qabs_pos; assumption).
    rewrite Qabs_Qmult, !S by apply P. ring. }
  rewrite EQ. destruct (round_aux_valid (xorb sx sy) (mx * my) (ex + ey)) as [A B]; [|split; [exact A|intros _ _; exact B]].
  cbn [valid_binary] in Hx, Hy. unfold bounded, canonical_mantissa in Hx, Hy. apply andb_true_iff in Hx as [Hx _], Hy as [Hy _].
  apply Zeq_bool_eq in Hx, Hy. unfold SpecFloat.fexp in *.
  destruct (digits_pos mx) as [X1 X2]. destruct (digits_pos my) as [Y1 Y2]. destruct (digits_pos (mx * my)) as [Z1 Z2].
  set (dx := Zpos (digits2_pos mx)) in *. set (dy := Zpos (digits2_pos my)) in *. set (dz := Zpos (digits2_pos (mx * my))) in *.
  assert (0 < dx)%Z by (unfold dx; lia). assert (0 < dy)%Z by (unfold dy; lia). assert (0 < dz)%Z by (unfold dz; lia).
  assert (dx - 1 + (dy - 1) < dz)%Z.
  { rewrite Pos2Z.inj_mul in Z2. apply (Z.pow_lt_mono_r_iff 2); [lia|lia|]. rewrite Z.pow_add_r by lia.
    eapply Z.le_lt_trans; [|exact Z2]. apply Z.mul_le_mono_nonneg; try assumption; apply Z.pow_nonneg; lia. }
  assert (emin < 0)%Z by (unfold SpecFloat.emin; lia). lia.
Qed.
Lemma valid_low x : valid x = true -> low prec emax x.
Proof.
  destruct x as [s|s| |s m e]; cbn; trivial. unfold bounded, canonical_mantissa. rewrite andb_true_iff. intros [H _].
  apply Zeq_bool_eq in H. unfold SpecFloat.fexp in H. lia.
Qed.
Lemma start_valid x : valid x = true -> valid (SFadd prec emax (S754_zero false) x) = true.
Proof. intros H. apply add_valid; [reflexivity|exact H]. Qed.
Lemma fl_rounded one : @Rounded _ (scalar_float prec emax one) float_real float_fin (float_val prec emax) (2 ^ (- prec)) (2 ^ (emin - 1)).
Proof.
  destruct (fl_rounded_low one) as [A B C D E F G H]. cbn [s0 sadd ssub smul seqb scalar_float] in *. unfold float_val.
  constructor; cbn [s0 sadd ssub smul seqb scalar_float]; trivial.
  - split; [reflexivity|exact (proj2 C)].
  - intros x Hx. split; [exact (start_valid x Hx)|]. apply E, valid_low, Hx.
  - intros x y Hx Hy. split; [apply add_valid; assumption|]. apply F; apply valid_low; assumption.
  - intros x y Hx Hy. split; [apply sub_valid; assumption|]. apply G; apply valid_low; assumption.
  - intros x y Hx Hy. split; [apply mul_valid; assumption|]. apply H; apply valid_low; assumption.
Qed.
End Valid.

(** ** Exact cases *)
Lemma int_eq a e b f : inject_Z a * 2 ^ e == inject_Z b * 2 ^ f -> (a * 2 ^ (e - Z.min e f) = b * 2 ^ (f - Z.min e f))%Z.
Proof.
  set (c := Z.min e f). intros H.
  assert (E : inject_Z (a * 2 ^ (e - c)) * 2 ^ c == inject_Z (b * 2 ^ (f - c)) * 2 ^ c).
  { rewrite !inject_Z_mult, !two_inj, <- !Qmult_assoc, <- !two_plus by lia.
    replace (e - c + c)%Z with e by lia. replace (f - c + c)%Z with f by lia. exact H. }
  apply Qmult_inj_r in E; [|intros Z; pose proof (two_pos c) as P; rewrite Z in P; discriminate].
  apply inject_Z_injective. exact E.
Qed.
Lemma near_multiple q n p : (0 <= n -> 2 * Z.abs (q * 2 ^ n - p) <= 2 ^ n -> (2 ^ n | p) -> q * 2 ^ n = p)%Z.
Proof.
  intros Hn H [c ->]. pose proof (pow_pos n Hn) as P. set (w := (2 ^ n)%Z) in *.
  assert (E : (q * w - c * w = (q - c) * w)%Z) by ring. rewrite E, Z.abs_mul, (Z.abs_eq w) in H by lia.
  assert (Z.abs (q - c) = 0)%Z by nia. nia.
Qed.
Variable g : Z.
Hypothesis G1 : (emin <= g)%Z.
Hypothesis G2 : (g + 2 * prec + 2 <= emax)%Z.

Lemma round_aux_exact sx p ex N : (0 < N <= 2 ^ prec)%Z -> inject_Z (Zpos p) * 2 ^ ex == inject_Z N * 2 ^ g ->
  let r := binary_round_aux prec emax sx (Zpos p) ex loc_Exact in
  float_fin r /\ float_real r == sgn sx (inject_Z (Zpos p) * 2 ^ ex).
Proof.
  intros HN E r. apply int_eq in E. set (c := Z.min ex g) in *.
  destruct (round_aux_spec sx p ex) as (q & n & Hn & Hq & A & Z0 & N1 & N2 & C). fold r in C.
  destruct (digits_pos p) as [D1 D2]. set (d := Zpos (digits2_pos p)) in *. assert (D0 : (0 < d)%Z) by (unfold d; lia).
  (* the exponent of the leading digit *)
  assert (B : (d - 1 + (ex - c) <= prec + (g - c))%Z).
  { assert (B : (2 ^ (d - 1 + (ex - c)) <= 2 ^ (prec + (g - c)))%Z).
    { rewrite !Z.pow_add_r by lia.
      assert (2 ^ (d - 1) * 2 ^ (ex - c) <= Zpos p * 2 ^ (ex - c))%Z by (apply Z.mul_le_mono_nonneg_r; [apply Z.pow_nonneg; lia|assumption]).
      assert (N * 2 ^ (g - c) <= 2 ^ prec * 2 ^ (g - c))%Z by (apply Z.mul_le_mono_nonneg_r; [apply Z.pow_nonneg; lia|lia]). lia. }
    apply Z.pow_le_mono_r_iff in B; lia. }
  assert (DIV : (q * 2 ^ n = Zpos p)%Z).
  { destruct (Z.eq_dec n 0) as [->|NZ]; [rewrite (Z0 eq_refl); change (2 ^ 0)%Z with 1%Z; lia|].
    apply near_multiple; [assumption|assumption|].
    destruct (Z.le_gt_cases n (g - ex)) as [L|L].
    - assert (EC : c = ex) by lia. rewrite EC, Z.sub_diag, Z.pow_0_r, Z.mul_1_r in E.
      exists (N * 2 ^ (g - ex - n))%Z. rewrite E, <- Z.mul_assoc, <- Z.pow_add_r by lia. do 2 f_equal. lia.
    - destruct (N1 ltac:(lia)) as [K|K]; [|lia].
      (* the largest number, 2^prec units *)
      assert (EB : (d - 1 + (ex - c) = prec + (g - c))%Z) by lia.
      assert (Zpos p = 2 ^ (d - 1))%Z.
      { assert (Zpos p * 2 ^ (ex - c) <= 2 ^ (d - 1) * 2 ^ (ex - c))%Z.
        { rewrite <- Z.pow_add_r by lia. rewrite EB, Z.pow_add_r, E by lia. apply Z.mul_le_mono_nonneg_r; [apply Z.pow_nonneg; lia|lia]. }
        assert (0 < 2 ^ (ex - c))%Z by (apply Z.pow_pos_nonneg; lia). nia. }
      exists (2 ^ (d - 1 - n))%Z. rewrite <- Z.pow_add_r by lia. rewrite H. f_equal. lia. }
  assert (EXP : (ex + n + 1 <= emax - prec)%Z).
  { destruct (Z.eq_dec n 0) as [->|NZ]; [lia|]. destruct (N1 ltac:(lia)) as [K|K]; lia. }
  assert (V : inject_Z q * 2 ^ (ex + n) == inject_Z (Zpos p) * 2 ^ ex).
  { rewrite <- DIV, inject_Z_mult, two_inj, two_plus by lia. ring. }
  destruct r as [s|s| |s m e]; try contradiction; try lia.
  split; [exact I|]. rewrite <- V. destruct C as (-> & _ & [[-> <-]|[-> ->]] & _); rewrite real_sgn; [reflexivity|].
    rewrite (two_plus (ex + n) 1), inject_Z_mult. change (2 ^ 1) with 2. change (inject_Z 2) with 2. destruct sx; cbn [sgn]; ring.
Qed.
Lemma round_exact sx p ex N : (0 < N <= 2 ^ prec)%Z -> inject_Z (Zpos p) * 2 ^ ex == inject_Z N * 2 ^ g ->
  let r := binary_round prec emax sx p ex in
  float_fin r /\ float_real r == sgn sx (inject_Z (Zpos p) * 2 ^ ex).
Proof.
  intros HN E r. unfold r, binary_round.
  set (e' := fexp (Zpos (digits2_pos p) + ex)). destruct (align_val p ex e') as (_ & A & B).
  destruct (shl_align p ex e') as [mz ez]. cbn [fst snd] in *.
  assert (E1 : inject_Z (Zpos mz) * 2 ^ ez == inject_Z (Zpos p) * 2 ^ ex).
  { rewrite B, inject_Z_mult, two_inj, <- Qmult_assoc, <- two_plus by lia. rewrite A. 
    replace (ex - Z.min ex e' + Z.min ex e')%Z with ex by lia. reflexivity. }
  pose proof (round_aux_exact sx mz ez N HN) as R. cbn zeta in R. rewrite !E1 in R. exact (R E).
Qed.
Lemma normalize_exact m ex sz N : (Z.abs N <= 2 ^ prec)%Z -> inject_Z m * 2 ^ ex == inject_Z N * 2 ^ g ->
  let r := binary_normalize prec emax m ex sz in float_fin r /\ float_real r == inject_Z m * 2 ^ ex.
Proof.
  intros HN E r. pose proof (int_eq _ _ _ _ E) as Z. set (c := Z.min ex g) in *.
  assert (P1 : (0 < 2 ^ (ex - c))%Z) by (apply pow_pos; lia). assert (P2 : (0 < 2 ^ (g - c))%Z) by (apply pow_pos; lia).
  destruct m as [|p|p]; cbn [binary_normalize] in r.
  - split; [exact I|]. cbn [float_real r]. ring.
  - apply (round_exact false p ex N); [|exact E]. nia.
  - destruct (round_exact true p ex (- N)) as [A B].
    + nia.
    + change (Zneg p) with (- Zpos p)%Z in E. rewrite inject_Z_opp in E |- *.
      assert (E2 : inject_Z (Zpos p) * 2 ^ ex == - (- inject_Z (Zpos p) * 2 ^ ex)) by ring. rewrite E2, E. ring.
    + split; [exact A|]. unfold r. rewrite B. cbn [sgn]. change (Zneg p) with (- Zpos p)%Z. rewrite inject_Z_opp. ring.
Qed.
Lemma add_exact x y N : float_fin x -> float_fin y -> (Z.abs N <= 2 ^ prec)%Z -> float_real x + float_real y == inject_Z N * 2 ^ g ->
  float_fin (SFadd prec emax x y) /\ float_real (SFadd prec emax x y) == float_real x + float_real y.
Proof.
  intros Fx Fy HN E.
  destruct x as [sx|sx| |sx mx ex], y as [sy|sy| |sy my ey]; try contradiction; unfold SFadd.
  - destruct (Bool.eqb sx sy); (split; [exact I|cbn [float_real]; ring]).
  - split; [exact I|cbn [float_real]; ring].
  - split; [exact I|cbn [float_real]; ring].
  - rewrite <- (aligned sx mx ex (Z.min ex ey)), <- (aligned sy my ey (Z.min ex ey)) in E |- * by lia.
    rewrite <- Qmult_plus_distr_l, <- inject_Z_plus in E |- *. eapply normalize_exact; eassumption.
Qed.
Lemma sub_exact x y N : float_fin x -> float_fin y -> (Z.abs N <= 2 ^ prec)%Z -> float_real x - float_real y == inject_Z N * 2 ^ g ->
  float_fin (SFsub prec emax x y) /\ float_real (SFsub prec emax x y) == float_real x - float_real y.
Proof.
  intros Fx Fy HN E.
  destruct x as [sx|sx| |sx mx ex], y as [sy|sy| |sy my ey]; try contradiction; unfold SFsub.
  - destruct (Bool.eqb sx (negb sy)); (split; [exact I|cbn [float_real]; ring]).
  - split; [exact I|]. rewrite !real_sgn. cbn [float_real]. destruct sy; cbn [sgn negb]; ring.
  - split; [exact I|cbn [float_real]; ring].
  - rewrite <- (aligned sx mx ex (Z.min ex ey)), <- (aligned sy my ey (Z.min ex ey)) in E |- * by lia.
    assert (D : forall a b c, inject_Z a * c - inject_Z b * c == inject_Z (a - b) * c) by (intros; rewrite inj_sub; ring).
    rewrite D in E |- *. eapply normalize_exact; eassumption.
Qed.
Lemma mul_exact x y N : float_fin x -> float_fin y -> (Z.abs N <= 2 ^ prec)%Z -> float_real x * float_real y == inject_Z N * 2 ^ g ->
  float_fin (SFmul prec emax x y) /\ float_real (SFmul prec emax x y) == float_real x * float_real y.
Proof.
  intros Fx Fy HN E.
  destruct x as [sx|sx| |sx mx ex], y as [sy|sy| |sy my ey]; try contradiction; unfold SFmul;
    try (split; [exact I|cbn [float_real]; ring]).
  assert (EQ : float_real (S754_finite sx mx ex) * float_real (S754_finite sy my ey) == sgn (xorb sx sy) (inject_Z (Zpos (mx * my)) * 2 ^ (ex + ey))).
  { rewrite !real_sgn, Pos2Z.inj_mul, inject_Z_mult, two_plus. destruct sx, sy; cbn [sgn xorb]; ring. }
  rewrite EQ in E |- *.
  assert (E2 : inject_Z (Zpos (mx * my)) * 2 ^ (ex + ey) == inject_Z (if xorb sx sy then - N else N) * 2 ^ g).
  { destruct (xorb sx sy); cbn [sgn] in E; [|exact E]. rewrite inject_Z_opp.
    assert (E3 : - inject_Z N * 2 ^ g == - (inject_Z N * 2 ^ g)) by ring. rewrite E3, <- E. ring. }
  eapply round_aux_exact; [|exact E2].
  pose proof (int_eq _ _ _ _ E2) as Z. set (c := Z.min (ex + ey) g) in *.
  assert (P1 : (0 < 2 ^ (ex + ey - c))%Z) by (apply pow_pos; lia). assert (P2 : (0 < 2 ^ (g - c))%Z) by (apply pow_pos; lia).
  destruct (xorb sx sy); nia.
Qed.
End Fl.
