(** Proofs about the index types. *)
From Verif Require Import Rust SpecIndex.
From Coq Require Import ZArith Lia Bool.
Open Scope Z_scope.

Lemma c51_index_values : forall I z, in_ity I z <-> a_value I z.
Proof.
  intros I z. unfold in_ity, a_value, stands_for. split.
  - intros H. exists (z mod 2 ^ bits I). split; [apply Z.mod_pos_bound; destruct I; reflexivity|].
    destruct (Z_lt_dec z 0) as [N|N].
    + replace (z mod 2 ^ bits I) with (z + 2 ^ bits I).
      * destruct I; cbn [signed bits imin imax andb] in *; try lia; match goal with |- context [?a <=? ?b] => destruct (Z.leb_spec a b) end; cbn in *; lia.
      * assert (L : - 2 ^ bits I <= imin I) by (destruct I; discriminate). set (M := 2 ^ bits I) in *.
        apply Z.mod_unique with (-1); [left; lia|ring].
    + assert (L : imax I < 2 ^ bits I) by (destruct I; reflexivity). rewrite Z.mod_small by (split; [lia|apply Z.le_lt_trans with (imax I); [lia|exact L]]).
      destruct I; cbn [signed bits imin imax andb] in *; try lia; match goal with |- context [?a <=? ?b] => destruct (Z.leb_spec a b) end; cbn in *; lia.
  - intros (n & H & ->). destruct I; cbn [signed bits imin imax andb] in *; try (cbn in *; lia); match goal with |- context [?a <=? ?b] => destruct (Z.leb_spec a b) end; cbn in *; lia.
Qed.
Lemma width I : imax I - imin I + 1 = 2 ^ bits I.
Proof. destruct I; reflexivity. Qed.
Lemma wrap_to I z : wraps_to I z (iwrap I z).
Proof.
  split.
  - apply c51_index_values. unfold in_ity, iwrap. pose proof (width I) as W.
    assert (P : 0 < imax I - imin I + 1) by (destruct I; reflexivity).
    pose proof (Z.mod_pos_bound (z - imin I) _ P). lia.
  - exists (- ((z - imin I) / (imax I - imin I + 1))). unfold iwrap. rewrite <- width.
    assert (P : imax I - imin I + 1 <> 0) by (destruct I; discriminate).
    pose proof (Z.div_mod (z - imin I) _ P). lia.
Qed.
Lemma c84_wraps_unique : forall I z c d, wraps_to I z c -> wraps_to I z d -> c = d.
Proof.
  intros I z c d [A [k ->]] [B [l ->]]. apply c51_index_values in A, B. unfold in_ity in *. pose proof (width I) as W. set (M := 2 ^ bits I) in *.
  assert (E : k = l); [|rewrite E; reflexivity].
  destruct (Z.lt_trichotomy k l) as [L|[L|L]]; [|exact L|]; exfalso.
  - assert (M * 1 <= M * (l - k)) by (apply Z.mul_le_mono_nonneg_l; lia). lia.
  - assert (M * 1 <= M * (k - l)) by (apply Z.mul_le_mono_nonneg_l; lia). lia.
Qed.
Lemma check_value I z : (a_value I z -> icheck I z = Ok z) /\ (~ a_value I z -> icheck I z = Panic).
Proof.
  unfold icheck. rewrite <- !c51_index_values. unfold in_ity.
  destruct (Z.leb_spec (imin I) z), (Z.leb_spec z (imax I)); cbn [andb]; split; intros; try reflexivity; exfalso; lia.
Qed.
Lemma c84_index_add : forall I a b,
  (a_value I (a + b) -> @iadd Debug I a b = Ok (a + b)) /\ (~ a_value I (a + b) -> @iadd Debug I a b = Panic) /\
  exists c, @iadd Release I a b = Ok c /\ wraps_to I (a + b) c.
Proof.
  intros I a b. split; [apply check_value|]. split; [apply check_value|]. exists (iwrap I (a + b)). split; [reflexivity|apply wrap_to].
Qed.
Lemma c84_index_sub : forall I a b,
  (a_value I (a - b) -> @isub Debug I a b = Ok (a - b)) /\ (~ a_value I (a - b) -> @isub Debug I a b = Panic) /\
  exists c, @isub Release I a b = Ok c /\ wraps_to I (a - b) c.
Proof.
  intros I a b. split; [apply check_value|]. split; [apply check_value|]. exists (iwrap I (a - b)). split; [reflexivity|apply wrap_to].
Qed.
Lemma usize_value z : a_value Usize z <-> 0 <= z < 2 ^ 64.
Proof. rewrite <- c51_index_values. unfold in_ity. cbn [imin imax]. lia. Qed.
Lemma c84_usize_sub : forall a b, a_value Usize (Z.of_nat a) -> a_value Usize (Z.of_nat b) ->
  (Z.of_nat b <= Z.of_nat a -> forall B, exists c, @usub B a b = Ok c /\ Z.of_nat c = Z.of_nat a - Z.of_nat b) /\
  (Z.of_nat a < Z.of_nat b -> @usub Debug a b = Panic) /\
  exists c, @usub Release a b = Ok c /\ wraps_to Usize (Z.of_nat a - Z.of_nat b) (Z.of_nat c).
Proof.
  intros a b Ha Hb. rewrite usize_value in Ha, Hb. split; [|split].
  - intros H B. exists (a - b)%nat. unfold usub. destruct (Nat.leb_spec b a); [|lia]. split; [reflexivity|lia].
  - intros H. unfold usub. destruct (Nat.leb_spec b a); [lia|reflexivity].
  - unfold usub. destruct (Nat.leb_spec b a).
    + exists (a - b)%nat. split; [reflexivity|]. split; [apply usize_value; lia|]. exists 0. lia.
    + eexists. split; [reflexivity|]. destruct (wrap_to Usize (Z.of_nat a - Z.of_nat b)) as [A B]. pose proof A as A'. apply usize_value in A'.
      rewrite Z2Nat.id by lia. split; assumption.
Qed.
Lemma c84_usize_add : forall a b, a_value Usize (Z.of_nat a) -> a_value Usize (Z.of_nat b) ->
  (a_value Usize (Z.of_nat a + Z.of_nat b) -> forall B, exists c, @uadd B a b = Ok c /\ Z.of_nat c = Z.of_nat a + Z.of_nat b) /\
  (~ a_value Usize (Z.of_nat a + Z.of_nat b) -> @uadd Debug a b = Panic) /\
  exists c, @uadd Release a b = Ok c /\ wraps_to Usize (Z.of_nat a + Z.of_nat b) (Z.of_nat c).
Proof.
  intros a b Ha Hb. rewrite usize_value in *. unfold uadd. change (imax Usize) with (2 ^ 64 - 1).
  destruct (Z.leb_spec (Z.of_nat a + Z.of_nat b) (2 ^ 64 - 1)) as [L|L].
  - split; [|split; [intros; lia|]].
    + intros _ B. exists (a + b)%nat. split; [reflexivity|lia].
    + exists (a + b)%nat. split; [reflexivity|]. split; [apply usize_value; lia|]. exists 0. lia.
  - split; [intros; lia|]. split; [reflexivity|]. eexists. split; [reflexivity|].
    destruct (wrap_to Usize (Z.of_nat a + Z.of_nat b)) as [A B]. pose proof A as A'. apply usize_value in A'. rewrite Z2Nat.id by lia. split; assumption.
Qed.
Lemma c51_from_usize : forall I n, (a_value I (Z.of_nat n) -> ifrom I n = Ok (Z.of_nat n)) /\ (~ a_value I (Z.of_nat n) -> ifrom I n = Panic).
Proof. intros I n. apply check_value. Qed.
