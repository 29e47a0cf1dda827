(** The index types: C51, C84. *)
From Verif Require Import Rust SpecIndex Main_index.
From Coq Require Import ZArith.
Open Scope Z_scope.

(** C51: the limits in these statements are those of the types: a number is a value of the type if and only if a string of that many bits stands for it. *)
Theorem C51_index_values : forall I z, in_ity I z <-> a_value I z.
Proof. exact c51_index_values. Qed.
(** ... and the conversion of a number of entries or of a position panics if and only if it is not a value. *)
Theorem C51_from_usize : forall I n, (a_value I (Z.of_nat n) -> ifrom I n = Ok (Z.of_nat n)) /\ (~ a_value I (Z.of_nat n) -> ifrom I n = Panic).
Proof. exact c51_from_usize. Qed.

(** C84: additions and subtractions of indices are exact or panic with overflow checks, and keep the last bits without. *)
Theorem C84_index_add : forall I a b,
  (a_value I (a + b) -> @iadd Debug I a b = Ok (a + b)) /\ (~ a_value I (a + b) -> @iadd Debug I a b = Panic) /\
  exists c, @iadd Release I a b = Ok c /\ wraps_to I (a + b) c.
Proof. exact c84_index_add. Qed.
Theorem C84_index_sub : forall I a b,
  (a_value I (a - b) -> @isub Debug I a b = Ok (a - b)) /\ (~ a_value I (a - b) -> @isub Debug I a b = Panic) /\
  exists c, @isub Release I a b = Ok c /\ wraps_to I (a - b) c.
Proof. exact c84_index_sub. Qed.
Theorem C84_wraps_unique : forall I z c d, wraps_to I z c -> wraps_to I z d -> c = d.
Proof. exact c84_wraps_unique. Qed.
Theorem C84_usize_sub : forall a b, a_value Usize (Z.of_nat a) -> a_value Usize (Z.of_nat b) ->
  (Z.of_nat b <= Z.of_nat a -> forall B, exists c, @usub B a b = Ok c /\ Z.of_nat c = Z.of_nat a - Z.of_nat b) /\
  (Z.of_nat a < Z.of_nat b -> @usub Debug a b = Panic) /\
  exists c, @usub Release a b = Ok c /\ wraps_to Usize (Z.of_nat a - Z.of_nat b) (Z.of_nat c).
Proof. exact c84_usize_sub. Qed.
Theorem C84_usize_add : forall a b, a_value Usize (Z.of_nat a) -> a_value Usize (Z.of_nat b) ->
  (a_value Usize (Z.of_nat a + Z.of_nat b) -> forall B, exists c, @uadd B a b = Ok c /\ Z.of_nat c = Z.of_nat a + Z.of_nat b) /\
  (~ a_value Usize (Z.of_nat a + Z.of_nat b) -> @uadd Debug a b = Panic) /\
  exists c, @uadd Release a b = Ok c /\ wraps_to Usize (Z.of_nat a + Z.of_nat b) (Z.of_nat c).
Proof. exact c84_usize_add. Qed.

(** ** Concrete cases *)
Example C51_i8_ex : a_value I8 (-128) /\ a_value I8 127 /\ ~ in_ity I8 128 /\ a_value U8 255 /\ ifrom U8 255 = Ok 255 /\ ifrom U8 256 = Panic.
Proof.
  split; [exists 128; repeat split; discriminate|]. split; [exists 127; repeat split; discriminate|].
  split; [intros [_ H]; exact (H eq_refl)|]. split; [exists 255; repeat split; discriminate|]. split; reflexivity.
Qed.
Example C84_i8_ex : @iadd Debug I8 100 100 = Panic /\ @iadd Release I8 100 100 = Ok (-56) /\ wraps_to I8 (100 + 100) (-56) /\ @isub Release U8 0 1 = Ok 255.
Proof. split; [reflexivity|]. split; [reflexivity|]. split; [|reflexivity]. split; [exists 200; repeat split; discriminate|exists (-1); reflexivity]. Qed.
Example C84_usize_ex : @usub Debug 1 2 = Panic /\ a_value Usize (Z.of_nat 1) /\ a_value Usize (Z.of_nat 2) /\ wraps_to Usize (1 - 2) (2 ^ 64 - 1).
Proof.
  split; [reflexivity|]. split; [exists 1; repeat split; discriminate|]. split; [exists 2; repeat split; discriminate|].
  split; [exists (2 ^ 64 - 1); repeat split; discriminate|exists 1; reflexivity].
Qed.

Print Assumptions C51_index_values.
Print Assumptions C51_from_usize.
Print Assumptions C84_index_add.
Print Assumptions C84_index_sub.
Print Assumptions C84_wraps_unique.
Print Assumptions C84_usize_sub.
Print Assumptions C84_usize_add.
