(** The primitive integer types as strings of bits (C51, C84). *)
From Verif Require Import Rust.
From Coq Require Import ZArith.
Open Scope Z_scope.

(** number of bits of the type (of [usize] and [isize] on a 64-bit machine), and whether the type is signed *)
Definition bits (I : ity) : Z :=
  match I with
  | U8 | I8 => 8 | U16 | I16 => 16 | U32 | I32 => 32 | U64 | I64 | Usize | Isize => 64 | U128 | I128 => 128
  end.
Definition signed (I : ity) : bool :=
  match I with I8 | I16 | I32 | I64 | I128 | Isize => true | _ => false end.
(** the number that the string of bits with the binary value [n] stands for: two's complement if the type is signed *)
Definition stands_for (I : ity) (n : Z) : Z :=
  if (signed I && (2 ^ (bits I - 1) <=? n))%bool then n - 2 ^ bits I else n.
(** [z] is a value of the type *)
Definition a_value (I : ity) (z : Z) : Prop := exists n, 0 <= n < 2 ^ bits I /\ z = stands_for I n.
(** [c] is the value of the type that agrees with [z] in its last bits *)
Definition wraps_to (I : ity) (z c : Z) : Prop := a_value I c /\ exists k, c = z + k * 2 ^ bits I.
