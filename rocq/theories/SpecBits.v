(** What the formats need of addition to agree without rounding differences (C98). *)
From Verif Require Import Rust Scalar.

(** All that is asked of the scalars, of which [val] holds of those stored: adding to zero first or last makes no
    difference, and the product does not depend on the order of its factors. Addition need be neither associative nor
    commutative, and zero need not be neutral. *)
Record ZeroFirst {T} {SC : Scalar T} (val : T -> Prop) : Prop := {
  zf_add : forall a b, val a -> val b -> val (sadd a b);
  zf_first : forall a b, val a -> val b -> sadd s0 (sadd a b) = sadd (sadd s0 a) b }.
Definition Commutes {T} {SC : Scalar T} : Prop := forall a b : T, smul a b = smul b a.
