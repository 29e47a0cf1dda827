(** Statements that do not name a build are about the one with overflow checks. *)
From Verif Require Import Rust.
#[export] Hint Extern 0 Build => exact Debug : typeclass_instances.
