(** The fragment of Rust used by sparsetools: results, panics, vectors,
    bounded index types and loops.  Everything is computable. *)
From Coq Require Export List Arith ZArith Lia Bool.
Export ListNotations.
Open Scope list_scope.

(** ** Outcomes *)

(** One tag per [format_err!] message of the crate (/repo/src, all files). *)
Inductive error :=
  | ELength      (* "... must all be the same length", "... has invalid length", "... fewer than nnz elements" *)
  | EDim         (* "dimension mismatch", "len(x) != mat.cols", "rows mismatch", "cols mismatch" *)
  | ERange       (* "out of range", "row index out of range", "col index out of range" *)
  | ECanonical   (* "must have canonical form, sum_duplicates" *)
  | ESquare      (* "matrix must be square", "compressed-sparse graph must be shape (N, N)" *)
  | ECorrupt     (* "graph is corrupted" *)
  | EArpack.     (* "info = ...", "invalid nev" *)

(** [Ok]: normal return.  [Err]: [anyhow::Result::Err].  [Panic]: a Rust panic
    (index out of bounds, [unwrap] of [None]/[Err], overflow check).
    [NoFuel]: a [while] loop of the model ran out of fuel; not a Rust outcome. *)
Inductive res (A : Type) : Type :=
  | Ok (a : A)
  | Err (e : error)
  | Panic
  | NoFuel.
Arguments Ok {A} a.
Arguments Err {A} e.
Arguments Panic {A}.
Arguments NoFuel {A}.

Definition bind {A B} (m : res A) (f : A -> res B) : res B :=
  match m with
  | Ok a => f a
  | Err e => Err e
  | Panic => Panic
  | NoFuel => NoFuel
  end.

Notation "'let*' x ':=' m 'in' k" := (bind m (fun x => k))
  (at level 200, x binder, m at level 100, k at level 200, right associativity).

(** [Result::unwrap] *)
Definition unwrap {A} (m : res A) : res A :=
  match m with Err _ => Panic | _ => m end.

(** ** Index types *)

(** The 12 primitive types that implement [Integer] (/repo/src/traits.rs:6-23). *)
Inductive ity := U8 | U16 | U32 | U64 | U128 | Usize | I8 | I16 | I32 | I64 | I128 | Isize.

Definition imin (I : ity) : Z :=
  match I with
  | U8 | U16 | U32 | U64 | U128 | Usize => 0
  | I8 => - 2 ^ 7 | I16 => - 2 ^ 15 | I32 => - 2 ^ 31
  | I64 | Isize => - 2 ^ 63 | I128 => - 2 ^ 127
  end%Z.

Definition imax (I : ity) : Z :=
  match I with
  | U8 => 2 ^ 8 - 1 | U16 => 2 ^ 16 - 1 | U32 => 2 ^ 32 - 1
  | U64 | Usize => 2 ^ 64 - 1 | U128 => 2 ^ 128 - 1
  | I8 => 2 ^ 7 - 1 | I16 => 2 ^ 15 - 1 | I32 => 2 ^ 31 - 1
  | I64 | Isize => 2 ^ 63 - 1 | I128 => 2 ^ 127 - 1
  end%Z.

(** A value of the index type. *)
Definition in_ity (I : ity) (z : Z) : Prop := (imin I <= z <= imax I)%Z.

Definition icheck (I : ity) (z : Z) : res Z :=
  if ((imin I <=? z) && (z <=? imax I))%Z then Ok z else Panic.

(** The build: with overflow checks (dev profile), or with wrapping arithmetic (release profile). *)
Inductive build := Debug | Release.
Class Build := the_build : build.

(** the value of type [I] congruent to [z] *)
Definition iwrap (I : ity) (z : Z) : Z := (imin I + (z - imin I) mod (imax I - imin I + 1))%Z.

(** [a + b], [a - b] on [I]. *)
Definition iadd {B : Build} (I : ity) (a b : Z) : res Z :=
  match B with Debug => icheck I (a + b)%Z | Release => Ok (iwrap I (a + b)%Z) end.
Definition isub {B : Build} (I : ity) (a b : Z) : res Z :=
  match B with Debug => icheck I (a - b)%Z | Release => Ok (iwrap I (a - b)%Z) end.
(** [I::from(n).unwrap()] for [n : usize] *)
Definition ifrom (I : ity) (n : nat) : res Z := icheck I (Z.of_nat n).
(** [z.to_usize().unwrap()].  Exact for the ten index types of at most 64 bits.  Simplification for u128 and
    i128: values above [usize::MAX] are accepted, where the code panics; no array has such an index, so what is
    left out is only that an operation that does not index with the value (a comparison, a length test) panics. *)
Definition to_usize (z : Z) : res nat := if (0 <=? z)%Z then Ok (Z.to_nat z) else Panic.
(** [a - b] on [usize]; below zero the release build (64 bits) wraps. *)
Definition usub {B : Build} (a b : nat) : res nat :=
  if b <=? a then Ok (a - b) else
  match B with Debug => Panic | Release => Ok (Z.to_nat (iwrap Usize (Z.of_nat a - Z.of_nat b))) end.
(** [a + b] on [usize] where an operand is the caller's to choose (elsewhere: [+] on [nat]). *)
Definition uadd {B : Build} (a b : nat) : res nat :=
  if (Z.of_nat a + Z.of_nat b <=? imax Usize)%Z then Ok (a + b) else
  match B with Debug => Panic | Release => Ok (Z.to_nat (iwrap Usize (Z.of_nat a + Z.of_nat b))) end.

Arguments iadd {B} I a b : simpl never.
Arguments isub {B} I a b : simpl never.
Arguments usub {B} a b : simpl never.
Arguments uadd {B} a b : simpl never.

(** ** Vectors *)

Section Vec.
  Context {A : Type}.

  (** [v[i]] *)
  Definition vget (l : list A) (i : nat) : res A :=
    match nth_error l i with Some a => Ok a | None => Panic end.

  (** replace element [i]; no effect if out of range (guarded by [vset]) *)
  Fixpoint upd (l : list A) (i : nat) (a : A) : list A :=
    match l, i with
    | [], _ => []
    | _ :: l', 0 => a :: l'
    | x :: l', S i' => x :: upd l' i' a
    end.

  (** [v[i] = a] *)
  Definition vset (l : list A) (i : nat) (a : A) : res (list A) :=
    if i <? length l then Ok (upd l i a) else Panic.

  (** [v.fill(a)] *)
  Definition vfill (l : list A) (a : A) : list A := repeat a (length l).

  (** [v.resize(n, a)]; a failing allocation is not modelled *)
  Definition vresize (l : list A) (n : nat) (a : A) : list A :=
    firstn n l ++ repeat a (n - length l).

  (** [&v[s..e]] *)
  Definition vslice (l : list A) (s e : nat) : res (list A) :=
    if (s <=? e) && (e <=? length l) then Ok (firstn (e - s) (skipn s l)) else Panic.
End Vec.

(** ** Loops *)

Section Loops.
  Context {St : Type}.

  Fixpoint for_n (n i : nat) (f : nat -> St -> res St) (s : St) : res St :=
    match n with
    | 0 => Ok s
    | S n' => let* s' := f i s in for_n n' (S i) f s'
    end.

  (** [for i in lo..hi { s = f(i, s) }] *)
  Definition for_range (lo hi : nat) (f : nat -> St -> res St) (s : St) : res St :=
    for_n (hi - lo) lo f s.

  (** [for x in list] *)
  Fixpoint for_each {A} (l : list A) (f : A -> St -> res St) (s : St) : res St :=
    match l with
    | [] => Ok s
    | x :: l' => let* s' := f x s in for_each l' f s'
    end.

  (** [for (k, x) in list.iter().enumerate()], counting from [k] *)
  Fixpoint for_enum {A} (k : nat) (l : list A) (f : nat -> A -> St -> res St) (s : St) : res St :=
    match l with
    | [] => Ok s
    | x :: l' => let* s' := f k x s in for_enum (S k) l' f s'
    end.

  (** [while cond { body }] *)
  Fixpoint while (fuel : nat) (cond : St -> res bool) (body : St -> res St) (s : St) : res St :=
    match fuel with
    | 0 => NoFuel
    | S k => let* b := cond s in
             if b then (let* s' := body s in while k cond body s') else Ok s
    end.
End Loops.

(** [iter().map(f).collect()] where [f] may panic *)
Fixpoint mapM {A B} (f : A -> res B) (l : list A) : res (list B) :=
  match l with
  | [] => Ok []
  | x :: l' => let* y := f x in let* ys := mapM f l' in Ok (y :: ys)
  end.

(** Loop with early exit: [Cont s] goes on, [Stop r] is [break] / [return]. *)
Inductive ctl (S R : Type) := Cont (s : S) | Stop (r : R).
Arguments Cont {S R} s.
Arguments Stop {S R} r.

Section LoopsExit.
  Context {St R : Type}.

  Fixpoint for_n_exit (n i : nat) (f : nat -> St -> res (ctl St R)) (s : St) : res (ctl St R) :=
    match n with
    | 0 => Ok (Cont s)
    | S n' => let* c := f i s in
              match c with
              | Cont s' => for_n_exit n' (S i) f s'
              | Stop r => Ok (Stop r)
              end
    end.

  Definition for_range_exit (lo hi : nat) := for_n_exit (hi - lo) lo.
End LoopsExit.

(** [while cond { body }] whose body may [break] with [Stop] *)
Fixpoint while_exit {St} (fuel : nat) (cond : St -> res bool) (body : St -> res (ctl St St)) (s : St)
  : res St :=
  match fuel with
  | 0 => NoFuel
  | S k => let* b := cond s in
           if b then
             let* c := body s in
             match c with
             | Cont s' => while_exit k cond body s'
             | Stop s' => Ok s'
             end
           else Ok s
  end.

(** the state after a loop left by [break] or normally *)
Definition ctl_state {St} (c : ctl St St) : St := match c with Cont s => s | Stop s => s end.
