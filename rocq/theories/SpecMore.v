(** Specification vocabulary of the properties C46, C53, C55 and of C70 and later. *)
From Verif Require Import Rust Scalar Model_kernels Model_matrix Spec.

(** equal as matrices: same size, same element everywhere *)
Definition csr_same {T} `{Scalar T} (a b : CSR T) : Prop :=
  csr_rows a = csr_rows b /\ csr_cols a = csr_cols b /\ forall i j, i < csr_rows a -> csr_val a i j = csr_val b i j.
(** element-wise sum of two vectors *)
Definition vplus {T} `{Scalar T} (x y : list T) : list T := map (fun e => sadd (fst e) (snd e)) (combine x y).

(** "K stores f(a(i,j), b(i,j)) at every occupied position where that is not zero (false), and nothing elsewhere" *)
Definition kernel_computes {T T2} `{Scalar T} `{Nonzero T2} (I : ity) K (f : T -> T -> T2) : Prop :=
  forall (a b : CSR T) (c_p c_j : list Z) (c_x : list T2),
  wf_csr I a -> wf_csr I b -> csr_rows b = csr_rows a -> csr_cols b = csr_cols a ->
  (Z.of_nat (csr_count a + csr_count b) < imax I)%Z ->
  length c_p = csr_rows a + 1 -> csr_count a + csr_count b <= length c_j -> csr_count a + csr_count b <= length c_x ->
  exists p j x, K (csr_rows a) (csr_cols a) (csr_rowptr a) (csr_colidx a) (csr_values a)
      (csr_rowptr b) (csr_colidx b) (csr_values b) c_p c_j c_x = Ok (p, j, x) /\
    let r := mkCSR (csr_rows a) (csr_cols a) p j x in wf_csr I r /\ csr_nodup r /\
    forall i k, i < csr_rows a -> csr_at r i k = keep (csr_at a i k ++ csr_at b i k) (f (csr_val a i k) (csr_val b i k)).

(** the index and value vectors have exactly nnz() elements *)
Definition csr_exact {T} (r : CSR T) : Prop :=
  exists n, CSR_nnz r = Ok n /\ length (csr_colidx r) = n /\ length (csr_values r) = n.
Definition csc_exact {T} (r : CSC T) : Prop :=
  exists n, CSC_nnz r = Ok n /\ length (csc_rowidx r) = n /\ length (csc_values r) = n.
(** from position [n] on, [l] holds nothing but [z] *)
Definition filled {A} (z : A) (n : nat) (l : list A) : Prop := skipn n l = repeat z (length l - n).

(** the index list that picks, out of what [l] has picked, the positions [k]: l[k[0]], l[k[1]], ... *)
Definition through (l k : list Z) : list Z := map (fun z => nth (Z.to_nat z) l 0%Z) k.

(** conjugation commutes with 0, +, * and with the test for zero *)
Definition conj_hom (F C : Type) `{ComplexOps F C} `{Scalar C} : Prop :=
  let conj := cconj (F := F) (C := C) in
  conj s0 = s0 /\ (forall v w, conj (sadd v w) = sadd (conj v) (conj w)) /\ (forall v w, conj (smul v w) = smul (conj v) (conj w)) /\
  (forall v, seqb (conj v) s0 = seqb v s0).

(** the call comes to an end: it returns, reports an error or panics (a loop of the model that is still running when its
    fuel is used up gives [NoFuel]) *)
Definition ends {A} (m : res A) : Prop := m <> NoFuel.
(** something is stored *)
Definition occupied {A} (l : list A) : bool := match l with [] => false | _ => true end.

(** the release build of a call does what the build with overflow checks does, unless the latter panics *)
Definition both {A} (f : Build -> res A) : Prop := f Debug <> Panic -> f Release = f Debug.

(** the index types without negative values *)
Definition unsigned (I : ity) : Prop := imin I = 0%Z.
(** a sum in wrapping 64-bit arithmetic *)
Definition wrapped_sum (m n : nat) : nat := Z.to_nat ((Z.of_nat m + Z.of_nat n) mod 2 ^ 64)%Z.

(** the part of an array between a pointer and the next *)
Definition seg {A} (p : list Z) (l : list A) (i : nat) : list A := firstn (ptr p (S i) - ptr p i) (skipn (ptr p i) l).

(** somewhere an element is followed by a smaller one *)
Definition descent (j : list Z) : Prop := exists k, S k < length j /\ (nth (S k) j 0 < nth k j 0)%Z.

(** start, start - d, start - 2 d, ... down to the last one not below zero *)
Definition downwards (start d : nat) : list nat := map (fun k => start - k * d) (seq 0 (S (start / d))).

(** the arrays can be read as compressed rows of less than [c] columns at row [i]: its two pointers exist and are not
    negative, and every position between them holds a value and an index below [c] *)
Definition readable {T} (c : nat) (p j : list Z) (x : list T) (i : nat) : Prop :=
  S i < length p /\ (0 <= nth i p 0)%Z /\ (0 <= nth (S i) p 0)%Z /\
  forall k, ptr p i <= k < ptr p (S i) -> k < length j /\ k < length x /\ (0 <= nth k j 0 < Z.of_nat c)%Z.
Definition csr_readable {T} (m : CSR T) : Prop := forall i, i < csr_rows m -> readable (csr_cols m) (csr_rowptr m) (csr_colidx m) (csr_values m) i.
Definition csc_readable {T} (m : CSC T) : Prop := forall j, j < csc_cols m -> readable (csc_rows m) (csc_colptr m) (csc_rowidx m) (csc_values m) j.
(** the same for the cell ([i], [i]) of row [i]: other cells only need an index *)
Definition diagonal_readable {T} (p j : list Z) (x : list T) (i : nat) : Prop :=
  S i < length p /\ (0 <= nth i p 0)%Z /\ (0 <= nth (S i) p 0)%Z /\
  forall k, ptr p i <= k < ptr p (S i) -> k < length j /\ (0 <= nth k j 0)%Z /\ (nth k j 0%Z = Z.of_nat i -> k < length x).
(** every value of a coordinate matrix has a row and a column *)
Definition paired {T} (m : Coo T) : Prop := length (coo_values m) <= length (coo_rowidx m) /\ length (coo_values m) <= length (coo_colidx m).
(** the first [n] elements are indices below [r] *)
Definition below (r n : nat) (l : list Z) : Prop := forall k, k < n -> (0 <= nth k l 0 < Z.of_nat r)%Z.
