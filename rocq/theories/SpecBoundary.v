(** Matrices with as many entries as the index type can count (C11, C14, C51, C19, C20, C46). *)
From Verif Require Import Rust Scalar Model_matrix Spec.

Section Spec.
Context {T : Type}.
Variable I : ity.
(** canonical, with as many entries as the index type can count, and nothing in the last row (column) *)
Definition csr_full (m : CSR T) : Prop :=
  Z.of_nat (csr_count m) = imax I /\ csr_canonical m /\ 0 < csr_rows m /\ csr_row m (csr_rows m - 1) = [].
Definition csc_full (m : CSC T) : Prop :=
  Z.of_nat (csc_count m) = imax I /\ csc_canonical m /\ 0 < csc_cols m /\ csc_col m (csc_cols m - 1) = [].
(** as many triplets as the index type can count, none of them in the last row (column), and in every row (column) those
    pushed later lie further right (down) *)
Definition coo_full_rows (m : Coo T) : Prop :=
  Z.of_nat (length (coo_values m)) = imax I /\ 0 < coo_rows m /\ (forall e, In e (coo_entries m) -> fst (fst e) <> coo_rows m - 1) /\
  forall i, StronglySorted lt (map (fun e => snd (fst e)) (filter (fun e => fst (fst e) =? i) (coo_entries m))).
Definition coo_full_cols (m : Coo T) : Prop :=
  Z.of_nat (length (coo_values m)) = imax I /\ 0 < coo_cols m /\ (forall e, In e (coo_entries m) -> snd (fst e) <> coo_cols m - 1) /\
  forall j, StronglySorted lt (map (fun e => fst (fst e)) (filter (fun e => snd (fst e) =? j) (coo_entries m))).
End Spec.

(** ** When combining two matrices element by element fails (C19, C20, C46) *)
Section Sum.
Context {T : Type} {SC : Scalar T} {T2 : Type} {NZ : Nonzero T2}.
Variable I : ity.
(** the positions used by two rows together, each once *)
Definition used (r s : list (nat * T)) : list nat := nodup Nat.eq_dec (map fst r ++ map fst s).
(** the number of entries of the element-wise result: used positions where the result is not zero; [read] says how
    the values stored at a position are read as one scalar *)
Definition kept_count (read : list T -> T) (f : T -> T -> T2) (n : nat) (ra rb : nat -> list (nat * T)) : nat :=
  list_sum (map (fun i => length (filter (fun k => nonzero (f (read (at_ k (ra i))) (read (at_ k (rb i))))) (used (ra i) (rb i)))) (seq 0 n)).
(** two rows together use more positions than the index type can count *)
Definition crowded (n : nat) (ra rb : nat -> list (nat * T)) : Prop := exists i, i < n /\ (imax I < Z.of_nat (length (used (ra i) (rb i))))%Z.
Definition csr_sum_fails (f : T -> T -> T2) (a b : CSR T) : Prop :=
  let n := csr_rows a in let ra := csr_row a in let rb := csr_row b in
  csr_full I a \/
  (csr_canonical a /\ csr_canonical b) /\ (csr_full I b \/ (imax I < Z.of_nat (kept_count (hd s0) f n ra rb))%Z) \/
  ~ (csr_canonical a /\ csr_canonical b) /\ (crowded n ra rb \/ (imax I < Z.of_nat (kept_count sum0 f n ra rb))%Z).
Definition csc_sum_fails (f : T -> T -> T2) (a b : CSC T) : Prop :=
  let n := csc_cols a in let ra := csc_col a in let rb := csc_col b in
  csc_full I a \/
  (csc_canonical a /\ csc_canonical b) /\ (csc_full I b \/ (imax I < Z.of_nat (kept_count (hd s0) f n ra rb))%Z) \/
  ~ (csc_canonical a /\ csc_canonical b) /\ (crowded n ra rb \/ (imax I < Z.of_nat (kept_count sum0 f n ra rb))%Z).
(** the kernel [K] combines two matrices with [f], writing into arrays of the caller, unless it panics in the cases above *)
Definition kernel_exact (K : nat -> nat -> list Z -> list Z -> list T -> list Z -> list Z -> list T -> list Z -> list Z -> list T2 -> res (list Z * list Z * list T2))
    (f : T -> T -> T2) : Prop :=
  forall (a b : CSR T) (c_p c_j : list Z) (c_x : list T2),
  wf_csr I a -> wf_csr I b -> csr_rows b = csr_rows a -> csr_cols b = csr_cols a ->
  length c_p = csr_rows a + 1 -> csr_count a + csr_count b <= length c_j -> csr_count a + csr_count b <= length c_x ->
  let run := K (csr_rows a) (csr_cols a) (csr_rowptr a) (csr_colidx a) (csr_values a)
      (csr_rowptr b) (csr_colidx b) (csr_values b) c_p c_j c_x in
  (csr_sum_fails f a b -> run = Panic) /\
  (~ csr_sum_fails f a b -> exists p j x, run = Ok (p, j, x) /\
    let r := mkCSR (csr_rows a) (csr_cols a) p j x in
    wf_csr I r /\ csr_nodup r /\ (csr_canonical a /\ csr_canonical b -> csr_canonical r) /\
    (~ (csr_canonical a /\ csr_canonical b) -> csr_entrywise sum0 f a b r) /\
    (csr_canonical a /\ csr_canonical b -> csr_entrywise (hd s0) f a b r)).
End Sum.

(** ** The number of entries of a product *)
Section Product.
Context {T : Type} {SC : Scalar T}.
(** the positions (i, k) met by stored entries (i, j) of [a] and (j, k) of [b] where the value is not zero *)
Definition product_kept (a b : CSR T) : nat :=
  list_sum (map (fun i => length (filter (fun k => negb (seqb (sum0 (csr_products a b i k)) s0)) (filter (meets a b i) (seq 0 (csr_cols b))))) (seq 0 (csr_rows a))).
Definition csc_product_kept (a b : CSC T) : nat :=
  list_sum (map (fun k => length (filter (fun i => negb (seqb (sum0 (csc_products a b i k)) s0)) (filter (fun i => csc_meets a b i k) (seq 0 (csc_rows a))))) (seq 0 (csc_cols b))).
(** the same for a CSC matrix times a CSR matrix; [mixed_products a b i k] are the products at (i, k) in the order of the rows of [b] *)
Definition mixed_products (a : CSC T) (b : CSR T) (i k : nat) : list T :=
  flat_map (fun j => flat_map (fun v => map (fun u => smul v u) (csc_at a i j)) (csr_at b j k)) (seq 0 (csr_rows b)).
Definition mixed_kept (a : CSC T) (b : CSR T) : nat :=
  list_sum (map (fun k => length (filter (fun i => negb (seqb (sum0 (mixed_products a b i k)) s0)) (filter (fun i => mixed_meets a b i k) (seq 0 (csc_rows a))))) (seq 0 (csr_cols b))).
End Product.
