(** Exactly when sums and differences of matrices panic: C19, C20, C46. *)
From Verif Require Import Rust Scalar Model_kernels Model_matrix Spec SpecBoundary Wp Check Main_addition.

Section Props.
Context {T : Type} {SC : Scalar T}.
Variable I : ity.

(** C19, without a bound on the number of entries: a + b panics exactly in the cases of [csr_sum_fails] -- more entries in the result
    than the index type can count, or one of the two limits of the index arithmetic -- and is the element-wise sum otherwise. *)
Theorem C19_csr_add_exact : forall a b : CSR T,
  wf_csr I a -> wf_csr I b -> csr_rows b = csr_rows a -> csr_cols b = csr_cols a ->
  (csr_sum_fails I sadd a b -> CSR_add I a b = Panic) /\
  (~ csr_sum_fails I sadd a b ->
   exists r, CSR_add I a b = Ok r /\
     wf_csr I r /\ csr_rows r = csr_rows a /\ csr_cols r = csr_cols a /\ csr_nodup r /\ csr_nonzero r /\
     (csr_canonical a /\ csr_canonical b -> csr_canonical r) /\
     (~ (csr_canonical a /\ csr_canonical b) -> csr_entrywise sum0 sadd a b r) /\
     (csr_canonical a /\ csr_canonical b -> csr_entrywise (hd s0) sadd a b r)).
Proof. exact (c19_csr_add_exact I). Qed.
Theorem C19_csr_sub_exact : forall a b : CSR T,
  wf_csr I a -> wf_csr I b -> csr_rows b = csr_rows a -> csr_cols b = csr_cols a ->
  (csr_sum_fails I ssub a b -> CSR_sub I a b = Panic) /\
  (~ csr_sum_fails I ssub a b ->
   exists r, CSR_sub I a b = Ok r /\
     wf_csr I r /\ csr_rows r = csr_rows a /\ csr_cols r = csr_cols a /\ csr_nodup r /\ csr_nonzero r /\
     (csr_canonical a /\ csr_canonical b -> csr_canonical r) /\
     (~ (csr_canonical a /\ csr_canonical b) -> csr_entrywise sum0 ssub a b r) /\
     (csr_canonical a /\ csr_canonical b -> csr_entrywise (hd s0) ssub a b r)).
Proof. exact (c19_csr_sub_exact I). Qed.
(** C20, likewise, with columns in place of rows. *)
Theorem C20_csc_add_exact : forall a b : CSC T,
  wf_csc I a -> wf_csc I b -> csc_rows b = csc_rows a -> csc_cols b = csc_cols a ->
  (csc_sum_fails I sadd a b -> CSC_add I a b = Panic) /\
  (~ csc_sum_fails I sadd a b ->
   exists r, CSC_add I a b = Ok r /\ csc_tight r /\
     wf_csc I r /\ csc_rows r = csc_rows a /\ csc_cols r = csc_cols a /\ csc_nodup r /\ csc_nonzero r /\
     (csc_canonical a /\ csc_canonical b -> csc_canonical r) /\
     (~ (csc_canonical a /\ csc_canonical b) -> csc_entrywise sum0 sadd a b r) /\
     (csc_canonical a /\ csc_canonical b -> csc_entrywise (hd s0) sadd a b r)).
Proof. exact (c20_csc_add_exact I). Qed.
Theorem C20_csc_subtract_exact : forall a b : CSC T,
  wf_csc I a -> wf_csc I b -> csc_rows b = csc_rows a -> csc_cols b = csc_cols a ->
  (csc_sum_fails I ssub a b -> CSC_subtract I a b = Panic) /\
  (~ csc_sum_fails I ssub a b ->
   exists r, CSC_subtract I a b = Ok r /\ csc_tight r /\
     wf_csc I r /\ csc_rows r = csc_rows a /\ csc_cols r = csc_cols a /\ csc_nodup r /\ csc_nonzero r /\
     (csc_canonical a /\ csc_canonical b -> csc_canonical r) /\
     (~ (csc_canonical a /\ csc_canonical b) -> csc_entrywise sum0 ssub a b r) /\
     (csc_canonical a /\ csc_canonical b -> csc_entrywise (hd s0) ssub a b r)).
Proof. exact (c20_csc_subtract_exact I). Qed.
Theorem C20_csc_op_add_exact : forall a b : CSC T,
  wf_csc I a -> wf_csc I b -> csc_rows b = csc_rows a -> csc_cols b = csc_cols a ->
  (csc_sum_fails I sadd a b -> CSC_op_add I a b = Panic) /\
  (~ csc_sum_fails I sadd a b ->
   exists r, CSC_op_add I a b = Ok r /\
     wf_csc I r /\ csc_rows r = csc_rows a /\ csc_cols r = csc_cols a /\ csc_nodup r /\ csc_nonzero r /\
     (csc_canonical a /\ csc_canonical b -> csc_canonical r) /\
     (~ (csc_canonical a /\ csc_canonical b) -> csc_entrywise sum0 sadd a b r) /\
     (csc_canonical a /\ csc_canonical b -> csc_entrywise (hd s0) sadd a b r)).
Proof. exact (c20_csc_op_add_exact I). Qed.
(** C46, likewise: the kernel for an arbitrary operation that does not itself fail, and those the crate offers by name. *)
Theorem C46_exact : forall {T2} {NZ : Nonzero T2} (f : T -> T -> T2), kernel_exact I (csr_binop_csr I (fun u v => Ok (f u v))) f.
Proof. exact (@c46_exact T SC I). Qed.
(** The quotient kernel panics if a quotient it needs does; if all of them exist, with value [q u v], it is as exact as the others. *)
Theorem C46_div_exact : forall {ZA : ZeroAdd T} (a b : CSR T) c_p c_j c_x,
  wf_csr I a -> wf_csr I b -> csr_rows b = csr_rows a -> csr_cols b = csr_cols a ->
  length c_p = csr_rows a + 1 -> csr_count a + csr_count b <= length c_j -> csr_count a + csr_count b <= length c_x ->
  seqb s0 s0 = true -> seqb s1 s0 = false -> (forall u v, sdiv u v = Panic \/ exists q, sdiv u v = Ok q) ->
  let occupied i k := i < csr_rows a /\ csr_at a i k ++ csr_at b i k <> [] in
  let run := csr_div_csr I (csr_rows a) (csr_cols a) (csr_rowptr a) (csr_colidx a) (csr_values a)
      (csr_rowptr b) (csr_colidx b) (csr_values b) c_p c_j c_x in
  ((exists i k, occupied i k /\ sdiv (csr_val a i k) (csr_val b i k) = Panic) -> run = Panic) /\
  (forall q, (forall i k, occupied i k -> sdiv (csr_val a i k) (csr_val b i k) = Ok (q (csr_val a i k) (csr_val b i k))) ->
    (csr_sum_fails I q a b -> run = Panic) /\
    (~ csr_sum_fails I q a b -> exists p j x, run = Ok (p, j, x) /\
      let r := mkCSR (csr_rows a) (csr_cols a) p j x in wf_csr I r /\ csr_nodup r /\ csr_entrywise sum0 q a b r)).
Proof. exact (@c46_div_exact T SC I). Qed.
Theorem C46_kernels_exact : forall (SO : ScalarOrd T),
  kernel_exact I (csr_ne_csr I) (fun u v => negb (seqb u v)) /\
  kernel_exact I (csr_eq_csr I) seqb /\
  kernel_exact I (csr_lt_csr I) sltb /\ kernel_exact I (csr_gt_csr I) (fun u v => sltb v u) /\
  kernel_exact I (csr_le_csr I) sleb /\ kernel_exact I (csr_ge_csr I) (fun u v => sleb v u) /\
  kernel_exact I (csr_add_csr I) sadd /\ kernel_exact I (csr_sub_csr I) ssub /\
  kernel_exact I (csr_mul_csr I) smul /\
  kernel_exact I (csr_max_csr I) (fun u v => if sltb v u then u else v) /\
  kernel_exact I (csr_min_csr I) (fun u v => if sltb u v then u else v).
Proof. exact (c46_kernels_exact I). Qed.
End Props.

(** ** Concrete cases, with i8 indices (at most 127 entries) *)
Definition zs (l : list nat) : list Z := map Z.of_nat l.
(* 1 by 128: 100 entries in columns 0 .. 99, from left to right; and in columns 28 .. 127 *)
Definition ex_low : CSR Z := mkCSR 1 128 [0; 100]%Z (zs (seq 0 100)) (repeat 1%Z 100).
Definition ex_high : CSR Z := mkCSR 1 128 [0; 100]%Z (zs (seq 28 100)) (repeat 1%Z 100).
(* the columns 0 .. 99 from right to left *)
Definition ex_left : CSR Z := mkCSR 1 128 [0; 100]%Z (zs (rev (seq 0 100))) (repeat 1%Z 100).
(* the columns 28 .. 127, a stored zero in the last of them *)
Definition ex_zero : CSR Z := mkCSR 1 128 [0; 100]%Z (zs (seq 28 100)) (repeat 1%Z 99 ++ [0%Z]).
Example ex_addition_meets : wf_csr I8 ex_low /\ wf_csr I8 ex_high /\ wf_csr I8 ex_left /\ wf_csr I8 ex_zero.
Proof. split; [check|]. split; [check|]. split; check. Qed.
(* the operands have 200 entries, the sum has 100, the difference none *)
Example C19_same_ex : kept_count (hd 0%Z) Z.add 1 (csr_row ex_low) (csr_row ex_low) = 100 /\
  exists s d, CSR_add I8 ex_low ex_low = Ok s /\ CSR_sub I8 ex_low ex_low = Ok d /\ CSR_nnz s = Ok 100 /\ CSR_nnz d = Ok 0.
Proof. split; [vm_compute; reflexivity|]. eexists. eexists. split; [vm_compute; reflexivity|]. split; [vm_compute; reflexivity|]. split; vm_compute; reflexivity. Qed.
(* the sum of two canonical matrices would have 128 entries; with a zero among them, 127 *)
Example C19_over_ex : kept_count (hd 0%Z) Z.add 1 (csr_row ex_low) (csr_row ex_high) = 128 /\ CSR_add I8 ex_low ex_high = Panic /\
  kept_count (hd 0%Z) Z.add 1 (csr_row ex_low) (csr_row ex_zero) = 127 /\ exists s, CSR_add I8 ex_low ex_zero = Ok s /\ CSR_nnz s = Ok 127.
Proof. split; [vm_compute; reflexivity|]. split; [vm_compute; reflexivity|]. split; [vm_compute; reflexivity|]. eexists. split; [vm_compute; reflexivity|vm_compute; reflexivity]. Qed.
(* the same 127 entries, but an operand is not canonical: the row uses 128 positions *)
Example C19_crowded_ex : crowded I8 1 (csr_row ex_left) (csr_row ex_zero) /\ kept_count sum0 Z.add 1 (csr_row ex_left) (csr_row ex_zero) = 127 /\
  CSR_add I8 ex_left ex_zero = Panic.
Proof. split; [|split; [vm_compute; reflexivity|vm_compute; reflexivity]]. exists 0. split; [lia|vm_compute; reflexivity]. Qed.
(* 127 entries in the first of two rows: canonical, then it panics as left operand and as right operand of a canonical one,
   but not as right operand of one that is not *)
Definition ex_full : CSR Z := mkCSR 2 127 [0; 127; 127]%Z (zs (seq 0 127)) (repeat 1%Z 127).
Definition ex_one : CSR Z := mkCSR 2 127 [0; 1; 1]%Z [5]%Z [7]%Z.
Definition ex_two : CSR Z := mkCSR 2 127 [0; 2; 2]%Z [5; 5]%Z [3; 4]%Z.
Example C19_full_ex : wf_csr I8 ex_full /\ wf_csr I8 ex_one /\ wf_csr I8 ex_two /\ csr_full I8 ex_full /\
  CSR_add I8 ex_full ex_one = Panic /\ CSR_add I8 ex_one ex_full = Panic /\ CSR_add I8 ex_full ex_two = Panic /\
  exists s, CSR_add I8 ex_two ex_full = Ok s /\ csr_at s 0 5 = [8]%Z /\ CSR_nnz s = Ok 127.
Proof.
  split; [check|]. split; [check|]. split; [check|]. split.
  - split; [vm_compute; reflexivity|]. split; [check|]. split; [cbn; lia|vm_compute; reflexivity].
  - split; [vm_compute; reflexivity|]. split; [vm_compute; reflexivity|]. split; [vm_compute; reflexivity|]. eexists. split; [vm_compute; reflexivity|]. split; vm_compute; reflexivity.
Qed.
Definition ex_lowc : CSC Z := mkCSC 128 1 (zs (seq 0 100)) [0; 100]%Z (repeat 1%Z 100).
Definition ex_highc : CSC Z := mkCSC 128 1 (zs (seq 28 100)) [0; 100]%Z (repeat 1%Z 100).
Example C20_exact_ex : wf_csc I8 ex_lowc /\ wf_csc I8 ex_highc /\
  CSC_add I8 ex_lowc ex_highc = Panic /\ CSC_op_add I8 ex_lowc ex_highc = Panic /\ CSC_subtract I8 ex_lowc ex_highc = Ok (mkCSC 128 1
    (zs (seq 0 28 ++ seq 100 28)) [0; 56]%Z (repeat 1%Z 28 ++ repeat (-1)%Z 28)) /\
  exists s, CSC_add I8 ex_lowc ex_lowc = Ok s /\ CSC_op_add I8 ex_lowc ex_lowc <> Panic /\ csc_at s 99 0 = [2]%Z.
Proof.
  split; [check|]. split; [check|]. split; [vm_compute; reflexivity|]. split; [vm_compute; reflexivity|]. split; [vm_compute; reflexivity|].
  eexists. split; [vm_compute; reflexivity|]. split; [vm_compute; discriminate|vm_compute; reflexivity].
Qed.

(* 200 entries in the operands: the comparisons fit, an operation that is true at all 128 used positions does not *)
Example C46_exact_ex : let run := fun K (a b : CSR Z) => K 1 128 (csr_rowptr a) (csr_colidx a) (csr_values a) (csr_rowptr b) (csr_colidx b) (csr_values b) [0; 0]%Z (repeat 0%Z 200) (repeat false 200) in
  kept_count (hd 0%Z) Z.leb 1 (csr_row ex_low) (csr_row ex_high) = 100 /\ kept_count (hd 0%Z) (fun u v => negb (Z.eqb u v)) 1 (csr_row ex_low) (csr_row ex_high) = 56 /\
  (exists j x, run (csr_le_csr I8) ex_low ex_high = Ok ([0; 100]%Z, j, x)) /\
  (exists j x, run (csr_ne_csr I8) ex_low ex_high = Ok ([0; 56]%Z, j, x)) /\
  kept_count (hd 0%Z) (fun u v => Z.leb v u) 1 (csr_row ex_high) (csr_row ex_zero) = 100 /\
  run (csr_binop_csr I8 (fun u v => Ok (Z.ltb 0 (u + v)))) ex_low ex_high = Panic.
Proof.
  cbv zeta. split; [vm_compute; reflexivity|]. split; [vm_compute; reflexivity|]. split; [eexists; eexists; vm_compute; reflexivity|].
  split; [eexists; eexists; vm_compute; reflexivity|]. split; vm_compute; reflexivity.
Qed.

(* 200 entries in the operands, at most 100 quotients; a division by a zero that is not stored panics *)
Example C46_div_exact_ex : let run := fun (a b : CSR Z) => csr_div_csr I8 1 128 (csr_rowptr a) (csr_colidx a) (csr_values a) (csr_rowptr b) (csr_colidx b) (csr_values b) [0; 0]%Z (repeat 0%Z 200) (repeat 0%Z 200) in
  (exists j x, run ex_low ex_low = Ok ([0; 100]%Z, j, x)) /\ run ex_low ex_high = Panic /\ (exists j x, run ex_zero ex_high = Ok ([0; 99]%Z, j, x)).
Proof. cbv zeta. split; [eexists; eexists; vm_compute; reflexivity|]. split; [vm_compute; reflexivity|]. eexists. eexists. vm_compute. reflexivity. Qed.

Print Assumptions C19_csr_add_exact.
Print Assumptions C19_csr_sub_exact.
Print Assumptions C20_csc_add_exact.
Print Assumptions C20_csc_subtract_exact.
Print Assumptions C20_csc_op_add_exact.
Print Assumptions C46_exact.
Print Assumptions C46_div_exact.
Print Assumptions C46_kernels_exact.
