(** Boolean checkers, used only to show that the concrete examples meet the theorems' hypotheses. *)
From Verif Require Import Rust Scalar Model_kernels Model_matrix Spec.

Section Check.
Context {T : Type}.
Definition wf_arraysb (I : ity) (n c : nat) (p j : list Z) (x : list T) : bool :=
  (length p =? n + 1) && (nth 0 p 0 =? 0)%Z
  && forallb (fun i => nth i p 0 <=? nth (S i) p 0)%Z (seq 0 n)
  && (ptr p n <=? length j) && (ptr p n <=? length x)
  && forallb (fun k => (0 <=? nth k j 0) && (nth k j 0 <? Z.of_nat c) && (nth k j 0 <=? imax I))%Z (seq 0 (ptr p n))
  && (Z.of_nat (ptr p n) <=? imax I)%Z.
Lemma wf_arrays_check I n c p j x : wf_arraysb I n c p j x = true -> wf_arrays I n c p j x.
Proof.
  unfold wf_arraysb. rewrite !andb_true_iff. intros [[[[[[A B] C] D] E] F] G].
  rewrite forallb_forall in C, F. constructor.
  - apply Nat.eqb_eq, A.
  - apply Z.eqb_eq, B.
  - intros i Hi. apply Z.leb_le, C, in_seq. lia.
  - apply Nat.leb_le, D.
  - apply Nat.leb_le, E.
  - intros k Hk. specialize (F k ltac:(apply in_seq; lia)). rewrite !andb_true_iff in F. lia.
  - apply Z.leb_le, G.
Qed.
Lemma wf_csr_check I (m : CSR T) :
  wf_arraysb I (csr_rows m) (csr_cols m) (csr_rowptr m) (csr_colidx m) (csr_values m) = true -> wf_csr I m.
Proof. apply wf_arrays_check. Qed.
Lemma wf_csc_check I (m : CSC T) :
  wf_arraysb I (csc_cols m) (csc_rows m) (csc_colptr m) (csc_rowidx m) (csc_values m) = true -> wf_csc I m.
Proof. apply wf_arrays_check. Qed.
Definition idxb (I : ity) (n : nat) (l : list Z) : bool :=
  forallb (fun z => (0 <=? z) && (z <? Z.of_nat n) && (z <=? imax I))%Z l.
Lemma wf_coo_check I (m : Coo T) :
  (length (coo_rowidx m) =? length (coo_values m)) && (length (coo_colidx m) =? length (coo_values m))
  && idxb I (coo_rows m) (coo_rowidx m) && idxb I (coo_cols m) (coo_colidx m) = true -> wf_coo I m.
Proof.
  unfold idxb. rewrite !andb_true_iff, !forallb_forall. intros [[[A B] C] D]. constructor.
  - apply Nat.eqb_eq, A.
  - apply Nat.eqb_eq, B.
  - apply Forall_forall. intros z Hz. specialize (C z Hz). rewrite !andb_true_iff in C. lia.
  - apply Forall_forall. intros z Hz. specialize (D z Hz). rewrite !andb_true_iff in D. lia.
Qed.
Definition lessb (R : nat -> nat -> bool) := fix go (l : list nat) : bool :=
  match l with [] => true | a :: l' => forallb (R a) l' && go l' end.
Lemma lessb_lt l : lessb Nat.ltb l = true -> StronglySorted lt l.
Proof.
  induction l as [|a l IH]; [constructor|]. cbn. rewrite andb_true_iff, forallb_forall. intros [A B].
  constructor; [apply IH, B|]. apply Forall_forall. intros b Hb. apply Nat.ltb_lt, A, Hb.
Qed.
Lemma lessb_le l : lessb Nat.leb l = true -> StronglySorted le l.
Proof.
  induction l as [|a l IH]; [constructor|]. cbn. rewrite andb_true_iff, forallb_forall. intros [A B].
  constructor; [apply IH, B|]. apply Forall_forall. intros b Hb. apply Nat.leb_le, A, Hb.
Qed.
Lemma lessb_nodup l : lessb (fun a b => negb (a =? b)) l = true -> NoDup l.
Proof.
  induction l as [|a l IH]; [constructor|]. cbn. rewrite andb_true_iff, forallb_forall. intros [A B].
  constructor; [|apply IH, B]. intros Ha. specialize (A a Ha). rewrite Nat.eqb_refl in A. discriminate.
Qed.
Lemma csr_canonical_check (m : CSR T) :
  forallb (fun i => lessb Nat.ltb (map fst (csr_row m i))) (seq 0 (csr_rows m)) = true -> csr_canonical m.
Proof. rewrite forallb_forall. intros H i Hi. apply lessb_lt, H, in_seq. lia. Qed.
Lemma csc_canonical_check (m : CSC T) :
  forallb (fun i => lessb Nat.ltb (map fst (csc_col m i))) (seq 0 (csc_cols m)) = true -> csc_canonical m.
Proof. rewrite forallb_forall. intros H i Hi. apply lessb_lt, H, in_seq. lia. Qed.
Lemma csr_sorted_check (m : CSR T) :
  forallb (fun i => lessb Nat.leb (map fst (csr_row m i))) (seq 0 (csr_rows m)) = true -> csr_sorted m.
Proof. rewrite forallb_forall. intros H i Hi. apply lessb_le, H, in_seq. lia. Qed.
Lemma csr_nodup_check (m : CSR T) :
  forallb (fun i => lessb (fun a b => negb (a =? b)) (map fst (csr_row m i))) (seq 0 (csr_rows m)) = true -> csr_nodup m.
Proof. rewrite forallb_forall. intros H i Hi. apply lessb_nodup, H, in_seq. lia. Qed.
Lemma csc_nodup_check (m : CSC T) :
  forallb (fun i => lessb (fun a b => negb (a =? b)) (map fst (csc_col m i))) (seq 0 (csc_cols m)) = true -> csc_nodup m.
Proof. rewrite forallb_forall. intros H i Hi. apply lessb_nodup, H, in_seq. lia. Qed.
Lemma csr_rows_fit_check I (m : CSR T) : (Z.of_nat (csr_rows m) <=? imax I)%Z = true -> csr_rows_fit I m.
Proof. intros H i Hi _. lia. Qed.
Lemma csc_cols_fit_check I (m : CSC T) : (Z.of_nat (csc_cols m) <=? imax I)%Z = true -> csc_cols_fit I m.
Proof. intros H i Hi _. lia. Qed.
End Check.

(** discharges any of the hypotheses above for a concrete matrix *)
Ltac check :=
  first [ apply wf_csr_check; reflexivity | apply wf_csc_check; reflexivity | apply wf_coo_check; reflexivity
        | apply csr_canonical_check; reflexivity | apply csc_canonical_check; reflexivity
        | apply csr_sorted_check; reflexivity | apply csr_nodup_check; reflexivity | apply csc_nodup_check; reflexivity
        | apply csr_rows_fit_check; reflexivity | apply csc_cols_fit_check; reflexivity
        | reflexivity | lia | discriminate ].
