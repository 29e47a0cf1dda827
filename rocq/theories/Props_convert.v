(** Conversions between formats, transposition and canonical form: C01-C05, C08, C11-C14. *)
From Verif Require Import Rust Scalar Model_kernels Model_matrix Spec Wp Check Main_convert.

Section Props.
Context {T : Type} {SC : Scalar T}.
Variable I : ity.

(** C01: to_csr sums duplicates, in insertion order, into a canonical matrix. *)
Theorem C01_coo_to_csr : forall m : Coo T,
  wf_coo I m -> (Z.of_nat (length (coo_values m)) < imax I)%Z ->
  exists r, Coo_to_csr I m = Ok r /\ wf_csr I r /\ csr_tight r /\
    csr_rows r = coo_rows m /\ csr_cols r = coo_cols m /\ csr_canonical r /\
    forall i j, i < coo_rows m -> csr_at r i j = dup_sum (coo_at m i j).
Proof. exact (c01_coo_to_csr I). Qed.

(** C02: the same for to_csc. *)
Theorem C02_coo_to_csc : forall m : Coo T,
  wf_coo I m -> (Z.of_nat (length (coo_values m)) < imax I)%Z ->
  exists r, Coo_to_csc I m = Ok r /\ wf_csc I r /\ csc_tight r /\
    csc_rows r = coo_rows m /\ csc_cols r = coo_cols m /\ csc_canonical r /\
    forall i j, j < coo_cols m -> csc_at r i j = dup_sum (coo_at m i j).
Proof. exact (c02_coo_to_csc I). Qed.

(** C03: CSR::to_csc keeps every stored value, in order; columns come out sorted. *)
Theorem C03_csr_to_csc : forall m : CSR T,
  wf_csr I m -> csr_rows_fit I m ->
  exists r, CSR_to_csc I m = Ok r /\ wf_csc I r /\ csc_tight r /\
    csc_rows r = csr_rows m /\ csc_cols r = csr_cols m /\ csc_sorted r /\
    (forall i j, j < csr_cols m -> csc_at r i j = csr_at m i j) /\
    csc_count r = csr_count m.
Proof. exact (c03_csr_to_csc I). Qed.

(** C04: the same for CSC::to_csr. *)
Theorem C04_csc_to_csr : forall m : CSC T,
  wf_csc I m -> csc_cols_fit I m ->
  exists r, CSC_to_csr I m = Ok r /\ wf_csr I r /\ csr_tight r /\
    csr_rows r = csc_rows m /\ csr_cols r = csc_cols m /\ csr_sorted r /\
    (forall i j, i < csc_rows m -> csr_at r i j = csc_at m i j) /\
    csr_count r = csc_count m.
Proof. exact (c04_csc_to_csr I). Qed.

(** C05: converting there and back sorts each row stably (keeping the values of every position
    in order); on sorted matrices without unused capacity it is the identity. *)
Theorem C05_csr_round_trip : forall m : CSR T,
  wf_csr I m -> csr_rows_fit I m ->
  exists c r, CSR_to_csc I m = Ok c /\ CSC_to_csr I c = Ok r /\
    csr_rows r = csr_rows m /\ csr_cols r = csr_cols m /\ csr_rowptr r = csr_rowptr m /\ csr_tight r /\
    csr_sorted r /\ (forall i j, csr_at r i j = csr_at m i j) /\
    (csr_sorted m -> csr_tight m -> r = m).
Proof. exact (c05_csr_round_trip I). Qed.

Theorem C05_csc_round_trip : forall m : CSC T,
  wf_csc I m -> csc_cols_fit I m ->
  exists c r, CSC_to_csr I m = Ok c /\ CSR_to_csc I c = Ok r /\
    csc_rows r = csc_rows m /\ csc_cols r = csc_cols m /\ csc_colptr r = csc_colptr m /\ csc_tight r /\
    csc_sorted r /\ (forall i j, csc_at r i j = csc_at m i j) /\
    (csc_sorted m -> csc_tight m -> r = m).
Proof. exact (c05_csc_round_trip I). Qed.

(** C08: transposition. *)
Theorem C08_coo_transpose : forall m : Coo T,
  coo_rows (Coo_t m) = coo_cols m /\ coo_cols (Coo_t m) = coo_rows m /\
  (forall i j, coo_at (Coo_t m) j i = coo_at m i j) /\ (wf_coo I m -> wf_coo I (Coo_t m)) /\
  Coo_t (Coo_t m) = m.
Proof. exact (c08_coo_transpose I). Qed.
Theorem C08_csr_transpose : forall m : CSR T, wf_csr I m ->
  exists c, CSR_t m = Ok c /\ wf_csc I c /\ csc_rows c = csr_cols m /\ csc_cols c = csr_rows m /\
    (forall i j, csc_at c j i = csr_at m i j) /\ CSC_t c = Ok m.
Proof. exact (c08_csr_transpose I). Qed.
Theorem C08_csc_transpose : forall m : CSC T, wf_csc I m ->
  exists c, CSC_t m = Ok c /\ wf_csr I c /\ csr_rows c = csc_cols m /\ csr_cols c = csc_rows m /\
    (forall i j, csr_at c j i = csc_at m i j) /\ CSR_t c = Ok m.
Proof. exact (c08_csc_transpose I). Qed.

(** C11: has_canonical_format decides canonicity. *)
Theorem C11_csr_has_canonical_format : forall m : CSR T,
  wf_csr I m -> (Z.of_nat (csr_count m) < imax I)%Z ->
  exists b, CSR_has_canonical_format I m = Ok b /\ (b = true <-> csr_canonical m).
Proof. exact (c11_csr_has_canonical_format I). Qed.
Theorem C11_csc_has_canonical_format : forall m : CSC T,
  wf_csc I m -> (Z.of_nat (csc_count m) < imax I)%Z ->
  exists b, CSC_has_canonical_format I m = Ok b /\ (b = true <-> csc_canonical m).
Proof. exact (c11_csc_has_canonical_format I). Qed.

(** C12: has_sorted_indexes decides sortedness when the first row is not empty, and panics when it is. *)
Theorem C12_csr_has_sorted_indexes : forall m : CSR T, wf_csr I m ->
  (csr_rows m = 0 \/ csr_row m 0 <> [] -> exists b, CSR_has_sorted_indexes I m = Ok b /\ (b = true <-> csr_sorted m)) /\
  (0 < csr_rows m -> csr_row m 0 = [] -> CSR_has_sorted_indexes I m = Panic).
Proof. exact (c12_csr_has_sorted_indexes I). Qed.
Theorem C12_csc_has_sorted_indexes : forall m : CSC T, wf_csc I m ->
  (csc_cols m = 0 \/ csc_col m 0 <> [] -> exists b, CSC_has_sorted_indexes I m = Ok b /\ (b = true <-> csc_sorted m)) /\
  (0 < csc_cols m -> csc_col m 0 = [] -> CSC_has_sorted_indexes I m = Panic).
Proof. exact (c12_csc_has_sorted_indexes I). Qed.

(** C13: sort_indexes is a stable sort of each row. *)
Theorem C13_csr_sort_indexes : forall m : CSR T, wf_csr I m ->
  exists s, CSR_sort_indexes m = Ok s /\ wf_csr I s /\ csr_rows s = csr_rows m /\ csr_cols s = csr_cols m /\
    csr_rowptr s = csr_rowptr m /\ csr_sorted s /\
    (forall i, i < csr_rows m -> Permutation (csr_row s i) (csr_row m i)) /\
    (forall i j, csr_at s i j = csr_at m i j).
Proof. exact (c13_csr_sort_indexes I). Qed.
Theorem C13_csc_sort_indexes : forall m : CSC T, wf_csc I m ->
  exists s, CSC_sort_indexes m = Ok s /\ wf_csc I s /\ csc_rows s = csc_rows m /\ csc_cols s = csc_cols m /\
    csc_colptr s = csc_colptr m /\ csc_sorted s /\
    (forall j, j < csc_cols m -> Permutation (csc_col s j) (csc_col m j)) /\
    (forall i j, csc_at s i j = csc_at m i j).
Proof. exact (c13_csc_sort_indexes I). Qed.

(** C14: sum_duplicates gives the canonical form and is idempotent. *)
Theorem C14_csr_sum_duplicates : forall m : CSR T,
  wf_csr I m -> (Z.of_nat (csr_count m) < imax I)%Z ->
  exists s, CSR_sum_duplicates I m = Ok s /\ wf_csr I s /\ csr_rows s = csr_rows m /\ csr_cols s = csr_cols m /\
    csr_canonical s /\ (forall i j, csr_at s i j = dup_sum (csr_at m i j)) /\
    (csr_canonical m -> s = m) /\ (csr_tight m \/ ~ csr_canonical m -> csr_tight s) /\
    CSR_sum_duplicates I s = Ok s.
Proof. exact (c14_csr_sum_duplicates I). Qed.
Theorem C14_csc_sum_duplicates : forall m : CSC T,
  wf_csc I m -> (Z.of_nat (csc_count m) < imax I)%Z ->
  exists s, CSC_sum_duplicates I m = Ok s /\ wf_csc I s /\ csc_rows s = csc_rows m /\ csc_cols s = csc_cols m /\
    csc_canonical s /\ (forall i j, csc_at s i j = dup_sum (csc_at m i j)) /\
    (csc_canonical m -> s = m) /\ (csc_tight m \/ ~ csc_canonical m -> csc_tight s) /\
    CSC_sum_duplicates I s = Ok s.
Proof. exact (c14_csc_sum_duplicates I). Qed.
End Props.

(** ** Concrete cases meeting the hypotheses *)
Definition ex_coo : Coo Z := mkCoo 3 4 [2; 0; 2; 0]%Z [1; 3; 0; 3]%Z [5; 7; 6; -7]%Z.
Definition ex_csr : CSR Z := mkCSR 3 4 [0; 3; 3; 5]%Z [3; 0; 3; 1; 0]%Z [1; 2; 3; 4; 5]%Z.
Definition ex_csc : CSC Z := mkCSC 4 3 [3; 0; 3; 1; 0]%Z [0; 3; 3; 5]%Z [1; 2; 3; 4; 5]%Z.
Example ex_coo_wf : wf_coo U8 ex_coo /\ (Z.of_nat (length (coo_values ex_coo)) < imax U8)%Z.
Proof. split; check. Qed.
Example ex_csr_wf : wf_csr I8 ex_csr /\ csr_rows_fit I8 ex_csr /\ (Z.of_nat (csr_count ex_csr) < imax I8)%Z.
Proof. split; [|split]; check. Qed.
Example ex_csc_wf : wf_csc I8 ex_csc /\ csc_cols_fit I8 ex_csc /\ (Z.of_nat (csc_count ex_csc) < imax I8)%Z.
Proof. split; [|split]; check. Qed.

Example C01_ex : Coo_to_csr U8 ex_coo = Ok (mkCSR 3 4 [0; 1; 1; 3] [3; 0; 1] [0; 6; 5])%Z.
Proof. reflexivity. Qed.
Example C02_ex : Coo_to_csc U8 ex_coo = Ok (mkCSC 3 4 [2; 2; 0] [0; 1; 2; 2; 3] [6; 5; 0])%Z.
Proof. reflexivity. Qed.
Example C03_ex : CSR_to_csc I8 ex_csr = Ok (mkCSC 3 4 [0; 2; 2; 0; 0] [0; 2; 3; 3; 5] [2; 5; 4; 1; 3])%Z.
Proof. reflexivity. Qed.
Example C04_ex : CSC_to_csr I8 ex_csc = Ok (mkCSR 4 3 [0; 2; 3; 3; 5] [0; 2; 2; 0; 0] [2; 5; 4; 1; 3])%Z.
Proof. reflexivity. Qed.
Example C05_ex : exists c, CSR_to_csc I8 ex_csr = Ok c /\
  CSC_to_csr I8 c = Ok (mkCSR 3 4 [0; 3; 3; 5] [0; 3; 3; 0; 1] [2; 1; 3; 5; 4])%Z.
Proof. eexists. split; reflexivity. Qed.
Example C08_ex : CSR_t ex_csr = Ok ex_csc /\ CSC_t ex_csc = Ok ex_csr.
Proof. split; reflexivity. Qed.
Example C11_ex : CSR_has_canonical_format I8 ex_csr = Ok false /\ ~ csr_canonical ex_csr.
Proof.
  split; [reflexivity|]. intros H. specialize (H 0 ltac:(cbn; lia)).
  change (StronglySorted lt [3; 0; 3]) in H. apply StronglySorted_inv in H. destruct H as [_ H].
  apply Forall_inv in H. lia.
Qed.
Example C12_ex : (csr_rows ex_csr = 0 \/ csr_row ex_csr 0 <> []) /\ CSR_has_sorted_indexes I8 ex_csr = Ok false.
Proof. split; [right; discriminate|reflexivity]. Qed.
Example C12_refuted_ex : let m := mkCSR 2 2 [0; 0; 1]%Z [1]%Z [7]%Z in
  wf_csr I32 m /\ csr_row m 0 = [] /\ CSR_has_sorted_indexes I32 m = Panic.
Proof. cbn zeta. split; [check|]. split; reflexivity. Qed.
Example C13_ex : CSR_sort_indexes ex_csr = Ok (mkCSR 3 4 [0; 3; 3; 5] [0; 3; 3; 0; 1] [2; 1; 3; 5; 4])%Z.
Proof. reflexivity. Qed.
Example C14_ex : CSR_sum_duplicates I8 ex_csr = Ok (mkCSR 3 4 [0; 2; 2; 4] [0; 3; 0; 1] [2; 4; 5; 4])%Z.
Proof. reflexivity. Qed.

Print Assumptions C01_coo_to_csr.
Print Assumptions C02_coo_to_csc.
Print Assumptions C03_csr_to_csc.
Print Assumptions C04_csc_to_csr.
Print Assumptions C05_csr_round_trip.
Print Assumptions C05_csc_round_trip.
Print Assumptions C08_coo_transpose.
Print Assumptions C08_csr_transpose.
Print Assumptions C08_csc_transpose.
Print Assumptions C11_csr_has_canonical_format.
Print Assumptions C11_csc_has_canonical_format.
Print Assumptions C12_csr_has_sorted_indexes.
Print Assumptions C12_csc_has_sorted_indexes.
Print Assumptions C13_csr_sort_indexes.
Print Assumptions C13_csc_sort_indexes.
Print Assumptions C14_csr_sum_duplicates.
Print Assumptions C14_csc_sum_duplicates.
