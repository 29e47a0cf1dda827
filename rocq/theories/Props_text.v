(** Printed forms: C57, C63, C64. *)
From Coq Require Import String Ascii Permutation.
From Verif Require Import Rust Scalar Model_kernels Model_matrix Model_dok Model_text Spec SpecText Wp Check Main_text.
Open Scope list_scope.

Section Text.
Context {T : Type} {SC : Scalar T}.
Variable I : ity.
(** the text of a value: any function *)
Variable show : T -> string.

(** C57: one line per stored entry, in storage order; coordinate and CSC matrices with line breaks between the lines ... *)
Theorem C57_coo_to_string : forall m : Coo T, wf_coo I m -> Coo_to_string show m = Ok (lines (map (line show) (coo_entries m))).
Proof. exact (c57_coo_to_string I show). Qed.
Theorem C57_csc_to_string : forall m : CSC T, wf_csc I m -> CSC_to_string show m = Ok (lines (map (line show) (csc_entries m))).
Proof. exact (c57_csc_to_string I show). Qed.
(** ... CSR matrices with a line break after each line *)
Theorem C57_csr_to_string : forall m : CSR T, wf_csr I m -> CSR_to_string show m = Ok (ended (map (line show) (csr_entries m))).
Proof. exact (c57_csr_to_string I show). Qed.
(** the dictionary: one line per key, in the order in which the map is walked *)
Theorem C57_dok_to_string : forall (d : DoK T) order, wf_dok I d -> Permutation order (dok_values d) ->
  DoK_to_string show order = Ok (lines (map (line show) (map (fun e => ((Z.to_nat (fst (fst e)), Z.to_nat (snd (fst e))), snd e)) order))).
Proof. exact (c57_dok_to_string I show). Qed.
(** The table: for each row one cell per column, each ended by a tab, and a line break; the cell is a dash where
    nothing is stored and otherwise the text of the (last) value stored there. *)
Theorem C57_table : forall m : CSR T, wf_csr I m ->
  csr_table_bytes show (csr_rows m) (csr_cols m) (csr_rowptr m) (csr_colidx m) (csr_values m) false =
    Ok (table_text (csr_rows m) (csr_cols m) (fun i j => table_cell show (csr_at m i j))) /\
  csr_table_bytes show (csr_rows m) (csr_cols m) (csr_rowptr m) (csr_colidx m) (csr_values m) true =
    Ok (labelled_text (csr_rows m) (csr_cols m) (fun i j => table_cell show (csr_at m i j))).
Proof. exact (c57_table I show). Qed.
(** [to_table] is that table, aligned, without the line breaks at its end *)
Theorem C57_to_table : forall align (m : CSR T), wf_csr I m ->
  exists t, CSR_to_table show align m = Ok t /\
    stripped (align (table_text (csr_rows m) (csr_cols m) (fun i j => table_cell show (csr_at m i j)))) t.
Proof. exact (c57_to_table I show). Qed.

(** C63: the text determines the entries: if different values have different texts, none with a line break inside,
    then matrices with the same text have the same entries in the same order. *)
Theorem C63_coo_text_determines : forall m1 m2 : Coo T,
  (forall v w, show v = show w -> v = w) -> (forall v, one_line (show v)) -> wf_coo I m1 -> wf_coo I m2 ->
  Coo_to_string show m1 = Coo_to_string show m2 -> coo_entries m1 = coo_entries m2 /\
  (coo_rows m1 = coo_rows m2 -> coo_cols m1 = coo_cols m2 -> m1 = m2).
Proof. exact (c63_coo_text_determines I show). Qed.
Theorem C63_csr_text_determines : forall m1 m2 : CSR T,
  (forall v w, show v = show w -> v = w) -> (forall v, one_line (show v)) -> wf_csr I m1 -> wf_csr I m2 ->
  CSR_to_string show m1 = CSR_to_string show m2 -> csr_entries m1 = csr_entries m2.
Proof. exact (c63_csr_text_determines I show). Qed.
Theorem C63_csc_text_determines : forall m1 m2 : CSC T,
  (forall v w, show v = show w -> v = w) -> (forall v, one_line (show v)) -> wf_csc I m1 -> wf_csc I m2 ->
  CSC_to_string show m1 = CSC_to_string show m2 -> csc_entries m1 = csc_entries m2.
Proof. exact (c63_csc_text_determines I show). Qed.
End Text.
(** The decimal text of the integer types meets the hypotheses of C63. *)
Theorem C63_integers : (forall v w, dec v = dec w -> v = w) /\ (forall v, one_line (dec v)).
Proof. exact c63_integers. Qed.

(** C64 (refuted): a complex value with negative imaginary part should print a single minus sign before its magnitude.
    Whenever the text of the imaginary part starts with its own sign, as for every negative number, the printed form
    carries both signs around the j. *)
Theorem C64_complex_sign_refuted : forall {F} (dtoa : F -> string) (negative : F -> bool) re im mag,
  negative im = true -> dtoa im = ("-" ++ mag)%string ->
  complex_pretty dtoa negative re im = (dtoa re ++ "-j-" ++ mag)%string /\
  complex_pretty dtoa negative re im <> (dtoa re ++ "-j" ++ mag)%string.
Proof. exact @c64_complex_sign_refuted. Qed.
(** For the other values the form is as documented. *)
Theorem C64_complex_nonnegative : forall {F} (dtoa : F -> string) (negative : F -> bool) re im,
  negative im = false -> complex_pretty dtoa negative re im = (dtoa re ++ "+j" ++ dtoa im)%string.
Proof. exact @c64_complex_nonnegative. Qed.

(** ** Concrete cases: a duplicate at (0, 1), an empty row *)
Definition ex_t : CSR Z := mkCSR 3 3 [0; 3; 3; 4]%Z [0; 1; 1; 2]%Z [5; -4; 6; 12]%Z.
Example C57_ex : wf_csr I8 ex_t /\ CSR_to_string dec ex_t = Ok ("(0, 0) 5" ++ nl ++ "(0, 1) -4" ++ nl ++ "(0, 1) 6" ++ nl ++ "(2, 2) 12" ++ nl)%string.
Proof. split; [check|reflexivity]. Qed.
Example C57_coo_ex : let m := mkCoo 12 2 [11; 0]%Z [1; 0]%Z [7; -30]%Z in wf_coo I8 m /\ Coo_to_string dec m = Ok ("(11, 1) 7" ++ nl ++ "(0, 0) -30")%string.
Proof. split; [check|reflexivity]. Qed.
Example C57_csc_ex : let m := mkCSC 3 2 [2; 0; 1]%Z [0; 2; 3]%Z [7; 8; 9]%Z in wf_csc I8 m /\ CSC_to_string dec m = Ok ("(2, 0) 7" ++ nl ++ "(0, 0) 8" ++ nl ++ "(1, 1) 9")%string.
Proof. split; [check|reflexivity]. Qed.
Example C57_table_ex : csr_table_bytes dec 3 3 (csr_rowptr ex_t) (csr_colidx ex_t) (csr_values ex_t) false =
  Ok ("5" ++ tab ++ "6" ++ tab ++ "-" ++ tab ++ nl ++ "-" ++ tab ++ "-" ++ tab ++ "-" ++ tab ++ nl ++ "-" ++ tab ++ "-" ++ tab ++ "12" ++ tab ++ nl)%string /\
  CSR_to_table dec (fun s => s) ex_t =
  Ok ("5" ++ tab ++ "6" ++ tab ++ "-" ++ tab ++ nl ++ "-" ++ tab ++ "-" ++ tab ++ "-" ++ tab ++ nl ++ "-" ++ tab ++ "-" ++ tab ++ "12" ++ tab)%string.
Proof. split; reflexivity. Qed.
Example C57_labelled_ex : csr_table_bytes dec 1 2 [0; 1]%Z [1]%Z [8]%Z true = Ok (tab ++ "0" ++ tab ++ "1" ++ tab ++ nl ++ "0" ++ tab ++ "-" ++ tab ++ "8" ++ tab ++ nl)%string.
Proof. reflexivity. Qed.
Example C63_ex : let m := mkCSR 3 3 [0; 3; 3; 4]%Z [0; 1; 1; 2; 0]%Z [5; -4; 6; 12; 99]%Z in
  wf_csr I8 m /\ CSR_to_string dec m = CSR_to_string dec ex_t /\ csr_entries m = [((0, 0), 5%Z); ((0, 1), (-4)%Z); ((0, 1), 6%Z); ((2, 2), 12%Z)].
Proof. cbv zeta. split; [check|]. split; reflexivity. Qed.
Example C64_ex : complex_pretty dec (fun z => z <? 0)%Z 1%Z (-2)%Z = "1-j-2"%string.
Proof. reflexivity. Qed.

Print Assumptions C57_coo_to_string.
Print Assumptions C57_csc_to_string.
Print Assumptions C57_csr_to_string.
Print Assumptions C57_dok_to_string.
Print Assumptions C57_table.
Print Assumptions C57_to_table.
Print Assumptions C63_coo_text_determines.
Print Assumptions C63_csr_text_determines.
Print Assumptions C63_csc_text_determines.
Print Assumptions C63_integers.
Print Assumptions C64_complex_sign_refuted.
Print Assumptions C64_complex_nonnegative.
