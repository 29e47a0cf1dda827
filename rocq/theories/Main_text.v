(** Proofs of the theorems of Props_text.v, under the same names in lower case. *)
From Coq Require Import String Ascii Permutation.
From Verif Require Import Rust Scalar Model_kernels Model_matrix Model_dok Model_text Spec SpecText Wp Rep LinProofs TextProofs Check.
Open Scope list_scope.

Section Text.
Context {T : Type} {SC : Scalar T}.
Variable I : ity.
(** the text of a value: any function *)
Variable show : T -> string.

Lemma c57_coo_to_string : forall m : Coo T, wf_coo I m -> Coo_to_string show m = Ok (lines (map (line show) (coo_entries m))).
Proof. intros m. apply Coo_to_string_ok. Qed.
Lemma c57_csc_to_string : forall m : CSC T, wf_csc I m -> CSC_to_string show m = Ok (lines (map (line show) (csc_entries m))).
Proof. intros m. apply CSC_to_string_ok. Qed.
Lemma c57_csr_to_string : forall m : CSR T, wf_csr I m -> CSR_to_string show m = Ok (ended (map (line show) (csr_entries m))).
Proof. intros m. apply CSR_to_string_ok. Qed.
Lemma c57_dok_to_string : forall (d : DoK T) order, wf_dok I d -> Permutation order (dok_values d) ->
  DoK_to_string show order = Ok (lines (map (line show) (map (fun e => ((Z.to_nat (fst (fst e)), Z.to_nat (snd (fst e))), snd e)) order))).
Proof.
  intros d order [_ F] P. rewrite DoK_to_string_ok, map_map. do 2 f_equal. apply map_ext_in. intros e He.
  rewrite Forall_forall in F. specialize (F e (Permutation_in _ P He)). unfold line, fmt_entry, decn. cbn [fst snd]. rewrite !Z2Nat.id by lia. reflexivity.
Qed.
Lemma c57_table : forall m : CSR T, wf_csr I m ->
  csr_table_bytes show (csr_rows m) (csr_cols m) (csr_rowptr m) (csr_colidx m) (csr_values m) false =
    Ok (table_text (csr_rows m) (csr_cols m) (fun i j => table_cell show (csr_at m i j))) /\
  csr_table_bytes show (csr_rows m) (csr_cols m) (csr_rowptr m) (csr_colidx m) (csr_values m) true =
    Ok (labelled_text (csr_rows m) (csr_cols m) (fun i j => table_cell show (csr_at m i j))).
Proof.
  intros m W. destruct (wf_csr_rep _ _ W) as [R HR]. assert (HR' := HR). destruct HR' as [L HC]. split; rewrite (csr_table_ok show I _ _ _ _ R _ _ HC L); f_equal.
  - unfold table_text, ended. cbn [append]. unfold row_end. destruct (csr_cols m =? 0).
    + generalize (seq 0 (csr_rows m)). intros l. induction l as [|a l IH]; [reflexivity|exact IH].
    + rewrite map_map. f_equal. apply map_ext. intros i. do 2 f_equal. apply map_ext. intros k. rewrite (csr_rep_at _ _ _ _ _ HR). reflexivity.
  - unfold labelled_text. rewrite !app_assocs. do 4 f_equal. apply map_ext. intros i. rewrite app_assocs. do 2 f_equal. unfold row_end. destruct (csr_cols m =? 0); [reflexivity|].
    do 2 f_equal. apply map_ext. intros k. rewrite (csr_rep_at _ _ _ _ _ HR). reflexivity.
Qed.
Lemma c57_to_table : forall align (m : CSR T), wf_csr I m ->
  exists t, CSR_to_table show align m = Ok t /\
    stripped (align (table_text (csr_rows m) (csr_cols m) (fun i j => table_cell show (csr_at m i j)))) t.
Proof. intros align m W. unfold CSR_to_table, csr_table. rewrite (proj1 (c57_table m W)). cbn [bind]. eexists. split; [reflexivity|]. apply trim_nl_stripped. Qed.

Lemma c63_coo_text_determines : forall m1 m2 : Coo T,
  (forall v w, show v = show w -> v = w) -> (forall v, one_line (show v)) -> wf_coo I m1 -> wf_coo I m2 ->
  Coo_to_string show m1 = Coo_to_string show m2 -> coo_entries m1 = coo_entries m2 /\
  (coo_rows m1 = coo_rows m2 -> coo_cols m1 = coo_cols m2 -> m1 = m2).
Proof.
  intros m1 m2 Hi Hl W1 W2. rewrite (Coo_to_string_ok show I m1 W1), (Coo_to_string_ok show I m2 W2). intros E. injection E as E.
  assert (Q : coo_entries m1 = coo_entries m2).
  { apply lines_inj in E; try (apply all_lines; exact Hl). eapply map_inj; [|exact E]. intros e f. apply line_inj, Hi. }
  split; [exact Q|]. intros Er Ec. destruct W1 as [A1 A2 A3 A4], W2 as [B1 B2 B3 B4]. unfold coo_entries in Q.
  destruct m1 as [r1 c1 ri1 ci1 v1], m2 as [r2 c2 ri2 ci2 v2]. cbn in *. subst r2 c2.
  pose proof (f_equal (map fst) Q) as Q1. pose proof (f_equal (map snd) Q) as Q2.
  rewrite !map_fst_combine in Q1 by (rewrite combine_length, !map_length; lia). rewrite !map_snd_combine in Q2 by (rewrite combine_length, !map_length; lia).
  pose proof (f_equal (map fst) Q1) as Q3. pose proof (f_equal (map snd) Q1) as Q4.
  rewrite !map_fst_combine in Q3 by (rewrite !map_length; lia). rewrite !map_snd_combine in Q4 by (rewrite !map_length; lia).
  assert (U : forall n (l k : list Z), Forall (fun z => 0 <= z < n /\ z <= imax I)%Z l -> Forall (fun z => 0 <= z < n /\ z <= imax I)%Z k -> map Z.to_nat l = map Z.to_nat k -> l = k).
  { clear. intros n l. induction l as [|a l IH]; intros [|b k] Hl Hk E; try discriminate; [reflexivity|]. inversion_clear Hl. inversion_clear Hk. injection E as E1 E2. f_equal; [apply Z2Nat.inj; lia|apply IH; assumption]. }
  rewrite (U _ _ _ A3 B3 Q3), (U _ _ _ A4 B4 Q4), Q2. reflexivity.
Qed.
Lemma c63_csr_text_determines : forall m1 m2 : CSR T,
  (forall v w, show v = show w -> v = w) -> (forall v, one_line (show v)) -> wf_csr I m1 -> wf_csr I m2 ->
  CSR_to_string show m1 = CSR_to_string show m2 -> csr_entries m1 = csr_entries m2.
Proof.
  intros m1 m2 Hi Hl W1 W2. rewrite (CSR_to_string_ok show I m1 W1), (CSR_to_string_ok show I m2 W2). intros E. injection E as E.
  apply ended_inj in E; try (apply all_lines; exact Hl). eapply map_inj; [|exact E]. intros e f. apply line_inj, Hi.
Qed.
Lemma c63_csc_text_determines : forall m1 m2 : CSC T,
  (forall v w, show v = show w -> v = w) -> (forall v, one_line (show v)) -> wf_csc I m1 -> wf_csc I m2 ->
  CSC_to_string show m1 = CSC_to_string show m2 -> csc_entries m1 = csc_entries m2.
Proof.
  intros m1 m2 Hi Hl W1 W2. rewrite (CSC_to_string_ok show I m1 W1), (CSC_to_string_ok show I m2 W2). intros E. injection E as E.
  apply lines_inj in E; try (apply all_lines; exact Hl). eapply map_inj; [|exact E]. intros e f. apply line_inj, Hi.
Qed.
End Text.
Lemma c63_integers : (forall v w, dec v = dec w -> v = w) /\ (forall v, one_line (dec v)).
Proof. split; [exact dec_inj|]. intros v. apply without_one_line, (all_without digit); [unfold digit; tauto|apply dec_digits]. Qed.

Lemma c64_complex_sign_refuted : forall {F} (dtoa : F -> string) (negative : F -> bool) re im mag,
  negative im = true -> dtoa im = ("-" ++ mag)%string ->
  complex_pretty dtoa negative re im = (dtoa re ++ "-j-" ++ mag)%string /\
  complex_pretty dtoa negative re im <> (dtoa re ++ "-j" ++ mag)%string.
Proof.
  intros F dtoa negative re im mag H E. unfold complex_pretty. rewrite H, E. split; [reflexivity|]. cbn. induction (dtoa re) as [|c s IH]; cbn.
  - intros Q. injection Q as Q. clear -Q. assert (L : String.length (String "-" mag) = String.length mag) by (f_equal; exact Q). cbn in L. lia.
  - intros Q. injection Q as Q. exact (IH Q).
Qed.
Lemma c64_complex_nonnegative : forall {F} (dtoa : F -> string) (negative : F -> bool) re im,
  negative im = false -> complex_pretty dtoa negative re im = (dtoa re ++ "+j" ++ dtoa im)%string.
Proof. intros F dtoa negative re im H. unfold complex_pretty. rewrite H. reflexivity. Qed.
