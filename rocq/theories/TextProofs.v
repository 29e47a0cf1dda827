(** Proofs about the printed forms. *)
From Coq Require Import String Ascii DecimalString DecimalZ.
From Verif Require Import Rust Scalar Model_kernels Model_matrix Model_dok Model_text Spec SpecText Wp Rep LinProofs.

Lemma app_nil_rs (a : string) : (a ++ EmptyString)%string = a.
Proof. induction a as [|c a IH]; [reflexivity|]. cbn. rewrite IH. reflexivity. Qed.
Lemma app_assocs (a b c : string) : ((a ++ b) ++ c)%string = (a ++ b ++ c)%string.
Proof. induction a as [|x a IH]; [reflexivity|]. cbn. rewrite IH. reflexivity. Qed.
Lemma cat_app l k : cat (l ++ k) = (cat l ++ cat k)%string.
Proof. induction l as [|a l IH]; [reflexivity|]. cbn. fold (cat (l ++ k)) (cat l). rewrite IH, app_assocs. reflexivity. Qed.
Lemma cat_snoc l a : cat (l ++ [a]) = (cat l ++ a)%string.
Proof. rewrite cat_app. cbn. rewrite app_nil_rs. reflexivity. Qed.
Lemma lines_snoc l a : l <> [] -> lines (l ++ [a]) = (lines l ++ nl ++ a)%string.
Proof.
  induction l as [|b l IH]; [contradiction|]. intros _. destruct l as [|c l]; [reflexivity|]. cbn [app lines] in *. rewrite IH by discriminate. rewrite !app_assocs. reflexivity.
Qed.
Definition nonempty (s : string) : Prop := s <> EmptyString.
Lemma lines_empty l : Forall nonempty l -> lines l = EmptyString -> l = [].
Proof.
  intros H E. destruct H as [|a l Ha H]; [reflexivity|]. destruct l as [|b l]; cbn in E; [contradiction|]. destruct a; [exfalso; apply Ha; reflexivity|discriminate].
Qed.
Lemma push_lines l a : Forall nonempty l -> push_line (lines l) a = lines (l ++ [a]).
Proof.
  intros H. unfold push_line. destruct (String.eqb_spec (lines l) EmptyString) as [E|E].
  - apply (lines_empty l H) in E. subst. reflexivity.
  - rewrite lines_snoc; [reflexivity|]. intros ->. apply E. reflexivity.
Qed.
Lemma fmt_nonempty i j v : nonempty (fmt_entry i j v).
Proof. discriminate. Qed.
Lemma map_fmt_nonempty {A} (f g h : A -> string) l : Forall nonempty (map (fun e => fmt_entry (f e) (g e) (h e)) l).
Proof. apply Forall_forall. intros s H. apply in_map_iff in H as (e & <- & _). apply fmt_nonempty. Qed.

Section Text.
Context {T : Type}.
Variable show : T -> string.

Lemma DoK_to_string_ok (order : list ((Z * Z) * T)) :
  DoK_to_string show order = Ok (lines (map (fun e => fmt_entry (dec (fst (fst e))) (dec (snd (fst e))) (show (snd e))) order)).
Proof.
  apply wp_eq1. unfold DoK_to_string.
  eapply (wp_for_each (fun pre buf => buf = lines (map (fun e => fmt_entry (dec (fst (fst e))) (dec (snd (fst e))) (show (snd e))) pre))).
  - reflexivity.
  - intros pre [[i j] v] post buf _ ->. apply wp_ok. rewrite push_lines by apply map_fmt_nonempty. rewrite map_app. reflexivity.
  - auto.
Qed.

Lemma Coo_to_string_ok I (m : Coo T) : wf_coo I m -> Coo_to_string show m = Ok (lines (map (line show) (coo_entries m))).
Proof.
  intros [L1 L2 F1 F2]. apply wp_eq1. unfold Coo_to_string.
  eapply (wp_for_list (fun pre buf => buf = lines (map (line show) pre)) (coo_entries m)).
  - unfold coo_entries. rewrite !combine_length, !map_length. lia.
  - reflexivity.
  - intros pre e post buf E ->. cbn [plus].
    assert (Hk : length pre < length (coo_values m)).
    { assert (Le : length (coo_entries m) = length (coo_values m)) by (unfold coo_entries; rewrite !combine_length, !map_length; lia). rewrite E, app_length in Le. cbn in Le. lia. }
    assert (Ee : nth_error (coo_entries m) (length pre) = Some e) by (rewrite E, nth_error_app2, Nat.sub_diag by lia; reflexivity).
    rewrite (vget_nth _ _ 0%Z) by lia. cbn [bind]. rewrite (vget_nth _ _ 0%Z) by lia. cbn [bind]. destruct (nth_error (coo_values m) (length pre)) as [v|] eqn:Ev; [|apply nth_error_None in Ev; lia].
    rewrite (vget_some _ _ _ Ev). cbn [bind]. apply wp_ok.
    assert (Q : e = ((Z.to_nat (nth (length pre) (coo_rowidx m) 0%Z), Z.to_nat (nth (length pre) (coo_colidx m) 0%Z)), v)).
    { unfold coo_entries in Ee. apply (nth_error_nth _ _ ((0, 0), v)) in Ee. rewrite combine_nth in Ee by (rewrite combine_length, !map_length; lia).
      rewrite combine_nth in Ee by (rewrite !map_length; lia). change 0 with (Z.to_nat 0) in Ee. rewrite !map_nth in Ee. rewrite <- Ee. f_equal. apply nth_error_nth, Ev. }
    rewrite map_app. cbn [map]. rewrite <- push_lines.
    + f_equal. subst e. unfold line, fmt_entry, decn. cbn [fst snd]. rewrite Forall_forall in F1, F2. rewrite !Z2Nat.id; [reflexivity|apply F2, nth_In; lia|apply F1, nth_In; lia].
    + apply map_fmt_nonempty with (f := fun e => decn (fst (fst e))) (g := fun e => decn (snd (fst e))) (h := fun e => show (snd e)).
  - intros s ->. reflexivity.
Qed.

Lemma CSR_to_string_ok I (m : CSR T) : wf_csr I m -> CSR_to_string show m = Ok (ended (map (line show) (csr_entries m))).
Proof.
  intros W. destruct (wf_csr_rep _ _ W) as [R HR]. apply wp_eq1. unfold CSR_to_string. rewrite (csr_entries_rep _ _ _ HR), map_map. unfold ended. rewrite map_map. destruct HR as [L HR].
  eapply (wp_flat (fun F buf => buf = cat (map (fun t => line show ((fst t, fst (snd t)), snd (snd t)) ++ nl)%string F))); [exact HR|exact L|reflexivity| |].
  - intros pre i e post buf _ M ->. rewrite (met_vj _ _ _ _ _ _ _ _ _ M). cbn [bind]. rewrite (met_vx _ _ _ _ _ _ _ _ _ M). cbn [bind]. apply wp_ok. rewrite map_app. cbn [map]. rewrite cat_snoc. reflexivity.
  - intros s ->. reflexivity.
Qed.
Lemma CSC_to_string_ok I (m : CSC T) : wf_csc I m -> CSC_to_string show m = Ok (lines (map (line show) (csc_entries m))).
Proof.
  intros W. destruct (wf_csc_rep _ _ W) as [R HR]. apply wp_eq1. unfold CSC_to_string. rewrite (csc_entries_rep _ _ _ HR), map_map. destruct HR as [L HR].
  eapply (wp_flat (fun F buf => buf = lines (map (fun t => line show ((fst (snd t), fst t), snd (snd t))) F))); [exact HR|exact L|reflexivity| |].
  - intros pre i e post buf _ M ->. rewrite (met_pj _ _ _ _ _ _ _ _ _ M). cbn [bind]. rewrite (met_vx _ _ _ _ _ _ _ _ _ M). cbn [bind]. apply wp_ok. rewrite map_app. cbn [map].
    rewrite push_lines; [reflexivity|]. apply map_fmt_nonempty with (f := fun t => decn (fst (snd t))) (g := fun t => decn (fst t)) (h := fun t => show (snd (snd t))).
  - intros s ->. reflexivity.
Qed.

(** *** tables *)
(** the last entry of a row under each column *)
Fixpoint numbered (k : nat) (r : list (nat * T)) : list (nat * nat) :=
  match r with [] => [] | e :: r' => (fst e, k) :: numbered (S k) r' end.
Lemma cols_get_spec c : forall r k m, cols_get (rev (numbered k r) ++ m) c =
  match at_ c r with [] => cols_get m c | v :: l => cols_get (rev (numbered k r)) c end.
Proof.
  intros r. induction r as [|e r IH]; intros k m; [reflexivity|]. cbn [numbered rev]. rewrite <- app_assoc. cbn [app]. rewrite !IH. rewrite at_cons. cbn [cols_get].
  destruct (at_ c r) as [|v l]; destruct (Nat.eqb_spec (fst e) c); cbn [app]; try reflexivity; rewrite IH; reflexivity.
Qed.
Lemma last_cons {A} (l : list A) : forall v d, last (v :: l) d = last l v.
Proof. induction l as [|a l IH]; intros v d; [reflexivity|]. change (last (v :: a :: l) d) with (last (a :: l) d). rewrite !IH. reflexivity. Qed.
Lemma cols_get_val c (x : list T) : forall r k, (forall q e, nth_error r q = Some e -> vget x (k + q) = Ok (snd e)) ->
  match cols_get (rev (numbered k r)) c with
  | None => at_ c r = []
  | Some ii => exists v l, at_ c r = v :: l /\ vget x ii = Ok (last l v)
  end.
Proof.
  intros r. induction r as [|e r IH]; intros k H; [reflexivity|]. cbn [numbered rev]. rewrite cols_get_spec, at_cons.
  assert (H' : forall q e0, nth_error r q = Some e0 -> vget x (S k + q) = Ok (snd e0)).
  { intros q e0 E. replace (S k + q) with (k + S q) by lia. apply H. exact E. }
  specialize (IH (S k) H'). destruct (at_ c r) as [|v l] eqn:A.
  - cbn [cols_get]. destruct (Nat.eqb_spec (fst e) c).
    + exists (snd e), []. split; [reflexivity|]. specialize (H 0 e eq_refl). rewrite Nat.add_0_r in H. exact H.
    + reflexivity.
  - destruct (cols_get _ c) as [ii|]; [|discriminate]. destruct IH as (v' & l' & E & G). injection E as <- <-.
    destruct (fst e =? c); cbn [app]; [|exists v, l; split; [reflexivity|exact G]].
    exists (snd e), (v :: l). split; [reflexivity|]. rewrite G, last_cons. reflexivity.
Qed.
Lemma numbered_app k r e : numbered k (r ++ [e]) = numbered k r ++ [(fst e, k + length r)].
Proof. revert k. induction r as [|a r IH]; intros k; cbn; [rewrite Nat.add_0_r; reflexivity|]. rewrite IH. replace (S k + length r) with (k + S (length r)) by lia. reflexivity. Qed.

Definition row_end (c : nat) (f : nat -> string) : string := if c =? 0 then EmptyString else (tabbed (map f (seq 0 c)) ++ nl)%string.
Lemma tabbed_snoc l a : tabbed (l ++ [a]) = (tabbed l ++ a ++ tab)%string.
Proof. unfold tabbed. rewrite map_app. cbn [map]. apply cat_snoc. Qed.

Lemma csr_table_ok I c p j (x : list T) R n label : crep I c p j x R -> length R = n ->
  csr_table_bytes show n c p j x label =
  Ok ((if label then tab ++ tabbed (map decn (seq 0 c)) ++ nl else EmptyString) ++
      cat (map (fun i => (if label then decn i ++ tab else EmptyString) ++ row_end c (fun k => table_cell show (at_ k (nth i R [])))) (seq 0 n)))%string.
Proof.
  intros H L. apply wp_eq1. unfold csr_table_bytes. apply wp_bind.
  apply (wp_mono _ (fun s => s = if label then (tab ++ tabbed (map decn (seq 0 c)) ++ nl)%string else EmptyString)).
  { destruct label; [|apply wp_ok; reflexivity]. apply wp_bind.
    eapply (wp_for (fun k s => s = (tab ++ tabbed (map decn (seq 0 k)))%string)); [lia|reflexivity| |].
    - intros k s _ ->. apply wp_ok. rewrite seq_S, map_app. cbn [map plus]. rewrite tabbed_snoc, !app_assocs. reflexivity.
    - intros s ->. apply wp_ok. rewrite !app_assocs. reflexivity. }
  intros s0 ->. set (hd := if label then _ else _).
  eapply (wp_for_list (fun pre s => s = (hd ++ cat (map (fun i => (if label then decn i ++ tab else EmptyString) ++ row_end c (fun k => table_cell show (at_ k (nth i R [])))) (seq 0 (length pre))))%string) R).
  - symmetry. exact L.
  - cbn. rewrite app_nil_rs. reflexivity.
  - intros pre r post s ER ->. cbn [plus]. rewrite (crep_start H ER). cbn [bind]. rewrite (crep_end H ER). cbn [bind]. apply wp_bind.
    eapply (wp_for_list (fun ip m => m = rev (numbered (length (concat pre)) ip)) r); [reflexivity|reflexivity| |].
    { intros ip e iq m Er ->. rewrite (crep_pj H ER Er). cbn [bind]. apply wp_ok. rewrite numbered_app, rev_app_distr. reflexivity. }
    intros m ->. set (s1 := if label then _ else _).
    assert (V : forall q e, nth_error r q = Some e -> vget x (length (concat pre) + q) = Ok (snd e)).
    { intros q e Eq. apply nth_error_split in Eq as (ip & iq & Er & <-). exact (crep_vx H ER Er). }
    assert (Rn : nth (length pre) R [] = r) by (rewrite ER; apply nth_middle).
    eapply (wp_for (fun k s => s = (s1 ++ (if ((0 <? k) && (k =? c))%nat%bool then tabbed (map (fun k => table_cell show (at_ k r)) (seq 0 k)) ++ nl else tabbed (map (fun k => table_cell show (at_ k r)) (seq 0 k))))%string)); [lia| | |].
    + cbn. rewrite app_nil_rs. reflexivity.
    + intros k s Hk ->. pose proof (cols_get_val k x r _ V) as G. destruct (Nat.eqb_spec k c); [lia|]. rewrite andb_false_r.
      assert (W : wp (match cols_get (rev (numbered (length (concat pre)) r)) k with
                  | None => Ok ((s1 ++ tabbed (map (fun k => table_cell show (at_ k r)) (seq 0 k))) ++ "-")%string
                  | Some ii => let* v := vget x ii in Ok ((s1 ++ tabbed (map (fun k => table_cell show (at_ k r)) (seq 0 k))) ++ show v)%string
                  end) (fun s => s = (s1 ++ tabbed (map (fun k => table_cell show (at_ k r)) (seq 0 k)) ++ table_cell show (at_ k r))%string)).
      { destruct (cols_get _ k) as [ii|].
        - destruct G as (v & l & -> & ->). cbn [bind]. apply wp_ok. rewrite app_assocs. reflexivity.
        - rewrite G. apply wp_ok. rewrite app_assocs. reflexivity. }
      apply wp_bind. eapply wp_mono; [exact W|]. clear W. intros s ->. rewrite usub_ok by lia. cbn [bind]. apply wp_ok. rewrite seq_S, map_app. cbn [map plus]. rewrite tabbed_snoc. cbn [Nat.ltb Nat.leb andb].
      destruct (Nat.eqb_spec k (c - 1)), (Nat.eqb_spec (S k) c); try lia; rewrite !app_assocs; reflexivity.
    + intros s ->. rewrite app_length. cbn [length]. rewrite Nat.add_1_r, seq_S, map_app. cbn [map plus]. rewrite cat_snoc, Rn.
      assert (RE : (if ((0 <? c) && (c =? c))%nat%bool then tabbed (map (fun k => table_cell show (at_ k r)) (seq 0 c)) ++ nl else tabbed (map (fun k => table_cell show (at_ k r)) (seq 0 c)))%string = row_end c (fun k => table_cell show (at_ k r))).
      { unfold row_end. rewrite Nat.eqb_refl. destruct c; reflexivity. }
      rewrite RE. unfold s1. destruct label; rewrite !app_assocs; reflexivity.
  - intros s ->. rewrite L. reflexivity.
Qed.
End Text.

(** ** Reading a text back *)
Fixpoint without (c : ascii) (s : string) : Prop := match s with EmptyString => True | String d s' => d <> c /\ without c s' end.
Lemma without_app c a b : without c (a ++ b) <-> without c a /\ without c b.
Proof. induction a as [|d a IH]; cbn; [tauto|]. rewrite IH. tauto. Qed.
Lemma split_at c a b x y : without c a -> without c b -> (a ++ String c x = b ++ String c y)%string -> a = b /\ x = y.
Proof.
  revert b. induction a as [|d a IH]; intros [|e b] Ha Hb E; cbn in *.
  - injection E as ->. split; reflexivity.
  - injection E as -> _. exfalso. apply (proj1 Hb). reflexivity.
  - injection E as -> _. exfalso. apply (proj1 Ha). reflexivity.
  - injection E as -> E. destruct (IH b (proj2 Ha) (proj2 Hb) E) as [-> ->]. split; reflexivity.
Qed.
Lemma one_line_without s : one_line s -> without "010"%char s.
Proof. induction s; cbn; tauto. Qed.
Lemma ended_inj l : forall k, Forall one_line l -> Forall one_line k -> ended l = ended k -> l = k.
Proof.
  induction l as [|a l IH]; intros [|b k] Hl Hk E; try reflexivity.
  - exfalso. cbn in E. destruct b; discriminate.
  - exfalso. cbn in E. destruct a; discriminate.
  - unfold ended in E. cbn [map cat fold_right] in E. inversion_clear Hl. inversion_clear Hk. rewrite !app_assocs in E. apply split_at in E as [-> E]; [|apply one_line_without; assumption..].
    f_equal. apply IH; assumption.
Qed.
Lemma lines_ended l : l <> [] -> (lines l ++ nl)%string = ended l.
Proof.
  induction l as [|a l IH]; [contradiction|]. intros _. destruct l as [|b l]; [cbn; rewrite app_nil_rs; reflexivity|]. change (lines (a :: b :: l)) with (a ++ nl ++ lines (b :: l))%string. rewrite !app_assocs, IH by discriminate. unfold ended. cbn [map cat fold_right]. rewrite !app_assocs. reflexivity.
Qed.
Lemma lines_inj l k : Forall nonempty l -> Forall nonempty k -> Forall one_line l -> Forall one_line k -> lines l = lines k -> l = k.
Proof.
  intros N1 N2 H1 H2 E. destruct l as [|a l]; [symmetry; apply lines_empty; auto|]. destruct k as [|b k]; [apply lines_empty; auto|].
  apply ended_inj; try assumption. rewrite <- !lines_ended by discriminate. rewrite E. reflexivity.
Qed.

Definition digit (c : ascii) : Prop := c <> ","%char /\ c <> ")"%char /\ c <> "010"%char.
Fixpoint all (P : ascii -> Prop) (s : string) : Prop := match s with EmptyString => True | String d s' => P d /\ all P s' end.
Lemma uint_digits d : all digit (NilEmpty.string_of_uint d).
Proof. induction d; cbn; unfold digit; repeat split; try discriminate; assumption. Qed.
Lemma dec_digits z : all digit (dec z).
Proof.
  unfold dec, NilZero.string_of_int, NilZero.string_of_uint. destruct (Z.to_int z) as [d|d].
  - destruct d; try apply uint_digits. cbn. unfold digit. repeat split; discriminate.
  - cbn. split; [unfold digit; repeat split; discriminate|]. destruct d; try apply uint_digits. cbn. unfold digit. repeat split; discriminate.
Qed.
Lemma all_without (P : ascii -> Prop) c s : (forall d, P d -> d <> c) -> all P s -> without c s.
Proof. intros H. induction s as [|d s IH]; cbn; [tauto|]. intros [Hd Hs]. auto. Qed.
Lemma dec_inj a b : dec a = dec b -> a = b.
Proof.
  assert (K : forall z, NilZero.int_of_string (dec z) = Some (Z.to_int z)).
  { intros z. apply NilZero.isi; destruct z; cbn; try discriminate; intros E; injection E; apply DecimalPos.Unsigned.to_uint_nonnil. }
  intros E. apply DecimalZ.to_int_inj. pose proof (K a) as Ka. rewrite E, K in Ka. congruence.
Qed.
Lemma line_inj {T} (show : T -> string) e f : (forall v w, show v = show w -> v = w) -> line show e = line show f -> e = f.
Proof.
  intros Hs E. destruct e as [[i j] v], f as [[i' j'] v']. unfold line in E. cbn [fst snd] in E. cbn [append] in E. injection E as E.
  apply (split_at ","%char) in E as [E1 E]; [|apply (all_without digit); [unfold digit; tauto|apply dec_digits]..]. injection E as E.
  apply (split_at ")"%char) in E as [E2 E]; [|apply (all_without digit); [unfold digit; tauto|apply dec_digits]..]. injection E as E.
  apply Hs in E. apply dec_inj in E1, E2. apply Nat2Z.inj in E1, E2. congruence.
Qed.
Lemma without_one_line s : without "010"%char s -> one_line s.
Proof. induction s; cbn; tauto. Qed.
Lemma line_one {T} (show : T -> string) e : (forall v, one_line (show v)) -> one_line (line show e).
Proof.
  intros H. apply without_one_line. unfold line. rewrite !without_app. assert (D : forall n, without "010"%char (decn n)) by (intros n; apply (all_without digit); [unfold digit; tauto|apply dec_digits]).
  repeat split; try discriminate; auto. apply one_line_without, H.
Qed.
Lemma map_inj {A B} (f : A -> B) l : (forall a b, f a = f b -> a = b) -> forall k, map f l = map f k -> l = k.
Proof. intros H. induction l as [|a l IH]; intros [|b k] E; try discriminate; [reflexivity|]. injection E as E1 E2. apply H in E1. subst. f_equal. apply IH, E2. Qed.
Lemma all_lines {T} (show : T -> string) l : (forall v, one_line (show v)) -> Forall one_line (map (line show) l) /\ Forall nonempty (map (line show) l).
Proof.
  intros H. split; apply Forall_forall; intros s Hs; apply in_map_iff in Hs as (e & <- & _); [apply line_one, H|discriminate].
Qed.

(** trimming *)
Lemma app_nl_end : forall u c s, (String c s = u ++ nl)%string -> s = EmptyString /\ c = "010"%char \/ exists u', (s = u' ++ nl)%string.
Proof. intros [|d u] c s E; cbn in E; injection E as E1 E2; [left; auto|right; exists u; exact E2]. Qed.
Lemma nl_not_empty : forall u, (EmptyString = u ++ nl)%string -> False.
Proof. intros [|d u] E; discriminate E. Qed.
Lemma trim_nl_stripped : forall s, stripped s (trim_nl s).
Proof.
  induction s as [|c s [(k & IH) IN]].
  - split; [exists 0; reflexivity|]. intros [u E]. exact (nl_not_empty _ E).
  - cbn [trim_nl]. destruct (trim_nl s) as [|d r] eqn:Et.
    + cbn [append] in IH. destruct (c =? "010")%char eqn:Ec.
      * apply Ascii.eqb_eq in Ec. subst c. split; [exists (S k); rewrite IH; reflexivity|]. intros [u E]. exact (nl_not_empty _ E).
      * apply Ascii.eqb_neq in Ec. split; [exists k; rewrite IH; reflexivity|]. intros [u E]. apply app_nl_end in E. destruct E as [[_ E]|[u' E]]; [contradiction|exact (nl_not_empty _ E)].
    + split; [exists k; rewrite IH; reflexivity|]. intros [u E]. apply app_nl_end in E. destruct E as [[E _]|E]; [discriminate E|exact (IN E)].
Qed.
