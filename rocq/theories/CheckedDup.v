(** When summing up duplicates overflows. *)
From Verif Require Import Rust Debug Scalar Model_kernels Model_matrix Model_dok Model_checked Spec SpecChecked Wp Rep ScatterProofs CanonProofs
  ConvProofs LinProofs Lin2Proofs ArithProofs BlockProofs Main_boundary Main_addition BinopExact CheckedProofs CheckedExact.

Section Dup.
Context {T : Type} {SC : Scalar T} {CK : Checked T} {L : CheckedLaw True T}.
Implicit Types R : list (list (nat * T)).

Fixpoint sumo (k : nat) (v : T) (r : list (nat * T)) : Prop :=
  match r with
  | [] => False
  | (k', v') :: r' => if k' =? k then cadd v v' = Panic \/ sumo k (sadd v v') r' else sumo k' v' r'
  end.
Definition row_ov (r : list (nat * T)) : Prop := match r with [] => False | (k, v) :: r' => sumo k v r' end.

Lemma dup_ov_nil : ~ dup_overflows (T := T) [].
Proof. intros (u & p & v & q & E & _). discriminate. Qed.
Lemma dup_ov_one (v : T) : ~ dup_overflows [v].
Proof. intros (u & p & w & q & E & _). injection E as _ E. destruct p; discriminate. Qed.
Lemma dup_ov_cons (v w : T) l : dup_overflows (v :: w :: l) <-> cadd v w = Panic \/ dup_overflows (sadd v w :: l).
Proof.
  split.
  - intros (u & p & x & q & E & H). injection E as -> E. destruct p as [|y p]; injection E as -> E.
    + left. exact H.
    + right. exists (sadd u y), p, x, q. split; [rewrite E; reflexivity|exact H].
  - intros [H|(u & p & x & q & E & H)].
    + exists v, [], w, l. split; [reflexivity|exact H].
    + injection E as <- ->. exists v, (w :: p), x, q. split; [reflexivity|exact H].
Qed.
Lemma sumo_at r : forall k v, sorted_row ((k, v) :: r) -> sumo k v r <-> exists q, dup_overflows (at_ q ((k, v) :: r)).
Proof.
  induction r as [|[k' v'] r IH]; intros k v Hs; cbn [sumo].
  - split; [intros []|]. intros (q & H). rewrite at_cons in H. cbn [fst snd] in H. destruct (k =? q); [apply (dup_ov_one v H)|apply (dup_ov_nil H)].
  - apply sorted_cons_inv in Hs as [S1 M1]. destruct (Nat.eqb_spec k' k) as [->|D].
    + rewrite IH.
      2:{ apply sorted_cons_inv in S1 as [S2 M2]. constructor; [exact S2|]. apply Forall_forall. exact M2. }
      assert (Q : forall q, dup_overflows (at_ q ((k, v) :: (k, v') :: r)) <-> (q = k /\ cadd v v' = Panic) \/ dup_overflows (at_ q ((k, sadd v v') :: r))).
      { intros q. rewrite !at_cons. cbn [fst snd]. destruct (Nat.eqb_spec k q) as [->|D].
        - cbn [app]. rewrite dup_ov_cons. tauto.
        - split; [tauto|]. intros [[E _]|H]; [congruence|exact H]. }
      split.
      * intros [H|[q H]]; [exists k|exists q]; apply Q; auto.
      * intros [q H]. apply Q in H as [[_ H]|H]; [left; exact H|right; exists q; exact H].
    + rewrite IH by exact S1.
      assert (N : at_ k ((k', v') :: r) = []).
      { apply at_not_in. intros [E|Hi]; cbn [fst] in *; [congruence|].
        apply sorted_cons_inv in S1 as [S2 M2]. specialize (M2 _ Hi). specialize (M1 k' (or_introl eq_refl)). cbn in *. lia. }
      split.
      * intros [q H]. exists q. rewrite at_cons. cbn [fst snd]. destruct (Nat.eqb_spec k q) as [->|]; [|exact H].
        rewrite N in H. destruct (dup_ov_nil H).
      * intros [q H]. exists q. rewrite at_cons in H. cbn [fst snd] in H. destruct (Nat.eqb_spec k q) as [->|]; [|exact H].
        rewrite N in H. destruct (dup_ov_one v H).
Qed.
Lemma row_ov_at r : sorted_row r -> row_ov r <-> exists q, dup_overflows (at_ q r).
Proof.
  destruct r as [|[k v] r]; intros H; cbn [row_ov]; [|apply sumo_at, H].
  split; [intros []|]. intros [q G]. apply (dup_ov_nil G).
Qed.
Lemma sortn_ov r : row_ov (sortn r) <-> exists q, dup_overflows (at_ q r).
Proof. rewrite row_ov_at by apply sortn_sorted. split; intros [q H]; exists q; rewrite at_sortn in *; exact H. Qed.
Lemma canonical_no_ov r : canonical_row r -> ~ exists q, dup_overflows (at_ q r).
Proof.
  intros H [q G]. assert (E : canon r = r) by (apply canon_id, H). assert (D : at_ q r = dup_sum (at_ q r)) by (rewrite <- at_canon, E; reflexivity).
  destruct (at_ q r) as [|v l]; [apply (dup_ov_nil G)|]. cbn in D. injection D as _ ->. apply (dup_ov_one v G).
Qed.

Lemma sumdup_pw (P : Prop) I n c p j (x : list T) R : crep I c p j x R -> length R = n -> (forall r, In r R -> row_ov r -> P) ->
  pw P (csr_sum_duplicates_ck I n c p j x) (fun _ => forall r, In r R -> ~ row_ov r).
Proof.
  intros H Ln HP. unfold csr_sum_duplicates_ck. apply pw_bind.
  eapply (pw_for_list P (fun pre '(p', j', x', nnz, re) => cstate sum_adj p j x pre p' j' x' nnz re /\ forall r, In r pre -> ~ row_ov r) R);
    [exact (eq_sym Ln)| | |].
  - split; [eapply cstate_init; exact H|intros r []].
  - intros pre r post [[[[p1 j1] x1] nnz] re] ER [Hc Hov]. cbn [plus].
    assert (Hend : pget p1 (length pre + 1) = Ok (length (concat pre) + length r)).
    { destruct Hc as (_ & _ & _ & _ & _ & _ & Hp2 & _). pose proof (crep_end H ER) as G.
      unfold pget, vget in *. rewrite Hp2 by lia. exact G. }
    assert (HrP : row_ov r -> P) by (apply HP; rewrite ER; apply in_or_app; right; left; reflexivity).
    rewrite Hend. cbn [bind]. apply pw_bind.
    eapply (pw_while P (fun '(jj, j2, x2, nnz2) => exists d0 d o, r = d0 ++ d /\ sum_adj r = o ++ sum_adj d /\
        rstate sum_adj j x pre r o d jj j2 x2 nnz2 /\ (row_ov r <-> row_ov d))
      (fun '(jj, _, _, _) => length (concat pre) + length r - jj)).
    + lia.
    + exists [], r, []. split; [reflexivity|]. split; [reflexivity|]. split; [|reflexivity].
      eapply rstate_init; [apply sum_adj_length|exact Hc].
    + intros [[[jj j2] x2] nnz2] (d0 & d & o & Er & Es & Hr & Ho).
      apply pw_ok. destruct d as [|[k v] d].
      { assert (Hjj : jj = length (concat pre) + length r) by (destruct Hr as (_ & _ & Hjj & _); cbn in Hjj; lia).
        rewrite Hjj, Nat.ltb_irrefl. cbv beta iota. cbn in Es. rewrite app_nil_r in Es.
        rewrite <- Es in Hr.
        edestruct (cstate_next sum_adj) as (G1 & G2 & G3); [exact H|exact ER|exact Hc|exact Hr|].
        rewrite ifrom_ok by exact G1. cbn [bind]. rewrite vset_ok by exact G2. cbn [bind]. apply pw_ok. split; [exact G3|].
        intros r' Hr'. apply in_app_or in Hr' as [Hr'|[<-|[]]]; [apply Hov, Hr'|]. rewrite Ho. cbn. tauto. }
      destruct (rstate_read _ _ _ _ _ _ _ _ _ _ _ _ _ _ _ _ _ _ H ER Er Hr) as (Ejj & G1 & G2 & G3 & G4).
      assert (Hlr : length r = length d0 + S (length d)) by (rewrite Er, app_length; reflexivity).
      destruct (Nat.ltb_spec jj (length (concat pre) + length r)); [|lia].
      rewrite G1. cbn [bind]. rewrite G2. cbn [bind fst snd].
      apply pw_bind.
      eapply (pw_while P (fun '(jj', x') => exists e f, d = e ++ f /\ jj' = jj + 1 + length e /\
          sum_adj ((k, v) :: d) = suma k x' f /\ (row_ov r <-> sumo k x' f))
        (fun '(jj', _) => length (concat pre) + length r - jj')).
      * lia.
      * exists [], d. split; [reflexivity|]. split; [cbn; lia|]. split; [reflexivity|exact Ho].
      * intros [jj' x'] (e & f & Ed & Ejj' & Ef & Hof).
        assert (Hld : length d = length e + length f) by (rewrite Ed, app_length; reflexivity).
        destruct f as [|[k' v'] f].
        { destruct (Nat.ltb_spec jj' (length (concat pre) + length r)); [cbn in Hld; lia|].
          apply pw_ok. rewrite vset_ok by exact G3. cbn [bind]. rewrite vset_ok by exact G4. cbn [bind]. apply pw_ok.
          split; [|cbn in Hld; lia].
          exists r, [], (o ++ [(k, x')]). split; [symmetry; apply app_nil_r|]. split.
          { rewrite Es, Ef. cbn. rewrite app_nil_r. reflexivity. }
          split; [|exact Hof].
          eapply rstate_emit; try eassumption; cbn in *; lia. }
        destruct (Nat.ltb_spec jj' (length (concat pre) + length r)); [|cbn in Hld; lia].
        assert (Er2 : r = (d0 ++ (k, v) :: e) ++ (k', v') :: f) by (rewrite Er, Ed, <- app_assoc; reflexivity).
        assert (Ejj2 : jj' = length (concat pre) + length (d0 ++ (k, v) :: e)) by (rewrite app_length; cbn; lia).
        pose proof Hr as Hr0. destruct Hr as (Lj & Lx & _ & Hn & Hle & _ & Hj & Hx).
        rewrite Hj by lia. rewrite Ejj2 at 1. rewrite (crep_vj H ER Er2). cbn [bind fst].
        apply pw_ok. destruct (Z.eqb_spec (Z.of_nat k') (Z.of_nat k)) as [Ek|Ek].
        -- rewrite Hx by lia. rewrite Ejj2 at 1. rewrite (crep_vx H ER Er2). cbn [bind snd].
           assert (Ekn : (k' =? k) = true) by (apply Nat.eqb_eq; lia). cbn [sumo] in Hof. rewrite Ekn in Hof.
           destruct (cadd_or x' v') as [Ea|Ea]; rewrite Ea; cbn [bind].
           { apply pw_panic, HrP, Hof. left. exact Ea. }
           apply pw_ok. split; [|lia]. exists (e ++ [(k', v')]), f. rewrite <- app_assoc, app_length. cbn [length].
           split; [exact Ed|]. split; [lia|]. split.
           { rewrite Ef. cbn. rewrite Ekn. reflexivity. }
           rewrite Hof, Ea. split; [intros [Q|Q]; [discriminate|exact Q]|auto].
        -- rewrite vset_ok by exact G3. cbn [bind]. rewrite vset_ok by exact G4. cbn [bind]. apply pw_ok.
           split; [|lia]. exists (d0 ++ (k, v) :: e), ((k', v') :: f), (o ++ [(k, x')]). split; [exact Er2|].
           assert (Ekn : (k' =? k) = false) by (apply Nat.eqb_neq; lia). split.
           { rewrite Es, Ef, <- app_assoc. cbn. rewrite Ekn. reflexivity. }
           cbn [sumo] in Hof. rewrite Ekn in Hof. split; [|exact Hof].
           eapply rstate_emit with (d := (k, v) :: d) (jj := jj).
           ++ exact Hr0.
           ++ cbn in *; lia.
           ++ cbn in *; lia.
           ++ exact G3.
           ++ exact G4.
  - intros [[[[p1 j1] x1] nnz] re] [_ G]. apply pw_ok. exact G.
Qed.

Lemma stuck_dec I R : stuck I R \/ ~ stuck I R.
Proof.
  unfold stuck. rewrite last_empty_nth. destruct (Z.eq_dec (Z.of_nat (length (concat R))) (imax I)); [|right; tauto].
  destruct (Forall_dec canonical_row canonical_row_dec R); [|right; tauto]. destruct (lt_dec 0 (length R)); [|right; tauto].
  destruct (nth (length R - 1) R []) as [|e0 l0]; [left; tauto|right; intros (_ & _ & _ & Q); discriminate].
Qed.
Definition rows_ov R : Prop := exists r q, In r R /\ dup_overflows (at_ q r).
Lemma canonical_rows_no R : Forall canonical_row R -> ~ rows_ov R.
Proof. intros H (r & q & Hr & G). rewrite Forall_forall in H. apply (canonical_no_ov r (H r Hr)). exists q. exact G. Qed.
Lemma panics_iff_bind (P : Prop) {A B} (m m' : res A) (f : A -> res B) : panics_iff P m m' -> panics_iff P (bind m f) (bind m' f).
Proof. intros [H1 H2]. split; intros H; [rewrite (H1 H)|rewrite (H2 H)]; reflexivity. Qed.
Lemma panics_iff_unwrap (P : Prop) {A} (m m' : res A) : panics_iff P m m' -> panics_iff P (unwrap m) (unwrap m').
Proof. intros [H1 H2]. split; intros H; [rewrite (H1 H)|rewrite (H2 H)]; reflexivity. Qed.
Lemma panics_iff_iff (P Q : Prop) {A} (m m' : res A) : (P <-> Q) -> panics_iff P m m' -> panics_iff Q m m'.
Proof. intros H [H1 H2]. split; intros G; [apply H1|apply H2]; tauto. Qed.

Lemma sumdup_kernel I n c p j (x : list T) R : crep I c p j x (map sortn R) -> length R = n ->
  panics_iff (rows_ov R) (csr_sum_duplicates_ck I n c p j x) (csr_sum_duplicates I n c p j x).
Proof.
  intros H Ln. apply exact_of; [apply may_csr_sum_duplicates|]. eapply pw_mono; [apply (sumdup_pw _ I n c p j x _ H)|].
  - rewrite map_length. exact Ln.
  - intros r Hr Ho. apply in_map_iff in Hr as (r0 & <- & Hr). apply sortn_ov in Ho as [q Ho]. exists r0, q. auto.
  - intros ? G (r & q & Hr & Ho). apply (G (sortn r) (in_map _ _ _ Hr)). apply sortn_ov. exists q. exact Ho.
Qed.
Lemma CSR_sumdup_iff I (m : CSR T) R : csr_rep I m R -> panics_iff (rows_ov R) (CSR_sum_duplicates_ck I m) (CSR_sum_duplicates I m).
Proof.
  intros HR. pose proof HR as [LR H]. unfold CSR_sum_duplicates_ck, CSR_sum_duplicates.
  destruct (stuck_dec I R) as [S|S].
  - unfold CSR_has_canonical_format. destruct (crep_nnz' _ _ _ _ _ _ H) as (_ & G2 & _). rewrite G2. cbn [bind].
    rewrite (stuck_panics I _ _ _ _ _ _ H eq_refl S). cbn [bind]. split; reflexivity.
  - destruct (CSR_has_canonical_exact I m R HR S) as (b & E & Hb). rewrite E. cbn [bind]. destruct b.
    + split; [|reflexivity]. intros G. exfalso. revert G. apply canonical_rows_no. tauto.
    + destruct (CSR_sort_rep I m R HR) as (m1 & E1 & [L1 H1] & _). rewrite E1. cbn [bind].
      apply panics_iff_bind. rewrite map_length in L1. apply sumdup_kernel; assumption.
Qed.
Lemma CSC_sumdup_iff I (m : CSC T) R : csc_rep I m R -> panics_iff (rows_ov R) (CSC_sum_duplicates_ck I m) (CSC_sum_duplicates I m).
Proof.
  intros HR. pose proof HR as [LR H]. unfold CSC_sum_duplicates_ck, CSC_sum_duplicates.
  destruct (stuck_dec I R) as [S|S].
  - unfold CSC_has_canonical_format. destruct (crep_nnz' _ _ _ _ _ _ H) as (_ & G2 & _). rewrite G2. cbn [bind].
    rewrite (stuck_panics I _ _ _ _ _ _ H eq_refl S). cbn [bind]. split; reflexivity.
  - destruct (CSC_has_canonical_exact I m R HR S) as (b & E & Hb). rewrite E. cbn [bind]. destruct b.
    + split; [|reflexivity]. intros G. exfalso. revert G. apply canonical_rows_no. tauto.
    + destruct (CSC_sort_rep I m R HR) as (m1 & E1 & [L1 H1] & _). rewrite E1. cbn [bind].
      apply panics_iff_bind. rewrite map_length in L1. apply sumdup_kernel; assumption.
Qed.

(** ** Coordinate matrices *)
Variable I : ity.
Lemma Coo_to_csr_iff m : wf_coo I m ->
  panics_iff (rows_ov (buckets (coo_rows m) (keyed (coo_entries m)))) (Coo_to_csr_ck I m) (Coo_to_csr I m).
Proof.
  intros H. destruct (Z.lt_ge_cases (imax I) (Z.of_nat (length (coo_values m)))) as [Ov|Hf].
  { unfold Coo_to_csr_ck, Coo_to_csr, Coo_nnz. rewrite coo_tocsr_over by exact Ov. cbn [bind]. split; reflexivity. }
  destruct (wf_coo_arrays I m H) as (E1 & E2 & E3 & E4 & E5).
  set (E := coo_entries m) in *. unfold Coo_to_csr_ck, Coo_to_csr.
  assert (LE : length (keyed E) = Coo_nnz m) by (unfold keyed; rewrite map_length; exact E4).
  rewrite <- LE.
  edestruct (coo_tocsr_spec I (coo_rows m) (coo_cols m) (coo_rowidx m) (coo_colidx m) (coo_values m) (keyed E)) as ([[p j] x] & Eo & G & Lj & Lx);
    [..|rewrite Eo; cbn [bind]].
  - unfold coo_arrays, keyed. rewrite !map_map. auto.
  - unfold keyed. apply Forall_map. eapply Forall_impl; [|exact E5]. cbn. tauto.
  - unfold keyed. apply Forall_map. eapply Forall_impl; [|exact E5]. cbn. tauto.
  - rewrite LE. unfold Coo_nnz. lia.
  - rewrite repeat_length. lia.
  - apply repeat_length.
  - apply repeat_length.
  - assert (LB : length (buckets (coo_rows m) (keyed E)) = coo_rows m) by apply buckets_length.
    rewrite (CSR_new_rep _ _ _ _ _ _ _ G LB). cbn [unwrap bind]. apply panics_iff_unwrap. apply CSR_sumdup_iff. split; assumption.
Qed.
Lemma Coo_to_csc_iff m : wf_coo I m ->
  panics_iff (rows_ov (buckets (coo_cols m) (keyed (map swap_entry (coo_entries m))))) (Coo_to_csc_ck I m) (Coo_to_csc I m).
Proof.
  intros H. destruct (Z.lt_ge_cases (imax I) (Z.of_nat (length (coo_values m)))) as [Ov|Hf].
  { unfold Coo_to_csc_ck, Coo_to_csc, Coo_nnz. rewrite coo_tocsr_over by exact Ov. cbn [bind]. split; reflexivity. }
  destruct (wf_coo_arrays I m H) as (E1 & E2 & E3 & E4 & E5).
  set (E := map swap_entry (coo_entries m)) in *. unfold Coo_to_csc_ck, Coo_to_csc.
  assert (LE : length (keyed E) = Coo_nnz m) by (unfold keyed, E; rewrite !map_length; exact E4).
  rewrite <- LE.
  edestruct (coo_tocsr_spec I (coo_cols m) (coo_rows m) (coo_colidx m) (coo_rowidx m) (coo_values m) (keyed E)) as ([[p j] x] & Eo & G & Lj & Lx);
    [..|rewrite Eo; cbn [bind]].
  - unfold coo_arrays, keyed, E. rewrite !map_map. auto.
  - unfold keyed, E. rewrite map_map. apply Forall_map. eapply Forall_impl; [|exact E5]. cbn. tauto.
  - unfold keyed, E. rewrite map_map. apply Forall_map. eapply Forall_impl; [|exact E5]. cbn. tauto.
  - rewrite LE. unfold Coo_nnz. lia.
  - rewrite repeat_length. lia.
  - apply repeat_length.
  - apply repeat_length.
  - assert (LB : length (buckets (coo_cols m) (keyed E)) = coo_cols m) by apply buckets_length.
    rewrite (CSC_new_rep _ _ _ _ _ _ _ G LB). cbn [unwrap bind]. apply CSC_sumdup_iff. split; assumption.
Qed.
End Dup.
