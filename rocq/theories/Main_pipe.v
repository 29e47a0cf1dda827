(** Proofs of the theorems of Props_pipe.v, under the same names in lower case. *)
From Verif Require Import Rust Scalar Model_kernels Model_matrix Model_dok Spec SpecPipe Wp PipeProofs Check.

Section Any.
Context {T : Type} {SC : Scalar T} {SN : ScalarNeg T}.
Variable I : ity.
Lemma c50_history : forall cs : list (call T), calls_ok I [] cs -> exists st, run I [] cs = Ok st /\ Forall (mat_wf I) st.
Proof.
  intros cs H. destruct (run_good I cs [] (Forall_nil _) H) as (st & E & G). exists st. split; [exact E|]. eapply Forall_impl; [|exact G]. intros m. apply good_wf.
Qed.
Lemma c50_prefix : forall cs1 cs2 : list (call T), calls_ok I [] (cs1 ++ cs2) -> exists st, run I [] cs1 = Ok st /\ Forall (mat_wf I) st /\ calls_ok I st cs2.
Proof.
  intros cs1 cs2. assert (H1 : forall st, Forall (good I) st -> calls_ok I st (cs1 ++ cs2) -> exists st', run I st cs1 = Ok st' /\ Forall (good I) st' /\ calls_ok I st' cs2).
  { induction cs1 as [|c cs1 IH]; intros st G K; [exists st; sp; assumption|]. destruct K as [Hc K]. destruct (step_good I st c G Hc) as (st' & E & G'). cbn [run app] in *. fold (app cs1 cs2) in K. rewrite E in K. rewrite E. cbn [bind].
    apply IH; assumption. }
  intros H. destruct (H1 [] (Forall_nil _) H) as (st & E & G & K). exists st. sp; try assumption. eapply Forall_impl; [|exact G]. intros m. apply good_wf.
Qed.
Lemma c50_look : forall (cs : list (call T)) st v m o, calls_ok I [] cs -> run I [] cs = Ok st -> nth_error st v = Some m -> look_ok I o m -> exists a, do_look I o m = Some (Ok a).
Proof.
  intros cs st v m o H E Ev Ho. destruct (run_good I cs [] (Forall_nil _) H) as (st' & E' & G). rewrite E in E'. injection E' as <-. apply (look_good I o m); [|exact Ho]. exact (forall_nth_error _ _ _ _ G Ev).
Qed.
End Any.

Section Ring.
Context {T : Type} {SC : Scalar T} {SN : ScalarNeg T} {ER : ExactRing T}.
Variable I : ity.
Lemma c62_history : forall cs : list (call T), calls_ok I [] cs -> exists st, run I [] cs = Ok st /\ Forall2 holds st (table_run [] cs).
Proof.
  intros cs H. destruct (run_sim I cs [] [] (Forall2_nil _) H) as (st & E & G). exists st. split; [exact E|]. clear E. induction G as [|m t l k (_ & _ & Hm) G IH]; constructor; assumption.
Qed.
Lemma c62_look : forall (cs : list (call T)) st v m o, calls_ok I [] cs -> run I [] cs = Ok st -> nth_error st v = Some m -> look_ok I o m ->
  do_look I o m = Some (Ok (table_look o (nth v (table_run [] cs) no_table))).
Proof. exact (run_look I). Qed.
End Ring.
