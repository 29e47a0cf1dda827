(** Programs in either build: the proofs of C94. *)
From Verif Require Import Rust Scalar Model_kernels Model_matrix Model_dok Spec SpecMore SpecPipe SpecBuild SpecHom Wp ReleaseProofs ReleaseAll PipeProofs Main_pipe Main_hom.

Section Same.
Context {T : Type} {SC : Scalar T} {SN : ScalarNeg T}.
Variable I : ity.

Definition oboth {A} (f : Build -> option (res A)) : Prop := f Debug <> Some Panic -> f Release = f Debug.
Lemma ob_some {A B} (f : Build -> res A) (g : A -> res B) : both f -> oboth (fun b => Some (bind (f b) g)).
Proof. intros H K. cbv beta in *. rewrite H; [reflexivity|]. intros E. apply K. rewrite E. reflexivity. Qed.
Lemma ob_same {A} (x : option (res A)) : oboth (fun _ => x).
Proof. intros _. reflexivity. Qed.

Ltac ob := first [apply ob_same | unfold coo, csr, csc, dok, tab, vec, elem; match goal with |- oboth (fun b => Some (bind (@?f b) ?g)) => apply (ob_some f g); change (agrees (f Debug) (f Release)); cbv beta; solve [auto 2 with agrees] end].
Lemma ob_make f (k : maker T) : oboth (fun b => do_make_in b I f k).
Proof. destruct k, f; cbv beta iota delta [do_make_in]; ob. Qed.
Lemma ob_unary u (m : mat T) : oboth (fun b => do_unary_in b I u m).
Proof. destruct u as [[]|o []| | | | | |], m; cbv beta iota delta [do_unary_in]; ob. Qed.
Lemma ob_inplace p (m : mat T) : oboth (fun b => do_inplace_in b I p m).
Proof. destruct p, m; cbv beta iota delta [do_inplace_in]; ob. Qed.
Lemma ob_binary k (x y : mat T) : oboth (fun b => do_binary_in b I k x y).
Proof. destruct k, x, y; cbv beta iota delta [do_binary_in]; ob. Qed.
Lemma ob_blocks k (ms : list (mat T)) : oboth (fun b => do_blocks_in b I k ms).
Proof.
  destruct k; cbv beta iota delta [do_blocks_in]; do 9 try (destruct ms as [|[] ms]; try apply ob_same); try (destruct ms); ob.
Qed.
Lemma c94_look_same : forall o (m : mat T), oboth (fun b => do_look_in b I o m).
Proof. destruct o, m; cbv beta iota delta [do_look_in]; ob. Qed.

Lemma ob_new st (f : Build -> option (res (mat T))) : oboth f -> both (fun b => new_var st (f b)).
Proof. intros H K. cbv beta in *. rewrite H; [reflexivity|]. intros E. apply K. rewrite E. reflexivity. Qed.
Lemma ob_set st v (f : Build -> option (res (mat T))) : oboth f -> both (fun b => set_var st v (f b)).
Proof. intros H K. cbv beta in *. rewrite H; [reflexivity|]. intros E. apply K. rewrite E. reflexivity. Qed.
Lemma ob_obind {A} (o : option A) (f : Build -> A -> option (res (mat T))) : (forall a, oboth (fun b => f b a)) -> oboth (fun b => obind o (f b)).
Proof. intros H. destruct o; cbn [obind]; [apply H|apply ob_same]. Qed.
Lemma both_step st (c : call T) : both (fun b => step_in b I st c).
Proof.
  destruct c; cbv beta iota delta [step_in].
  - apply ob_new, ob_make.
  - apply ob_new. apply (ob_obind _ (fun b => do_unary_in b I u)). intros. apply ob_unary.
  - apply ob_set. apply (ob_obind _ (fun b => do_inplace_in b I p)). intros. apply ob_inplace.
  - apply ob_new. apply (ob_obind _ (fun bd x => obind (nth_error st w) (do_binary_in bd I b x))). intros x.
    apply (ob_obind _ (fun bd => do_binary_in bd I b x)). intros. apply ob_binary.
  - apply ob_new. apply (ob_obind _ (fun b => do_blocks_in b I k)). intros. apply ob_blocks.
Qed.
Lemma c94_same : forall (cs : list (call T)) st, both (fun b => run_in b I st cs).
Proof.
  induction cs as [|c cs IH]; intros st K; cbv beta in *; cbn [run_in] in *; [reflexivity|].
  rewrite (both_step st c). 2: { intros E. apply K. rewrite E. reflexivity. }
  destruct (step_in Debug I st c) as [st'|e| |] eqn:E; cbn [bind] in *; try reflexivity. exact (IH st' K).
Qed.
Lemma step_debug st (c : call T) : step_in Debug I st c = step I st c.
Proof. destruct c; reflexivity. Qed.
Lemma c94_debug : forall (cs : list (call T)) st, run_in Debug I st cs = run I st cs.
Proof. induction cs as [|c cs IH]; intros st; cbn [run_in run]; [reflexivity|]. rewrite step_debug. destruct (step I st c); cbn [bind]; auto. Qed.
Lemma c94_debug_look : forall o (m : mat T), do_look_in Debug I o m = do_look I o m.
Proof. destruct o, m; reflexivity. Qed.

Lemma run_rel (cs : list (call T)) st : run I [] cs = Ok st -> run_in Release I [] cs = Ok st.
Proof. intros E. rewrite (c94_same cs []); cbv beta; rewrite c94_debug, E; [reflexivity|discriminate]. Qed.
Lemma c94_history : forall cs : list (call T), calls_ok I [] cs -> exists st, run_in Release I [] cs = Ok st /\ run I [] cs = Ok st /\ Forall (mat_wf I) st.
Proof. intros cs H. destruct (c50_history I cs H) as (st & E & W). exists st. sp; try assumption. exact (run_rel cs st E). Qed.
Lemma look_rel (cs : list (call T)) st v m o a : calls_ok I [] cs -> run_in Release I [] cs = Ok st -> nth_error st v = Some m -> look_ok I o m -> 
  do_look I o m = Some (Ok a) -> do_look_in Release I o m = Some (Ok a).
Proof. intros H E Ev Ho K. rewrite (c94_look_same o m); cbv beta; rewrite c94_debug_look, K; [reflexivity|discriminate]. Qed.
End Same.

Section Ring.
Context {T : Type} {SC : Scalar T} {SN : ScalarNeg T} {ER : ExactRing T}.
Variable I : ity.
Lemma c94_tables : forall cs : list (call T), calls_ok I [] cs -> exists st, run_in Release I [] cs = Ok st /\ Forall2 holds st (table_run [] cs).
Proof. intros cs H. destruct (c62_history I cs H) as (st & E & W). exists st. split; [exact (run_rel I cs st E)|exact W]. Qed.
Lemma c94_look : forall (cs : list (call T)) st v m o, calls_ok I [] cs -> run_in Release I [] cs = Ok st -> nth_error st v = Some m -> look_ok I o m ->
  do_look_in Release I o m = Some (Ok (table_look o (nth v (table_run [] cs) no_table))).
Proof.
  intros cs st v m o H E Ev Ho. apply (look_rel I cs st v m o _ H E Ev Ho). apply (c62_look I cs st); try assumption.
  destruct (c50_history I cs H) as (st' & E' & _). rewrite (run_rel I cs st' E') in E. rewrite E'. exact E.
Qed.
End Ring.

Lemma c94_wrap : forall (I : ity) (cs : list (call Z)), calls_ok I [] cs -> calls_ok I [] (map (call_map wrap) cs) ->
  exists st, run_in Release I [] (map (call_map wrap) cs) = Ok st /\
    Forall2 (fun m t => mat_rows m = t_rows t /\ mat_cols m = t_cols t /\ forall i j, i < t_rows t -> j < t_cols t -> wval (mat_val m i j) = (t_at t i j mod 2 ^ 64)%Z) st (table_run [] cs).
Proof.
  intros I cs H1 H2. destruct (c88_wrap I cs H1 H2) as (st & st' & E1 & E2 & K). exists st'. split; [apply run_rel; exact E2|].
  destruct (c62_history I cs H1) as (st2 & E3 & G). rewrite E1 in E3. injection E3 as <-. clear - K G. revert st' K.
  induction G as [|m t l k (A & B & C) G IH]; intros st' K; inversion K; subst; constructor; [|apply IH; assumption].
  match goal with H : _ /\ _ |- _ => destruct H as (A' & B' & C') end. rewrite A', B'. sp; try assumption. intros i j Hi Hj. rewrite C' by (rewrite ?A, ?B; assumption). rewrite C by assumption. reflexivity.
Qed.
