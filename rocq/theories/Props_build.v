(** Programs in release builds: C94. *)
From Verif Require Import Rust Scalar Model_kernels Model_matrix Model_dok Spec SpecMore SpecPipe SpecHom SpecBuild Wp Check Main_build.

Section Any.
Context {T : Type} {SC : Scalar T} {SN : ScalarNeg T}.
Variable I : ity.
(** C94: any program whatever, from any matrices: if it does not panic in the build with overflow checks, the release
    build ends in the same way with the same matrices; and so for what is read from a matrix. *)
Theorem C94_same : forall (cs : list (call T)) st, both (fun b => run_in b I st cs).
Proof. exact (c94_same I). Qed.
Theorem C94_look_same : forall o (m : mat T), do_look_in Debug I o m <> Some Panic -> do_look_in Release I o m = do_look_in Debug I o m.
Proof. exact (c94_look_same I). Qed.
(** With checks these are the programs and readings of C50 and C62. *)
Theorem C94_checked : forall (cs : list (call T)) st, run_in Debug I st cs = run I st cs.
Proof. exact (c94_debug I). Qed.
Theorem C94_checked_look : forall o (m : mat T), do_look_in Debug I o m = do_look I o m.
Proof. exact (c94_debug_look I). Qed.
(** An admissible program completes in the release build too, with well-formed matrices, the same ones. *)
Theorem C94_history : forall cs : list (call T), calls_ok I [] cs -> exists st, run_in Release I [] cs = Ok st /\ run I [] cs = Ok st /\ Forall (mat_wf I) st.
Proof. exact (c94_history I). Qed.
End Any.

Section Ring.
Context {T : Type} {SC : Scalar T} {SN : ScalarNeg T} {ER : ExactRing T}.
Variable I : ity.
(** Over a ring its matrices hold what the same program computes on plain tables, and so do the readings. *)
Theorem C94_tables : forall cs : list (call T), calls_ok I [] cs -> exists st, run_in Release I [] cs = Ok st /\ Forall2 holds st (table_run [] cs).
Proof. exact (c94_tables I). Qed.
Theorem C94_look : forall (cs : list (call T)) st v m o, calls_ok I [] cs -> run_in Release I [] cs = Ok st -> nth_error st v = Some m -> look_ok I o m ->
  do_look_in Release I o m = Some (Ok (table_look o (nth v (table_run [] cs) no_table))).
Proof. exact (c94_look I). Qed.
End Ring.

(** A release build on 64-bit integers, which wrap round without notice: every element is the remainder modulo 2^64 of
    the element of the plain tables of unbounded integers, whatever overflowed on the way. *)
Theorem C94_wrap : forall (I : ity) (cs : list (call Z)), calls_ok I [] cs -> calls_ok I [] (map (call_map wrap) cs) ->
  exists st, run_in Release I [] (map (call_map wrap) cs) = Ok st /\
    Forall2 (fun m t => mat_rows m = t_rows t /\ mat_cols m = t_cols t /\ forall i j, i < t_rows t -> j < t_cols t -> wval (mat_val m i j) = (t_at t i j mod 2 ^ 64)%Z) st (table_run [] cs).
Proof. exact c94_wrap. Qed.

(** ** Concrete programs: a conversion, a transposition, a product and a sum; the values exceed 2^64 *)
Definition rel_calls : list (call Z) :=
  [CMake FCoo (MNew 2 2 [0; 1; 0] [1; 0; 1] [2 ^ 40; 5; 3]); CUn (UTo FCsr) 0; CBin BMul 1 1; CBin BMul 2 2; CBin BAdd 3 1; CUn UTrans 4]%Z.
Ltac calls := repeat match goal with
  | |- calls_ok _ _ [] => exact Logic.I
  | |- calls_ok _ _ (_ :: _) => split; [|match goal with |- context [step ?i ?st ?c] => let v := eval vm_compute in (step i st c) in replace (step i st c) with v by (vm_compute; reflexivity) end; cbv iota]
  | |- call_ok _ _ (CMake _ _) => split; [discriminate|]
  | |- call_ok _ _ (CUn _ _) => eexists; split; [reflexivity|]; split; [vm_compute; discriminate|]; try exact Logic.I; try (vm_compute; reflexivity)
  | |- call_ok _ _ (CBin _ _ _) => eexists _, _; split; [reflexivity|]; split; [reflexivity|]; split; [vm_compute; discriminate|]; vm_compute; sp; congruence
  end.
Example C94_ex : calls_ok I8 [] rel_calls /\ calls_ok I8 [] (map (call_map wrap) rel_calls) /\
  (exists st, run_in Release I8 [] rel_calls = Ok st /\
    map (fun ij => mat_val (nth 5 st (MCoo (Coo_with_size 0 0))) (fst ij) (snd ij)) [(0, 0); (0, 1); (1, 0); (1, 1)] = [(5 * (2 ^ 40 + 3)) ^ 2; 5; 2 ^ 40 + 3; (5 * (2 ^ 40 + 3)) ^ 2]%Z) /\
  (exists st, run_in Release I8 [] (map (call_map wrap) rel_calls) = Ok st /\
    map (fun ij => wval (mat_val (nth 5 st (MCoo (Coo_with_size 0 0))) (fst ij) (snd ij))) [(0, 0); (0, 1); (1, 0); (1, 1)] = [150 * 2 ^ 40 + 225; 5; 2 ^ 40 + 3; 150 * 2 ^ 40 + 225]%Z).
Proof.
  split; [unfold rel_calls; calls|split; [unfold rel_calls; cbn [map call_map maker_map]; calls|]].
  3: { split; eexists; (split; [vm_compute; reflexivity|]); vm_compute; reflexivity. }
  all: try (sp; try (vm_compute; congruence); check).
Qed.
(** A program that panics with checks: seven rows are put under 125, and the row numbers leave the range of [i8]. The
    release build completes, with negative row numbers: the matrix is not well formed. *)
Definition over_calls : list (call Z) := [CMake FCoo (MSize 125 1); CMake FCoo (MNew 7 1 [6] [0] [9]); CBin BOver 0 1]%Z.
Example C94_differs_ex : run_in Debug I8 [] over_calls = Panic /\
  exists st, run_in Release I8 [] over_calls = Ok st /\ nth 2 st (MCoo (Coo_with_size 0 0)) = MCoo (mkCoo 132 1 [-125] [0] [9])%Z /\
  ~ mat_wf I8 (nth 2 st (MCoo (Coo_with_size 0 0))).
Proof.
  split; [vm_compute; reflexivity|]. eexists. split; [vm_compute; reflexivity|]. split; [vm_compute; reflexivity|].
  intros H. destruct H. cbn in *. repeat match goal with H : _ /\ _ |- _ => destruct H | H : Forall _ (_ :: _) |- _ => inversion_clear H end. cbn in *. lia.
Qed.

Print Assumptions C94_same.
Print Assumptions C94_look_same.
Print Assumptions C94_checked.
Print Assumptions C94_checked_look.
Print Assumptions C94_history.
Print Assumptions C94_tables.
Print Assumptions C94_look.
Print Assumptions C94_wrap.
