(** Histories of calls: C50, C62. *)
From Verif Require Import Rust Scalar Model_kernels Model_matrix Model_dok Spec SpecPipe Wp Check Main_pipe.

Section Any.
Context {T : Type} {SC : Scalar T} {SN : ScalarNeg T}.
Variable I : ity.
(** Whatever the scalars are: a program that makes matrices and calls methods on them, each call admissible when it
    is made, completes every call and every matrix it ever holds is well-formed. *)
Theorem C50_history : forall cs : list (call T), calls_ok I [] cs -> exists st, run I [] cs = Ok st /\ Forall (mat_wf I) st.
Proof. exact (c50_history I). Qed.
(** The same at every moment of the program: every prefix of an admissible history is one. *)
Theorem C50_prefix : forall cs1 cs2 : list (call T), calls_ok I [] (cs1 ++ cs2) -> exists st, run I [] cs1 = Ok st /\ Forall (mat_wf I) st /\ calls_ok I st cs2.
Proof. exact (c50_prefix I). Qed.
(** After such a program every admissible reading of one of its matrices completes as well. *)
Theorem C50_look : forall (cs : list (call T)) st v m o, calls_ok I [] cs -> run I [] cs = Ok st -> nth_error st v = Some m -> look_ok I o m -> exists a, do_look I o m = Some (Ok a).
Proof. exact (c50_look I). Qed.
End Any.

Section Ring.
Context {T : Type} {SC : Scalar T} {SN : ScalarNeg T} {ER : ExactRing T}.
Variable I : ity.
(** Over an exact ring every matrix of the program holds, at every position, what the same program computes on plain
    tables of numbers. *)
Theorem C62_history : forall cs : list (call T), calls_ok I [] cs -> exists st, run I [] cs = Ok st /\ Forall2 holds st (table_run [] cs).
Proof. exact (c62_history I). Qed.
(** What the program reads from its matrices (the dense table, products with a vector, the diagonal, single elements) is
    what the plain tables give. *)
Theorem C62_look : forall (cs : list (call T)) st v m o, calls_ok I [] cs -> run I [] cs = Ok st -> nth_error st v = Some m -> look_ok I o m ->
  do_look I o m = Some (Ok (table_look o (nth v (table_run [] cs) no_table))).
Proof. exact (c62_look I). Qed.
End Ring.

(** ** Concrete histories.  The first: coordinate entries with a duplicate, conversions, a transposition, a mixed
    product, sums, a difference and a conversion of a matrix with unused capacity *)
Definition ex_calls : list (call Z) :=
  [CMake FCoo (MSize 2 3); CIn (PPush 0 1 5%Z) 0; CIn (PExtend [1; 0] [2; 1] [7; -2])%Z 0; CUn (UTo FCsr) 0; CUn UTrans 1;
   CBin BMul 2 1; CIn PDup 3; CUn (UTo FCsr) 3; CBin BAdd 4 4; CBin BSub 5 5; CUn (UTo FCoo) 6;
   CMake FCsr (MDense [[1; 0; 2]; [0; 3; 0]; [4; 0; 5]]%Z); CBin BSub 8 5; CUn UNeg 9; CUn (UScale 2%Z) 10; CIn PSort 11;
   CBin BMul 1 11; CUn (UTo FCsc) 12; CBin BAdd 13 13; CBin BAdd 0 0]%Z.
(** The second: a dictionary that is changed and converted in an order other than that of insertion, a selection with
    a repeated row, the upper triangle, stacks and compositions of blocks, arrays given by hand *)
Definition ex_blocks : list (call Z) :=
  [CMake FDok (MSize 2 3); CIn (PDok (OpSet 0 1 5)) 0; CIn (PDok (OpAdd 1 2 7)) 0; CIn (PDok (OpSub 0 1 6)) 0; CIn (PDok (OpSet 1 0 4)) 0; CIn (PDok (OpSub 1 0 4)) 0;
   CUn (UToBy [((1, 2), 7); ((0, 1), -1)] FCsr) 0; CUn (USelect (Some [1; 0; 1]) None) 1; CUn (UTo FCoo) 2; CUn (UUpper 1) 3;
   CMake FCoo (MId 3); CBin BOver 4 5; CBin BBeside 4 5; CBlk KOver3 [4; 5; 3]%nat; CBlk KBeside3 [4; 5; 3]%nat; CBlk KSquare [4; 5; 5; 3]%nat;
   CBlk KSquare3 [4; 5; 3; 5; 5; 5; 3; 4; 5]%nat; CMake FCsc (MCols 2 2 [1; 0; 1] [0; 2; 3] [8; 9; 10]); CBlk KSquare [12; 12; 12; 12]%nat;
   CMake FCsr (MRows 2 1 [0; 1; 2] [0; 0] [3; 4]); CBin BBeside 1 14; CMake FCoo (MNew 2 2 [0; 0] [1; 1] [3; 4]); CUn (UScaled 3) 15]%Z.
Ltac calls := repeat match goal with
  | |- calls_ok _ _ [] => exact Logic.I
  | |- calls_ok _ _ (_ :: _) => split; [|match goal with |- context [step ?i ?st ?c] => let v := eval vm_compute in (step i st c) in replace (step i st c) with v by (vm_compute; reflexivity) end; cbv iota]
  | |- call_ok _ _ (CMake _ _) => split; [discriminate|]
  | |- call_ok _ _ (CUn _ _) => eexists; split; [reflexivity|]; split; [vm_compute; discriminate|]; try exact Logic.I; try (vm_compute; reflexivity)
  | |- call_ok _ _ (CIn _ _) => eexists; split; [reflexivity|]; split; [vm_compute; discriminate|]; try exact Logic.I; try (vm_compute; reflexivity); try (vm_compute; sp; congruence)
  | |- call_ok _ _ (CBin _ _ _) => eexists _, _; split; [reflexivity|]; split; [reflexivity|]; split; [vm_compute; discriminate|]; vm_compute; sp; congruence
  | |- call_ok _ _ (CBlk _ _) => eexists; split; [reflexivity|]; split; [vm_compute; discriminate|]
  end.
Ltac fits := repeat match goal with
  | |- _ /\ _ => split
  | |- rows_ok _ _ => unfold rows_ok
  | |- row_ok _ _ => unfold row_ok
  | |- all_equal _ => unfold all_equal; cbn
  | |- Forall _ [] => constructor
  | |- Forall _ (_ :: _) => constructor
  | |- index_ok _ _ => vm_compute; congruence
  | |- _ -> _ => intros _; vm_compute; reflexivity
  end; try reflexivity.
Example C50_ex : calls_ok I8 [] ex_calls.
Proof.
  unfold ex_calls. calls.
  - sp; vm_compute; congruence.
  - sp; try reflexivity. repeat constructor; vm_compute; congruence.
  - split; [discriminate|]. exists 3. sp; try (vm_compute; congruence). repeat constructor.
Qed.
Example C50_blocks_ex : calls_ok I8 [] ex_blocks.
Proof.
  unfold ex_blocks. calls.
  - split; vm_compute; congruence.
  - split; [|vm_compute; reflexivity]. apply perm_swap.
  - repeat match goal with |- _ /\ _ => split | |- let _ := _ in _ => intros ? end; try (vm_compute; (congruence || reflexivity)); try exact Logic.I; [cbn; check|]. repeat constructor; vm_compute; congruence.
  - intros e H. cbn in H. repeat destruct H as [<-|H]; try contradiction; vm_compute; split; congruence.
  - vm_compute. congruence.
  - fits.
  - fits.
  - fits.
  - fits.
  - cbn zeta. sp; try (vm_compute; congruence); [check|split; reflexivity].
  - fits.
  - cbn zeta. sp; try (vm_compute; congruence); [check|split; reflexivity].
  - sp; try (vm_compute; congruence). check.
Qed.
Example C62_ex : exists st, run I8 [] ex_calls = Ok st /\ length st = 16 /\
  nth 4 st (MCoo (Coo_with_size 0 0)) = MCsr (mkCSR 3 3 [0; 0; 1; 2] [1; 2] [9; 49])%Z /\
  map (fun ij => mat_val (nth 12 st (MCoo (Coo_with_size 0 0))) (fst ij) (snd ij)) [(0, 0); (0, 1); (1, 0); (1, 2)] = [0; 90; -56; 1302]%Z /\
  map (fun ij => t_at (nth 12 (table_run [] ex_calls) no_table) (fst ij) (snd ij)) [(0, 0); (0, 1); (1, 0); (1, 2)] = [0; 90; -56; 1302]%Z.
Proof. eexists. split; [vm_compute; reflexivity|]. repeat (split; [vm_compute; reflexivity|]). vm_compute. reflexivity. Qed.
Example C62_blocks_ex : exists st, run I8 [] ex_blocks = Ok st /\ length st = 18 /\
  nth 13 st (MCoo (Coo_with_size 0 0)) = MCsc (mkCSC 4 4 [0; 1; 2; 3; 1; 3; 0; 1; 2; 3; 1; 3] [0; 4; 6; 10; 12] [9; 8; 9; 8; 10; 10; 9; 8; 9; 8; 10; 10])%Z /\
  (** the selection times a vector, and the diagonal of three blocks beside one another *)
  look_ok I8 (LVec [1; 2; 3]%Z) (nth 2 st (MCoo (Coo_with_size 0 0))) /\ do_look I8 (LVec [1; 2; 3]%Z) (nth 2 st (MCoo (Coo_with_size 0 0))) = Some (Ok (AVec [21; -2; 21]%Z)) /\
  table_look (LVec [1; 2; 3]%Z) (nth 2 (table_run [] ex_blocks) no_table) = AVec [21; -2; 21]%Z /\
  look_ok I8 LDiag (nth 9 st (MCoo (Coo_with_size 0 0))) /\ do_look I8 LDiag (nth 9 st (MCoo (Coo_with_size 0 0))) = Some (Ok (AVec [0; 0; 0]%Z)).
Proof.
  eexists. split; [vm_compute; reflexivity|]. split; [vm_compute; reflexivity|]. split; [vm_compute; reflexivity|].
  split; [split; [vm_compute; discriminate|vm_compute; reflexivity]|]. split; [vm_compute; reflexivity|]. split; [vm_compute; reflexivity|]. split; [split; [vm_compute; discriminate|exact Logic.I]|vm_compute; reflexivity].
Qed.

Print Assumptions C50_history.
Print Assumptions C50_prefix.
Print Assumptions C50_look.
Print Assumptions C62_history.
Print Assumptions C62_look.
