(** Histories of calls on scalars with overflow checks: C93. *)
From Verif Require Import Rust Debug Scalar Model_kernels Model_matrix Model_dok Model_checked Spec SpecPipe SpecChecked SpecProgram Wp Check Main_program ProgramFits.

Section Ring.
Context {T : Type} {SC : Scalar T} {SN : ScalarNeg T} {ER : ExactRing T} {CK : Checked T} {CN : CheckedNeg T}.
Context {L : CheckedLaw True T} {LN : CheckedNegLaw True T}.
Variable I : ity.
(** Scalars whose operations panic or give the exact result: an admissible program panics, or every matrix it holds at the
    end is the one that the same program computes on plain tables. *)
Theorem C93_history : forall cs : list (call T), calls_ok I [] cs ->
  run_ck I [] cs = Panic \/ exists st, run_ck I [] cs = Ok st /\ Forall2 holds st (table_run [] cs).
Proof. exact (c93_history I). Qed.
(** What it reads from them is what the plain tables give, or the reading panics. *)
Theorem C93_look : forall (cs : list (call T)) st v m o, calls_ok I [] cs -> run_ck I [] cs = Ok st -> nth_error st v = Some m -> look_ok I o m ->
  do_look_ck I o m = Some Panic \/ do_look_ck I o m = Some (Ok (table_look o (nth v (table_run [] cs) no_table))).
Proof. exact (c93_look I). Qed.
End Ring.

(** Integer scalars of the type [J]: a program, admissible or not, that is given values of the type and completes stores no
    value outside the type. *)
Theorem C93_range : forall (J I : ity) (cs : list (call Z)) st st', Forall (mat_typed J) st -> Forall (call_typed J) cs ->
  @run_ck Z _ _ (int_checked J) (int_checked_neg J) I st cs = Ok st' -> Forall (mat_typed J) st'.
Proof. exact c93_range. Qed.
(** Nor does a reading return one. *)
Theorem C93_answers : forall (J I : ity) (o : look Z) m a, mat_typed J m -> look_typed J o -> @do_look_ck Z _ (int_checked J) I o m = Some (Ok a) -> answer_typed J a.
Proof. exact c93_answers. Qed.
(** Unsigned types: if no element of any table, at any moment of the program, is outside the type, then no call panics.
    Values stored at the same position, products and partial sums on the way need no separate condition. *)
Theorem C93_unsigned : forall (I J : ity) (cs : list (call Z)), imin J = 0%Z -> calls_ok I [] cs -> Forall (call_typed J) cs ->
  (forall n, Forall (table_typed J) (table_run [] (firstn n cs))) ->
  exists st, @run_ck Z _ _ (int_checked J) (int_checked_neg J) I [] cs = Ok st /\ Forall2 holds st (table_run [] cs).
Proof. exact c93_unsigned. Qed.
(** A reading panics only if an element of the matrix or of the answer is outside the type. *)
Theorem C93_unsigned_look : forall (I J : ity) (cs : list (call Z)) st v m o, imin J = 0%Z -> calls_ok I [] cs -> Forall (call_typed J) cs ->
  @run_ck Z _ _ (int_checked J) (int_checked_neg J) I [] cs = Ok st -> nth_error st v = Some m -> look_ok I o m -> look_typed J o ->
  table_typed J (nth v (table_run [] cs) no_table) -> answer_typed J (table_look o (nth v (table_run [] cs) no_table)) ->
  @do_look_ck Z _ (int_checked J) I o m = Some (Ok (table_look o (nth v (table_run [] cs) no_table))).
Proof. exact c93_unsigned_look. Qed.
(** For signed types this does not suffice: 100 + 100 - 100 at one position panics with i8. *)
Theorem C93_signed_refuted : exists (I J : ity) (cs : list (call Z)), calls_ok I [] cs /\ Forall (call_typed J) cs /\
  (forall n, Forall (table_typed J) (table_run [] (firstn n cs))) /\ @run_ck Z _ _ (int_checked J) (int_checked_neg J) I [] cs = Panic.
Proof. exact c93_signed_refuted. Qed.

(** ** Concrete programs.  Entries with a duplicate, a conversion, the square, the square plus the matrix *)
Definition ex_program (x : Z) : list (call Z) :=
  [CMake FCoo (MNew 2 2 [0; 1; 0] [0; 1; 0] [x; 3; x]); CUn (UTo FCsr) 0; CBin BMul 1 1; CBin BAdd 2 1; CUn (UTo FCsc) 3; CUn (UScale 2) 1]%Z.
Ltac calls := repeat match goal with
  | |- calls_ok _ _ [] => exact Logic.I
  | |- calls_ok _ _ (_ :: _) => split; [|match goal with |- context [step ?i ?st ?c] => let v := eval vm_compute in (step i st c) in replace (step i st c) with v by (vm_compute; reflexivity) end; cbv iota]
  | |- call_ok _ _ (CMake _ _) => split; [discriminate|]
  | |- call_ok _ _ (CUn _ _) => eexists; split; [reflexivity|]; split; [vm_compute; discriminate|]; try exact Logic.I; try (vm_compute; reflexivity)
  | |- call_ok _ _ (CBin _ _ _) => eexists _, _; split; [reflexivity|]; split; [reflexivity|]; split; [vm_compute; discriminate|]; vm_compute; sp; congruence
  end.
Example C93_ok_ex : calls_ok I16 [] (ex_program 7) /\ calls_ok I16 [] (ex_program 8) /\ Forall (call_typed U8) (ex_program 7).
Proof.
  split; [|split].
  - unfold ex_program. calls. sp; try (vm_compute; congruence). check.
  - unfold ex_program. calls. sp; try (vm_compute; congruence). check.
  - repeat constructor; vm_compute; congruence.
Qed.
Local Notation run_in J cs := (@run_ck Z _ _ (int_checked J) (int_checked_neg J) I16 [] cs).
(** with u8: 14 * 14 + 14 = 210 fits, 16 * 16 does not; with i8 the first panics as well; with u16 nothing does *)
Example C93_ex : (exists st, run_in U8 (ex_program 7) = Ok st /\ nth 3 st (MCoo (Coo_with_size 0 0)) = MCsr (mkCSR 2 2 [0; 1; 2] [0; 1; 0; 0] [210; 12; 0; 0])%Z) /\
  run_in U8 (ex_program 8) = Panic /\ run_in I8 (ex_program 7) = Panic /\ exists st, run_in U16 (ex_program 8) = Ok st /\ mat_val (nth 3 st (MCoo (Coo_with_size 0 0))) 0 0 = 272%Z.
Proof.
  split; [eexists; split; [vm_compute; reflexivity|vm_compute; reflexivity]|]. split; [vm_compute; reflexivity|]. split; [vm_compute; reflexivity|]. eexists. split; vm_compute; reflexivity.
Qed.
Example C93_unsigned_ex : imin U8 = 0%Z /\ forall n, Forall (table_typed U8) (table_run [] (firstn n (ex_program 7))).
Proof.
  split; [reflexivity|]. assert (K : forall l, (forall t, In t l -> t_rows t <= 2 /\ t_cols t <= 2 /\ forall i j, In i [0; 1] -> In j [0; 1] -> in_ity U8 (t_at t i j)) -> Forall (table_typed U8) l).
  { intros l H. apply Forall_forall. intros t Ht i j Hi Hj. destruct (H t Ht) as (A & B & C). apply C; cbn; lia. }
  intros n. apply K. intros t Ht. do 6 (destruct n as [|n]; [cbn in Ht; repeat (destruct Ht as [<-|Ht]; [split; [cbn; lia|]; split; [cbn; lia|]; cbn [In]; intros i j [<-|[<-|[]]] [<-|[<-|[]]]; vm_compute; split; congruence|]); destruct Ht|]).
  cbn in Ht. rewrite firstn_nil in Ht. cbn in Ht. repeat (destruct Ht as [<-|Ht]; [split; [cbn; lia|]; split; [cbn; lia|]; cbn [In]; intros i j [<-|[<-|[]]] [<-|[<-|[]]]; vm_compute; split; congruence|]). destruct Ht.
Qed.
(** the reading panics though the program does not: 2 * 210 is outside u8; with the vector (1, 3) all is inside *)
Example C93_look_ex : exists st m, run_in U8 (ex_program 7) = Ok st /\ nth_error st 3 = Some m /\
  @do_look_ck Z _ (int_checked U8) I16 (LVec [2; 0]%Z) m = Some Panic /\ @do_look_ck Z _ (int_checked U8) I16 (LVec [1; 3]%Z) m = Some (Ok (AVec [210; 36]%Z)) /\
  look_ok I16 (LVec [2; 0]%Z) m /\ look_ok I16 (LVec [1; 3]%Z) m /\ table_look (LVec [2; 0]%Z) (nth 3 (table_run [] (ex_program 7)) no_table) = AVec [420; 0]%Z.
Proof.
  eexists _, _. split; [vm_compute; reflexivity|]. split; [reflexivity|]. split; [vm_compute; reflexivity|]. split; [vm_compute; reflexivity|]. split; [split; [vm_compute; discriminate|reflexivity]|]. split; [split; [vm_compute; discriminate|reflexivity]|]. vm_compute. reflexivity.
Qed.

Print Assumptions C93_history.
Print Assumptions C93_look.
Print Assumptions C93_range.
Print Assumptions C93_answers.
Print Assumptions C93_unsigned.
Print Assumptions C93_unsigned_look.
Print Assumptions C93_signed_refuted.
