(** Proofs of the theorems of Props_program.v, under the same names in lower case. *)
From Verif Require Import Rust Debug Scalar Model_kernels Model_matrix Model_dok Model_checked Spec SpecPipe SpecHom SpecChecked SpecProgram CheckedProofs ProgramProofs ProgramHom Main_pipe Main_checked Check.

(** ** The integers of a type, with checked operations *)
Section Sub.
Variable J : ity.
Definition inb (z : Z) : bool := ((imin J <=? z) && (z <=? imax J))%Z.
Definition zin := {z : Z | inb z = true}.
Definition zv (x : zin) : Z := proj1_sig x.
Definition lift_ (z : Z) (b : bool) : inb z = b -> res zin := match b with true => fun H => Ok (exist _ z H) | false => fun _ => Panic end.
Definition zlift (z : Z) : res zin := lift_ z (inb z) eq_refl.
Lemma zv_lift z : icheck J z = rmap zv (zlift z).
Proof.
  unfold icheck, zlift. assert (H : forall b (e : inb z = b), (if b then Ok z else Panic) = rmap zv (lift_ z b e)) by (intros [|] e; reflexivity). apply H.
Qed.
Lemma in0 : inb 0 = true.
Proof. unfold inb. destruct J; reflexivity. Qed.
Lemma in1 : inb 1 = true.
Proof. unfold inb. destruct J; reflexivity. Qed.
#[local] Instance scalar_zin : Scalar zin := { s0 := exist _ 0%Z in0; s1 := exist _ 1%Z in1; sadd x _ := x; ssub x _ := x; smul x _ := x; sdiv _ _ := Panic; seqb x y := (zv x =? zv y)%Z }.
#[local] Instance neg_zin : ScalarNeg zin := { sneg x := x }.
#[local] Instance checked_zin : Checked zin := { cadd x y := zlift (zv x + zv y); csub x y := zlift (zv x - zv y); cmul x y := zlift (zv x * zv y); cdiv _ _ := Panic }.
#[local] Instance checkedneg_zin : CheckedNeg zin := { cneg x := zlift (- zv x) }.

Lemma zv_in x : in_ity J (zv x).
Proof. destruct x as [z H]. unfold inb in H. cbn. unfold in_ity. lia. Qed.
Lemma zv_all l : Forall (in_ity J) (map zv l).
Proof. apply Forall_forall. intros z H. apply in_map_iff in H. destruct H as (x & <- & _). apply zv_in. Qed.
Lemma zv_of z : in_ity J z -> exists x, z = zv x.
Proof. intros H. assert (E : inb z = true) by (unfold inb, in_ity in *; lia). exists (exist _ z E). reflexivity. Qed.
Lemma zv_ofs l : Forall (in_ity J) l -> exists k, l = map zv k.
Proof. induction 1 as [|z l Hz H (k & ->)]; [exists []; reflexivity|]. destruct (zv_of z Hz) as (x & ->). exists (x :: k). reflexivity. Qed.
Lemma zv_order {K} (l : list (K * Z)) : Forall (in_ity J) (map snd l) -> exists k, l = map (fun e => (fst e, zv (snd e))) k.
Proof.
  induction l as [|[i z] l IH]; intros H; [exists []; reflexivity|]. inversion H as [|? ? Hz Hl]; subst. destruct (IH Hl) as (k & ->). destruct (zv_of z Hz) as (x & ->). exists ((i, x) :: k). reflexivity.
Qed.
Lemma zv_table l : Forall (Forall (in_ity J)) l -> exists k, l = map (map zv) k.
Proof. induction 1 as [|z l Hz H (k & ->)]; [exists []; reflexivity|]. destruct (zv_ofs z Hz) as (x & ->). exists (x :: k). reflexivity. Qed.
Lemma mat_of m : mat_typed J m -> exists m', m = mat_map zv m'.
Proof.
  destruct m as [[r c i j x]|[r c p j x]|[r c j p x]|[r c e]]; cbn [mat_typed coo_values csr_values csc_values dok_values]; intros H.
  - destruct (zv_ofs x H) as (y & ->). exists (MCoo (mkCoo r c i j y)). reflexivity.
  - destruct (zv_ofs x H) as (y & ->). exists (MCsr (mkCSR r c p j y)). reflexivity.
  - destruct (zv_ofs x H) as (y & ->). exists (MCsc (mkCSC r c j p y)). reflexivity.
  - destruct (zv_order e H) as (y & ->). exists (MDok (mkDoK r c y)). reflexivity.
Qed.
Lemma typed_map m : mat_typed J (mat_map zv m).
Proof. destruct m; cbn; try apply zv_all. rewrite map_map. cbn. rewrite <- (map_map snd). apply zv_all. Qed.
Lemma maker_of k : maker_typed J k -> exists k', k = maker_map zv k'.
Proof.
  destruct k as [r c|a|d|n|r c i j x|r c i j x|r c i j x]; cbn [maker_typed]; intros H.
  - exists (MSize r c). reflexivity.
  - destruct (zv_table a H) as (y & ->). exists (MDense y). reflexivity.
  - destruct (zv_ofs d H) as (y & ->). exists (MDiag y). reflexivity.
  - exists (MId n). reflexivity.
  - destruct (zv_ofs x H) as (y & ->). exists (MNew r c i j y). reflexivity.
  - destruct (zv_ofs x H) as (y & ->). exists (MRows r c i j y). reflexivity.
  - destruct (zv_ofs x H) as (y & ->). exists (MCols r c i j y). reflexivity.
Qed.
Lemma unary_of u : unary_typed J u -> exists u', u = unary_map zv u'.
Proof.
  destruct u as [f|o f| | |s|s|k|rs cs]; cbn [unary_typed]; intros H.
  - exists (UTo f). reflexivity.
  - destruct (zv_order o H) as (y & ->). exists (UToBy y f). reflexivity.
  - exists UTrans. reflexivity.
  - exists UNeg. reflexivity.
  - destruct (zv_of s H) as (y & ->). exists (UScale y). reflexivity.
  - destruct (zv_of s H) as (y & ->). exists (UScaled y). reflexivity.
  - exists (UUpper k). reflexivity.
  - exists (USelect rs cs). reflexivity.
Qed.
Lemma inplace_of p : inplace_typed J p -> exists p', p = inplace_map zv p'.
Proof.
  destruct p as [| |i j x|i j x|[i j x|i j x|i j x]]; cbn [inplace_typed]; intros H.
  - exists PSort. reflexivity.
  - exists PDup. reflexivity.
  - destruct (zv_of x H) as (y & ->). exists (PPush i j y). reflexivity.
  - destruct (zv_ofs x H) as (y & ->). exists (PExtend i j y). reflexivity.
  - destruct (zv_of x H) as (y & ->). exists (PDok (OpSet i j y)). reflexivity.
  - destruct (zv_of x H) as (y & ->). exists (PDok (OpAdd i j y)). reflexivity.
  - destruct (zv_of x H) as (y & ->). exists (PDok (OpSub i j y)). reflexivity.
Qed.
Lemma call_of c : call_typed J c -> exists c', c = call_map zv c'.
Proof.
  destruct c as [f k|u v|p v|b v w|k vs]; cbn [call_typed]; intros H.
  - destruct (maker_of k H) as (y & ->). exists (CMake f y). reflexivity.
  - destruct (unary_of u H) as (y & ->). exists (CUn y v). reflexivity.
  - destruct (inplace_of p H) as (y & ->). exists (CIn y v). reflexivity.
  - exists (CBin b v w). reflexivity.
  - exists (CBlk k vs). reflexivity.
Qed.
Lemma all_of {A B} (P : B -> Prop) (f : A -> B) : (forall b, P b -> exists a, b = f a) -> forall l, Forall P l -> exists k, l = map f k.
Proof. intros H l. induction 1 as [|b l Hb _ (k & ->)]; [exists []; reflexivity|]. destruct (H b Hb) as (a & ->). exists (a :: k). reflexivity. Qed.
Lemma look_of o : look_typed J o -> exists o', o = look_map zv o'.
Proof.
  destruct o as [o|x| |i j]; cbn [look_typed]; intros H.
  - destruct (zv_order o H) as (y & ->). exists (LDense y). reflexivity.
  - destruct (zv_ofs x H) as (y & ->). exists (LVec y). reflexivity.
  - exists LDiag. reflexivity.
  - exists (LGet i j). reflexivity.
Qed.
Lemma typed_answer a : answer_typed J (answer_map zv a).
Proof. destruct a; cbn [answer_typed answer_map]; [|apply zv_all|apply zv_in]. apply Forall_forall. intros l H. apply in_map_iff in H. destruct H as (k & <- & _). apply zv_all. Qed.
Lemma c93_range : forall (I : ity) (cs : list (call Z)) st st', Forall (mat_typed J) st -> Forall (call_typed J) cs ->
  @run_ck Z _ _ (int_checked J) (int_checked_neg J) I st cs = Ok st' -> Forall (mat_typed J) st'.
Proof.
  intros I cs st st' Hs Hc. destruct (all_of _ _ mat_of st Hs) as (s & ->). destruct (all_of _ _ call_of cs Hc) as (c & ->).
  rewrite (hom_run_ck (CU := int_checked J) (CNU := int_checked_neg J) I zv); try reflexivity; try (intros ? ?; reflexivity); try (intros; apply zv_lift).
  destruct (run_ck I s c); cbn [rmap]; try discriminate. intros [= <-]. apply Forall_forall. intros m H. apply in_map_iff in H. destruct H as (m' & <- & _). apply typed_map.
Qed.
Lemma c93_answers : forall (I : ity) (o : look Z) m a, mat_typed J m -> look_typed J o -> @do_look_ck Z _ (int_checked J) I o m = Some (Ok a) -> answer_typed J a.
Proof.
  intros I o m a Hm Ho. destruct (mat_of m Hm) as (m' & ->). destruct (look_of o Ho) as (o' & ->).
  rewrite (hom_look_ck (CU := int_checked J) I zv); try reflexivity; try (intros ? ?; reflexivity); try (intros; apply zv_lift).
  destruct (do_look_ck I o' m') as [[]|]; cbn [rmap option_map]; try discriminate. intros [= <-]. apply typed_answer.
Qed.
End Sub.

Section Ring.
Context {T : Type} {SC : Scalar T} {SN : ScalarNeg T} {ER : ExactRing T} {CK : Checked T} {CN : CheckedNeg T}.
Context {L : CheckedLaw True T} {LN : CheckedNegLaw True T}.
Variable I : ity.
Lemma c93_history : forall cs : list (call T), calls_ok I [] cs ->
  run_ck I [] cs = Panic \/ exists st, run_ck I [] cs = Ok st /\ Forall2 holds st (table_run [] cs).
Proof.
  intros cs H. destruct (c62_history I cs H) as (st & E & F). destruct (may_run (P := True) I cs []) as [[E1 _]|E1]; [left; exact E1|]. right. exists st. rewrite E1. split; assumption.
Qed.
Lemma c93_look : forall (cs : list (call T)) st v m o, calls_ok I [] cs -> run_ck I [] cs = Ok st -> nth_error st v = Some m -> look_ok I o m ->
  do_look_ck I o m = Some Panic \/ do_look_ck I o m = Some (Ok (table_look o (nth v (table_run [] cs) no_table))).
Proof.
  intros cs st v m o H E Em Ho. assert (E' : run I [] cs = Ok st). { destruct (may_run (P := True) I cs []) as [[E1 _]|E1]; congruence. }
  pose proof (c62_look I cs st v m o H E' Em Ho) as EL. pose proof (may_look (P := True) I o m) as M. rewrite EL in M. destruct (do_look_ck I o m) as [r|]; cbn [omay] in M; [|contradiction].
  destruct M as [[M _]|M]; rewrite M; [left|right]; reflexivity.
Qed.
End Ring.
