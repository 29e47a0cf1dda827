(** Termination whatever the arrays: [tc m Q] says that [m] does not run out of fuel and that [Q] holds of what it
    returns, if it returns. *)
From Verif Require Import Rust Scalar Model_kernels Model_matrix Model_graph SpecMore Wp GraphProofs.

Definition tc {A} (m : res A) (Q : A -> Prop) : Prop := match m with Ok a => Q a | NoFuel => False | _ => True end.
Lemma tc_ends {A} (m : res A) Q : tc m Q -> ends m.
Proof. destruct m; cbn; intros H E; try discriminate. exact H. Qed.
Lemma ends_tc {A} (m : res A) : ends m -> tc m (fun _ => True).
Proof. destruct m; cbn; auto. Qed.
Lemma tc_ok {A} (a : A) (Q : A -> Prop) : Q a -> tc (Ok a) Q.
Proof. exact (fun H => H). Qed.
Lemma tc_mono {A} (m : res A) (P Q : A -> Prop) : tc m P -> (forall a, P a -> Q a) -> tc m Q.
Proof. destruct m; cbn; auto. Qed.
Lemma tc_bind {A B} (m : res A) (f : A -> res B) (P : A -> Prop) Q : tc m P -> (forall a, P a -> tc (f a) Q) -> tc (bind m f) Q.
Proof. destruct m; cbn; auto. Qed.
Lemma tc_any {A B} (m : res A) (f : A -> res B) Q : ends m -> (forall a, tc (f a) Q) -> tc (bind m f) Q.
Proof. intros H1 H2. destruct m; cbn; auto; contradiction. Qed.
Lemma tc_for {St} (Inv : nat -> St -> Prop) lo hi f (s : St) : Inv lo s -> lo <= hi ->
  (forall i s, lo <= i < hi -> Inv i s -> tc (f i s) (Inv (S i))) -> tc (for_range lo hi f s) (Inv hi).
Proof.
  intros H0 Hle H. unfold for_range. remember (hi - lo) as k eqn:Ek.
  assert (G : forall k i s, Inv i s -> lo <= i -> i + k = hi -> tc (for_n k i f s) (Inv hi)).
  { clear s k Ek H0. induction k as [|k IH]; intros i s Hi Hl E; cbn [for_n].
    - apply tc_ok. replace hi with i by lia. exact Hi.
    - eapply tc_bind; [apply H; [lia|exact Hi]|]. intros s' Hs. apply IH; [exact Hs|lia|lia]. }
  apply G; [exact H0|lia|lia].
Qed.
Lemma tc_for_inv {St} (Inv : St -> Prop) lo hi f (s : St) : Inv s -> (forall i s, Inv s -> tc (f i s) Inv) -> tc (for_range lo hi f s) Inv.
Proof.
  intros H0 H. unfold for_range. generalize (hi - lo) as k. intros k. revert lo s H0. induction k as [|k IH]; intros i s Hi; cbn [for_n]; [exact Hi|].
  eapply tc_bind; [apply H, Hi|]. intros s' Hs. apply IH, Hs.
Qed.
Lemma tc_for_exit_inv {St R} (Inv : St -> Prop) (Q : R -> Prop) lo hi (f : nat -> St -> res (ctl St R)) (s : St) : Inv s ->
  (forall i s, Inv s -> tc (f i s) (fun c => match c with Cont s' => Inv s' | Stop r => Q r end)) ->
  tc (for_range_exit lo hi f s) (fun c => match c with Cont s' => Inv s' | Stop r => Q r end).
Proof.
  intros H0 H. unfold for_range_exit. generalize (hi - lo) as k. intros k. revert lo s H0. induction k as [|k IH]; intros i s Hi; cbn [for_n_exit]; [exact Hi|].
  eapply tc_bind; [apply H, Hi|]. intros [s'|r] Hs; [apply IH, Hs|exact Hs].
Qed.
Lemma tc_for_each_inv {St A} (Inv : St -> Prop) (l : list A) f (s : St) : Inv s -> (forall a s, Inv s -> tc (f a s) Inv) -> tc (for_each l f s) Inv.
Proof. intros H0 H. revert s H0. induction l as [|a l IH]; intros s Hi; cbn; [exact Hi|]. eapply tc_bind; [apply H, Hi|]. intros s' Hs. apply IH, Hs. Qed.
Lemma tc_for_enum_inv {St A} (Inv : St -> Prop) k (l : list A) f (s : St) : Inv s -> (forall k a s, Inv s -> tc (f k a s) Inv) -> tc (for_enum k l f s) Inv.
Proof. intros H0 H. revert k s H0. induction l as [|a l IH]; intros k s Hi; cbn; [exact Hi|]. eapply tc_bind; [apply H, Hi|]. intros s' Hs. apply IH, Hs. Qed.
Lemma tc_while {St} (Inv : St -> Prop) (mu : St -> nat) fuel cond body (s : St) (Q : St -> Prop) : Inv s -> mu s < fuel ->
  (forall s, Inv s -> tc (cond s) (fun b : bool => if b then tc (body s) (fun s' => Inv s' /\ mu s' < mu s) else Q s)) ->
  tc (while fuel cond body s) Q.
Proof.
  intros H0 Hm H. revert s H0 Hm. induction fuel as [|k IH]; intros s Hi Hm; [lia|]. cbn [while].
  eapply tc_bind; [apply H, Hi|]. intros [|] Hb; [|exact Hb]. eapply tc_bind; [exact Hb|]. intros s' [Hs Hl]. apply IH; [exact Hs|lia].
Qed.
Lemma tc_while_exit {St} (Inv : St -> Prop) (mu : St -> nat) fuel cond body (s : St) (Q : St -> Prop) : Inv s -> mu s < fuel ->
  (forall s, Inv s -> tc (cond s) (fun b : bool => if b then tc (body s) (fun c => match c with Cont s' => Inv s' /\ mu s' < mu s | Stop s' => Q s' end) else Q s)) ->
  tc (while_exit fuel cond body s) Q.
Proof.
  intros H0 Hm H. revert s H0 Hm. induction fuel as [|k IH]; intros s Hi Hm; [lia|]. cbn [while_exit].
  eapply tc_bind; [apply H, Hi|]. intros [|] Hb; [|exact Hb]. eapply tc_bind; [exact Hb|]. intros [s'|s'] Hs; [|exact Hs]. destruct Hs as [Hs Hl]. apply IH; [exact Hs|lia].
Qed.

(** operations that use no fuel *)
Lemma ends_ok {A} (a : A) : ends (Ok a).
Proof. discriminate. Qed.
Lemma ends_err {A} e : ends (Err e : res A).
Proof. discriminate. Qed.
Lemma ends_panic {A} : ends (Panic : res A).
Proof. discriminate. Qed.
Lemma ends_bind {A B} (m : res A) (f : A -> res B) : ends m -> (forall a, ends (f a)) -> ends (bind m f).
Proof. intros H1 H2. destruct m; cbn; [apply H2|discriminate|discriminate|contradiction]. Qed.
Lemma ends_unwrap {A} (m : res A) : ends m -> ends (unwrap m).
Proof. destruct m; cbn; intros; try discriminate. assumption. Qed.
Lemma ends_for {St} lo hi f (s : St) : (forall i s, ends (f i s)) -> ends (for_range lo hi f s).
Proof. intros H. apply (tc_ends _ (fun _ => True)). apply tc_for_inv; [exact Logic.I|]. intros. apply ends_tc, H. Qed.
Lemma ends_for_exit {St R} lo hi (f : nat -> St -> res (ctl St R)) (s : St) : (forall i s, ends (f i s)) -> ends (for_range_exit lo hi f s).
Proof. intros H. apply (tc_ends _ (fun c => match c with Cont _ => True | Stop _ => True end)). apply tc_for_exit_inv; [exact Logic.I|]. intros. eapply tc_mono; [apply ends_tc, H|]. intros [?|?]; auto. Qed.
Lemma ends_for_each {St A} (l : list A) f (s : St) : (forall a s, ends (f a s)) -> ends (for_each l f s).
Proof. intros H. apply (tc_ends _ (fun _ => True)). apply tc_for_each_inv; [exact Logic.I|]. intros. apply ends_tc, H. Qed.
Lemma ends_for_enum {St A} k (l : list A) f (s : St) : (forall k a s, ends (f k a s)) -> ends (for_enum k l f s).
Proof. intros H. apply (tc_ends _ (fun _ => True)). apply tc_for_enum_inv; [exact Logic.I|]. intros. apply ends_tc, H. Qed.
Lemma ends_mapM {A B} (f : A -> res B) l : (forall a, ends (f a)) -> ends (mapM f l).
Proof. intros H. induction l as [|a l IH]; cbn; [discriminate|]. apply ends_bind; [apply H|]. intros b. apply ends_bind; [exact IH|]. discriminate. Qed.
Lemma ends_vget {A} (l : list A) i : ends (vget l i).
Proof. unfold vget. destruct (nth_error l i); discriminate. Qed.
Lemma ends_vset {A} (l : list A) i a : ends (vset l i a).
Proof. unfold vset. destruct (_ <? _); discriminate. Qed.
Lemma ends_vslice {A} (l : list A) s e : ends (vslice l s e).
Proof. unfold vslice. destruct (_ && _); discriminate. Qed.
Lemma ends_icheck I z : ends (icheck I z).
Proof. unfold icheck. destruct (_ && _); discriminate. Qed.
Lemma ends_to_usize z : ends (to_usize z).
Proof. unfold to_usize. destruct (_ <=? _)%Z; discriminate. Qed.
Lemma ends_usub (bd : Build) a b : ends (@usub bd a b).
Proof. unfold usub. destruct (_ <=? _); [discriminate|destruct bd; discriminate]. Qed.
Lemma ends_uadd (bd : Build) a b : ends (@uadd bd a b).
Proof. unfold uadd. destruct (_ <=? _)%Z; [discriminate|destruct bd; discriminate]. Qed.
Lemma ends_iadd (bd : Build) I a b : ends (@iadd bd I a b).
Proof. destruct bd; [apply ends_icheck|discriminate]. Qed.
Lemma ends_isub (bd : Build) I a b : ends (@isub bd I a b).
Proof. destruct bd; [apply ends_icheck|discriminate]. Qed.
Lemma ends_pget p i : ends (pget p i).
Proof. apply ends_bind; [apply ends_vget|]. intros. apply ends_to_usize. Qed.

Lemma tc_pget p i : tc (pget p i) (fun _ => i < length p).
Proof.
  unfold pget, vget. destruct (nth_error p i) eqn:E; cbn [bind tc]; [|exact Logic.I]. unfold to_usize. destruct (_ <=? _)%Z; cbn [tc]; [|exact Logic.I]. apply nth_error_Some. congruence.
Qed.

Ltac en1 :=
  match goal with
  | |- ends (Ok _) => apply ends_ok
  | |- ends (Err _) => apply ends_err
  | |- ends Panic => apply ends_panic
  | |- ends (bind _ _) => apply ends_bind; [|let a := fresh "a" in intros a]
  | |- ends (unwrap _) => apply ends_unwrap
  | |- ends (for_range _ _ _ _) => apply ends_for; let i := fresh "i" in let s := fresh "s" in intros i s
  | |- ends (for_range_exit _ _ _ _) => apply ends_for_exit; let i := fresh "i" in let s := fresh "s" in intros i s
  | |- ends (for_each _ _ _) => apply ends_for_each; let i := fresh "i" in let s := fresh "s" in intros i s
  | |- ends (for_enum _ _ _ _) => apply ends_for_enum; let k := fresh "k" in let i := fresh "i" in let s := fresh "s" in intros k i s
  | |- ends (mapM _ _) => apply ends_mapM; let a := fresh "a" in intros a
  | |- ends (vget _ _) => apply ends_vget
  | |- ends (vset _ _ _) => apply ends_vset
  | |- ends (vslice _ _ _) => apply ends_vslice
  | |- ends (icheck _ _) => apply ends_icheck
  | |- ends (@iadd _ _ _ _) => apply ends_iadd
  | |- ends (@isub _ _ _ _) => apply ends_isub
  | |- ends (ifrom _ _) => apply ends_icheck
  | |- ends (to_usize _) => apply ends_to_usize
  | |- ends (@usub _ _ _) => apply ends_usub
  | |- ends (@uadd _ _ _) => apply ends_uadd
  | |- ends (pget _ _) => apply ends_pget
  | |- ends (let '(_, _) := ?x in _) => destruct x
  | |- ends (if ?b then _ else _) => destruct b
  | |- ends (match ?x with _ => _ end) => destruct x
  | |- ends (let x := _ in _) => cbv zeta
  end.
Ltac en := repeat en1; auto.
(** steps over operations whose result does not matter for the measure *)
Ltac tcs := repeat first
  [ apply tc_any; [solve [en]|let a := fresh "a" in intros a]
  | match goal with
    | |- tc (let '(_, _) := ?x in _) _ => destruct x
    | |- tc (if ?b then _ else _) _ => destruct b
    | |- tc (match ?x with _ => _ end) _ => destruct x
    | |- tc (let x := _ in _) _ => cbv zeta
    end ].

Section Kernels.
Context {T : Type} {SC : Scalar T}.
Variable I : ity.
Section Binop.
Context {T2 : Type} {NZ : Nonzero T2}.
Variable op : T -> T -> res T2.
Hypothesis Hop : forall u v, ends (op u v).
Lemma ends_emit j r st : ends (@binop_emit T2 NZ j r st).
Proof. unfold binop_emit. en. Qed.
Lemma ends_scan (bd : Build) s e xj (xx : list T) st : ends (binop_scan (BD:=bd) I s e xj xx st).
Proof. unfold binop_scan, vaddto. en. Qed.
Hint Resolve ends_emit ends_scan : core.
Lemma ends_binop_canonical n m ap aj ax bp bj bx cp cj (cx : list T2) : ends (csr_binop_csr_canonical I op n m ap aj ax bp bj bx cp cj cx).
Proof.
  unfold csr_binop_csr_canonical. en.
  - match goal with |- ends (while (S (?ae - _ + (?be - _))) _ _ _) =>
      apply (tc_ends _ (fun _ => True)), (tc_while (fun _ => True) (fun '(x, y, _) => (ae - x) + (be - y))); [exact Logic.I|cbn; lia|];
      intros [[x y] o] _; cbn [tc]; destruct (Nat.ltb_spec x ae); [|exact Logic.I]; destruct (Nat.ltb_spec y be); [|exact Logic.I] end.
    cbn [andb]. tcs; (split; [exact Logic.I|lia]).
  - match goal with |- ends (while (S (?ae - _)) _ _ _) =>
      apply (tc_ends _ (fun _ => True)), (tc_while (fun _ => True) (fun '(x, _) => ae - x)); [exact Logic.I|cbn; lia|];
      intros [x o] _; cbn [tc]; destruct (Nat.ltb_spec x ae); [|exact Logic.I] end.
    tcs; (split; [exact Logic.I|lia]).
  - match goal with |- ends (while (S (?ae - _)) _ _ _) =>
      apply (tc_ends _ (fun _ => True)), (tc_while (fun _ => True) (fun '(x, _) => ae - x)); [exact Logic.I|cbn; lia|];
      intros [x o] _; cbn [tc]; destruct (Nat.ltb_spec x ae); [|exact Logic.I] end.
    tcs; (split; [exact Logic.I|lia]).
Qed.
Lemma ends_binop_general (bd : Build) n m ap aj ax bp bj bx cp cj (cx : list T2) : ends (csr_binop_csr_general (BD:=bd) I op n m ap aj ax bp bj bx cp cj cx).
Proof. unfold csr_binop_csr_general. en. Qed.
Lemma ends_canonical_format (bd : Build) n p j : ends (csr_has_canonical_format (BD:=bd) I n p j).
Proof. unfold csr_has_canonical_format. en. Qed.
Lemma ends_binop (bd : Build) n m ap aj ax bp bj bx cp cj (cx : list T2) : ends (csr_binop_csr (BD:=bd) I op n m ap aj ax bp bj bx cp cj cx).
Proof. unfold csr_binop_csr. en; first [apply ends_canonical_format|apply ends_binop_canonical|apply ends_binop_general]. Qed.
End Binop.

Lemma ends_sum_duplicates n m p j (x : list T) : ends (csr_sum_duplicates I n m p j x).
Proof.
  unfold csr_sum_duplicates. en.
  match goal with |- ends (while (S (?re - _)) _ _ _) => set (e := re);
    apply (tc_ends _ (fun _ => True)), (tc_while (fun _ => True) (fun '(x, _, _, _) => e - x)); [exact Logic.I|cbn; lia|] end.
  intros [[[q aj] ax] o] _. cbn [tc]. destruct (Nat.ltb_spec q e); [|exact Logic.I]. tcs.
  eapply (tc_bind _ _ (fun st => q + 1 <= fst st)).
  - apply (tc_while (fun st => q + 1 <= fst st) (fun st => e - fst st)); [cbn; lia|cbn; lia|].
    intros [r y] Hr. cbn [fst] in *. destruct (Nat.ltb_spec r e); [|exact Hr]. tcs. cbn [tc]. destruct (_ =? _)%Z; [|exact Hr]. tcs. cbn. lia.
  - intros [r y] Hr. cbn [fst] in Hr. tcs. cbn. split; [exact Logic.I|lia].
Qed.
Lemma ends_eliminate_zeros n m p j (x : list T) : ends (csr_eliminate_zeros I n m p j x).
Proof.
  unfold csr_eliminate_zeros. en.
  match goal with |- ends (while (S (?re - _)) _ _ _) => set (e := re);
    apply (tc_ends _ (fun _ => True)), (tc_while (fun _ => True) (fun '(x, _, _, _) => e - x)); [exact Logic.I|cbn; lia|] end.
  intros [[[q aj] ax] o] _. cbn [tc]. destruct (Nat.ltb_spec q e); [|exact Logic.I]. tcs; cbn; (split; [exact Logic.I|lia]).
Qed.
(** a positive step needs at most as many rounds as there are rows to go *)
Lemma tc_uadd_debug a b (Q : nat -> Prop) : Q (a + b) -> tc (uadd a b) Q.
Proof. intros H. unfold uadd. destruct (_ <=? _)%Z; [exact H|exact Logic.I]. Qed.
Lemma ends_row_slice fuel lo hi st p j (x : list T) bj bx : 0 < st \/ lo <= hi -> hi - lo < fuel -> ends (csr_row_slice fuel lo hi st p j x bj bx).
Proof.
  intros Hs Hf. unfold csr_row_slice. destruct (Nat.ltb_spec 0 st).
  - en. apply (tc_ends _ (fun _ => True)), (tc_while (fun _ => True) (fun '(r, _, _) => hi - r)); [exact Logic.I|exact Hf|].
    intros [[r b] y] _. cbn [tc]. destruct (Nat.ltb_spec r hi); [|exact Logic.I]. do 4 (apply tc_any; [solve [en]|intros ?]).
    eapply tc_bind; [apply (tc_uadd_debug _ _ (fun r' => r' = r + st)); reflexivity|]. intros r' ->. cbn. split; [exact Logic.I|lia].
  - en. destruct fuel as [|f]; [lia|]. cbn [while bind]. destruct (Nat.ltb_spec hi lo); [lia|]. discriminate.
Qed.
(** without overflow checks a large step walks down: it needs at most as many rounds as there are rows below *)
Lemma ends_row_slice_release fuel lo hi st p j (x : list T) bj bx : 0 < st -> (Z.of_nat st <= imax Usize)%Z -> (Z.of_nat (length p) <= 2 ^ 63)%Z -> hi + lo + 1 < fuel ->
  ends (csr_row_slice (BD:=Release) fuel lo hi st p j x bj bx).
Proof.
  intros Hs Hu Hp Hf. change (imax Usize) with (2 ^ 64 - 1)%Z in Hu. unfold csr_row_slice. destruct (Nat.ltb_spec 0 st); [|lia]. en. apply (tc_ends _ (fun _ => True)).
  destruct (Z_le_gt_dec (Z.of_nat st) (2 ^ 63)) as [HS|HS].
  - apply (tc_while (fun _ => True) (fun '(r, _, _) => hi - r)); [exact Logic.I|lia|].
    intros [[r b] y] _. cbn [tc]. destruct (Nat.ltb_spec r hi); [|exact Logic.I].
    eapply tc_bind; [apply tc_pget|]. intros s L. cbv beta in L. do 3 (apply tc_any; [solve [en]|intros ?]).
    unfold uadd. destruct (Z.leb_spec (Z.of_nat r + Z.of_nat st) (imax Usize)) as [O|O]; [|change (imax Usize) with (2 ^ 64 - 1)%Z in O; lia]. cbn. split; [exact Logic.I|lia].
  - apply (tc_while (fun _ => True) (fun '(r, _, _) => if r <? length p then S r else 0)); [exact Logic.I|destruct (_ <? _); lia|].
    intros [[r b] y] _. cbn [tc]. destruct (Nat.ltb_spec r hi); [|exact Logic.I].
    eapply tc_bind; [apply tc_pget|]. intros s L. cbv beta in L. do 3 (apply tc_any; [solve [en]|intros ?]).
    unfold uadd. destruct (Z.leb_spec (Z.of_nat r + Z.of_nat st) (imax Usize)) as [O|O]; cbn [bind tc]; (split; [exact Logic.I|]).
    + destruct (Nat.ltb_spec (r + st) (length p)); [lia|]. destruct (Nat.ltb_spec r (length p)); lia.
    + assert (E : iwrap Usize (Z.of_nat r + Z.of_nat st) = (Z.of_nat r + Z.of_nat st - 2 ^ 64)%Z).
      { unfold iwrap. change (imin Usize) with 0%Z. change (imax Usize) with (2 ^ 64 - 1)%Z in *. rewrite !Z.sub_0_r, Z.add_0_l. symmetry. apply (Z.mod_unique_pos _ _ 1); lia. }
      rewrite E. change (imax Usize) with (2 ^ 64 - 1)%Z in O. destruct (Nat.ltb_spec r (length p)); [|lia]. destruct (_ <? _); lia.
Qed.
End Kernels.

(** the graph functions *)
Lemma tc_while_ghost {St} (Inv : nat -> St -> Prop) fuel cond body k (s : St) (Q : St -> Prop) : Inv k s -> k < fuel ->
  (forall k s, Inv k s -> tc (cond s) (fun b : bool => if b then tc (body s) (fun s' => exists k', k' < k /\ Inv k' s') else Q s)) ->
  tc (while fuel cond body s) Q.
Proof.
  intros H0 Hm H. revert k s H0 Hm. induction fuel as [|f IH]; intros k s Hi Hm; [lia|]. cbn [while].
  eapply tc_bind; [apply (H k), Hi|]. intros [|] Hb; [|exact Hb]. eapply tc_bind; [exact Hb|]. intros s' (k' & Hl & Hs). apply (IH k'); [exact Hs|lia].
Qed.
Lemma tc_vget {A} (l : list A) i d (Q : A -> Prop) : (i < length l -> Q (nth i l d)) -> tc (vget l i) Q.
Proof. intros H. destruct (Nat.lt_ge_cases i (length l)) as [L|L]; [rewrite (vget_nth _ _ d L); apply H, L|]. unfold vget. rewrite (proj2 (nth_error_None l i) L). exact Logic.I. Qed.
Lemma tc_vset {A} (l : list A) i a (Q : list A -> Prop) : (i < length l -> Q (upd l i a)) -> tc (vset l i a) Q.
Proof. intros H. unfold vset. destruct (Nat.ltb_spec i (length l)); [apply H; assumption|exact Logic.I]. Qed.
Lemma ends_node_unwrap a : ends (node_unwrap a).
Proof. destruct a; discriminate. Qed.

Definition voids (l : list node) : nat := length (filter (fun a => node_eqb a NVoid) l).
Lemma voids_le l : voids l <= length l.
Proof. unfold voids. induction l as [|a l IH]; cbn; [lia|]. destruct (node_eqb a NVoid); cbn; lia. Qed.
Lemma voids_upd l w x : w < length l -> x <> NVoid -> voids (upd l w x) + (if node_eqb (nth w l NVoid) NVoid then 1 else 0) = voids l.
Proof.
  intros H Hx. assert (Ex : node_eqb x NVoid = false) by (destruct x; [reflexivity|contradiction|reflexivity]). revert w H. unfold voids. induction l as [|a l IH]; intros [|w] H; cbn in *; try lia.
  - rewrite Ex. destruct (node_eqb a NVoid); cbn; lia.
  - specialize (IH w ltac:(lia)). destruct (node_eqb a NVoid); cbn [length]; lia.
Qed.
Lemma tc_push_row idx ptr v lab h (S : list nat) k : chain lab h S -> NoDup S -> voids lab + length S = k ->
  tc (cc_push_row idx ptr v (lab, h)) (fun '(lab', h') => exists S', chain lab' h' S' /\ NoDup S' /\ voids lab' + length S' = k /\ length lab' = length lab).
Proof.
  intros C N E. unfold cc_push_row. tcs. apply (tc_for_inv (fun '(lab', h') => exists S', chain lab' h' S' /\ NoDup S' /\ voids lab' + length S' = k /\ length lab' = length lab)); [eauto|].
  intros i [lab' h'] (S' & C' & N' & E' & L'). apply tc_any; [en|]. intros w. eapply tc_bind; [apply (tc_vget _ _ NVoid (fun lw => w < length lab' /\ lw = nth w lab' NVoid)); auto|]. intros lw [Hw ->].
  destruct (node_eqb (nth w lab' NVoid) NVoid) eqn:Ew; [|apply tc_ok; eauto].
  eapply tc_bind; [apply (tc_vset _ _ _ (fun l => l = upd lab' w h')); auto|]. intros l ->. apply tc_ok. exists (w :: S').
  assert (Nw : ~ In w S'). { intros X. apply (chain_in _ _ _ _ C') in X. destruct (nth w lab' NVoid); cbn in Ew; try discriminate. tauto. }
  split; [|split; [|split]].
  - cbn [chain]. rewrite upd_length, nth_upd_eq by exact Hw. split; [reflexivity|split; [exact Hw|]]. apply chain_upd; assumption.
  - constructor; assumption.
  - pose proof (voids_upd lab' w h' Hw (chain_nonvoid _ _ _ C')) as V. rewrite Ew in V. cbn [length]. lia.
  - rewrite upd_length. exact L'.
Qed.
Lemma ends_cc_undirected n i1 p1 i2 p2 : ends (connected_components_undirected n i1 p1 i2 p2).
Proof.
  apply (tc_ends _ (fun _ => True)). unfold connected_components_undirected. eapply (tc_bind _ _ (fun _ => True)).
  2:{ intros [lab l] _. apply tc_any; [apply ends_mapM, ends_node_unwrap|]. intros out. exact Logic.I. }
  eapply tc_mono; [apply (tc_for_inv (fun '(lab, _) => length lab = n)); [apply repeat_length|]|auto].
  intros v [lab label] L. eapply tc_bind; [apply (tc_vget _ _ NVoid (fun lw => v < length lab /\ lw = nth v lab NVoid)); auto|]. intros lv [Hv ->].
  destruct (node_eqb (nth v lab NVoid) NVoid) eqn:Ev; [|exact L].
  eapply tc_bind; [apply (tc_vset _ _ _ (fun l => l = upd lab v NEnd)); auto|]. intros l ->.
  eapply (tc_bind _ _ (fun '(lab, _) => length lab = n)); [|intros [lab' h] L'; exact L'].
  pose proof (voids_upd lab v NEnd Hv ltac:(discriminate)) as V. rewrite Ev in V. pose proof (voids_le lab) as VL.
  apply (tc_while_ghost (fun k '(lab, h) => exists S, chain lab h S /\ NoDup S /\ voids lab + length S = k /\ length lab = n) _ _ _ (voids (upd lab v NEnd) + 1)); [|lia|].
  - exists [v]. cbn [chain length]. rewrite upd_length, nth_upd_eq by exact Hv. repeat split; try assumption. constructor; [intros []|constructor].
  - intros k [lab' h] (S & C & N & E & L'). cbn [tc]. destruct S as [|u S].
    + cbn in C. subst h. exact L'.
    + cbn in C. destruct C as (-> & Hu & C). cbn [node_eqb negb node_unwrap bind]. eapply tc_bind; [apply (tc_vget _ _ NVoid (fun lw => lw = nth u lab' NVoid)); auto|]. intros h ->.
      eapply tc_bind; [apply (tc_vset _ _ _ (fun l => l = upd lab' u (NLabel label))); auto|]. intros l ->. apply NoDup_cons_iff in N. destruct N as [Nu N].
      assert (C1 : chain (upd lab' u (NLabel label)) (nth u lab' NVoid) S) by (apply chain_upd; assumption).
      pose proof (voids_upd lab' u (NLabel label) Hu ltac:(discriminate)) as V'. pose proof (chain_nonvoid _ _ _ C) as NV.
      replace (node_eqb (nth u lab' NVoid) NVoid) with false in V' by (destruct (nth u lab' NVoid); [reflexivity|contradiction|reflexivity]).
      eapply tc_bind; [apply (tc_push_row i1 p1 u _ _ S (k - 1) C1 N); cbn [length] in E; lia|]. intros [lab2 h2] (S2 & C2 & N2 & E2 & L2).
      eapply tc_mono; [apply (tc_push_row i2 p2 u _ _ S2 (k - 1) C2 N2 E2)|]. intros [lab3 h3] (S3 & C3 & N3 & E3 & L3). exists (k - 1). split; [cbn [length] in E; lia|].
      exists S3. repeat split; try assumption. rewrite L3, L2, upd_length. exact L'.
Qed.
Lemma ends_cs_graph_components (bd : Build) I F n p j flag : ends (cs_graph_components (BD:=bd) I F n p j flag).
Proof.
  unfold cs_graph_components. cbv zeta. en; try (unfold ctl_state; en).
  match goal with |- ends (while _ _ _ 0) => apply (tc_ends _ (fun _ => True)), (tc_while (fun i => i <= n) (fun i => n - i)); [lia|lia|] end.
  intros ii Hi. tcs. cbn [tc]. destruct (_ || _); [|exact Logic.I]. destruct (Nat.leb_spec n (ii + 1)); cbn [tc]; [exact Logic.I|lia].
Qed.
Lemma tc_dfs_scan idx ptr v i e rl nl pr fl : (0 <= i)%Z ->
  tc (dfs_scan idx ptr v (i, e, rl, nl, pr, fl)) (fun '(i', e', rl', nl', pr', fl', none) =>
    if none then i' = i /\ e' = e /\ nl' = nl else i' = (i + 1)%Z /\ e' = e + 1 /\ e < length nl /\ length nl' = length nl).
Proof.
  intros Hi. unfold dfs_scan. do 2 (apply tc_any; [en|]; intros ?).
  eapply tc_bind.
  - apply (tc_for_exit_inv (fun s : dfs_state => s = (i, e, rl, nl, pr, fl)) (fun s : dfs_state => let '(i', e', _, nl', _, _) := s in i' = (i + 1)%Z /\ e' = e + 1 /\ e < length nl /\ length nl' = length nl)); [reflexivity|].
    intros k s ->. apply tc_any; [en|]. intros w. apply tc_any; [en|]. intros f. destruct f; [reflexivity|]. apply tc_any; [en|]. intros ur. apply tc_any; [en|]. intros rl1.
    eapply tc_bind; [apply (tc_vset _ _ _ (fun l => e < length nl /\ l = upd nl e w)); auto|]. intros nl1 [He ->]. apply tc_any; [en|]. intros pr1. apply tc_any; [en|]. intros fl1. cbn [tc]. rewrite upd_length. auto.
  - intros [s|s] H; cbn [tc].
    + subst s. auto.
    + destruct s as [[[[[? ?] ?] ?] ?] ?]. exact H.
Qed.
Lemma tc_dfs_init h nl pr : tc (dfs_init h nl pr) (fun '(i, e, _, nl', _, _) => i = 0%Z /\ e = 1 /\ length nl' = length nl /\ 0 < length nl).
Proof.
  unfold dfs_init. cbv zeta. eapply tc_bind; [apply (tc_vset _ _ _ (fun l => 0 < length nl /\ l = upd nl 0 h)); auto|]. intros nl' [H ->]. apply tc_any; [en|]. intros ?. apply tc_any; [en|]. intros ?. cbn [tc]. rewrite upd_length. auto.
Qed.
Lemma ends_dfs_directed h idx ptr nl pr : ends (depth_first_directed h idx ptr nl pr).
Proof.
  apply (tc_ends _ (fun _ => True)). unfold depth_first_directed. cbv zeta. eapply tc_bind; [apply tc_dfs_init|]. intros [[[[[i e] rl] nl1] pr1] fl] (-> & -> & L & P).
  eapply (tc_bind _ _ (fun _ => True)); [|intros [[[[[? ?] ?] ?] ?] ?] _; exact Logic.I].
  apply (tc_while_exit (fun s : dfs_state => let '(i, e, _, nl', _, _) := s in e <= length nl /\ length nl' = length nl) (fun s : dfs_state => let '(i, e, _, _, _, _) := s in Z.to_nat (i + 1) + 2 * (length nl - e))); [lia|lia|].
  intros [[[[[i e] rl1] nl2] pr2] fl2] [He L2]. cbn [tc]. destruct (Z.leb_spec 0 i); [|exact Logic.I]. apply tc_any; [en|]. intros v.
  eapply tc_bind; [apply tc_dfs_scan; assumption|]. intros [[[[[[i' e'] rl3] nl3] pr3] fl3] none] Hs. destruct (e' =? length nl); [exact Logic.I|]. destruct none; cbn [tc].
  - destruct Hs as (-> & -> & ->). repeat split; try assumption. lia.
  - destruct Hs as (-> & -> & Hl & L3). repeat split; lia.
Qed.
Lemma ends_dfs_undirected h i1 p1 i2 p2 nl pr : ends (depth_first_undirected h i1 p1 i2 p2 nl pr).
Proof.
  apply (tc_ends _ (fun _ => True)). unfold depth_first_undirected. cbv zeta. eapply tc_bind; [apply tc_dfs_init|]. intros [[[[[i e] rl] nl1] pr1] fl] (-> & -> & L & P).
  eapply (tc_bind _ _ (fun _ => True)); [|intros [[[[[? ?] ?] ?] ?] ?] _; exact Logic.I].
  apply (tc_while_exit (fun s : dfs_state => let '(i, e, _, nl', _, _) := s in e <= length nl /\ length nl' = length nl) (fun s : dfs_state => let '(i, e, _, _, _, _) := s in Z.to_nat (i + 1) + 2 * (length nl - e))); [lia|lia|].
  intros [[[[[i e] rl1] nl2] pr2] fl2] [He L2]. cbn [tc]. destruct (Z.leb_spec 0 i); [|exact Logic.I]. apply tc_any; [en|]. intros v.
  eapply tc_bind; [apply tc_dfs_scan; assumption|]. intros [[[[[[i' e'] rl3] nl3] pr3] fl3] none] Hs.
  eapply (tc_bind _ _ (fun '(i', e', rl', nl', pr', fl', none) => if none : bool then i' = i /\ e' = e /\ nl' = nl2 else i' = (i + 1)%Z /\ e' = e + 1 /\ e < length nl2 /\ length nl' = length nl2)).
  - destruct none; [|exact Hs]. destruct Hs as (-> & -> & ->). apply tc_dfs_scan. assumption.
  - clear Hs. intros [[[[[[i4 e4] rl4] nl4] pr4] fl4] none4] Hs. destruct (e4 =? length nl); [exact Logic.I|]. destruct none4; cbn [tc].
    + destruct Hs as (-> & -> & ->). repeat split; try assumption. lia.
    + destruct Hs as (-> & -> & Hl & L3). repeat split; lia.
Qed.
