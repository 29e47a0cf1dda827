(** One lemma per function: it commutes with a map of scalars. *)
From Verif Require Import Rust Scalar Model_kernels Model_matrix Model_graph Model_dok Model_text SpecHom HomProofs.
Create HintDb homs.
Section Hom.
Context {BD : Build} {T U : Type} {ST : Scalar T} {SU : Scalar U} (h : T -> U).
Local Instance mapT : Map T U | 3 := h.
Context (K0 : h s0 = s0) (K1 : h s1 = s1).
Context (Kadd : forall x y, h (sadd x y) = sadd (h x) (h y)) (Ksub : forall x y, h (ssub x y) = ssub (h x) (h y)) (Kmul : forall x y, h (smul x y) = smul (h x) (h y)).
Context (Keq : keeps_eq h).
Context {NT : ScalarNeg T} {NU : ScalarNeg U} (Kneg : keeps_neg h).
Context {OT : ScalarOrd T} {OU : ScalarOrd U} (Kltb : forall x y, sltb (h x) (h y) = sltb x y) (Kleb : forall x y, sleb (h x) (h y) = sleb x y) (Kdiv : forall x y, sdiv (h x) (h y) = rmap h (sdiv x y)).
Lemma Keq' u v x y : u = h x -> v = h y -> seqb u v = seqb x y.
Proof. intros -> ->. apply Keq. Qed.
Ltac hun := hcbv; unfold mapT.
Ltac hrw := hun; autorewrite with hom; cbn [fst snd]; rewrite ?map_length, ?K0, ?K1, ?Kadd, ?Ksub, ?Kmul, ?Kneg.
Ltac heq := intros; hrw; first [reflexivity | match goal with |- map _ (map _ _) = map _ (map _ _) => rewrite !map_map; apply map_ext; intros; heq | |- negb _ = negb _ => f_equal; heq | |- seqb _ _ = seqb _ _ => apply Keq'; heq | |- context[match ?x with _ => _ end] => is_var x; destruct x; heq end].
Ltac hvars := repeat match goal with x : prod _ _ |- _ => destruct x | x : unit |- _ => destruct x end.
Ltac h1 :=
  match goal with
  | |- ?x = rmap _ ?x => apply rmap_id
  | |- Ok _ = rmap _ (Ok _) => cbn [rmap]; apply f_equal; solve [heq]
  | |- Err _ = rmap _ _ => reflexivity
  | |- Panic = rmap _ _ => reflexivity
  | |- bind _ _ = rmap _ (bind _ _) => refine (hom_bind _ _ _ _ _ _); [|let a := fresh "a" in intros a; hvars; hun]
  | |- unwrap _ = rmap _ (unwrap _) => refine (hom_unwrap _ _ _)
  | |- for_range _ _ _ _ = rmap _ (for_range _ _ _ _) => apply hom_for; [solve [heq]|solve [heq]|solve [heq]|let i := fresh "i" in let s := fresh "s" in intros i s; hvars; hun]
  | |- for_range_exit _ _ _ _ = rmap _ (for_range_exit _ _ _ _) => refine (hom_for_exit _ _ _ _ _ _ _ _ _ _ _ _); [solve [heq]|solve [heq]|solve [heq]|let i := fresh "i" in let s := fresh "s" in intros i s; hvars; hun]
  | |- for_each _ _ _ = rmap _ (for_each _ _ _) => refine (hom_for_each _ _ _ _ _ _ _ _ _); [solve [heq]|solve [heq]|let i := fresh "i" in let s := fresh "s" in intros i s; hvars; hun]
  | |- for_enum _ _ _ _ = rmap _ (for_enum _ _ _ _) => refine (hom_for_enum _ _ _ _ _ _ _ _ _ _); [solve [heq]|solve [heq]|let k := fresh "k" in let i := fresh "i" in let s := fresh "s" in intros k i s; hvars; hun]
  | |- while _ _ _ _ = rmap _ (while _ _ _ _) => refine (hom_while _ _ _ _ _ _ _ _ _ _ _ _); [solve [heq]|solve [heq]| |]; let s := fresh "s" in intros s; hvars; hun
  | |- mapM _ _ = rmap _ (mapM _ _) => refine (hom_mapM _ _ _ _ _ _); [solve [heq]|let a := fresh "a" in intros a; hvars; hun]
  | |- vget _ _ = rmap _ (vget _ _) => apply hom_vget; solve [heq]
  | |- vset _ _ _ = rmap _ (vset _ _ _) => apply hom_vset; solve [heq]
  | |- vslice _ _ _ = rmap _ (vslice _ _ _) => apply hom_vslice; solve [heq]
  | |- (if _ then _ else _) = rmap _ (if _ then _ else _) => apply hom_if; [solve [heq]| |]
  | |- _ = rmap _ (match ?x with _ => _ end) => is_var x; destruct x; hun
  | |- match ?x with _ => _ end = rmap _ (match ?x with _ => _ end) => destruct x; hun
  | |- _ => solve [typeclasses eauto with homs]
  end.
Ltac hom := repeat h1.
Hint Extern 9 (_ = _) => solve [heq] : homs.
Ltac homf f := intros; subst; hvars; unfold f; hun; rewrite ?map_length; hom.
Ltac heqf f := intros; subst; hvars; unfold f; heq.

Lemma hom_vaddto (a2 : list T) (a2' : list U) (a3 : nat) (a3' : nat) (a4 : T) (a4' : U) : a2' = hmap a2 -> a3' = hmap a3 -> a4' = hmap a4 -> @vaddto U SU a2' a3' a4' = rmap hmap (@vaddto T ST a2 a3 a4).
Proof. homf @vaddto. Qed.
Hint Extern 0 (_ = rmap _ (@vaddto _ _ _ _ _)) => apply hom_vaddto : homs.
Lemma hom_axpy (a2 : nat) (a2' : nat) (a3 : T) (a3' : U) (a4 : list T) (a4' : list U) (a5 : nat) (a5' : nat) (a6 : list T) (a6' : list U) (a7 : nat) (a7' : nat) : a2' = hmap a2 -> a3' = hmap a3 -> a4' = hmap a4 -> a5' = hmap a5 -> a6' = hmap a6 -> a7' = hmap a7 -> @axpy U SU a2' a3' a4' a5' a6' a7' = rmap hmap (@axpy T ST a2 a3 a4 a5 a6 a7).
Proof. homf @axpy. Qed.
Hint Extern 0 (_ = rmap _ (@axpy _ _ _ _ _ _ _ _)) => apply hom_axpy : homs.
Lemma hom_csr_diagonal (a3 : Z) (a3' : Z) (a4 : nat) (a4' : nat) (a5 : nat) (a5' : nat) (a6 : list Z) (a6' : list Z) (a7 : list Z) (a7' : list Z) (a8 : list T) (a8' : list U) (a9 : list T) (a9' : list U) : a3' = hmap a3 -> a4' = hmap a4 -> a5' = hmap a5 -> a6' = hmap a6 -> a7' = hmap a7 -> a8' = hmap a8 -> a9' = hmap a9 -> @csr_diagonal BD U SU a3' a4' a5' a6' a7' a8' a9' = rmap hmap (@csr_diagonal BD T ST a3 a4 a5 a6 a7 a8 a9).
Proof. homf @csr_diagonal. Qed.
Hint Extern 0 (_ = rmap _ (@csr_diagonal _ _ _ _ _ _ _ _ _ _)) => apply hom_csr_diagonal : homs.
Lemma hom_csr_scale_rows (a2 : nat) (a2' : nat) (a3 : nat) (a3' : nat) (a4 : list Z) (a4' : list Z) (a5 : list Z) (a5' : list Z) (a6 : list T) (a6' : list U) (a7 : list T) (a7' : list U) : a2' = hmap a2 -> a3' = hmap a3 -> a4' = hmap a4 -> a5' = hmap a5 -> a6' = hmap a6 -> a7' = hmap a7 -> @csr_scale_rows U SU a2' a3' a4' a5' a6' a7' = rmap hmap (@csr_scale_rows T ST a2 a3 a4 a5 a6 a7).
Proof. homf @csr_scale_rows. Qed.
Hint Extern 0 (_ = rmap _ (@csr_scale_rows _ _ _ _ _ _ _ _)) => apply hom_csr_scale_rows : homs.
Lemma hom_csr_scale_columns (a2 : nat) (a2' : nat) (a3 : nat) (a3' : nat) (a4 : list Z) (a4' : list Z) (a5 : list Z) (a5' : list Z) (a6 : list T) (a6' : list U) (a7 : list T) (a7' : list U) : a2' = hmap a2 -> a3' = hmap a3 -> a4' = hmap a4 -> a5' = hmap a5 -> a6' = hmap a6 -> a7' = hmap a7 -> @csr_scale_columns U SU a2' a3' a4' a5' a6' a7' = rmap hmap (@csr_scale_columns T ST a2 a3 a4 a5 a6 a7).
Proof. homf @csr_scale_columns. Qed.
Hint Extern 0 (_ = rmap _ (@csr_scale_columns _ _ _ _ _ _ _ _)) => apply hom_csr_scale_columns : homs.
Lemma hom_csr_todense (a2 : nat) (a2' : nat) (a3 : nat) (a3' : nat) (a4 : list Z) (a4' : list Z) (a5 : list Z) (a5' : list Z) (a6 : list T) (a6' : list U) (a7 : list (list T)) (a7' : list (list U)) : a2' = hmap a2 -> a3' = hmap a3 -> a4' = hmap a4 -> a5' = hmap a5 -> a6' = hmap a6 -> a7' = hmap a7 -> @csr_todense U SU a2' a3' a4' a5' a6' a7' = rmap hmap (@csr_todense T ST a2 a3 a4 a5 a6 a7).
Proof. homf @csr_todense. Qed.
Hint Extern 0 (_ = rmap _ (@csr_todense _ _ _ _ _ _ _ _)) => apply hom_csr_todense : homs.
Lemma hom_insert_by x l : map (fun p : Z * T => (fst p, h (snd p))) (insert_by x l) = insert_by (fst x, h (snd x)) (map (fun p : Z * T => (fst p, h (snd p))) l).
Proof. induction l as [|y l IH]; cbn [insert_by map fst snd]; [reflexivity|]. destruct (_ <=? _)%Z; cbn [map fst snd]; [reflexivity|]. now rewrite IH. Qed.
Lemma hom_sort_by l : map (fun p : Z * T => (fst p, h (snd p))) (sort_by l) = sort_by (map (fun p : Z * T => (fst p, h (snd p))) l).
Proof. induction l as [|y l IH]; cbn [sort_by map fst snd]; [reflexivity|]. now rewrite hom_insert_by, IH. Qed.
Hint Rewrite hom_sort_by : hom.
Lemma hom_csr_sort_indices (a3 : nat) (a3' : nat) (a4 : list Z) (a4' : list Z) (a5 : list Z) (a5' : list Z) (a6 : list T) (a6' : list U) : a3' = hmap a3 -> a4' = hmap a4 -> a5' = hmap a5 -> a6' = hmap a6 -> @csr_sort_indices BD U SU a3' a4' a5' a6' = rmap hmap (@csr_sort_indices BD T ST a3 a4 a5 a6).
Proof. homf @csr_sort_indices. Qed.
Hint Extern 0 (_ = rmap _ (@csr_sort_indices _ _ _ _ _ _ _)) => apply hom_csr_sort_indices : homs.
Lemma hom_csr_tocsc (a2 : ity) (a3 : nat) (a3' : nat) (a4 : nat) (a4' : nat) (a5 : list Z) (a5' : list Z) (a6 : list Z) (a6' : list Z) (a7 : list T) (a7' : list U) (a8 : list Z) (a8' : list Z) (a9 : list Z) (a9' : list Z) (a10 : list T) (a10' : list U) : a3' = hmap a3 -> a4' = hmap a4 -> a5' = hmap a5 -> a6' = hmap a6 -> a7' = hmap a7 -> a8' = hmap a8 -> a9' = hmap a9 -> a10' = hmap a10 -> @csr_tocsc BD U a2 a3' a4' a5' a6' a7' a8' a9' a10' = rmap hmap (@csr_tocsc BD T a2 a3 a4 a5 a6 a7 a8 a9 a10).
Proof. homf @csr_tocsc. Qed.
Hint Extern 0 (_ = rmap _ (@csr_tocsc _ _ _ _ _ _ _ _ _ _ _)) => apply hom_csr_tocsc : homs.
Lemma hom_csr_matmat (a3 : ity) (a4 : nat) (a4' : nat) (a5 : nat) (a5' : nat) (a6 : list Z) (a6' : list Z) (a7 : list Z) (a7' : list Z) (a8 : list T) (a8' : list U) (a9 : list Z) (a9' : list Z) (a10 : list Z) (a10' : list Z) (a11 : list T) (a11' : list U) (a12 : list Z) (a12' : list Z) (a13 : list Z) (a13' : list Z) (a14 : list T) (a14' : list U) : a4' = hmap a4 -> a5' = hmap a5 -> a6' = hmap a6 -> a7' = hmap a7 -> a8' = hmap a8 -> a9' = hmap a9 -> a10' = hmap a10 -> a11' = hmap a11 -> a12' = hmap a12 -> a13' = hmap a13 -> a14' = hmap a14 -> @csr_matmat BD U SU a3 a4' a5' a6' a7' a8' a9' a10' a11' a12' a13' a14' = rmap hmap (@csr_matmat BD T ST a3 a4 a5 a6 a7 a8 a9 a10 a11 a12 a13 a14).
Proof. homf @csr_matmat. Qed.
Hint Extern 0 (_ = rmap _ (@csr_matmat _ _ _ _ _ _ _ _ _ _ _ _ _ _ _)) => apply hom_csr_matmat : homs.
Lemma hom_binop_scan (a3 : ity) (a4 : nat) (a4' : nat) (a5 : nat) (a5' : nat) (a6 : list Z) (a6' : list Z) (a7 : list T) (a7' : list U) (a8 : prod (prod (prod (list Z) (list T)) Z) Z) (a8' : prod (prod (prod (list Z) (list U)) Z) Z) : a4' = hmap a4 -> a5' = hmap a5 -> a6' = hmap a6 -> a7' = hmap a7 -> a8' = hmap a8 -> @binop_scan BD U SU a3 a4' a5' a6' a7' a8' = rmap hmap (@binop_scan BD T ST a3 a4 a5 a6 a7 a8).
Proof. homf @binop_scan. Qed.
Hint Extern 0 (_ = rmap _ (@binop_scan _ _ _ _ _ _ _ _ _)) => apply hom_binop_scan : homs.
Section HBinop.
Context {T2 U2 : Type} {NZ : Nonzero T2} {NZ' : Nonzero U2} {h2 : Map T2 U2} (Knz : forall x, nonzero (h2 x) = nonzero x).
Context (op : T -> T -> res T2) (op' : U -> U -> res U2) (Kop : forall a b, op' (h a) (h b) = rmap h2 (op a b)).
Hint Rewrite Knz : hom.
Lemma hom_op x y x' y' : x' = h x -> y' = h y -> op' x' y' = rmap h2 (op x y).
Proof. intros -> ->. apply Kop. Qed.
Hint Extern 0 (_ = rmap _ (op _ _)) => apply hom_op : homs.
Lemma hom_csr_binop_csr_general I n_row n_col a_p a_j a_x b_p b_j b_x c_p c_j c_x :
  csr_binop_csr_general I op' n_row n_col a_p a_j (map h a_x) b_p b_j (map h b_x) c_p c_j (map h2 c_x) = rmap hmap (csr_binop_csr_general I op n_row n_col a_p a_j a_x b_p b_j b_x c_p c_j c_x).
Proof. homf @csr_binop_csr_general. Qed.
Lemma hom_binop_emit j r r' (st : list Z * list T2 * nat) (st' : list Z * list U2 * nat) : r' = h2 r -> st' = hmap st -> binop_emit j r' st' = rmap hmap (binop_emit j r st).
Proof. homf @binop_emit. Qed.
Hint Extern 0 (_ = rmap _ (binop_emit _ _ _)) => apply hom_binop_emit : homs.
Lemma hom_csr_binop_csr_canonical I n_row n_col a_p a_j a_x b_p b_j b_x c_p c_j c_x :
  csr_binop_csr_canonical I op' n_row n_col a_p a_j (map h a_x) b_p b_j (map h b_x) c_p c_j (map h2 c_x) = rmap hmap (csr_binop_csr_canonical I op n_row n_col a_p a_j a_x b_p b_j b_x c_p c_j c_x).
Proof. homf @csr_binop_csr_canonical. Qed.
Lemma hom_csr_binop_csr I n_row n_col a_p a_j a_x b_p b_j b_x c_p c_j c_x :
  csr_binop_csr I op' n_row n_col a_p a_j (map h a_x) b_p b_j (map h b_x) c_p c_j (map h2 c_x) = rmap hmap (csr_binop_csr I op n_row n_col a_p a_j a_x b_p b_j b_x c_p c_j c_x).
Proof.
  unfold csr_binop_csr. apply hom_bind; [apply rmap_id|]. intros a. apply hom_bind; [apply rmap_id|]. intros [|]; [apply hom_csr_binop_csr_canonical|apply hom_csr_binop_csr_general].
Qed.
End HBinop.
Lemma hom_binop_bool (op : T -> T -> res bool) (op' : U -> U -> res bool) : (forall a b, op' (h a) (h b) = op a b) -> forall I n_row n_col a_p a_j a_x b_p b_j b_x c_p c_j c_x,
  csr_binop_csr I op' n_row n_col a_p a_j (map h a_x) b_p b_j (map h b_x) c_p c_j c_x = rmap (fun r => r) (csr_binop_csr I op n_row n_col a_p a_j a_x b_p b_j b_x c_p c_j c_x).
Proof.
  intros H I n_row n_col a_p a_j a_x b_p b_j b_x c_p c_j c_x. rewrite <- rmap_id. rewrite <- (map_idd c_x) at 1.
  etransitivity; [apply (hom_csr_binop_csr (h2 := fun b => b)) with (op := op); [reflexivity|intros; rewrite H; apply rmap_id]|].
  hun. destruct (csr_binop_csr _ _ _ _ _ _ _ _ _ _ _ _ _) as [[[p j] x]| | |]; try reflexivity. cbn [rmap fst snd]. now rewrite map_idd.
Qed.
Ltac homb f := intros; subst; unfold f; hun; first [apply hom_binop_bool|apply (hom_csr_binop_csr (h2 := h))]; intros; try (cbn [nonzero nonzero_scalar rmap]);
  rewrite <- ?Kadd, <- ?Ksub, <- ?Kmul; solve [rewrite ?Kltb, ?Kleb; first [reflexivity | apply Kdiv | now rewrite Keq | rewrite <- K0; now rewrite Keq | destruct (sltb _ _); reflexivity]].
Lemma hom_csr_ne_csr (a3 : ity) (a4 : nat) (a4' : nat) (a5 : nat) (a5' : nat) (a6 : list Z) (a6' : list Z) (a7 : list Z) (a7' : list Z) (a8 : list T) (a8' : list U) (a9 : list Z) (a9' : list Z) (a10 : list Z) (a10' : list Z) (a11 : list T) (a11' : list U) (a12 : list Z) (a12' : list Z) (a13 : list Z) (a13' : list Z) (a14 : list bool) (a14' : list bool) : a4' = hmap a4 -> a5' = hmap a5 -> a6' = hmap a6 -> a7' = hmap a7 -> a8' = hmap a8 -> a9' = hmap a9 -> a10' = hmap a10 -> a11' = hmap a11 -> a12' = hmap a12 -> a13' = hmap a13 -> a14' = hmap a14 -> @csr_ne_csr BD U SU a3 a4' a5' a6' a7' a8' a9' a10' a11' a12' a13' a14' = rmap hmap (@csr_ne_csr BD T ST a3 a4 a5 a6 a7 a8 a9 a10 a11 a12 a13 a14).
Proof. homb @csr_ne_csr. Qed.
Hint Extern 0 (_ = rmap _ (@csr_ne_csr _ _ _ _ _ _ _ _ _ _ _ _ _ _ _)) => apply hom_csr_ne_csr : homs.
Lemma hom_csr_eq_csr (a3 : ity) (a4 : nat) (a4' : nat) (a5 : nat) (a5' : nat) (a6 : list Z) (a6' : list Z) (a7 : list Z) (a7' : list Z) (a8 : list T) (a8' : list U) (a9 : list Z) (a9' : list Z) (a10 : list Z) (a10' : list Z) (a11 : list T) (a11' : list U) (a12 : list Z) (a12' : list Z) (a13 : list Z) (a13' : list Z) (a14 : list bool) (a14' : list bool) : a4' = hmap a4 -> a5' = hmap a5 -> a6' = hmap a6 -> a7' = hmap a7 -> a8' = hmap a8 -> a9' = hmap a9 -> a10' = hmap a10 -> a11' = hmap a11 -> a12' = hmap a12 -> a13' = hmap a13 -> a14' = hmap a14 -> @csr_eq_csr BD U SU a3 a4' a5' a6' a7' a8' a9' a10' a11' a12' a13' a14' = rmap hmap (@csr_eq_csr BD T ST a3 a4 a5 a6 a7 a8 a9 a10 a11 a12 a13 a14).
Proof. homb @csr_eq_csr. Qed.
Hint Extern 0 (_ = rmap _ (@csr_eq_csr _ _ _ _ _ _ _ _ _ _ _ _ _ _ _)) => apply hom_csr_eq_csr : homs.
Lemma hom_csr_mul_csr (a3 : ity) (a4 : nat) (a4' : nat) (a5 : nat) (a5' : nat) (a6 : list Z) (a6' : list Z) (a7 : list Z) (a7' : list Z) (a8 : list T) (a8' : list U) (a9 : list Z) (a9' : list Z) (a10 : list Z) (a10' : list Z) (a11 : list T) (a11' : list U) (a12 : list Z) (a12' : list Z) (a13 : list Z) (a13' : list Z) (a14 : list T) (a14' : list U) : a4' = hmap a4 -> a5' = hmap a5 -> a6' = hmap a6 -> a7' = hmap a7 -> a8' = hmap a8 -> a9' = hmap a9 -> a10' = hmap a10 -> a11' = hmap a11 -> a12' = hmap a12 -> a13' = hmap a13 -> a14' = hmap a14 -> @csr_mul_csr BD U SU a3 a4' a5' a6' a7' a8' a9' a10' a11' a12' a13' a14' = rmap hmap (@csr_mul_csr BD T ST a3 a4 a5 a6 a7 a8 a9 a10 a11 a12 a13 a14).
Proof. homb @csr_mul_csr. Qed.
Hint Extern 0 (_ = rmap _ (@csr_mul_csr _ _ _ _ _ _ _ _ _ _ _ _ _ _ _)) => apply hom_csr_mul_csr : homs.
Lemma hom_csr_div_csr (a3 : ity) (a4 : nat) (a4' : nat) (a5 : nat) (a5' : nat) (a6 : list Z) (a6' : list Z) (a7 : list Z) (a7' : list Z) (a8 : list T) (a8' : list U) (a9 : list Z) (a9' : list Z) (a10 : list Z) (a10' : list Z) (a11 : list T) (a11' : list U) (a12 : list Z) (a12' : list Z) (a13 : list Z) (a13' : list Z) (a14 : list T) (a14' : list U) : a4' = hmap a4 -> a5' = hmap a5 -> a6' = hmap a6 -> a7' = hmap a7 -> a8' = hmap a8 -> a9' = hmap a9 -> a10' = hmap a10 -> a11' = hmap a11 -> a12' = hmap a12 -> a13' = hmap a13 -> a14' = hmap a14 -> @csr_div_csr BD U SU a3 a4' a5' a6' a7' a8' a9' a10' a11' a12' a13' a14' = rmap hmap (@csr_div_csr BD T ST a3 a4 a5 a6 a7 a8 a9 a10 a11 a12 a13 a14).
Proof. homb @csr_div_csr. Qed.
Hint Extern 0 (_ = rmap _ (@csr_div_csr _ _ _ _ _ _ _ _ _ _ _ _ _ _ _)) => apply hom_csr_div_csr : homs.
Lemma hom_csr_add_csr (a3 : ity) (a4 : nat) (a4' : nat) (a5 : nat) (a5' : nat) (a6 : list Z) (a6' : list Z) (a7 : list Z) (a7' : list Z) (a8 : list T) (a8' : list U) (a9 : list Z) (a9' : list Z) (a10 : list Z) (a10' : list Z) (a11 : list T) (a11' : list U) (a12 : list Z) (a12' : list Z) (a13 : list Z) (a13' : list Z) (a14 : list T) (a14' : list U) : a4' = hmap a4 -> a5' = hmap a5 -> a6' = hmap a6 -> a7' = hmap a7 -> a8' = hmap a8 -> a9' = hmap a9 -> a10' = hmap a10 -> a11' = hmap a11 -> a12' = hmap a12 -> a13' = hmap a13 -> a14' = hmap a14 -> @csr_add_csr BD U SU a3 a4' a5' a6' a7' a8' a9' a10' a11' a12' a13' a14' = rmap hmap (@csr_add_csr BD T ST a3 a4 a5 a6 a7 a8 a9 a10 a11 a12 a13 a14).
Proof. homb @csr_add_csr. Qed.
Hint Extern 0 (_ = rmap _ (@csr_add_csr _ _ _ _ _ _ _ _ _ _ _ _ _ _ _)) => apply hom_csr_add_csr : homs.
Lemma hom_csr_sub_csr (a3 : ity) (a4 : nat) (a4' : nat) (a5 : nat) (a5' : nat) (a6 : list Z) (a6' : list Z) (a7 : list Z) (a7' : list Z) (a8 : list T) (a8' : list U) (a9 : list Z) (a9' : list Z) (a10 : list Z) (a10' : list Z) (a11 : list T) (a11' : list U) (a12 : list Z) (a12' : list Z) (a13 : list Z) (a13' : list Z) (a14 : list T) (a14' : list U) : a4' = hmap a4 -> a5' = hmap a5 -> a6' = hmap a6 -> a7' = hmap a7 -> a8' = hmap a8 -> a9' = hmap a9 -> a10' = hmap a10 -> a11' = hmap a11 -> a12' = hmap a12 -> a13' = hmap a13 -> a14' = hmap a14 -> @csr_sub_csr BD U SU a3 a4' a5' a6' a7' a8' a9' a10' a11' a12' a13' a14' = rmap hmap (@csr_sub_csr BD T ST a3 a4 a5 a6 a7 a8 a9 a10 a11 a12 a13 a14).
Proof. homb @csr_sub_csr. Qed.
Hint Extern 0 (_ = rmap _ (@csr_sub_csr _ _ _ _ _ _ _ _ _ _ _ _ _ _ _)) => apply hom_csr_sub_csr : homs.
Lemma hom_csr_lt_csr (a3 : ity) (a5 : nat) (a5' : nat) (a6 : nat) (a6' : nat) (a7 : list Z) (a7' : list Z) (a8 : list Z) (a8' : list Z) (a9 : list T) (a9' : list U) (a10 : list Z) (a10' : list Z) (a11 : list Z) (a11' : list Z) (a12 : list T) (a12' : list U) (a13 : list Z) (a13' : list Z) (a14 : list Z) (a14' : list Z) (a15 : list bool) (a15' : list bool) : a5' = hmap a5 -> a6' = hmap a6 -> a7' = hmap a7 -> a8' = hmap a8 -> a9' = hmap a9 -> a10' = hmap a10 -> a11' = hmap a11 -> a12' = hmap a12 -> a13' = hmap a13 -> a14' = hmap a14 -> a15' = hmap a15 -> @csr_lt_csr BD U SU a3 OU a5' a6' a7' a8' a9' a10' a11' a12' a13' a14' a15' = rmap hmap (@csr_lt_csr BD T ST a3 OT a5 a6 a7 a8 a9 a10 a11 a12 a13 a14 a15).
Proof. homb @csr_lt_csr. Qed.
Hint Extern 0 (_ = rmap _ (@csr_lt_csr _ _ _ _ _ _ _ _ _ _ _ _ _ _ _ _)) => apply hom_csr_lt_csr : homs.
Lemma hom_csr_le_csr (a3 : ity) (a5 : nat) (a5' : nat) (a6 : nat) (a6' : nat) (a7 : list Z) (a7' : list Z) (a8 : list Z) (a8' : list Z) (a9 : list T) (a9' : list U) (a10 : list Z) (a10' : list Z) (a11 : list Z) (a11' : list Z) (a12 : list T) (a12' : list U) (a13 : list Z) (a13' : list Z) (a14 : list Z) (a14' : list Z) (a15 : list bool) (a15' : list bool) : a5' = hmap a5 -> a6' = hmap a6 -> a7' = hmap a7 -> a8' = hmap a8 -> a9' = hmap a9 -> a10' = hmap a10 -> a11' = hmap a11 -> a12' = hmap a12 -> a13' = hmap a13 -> a14' = hmap a14 -> a15' = hmap a15 -> @csr_le_csr BD U SU a3 OU a5' a6' a7' a8' a9' a10' a11' a12' a13' a14' a15' = rmap hmap (@csr_le_csr BD T ST a3 OT a5 a6 a7 a8 a9 a10 a11 a12 a13 a14 a15).
Proof. homb @csr_le_csr. Qed.
Hint Extern 0 (_ = rmap _ (@csr_le_csr _ _ _ _ _ _ _ _ _ _ _ _ _ _ _ _)) => apply hom_csr_le_csr : homs.
Lemma hom_csr_gt_csr (a3 : ity) (a5 : nat) (a5' : nat) (a6 : nat) (a6' : nat) (a7 : list Z) (a7' : list Z) (a8 : list Z) (a8' : list Z) (a9 : list T) (a9' : list U) (a10 : list Z) (a10' : list Z) (a11 : list Z) (a11' : list Z) (a12 : list T) (a12' : list U) (a13 : list Z) (a13' : list Z) (a14 : list Z) (a14' : list Z) (a15 : list bool) (a15' : list bool) : a5' = hmap a5 -> a6' = hmap a6 -> a7' = hmap a7 -> a8' = hmap a8 -> a9' = hmap a9 -> a10' = hmap a10 -> a11' = hmap a11 -> a12' = hmap a12 -> a13' = hmap a13 -> a14' = hmap a14 -> a15' = hmap a15 -> @csr_gt_csr BD U SU a3 OU a5' a6' a7' a8' a9' a10' a11' a12' a13' a14' a15' = rmap hmap (@csr_gt_csr BD T ST a3 OT a5 a6 a7 a8 a9 a10 a11 a12 a13 a14 a15).
Proof. homb @csr_gt_csr. Qed.
Hint Extern 0 (_ = rmap _ (@csr_gt_csr _ _ _ _ _ _ _ _ _ _ _ _ _ _ _ _)) => apply hom_csr_gt_csr : homs.
Lemma hom_csr_ge_csr (a3 : ity) (a5 : nat) (a5' : nat) (a6 : nat) (a6' : nat) (a7 : list Z) (a7' : list Z) (a8 : list Z) (a8' : list Z) (a9 : list T) (a9' : list U) (a10 : list Z) (a10' : list Z) (a11 : list Z) (a11' : list Z) (a12 : list T) (a12' : list U) (a13 : list Z) (a13' : list Z) (a14 : list Z) (a14' : list Z) (a15 : list bool) (a15' : list bool) : a5' = hmap a5 -> a6' = hmap a6 -> a7' = hmap a7 -> a8' = hmap a8 -> a9' = hmap a9 -> a10' = hmap a10 -> a11' = hmap a11 -> a12' = hmap a12 -> a13' = hmap a13 -> a14' = hmap a14 -> a15' = hmap a15 -> @csr_ge_csr BD U SU a3 OU a5' a6' a7' a8' a9' a10' a11' a12' a13' a14' a15' = rmap hmap (@csr_ge_csr BD T ST a3 OT a5 a6 a7 a8 a9 a10 a11 a12 a13 a14 a15).
Proof. homb @csr_ge_csr. Qed.
Hint Extern 0 (_ = rmap _ (@csr_ge_csr _ _ _ _ _ _ _ _ _ _ _ _ _ _ _ _)) => apply hom_csr_ge_csr : homs.
Lemma hom_csr_max_csr (a3 : ity) (a5 : nat) (a5' : nat) (a6 : nat) (a6' : nat) (a7 : list Z) (a7' : list Z) (a8 : list Z) (a8' : list Z) (a9 : list T) (a9' : list U) (a10 : list Z) (a10' : list Z) (a11 : list Z) (a11' : list Z) (a12 : list T) (a12' : list U) (a13 : list Z) (a13' : list Z) (a14 : list Z) (a14' : list Z) (a15 : list T) (a15' : list U) : a5' = hmap a5 -> a6' = hmap a6 -> a7' = hmap a7 -> a8' = hmap a8 -> a9' = hmap a9 -> a10' = hmap a10 -> a11' = hmap a11 -> a12' = hmap a12 -> a13' = hmap a13 -> a14' = hmap a14 -> a15' = hmap a15 -> @csr_max_csr BD U SU a3 OU a5' a6' a7' a8' a9' a10' a11' a12' a13' a14' a15' = rmap hmap (@csr_max_csr BD T ST a3 OT a5 a6 a7 a8 a9 a10 a11 a12 a13 a14 a15).
Proof. homb @csr_max_csr. Qed.
Hint Extern 0 (_ = rmap _ (@csr_max_csr _ _ _ _ _ _ _ _ _ _ _ _ _ _ _ _)) => apply hom_csr_max_csr : homs.
Lemma hom_csr_min_csr (a3 : ity) (a5 : nat) (a5' : nat) (a6 : nat) (a6' : nat) (a7 : list Z) (a7' : list Z) (a8 : list Z) (a8' : list Z) (a9 : list T) (a9' : list U) (a10 : list Z) (a10' : list Z) (a11 : list Z) (a11' : list Z) (a12 : list T) (a12' : list U) (a13 : list Z) (a13' : list Z) (a14 : list Z) (a14' : list Z) (a15 : list T) (a15' : list U) : a5' = hmap a5 -> a6' = hmap a6 -> a7' = hmap a7 -> a8' = hmap a8 -> a9' = hmap a9 -> a10' = hmap a10 -> a11' = hmap a11 -> a12' = hmap a12 -> a13' = hmap a13 -> a14' = hmap a14 -> a15' = hmap a15 -> @csr_min_csr BD U SU a3 OU a5' a6' a7' a8' a9' a10' a11' a12' a13' a14' a15' = rmap hmap (@csr_min_csr BD T ST a3 OT a5 a6 a7 a8 a9 a10 a11 a12 a13 a14 a15).
Proof. homb @csr_min_csr. Qed.
Hint Extern 0 (_ = rmap _ (@csr_min_csr _ _ _ _ _ _ _ _ _ _ _ _ _ _ _ _)) => apply hom_csr_min_csr : homs.
Lemma hom_csr_sum_duplicates (a2 : ity) (a3 : nat) (a3' : nat) (a4 : nat) (a4' : nat) (a5 : list Z) (a5' : list Z) (a6 : list Z) (a6' : list Z) (a7 : list T) (a7' : list U) : a3' = hmap a3 -> a4' = hmap a4 -> a5' = hmap a5 -> a6' = hmap a6 -> a7' = hmap a7 -> @csr_sum_duplicates U SU a2 a3' a4' a5' a6' a7' = rmap hmap (@csr_sum_duplicates T ST a2 a3 a4 a5 a6 a7).
Proof. homf @csr_sum_duplicates. Qed.
Hint Extern 0 (_ = rmap _ (@csr_sum_duplicates _ _ _ _ _ _ _ _)) => apply hom_csr_sum_duplicates : homs.
Lemma hom_csr_eliminate_zeros (a2 : ity) (a3 : nat) (a3' : nat) (a4 : nat) (a4' : nat) (a5 : list Z) (a5' : list Z) (a6 : list Z) (a6' : list Z) (a7 : list T) (a7' : list U) : a3' = hmap a3 -> a4' = hmap a4 -> a5' = hmap a5 -> a6' = hmap a6 -> a7' = hmap a7 -> @csr_eliminate_zeros U SU a2 a3' a4' a5' a6' a7' = rmap hmap (@csr_eliminate_zeros T ST a2 a3 a4 a5 a6 a7).
Proof. homf @csr_eliminate_zeros. Qed.
Hint Extern 0 (_ = rmap _ (@csr_eliminate_zeros _ _ _ _ _ _ _ _)) => apply hom_csr_eliminate_zeros : homs.
Lemma hom_csr_matvec (a2 : nat) (a2' : nat) (a3 : nat) (a3' : nat) (a4 : list Z) (a4' : list Z) (a5 : list Z) (a5' : list Z) (a6 : list T) (a6' : list U) (a7 : list T) (a7' : list U) (a8 : list T) (a8' : list U) : a2' = hmap a2 -> a3' = hmap a3 -> a4' = hmap a4 -> a5' = hmap a5 -> a6' = hmap a6 -> a7' = hmap a7 -> a8' = hmap a8 -> @csr_matvec U SU a2' a3' a4' a5' a6' a7' a8' = rmap hmap (@csr_matvec T ST a2 a3 a4 a5 a6 a7 a8).
Proof. homf @csr_matvec. Qed.
Hint Extern 0 (_ = rmap _ (@csr_matvec _ _ _ _ _ _ _ _ _)) => apply hom_csr_matvec : homs.
Lemma hom_csr_matvecs (a2 : nat) (a2' : nat) (a3 : nat) (a3' : nat) (a4 : nat) (a4' : nat) (a5 : list Z) (a5' : list Z) (a6 : list Z) (a6' : list Z) (a7 : list T) (a7' : list U) (a8 : list T) (a8' : list U) (a9 : list T) (a9' : list U) : a2' = hmap a2 -> a3' = hmap a3 -> a4' = hmap a4 -> a5' = hmap a5 -> a6' = hmap a6 -> a7' = hmap a7 -> a8' = hmap a8 -> a9' = hmap a9 -> @csr_matvecs U SU a2' a3' a4' a5' a6' a7' a8' a9' = rmap hmap (@csr_matvecs T ST a2 a3 a4 a5 a6 a7 a8 a9).
Proof. homf @csr_matvecs. Qed.
Hint Extern 0 (_ = rmap _ (@csr_matvecs _ _ _ _ _ _ _ _ _ _)) => apply hom_csr_matvecs : homs.
Lemma hom_csr_select (a2 : ity) (a3 : nat) (a3' : nat) (a4 : nat) (a4' : nat) (a5 : list Z) (a5' : list Z) (a6 : list Z) (a6' : list Z) (a7 : list T) (a7' : list U) (a8 : list Z) (a8' : list Z) (a9 : list Z) (a9' : list Z) (a10 : list Z) (a10' : list Z) (a11 : list Z) (a11' : list Z) (a12 : list T) (a12' : list U) : a3' = hmap a3 -> a4' = hmap a4 -> a5' = hmap a5 -> a6' = hmap a6 -> a7' = hmap a7 -> a8' = hmap a8 -> a9' = hmap a9 -> a10' = hmap a10 -> a11' = hmap a11 -> a12' = hmap a12 -> @csr_select U SU a2 a3' a4' a5' a6' a7' a8' a9' a10' a11' a12' = rmap hmap (@csr_select T ST a2 a3 a4 a5 a6 a7 a8 a9 a10 a11 a12).
Proof. homf @csr_select. Qed.
Hint Extern 0 (_ = rmap _ (@csr_select _ _ _ _ _ _ _ _ _ _ _ _ _)) => apply hom_csr_select : homs.
Lemma hom_get_csr_submatrix (a3 : ity) (a4 : nat) (a4' : nat) (a5 : nat) (a5' : nat) (a6 : list Z) (a6' : list Z) (a7 : list Z) (a7' : list Z) (a8 : list T) (a8' : list U) (a9 : Z) (a9' : Z) (a10 : Z) (a10' : Z) (a11 : Z) (a11' : Z) (a12 : Z) (a12' : Z) (a13 : list Z) (a13' : list Z) (a14 : list Z) (a14' : list Z) (a15 : list T) (a15' : list U) : a4' = hmap a4 -> a5' = hmap a5 -> a6' = hmap a6 -> a7' = hmap a7 -> a8' = hmap a8 -> a9' = hmap a9 -> a10' = hmap a10 -> a11' = hmap a11 -> a12' = hmap a12 -> a13' = hmap a13 -> a14' = hmap a14 -> a15' = hmap a15 -> @get_csr_submatrix BD U SU a3 a4' a5' a6' a7' a8' a9' a10' a11' a12' a13' a14' a15' = rmap hmap (@get_csr_submatrix BD T ST a3 a4 a5 a6 a7 a8 a9 a10 a11 a12 a13 a14 a15).
Proof. homf @get_csr_submatrix. Qed.
Hint Extern 0 (_ = rmap _ (@get_csr_submatrix _ _ _ _ _ _ _ _ _ _ _ _ _ _ _ _)) => apply hom_get_csr_submatrix : homs.
Lemma hom_csr_row_index (a1 : nat) (a1' : nat) (a2 : list nat) (a2' : list nat) (a3 : list Z) (a3' : list Z) (a4 : list Z) (a4' : list Z) (a5 : list T) (a5' : list U) (a6 : list Z) (a6' : list Z) (a7 : list T) (a7' : list U) : a1' = hmap a1 -> a2' = hmap a2 -> a3' = hmap a3 -> a4' = hmap a4 -> a5' = hmap a5 -> a6' = hmap a6 -> a7' = hmap a7 -> @csr_row_index U a1' a2' a3' a4' a5' a6' a7' = rmap hmap (@csr_row_index T a1 a2 a3 a4 a5 a6 a7).
Proof. homf @csr_row_index. Qed.
Hint Extern 0 (_ = rmap _ (@csr_row_index _ _ _ _ _ _ _ _)) => apply hom_csr_row_index : homs.
Lemma hom_csr_row_slice (a2 : nat) (a2' : nat) (a3 : nat) (a3' : nat) (a4 : nat) (a4' : nat) (a5 : nat) (a5' : nat) (a6 : list Z) (a6' : list Z) (a7 : list Z) (a7' : list Z) (a8 : list T) (a8' : list U) (a9 : list Z) (a9' : list Z) (a10 : list T) (a10' : list U) : a2' = hmap a2 -> a3' = hmap a3 -> a4' = hmap a4 -> a5' = hmap a5 -> a6' = hmap a6 -> a7' = hmap a7 -> a8' = hmap a8 -> a9' = hmap a9 -> a10' = hmap a10 -> @csr_row_slice BD U a2' a3' a4' a5' a6' a7' a8' a9' a10' = rmap hmap (@csr_row_slice BD T a2 a3 a4 a5 a6 a7 a8 a9 a10).
Proof. homf @csr_row_slice. Qed.
Hint Extern 0 (_ = rmap _ (@csr_row_slice _ _ _ _ _ _ _ _ _ _ _)) => apply hom_csr_row_slice : homs.
Lemma hom_csr_column_index2 (a1 : list Z) (a1' : list Z) (a2 : list Z) (a2' : list Z) (a3 : nat) (a3' : nat) (a4 : list Z) (a4' : list Z) (a5 : list T) (a5' : list U) (a6 : list Z) (a6' : list Z) (a7 : list T) (a7' : list U) : a1' = hmap a1 -> a2' = hmap a2 -> a3' = hmap a3 -> a4' = hmap a4 -> a5' = hmap a5 -> a6' = hmap a6 -> a7' = hmap a7 -> @csr_column_index2 U a1' a2' a3' a4' a5' a6' a7' = rmap hmap (@csr_column_index2 T a1 a2 a3 a4 a5 a6 a7).
Proof. homf @csr_column_index2. Qed.
Hint Extern 0 (_ = rmap _ (@csr_column_index2 _ _ _ _ _ _ _ _)) => apply hom_csr_column_index2 : homs.
Lemma hom_csr_tocoo (a1 : ity) (a2 : nat) (a2' : nat) (a3 : nat) (a3' : nat) (a4 : list Z) (a4' : list Z) (a5 : list Z) (a5' : list Z) (a6 : list T) (a6' : list U) (a7 : list Z) (a7' : list Z) (a8 : list Z) (a8' : list Z) (a9 : list T) (a9' : list U) : a2' = hmap a2 -> a3' = hmap a3 -> a4' = hmap a4 -> a5' = hmap a5 -> a6' = hmap a6 -> a7' = hmap a7 -> a8' = hmap a8 -> a9' = hmap a9 -> @csr_tocoo U a1 a2' a3' a4' a5' a6' a7' a8' a9' = rmap hmap (@csr_tocoo T a1 a2 a3 a4 a5 a6 a7 a8 a9).
Proof. homf @csr_tocoo. Qed.
Hint Extern 0 (_ = rmap _ (@csr_tocoo _ _ _ _ _ _ _ _ _ _)) => apply hom_csr_tocoo : homs.
Lemma hom_coo_tocsr (a2 : ity) (a3 : nat) (a3' : nat) (a4 : nat) (a4' : nat) (a5 : nat) (a5' : nat) (a6 : list Z) (a6' : list Z) (a7 : list Z) (a7' : list Z) (a8 : list T) (a8' : list U) (a9 : list Z) (a9' : list Z) (a10 : list Z) (a10' : list Z) (a11 : list T) (a11' : list U) : a3' = hmap a3 -> a4' = hmap a4 -> a5' = hmap a5 -> a6' = hmap a6 -> a7' = hmap a7 -> a8' = hmap a8 -> a9' = hmap a9 -> a10' = hmap a10 -> a11' = hmap a11 -> @coo_tocsr BD U a2 a3' a4' a5' a6' a7' a8' a9' a10' a11' = rmap hmap (@coo_tocsr BD T a2 a3 a4 a5 a6 a7 a8 a9 a10 a11).
Proof. homf @coo_tocsr. Qed.
Hint Extern 0 (_ = rmap _ (@coo_tocsr _ _ _ _ _ _ _ _ _ _ _ _)) => apply hom_coo_tocsr : homs.
Lemma hom_coo_todense (a2 : nat) (a2' : nat) (a3 : nat) (a3' : nat) (a4 : nat) (a4' : nat) (a5 : list Z) (a5' : list Z) (a6 : list Z) (a6' : list Z) (a7 : list T) (a7' : list U) (a8 : list T) (a8' : list U) (a9 : bool) (a9' : bool) : a2' = hmap a2 -> a3' = hmap a3 -> a4' = hmap a4 -> a5' = hmap a5 -> a6' = hmap a6 -> a7' = hmap a7 -> a8' = hmap a8 -> a9' = hmap a9 -> @coo_todense U SU a2' a3' a4' a5' a6' a7' a8' a9' = rmap hmap (@coo_todense T ST a2 a3 a4 a5 a6 a7 a8 a9).
Proof. homf @coo_todense. Qed.
Hint Extern 0 (_ = rmap _ (@coo_todense _ _ _ _ _ _ _ _ _ _)) => apply hom_coo_todense : homs.
Lemma hom_coo_matvec (a2 : nat) (a2' : nat) (a3 : list Z) (a3' : list Z) (a4 : list Z) (a4' : list Z) (a5 : list T) (a5' : list U) (a6 : list T) (a6' : list U) (a7 : list T) (a7' : list U) : a2' = hmap a2 -> a3' = hmap a3 -> a4' = hmap a4 -> a5' = hmap a5 -> a6' = hmap a6 -> a7' = hmap a7 -> @coo_matvec U SU a2' a3' a4' a5' a6' a7' = rmap hmap (@coo_matvec T ST a2 a3 a4 a5 a6 a7).
Proof. homf @coo_matvec. Qed.
Hint Extern 0 (_ = rmap _ (@coo_matvec _ _ _ _ _ _ _ _)) => apply hom_coo_matvec : homs.
Lemma hom_csc_matvec (a2 : nat) (a2' : nat) (a3 : nat) (a3' : nat) (a4 : list Z) (a4' : list Z) (a5 : list Z) (a5' : list Z) (a6 : list T) (a6' : list U) (a7 : list T) (a7' : list U) (a8 : list T) (a8' : list U) : a2' = hmap a2 -> a3' = hmap a3 -> a4' = hmap a4 -> a5' = hmap a5 -> a6' = hmap a6 -> a7' = hmap a7 -> a8' = hmap a8 -> @csc_matvec U SU a2' a3' a4' a5' a6' a7' a8' = rmap hmap (@csc_matvec T ST a2 a3 a4 a5 a6 a7 a8).
Proof. homf @csc_matvec. Qed.
Hint Extern 0 (_ = rmap _ (@csc_matvec _ _ _ _ _ _ _ _ _)) => apply hom_csc_matvec : homs.
Lemma hom_csc_matvecs (a2 : nat) (a2' : nat) (a3 : nat) (a3' : nat) (a4 : nat) (a4' : nat) (a5 : list Z) (a5' : list Z) (a6 : list Z) (a6' : list Z) (a7 : list T) (a7' : list U) (a8 : list T) (a8' : list U) (a9 : list T) (a9' : list U) : a2' = hmap a2 -> a3' = hmap a3 -> a4' = hmap a4 -> a5' = hmap a5 -> a6' = hmap a6 -> a7' = hmap a7 -> a8' = hmap a8 -> a9' = hmap a9 -> @csc_matvecs U SU a2' a3' a4' a5' a6' a7' a8' a9' = rmap hmap (@csc_matvecs T ST a2 a3 a4 a5 a6 a7 a8 a9).
Proof. homf @csc_matvecs. Qed.
Hint Extern 0 (_ = rmap _ (@csc_matvecs _ _ _ _ _ _ _ _ _ _)) => apply hom_csc_matvecs : homs.
Lemma hom_csc_diagonal (a3 : Z) (a3' : Z) (a4 : nat) (a4' : nat) (a5 : nat) (a5' : nat) (a6 : list Z) (a6' : list Z) (a7 : list Z) (a7' : list Z) (a8 : list T) (a8' : list U) (a9 : list T) (a9' : list U) : a3' = hmap a3 -> a4' = hmap a4 -> a5' = hmap a5 -> a6' = hmap a6 -> a7' = hmap a7 -> a8' = hmap a8 -> a9' = hmap a9 -> @csc_diagonal BD U SU a3' a4' a5' a6' a7' a8' a9' = rmap hmap (@csc_diagonal BD T ST a3 a4 a5 a6 a7 a8 a9).
Proof. homf @csc_diagonal. Qed.
Hint Extern 0 (_ = rmap _ (@csc_diagonal _ _ _ _ _ _ _ _ _ _)) => apply hom_csc_diagonal : homs.
Lemma hom_csc_tocsr (a2 : ity) (a3 : nat) (a3' : nat) (a4 : nat) (a4' : nat) (a5 : list Z) (a5' : list Z) (a6 : list Z) (a6' : list Z) (a7 : list T) (a7' : list U) (a8 : list Z) (a8' : list Z) (a9 : list Z) (a9' : list Z) (a10 : list T) (a10' : list U) : a3' = hmap a3 -> a4' = hmap a4 -> a5' = hmap a5 -> a6' = hmap a6 -> a7' = hmap a7 -> a8' = hmap a8 -> a9' = hmap a9 -> a10' = hmap a10 -> @csc_tocsr BD U a2 a3' a4' a5' a6' a7' a8' a9' a10' = rmap hmap (@csc_tocsr BD T a2 a3 a4 a5 a6 a7 a8 a9 a10).
Proof. homf @csc_tocsr. Qed.
Hint Extern 0 (_ = rmap _ (@csc_tocsr _ _ _ _ _ _ _ _ _ _ _)) => apply hom_csc_tocsr : homs.
Lemma hom_csc_matmat (a3 : ity) (a4 : nat) (a4' : nat) (a5 : nat) (a5' : nat) (a6 : list Z) (a6' : list Z) (a7 : list Z) (a7' : list Z) (a8 : list T) (a8' : list U) (a9 : list Z) (a9' : list Z) (a10 : list Z) (a10' : list Z) (a11 : list T) (a11' : list U) (a12 : list Z) (a12' : list Z) (a13 : list Z) (a13' : list Z) (a14 : list T) (a14' : list U) : a4' = hmap a4 -> a5' = hmap a5 -> a6' = hmap a6 -> a7' = hmap a7 -> a8' = hmap a8 -> a9' = hmap a9 -> a10' = hmap a10 -> a11' = hmap a11 -> a12' = hmap a12 -> a13' = hmap a13 -> a14' = hmap a14 -> @csc_matmat BD U SU a3 a4' a5' a6' a7' a8' a9' a10' a11' a12' a13' a14' = rmap hmap (@csc_matmat BD T ST a3 a4 a5 a6 a7 a8 a9 a10 a11 a12 a13 a14).
Proof. homf @csc_matmat. Qed.
Hint Extern 0 (_ = rmap _ (@csc_matmat _ _ _ _ _ _ _ _ _ _ _ _ _ _ _)) => apply hom_csc_matmat : homs.
Lemma hom_Coo_new (a1 : nat) (a1' : nat) (a2 : nat) (a2' : nat) (a3 : list Z) (a3' : list Z) (a4 : list Z) (a4' : list Z) (a5 : list T) (a5' : list U) : a1' = hmap a1 -> a2' = hmap a2 -> a3' = hmap a3 -> a4' = hmap a4 -> a5' = hmap a5 -> @Coo_new U a1' a2' a3' a4' a5' = rmap hmap (@Coo_new T a1 a2 a3 a4 a5).
Proof. homf @Coo_new. Qed.
Hint Extern 0 (_ = rmap _ (@Coo_new _ _ _ _ _ _)) => apply hom_Coo_new : homs.
Lemma hom_Coo_with_size (a1 : nat) (a1' : nat) (a2 : nat) (a2' : nat) : a1' = hmap a1 -> a2' = hmap a2 -> @Coo_with_size U a1' a2' = hmap (@Coo_with_size T a1 a2).
Proof. heqf @Coo_with_size. Qed.
Lemma hom_bad_length {A B} (f : A -> B) len n : @bad_length BD B len n = rmap f (@bad_length BD A len n).
Proof. unfold bad_length. destruct (Z.eqb _ _); [|reflexivity]. destruct BD; [reflexivity|]. destruct (len =? 0); reflexivity. Qed.
Hint Extern 0 (_ = rmap _ (@bad_length _ _ _ _)) => apply hom_bad_length : homs.
Lemma hom_CSR_new (a2 : nat) (a2' : nat) (a3 : nat) (a3' : nat) (a4 : list Z) (a4' : list Z) (a5 : list Z) (a5' : list Z) (a6 : list T) (a6' : list U) : a2' = hmap a2 -> a3' = hmap a3 -> a4' = hmap a4 -> a5' = hmap a5 -> a6' = hmap a6 -> @CSR_new BD U a2' a3' a4' a5' a6' = rmap hmap (@CSR_new BD T a2 a3 a4 a5 a6).
Proof. homf @CSR_new. Qed.
Hint Extern 0 (_ = rmap _ (@CSR_new _ _ _ _ _ _ _)) => apply hom_CSR_new : homs.
Lemma hom_CSR_with_size (a1 : nat) (a1' : nat) (a2 : nat) (a2' : nat) : a1' = hmap a1 -> a2' = hmap a2 -> @CSR_with_size U a1' a2' = hmap (@CSR_with_size T a1 a2).
Proof. heqf @CSR_with_size. Qed.
Lemma hom_CSC_new (a2 : nat) (a2' : nat) (a3 : nat) (a3' : nat) (a4 : list Z) (a4' : list Z) (a5 : list Z) (a5' : list Z) (a6 : list T) (a6' : list U) : a2' = hmap a2 -> a3' = hmap a3 -> a4' = hmap a4 -> a5' = hmap a5 -> a6' = hmap a6 -> @CSC_new BD U a2' a3' a4' a5' a6' = rmap hmap (@CSC_new BD T a2 a3 a4 a5 a6).
Proof. homf @CSC_new. Qed.
Hint Extern 0 (_ = rmap _ (@CSC_new _ _ _ _ _ _ _)) => apply hom_CSC_new : homs.
Lemma hom_Coo_nnz (a1 : Coo T) (a1' : Coo U) : a1' = hmap a1 -> @Coo_nnz U a1' = hmap (@Coo_nnz T a1).
Proof. heqf @Coo_nnz. Qed.
Lemma hom_CSR_nnz (a2 : CSR T) (a2' : CSR U) : a2' = hmap a2 -> @CSR_nnz BD U a2' = rmap hmap (@CSR_nnz BD T a2).
Proof. homf @CSR_nnz. Qed.
Hint Extern 0 (_ = rmap _ (@CSR_nnz _ _ _)) => apply hom_CSR_nnz : homs.
Lemma hom_CSC_nnz (a2 : CSC T) (a2' : CSC U) : a2' = hmap a2 -> @CSC_nnz BD U a2' = rmap hmap (@CSC_nnz BD T a2).
Proof. homf @CSC_nnz. Qed.
Hint Extern 0 (_ = rmap _ (@CSC_nnz _ _ _)) => apply hom_CSC_nnz : homs.
Lemma hom_Coo_push (a1 : Coo T) (a1' : Coo U) (a2 : Z) (a2' : Z) (a3 : Z) (a3' : Z) (a4 : T) (a4' : U) : a1' = hmap a1 -> a2' = hmap a2 -> a3' = hmap a3 -> a4' = hmap a4 -> @Coo_push U a1' a2' a3' a4' = hmap (@Coo_push T a1 a2 a3 a4).
Proof. heqf @Coo_push. Qed.
Lemma hom_Coo_extend (a1 : Coo T) (a1' : Coo U) (a2 : list Z) (a2' : list Z) (a3 : list Z) (a3' : list Z) (a4 : list T) (a4' : list U) : a1' = hmap a1 -> a2' = hmap a2 -> a3' = hmap a3 -> a4' = hmap a4 -> @Coo_extend U a1' a2' a3' a4' = hmap (@Coo_extend T a1 a2 a3 a4).
Proof. heqf @Coo_extend. Qed.
Lemma hom_Coo_t (a1 : Coo T) (a1' : Coo U) : a1' = hmap a1 -> @Coo_t U a1' = hmap (@Coo_t T a1).
Proof. heqf @Coo_t. Qed.
Lemma hom_CSR_t (a2 : CSR T) (a2' : CSR U) : a2' = hmap a2 -> @CSR_t BD U a2' = rmap hmap (@CSR_t BD T a2).
Proof. homf @CSR_t. Qed.
Hint Extern 0 (_ = rmap _ (@CSR_t _ _ _)) => apply hom_CSR_t : homs.
Lemma hom_CSC_t (a2 : CSC T) (a2' : CSC U) : a2' = hmap a2 -> @CSC_t BD U a2' = rmap hmap (@CSC_t BD T a2).
Proof. homf @CSC_t. Qed.
Hint Extern 0 (_ = rmap _ (@CSC_t _ _ _)) => apply hom_CSC_t : homs.
Lemma hom_CSR_has_canonical_format (a2 : ity) (a3 : CSR T) (a3' : CSR U) : a3' = hmap a3 -> @CSR_has_canonical_format BD U a2 a3' = rmap hmap (@CSR_has_canonical_format BD T a2 a3).
Proof. homf @CSR_has_canonical_format. Qed.
Hint Extern 0 (_ = rmap _ (@CSR_has_canonical_format _ _ _ _)) => apply hom_CSR_has_canonical_format : homs.
Lemma hom_CSR_has_sorted_indexes (a2 : ity) (a3 : CSR T) (a3' : CSR U) : a3' = hmap a3 -> @CSR_has_sorted_indexes BD U a2 a3' = rmap hmap (@CSR_has_sorted_indexes BD T a2 a3).
Proof. homf @CSR_has_sorted_indexes. Qed.
Hint Extern 0 (_ = rmap _ (@CSR_has_sorted_indexes _ _ _ _)) => apply hom_CSR_has_sorted_indexes : homs.
Lemma hom_CSR_sort_indexes (a3 : CSR T) (a3' : CSR U) : a3' = hmap a3 -> @CSR_sort_indexes BD U SU a3' = rmap hmap (@CSR_sort_indexes BD T ST a3).
Proof. homf @CSR_sort_indexes. Qed.
Hint Extern 0 (_ = rmap _ (@CSR_sort_indexes _ _ _ _)) => apply hom_CSR_sort_indexes : homs.
Lemma hom_CSR_prune (a3 : CSR T) (a3' : CSR U) : a3' = hmap a3 -> @CSR_prune BD U SU a3' = rmap hmap (@CSR_prune BD T ST a3).
Proof. homf @CSR_prune. Qed.
Hint Extern 0 (_ = rmap _ (@CSR_prune _ _ _ _)) => apply hom_CSR_prune : homs.
Lemma hom_CSR_sum_duplicates (a3 : ity) (a4 : CSR T) (a4' : CSR U) : a4' = hmap a4 -> @CSR_sum_duplicates BD U SU a3 a4' = rmap hmap (@CSR_sum_duplicates BD T ST a3 a4).
Proof. homf @CSR_sum_duplicates. Qed.
Hint Extern 0 (_ = rmap _ (@CSR_sum_duplicates _ _ _ _ _)) => apply hom_CSR_sum_duplicates : homs.
Lemma hom_CSC_has_canonical_format (a2 : ity) (a3 : CSC T) (a3' : CSC U) : a3' = hmap a3 -> @CSC_has_canonical_format BD U a2 a3' = rmap hmap (@CSC_has_canonical_format BD T a2 a3).
Proof. homf @CSC_has_canonical_format. Qed.
Hint Extern 0 (_ = rmap _ (@CSC_has_canonical_format _ _ _ _)) => apply hom_CSC_has_canonical_format : homs.
Lemma hom_CSC_has_sorted_indexes (a2 : ity) (a3 : CSC T) (a3' : CSC U) : a3' = hmap a3 -> @CSC_has_sorted_indexes BD U a2 a3' = rmap hmap (@CSC_has_sorted_indexes BD T a2 a3).
Proof. homf @CSC_has_sorted_indexes. Qed.
Hint Extern 0 (_ = rmap _ (@CSC_has_sorted_indexes _ _ _ _)) => apply hom_CSC_has_sorted_indexes : homs.
Lemma hom_CSC_sort_indexes (a3 : CSC T) (a3' : CSC U) : a3' = hmap a3 -> @CSC_sort_indexes BD U SU a3' = rmap hmap (@CSC_sort_indexes BD T ST a3).
Proof. homf @CSC_sort_indexes. Qed.
Hint Extern 0 (_ = rmap _ (@CSC_sort_indexes _ _ _ _)) => apply hom_CSC_sort_indexes : homs.
Lemma hom_CSC_prune (a2 : CSC T) (a2' : CSC U) : a2' = hmap a2 -> @CSC_prune BD U a2' = rmap hmap (@CSC_prune BD T a2).
Proof. homf @CSC_prune. Qed.
Hint Extern 0 (_ = rmap _ (@CSC_prune _ _ _)) => apply hom_CSC_prune : homs.
Lemma hom_CSC_sum_duplicates (a3 : ity) (a4 : CSC T) (a4' : CSC U) : a4' = hmap a4 -> @CSC_sum_duplicates BD U SU a3 a4' = rmap hmap (@CSC_sum_duplicates BD T ST a3 a4).
Proof. homf @CSC_sum_duplicates. Qed.
Hint Extern 0 (_ = rmap _ (@CSC_sum_duplicates _ _ _ _ _)) => apply hom_CSC_sum_duplicates : homs.
Lemma hom_Coo_to_csc (a3 : ity) (a4 : Coo T) (a4' : Coo U) : a4' = hmap a4 -> @Coo_to_csc BD U SU a3 a4' = rmap hmap (@Coo_to_csc BD T ST a3 a4).
Proof. homf @Coo_to_csc. Qed.
Hint Extern 0 (_ = rmap _ (@Coo_to_csc _ _ _ _ _)) => apply hom_Coo_to_csc : homs.
Lemma hom_Coo_to_csr (a3 : ity) (a4 : Coo T) (a4' : Coo U) : a4' = hmap a4 -> @Coo_to_csr BD U SU a3 a4' = rmap hmap (@Coo_to_csr BD T ST a3 a4).
Proof. homf @Coo_to_csr. Qed.
Hint Extern 0 (_ = rmap _ (@Coo_to_csr _ _ _ _ _)) => apply hom_Coo_to_csr : homs.
Lemma hom_Coo_to_dense (a2 : Coo T) (a2' : Coo U) : a2' = hmap a2 -> @Coo_to_dense U SU a2' = rmap hmap (@Coo_to_dense T ST a2).
Proof. homf @Coo_to_dense. Qed.
Hint Extern 0 (_ = rmap _ (@Coo_to_dense _ _ _)) => apply hom_Coo_to_dense : homs.
Lemma hom_CSR_to_coo (a1 : ity) (a2 : CSR T) (a2' : CSR U) : a2' = hmap a2 -> @CSR_to_coo U a1 a2' = rmap hmap (@CSR_to_coo T a1 a2).
Proof. homf @CSR_to_coo. Qed.
Hint Extern 0 (_ = rmap _ (@CSR_to_coo _ _ _)) => apply hom_CSR_to_coo : homs.
Lemma hom_CSR_to_csc (a3 : ity) (a4 : CSR T) (a4' : CSR U) : a4' = hmap a4 -> @CSR_to_csc BD U SU a3 a4' = rmap hmap (@CSR_to_csc BD T ST a3 a4).
Proof. homf @CSR_to_csc. Qed.
Hint Extern 0 (_ = rmap _ (@CSR_to_csc _ _ _ _ _)) => apply hom_CSR_to_csc : homs.
Lemma hom_CSR_to_dense (a2 : CSR T) (a2' : CSR U) : a2' = hmap a2 -> @CSR_to_dense U SU a2' = rmap hmap (@CSR_to_dense T ST a2).
Proof. homf @CSR_to_dense. Qed.
Hint Extern 0 (_ = rmap _ (@CSR_to_dense _ _ _)) => apply hom_CSR_to_dense : homs.
Lemma hom_CSC_to_csr (a3 : ity) (a4 : CSC T) (a4' : CSC U) : a4' = hmap a4 -> @CSC_to_csr BD U SU a3 a4' = rmap hmap (@CSC_to_csr BD T ST a3 a4).
Proof. homf @CSC_to_csr. Qed.
Hint Extern 0 (_ = rmap _ (@CSC_to_csr _ _ _ _ _)) => apply hom_CSC_to_csr : homs.
Lemma hom_CSC_to_coo (a3 : ity) (a4 : CSC T) (a4' : CSC U) : a4' = hmap a4 -> @CSC_to_coo BD U SU a3 a4' = rmap hmap (@CSC_to_coo BD T ST a3 a4).
Proof. homf @CSC_to_coo. Qed.
Hint Extern 0 (_ = rmap _ (@CSC_to_coo _ _ _ _ _)) => apply hom_CSC_to_coo : homs.
Lemma hom_CSC_to_dense (a3 : ity) (a4 : CSC T) (a4' : CSC U) : a4' = hmap a4 -> @CSC_to_dense BD U SU a3 a4' = rmap hmap (@CSC_to_dense BD T ST a3 a4).
Proof. homf @CSC_to_dense. Qed.
Hint Extern 0 (_ = rmap _ (@CSC_to_dense _ _ _ _ _)) => apply hom_CSC_to_dense : homs.
Lemma hom_Coo_from_dense (a2 : ity) (a3 : list (list T)) (a3' : list (list U)) : a3' = hmap a3 -> @Coo_from_dense U SU a2 a3' = rmap hmap (@Coo_from_dense T ST a2 a3).
Proof. homf @Coo_from_dense. Qed.
Hint Extern 0 (_ = rmap _ (@Coo_from_dense _ _ _ _)) => apply hom_Coo_from_dense : homs.
Lemma hom_CSR_from_dense (a3 : ity) (a4 : list (list T)) (a4' : list (list U)) : a4' = hmap a4 -> @CSR_from_dense BD U SU a3 a4' = rmap hmap (@CSR_from_dense BD T ST a3 a4).
Proof. homf @CSR_from_dense. Qed.
Hint Extern 0 (_ = rmap _ (@CSR_from_dense _ _ _ _ _)) => apply hom_CSR_from_dense : homs.
Lemma hom_CSC_from_dense (a3 : ity) (a4 : list (list T)) (a4' : list (list U)) : a4' = hmap a4 -> @CSC_from_dense BD U SU a3 a4' = rmap hmap (@CSC_from_dense BD T ST a3 a4).
Proof. homf @CSC_from_dense. Qed.
Hint Extern 0 (_ = rmap _ (@CSC_from_dense _ _ _ _ _)) => apply hom_CSC_from_dense : homs.
Lemma hom_Coo_with_diagonal (a2 : ity) (a3 : list T) (a3' : list U) : a3' = hmap a3 -> @Coo_with_diagonal U SU a2 a3' = rmap hmap (@Coo_with_diagonal T ST a2 a3).
Proof. homf @Coo_with_diagonal. Qed.
Hint Extern 0 (_ = rmap _ (@Coo_with_diagonal _ _ _ _)) => apply hom_Coo_with_diagonal : homs.
Lemma hom_Coo_identity (a2 : ity) (a3 : nat) (a3' : nat) : a3' = hmap a3 -> @Coo_identity U SU a2 a3' = rmap hmap (@Coo_identity T ST a2 a3).
Proof. homf @Coo_identity. Qed.
Hint Extern 0 (_ = rmap _ (@Coo_identity _ _ _ _)) => apply hom_Coo_identity : homs.
Lemma hom_CSR_with_diagonal (a1 : ity) (a2 : list T) (a2' : list U) : a2' = hmap a2 -> @CSR_with_diagonal U a1 a2' = rmap hmap (@CSR_with_diagonal T a1 a2).
Proof. homf @CSR_with_diagonal. Qed.
Hint Extern 0 (_ = rmap _ (@CSR_with_diagonal _ _ _)) => apply hom_CSR_with_diagonal : homs.
Lemma hom_CSC_with_diagonal (a1 : ity) (a2 : list T) (a2' : list U) : a2' = hmap a2 -> @CSC_with_diagonal U a1 a2' = rmap hmap (@CSC_with_diagonal T a1 a2).
Proof. homf @CSC_with_diagonal. Qed.
Hint Extern 0 (_ = rmap _ (@CSC_with_diagonal _ _ _)) => apply hom_CSC_with_diagonal : homs.
Lemma hom_Coo_upper (a2 : ity) (a3 : Coo T) (a3' : Coo U) (a4 : Z) (a4' : Z) : a3' = hmap a3 -> a4' = hmap a4 -> @Coo_upper BD U a2 a3' a4' = rmap hmap (@Coo_upper BD T a2 a3 a4).
Proof. homf @Coo_upper. Qed.
Hint Extern 0 (_ = rmap _ (@Coo_upper _ _ _ _ _)) => apply hom_Coo_upper : homs.
Lemma hom_Coo_diagonal (a2 : Coo T) (a2' : Coo U) : a2' = hmap a2 -> @Coo_diagonal U SU a2' = rmap hmap (@Coo_diagonal T ST a2).
Proof. homf @Coo_diagonal. Qed.
Hint Extern 0 (_ = rmap _ (@Coo_diagonal _ _ _)) => apply hom_Coo_diagonal : homs.
Lemma hom_CSR_diagonal (a3 : CSR T) (a3' : CSR U) : a3' = hmap a3 -> @CSR_diagonal BD U SU a3' = rmap hmap (@CSR_diagonal BD T ST a3).
Proof. homf @CSR_diagonal. Qed.
Hint Extern 0 (_ = rmap _ (@CSR_diagonal _ _ _ _)) => apply hom_CSR_diagonal : homs.
Lemma hom_CSC_diagonal (a3 : CSC T) (a3' : CSC U) : a3' = hmap a3 -> @CSC_diagonal BD U SU a3' = rmap hmap (@CSC_diagonal BD T ST a3).
Proof. homf @CSC_diagonal. Qed.
Hint Extern 0 (_ = rmap _ (@CSC_diagonal _ _ _ _)) => apply hom_CSC_diagonal : homs.
Lemma hom_Coo_v_stack (a2 : ity) (a3 : Coo T) (a3' : Coo U) (a4 : Coo T) (a4' : Coo U) : a3' = hmap a3 -> a4' = hmap a4 -> @Coo_v_stack BD U a2 a3' a4' = rmap hmap (@Coo_v_stack BD T a2 a3 a4).
Proof. homf @Coo_v_stack. Qed.
Hint Extern 0 (_ = rmap _ (@Coo_v_stack _ _ _ _ _)) => apply hom_Coo_v_stack : homs.
Lemma hom_Coo_v_stack3 (a2 : ity) (a3 : Coo T) (a3' : Coo U) (a4 : Coo T) (a4' : Coo U) (a5 : Coo T) (a5' : Coo U) : a3' = hmap a3 -> a4' = hmap a4 -> a5' = hmap a5 -> @Coo_v_stack3 BD U a2 a3' a4' a5' = rmap hmap (@Coo_v_stack3 BD T a2 a3 a4 a5).
Proof. homf @Coo_v_stack3. Qed.
Hint Extern 0 (_ = rmap _ (@Coo_v_stack3 _ _ _ _ _ _)) => apply hom_Coo_v_stack3 : homs.
Lemma hom_Coo_h_stack (a2 : ity) (a3 : Coo T) (a3' : Coo U) (a4 : Coo T) (a4' : Coo U) : a3' = hmap a3 -> a4' = hmap a4 -> @Coo_h_stack BD U a2 a3' a4' = rmap hmap (@Coo_h_stack BD T a2 a3 a4).
Proof. homf @Coo_h_stack. Qed.
Hint Extern 0 (_ = rmap _ (@Coo_h_stack _ _ _ _ _)) => apply hom_Coo_h_stack : homs.
Lemma hom_Coo_h_stack3 (a2 : ity) (a3 : Coo T) (a3' : Coo U) (a4 : Coo T) (a4' : Coo U) (a5 : Coo T) (a5' : Coo U) : a3' = hmap a3 -> a4' = hmap a4 -> a5' = hmap a5 -> @Coo_h_stack3 BD U a2 a3' a4' a5' = rmap hmap (@Coo_h_stack3 BD T a2 a3 a4 a5).
Proof. homf @Coo_h_stack3. Qed.
Hint Extern 0 (_ = rmap _ (@Coo_h_stack3 _ _ _ _ _ _)) => apply hom_Coo_h_stack3 : homs.
Lemma hom_Coo_compose (a2 : ity) (a3 : Coo T) (a3' : Coo U) (a4 : Coo T) (a4' : Coo U) (a5 : Coo T) (a5' : Coo U) (a6 : Coo T) (a6' : Coo U) : a3' = hmap a3 -> a4' = hmap a4 -> a5' = hmap a5 -> a6' = hmap a6 -> @Coo_compose BD U a2 a3' a4' a5' a6' = rmap hmap (@Coo_compose BD T a2 a3 a4 a5 a6).
Proof. homf @Coo_compose. Qed.
Hint Extern 0 (_ = rmap _ (@Coo_compose _ _ _ _ _ _ _)) => apply hom_Coo_compose : homs.
Lemma hom_Coo_compose3 (a2 : ity) (a3 : Coo T) (a3' : Coo U) (a4 : Coo T) (a4' : Coo U) (a5 : Coo T) (a5' : Coo U) (a6 : Coo T) (a6' : Coo U) (a7 : Coo T) (a7' : Coo U) (a8 : Coo T) (a8' : Coo U) (a9 : Coo T) (a9' : Coo U) (a10 : Coo T) (a10' : Coo U) (a11 : Coo T) (a11' : Coo U) : a3' = hmap a3 -> a4' = hmap a4 -> a5' = hmap a5 -> a6' = hmap a6 -> a7' = hmap a7 -> a8' = hmap a8 -> a9' = hmap a9 -> a10' = hmap a10 -> a11' = hmap a11 -> @Coo_compose3 BD U a2 a3' a4' a5' a6' a7' a8' a9' a10' a11' = rmap hmap (@Coo_compose3 BD T a2 a3 a4 a5 a6 a7 a8 a9 a10 a11).
Proof. homf @Coo_compose3. Qed.
Hint Extern 0 (_ = rmap _ (@Coo_compose3 _ _ _ _ _ _ _ _ _ _ _ _)) => apply hom_Coo_compose3 : homs.
Lemma hom_CSR_h_stack (a3 : ity) (a4 : CSR T) (a4' : CSR U) (a5 : CSR T) (a5' : CSR U) : a4' = hmap a4 -> a5' = hmap a5 -> @CSR_h_stack BD U SU a3 a4' a5' = rmap hmap (@CSR_h_stack BD T ST a3 a4 a5).
Proof. homf @CSR_h_stack. Qed.
Hint Extern 0 (_ = rmap _ (@CSR_h_stack _ _ _ _ _ _)) => apply hom_CSR_h_stack : homs.
Lemma hom_CSC_compose (a3 : ity) (a4 : CSC T) (a4' : CSC U) (a5 : CSC T) (a5' : CSC U) (a6 : CSC T) (a6' : CSC U) (a7 : CSC T) (a7' : CSC U) : a4' = hmap a4 -> a5' = hmap a5 -> a6' = hmap a6 -> a7' = hmap a7 -> @CSC_compose BD U SU a3 a4' a5' a6' a7' = rmap hmap (@CSC_compose BD T ST a3 a4 a5 a6 a7).
Proof. homf @CSC_compose. Qed.
Hint Extern 0 (_ = rmap _ (@CSC_compose _ _ _ _ _ _ _ _)) => apply hom_CSC_compose : homs.
Lemma hom_CSR_mat_vec (a2 : CSR T) (a2' : CSR U) (a3 : list T) (a3' : list U) : a2' = hmap a2 -> a3' = hmap a3 -> @CSR_mat_vec U SU a2' a3' = rmap hmap (@CSR_mat_vec T ST a2 a3).
Proof. homf @CSR_mat_vec. Qed.
Hint Extern 0 (_ = rmap _ (@CSR_mat_vec _ _ _ _)) => apply hom_CSR_mat_vec : homs.
Lemma hom_CSC_mat_vec (a2 : CSC T) (a2' : CSC U) (a3 : list T) (a3' : list U) : a2' = hmap a2 -> a3' = hmap a3 -> @CSC_mat_vec U SU a2' a3' = rmap hmap (@CSC_mat_vec T ST a2 a3).
Proof. homf @CSC_mat_vec. Qed.
Hint Extern 0 (_ = rmap _ (@CSC_mat_vec _ _ _ _)) => apply hom_CSC_mat_vec : homs.
Lemma hom_CSR_mat_mat (a3 : ity) (a4 : CSR T) (a4' : CSR U) (a5 : CSR T) (a5' : CSR U) : a4' = hmap a4 -> a5' = hmap a5 -> @CSR_mat_mat BD U SU a3 a4' a5' = rmap hmap (@CSR_mat_mat BD T ST a3 a4 a5).
Proof. homf @CSR_mat_mat. Qed.
Hint Extern 0 (_ = rmap _ (@CSR_mat_mat _ _ _ _ _ _)) => apply hom_CSR_mat_mat : homs.
Lemma hom_CSC_mat_mat (a3 : ity) (a4 : CSC T) (a4' : CSC U) (a5 : CSC T) (a5' : CSC U) : a4' = hmap a4 -> a5' = hmap a5 -> @CSC_mat_mat BD U SU a3 a4' a5' = rmap hmap (@CSC_mat_mat BD T ST a3 a4 a5).
Proof. homf @CSC_mat_mat. Qed.
Hint Extern 0 (_ = rmap _ (@CSC_mat_mat _ _ _ _ _ _)) => apply hom_CSC_mat_mat : homs.
Lemma hom_CSR_select (a3 : ity) (a4 : CSR T) (a4' : CSR U) (a5 : option (list Z)) (a5' : option (list Z)) (a6 : option (list Z)) (a6' : option (list Z)) : a4' = hmap a4 -> a5' = hmap a5 -> a6' = hmap a6 -> @CSR_select BD U SU a3 a4' a5' a6' = rmap hmap (@CSR_select BD T ST a3 a4 a5 a6).
Proof. homf @CSR_select. Qed.
Hint Extern 0 (_ = rmap _ (@CSR_select _ _ _ _ _ _ _)) => apply hom_CSR_select : homs.
Lemma hom_CSC_select (a3 : ity) (a4 : CSC T) (a4' : CSC U) (a5 : option (list Z)) (a5' : option (list Z)) (a6 : option (list Z)) (a6' : option (list Z)) : a4' = hmap a4 -> a5' = hmap a5 -> a6' = hmap a6 -> @CSC_select BD U SU a3 a4' a5' a6' = rmap hmap (@CSC_select BD T ST a3 a4 a5 a6).
Proof. homf @CSC_select. Qed.
Hint Extern 0 (_ = rmap _ (@CSC_select _ _ _ _ _ _ _)) => apply hom_CSC_select : homs.
Lemma hom_CSR_get (a2 : CSR T) (a2' : CSR U) (a3 : Z) (a3' : Z) (a4 : Z) (a4' : Z) : a2' = hmap a2 -> a3' = hmap a3 -> a4' = hmap a4 -> @CSR_get U SU a2' a3' a4' = rmap hmap (@CSR_get T ST a2 a3 a4).
Proof. homf @CSR_get. Qed.
Hint Extern 0 (_ = rmap _ (@CSR_get _ _ _ _ _)) => apply hom_CSR_get : homs.
Lemma hom_CSR_add (a3 : ity) (a4 : CSR T) (a4' : CSR U) (a5 : CSR T) (a5' : CSR U) : a4' = hmap a4 -> a5' = hmap a5 -> @CSR_add BD U SU a3 a4' a5' = rmap hmap (@CSR_add BD T ST a3 a4 a5).
Proof. homf @CSR_add. Qed.
Hint Extern 0 (_ = rmap _ (@CSR_add _ _ _ _ _ _)) => apply hom_CSR_add : homs.
Lemma hom_CSR_sub (a3 : ity) (a4 : CSR T) (a4' : CSR U) (a5 : CSR T) (a5' : CSR U) : a4' = hmap a4 -> a5' = hmap a5 -> @CSR_sub BD U SU a3 a4' a5' = rmap hmap (@CSR_sub BD T ST a3 a4 a5).
Proof. homf @CSR_sub. Qed.
Hint Extern 0 (_ = rmap _ (@CSR_sub _ _ _ _ _ _)) => apply hom_CSR_sub : homs.
Lemma hom_CSR_mul (a3 : ity) (a4 : CSR T) (a4' : CSR U) (a5 : CSR T) (a5' : CSR U) : a4' = hmap a4 -> a5' = hmap a5 -> @CSR_mul BD U SU a3 a4' a5' = rmap hmap (@CSR_mul BD T ST a3 a4 a5).
Proof. homf @CSR_mul. Qed.
Hint Extern 0 (_ = rmap _ (@CSR_mul _ _ _ _ _ _)) => apply hom_CSR_mul : homs.
Lemma hom_CSC_add (a3 : ity) (a4 : CSC T) (a4' : CSC U) (a5 : CSC T) (a5' : CSC U) : a4' = hmap a4 -> a5' = hmap a5 -> @CSC_add BD U SU a3 a4' a5' = rmap hmap (@CSC_add BD T ST a3 a4 a5).
Proof. homf @CSC_add. Qed.
Hint Extern 0 (_ = rmap _ (@CSC_add _ _ _ _ _ _)) => apply hom_CSC_add : homs.
Lemma hom_CSC_subtract (a3 : ity) (a4 : CSC T) (a4' : CSC U) (a5 : CSC T) (a5' : CSC U) : a4' = hmap a4 -> a5' = hmap a5 -> @CSC_subtract BD U SU a3 a4' a5' = rmap hmap (@CSC_subtract BD T ST a3 a4 a5).
Proof. homf @CSC_subtract. Qed.
Hint Extern 0 (_ = rmap _ (@CSC_subtract _ _ _ _ _ _)) => apply hom_CSC_subtract : homs.
Lemma hom_CSC_op_add (a3 : ity) (a4 : CSC T) (a4' : CSC U) (a5 : CSC T) (a5' : CSC U) : a4' = hmap a4 -> a5' = hmap a5 -> @CSC_op_add BD U SU a3 a4' a5' = rmap hmap (@CSC_op_add BD T ST a3 a4 a5).
Proof. homf @CSC_op_add. Qed.
Hint Extern 0 (_ = rmap _ (@CSC_op_add _ _ _ _ _ _)) => apply hom_CSC_op_add : homs.
Lemma hom_CSC_op_sub (a3 : ity) (a4 : CSC T) (a4' : CSC U) (a5 : CSC T) (a5' : CSC U) : a4' = hmap a4 -> a5' = hmap a5 -> @CSC_op_sub BD U SU a3 a4' a5' = rmap hmap (@CSC_op_sub BD T ST a3 a4 a5).
Proof. homf @CSC_op_sub. Qed.
Hint Extern 0 (_ = rmap _ (@CSC_op_sub _ _ _ _ _ _)) => apply hom_CSC_op_sub : homs.
Lemma hom_CSC_mul (a3 : ity) (a4 : CSC T) (a4' : CSC U) (a5 : CSC T) (a5' : CSC U) : a4' = hmap a4 -> a5' = hmap a5 -> @CSC_mul BD U SU a3 a4' a5' = rmap hmap (@CSC_mul BD T ST a3 a4 a5).
Proof. homf @CSC_mul. Qed.
Hint Extern 0 (_ = rmap _ (@CSC_mul _ _ _ _ _ _)) => apply hom_CSC_mul : homs.
Lemma hom_CSC_mul_csr (a3 : ity) (a4 : CSC T) (a4' : CSC U) (a5 : CSR T) (a5' : CSR U) : a4' = hmap a4 -> a5' = hmap a5 -> @CSC_mul_csr BD U SU a3 a4' a5' = rmap hmap (@CSC_mul_csr BD T ST a3 a4 a5).
Proof. homf @CSC_mul_csr. Qed.
Hint Extern 0 (_ = rmap _ (@CSC_mul_csr _ _ _ _ _ _)) => apply hom_CSC_mul_csr : homs.
Lemma hom_Coo_add (a3 : ity) (a4 : Coo T) (a4' : Coo U) (a5 : Coo T) (a5' : Coo U) : a4' = hmap a4 -> a5' = hmap a5 -> @Coo_add BD U SU a3 a4' a5' = rmap hmap (@Coo_add BD T ST a3 a4 a5).
Proof. homf @Coo_add. Qed.
Hint Extern 0 (_ = rmap _ (@Coo_add _ _ _ _ _ _)) => apply hom_Coo_add : homs.
Lemma hom_CSR_mul_scalar (a3 : CSR T) (a3' : CSR U) (a4 : T) (a4' : U) : a3' = hmap a3 -> a4' = hmap a4 -> @CSR_mul_scalar BD U SU a3' a4' = rmap hmap (@CSR_mul_scalar BD T ST a3 a4).
Proof. homf @CSR_mul_scalar. Qed.
Hint Extern 0 (_ = rmap _ (@CSR_mul_scalar _ _ _ _ _)) => apply hom_CSR_mul_scalar : homs.
Lemma hom_CSR_scalar_mul (a3 : T) (a3' : U) (a4 : CSR T) (a4' : CSR U) : a3' = hmap a3 -> a4' = hmap a4 -> @CSR_scalar_mul BD U SU a3' a4' = rmap hmap (@CSR_scalar_mul BD T ST a3 a4).
Proof. homf @CSR_scalar_mul. Qed.
Hint Extern 0 (_ = rmap _ (@CSR_scalar_mul _ _ _ _ _)) => apply hom_CSR_scalar_mul : homs.
Lemma hom_CSC_mul_scalar (a3 : CSC T) (a3' : CSC U) (a4 : T) (a4' : U) : a3' = hmap a3 -> a4' = hmap a4 -> @CSC_mul_scalar BD U SU a3' a4' = rmap hmap (@CSC_mul_scalar BD T ST a3 a4).
Proof. homf @CSC_mul_scalar. Qed.
Hint Extern 0 (_ = rmap _ (@CSC_mul_scalar _ _ _ _ _)) => apply hom_CSC_mul_scalar : homs.
Lemma hom_CSC_scalar_mul (a3 : T) (a3' : U) (a4 : CSC T) (a4' : CSC U) : a3' = hmap a3 -> a4' = hmap a4 -> @CSC_scalar_mul BD U SU a3' a4' = rmap hmap (@CSC_scalar_mul BD T ST a3 a4).
Proof. homf @CSC_scalar_mul. Qed.
Hint Extern 0 (_ = rmap _ (@CSC_scalar_mul _ _ _ _ _)) => apply hom_CSC_scalar_mul : homs.
Lemma hom_Coo_neg (a2 : Coo T) (a2' : Coo U) : a2' = hmap a2 -> @Coo_neg U NU a2' = rmap hmap (@Coo_neg T NT a2).
Proof. homf @Coo_neg. Qed.
Hint Extern 0 (_ = rmap _ (@Coo_neg _ _ _)) => apply hom_Coo_neg : homs.
Lemma hom_CSR_neg (a3 : CSR T) (a3' : CSR U) : a3' = hmap a3 -> @CSR_neg BD U NU a3' = rmap hmap (@CSR_neg BD T NT a3).
Proof. homf @CSR_neg. Qed.
Hint Extern 0 (_ = rmap _ (@CSR_neg _ _ _ _)) => apply hom_CSR_neg : homs.
Lemma hom_CSC_neg (a3 : CSC T) (a3' : CSC U) : a3' = hmap a3 -> @CSC_neg BD U NU a3' = rmap hmap (@CSC_neg BD T NT a3).
Proof. homf @CSC_neg. Qed.
Hint Extern 0 (_ = rmap _ (@CSC_neg _ _ _ _)) => apply hom_CSC_neg : homs.
Lemma hom_hm_get l k : hm_get (map (fun p : Z * Z * T => (fst p, h (snd p))) l) k = option_map h (hm_get l k).
Proof. induction l as [|[k' v] l IH]; cbn [hm_get map fst snd]; [reflexivity|]. destruct (key_eqb _ _); [reflexivity|apply IH]. Qed.
Hint Rewrite hom_hm_get : hom.
Lemma hom_hm_remove l k : map (fun p : Z * Z * T => (fst p, h (snd p))) (hm_remove l k) = hm_remove (map (fun p : Z * Z * T => (fst p, h (snd p))) l) k.
Proof. unfold hm_remove. induction l as [|[k' v] l IH]; cbn [filter map fst snd]; [reflexivity|]. destruct (key_eqb _ _); cbn [negb map fst snd]; now rewrite IH. Qed.
Lemma hom_hm_insert l k v : map (fun p : Z * Z * T => (fst p, h (snd p))) (hm_insert l k v) = hm_insert (map (fun p : Z * Z * T => (fst p, h (snd p))) l) k (h v).
Proof. unfold hm_insert. cbn [map fst snd]. now rewrite hom_hm_remove. Qed.
Hint Rewrite hom_hm_remove hom_hm_insert : hom.
Lemma hom_DoK_new (a1 : nat) (a1' : nat) (a2 : nat) (a2' : nat) : a1' = hmap a1 -> a2' = hmap a2 -> @DoK_new U a1' a2' = hmap (@DoK_new T a1 a2).
Proof. heqf @DoK_new. Qed.
Lemma hom_DoK_nnz (a1 : DoK T) (a1' : DoK U) : a1' = hmap a1 -> @DoK_nnz U a1' = hmap (@DoK_nnz T a1).
Proof. heqf @DoK_nnz. Qed.
Lemma hom_DoK_get d i j : DoK_get (dok_map h d) i j = h (DoK_get d i j).
Proof. unfold DoK_get, dok_map. cbn [dok_values]. rewrite hom_hm_get. destruct (hm_get _ _); cbn; [reflexivity|]. now rewrite K0. Qed.
Lemma hom_DoK_get' r c l i j : DoK_get (mkDoK r c (map (fun p : Z * Z * T => (fst p, h (snd p))) l)) i j = h (DoK_get (mkDoK r c l) i j).
Proof. apply (hom_DoK_get (mkDoK r c l)). Qed.
Hint Rewrite hom_DoK_get' : hom.
Lemma hom_DoK_set (a2 : ity) (a3 : DoK T) (a3' : DoK U) (a4 : Z) (a4' : Z) (a5 : Z) (a5' : Z) (a6 : T) (a6' : U) : a3' = hmap a3 -> a4' = hmap a4 -> a5' = hmap a5 -> a6' = hmap a6 -> @DoK_set U SU a2 a3' a4' a5' a6' = rmap hmap (@DoK_set T ST a2 a3 a4 a5 a6).
Proof. homf @DoK_set. Qed.
Hint Extern 0 (_ = rmap _ (@DoK_set _ _ _ _ _ _ _)) => apply hom_DoK_set : homs.
Lemma hom_DoK_add (a2 : ity) (a3 : DoK T) (a3' : DoK U) (a4 : Z) (a4' : Z) (a5 : Z) (a5' : Z) (a6 : T) (a6' : U) : a3' = hmap a3 -> a4' = hmap a4 -> a5' = hmap a5 -> a6' = hmap a6 -> @DoK_add U SU a2 a3' a4' a5' a6' = rmap hmap (@DoK_add T ST a2 a3 a4 a5 a6).
Proof. homf @DoK_add. Qed.
Hint Extern 0 (_ = rmap _ (@DoK_add _ _ _ _ _ _ _)) => apply hom_DoK_add : homs.
Lemma hom_DoK_sub (a2 : ity) (a3 : DoK T) (a3' : DoK U) (a4 : Z) (a4' : Z) (a5 : Z) (a5' : Z) (a6 : T) (a6' : U) : a3' = hmap a3 -> a4' = hmap a4 -> a5' = hmap a5 -> a6' = hmap a6 -> @DoK_sub U SU a2 a3' a4' a5' a6' = rmap hmap (@DoK_sub T ST a2 a3 a4 a5 a6).
Proof. homf @DoK_sub. Qed.
Hint Extern 0 (_ = rmap _ (@DoK_sub _ _ _ _ _ _ _)) => apply hom_DoK_sub : homs.
Lemma hom_DoK_from_dense (a2 : ity) (a3 : list (list T)) (a3' : list (list U)) : a3' = hmap a3 -> @DoK_from_dense U SU a2 a3' = rmap hmap (@DoK_from_dense T ST a2 a3).
Proof. homf @DoK_from_dense. Qed.
Hint Extern 0 (_ = rmap _ (@DoK_from_dense _ _ _ _)) => apply hom_DoK_from_dense : homs.
Lemma hom_DoK_to_dense (a2 : DoK T) (a2' : DoK U) (a3 : list (prod (prod Z Z) T)) (a3' : list (prod (prod Z Z) U)) : a2' = hmap a2 -> a3' = hmap a3 -> @DoK_to_dense U SU a2' a3' = rmap hmap (@DoK_to_dense T ST a2 a3).
Proof. homf @DoK_to_dense. Qed.
Hint Extern 0 (_ = rmap _ (@DoK_to_dense _ _ _ _)) => apply hom_DoK_to_dense : homs.
Lemma hom_DoK_to_coo (a1 : DoK T) (a1' : DoK U) (a2 : list (prod (prod Z Z) T)) (a2' : list (prod (prod Z Z) U)) : a1' = hmap a1 -> a2' = hmap a2 -> @DoK_to_coo U a1' a2' = rmap hmap (@DoK_to_coo T a1 a2).
Proof. homf @DoK_to_coo. Qed.
Hint Extern 0 (_ = rmap _ (@DoK_to_coo _ _ _)) => apply hom_DoK_to_coo : homs.
Lemma hom_DoK_to_csc (a3 : ity) (a4 : DoK T) (a4' : DoK U) (a5 : list (prod (prod Z Z) T)) (a5' : list (prod (prod Z Z) U)) : a4' = hmap a4 -> a5' = hmap a5 -> @DoK_to_csc BD U SU a3 a4' a5' = rmap hmap (@DoK_to_csc BD T ST a3 a4 a5).
Proof. homf @DoK_to_csc. Qed.
Hint Extern 0 (_ = rmap _ (@DoK_to_csc _ _ _ _ _ _)) => apply hom_DoK_to_csc : homs.
Lemma hom_DoK_to_csr (a3 : ity) (a4 : DoK T) (a4' : DoK U) (a5 : list (prod (prod Z Z) T)) (a5' : list (prod (prod Z Z) U)) : a4' = hmap a4 -> a5' = hmap a5 -> @DoK_to_csr BD U SU a3 a4' a5' = rmap hmap (@DoK_to_csr BD T ST a3 a4 a5).
Proof. homf @DoK_to_csr. Qed.
Hint Extern 0 (_ = rmap _ (@DoK_to_csr _ _ _ _ _ _)) => apply hom_DoK_to_csr : homs.
Lemma hom_validate_graph (a1 : CSR T) (a1' : CSR U) : a1' = hmap a1 -> @validate_graph U a1' = rmap hmap (@validate_graph T a1).
Proof. homf @validate_graph. Qed.
Hint Extern 0 (_ = rmap _ (@validate_graph _ _)) => apply hom_validate_graph : homs.
Lemma hom_connected_components (a1 : ity) (a4 : CSR T) (a4' : CSR U) (a5 : bool) (a5' : bool) (a6 : connection) (a6' : connection) : a4' = hmap a4 -> a5' = hmap a5 -> a6' = hmap a6 -> @connected_components BD a1 U SU a4' a5' a6' = rmap hmap (@connected_components BD a1 T ST a4 a5 a6).
Proof. homf @connected_components. Qed.
Hint Extern 0 (_ = rmap _ (@connected_components _ _ _ _ _ _ _)) => apply hom_connected_components : homs.
Lemma hom_depth_first_order (a1 : ity) (a4 : CSR T) (a4' : CSR U) (a5 : nat) (a5' : nat) (a6 : bool) (a6' : bool) : a4' = hmap a4 -> a5' = hmap a5 -> a6' = hmap a6 -> @depth_first_order BD a1 U SU a4' a5' a6' = rmap hmap (@depth_first_order BD a1 T ST a4 a5 a6).
Proof. homf @depth_first_order. Qed.
Hint Extern 0 (_ = rmap _ (@depth_first_order _ _ _ _ _ _ _)) => apply hom_depth_first_order : homs.
Lemma hom_CSR_connected_components (a1 : ity) (a3 : ity) (a4 : CSR T) (a4' : CSR U) : a4' = hmap a4 -> @CSR_connected_components BD a1 U a3 a4' = rmap hmap (@CSR_connected_components BD a1 T a3 a4).
Proof. homf @CSR_connected_components. Qed.
Hint Extern 0 (_ = rmap _ (@CSR_connected_components _ _ _ _ _)) => apply hom_CSR_connected_components : homs.
Section HText.
Context (show : U -> String.string) (align : String.string -> String.string).
Lemma hom_Coo_to_string m : Coo_to_string show (coo_map h m) = rmap (fun s => s) (Coo_to_string (fun x => show (h x)) m).
Proof. homf @Coo_to_string. Qed.
Lemma hom_CSR_to_string m : CSR_to_string show (csr_map h m) = rmap (fun s => s) (CSR_to_string (fun x => show (h x)) m).
Proof. homf @CSR_to_string. Qed.
Lemma hom_CSC_to_string m : CSC_to_string show (csc_map h m) = rmap (fun s => s) (CSC_to_string (fun x => show (h x)) m).
Proof. homf @CSC_to_string. Qed.
Lemma hom_DoK_to_string l : DoK_to_string show (map (fun e => (fst e, h (snd e))) l) = rmap (fun s => s) (DoK_to_string (fun x => show (h x)) l).
Proof. homf @DoK_to_string. Qed.
Lemma hom_csr_table_bytes n_row n_col a_p a_j a_x label : csr_table_bytes show n_row n_col a_p a_j (map h a_x) label = rmap (fun s => s) (csr_table_bytes (fun x => show (h x)) n_row n_col a_p a_j a_x label).
Proof. homf @csr_table_bytes. Qed.
Lemma hom_CSR_to_table m : CSR_to_table show align (csr_map h m) = rmap (fun s => s) (CSR_to_table (fun x => show (h x)) align m).
Proof. unfold CSR_to_table, csr_table, csr_map. cbn [csr_rows csr_cols csr_rowptr csr_colidx csr_values]. rewrite hom_csr_table_bytes, <- !rmap_id. reflexivity. Qed.
End HText.
End Hom.
