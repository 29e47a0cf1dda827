(** One lemma per function on checked scalars: it commutes with a map of scalars that commutes with the checked operations. *)
From Verif Require Import Rust Debug Scalar Model_kernels Model_matrix Model_dok Model_checked Spec SpecPipe SpecHom SpecProgram HomProofs HomAll Main_hom.
Create HintDb homc.
Section Hom.
Context {BD : Build} {T U : Type} {ST : Scalar T} {SU : Scalar U} (h : T -> U).
Local Instance mapC : Map T U | 3 := h.
Context (K0 : h s0 = s0) (K1 : h s1 = s1) (Keq : keeps_eq h).
Context {CT : Checked T} {CU : Checked U}.
Context (Kadd : forall x y, cadd (h x) (h y) = rmap h (cadd x y)) (Ksub : forall x y, csub (h x) (h y) = rmap h (csub x y)) (Kmul : forall x y, cmul (h x) (h y) = rmap h (cmul x y)).
Context {NT : CheckedNeg T} {NU : CheckedNeg U} (Kneg : forall x, cneg (h x) = rmap h (cneg x)).
Lemma Kceq u v x y : u = h x -> v = h y -> seqb u v = seqb x y.
Proof. intros -> ->. apply Keq. Qed.
Ltac hun := hcbv; unfold mapC, HomAll.mapT.
Ltac hrw := hun; autorewrite with hom; cbn [fst snd]; rewrite ?map_length, ?K0, ?K1.
Ltac heq := intros; hrw; first [reflexivity | assumption | match goal with |- map _ (map _ _) = map _ (map _ _) => rewrite !map_map; apply map_ext; intros; heq | |- negb _ = negb _ => f_equal; heq | |- seqb _ _ = seqb _ _ => apply Kceq; heq | |- context[match ?x with _ => _ end] => is_var x; destruct x; heq end].
Ltac hvars := repeat match goal with x : prod _ _ |- _ => destruct x | x : unit |- _ => destruct x end.
Ltac h1 :=
  match goal with
  | |- ?x = rmap _ ?x => apply rmap_id
  | |- Ok _ = rmap _ (Ok _) => cbn [rmap]; apply f_equal; solve [heq]
  | |- Err _ = rmap _ _ => reflexivity
  | |- Panic = rmap _ _ => reflexivity
  | |- bind _ _ = rmap _ (bind _ _) => refine (hom_bind _ _ _ _ _ _); [|let a := fresh "a" in intros a; hvars; hun]
  | |- unwrap _ = rmap _ (unwrap _) => refine (hom_unwrap _ _ _)
  | |- for_range _ _ _ _ = rmap _ (for_range _ _ _ _) => apply hom_for; [solve [heq]|solve [heq]|solve [heq]|let i := fresh "i" in let s := fresh "s" in intros i s; hvars; hun]
  | |- for_range_exit _ _ _ _ = rmap _ (for_range_exit _ _ _ _) => refine (hom_for_exit _ _ _ _ _ _ _ _ _ _ _ _); [solve [heq]|solve [heq]|solve [heq]|let i := fresh "i" in let s := fresh "s" in intros i s; hvars; hun]
  | |- for_each _ _ _ = rmap _ (for_each _ _ _) => refine (hom_for_each _ _ _ _ _ _ _ _ _); [solve [heq]|solve [heq]|let i := fresh "i" in let s := fresh "s" in intros i s; hvars; hun]
  | |- for_enum _ _ _ _ = rmap _ (for_enum _ _ _ _) => refine (hom_for_enum _ _ _ _ _ _ _ _ _ _); [solve [heq]|solve [heq]|let k := fresh "k" in let i := fresh "i" in let s := fresh "s" in intros k i s; hvars; hun]
  | |- while _ _ _ _ = rmap _ (while _ _ _ _) => refine (hom_while _ _ _ _ _ _ _ _ _ _ _ _); [solve [heq]|solve [heq]| |]; let s := fresh "s" in intros s; hvars; hun
  | |- mapM _ _ = rmap _ (mapM _ _) => refine (hom_mapM _ _ _ _ _ _); [solve [heq]|let a := fresh "a" in intros a; hvars; hun]
  | |- vget _ _ = rmap _ (vget _ _) => apply hom_vget; solve [heq]
  | |- vset _ _ _ = rmap _ (vset _ _ _) => apply hom_vset; solve [heq]
  | |- vslice _ _ _ = rmap _ (vslice _ _ _) => apply hom_vslice; solve [heq]
  | |- (if _ then _ else _) = rmap _ (if _ then _ else _) => apply hom_if; [solve [heq]| |]
  | |- _ = rmap _ (match ?x with _ => _ end) => is_var x; destruct x; hun
  | |- match ?x with _ => _ end = rmap _ (match ?x with _ => _ end) => destruct x; hun
  | |- _ => solve [typeclasses eauto with homc]
  end.
Ltac hom := repeat h1.
Hint Extern 9 (_ = _) => solve [heq] : homc.
Ltac homf f := intros; subst; hvars; unfold f; hun; rewrite ?map_length; hom.
Ltac heqf f := intros; subst; hvars; unfold f; heq.

Lemma hom_cadd x y x' y' : x' = h x -> y' = h y -> cadd x' y' = rmap h (cadd x y).
Proof. intros -> ->. apply Kadd. Qed.
Lemma hom_csub x y x' y' : x' = h x -> y' = h y -> csub x' y' = rmap h (csub x y).
Proof. intros -> ->. apply Ksub. Qed.
Lemma hom_cmul x y x' y' : x' = h x -> y' = h y -> cmul x' y' = rmap h (cmul x y).
Proof. intros -> ->. apply Kmul. Qed.
Lemma hom_cneg x x' : x' = h x -> cneg x' = rmap h (cneg x).
Proof. intros ->. apply Kneg. Qed.
Hint Extern 0 (_ = rmap _ (cadd _ _)) => apply hom_cadd : homc.
Hint Extern 0 (_ = rmap _ (csub _ _)) => apply hom_csub : homc.
Hint Extern 0 (_ = rmap _ (cmul _ _)) => apply hom_cmul : homc.
Hint Extern 0 (_ = rmap _ (cneg _)) => apply hom_cneg : homc.
Hint Extern 0 (_ = rmap _ (@csr_scale_columns _ _ _ _ _ _ _ _)) => eapply (hom_csr_scale_columns h) : homc.
Hint Extern 0 (_ = rmap _ (@csr_todense _ _ _ _ _ _ _ _)) => eapply (hom_csr_todense h) : homc.
Hint Extern 0 (_ = rmap _ (@csr_matmat _ _ _ _ _ _ _ _ _ _ _ _ _ _ _)) => eapply (hom_csr_matmat h) : homc.
Hint Extern 0 (_ = rmap _ (@csr_ne_csr _ _ _ _ _ _ _ _ _ _ _ _ _ _ _)) => eapply (hom_csr_ne_csr h) : homc.
Hint Extern 0 (_ = rmap _ (@csr_eq_csr _ _ _ _ _ _ _ _ _ _ _ _ _ _ _)) => eapply (hom_csr_eq_csr h) : homc.
Hint Extern 0 (_ = rmap _ (@csr_mul_csr _ _ _ _ _ _ _ _ _ _ _ _ _ _ _)) => eapply (hom_csr_mul_csr h) : homc.
Hint Extern 0 (_ = rmap _ (@csr_div_csr _ _ _ _ _ _ _ _ _ _ _ _ _ _ _)) => eapply (hom_csr_div_csr h) : homc.
Hint Extern 0 (_ = rmap _ (@csr_add_csr _ _ _ _ _ _ _ _ _ _ _ _ _ _ _)) => eapply (hom_csr_add_csr h) : homc.
Hint Extern 0 (_ = rmap _ (@csr_sub_csr _ _ _ _ _ _ _ _ _ _ _ _ _ _ _)) => eapply (hom_csr_sub_csr h) : homc.
Hint Extern 0 (_ = rmap _ (@csr_lt_csr _ _ _ _ _ _ _ _ _ _ _ _ _ _ _ _)) => eapply (hom_csr_lt_csr h) : homc.
Hint Extern 0 (_ = rmap _ (@csr_le_csr _ _ _ _ _ _ _ _ _ _ _ _ _ _ _ _)) => eapply (hom_csr_le_csr h) : homc.
Hint Extern 0 (_ = rmap _ (@csr_gt_csr _ _ _ _ _ _ _ _ _ _ _ _ _ _ _ _)) => eapply (hom_csr_gt_csr h) : homc.
Hint Extern 0 (_ = rmap _ (@csr_ge_csr _ _ _ _ _ _ _ _ _ _ _ _ _ _ _ _)) => eapply (hom_csr_ge_csr h) : homc.
Hint Extern 0 (_ = rmap _ (@csr_max_csr _ _ _ _ _ _ _ _ _ _ _ _ _ _ _ _)) => eapply (hom_csr_max_csr h) : homc.
Hint Extern 0 (_ = rmap _ (@csr_min_csr _ _ _ _ _ _ _ _ _ _ _ _ _ _ _ _)) => eapply (hom_csr_min_csr h) : homc.
Hint Extern 0 (_ = rmap _ (@csr_sum_duplicates _ _ _ _ _ _ _ _)) => eapply (hom_csr_sum_duplicates h) : homc.
Hint Extern 0 (_ = rmap _ (@csr_matvec _ _ _ _ _ _ _ _ _)) => eapply (hom_csr_matvec h) : homc.
Hint Extern 0 (_ = rmap _ (@csr_matvecs _ _ _ _ _ _ _ _ _ _)) => eapply (hom_csr_matvecs h) : homc.
Hint Extern 0 (_ = rmap _ (@coo_tocsr _ _ _ _ _ _ _ _ _ _ _ _)) => eapply (hom_coo_tocsr h) : homc.
Hint Extern 0 (_ = rmap _ (@coo_todense _ _ _ _ _ _ _ _ _ _)) => eapply (hom_coo_todense h) : homc.
Hint Extern 0 (_ = rmap _ (@coo_matvec _ _ _ _ _ _ _ _)) => eapply (hom_coo_matvec h) : homc.
Hint Extern 0 (_ = rmap _ (@csc_matvec _ _ _ _ _ _ _ _ _)) => eapply (hom_csc_matvec h) : homc.
Hint Extern 0 (_ = rmap _ (@csc_matvecs _ _ _ _ _ _ _ _ _ _)) => eapply (hom_csc_matvecs h) : homc.
Hint Extern 0 (_ = rmap _ (@csc_diagonal _ _ _ _ _ _ _ _ _ _)) => eapply (hom_csc_diagonal h) : homc.
Hint Extern 0 (_ = rmap _ (@csc_matmat _ _ _ _ _ _ _ _ _ _ _ _ _ _ _)) => eapply (hom_csc_matmat h) : homc.
Hint Extern 0 (_ = rmap _ (@Coo_new _ _ _ _ _ _)) => eapply (hom_Coo_new h) : homc.
Hint Extern 0 (_ = rmap _ (@CSR_new _ _ _ _ _ _ _)) => eapply (hom_CSR_new h) : homc.
Hint Extern 0 (_ = rmap _ (@CSC_new _ _ _ _ _ _ _)) => eapply (hom_CSC_new h) : homc.
Hint Extern 0 (_ = rmap _ (@CSR_nnz _ _ _)) => eapply (hom_CSR_nnz h) : homc.
Hint Extern 0 (_ = rmap _ (@CSC_nnz _ _ _)) => eapply (hom_CSC_nnz h) : homc.
Hint Extern 0 (_ = rmap _ (@CSR_t _ _ _)) => eapply (hom_CSR_t h) : homc.
Hint Extern 0 (_ = rmap _ (@CSC_t _ _ _)) => eapply (hom_CSC_t h) : homc.
Hint Extern 0 (_ = rmap _ (@CSR_has_canonical_format _ _ _ _)) => eapply (hom_CSR_has_canonical_format h) : homc.
Hint Extern 0 (_ = rmap _ (@CSR_sort_indexes _ _ _ _)) => eapply (hom_CSR_sort_indexes h) : homc.
Hint Extern 0 (_ = rmap _ (@CSR_prune _ _ _ _)) => eapply (hom_CSR_prune h) : homc.
Hint Extern 0 (_ = rmap _ (@CSR_sum_duplicates _ _ _ _ _)) => eapply (hom_CSR_sum_duplicates h) : homc.
Hint Extern 0 (_ = rmap _ (@CSC_has_canonical_format _ _ _ _)) => eapply (hom_CSC_has_canonical_format h) : homc.
Hint Extern 0 (_ = rmap _ (@CSC_sort_indexes _ _ _ _)) => eapply (hom_CSC_sort_indexes h) : homc.
Hint Extern 0 (_ = rmap _ (@CSC_prune _ _ _)) => eapply (hom_CSC_prune h) : homc.
Hint Extern 0 (_ = rmap _ (@CSC_sum_duplicates _ _ _ _ _)) => eapply (hom_CSC_sum_duplicates h) : homc.
Hint Extern 0 (_ = rmap _ (@Coo_to_csc _ _ _ _ _)) => eapply (hom_Coo_to_csc h) : homc.
Hint Extern 0 (_ = rmap _ (@Coo_to_csr _ _ _ _ _)) => eapply (hom_Coo_to_csr h) : homc.
Hint Extern 0 (_ = rmap _ (@Coo_to_dense _ _ _)) => eapply (hom_Coo_to_dense h) : homc.
Hint Extern 0 (_ = rmap _ (@CSR_to_coo _ _ _)) => eapply (hom_CSR_to_coo h) : homc.
Hint Extern 0 (_ = rmap _ (@CSR_to_csc _ _ _ _ _)) => eapply (hom_CSR_to_csc h) : homc.
Hint Extern 0 (_ = rmap _ (@CSR_to_dense _ _ _)) => eapply (hom_CSR_to_dense h) : homc.
Hint Extern 0 (_ = rmap _ (@CSC_to_csr _ _ _ _ _)) => eapply (hom_CSC_to_csr h) : homc.
Hint Extern 0 (_ = rmap _ (@CSC_to_coo _ _ _ _ _)) => eapply (hom_CSC_to_coo h) : homc.
Hint Extern 0 (_ = rmap _ (@CSC_to_dense _ _ _ _ _)) => eapply (hom_CSC_to_dense h) : homc.
Hint Extern 0 (_ = rmap _ (@Coo_from_dense _ _ _ _)) => eapply (hom_Coo_from_dense h) : homc.
Hint Extern 0 (_ = rmap _ (@CSR_from_dense _ _ _ _ _)) => eapply (hom_CSR_from_dense h) : homc.
Hint Extern 0 (_ = rmap _ (@CSC_from_dense _ _ _ _ _)) => eapply (hom_CSC_from_dense h) : homc.
Hint Extern 0 (_ = rmap _ (@Coo_with_diagonal _ _ _ _)) => eapply (hom_Coo_with_diagonal h) : homc.
Hint Extern 0 (_ = rmap _ (@Coo_identity _ _ _ _)) => eapply (hom_Coo_identity h) : homc.
Hint Extern 0 (_ = rmap _ (@CSR_with_diagonal _ _ _)) => eapply (hom_CSR_with_diagonal h) : homc.
Hint Extern 0 (_ = rmap _ (@CSC_with_diagonal _ _ _)) => eapply (hom_CSC_with_diagonal h) : homc.
Hint Extern 0 (_ = rmap _ (@Coo_upper _ _ _ _ _)) => eapply (hom_Coo_upper h) : homc.
Hint Extern 0 (_ = rmap _ (@Coo_diagonal _ _ _)) => eapply (hom_Coo_diagonal h) : homc.
Hint Extern 0 (_ = rmap _ (@CSR_diagonal _ _ _ _)) => eapply (hom_CSR_diagonal h) : homc.
Hint Extern 0 (_ = rmap _ (@CSC_diagonal _ _ _ _)) => eapply (hom_CSC_diagonal h) : homc.
Hint Extern 0 (_ = rmap _ (@Coo_v_stack _ _ _ _ _)) => eapply (hom_Coo_v_stack h) : homc.
Hint Extern 0 (_ = rmap _ (@Coo_v_stack3 _ _ _ _ _ _)) => eapply (hom_Coo_v_stack3 h) : homc.
Hint Extern 0 (_ = rmap _ (@Coo_h_stack _ _ _ _ _)) => eapply (hom_Coo_h_stack h) : homc.
Hint Extern 0 (_ = rmap _ (@Coo_h_stack3 _ _ _ _ _ _)) => eapply (hom_Coo_h_stack3 h) : homc.
Hint Extern 0 (_ = rmap _ (@Coo_compose _ _ _ _ _ _ _)) => eapply (hom_Coo_compose h) : homc.
Hint Extern 0 (_ = rmap _ (@Coo_compose3 _ _ _ _ _ _ _ _ _ _ _ _)) => eapply (hom_Coo_compose3 h) : homc.
Hint Extern 0 (_ = rmap _ (@CSR_h_stack _ _ _ _ _ _)) => eapply (hom_CSR_h_stack h) : homc.
Hint Extern 0 (_ = rmap _ (@CSC_compose _ _ _ _ _ _ _ _)) => eapply (hom_CSC_compose h) : homc.
Hint Extern 0 (_ = rmap _ (@CSR_mat_vec _ _ _ _)) => eapply (hom_CSR_mat_vec h) : homc.
Hint Extern 0 (_ = rmap _ (@CSC_mat_vec _ _ _ _)) => eapply (hom_CSC_mat_vec h) : homc.
Hint Extern 0 (_ = rmap _ (@CSR_select _ _ _ _ _ _ _)) => eapply (hom_CSR_select h) : homc.
Hint Extern 0 (_ = rmap _ (@CSC_select _ _ _ _ _ _ _)) => eapply (hom_CSC_select h) : homc.
Hint Extern 0 (_ = rmap _ (@CSR_get _ _ _ _ _)) => eapply (hom_CSR_get h) : homc.
Hint Extern 0 (_ = rmap _ (@CSR_add _ _ _ _ _ _)) => eapply (hom_CSR_add h) : homc.
Hint Extern 0 (_ = rmap _ (@CSR_sub _ _ _ _ _ _)) => eapply (hom_CSR_sub h) : homc.
Hint Extern 0 (_ = rmap _ (@CSR_mul _ _ _ _ _ _)) => eapply (hom_CSR_mul h) : homc.
Hint Extern 0 (_ = rmap _ (@CSC_subtract _ _ _ _ _ _)) => eapply (hom_CSC_subtract h) : homc.
Hint Extern 0 (_ = rmap _ (@CSC_op_add _ _ _ _ _ _)) => eapply (hom_CSC_op_add h) : homc.
Hint Extern 0 (_ = rmap _ (@CSC_mul _ _ _ _ _ _)) => eapply (hom_CSC_mul h) : homc.
Hint Extern 0 (_ = rmap _ (@CSC_mul_csr _ _ _ _ _ _)) => eapply (hom_CSC_mul_csr h) : homc.
Hint Extern 0 (_ = rmap _ (@Coo_add _ _ _ _ _ _)) => eapply (hom_Coo_add h) : homc.
Hint Extern 0 (_ = rmap _ (@CSR_mul_scalar _ _ _ _ _)) => eapply (hom_CSR_mul_scalar h) : homc.
Hint Extern 0 (_ = rmap _ (@CSR_scalar_mul _ _ _ _ _)) => eapply (hom_CSR_scalar_mul h) : homc.
Hint Extern 0 (_ = rmap _ (@Coo_neg _ _ _)) => eapply (hom_Coo_neg h) : homc.
Hint Extern 0 (_ = rmap _ (@CSR_neg _ _ _ _)) => eapply (hom_CSR_neg h) : homc.
Hint Extern 0 (_ = rmap _ (@CSC_neg _ _ _ _)) => eapply (hom_CSC_neg h) : homc.
Hint Extern 0 (_ = rmap _ (@DoK_set _ _ _ _ _ _ _)) => eapply (hom_DoK_set h) : homc.
Hint Extern 0 (_ = rmap _ (@DoK_from_dense _ _ _ _)) => eapply (hom_DoK_from_dense h) : homc.
Hint Extern 0 (_ = rmap _ (@DoK_to_dense _ _ _ _)) => eapply (hom_DoK_to_dense h) : homc.
Hint Extern 0 (_ = rmap _ (@DoK_to_coo _ _ _)) => eapply (hom_DoK_to_coo h) : homc.
Hint Extern 0 (_ = rmap _ (@DoK_to_csc _ _ _ _ _ _)) => eapply (hom_DoK_to_csc h) : homc.
Hint Extern 0 (_ = rmap _ (@DoK_to_csr _ _ _ _ _ _)) => eapply (hom_DoK_to_csr h) : homc.
Hint Extern 0 (keeps_eq _) => exact Keq : homc.
Lemma hom_vaddto_ck (a1 : (list T)%type) (a1' : (list U)%type) (a2 : (nat)%type) (a2' : (nat)%type) (a3 : (T)%type) (a3' : (U)%type) : a1' = hmap a1 -> a2' = hmap a2 -> a3' = hmap a3 -> @vaddto_ck U CU a1' a2' a3' = rmap hmap (@vaddto_ck T CT a1 a2 a3).
Proof. homf @vaddto_ck. Qed.
Hint Extern 0 (_ = rmap _ (@vaddto_ck _ _ _ _ _)) => apply hom_vaddto_ck : homc.
Lemma hom_csr_diagonal_ck (a2 : (Z)%type) (a2' : (Z)%type) (a3 : (nat)%type) (a3' : (nat)%type) (a4 : (nat)%type) (a4' : (nat)%type) (a5 : (list Z)%type) (a5' : (list Z)%type) (a6 : (list Z)%type) (a6' : (list Z)%type) (a7 : (list T)%type) (a7' : (list U)%type) (a8 : (list T)%type) (a8' : (list U)%type) : a2' = hmap a2 -> a3' = hmap a3 -> a4' = hmap a4 -> a5' = hmap a5 -> a6' = hmap a6 -> a7' = hmap a7 -> a8' = hmap a8 -> @csr_diagonal_ck BD U SU CU a2' a3' a4' a5' a6' a7' a8' = rmap hmap (@csr_diagonal_ck BD T ST CT a2 a3 a4 a5 a6 a7 a8).
Proof. homf @csr_diagonal_ck. Qed.
Hint Extern 0 (_ = rmap _ (@csr_diagonal_ck _ _ _ _ _ _ _ _ _ _ _)) => apply hom_csr_diagonal_ck : homc.
Lemma hom_csr_todense_ck (a1 : (nat)%type) (a1' : (nat)%type) (a2 : (nat)%type) (a2' : (nat)%type) (a3 : (list Z)%type) (a3' : (list Z)%type) (a4 : (list Z)%type) (a4' : (list Z)%type) (a5 : (list T)%type) (a5' : (list U)%type) (a6 : (list (list T))%type) (a6' : (list (list U))%type) : a1' = hmap a1 -> a2' = hmap a2 -> a3' = hmap a3 -> a4' = hmap a4 -> a5' = hmap a5 -> a6' = hmap a6 -> @csr_todense_ck U CU a1' a2' a3' a4' a5' a6' = rmap hmap (@csr_todense_ck T CT a1 a2 a3 a4 a5 a6).
Proof. homf @csr_todense_ck. Qed.
Hint Extern 0 (_ = rmap _ (@csr_todense_ck _ _ _ _ _ _ _ _)) => apply hom_csr_todense_ck : homc.
Lemma hom_csr_matmat_ck (a2 : ity) (a3 : (nat)%type) (a3' : (nat)%type) (a4 : (nat)%type) (a4' : (nat)%type) (a5 : (list Z)%type) (a5' : (list Z)%type) (a6 : (list Z)%type) (a6' : (list Z)%type) (a7 : (list T)%type) (a7' : (list U)%type) (a8 : (list Z)%type) (a8' : (list Z)%type) (a9 : (list Z)%type) (a9' : (list Z)%type) (a10 : (list T)%type) (a10' : (list U)%type) (a11 : (list Z)%type) (a11' : (list Z)%type) (a12 : (list Z)%type) (a12' : (list Z)%type) (a13 : (list T)%type) (a13' : (list U)%type) : a3' = hmap a3 -> a4' = hmap a4 -> a5' = hmap a5 -> a6' = hmap a6 -> a7' = hmap a7 -> a8' = hmap a8 -> a9' = hmap a9 -> a10' = hmap a10 -> a11' = hmap a11 -> a12' = hmap a12 -> a13' = hmap a13 -> @csr_matmat_ck BD U SU CU a2 a3' a4' a5' a6' a7' a8' a9' a10' a11' a12' a13' = rmap hmap (@csr_matmat_ck BD T ST CT a2 a3 a4 a5 a6 a7 a8 a9 a10 a11 a12 a13).
Proof. homf @csr_matmat_ck. Qed.
Hint Extern 0 (_ = rmap _ (@csr_matmat_ck _ _ _ _ _ _ _ _ _ _ _ _ _ _ _ _)) => apply hom_csr_matmat_ck : homc.
Lemma hom_binop_scan_ck (a1 : ity) (a2 : (nat)%type) (a2' : (nat)%type) (a3 : (nat)%type) (a3' : (nat)%type) (a4 : (list Z)%type) (a4' : (list Z)%type) (a5 : (list T)%type) (a5' : (list U)%type) (a6 : (list Z * list T * Z * Z)%type) (a6' : (list Z * list U * Z * Z)%type) : a2' = hmap a2 -> a3' = hmap a3 -> a4' = hmap a4 -> a5' = hmap a5 -> a6' = hmap a6 -> @binop_scan_ck BD U CU a1 a2' a3' a4' a5' a6' = rmap hmap (@binop_scan_ck BD T CT a1 a2 a3 a4 a5 a6).
Proof. homf @binop_scan_ck. Qed.
Hint Extern 0 (_ = rmap _ (@binop_scan_ck _ _ _ _ _ _ _ _ _)) => apply hom_binop_scan_ck : homc.
Section HBinop.
Context (op : T -> T -> res T) (op' : U -> U -> res U) (Kop : forall a b, op' (h a) (h b) = rmap h (op a b)).
Lemma hom_op_ck x y x' y' : x' = h x -> y' = h y -> op' x' y' = rmap h (op x y).
Proof. intros -> ->. apply Kop. Qed.
Lemma Kcnz x : nonzero (h x) = nonzero x.
Proof. cbn [nonzero nonzero_scalar]. f_equal. rewrite <- K0. apply Keq. Qed.
Hint Rewrite Kcnz : hom.
Hint Extern 0 (_ = rmap _ (op _ _)) => apply hom_op_ck : homc.
Lemma hom_csr_binop_csr_general_ck I n_row n_col a_p a_j a_x b_p b_j b_x c_p c_j c_x :
  csr_binop_csr_general_ck I op' n_row n_col a_p a_j (map h a_x) b_p b_j (map h b_x) c_p c_j (map h c_x) = rmap hmap (csr_binop_csr_general_ck I op n_row n_col a_p a_j a_x b_p b_j b_x c_p c_j c_x).
Proof. homf @csr_binop_csr_general_ck. Qed.
Lemma hom_csr_binop_csr_ck I n_row n_col a_p a_j a_x b_p b_j b_x c_p c_j c_x :
  csr_binop_csr_ck I op' n_row n_col a_p a_j (map h a_x) b_p b_j (map h b_x) c_p c_j (map h c_x) = rmap hmap (csr_binop_csr_ck I op n_row n_col a_p a_j a_x b_p b_j b_x c_p c_j c_x).
Proof.
  unfold csr_binop_csr_ck. apply hom_bind; [apply rmap_id|]. intros a. apply hom_bind; [apply rmap_id|].
  intros [|]; [apply (hom_csr_binop_csr_canonical h K0 (h2 := h) Kcnz); exact Kop|apply hom_csr_binop_csr_general_ck].
Qed.
End HBinop.
Lemma hom_csr_add_csr_ck (a2 : ity) (a3 : (nat)%type) (a3' : (nat)%type) (a4 : (nat)%type) (a4' : (nat)%type) (a5 : (list Z)%type) (a5' : (list Z)%type) (a6 : (list Z)%type) (a6' : (list Z)%type) (a7 : (list T)%type) (a7' : (list U)%type) (a8 : (list Z)%type) (a8' : (list Z)%type) (a9 : (list Z)%type) (a9' : (list Z)%type) (a10 : (list T)%type) (a10' : (list U)%type) (a11 : (list Z)%type) (a11' : (list Z)%type) (a12 : (list Z)%type) (a12' : (list Z)%type) (a13 : (list T)%type) (a13' : (list U)%type) : a3' = hmap a3 -> a4' = hmap a4 -> a5' = hmap a5 -> a6' = hmap a6 -> a7' = hmap a7 -> a8' = hmap a8 -> a9' = hmap a9 -> a10' = hmap a10 -> a11' = hmap a11 -> a12' = hmap a12 -> a13' = hmap a13 -> @csr_add_csr_ck BD U SU CU a2 a3' a4' a5' a6' a7' a8' a9' a10' a11' a12' a13' = rmap hmap (@csr_add_csr_ck BD T ST CT a2 a3 a4 a5 a6 a7 a8 a9 a10 a11 a12 a13).
Proof. intros; subst; unfold csr_add_csr_ck; hun; apply hom_csr_binop_csr_ck; assumption. Qed.
Hint Extern 0 (_ = rmap _ (@csr_add_csr_ck _ _ _ _ _ _ _ _ _ _ _ _ _ _ _ _)) => apply hom_csr_add_csr_ck : homc.
Lemma hom_csr_sub_csr_ck (a2 : ity) (a3 : (nat)%type) (a3' : (nat)%type) (a4 : (nat)%type) (a4' : (nat)%type) (a5 : (list Z)%type) (a5' : (list Z)%type) (a6 : (list Z)%type) (a6' : (list Z)%type) (a7 : (list T)%type) (a7' : (list U)%type) (a8 : (list Z)%type) (a8' : (list Z)%type) (a9 : (list Z)%type) (a9' : (list Z)%type) (a10 : (list T)%type) (a10' : (list U)%type) (a11 : (list Z)%type) (a11' : (list Z)%type) (a12 : (list Z)%type) (a12' : (list Z)%type) (a13 : (list T)%type) (a13' : (list U)%type) : a3' = hmap a3 -> a4' = hmap a4 -> a5' = hmap a5 -> a6' = hmap a6 -> a7' = hmap a7 -> a8' = hmap a8 -> a9' = hmap a9 -> a10' = hmap a10 -> a11' = hmap a11 -> a12' = hmap a12 -> a13' = hmap a13 -> @csr_sub_csr_ck BD U SU CU a2 a3' a4' a5' a6' a7' a8' a9' a10' a11' a12' a13' = rmap hmap (@csr_sub_csr_ck BD T ST CT a2 a3 a4 a5 a6 a7 a8 a9 a10 a11 a12 a13).
Proof. intros; subst; unfold csr_sub_csr_ck; hun; apply hom_csr_binop_csr_ck; assumption. Qed.
Hint Extern 0 (_ = rmap _ (@csr_sub_csr_ck _ _ _ _ _ _ _ _ _ _ _ _ _ _ _ _)) => apply hom_csr_sub_csr_ck : homc.
Lemma hom_csr_sum_duplicates_ck (a1 : ity) (a2 : (nat)%type) (a2' : (nat)%type) (a3 : (nat)%type) (a3' : (nat)%type) (a4 : (list Z)%type) (a4' : (list Z)%type) (a5 : (list Z)%type) (a5' : (list Z)%type) (a6 : (list T)%type) (a6' : (list U)%type) : a2' = hmap a2 -> a3' = hmap a3 -> a4' = hmap a4 -> a5' = hmap a5 -> a6' = hmap a6 -> @csr_sum_duplicates_ck U CU a1 a2' a3' a4' a5' a6' = rmap hmap (@csr_sum_duplicates_ck T CT a1 a2 a3 a4 a5 a6).
Proof. homf @csr_sum_duplicates_ck. Qed.
Hint Extern 0 (_ = rmap _ (@csr_sum_duplicates_ck _ _ _ _ _ _ _ _)) => apply hom_csr_sum_duplicates_ck : homc.
Lemma hom_csr_matvec_ck (a1 : (nat)%type) (a1' : (nat)%type) (a2 : (nat)%type) (a2' : (nat)%type) (a3 : (list Z)%type) (a3' : (list Z)%type) (a4 : (list Z)%type) (a4' : (list Z)%type) (a5 : (list T)%type) (a5' : (list U)%type) (a6 : (list T)%type) (a6' : (list U)%type) (a7 : (list T)%type) (a7' : (list U)%type) : a1' = hmap a1 -> a2' = hmap a2 -> a3' = hmap a3 -> a4' = hmap a4 -> a5' = hmap a5 -> a6' = hmap a6 -> a7' = hmap a7 -> @csr_matvec_ck U CU a1' a2' a3' a4' a5' a6' a7' = rmap hmap (@csr_matvec_ck T CT a1 a2 a3 a4 a5 a6 a7).
Proof. homf @csr_matvec_ck. Qed.
Hint Extern 0 (_ = rmap _ (@csr_matvec_ck _ _ _ _ _ _ _ _ _)) => apply hom_csr_matvec_ck : homc.
Lemma hom_csc_matvec_ck (a1 : (nat)%type) (a1' : (nat)%type) (a2 : (nat)%type) (a2' : (nat)%type) (a3 : (list Z)%type) (a3' : (list Z)%type) (a4 : (list Z)%type) (a4' : (list Z)%type) (a5 : (list T)%type) (a5' : (list U)%type) (a6 : (list T)%type) (a6' : (list U)%type) (a7 : (list T)%type) (a7' : (list U)%type) : a1' = hmap a1 -> a2' = hmap a2 -> a3' = hmap a3 -> a4' = hmap a4 -> a5' = hmap a5 -> a6' = hmap a6 -> a7' = hmap a7 -> @csc_matvec_ck U CU a1' a2' a3' a4' a5' a6' a7' = rmap hmap (@csc_matvec_ck T CT a1 a2 a3 a4 a5 a6 a7).
Proof. homf @csc_matvec_ck. Qed.
Hint Extern 0 (_ = rmap _ (@csc_matvec_ck _ _ _ _ _ _ _ _ _)) => apply hom_csc_matvec_ck : homc.
Lemma hom_csc_matmat_ck (a2 : ity) (a3 : (nat)%type) (a3' : (nat)%type) (a4 : (nat)%type) (a4' : (nat)%type) (a5 : (list Z)%type) (a5' : (list Z)%type) (a6 : (list Z)%type) (a6' : (list Z)%type) (a7 : (list T)%type) (a7' : (list U)%type) (a8 : (list Z)%type) (a8' : (list Z)%type) (a9 : (list Z)%type) (a9' : (list Z)%type) (a10 : (list T)%type) (a10' : (list U)%type) (a11 : (list Z)%type) (a11' : (list Z)%type) (a12 : (list Z)%type) (a12' : (list Z)%type) (a13 : (list T)%type) (a13' : (list U)%type) : a3' = hmap a3 -> a4' = hmap a4 -> a5' = hmap a5 -> a6' = hmap a6 -> a7' = hmap a7 -> a8' = hmap a8 -> a9' = hmap a9 -> a10' = hmap a10 -> a11' = hmap a11 -> a12' = hmap a12 -> a13' = hmap a13 -> @csc_matmat_ck BD U SU CU a2 a3' a4' a5' a6' a7' a8' a9' a10' a11' a12' a13' = rmap hmap (@csc_matmat_ck BD T ST CT a2 a3 a4 a5 a6 a7 a8 a9 a10 a11 a12 a13).
Proof. homf @csc_matmat_ck. Qed.
Hint Extern 0 (_ = rmap _ (@csc_matmat_ck _ _ _ _ _ _ _ _ _ _ _ _ _ _ _ _)) => apply hom_csc_matmat_ck : homc.
Lemma hom_CSR_sum_duplicates_ck (a2 : ity) (a3 : (CSR T)%type) (a3' : (CSR U)%type) : a3' = hmap a3 -> @CSR_sum_duplicates_ck BD U SU CU a2 a3' = rmap hmap (@CSR_sum_duplicates_ck BD T ST CT a2 a3).
Proof. homf @CSR_sum_duplicates_ck. Qed.
Hint Extern 0 (_ = rmap _ (@CSR_sum_duplicates_ck _ _ _ _ _ _)) => apply hom_CSR_sum_duplicates_ck : homc.
Lemma hom_CSC_sum_duplicates_ck (a2 : ity) (a3 : (CSC T)%type) (a3' : (CSC U)%type) : a3' = hmap a3 -> @CSC_sum_duplicates_ck BD U SU CU a2 a3' = rmap hmap (@CSC_sum_duplicates_ck BD T ST CT a2 a3).
Proof. homf @CSC_sum_duplicates_ck. Qed.
Hint Extern 0 (_ = rmap _ (@CSC_sum_duplicates_ck _ _ _ _ _ _)) => apply hom_CSC_sum_duplicates_ck : homc.
Lemma hom_Coo_to_csc_ck (a2 : ity) (a3 : (Coo T)%type) (a3' : (Coo U)%type) : a3' = hmap a3 -> @Coo_to_csc_ck BD U SU CU a2 a3' = rmap hmap (@Coo_to_csc_ck BD T ST CT a2 a3).
Proof. homf @Coo_to_csc_ck. Qed.
Hint Extern 0 (_ = rmap _ (@Coo_to_csc_ck _ _ _ _ _ _)) => apply hom_Coo_to_csc_ck : homc.
Lemma hom_Coo_to_csr_ck (a2 : ity) (a3 : (Coo T)%type) (a3' : (Coo U)%type) : a3' = hmap a3 -> @Coo_to_csr_ck BD U SU CU a2 a3' = rmap hmap (@Coo_to_csr_ck BD T ST CT a2 a3).
Proof. homf @Coo_to_csr_ck. Qed.
Hint Extern 0 (_ = rmap _ (@Coo_to_csr_ck _ _ _ _ _ _)) => apply hom_Coo_to_csr_ck : homc.
Lemma hom_Coo_to_dense_ck (a2 : (Coo T)%type) (a2' : (Coo U)%type) : a2' = hmap a2 -> @Coo_to_dense_ck U SU CU a2' = rmap hmap (@Coo_to_dense_ck T ST CT a2).
Proof. homf @Coo_to_dense_ck. Qed.
Hint Extern 0 (_ = rmap _ (@Coo_to_dense_ck _ _ _ _)) => apply hom_Coo_to_dense_ck : homc.
Lemma hom_CSR_to_dense_ck (a2 : (CSR T)%type) (a2' : (CSR U)%type) : a2' = hmap a2 -> @CSR_to_dense_ck U SU CU a2' = rmap hmap (@CSR_to_dense_ck T ST CT a2).
Proof. homf @CSR_to_dense_ck. Qed.
Hint Extern 0 (_ = rmap _ (@CSR_to_dense_ck _ _ _ _)) => apply hom_CSR_to_dense_ck : homc.
Lemma hom_CSC_to_dense_ck (a2 : ity) (a3 : (CSC T)%type) (a3' : (CSC U)%type) : a3' = hmap a3 -> @CSC_to_dense_ck BD U SU CU a2 a3' = rmap hmap (@CSC_to_dense_ck BD T ST CT a2 a3).
Proof. homf @CSC_to_dense_ck. Qed.
Hint Extern 0 (_ = rmap _ (@CSC_to_dense_ck _ _ _ _ _ _)) => apply hom_CSC_to_dense_ck : homc.
Lemma hom_Coo_diagonal_ck (a2 : (Coo T)%type) (a2' : (Coo U)%type) : a2' = hmap a2 -> @Coo_diagonal_ck U SU CU a2' = rmap hmap (@Coo_diagonal_ck T ST CT a2).
Proof. homf @Coo_diagonal_ck. Qed.
Hint Extern 0 (_ = rmap _ (@Coo_diagonal_ck _ _ _ _)) => apply hom_Coo_diagonal_ck : homc.
Lemma hom_CSR_diagonal_ck (a2 : (CSR T)%type) (a2' : (CSR U)%type) : a2' = hmap a2 -> @CSR_diagonal_ck BD U SU CU a2' = rmap hmap (@CSR_diagonal_ck BD T ST CT a2).
Proof. homf @CSR_diagonal_ck. Qed.
Hint Extern 0 (_ = rmap _ (@CSR_diagonal_ck _ _ _ _ _)) => apply hom_CSR_diagonal_ck : homc.
Lemma hom_CSC_diagonal_ck (a2 : (CSC T)%type) (a2' : (CSC U)%type) : a2' = hmap a2 -> @CSC_diagonal_ck BD U SU CU a2' = rmap hmap (@CSC_diagonal_ck BD T ST CT a2).
Proof. homf @CSC_diagonal_ck. Qed.
Hint Extern 0 (_ = rmap _ (@CSC_diagonal_ck _ _ _ _ _)) => apply hom_CSC_diagonal_ck : homc.
Lemma hom_CSR_h_stack_ck (a2 : ity) (a3 : (CSR T)%type) (a3' : (CSR U)%type) (a4 : (CSR T)%type) (a4' : (CSR U)%type) : a3' = hmap a3 -> a4' = hmap a4 -> @CSR_h_stack_ck BD U SU CU a2 a3' a4' = rmap hmap (@CSR_h_stack_ck BD T ST CT a2 a3 a4).
Proof. homf @CSR_h_stack_ck. Qed.
Hint Extern 0 (_ = rmap _ (@CSR_h_stack_ck _ _ _ _ _ _ _)) => apply hom_CSR_h_stack_ck : homc.
Lemma hom_CSC_compose_ck (a2 : ity) (a3 : (CSC T)%type) (a3' : (CSC U)%type) (a4 : (CSC T)%type) (a4' : (CSC U)%type) (a5 : (CSC T)%type) (a5' : (CSC U)%type) (a6 : (CSC T)%type) (a6' : (CSC U)%type) : a3' = hmap a3 -> a4' = hmap a4 -> a5' = hmap a5 -> a6' = hmap a6 -> @CSC_compose_ck BD U SU CU a2 a3' a4' a5' a6' = rmap hmap (@CSC_compose_ck BD T ST CT a2 a3 a4 a5 a6).
Proof. homf @CSC_compose_ck. Qed.
Hint Extern 0 (_ = rmap _ (@CSC_compose_ck _ _ _ _ _ _ _ _ _)) => apply hom_CSC_compose_ck : homc.
Lemma hom_CSR_mat_vec_ck (a2 : (CSR T)%type) (a2' : (CSR U)%type) (a3 : (list T)%type) (a3' : (list U)%type) : a2' = hmap a2 -> a3' = hmap a3 -> @CSR_mat_vec_ck U SU CU a2' a3' = rmap hmap (@CSR_mat_vec_ck T ST CT a2 a3).
Proof. homf @CSR_mat_vec_ck. Qed.
Hint Extern 0 (_ = rmap _ (@CSR_mat_vec_ck _ _ _ _ _)) => apply hom_CSR_mat_vec_ck : homc.
Lemma hom_CSC_mat_vec_ck (a2 : (CSC T)%type) (a2' : (CSC U)%type) (a3 : (list T)%type) (a3' : (list U)%type) : a2' = hmap a2 -> a3' = hmap a3 -> @CSC_mat_vec_ck U SU CU a2' a3' = rmap hmap (@CSC_mat_vec_ck T ST CT a2 a3).
Proof. homf @CSC_mat_vec_ck. Qed.
Hint Extern 0 (_ = rmap _ (@CSC_mat_vec_ck _ _ _ _ _)) => apply hom_CSC_mat_vec_ck : homc.
Lemma hom_CSR_mat_mat_ck (a2 : ity) (a3 : (CSR T)%type) (a3' : (CSR U)%type) (a4 : (CSR T)%type) (a4' : (CSR U)%type) : a3' = hmap a3 -> a4' = hmap a4 -> @CSR_mat_mat_ck BD U SU CU a2 a3' a4' = rmap hmap (@CSR_mat_mat_ck BD T ST CT a2 a3 a4).
Proof. homf @CSR_mat_mat_ck. Qed.
Hint Extern 0 (_ = rmap _ (@CSR_mat_mat_ck _ _ _ _ _ _ _)) => apply hom_CSR_mat_mat_ck : homc.
Lemma hom_CSC_mat_mat_ck (a2 : ity) (a3 : (CSC T)%type) (a3' : (CSC U)%type) (a4 : (CSC T)%type) (a4' : (CSC U)%type) : a3' = hmap a3 -> a4' = hmap a4 -> @CSC_mat_mat_ck BD U SU CU a2 a3' a4' = rmap hmap (@CSC_mat_mat_ck BD T ST CT a2 a3 a4).
Proof. homf @CSC_mat_mat_ck. Qed.
Hint Extern 0 (_ = rmap _ (@CSC_mat_mat_ck _ _ _ _ _ _ _)) => apply hom_CSC_mat_mat_ck : homc.
Lemma hom_CSR_add_ck (a2 : ity) (a3 : (CSR T)%type) (a3' : (CSR U)%type) (a4 : (CSR T)%type) (a4' : (CSR U)%type) : a3' = hmap a3 -> a4' = hmap a4 -> @CSR_add_ck BD U SU CU a2 a3' a4' = rmap hmap (@CSR_add_ck BD T ST CT a2 a3 a4).
Proof. homf @CSR_add_ck. Qed.
Hint Extern 0 (_ = rmap _ (@CSR_add_ck _ _ _ _ _ _ _)) => apply hom_CSR_add_ck : homc.
Lemma hom_CSR_sub_ck (a2 : ity) (a3 : (CSR T)%type) (a3' : (CSR U)%type) (a4 : (CSR T)%type) (a4' : (CSR U)%type) : a3' = hmap a3 -> a4' = hmap a4 -> @CSR_sub_ck BD U SU CU a2 a3' a4' = rmap hmap (@CSR_sub_ck BD T ST CT a2 a3 a4).
Proof. homf @CSR_sub_ck. Qed.
Hint Extern 0 (_ = rmap _ (@CSR_sub_ck _ _ _ _ _ _ _)) => apply hom_CSR_sub_ck : homc.
Lemma hom_CSR_mul_ck (a2 : ity) (a3 : (CSR T)%type) (a3' : (CSR U)%type) (a4 : (CSR T)%type) (a4' : (CSR U)%type) : a3' = hmap a3 -> a4' = hmap a4 -> @CSR_mul_ck BD U SU CU a2 a3' a4' = rmap hmap (@CSR_mul_ck BD T ST CT a2 a3 a4).
Proof. homf @CSR_mul_ck. Qed.
Hint Extern 0 (_ = rmap _ (@CSR_mul_ck _ _ _ _ _ _ _)) => apply hom_CSR_mul_ck : homc.
Lemma hom_CSC_add_ck (a2 : ity) (a3 : (CSC T)%type) (a3' : (CSC U)%type) (a4 : (CSC T)%type) (a4' : (CSC U)%type) : a3' = hmap a3 -> a4' = hmap a4 -> @CSC_add_ck BD U SU CU a2 a3' a4' = rmap hmap (@CSC_add_ck BD T ST CT a2 a3 a4).
Proof. homf @CSC_add_ck. Qed.
Hint Extern 0 (_ = rmap _ (@CSC_add_ck _ _ _ _ _ _ _)) => apply hom_CSC_add_ck : homc.
Lemma hom_CSC_subtract_ck (a2 : ity) (a3 : (CSC T)%type) (a3' : (CSC U)%type) (a4 : (CSC T)%type) (a4' : (CSC U)%type) : a3' = hmap a3 -> a4' = hmap a4 -> @CSC_subtract_ck BD U SU CU a2 a3' a4' = rmap hmap (@CSC_subtract_ck BD T ST CT a2 a3 a4).
Proof. homf @CSC_subtract_ck. Qed.
Hint Extern 0 (_ = rmap _ (@CSC_subtract_ck _ _ _ _ _ _ _)) => apply hom_CSC_subtract_ck : homc.
Lemma hom_CSC_op_add_ck (a2 : ity) (a3 : (CSC T)%type) (a3' : (CSC U)%type) (a4 : (CSC T)%type) (a4' : (CSC U)%type) : a3' = hmap a3 -> a4' = hmap a4 -> @CSC_op_add_ck BD U SU CU a2 a3' a4' = rmap hmap (@CSC_op_add_ck BD T ST CT a2 a3 a4).
Proof. homf @CSC_op_add_ck. Qed.
Hint Extern 0 (_ = rmap _ (@CSC_op_add_ck _ _ _ _ _ _ _)) => apply hom_CSC_op_add_ck : homc.
Lemma hom_CSC_mul_ck (a2 : ity) (a3 : (CSC T)%type) (a3' : (CSC U)%type) (a4 : (CSC T)%type) (a4' : (CSC U)%type) : a3' = hmap a3 -> a4' = hmap a4 -> @CSC_mul_ck BD U SU CU a2 a3' a4' = rmap hmap (@CSC_mul_ck BD T ST CT a2 a3 a4).
Proof. homf @CSC_mul_ck. Qed.
Hint Extern 0 (_ = rmap _ (@CSC_mul_ck _ _ _ _ _ _ _)) => apply hom_CSC_mul_ck : homc.
Lemma hom_CSC_mul_csr_ck (a2 : ity) (a3 : (CSC T)%type) (a3' : (CSC U)%type) (a4 : (CSR T)%type) (a4' : (CSR U)%type) : a3' = hmap a3 -> a4' = hmap a4 -> @CSC_mul_csr_ck BD U SU CU a2 a3' a4' = rmap hmap (@CSC_mul_csr_ck BD T ST CT a2 a3 a4).
Proof. homf @CSC_mul_csr_ck. Qed.
Hint Extern 0 (_ = rmap _ (@CSC_mul_csr_ck _ _ _ _ _ _ _)) => apply hom_CSC_mul_csr_ck : homc.
Lemma hom_Coo_add_ck (a2 : ity) (a3 : (Coo T)%type) (a3' : (Coo U)%type) (a4 : (Coo T)%type) (a4' : (Coo U)%type) : a3' = hmap a3 -> a4' = hmap a4 -> @Coo_add_ck BD U SU CU a2 a3' a4' = rmap hmap (@Coo_add_ck BD T ST CT a2 a3 a4).
Proof. homf @Coo_add_ck. Qed.
Hint Extern 0 (_ = rmap _ (@Coo_add_ck _ _ _ _ _ _ _)) => apply hom_Coo_add_ck : homc.
Lemma hom_CSR_mul_scalar_ck (a1 : (CSR T)%type) (a1' : (CSR U)%type) (a2 : (T)%type) (a2' : (U)%type) : a1' = hmap a1 -> a2' = hmap a2 -> @CSR_mul_scalar_ck BD U CU a1' a2' = rmap hmap (@CSR_mul_scalar_ck BD T CT a1 a2).
Proof. homf @CSR_mul_scalar_ck. Qed.
Hint Extern 0 (_ = rmap _ (@CSR_mul_scalar_ck _ _ _ _ _)) => apply hom_CSR_mul_scalar_ck : homc.
Lemma hom_CSR_scalar_mul_ck (a1 : (T)%type) (a1' : (U)%type) (a2 : (CSR T)%type) (a2' : (CSR U)%type) : a1' = hmap a1 -> a2' = hmap a2 -> @CSR_scalar_mul_ck BD U CU a1' a2' = rmap hmap (@CSR_scalar_mul_ck BD T CT a1 a2).
Proof. homf @CSR_scalar_mul_ck. Qed.
Hint Extern 0 (_ = rmap _ (@CSR_scalar_mul_ck _ _ _ _ _)) => apply hom_CSR_scalar_mul_ck : homc.
Lemma hom_Coo_neg_ck (a1 : (Coo T)%type) (a1' : (Coo U)%type) : a1' = hmap a1 -> @Coo_neg_ck U NU a1' = rmap hmap (@Coo_neg_ck T NT a1).
Proof. homf @Coo_neg_ck. Qed.
Hint Extern 0 (_ = rmap _ (@Coo_neg_ck _ _ _)) => apply hom_Coo_neg_ck : homc.
Lemma hom_CSR_neg_ck (a1 : (CSR T)%type) (a1' : (CSR U)%type) : a1' = hmap a1 -> @CSR_neg_ck BD U NU a1' = rmap hmap (@CSR_neg_ck BD T NT a1).
Proof. homf @CSR_neg_ck. Qed.
Hint Extern 0 (_ = rmap _ (@CSR_neg_ck _ _ _ _)) => apply hom_CSR_neg_ck : homc.
Lemma hom_CSC_neg_ck (a1 : (CSC T)%type) (a1' : (CSC U)%type) : a1' = hmap a1 -> @CSC_neg_ck BD U NU a1' = rmap hmap (@CSC_neg_ck BD T NT a1).
Proof. homf @CSC_neg_ck. Qed.
Hint Extern 0 (_ = rmap _ (@CSC_neg_ck _ _ _ _)) => apply hom_CSC_neg_ck : homc.
Lemma hom_DoK_add_ck (a2 : ity) (a3 : (DoK T)%type) (a3' : (DoK U)%type) (a4 : (Z)%type) (a4' : (Z)%type) (a5 : (Z)%type) (a5' : (Z)%type) (a6 : (T)%type) (a6' : (U)%type) : a3' = hmap a3 -> a4' = hmap a4 -> a5' = hmap a5 -> a6' = hmap a6 -> @DoK_add_ck U SU CU a2 a3' a4' a5' a6' = rmap hmap (@DoK_add_ck T ST CT a2 a3 a4 a5 a6).
Proof. intros; subst; unfold DoK_add_ck; hun; apply (hom_bind (M := h)); [first [apply hom_cadd|apply hom_csub]; [apply (hom_DoK_get h K0)|reflexivity]|intros; apply (hom_DoK_set h K0 Keq); reflexivity]. Qed.
Hint Extern 0 (_ = rmap _ (@DoK_add_ck _ _ _ _ _ _ _ _)) => apply hom_DoK_add_ck : homc.
Lemma hom_DoK_sub_ck (a2 : ity) (a3 : (DoK T)%type) (a3' : (DoK U)%type) (a4 : (Z)%type) (a4' : (Z)%type) (a5 : (Z)%type) (a5' : (Z)%type) (a6 : (T)%type) (a6' : (U)%type) : a3' = hmap a3 -> a4' = hmap a4 -> a5' = hmap a5 -> a6' = hmap a6 -> @DoK_sub_ck U SU CU a2 a3' a4' a5' a6' = rmap hmap (@DoK_sub_ck T ST CT a2 a3 a4 a5 a6).
Proof. intros; subst; unfold DoK_sub_ck; hun; apply (hom_bind (M := h)); [first [apply hom_cadd|apply hom_csub]; [apply (hom_DoK_get h K0)|reflexivity]|intros; apply (hom_DoK_set h K0 Keq); reflexivity]. Qed.
Hint Extern 0 (_ = rmap _ (@DoK_sub_ck _ _ _ _ _ _ _ _)) => apply hom_DoK_sub_ck : homc.
Lemma hom_DoK_to_csc_ck (a2 : ity) (a3 : (DoK T)%type) (a3' : (DoK U)%type) (a4 : (list (Z * Z * T))%type) (a4' : (list (Z * Z * U))%type) : a3' = hmap a3 -> a4' = hmap a4 -> @DoK_to_csc_ck BD U SU CU a2 a3' a4' = rmap hmap (@DoK_to_csc_ck BD T ST CT a2 a3 a4).
Proof. homf @DoK_to_csc_ck. Qed.
Hint Extern 0 (_ = rmap _ (@DoK_to_csc_ck _ _ _ _ _ _ _)) => apply hom_DoK_to_csc_ck : homc.
Lemma hom_DoK_to_csr_ck (a2 : ity) (a3 : (DoK T)%type) (a3' : (DoK U)%type) (a4 : (list (Z * Z * T))%type) (a4' : (list (Z * Z * U))%type) : a3' = hmap a3 -> a4' = hmap a4 -> @DoK_to_csr_ck BD U SU CU a2 a3' a4' = rmap hmap (@DoK_to_csr_ck BD T ST CT a2 a3 a4).
Proof. homf @DoK_to_csr_ck. Qed.
Hint Extern 0 (_ = rmap _ (@DoK_to_csr_ck _ _ _ _ _ _ _)) => apply hom_DoK_to_csr_ck : homc.
End Hom.
