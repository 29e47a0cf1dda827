(** Release builds: C84, C85. *)
From Coq Require Import String.
From Verif Require Import Rust Scalar Model_kernels Model_matrix Model_graph Model_dok Model_text Model_eigen Spec SpecMore SpecGraph Wp Rep Check ScatterProofs CanonProofs ConvProofs LinProofs Lin2Proofs StructProofs BlockProofs SelectProofs Main_struct Main_select ReleaseProofs ReleaseAll.

Section Agree.
Context {T : Type} {SC : Scalar T} {SO : ScalarOrd T}.
Variable I : ity.
Ltac ag := intros; repeat match goal with |- _ /\ _ => split end; match goal with |- both ?f => change (agrees (f Debug) (f Release)); cbv beta; solve [auto 2 with agrees] end.
Lemma c84_kernels : forall (i1 i2 i3 i4 : Z) (n1 n2 n3 : nat) (p1 p2 p3 p4 p5 p6 : list Z) (x1 x2 x3 : list T) (w1 : list bool) (l1 : list nat) (F : ity),
  both (fun b => csr_diagonal (BD:=b) i1 n1 n2 p1 p2 x1 x2) /\ both (fun b => csr_has_sorted_indices (BD:=b) I n1 p1 p2) /\
  both (fun b => csr_has_canonical_format (BD:=b) I n1 p1 p2) /\ both (fun b => csr_sort_indices (BD:=b) n1 p1 p2 x1) /\
  both (fun b => csr_tocsc (BD:=b) I n1 n2 p1 p2 x1 p3 p4 x2) /\ both (fun b => csr_matmat (BD:=b) I n1 n2 p1 p2 x1 p3 p4 x2 p5 p6 x3) /\
  both (fun b => csr_ne_csr (BD:=b) I n1 n2 p1 p2 x1 p3 p4 x2 p5 p6 w1) /\ both (fun b => csr_eq_csr (BD:=b) I n1 n2 p1 p2 x1 p3 p4 x2 p5 p6 w1) /\
  both (fun b => csr_mul_csr (BD:=b) I n1 n2 p1 p2 x1 p3 p4 x2 p5 p6 x3) /\ both (fun b => csr_div_csr (BD:=b) I n1 n2 p1 p2 x1 p3 p4 x2 p5 p6 x3) /\
  both (fun b => csr_add_csr (BD:=b) I n1 n2 p1 p2 x1 p3 p4 x2 p5 p6 x3) /\ both (fun b => csr_sub_csr (BD:=b) I n1 n2 p1 p2 x1 p3 p4 x2 p5 p6 x3) /\
  both (fun b => csr_lt_csr (BD:=b) I n1 n2 p1 p2 x1 p3 p4 x2 p5 p6 w1) /\ both (fun b => csr_le_csr (BD:=b) I n1 n2 p1 p2 x1 p3 p4 x2 p5 p6 w1) /\
  both (fun b => csr_gt_csr (BD:=b) I n1 n2 p1 p2 x1 p3 p4 x2 p5 p6 w1) /\ both (fun b => csr_ge_csr (BD:=b) I n1 n2 p1 p2 x1 p3 p4 x2 p5 p6 w1) /\
  both (fun b => csr_max_csr (BD:=b) I n1 n2 p1 p2 x1 p3 p4 x2 p5 p6 x3) /\ both (fun b => csr_min_csr (BD:=b) I n1 n2 p1 p2 x1 p3 p4 x2 p5 p6 x3) /\
  both (fun b => get_csr_submatrix (BD:=b) I n1 n2 p1 p2 x1 i1 i2 i3 i4 p3 p4 x2) /\
  both (fun b => csr_column_index1 (BD:=b) I n1 l1 n2 n3 p1 p2 p3 p4) /\ both (fun b => csr_count_diagonals (BD:=b) n1 p1 p2) /\
  both (fun b => coo_tocsr (BD:=b) I n1 n2 n3 p1 p2 x1 p3 p4 x2) /\ both (fun b => csc_diagonal (BD:=b) i1 n1 n2 p1 p2 x1 x2) /\
  both (fun b => csc_tocsr (BD:=b) I n1 n2 p1 p2 x1 p3 p4 x2) /\ both (fun b => csc_matmat (BD:=b) I n1 n2 p1 p2 x1 p3 p4 x2 p5 p6 x3) /\
  both (fun b => cs_graph_components (BD:=b) I F n1 p1 p2 p3).
Proof. ag. Qed.
Lemma c84_csr : forall (n1 n2 : nat) (p1 p2 : list Z) (x1 : list T) (a1 a2 : CSR T) (m1 : list (list T)) (o1 o2 : option (list Z)) (s1 : T) (F : ity),
  both (fun b => CSR_new (BD:=b) n1 n2 p1 p2 x1) /\ both (fun b => CSR_nnz (BD:=b) a1) /\ both (fun b => CSR_t (BD:=b) a1) /\
  both (fun b => CSR_has_canonical_format (BD:=b) I a1) /\ both (fun b => CSR_has_sorted_indexes (BD:=b) I a1) /\
  both (fun b => CSR_sort_indexes (BD:=b) a1) /\ both (fun b => CSR_sum_duplicates (BD:=b) I a1) /\ both (fun b => CSR_to_csc (BD:=b) I a1) /\
  both (fun b => CSR_from_dense (BD:=b) I m1) /\ both (fun b => CSR_diagonal (BD:=b) a1) /\ both (fun b => CSR_h_stack (BD:=b) I a1 a2) /\
  both (fun b => CSR_mat_mat (BD:=b) I a1 a2) /\ both (fun b => CSR_select (BD:=b) I a1 o1 o2) /\ both (fun b => CSR_add (BD:=b) I a1 a2) /\
  both (fun b => CSR_sub (BD:=b) I a1 a2) /\ both (fun b => CSR_mul (BD:=b) I a1 a2) /\ both (fun b => CSR_mul_scalar (BD:=b) a1 s1) /\
  both (fun b => CSR_scalar_mul (BD:=b) s1 a1) /\ both (fun b => CSR_connected_components (BD:=b) I F a1).
Proof. ag. Qed.
Lemma c84_csc : forall (n1 n2 : nat) (p1 p2 : list Z) (x1 : list T) (b1 b2 b3 b4 : CSC T) (m1 : list (list T)) (o1 o2 : option (list Z)) (a1 : CSR T) (s1 : T),
  both (fun b => CSC_new (BD:=b) n1 n2 p1 p2 x1) /\ both (fun b => CSC_nnz (BD:=b) b1) /\ both (fun b => CSC_t (BD:=b) b1) /\
  both (fun b => CSC_has_canonical_format (BD:=b) I b1) /\ both (fun b => CSC_has_sorted_indexes (BD:=b) I b1) /\
  both (fun b => CSC_sort_indexes (BD:=b) b1) /\ both (fun b => CSC_prune (BD:=b) b1) /\ both (fun b => CSC_sum_duplicates (BD:=b) I b1) /\
  both (fun b => CSC_to_csr (BD:=b) I b1) /\ both (fun b => CSC_to_coo (BD:=b) I b1) /\ both (fun b => CSC_to_dense (BD:=b) I b1) /\
  both (fun b => CSC_from_dense (BD:=b) I m1) /\ both (fun b => CSC_diagonal (BD:=b) b1) /\ both (fun b => CSC_compose (BD:=b) I b1 b2 b3 b4) /\
  both (fun b => CSC_mat_mat (BD:=b) I b1 b2) /\ both (fun b => CSC_select (BD:=b) I b1 o1 o2) /\ both (fun b => CSC_add (BD:=b) I b1 b2) /\
  both (fun b => CSC_subtract (BD:=b) I b1 b2) /\ both (fun b => CSC_op_add (BD:=b) I b1 b2) /\ both (fun b => CSC_op_sub (BD:=b) I b1 b2) /\
  both (fun b => CSC_mul (BD:=b) I b1 b2) /\ both (fun b => CSC_mul_csr (BD:=b) I b1 a1) /\ both (fun b => CSC_mul_scalar (BD:=b) b1 s1) /\
  both (fun b => CSC_scalar_mul (BD:=b) s1 b1).
Proof. ag. Qed.
Lemma c84_coo : forall (c1 c2 c3 c4 c5 c6 c7 c8 c9 : Coo T) (i1 : Z),
  both (fun b => Coo_to_csc (BD:=b) I c1) /\ both (fun b => Coo_to_csr (BD:=b) I c1) /\ both (fun b => Coo_upper (BD:=b) I c1 i1) /\
  both (fun b => Coo_v_stack (BD:=b) I c1 c2) /\ both (fun b => Coo_v_stack3 (BD:=b) I c1 c2 c3) /\ both (fun b => Coo_h_stack (BD:=b) I c1 c2) /\
  both (fun b => Coo_h_stack3 (BD:=b) I c1 c2 c3) /\ both (fun b => Coo_compose (BD:=b) I c1 c2 c3 c4) /\
  both (fun b => Coo_compose3 (BD:=b) I c1 c2 c3 c4 c5 c6 c7 c8 c9) /\ both (fun b => Coo_add (BD:=b) I c1 c2).
Proof. ag. Qed.
Lemma c84_dok : forall (d : DoK T) (order : list (Z * Z * T)),
  both (fun b => DoK_to_csc (BD:=b) I d order) /\ both (fun b => DoK_to_csr (BD:=b) I d order).
Proof. ag. Qed.
Lemma c84_rest : forall {T2} {NZ : Nonzero T2} (op : T -> T -> res T2) (n1 n2 : nat) (p1 p2 p3 p4 p5 p6 : list Z) (x1 x2 : list T) (w1 : list T2)
    (g : CSR T) (f1 : bool) conn (show : T -> string) (align : string -> string),
  both (fun b => csr_binop_csr (BD:=b) I op n1 n2 p1 p2 x1 p3 p4 x2 p5 p6 w1) /\ both (fun b => connected_components (BD:=b) I g f1 conn) /\
  both (fun b => depth_first_order (BD:=b) I g n1 f1) /\ both (fun b => CSR_to_table (BD:=b) show align g).
Proof. ag. Qed.
Lemma c84_row_slice : forall fuel start stop step (p j : list Z) (x : list T) bj bx, both (fun b => csr_row_slice (BD:=b) fuel start stop step p j x bj bx).
Proof. intros. match goal with |- both ?f => change (agrees (f Debug) (f Release)); cbv beta end. agall @csr_row_slice. Qed.
Lemma c84_signed : forall {SN : ScalarNeg T} (a1 : CSR T) (b1 : CSC T), both (fun b => CSR_neg (BD:=b) a1) /\ both (fun b => CSC_neg (BD:=b) b1).
Proof. ag. Qed.
Lemma c84_complex : forall {C} {CO : ComplexOps T C} (a1 : CSR T) (a2 : CSR C) (b2 : CSC C),
  both (fun b => CSR_with_real (BD:=b) a1) /\ both (fun b => CSR_with_imag (BD:=b) a1) /\ both (fun b => CSR_conj (BD:=b) a2) /\
  both (fun b => CSR_real (BD:=b) a2) /\ both (fun b => CSR_imag (BD:=b) a2) /\ both (fun b => CSR_h (BD:=b) a2) /\
  both (fun b => CSC_conj (BD:=b) b2) /\ both (fun b => CSC_real (BD:=b) b2) /\ both (fun b => CSC_imag (BD:=b) b2) /\ both (fun b => CSC_h (BD:=b) b2).
Proof. ag. Qed.
Lemma c84_eigs : forall {SN : ScalarNeg T} {H} dnaupd dneupd fuel (a : CSC T) nev (h : H), both (fun b => eigs (BD:=b) dnaupd dneupd fuel a nev h).
Proof. ag. Qed.
End Agree.

Section Wrap.
Context {T : Type} {SC : Scalar T}.
Variable I : ity.

Lemma pw_iadd b a z : pw (@iadd b I a z) (fun _ => True).
Proof. destruct b; [eapply pw_mono; [apply pw_icheck|auto]|apply pw_ok; exact Logic.I]. Qed.
Lemma pw_vinc' b v i z : pw (vinc (BD:=b) I v i z) (fun _ => True).
Proof.
  unfold vinc. apply pw_bind. eapply pw_mono; [apply pw_vget|]. intros t _. apply pw_bind. eapply pw_mono; [apply pw_iadd|]. intros t' _.
  eapply pw_mono; [apply pw_vset|]. auto.
Qed.
Lemma tocsr_over b n c nnz ai aj (ax : list T) bp bj bx : (imax I < Z.of_nat nnz)%Z -> coo_tocsr (BD:=b) I n c nnz ai aj ax bp bj bx = Panic.
Proof.
  intros H. unfold coo_tocsr. eapply pw_bind_panic.
  { apply (pw_for_any 0 nnz). intros k p _. apply pw_bind. eapply pw_mono; [apply pw_pget|]. intros i _. apply pw_vinc'. }
  intros p _. eapply pw_bind_panic.
  { apply (pw_for_any 0 n). intros k [q s] _. apply pw_bind. eapply pw_mono; [apply pw_vget|]. intros t _.
    apply pw_bind. eapply pw_mono; [apply pw_vset|]. intros q' _. apply pw_bind. eapply pw_mono; [apply pw_iadd|]. intros z _. apply pw_ok. exact Logic.I. }
  intros [q s] _. rewrite ifrom_panic by exact H. reflexivity.
Qed.
Lemma c85_coo_overflow : forall b (m : Coo T), (imax I < Z.of_nat (length (coo_values m)))%Z ->
  Coo_to_csr (BD:=b) I m = Panic /\ Coo_to_csc (BD:=b) I m = Panic.
Proof. intros b m H. split; [unfold Coo_to_csr|unfold Coo_to_csc]; rewrite tocsr_over by exact H; reflexivity. Qed.

Lemma bind_ext {A B} (m : res A) (f g : A -> res B) : (forall a, f a = g a) -> bind m f = bind m g.
Proof. intros H. destruct m; cbn [bind]; auto. Qed.
Lemma usub_any b a c : c <= a -> @usub b a c = Ok (a - c).
Proof. intros H. unfold usub. apply Nat.leb_le in H. rewrite H. reflexivity. Qed.
Lemma c85_from_dense : forall b (a : list (list T)), CSR_from_dense (BD:=b) I a = CSR_from_dense (BD:=Debug) I a /\ CSC_from_dense (BD:=b) I a = CSC_from_dense (BD:=Debug) I a.
Proof.
  intros b a. split.
  - unfold CSR_from_dense. apply bind_ext. intros a0. apply bind_ext. intros [[[p j] x] n]. apply bind_ext. intros zp.
    unfold CSR_prune, CSR_nnz. cbn [csr_rowptr]. rewrite !usub_any by (rewrite app_length; cbn; lia). reflexivity.
  - unfold CSC_from_dense. apply bind_ext. intros a0. apply bind_ext. intros [[[p j] x] n]. apply bind_ext. intros zp.
    unfold CSC_prune, CSC_nnz. cbn [csc_colptr]. rewrite !usub_any by (rewrite app_length; cbn; lia). reflexivity.
Qed.

Definition upper_body' (m : Coo T) (k : Z) (i : nat) : list Z * list Z * list T -> res (list Z * list Z * list T) := fun '(rowidx, colidx, values) =>
  let* r := vget (coo_rowidx m) i in
  let* rk := @iadd Release I r k in
  let* c := vget (coo_colidx m) i in
  if (rk <=? c)%Z then
    let* v := vget (coo_values m) i in
    Ok (rowidx ++ [r], colidx ++ [c], values ++ [v])
  else Ok (rowidx, colidx, values).
Definition on_upper' (k : Z) (e : nat * nat * T) : bool := (iwrap I (Z.of_nat (fst (fst e)) + k) <=? Z.of_nat (snd (fst e)))%Z.
Lemma upper_body_get' r c L k pre e post s : L = pre ++ e :: post ->
  upper_body' (coo_of r c L) k (length pre) (arrs s) = if on_upper' k e then Ok (arrs (s ++ [e])) else Ok (arrs s).
Proof.
  intros ->. unfold upper_body', coo_of, arrs. cbn [coo_rowidx coo_colidx coo_values].
  unfold zrow at 1, zcol at 1. rewrite !map_app. cbn [map].
  assert (G : forall {A} (f : nat * nat * T -> A), vget (map f pre ++ f e :: map f post) (length pre) = Ok (f e)).
  { intros A f. apply vget_some. rewrite nth_error_app2 by (rewrite map_length; lia). rewrite map_length, Nat.sub_diag. reflexivity. }
  rewrite (G Z (fun e => Z.of_nat (fst (fst e)))). cbn [bind]. unfold iadd. cbn [bind].
  rewrite (G Z (fun e => Z.of_nat (snd (fst e)))). cbn [bind]. unfold on_upper'. destruct (_ <=? _)%Z; [|reflexivity].
  rewrite (G T snd). cbn [bind]. rewrite zrow_app, zcol_app. reflexivity.
Qed.
Lemma c85_upper : forall (m : Coo T) k, wf_coo I m ->
  exists r, Coo_upper (BD:=Release) I m k = Ok r /\ wf_coo I r /\ coo_rows r = coo_rows m /\ coo_cols r = coo_cols m /\
    coo_entries r = filter (fun e => iwrap I (Z.of_nat (fst (fst e)) + k) <=? Z.of_nat (snd (fst e)))%Z (coo_entries m).
Proof.
  intros m k H. destruct (wf_coo_is I m H) as [E F]. exists (coo_of (coo_rows m) (coo_cols m) (filter (on_upper' k) (coo_entries m))).
  sp; [|apply wf_coo_of, (incl_Forall (incl_filter _ _) F)|apply coo_of_entries].
  rewrite E at 1. generalize (coo_entries m) as L. intros L.
  change (Coo_upper (BD:=Release) I (coo_of (coo_rows m) (coo_cols m) L) k) with
    (let* '(r, c, v) := for_range 0 (Coo_nnz (coo_of (coo_rows m) (coo_cols m) L)) (upper_body' (coo_of (coo_rows m) (coo_cols m) L) k) (arrs []) in Ok (mkCoo (coo_rows m) (coo_cols m) r c v)).
  apply wp_eq, wp_bind.
  eapply (wp_for_list (fun pre s => s = arrs (filter (on_upper' k) pre)) L); [unfold Coo_nnz, coo_of; cbn; apply map_length|reflexivity| |].
  - intros pre e post s E' ->. cbn [plus]. rewrite (upper_body_get' _ _ _ _ _ _ _ _ E'). rewrite filter_app. cbn [filter]. destruct (on_upper' k e); apply wp_ok; [reflexivity|rewrite app_nil_r; reflexivity].
  - intros s ->. apply wp_ok. reflexivity.
Qed.

Lemma mapM_wrap (l : list Z) (n : nat) : (Z.of_nat n <= imax I)%Z ->
  mapM (fun r => let* s := ifrom I n in @iadd Release I r s) l = Ok (map (fun r => iwrap I (r + Z.of_nat n)) l).
Proof.
  intros H. rewrite ifrom_ok by exact H. induction l as [|r l IH]; cbn [mapM map]; [reflexivity|]. cbn [bind] in *. change (@iadd Release I r (Z.of_nat n)) with (Ok (iwrap I (r + Z.of_nat n))). cbn [bind]. rewrite IH. reflexivity.
Qed.
Lemma uadd_mod m n : @uadd Release m n = Ok (wrapped_sum m n).
Proof.
  unfold uadd, wrapped_sum. destruct (Z.leb_spec (Z.of_nat m + Z.of_nat n) (imax Usize)) as [H|H]; cbn [imax] in H.
  - rewrite Z.mod_small by lia. f_equal. lia.
  - unfold iwrap. cbn [imin imax]. f_equal. f_equal. rewrite Z.sub_0_r, Z.add_0_l. reflexivity.
Qed.
Lemma wrapped_sum_small m n : (Z.of_nat (m + n) <= imax Usize)%Z -> wrapped_sum m n = m + n.
Proof. cbn [imax]. intros H. unfold wrapped_sum. rewrite Z.mod_small by lia. lia. Qed.
Lemma c85_v_stack : forall a b : Coo T, coo_cols a = coo_cols b -> (Z.of_nat (coo_rows a) <= imax I)%Z ->
  Coo_v_stack (BD:=Release) I a b = Ok (mkCoo (wrapped_sum (coo_rows a) (coo_rows b)) (coo_cols a)
    (coo_rowidx a ++ map (fun r => iwrap I (r + Z.of_nat (coo_rows a))) (coo_rowidx b)) (coo_colidx a ++ coo_colidx b) (coo_values a ++ coo_values b)).
Proof. intros a b E H. unfold Coo_v_stack. rewrite E, Nat.eqb_refl. cbn [negb]. rewrite uadd_mod. cbn [bind]. rewrite mapM_wrap by exact H. rewrite <- E. reflexivity. Qed.
Lemma c85_h_stack : forall a b : Coo T, wf_coo I a -> wf_coo I b -> coo_rows a = coo_rows b -> (Z.of_nat (coo_cols a) <= imax I)%Z ->
  Coo_h_stack (BD:=Release) I a b = Ok (mkCoo (coo_rows a) (wrapped_sum (coo_cols a) (coo_cols b)) (coo_rowidx a ++ coo_rowidx b)
    (coo_colidx a ++ map (fun c => iwrap I (c + Z.of_nat (coo_cols a))) (coo_colidx b)) (coo_values a ++ coo_values b)).
Proof.
  intros a b [A1 A2 _ _] [B1 B2 _ _] E H. unfold Coo_h_stack. rewrite E, Nat.eqb_refl. cbn [negb]. rewrite uadd_mod. cbn [bind]. rewrite mapM_wrap by exact H. cbn [bind]. unfold Coo_new.
  rewrite !app_length, map_length, A1, A2, B1, B2, !Nat.eqb_refl. reflexivity.
Qed.
Lemma imax_pos : (0 < imax I)%Z.
Proof. destruct I; reflexivity. Qed.
Lemma iwrap_over z : unsigned I -> (imax I < z <= 2 * imax I + 1)%Z -> iwrap I z = (z - imax I - 1)%Z.
Proof.
  intros U H. unfold iwrap. rewrite U, !Z.sub_0_r, Z.add_0_l. rewrite <- (Z.mod_small (z - imax I - 1) (imax I + 1)) by lia.
  replace z with (z - imax I - 1 + 1 * (imax I + 1))%Z at 1 by lia. apply Z.mod_add. lia.
Qed.
Lemma c85_v_stack_wrong : unsigned I -> forall a b : Coo T, wf_coo I a -> wf_coo I b -> coo_cols a = coo_cols b -> (Z.of_nat (coo_rows a) <= imax I)%Z -> (Z.of_nat (coo_rows a + coo_rows b) <= imax Usize)%Z ->
  (exists e, In e (coo_entries b) /\ (imax I < Z.of_nat (coo_rows a + fst (fst e)))%Z) ->
  exists r, Coo_v_stack (BD:=Release) I a b = Ok r /\ wf_coo I r /\ coo_rows r = coo_rows a + coo_rows b /\
    coo_entries r <> coo_entries a ++ placed (coo_rows a) 0 (coo_entries b).
Proof.
  intros U a b Wa Wb Ec Hr Hu (e & He & Ho). rewrite (c85_v_stack a b Ec Hr), (wrapped_sum_small _ _ Hu). eexists. split; [reflexivity|].
  assert (Wr : Forall (fun z => 0 <= iwrap I (z + Z.of_nat (coo_rows a)) <= z + Z.of_nat (coo_rows a) /\ iwrap I (z + Z.of_nat (coo_rows a)) <= imax I)%Z (coo_rowidx b)).
  { eapply Forall_impl; [|exact (wfc_row _ _ Wb)]. intros z [Hz Hz']. destruct (Z_le_gt_dec (z + Z.of_nat (coo_rows a)) (imax I)) as [L|L].
    - rewrite iwrap_id by (split; [rewrite U; lia|exact L]). lia.
    - rewrite iwrap_over by (try exact U; lia). lia. }
  assert (W : wf_coo I (mkCoo (coo_rows a + coo_rows b) (coo_cols a) (coo_rowidx a ++ map (fun r => iwrap I (r + Z.of_nat (coo_rows a))) (coo_rowidx b)) (coo_colidx a ++ coo_colidx b) (coo_values a ++ coo_values b))).
  { pose proof Wa as [A1 A2 A3 A4]. pose proof Wb as [B1 B2 B3 B4]. split; cbn [coo_rowidx coo_colidx coo_values coo_rows coo_cols].
    - rewrite !app_length, map_length. lia.
    - rewrite !app_length. lia.
    - apply Forall_app. split; [eapply Forall_impl; [|exact A3]; cbv beta; intros z Hz; rewrite Nat2Z.inj_add; lia|]. apply Forall_map. rewrite Forall_forall in *. intros z Hz. specialize (Wr z Hz). specialize (B3 z Hz). cbv beta in *. rewrite Nat2Z.inj_add. lia.
    - apply Forall_app. split; [exact A4|]. rewrite Ec. exact B4. }
  split; [exact W|]. split; [reflexivity|]. intros X. destruct (wf_coo_is I _ W) as [EW _]. rewrite X in EW.
  apply (f_equal (@coo_rowidx T)) in EW. cbn [coo_rowidx coo_of] in EW. rewrite zrow_app in EW.
  destruct (wf_coo_is I _ Wa) as [Ea _]. apply (f_equal (@coo_rowidx T)) in Ea. cbn [coo_rowidx coo_of] in Ea. rewrite <- Ea in EW. apply app_inv_head in EW.
  destruct (wf_coo_is I _ Wb) as [Eb Fb]. apply (f_equal (@coo_rowidx T)) in Eb. cbn [coo_rowidx coo_of] in Eb. rewrite Eb in EW. unfold zrow, placed in EW. rewrite !map_map in EW.
  assert (EW' := proj1 map_ext_in_iff EW e He). clear EW. rename EW' into EW. cbn [fst snd] in EW.
  rewrite Forall_forall in Wr. specialize (Wr (Z.of_nat (fst (fst e)))). rewrite Eb in Wr. specialize (Wr ltac:(apply in_map_iff; exists e; auto)). cbv beta in EW. lia.
Qed.

Lemma scan_spec (j : list Z) n i : 0 < n -> length j <= i + n ->
  let f := fun jj (_ : unit) => let* x := vget j jj in let* y := vget j (jj + 1) in if (y <? x)%Z then Ok (Stop (S := unit) false) else Ok (Cont tt) in
  ((exists k, i <= k /\ S k < length j /\ (nth (S k) j 0 < nth k j 0)%Z) -> for_n_exit n i f tt = Ok (Stop false)) /\
  (~ (exists k, i <= k /\ S k < length j /\ (nth (S k) j 0 < nth k j 0)%Z) -> for_n_exit n i f tt = Panic).
Proof.
  intros Hn Hl f. revert i Hn Hl. induction n as [|n IH]; intros i Hn Hl; [lia|]. cbn [for_n_exit]. unfold f at 1 3.
  destruct (Nat.lt_ge_cases (S i) (length j)) as [L|L].
  - rewrite (vget_nth j i 0%Z), (vget_nth j (i + 1) 0%Z) by lia. cbn [bind]. rewrite Nat.add_1_r. destruct (Z.ltb_spec (nth (S i) j 0%Z) (nth i j 0%Z)) as [D|D]; cbn [bind].
    + split; [reflexivity|]. intros N. exfalso. apply N. exists i. auto.
    + destruct (IH (S i)) as [I1 I2]; [lia|lia|]. split; intros X; [apply I1|apply I2].
      * destruct X as (k & K1 & K2 & K3). exists k. split; [|auto]. destruct (Nat.eq_dec k i); [subst; lia|lia].
      * intros (k & K1 & K2). apply X. exists k. split; [lia|exact K2].
  - split.
    + intros (k & K1 & K2 & _). lia.
    + intros _. unfold vget at 1. destruct (nth_error j i); [|reflexivity]. cbn [bind]. unfold vget. rewrite (proj2 (nth_error_None j (i + 1))) by lia. reflexivity.
Qed.
Lemma sorted_release c p j (x : list T) R n : crep I c p j x ([] :: R) -> S (length R) = n ->
  (~ unsigned I -> csr_has_sorted_indices (BD:=Release) I n p j = Panic) /\
  (unsigned I -> (Z.of_nat (length j) <= imax I)%Z ->
    (descent j -> csr_has_sorted_indices (BD:=Release) I n p j = Ok false) /\ (~ descent j -> csr_has_sorted_indices (BD:=Release) I n p j = Panic)).
Proof.
  intros H <-. unfold csr_has_sorted_indices, for_range_exit at 1 3 5. cbn [minus for_n_exit].
  pose proof (crep_start H (pre := []) eq_refl) as G1. pose proof (crep_endz H (pre := []) eq_refl) as G2.
  cbn in G1, G2. rewrite G1. cbn [bind]. change (0 + 1) with 1. rewrite G2. cbn [bind]. unfold isub. cbn [bind]. change (0 - 1)%Z with (-1)%Z. split.
  - intros N. rewrite iwrap_id; [reflexivity|]. unfold in_ity. unfold unsigned in N. destruct I; cbn in *; lia.
  - intros U Hl. assert (E : iwrap I (-1) = imax I).
    { unfold iwrap. rewrite U, !Z.sub_0_r, Z.add_0_l. symmetry. apply (Z.mod_unique_pos _ _ (-1)); pose proof imax_pos; lia. }
    rewrite E. pose proof imax_pos as Hp. rewrite to_usize_ok by lia. cbn [bind]. unfold for_range_exit. rewrite Nat.sub_0_r.
    destruct (scan_spec j (Z.to_nat (imax I)) 0 ltac:(lia) ltac:(lia)) as [S1 S2]. split; intros D.
    + rewrite S1; [reflexivity|]. destruct D as (k & K). exists k. split; [lia|exact K].
    + rewrite S2; [reflexivity|]. intros (k & _ & K). apply D. exists k. exact K.
Qed.
Lemma c85_csr_has_sorted_indexes : forall m : CSR T, wf_csr I m -> 0 < csr_rows m -> csr_row m 0 = [] ->
  (~ unsigned I -> CSR_has_sorted_indexes (BD:=Release) I m = Panic) /\
  (unsigned I -> (Z.of_nat (length (csr_colidx m)) <= imax I)%Z ->
    (descent (csr_colidx m) -> CSR_has_sorted_indexes (BD:=Release) I m = Ok false) /\ (~ descent (csr_colidx m) -> CSR_has_sorted_indexes (BD:=Release) I m = Panic)).
Proof.
  intros m W Hr H0. destruct (wf_csr_rep _ _ W) as [R HR]. pose proof HR as [L HC]. rewrite (csr_rep_row _ _ _ _ HR) in H0. destruct R as [|r R]; [cbn in L; lia|]. cbn in H0. subst r.
  unfold CSR_has_sorted_indexes. rewrite !usub_any by (rewrite (cr_len _ _ _ _ _ _ HC); lia). cbn [bind]. rewrite (cr_len _ _ _ _ _ _ HC). apply (sorted_release _ _ _ _ _ _ HC). cbn [length]. lia.
Qed.
Lemma c85_csc_has_sorted_indexes : forall m : CSC T, wf_csc I m -> 0 < csc_cols m -> csc_col m 0 = [] ->
  (~ unsigned I -> CSC_has_sorted_indexes (BD:=Release) I m = Panic) /\
  (unsigned I -> (Z.of_nat (length (csc_rowidx m)) <= imax I)%Z ->
    (descent (csc_rowidx m) -> CSC_has_sorted_indexes (BD:=Release) I m = Ok false) /\ (~ descent (csc_rowidx m) -> CSC_has_sorted_indexes (BD:=Release) I m = Panic)).
Proof.
  intros m W Hr H0. destruct (wf_csc_rep _ _ W) as [R HR]. pose proof HR as [L HC]. rewrite (csc_rep_col _ _ _ _ HR) in H0. destruct R as [|r R]; [cbn in L; lia|]. cbn in H0. subst r.
  unfold CSC_has_sorted_indexes. rewrite !usub_any by (rewrite (cr_len _ _ _ _ _ _ HC); lia). cbn [bind]. rewrite (cr_len _ _ _ _ _ _ HC). apply (sorted_release _ _ _ _ _ _ HC). cbn [length]. lia.
Qed.

Definition udiff (i j : nat) : nat := if i <=? j then j - i else Z.to_nat (iwrap Usize (Z.of_nat j - Z.of_nat i)).
Lemma udiff_inj i j i' j' : (Z.of_nat i <= 2 ^ 63)%Z -> (Z.of_nat i' <= 2 ^ 63)%Z -> (Z.of_nat j < 2 ^ 63)%Z -> (Z.of_nat j' < 2 ^ 63)%Z ->
  udiff i j = udiff i' j' -> (Z.of_nat j - Z.of_nat i = Z.of_nat j' - Z.of_nat i')%Z.
Proof.
  intros H1 H2 H3 H4. assert (G : forall a b, (Z.of_nat a <= 2 ^ 63)%Z -> (Z.of_nat b < 2 ^ 63)%Z -> Z.of_nat (udiff a b) = (if (a <=? b)%nat then Z.of_nat b - Z.of_nat a else 2 ^ 64 + Z.of_nat b - Z.of_nat a)%Z).
  { intros a b Ha Hb. unfold udiff. destruct (Nat.leb_spec a b) as [L|L]; [lia|]. assert (E : iwrap Usize (Z.of_nat b - Z.of_nat a) = (2 ^ 64 + Z.of_nat b - Z.of_nat a)%Z).
    { unfold iwrap. change (imin Usize) with 0%Z. change (imax Usize) with (2 ^ 64 - 1)%Z. rewrite !Z.sub_0_r, Z.add_0_l. symmetry. apply (Z.mod_unique_pos _ _ (-1)); lia. }
    rewrite E, Z2Nat.id; lia. }
  intros E. apply (f_equal Z.of_nat) in E. rewrite !G in E by assumption. destruct (Nat.leb_spec i j), (Nat.leb_spec i' j'); lia.
Qed.
Lemma count_release c p j (x : list T) R : crep I c p j x R -> csr_count_diagonals (BD:=Release) (length R) p j = Ok (length (nodup Nat.eq_dec (map (fun t => udiff (fst t) (fst (snd t))) (flat 0 R)))).
Proof.
  intros H. unfold csr_count_diagonals. apply wp_eq, wp_bind.
  eapply (wp_flat (fun pre st => NoDup st /\ forall d, In d st <-> In d (map (fun t => udiff (fst t) (fst (snd t))) pre)) _ _ _ _ _ _ (length R) (fun i jj diagonals => let* j := pget j jj in let* d := @usub Release j i in Ok (set_insert d diagonals))); [exact H|reflexivity|..].
  - split; [constructor|reflexivity].
  - intros pre i e post st E M [N Hd]. rewrite (met_pj _ _ _ _ _ _ _ _ _ M). cbn [bind].
    replace (@usub Release (fst e) i) with (Ok (udiff i (fst e))) by (unfold usub, udiff; destruct (_ <=? _); reflexivity). cbn [bind]. apply wp_ok. split; [apply set_insert_nodup, N|].
    intros d. rewrite set_insert_in, Hd, map_app, in_app_iff. cbn. intuition.
  - intros st [N Hd]. apply wp_ok. apply Nat.le_antisymm; apply NoDup_incl_length; try exact N; try apply NoDup_nodup; intros d; rewrite nodup_In, Hd; tauto.
Qed.
Lemma nodup_map_length {A} (f : A -> nat) (g : A -> Z) (l : list A) : (forall a b, In a l -> In b l -> f a = f b <-> g a = g b) ->
  length (nodup Nat.eq_dec (map f l)) = length (nodup Z.eq_dec (map g l)).
Proof.
  induction l as [|a l IH]; intros H; [reflexivity|]. cbn [map nodup]. specialize (IH (fun x y Hx Hy => H x y (or_intror Hx) (or_intror Hy))).
  assert (E : In (f a) (map f l) <-> In (g a) (map g l)).
  { rewrite !in_map_iff. split; intros (b & E & Hb); exists b; (split; [apply (H b a (or_intror Hb) (or_introl eq_refl)); exact E|exact Hb]). }
  destruct (in_dec Nat.eq_dec (f a) (map f l)), (in_dec Z.eq_dec (g a) (map g l)); try tauto. cbn [length]. f_equal. exact IH.
Qed.
Lemma c85_count_diagonals : forall m : CSR T, wf_csr I m -> (Z.of_nat (csr_rows m) <= 2 ^ 63)%Z -> (Z.of_nat (csr_cols m) <= 2 ^ 63)%Z ->
  exists ds, NoDup ds /\ csr_count_diagonals (BD:=Release) (csr_rows m) (csr_rowptr m) (csr_colidx m) = Ok (length ds) /\
    forall d : Z, In d ds <-> exists e, In e (csr_entries m) /\ (Z.of_nat (snd (fst e)) - Z.of_nat (fst (fst e)) = d)%Z.
Proof.
  intros m W Hr Hc. destruct (wf_csr_rep _ _ W) as [R HR]. pose proof HR as [L HC]. rewrite (csr_entries_rep _ _ _ HR).
  exists (nodup Z.eq_dec (map (fun t => (Z.of_nat (fst (snd t)) - Z.of_nat (fst t))%Z) (flat 0 R))). split; [apply NoDup_nodup|]. split.
  - rewrite <- L, (count_release _ _ _ _ _ HC). do 2 f_equal.
    assert (B : forall t, In t (flat 0 R) -> (Z.of_nat (fst t) <= 2 ^ 63)%Z /\ (Z.of_nat (fst (snd t)) < 2 ^ 63)%Z).
    { intros t Ht. pose proof (in_flat_bound _ _ _ _ _ _ _ HC Ht). cbn in Hr, Hc. lia. }
    apply nodup_map_length. intros a b Ha Hb. apply B in Ha, Hb. split; intros E; [apply udiff_inj; tauto|].
    unfold udiff. rewrite E. destruct (Nat.leb_spec (fst a) (fst (snd a))), (Nat.leb_spec (fst b) (fst (snd b))); try lia.
  - intros d. rewrite nodup_In, in_map_iff. split.
    + intros (t & E & Ht). eexists. split; [apply in_map_iff; exists t; split; [reflexivity|exact Ht]|]. exact E.
    + intros (e & He & E). apply in_map_iff in He. destruct He as (t & <- & Ht). exists t. split; [exact E|exact Ht].
Qed.
Lemma downwards_last start d : start < d -> downwards start d = [start].
Proof. intros H. unfold downwards. rewrite Nat.div_small by exact H. cbn. rewrite Nat.sub_0_r. reflexivity. Qed.
Lemma downwards_cons start d : 0 < d <= start -> downwards start d = start :: downwards (start - d) d.
Proof.
  intros H. unfold downwards. replace (start / d) with (S ((start - d) / d)).
  - change (seq 0 (S (S ((start - d) / d)))) with (0 :: seq 1 (S ((start - d) / d))). cbn [map]. rewrite <- seq_shift, map_map. f_equal; [lia|]. apply map_ext. intros k. lia.
  - replace start with (start - d + 1 * d) at 2 by lia. rewrite Nat.div_add by lia. lia.
Qed.
Lemma c85_row_slice : forall (m : CSR T) start stop step d fuel bj bx, wf_csr I m -> start < stop -> stop <= csr_rows m -> (Z.of_nat (csr_rows m) <= 2 ^ 63)%Z ->
  0 < d -> (Z.of_nat d < 2 ^ 63)%Z -> (Z.of_nat step = 2 ^ 64 - Z.of_nat d)%Z -> start + 1 < fuel ->
  csr_row_slice (BD:=Release) fuel start stop step (csr_rowptr m) (csr_colidx m) (csr_values m) bj bx =
    Ok (bj ++ map (fun e => Z.of_nat (fst e)) (flat_map (csr_row m) (downwards start d)), bx ++ map snd (flat_map (csr_row m) (downwards start d))).
Proof.
  intros m start stop step d fuel bj bx W H1 H2 H3 H4 H5 H6 H7. destruct (wf_csr_rep _ _ W) as [R HR]. rewrite !(flat_map_ext _ _ (fun i => csr_rep_row _ _ _ i HR)). destruct HR as [L HC]. rewrite <- L in H2, H3.
  unfold csr_row_slice. destruct (Nat.ltb_spec 0 step) as [_|X]; [|lia]. cbv zeta.
  set (J := bj ++ _). set (X := bx ++ _).
  match goal with |- context [while fuel ?c ?b _] => assert (G : exists r, while fuel c b (start, bj, bx) = Ok (r, J, X)) end; [|destruct G as [r ->]; reflexivity].
  subst J X. revert start bj bx H1 H7. induction fuel as [|fuel IH]; intros start bj bx H1 H7; [lia|]. cbn [while bind]. destruct (Nat.ltb_spec start stop) as [_|]; [|lia].
  destruct (crep_slices I _ _ _ _ _ start HC ltac:(lia)) as (s & e & -> & -> & E3 & E4). cbn [bind]. rewrite E3, E4. cbn [bind].
  destruct (Nat.lt_ge_cases start d) as [Hd|Hd].
  - rewrite downwards_last by exact Hd. unfold uadd. change (imax Usize) with (2 ^ 64 - 1)%Z. destruct (Z.leb_spec (Z.of_nat start + Z.of_nat step) (2 ^ 64 - 1)) as [O|O]; [|lia]. cbn [bind].
    destruct fuel as [|fuel]; [lia|]. cbn [while bind]. destruct (Nat.ltb_spec (start + step) stop); [lia|]. cbn [flat_map]. rewrite !app_nil_r. eexists. reflexivity.
  - rewrite downwards_cons by lia. assert (U : @uadd Release start step = Ok (start - d)).
    { unfold uadd. change (imax Usize) with (2 ^ 64 - 1)%Z. destruct (Z.leb_spec (Z.of_nat start + Z.of_nat step) (2 ^ 64 - 1)) as [O|O]; [lia|].
      assert (E : iwrap Usize (Z.of_nat start + Z.of_nat step) = Z.of_nat (start - d)).
      { unfold iwrap. change (imin Usize) with 0%Z. change (imax Usize) with (2 ^ 64 - 1)%Z in *. rewrite !Z.sub_0_r, Z.add_0_l. symmetry. apply (Z.mod_unique_pos _ _ 1); lia. }
      rewrite E, Nat2Z.id. reflexivity. }
    rewrite U. cbn [bind]. match goal with |- exists r, while _ _ _ (_, ?u, ?v) = _ => destruct (IH (start - d) u v ltac:(lia) ltac:(lia)) as [r Hr] end. exists r. rewrite Hr. cbn [flat_map]. rewrite !map_app, !app_assoc. reflexivity.
Qed.
Lemma c85_strong_empty : forall g : CSR T, csr_rows g = 0 -> csr_cols g = 0 -> connected_components (BD:=Release) I g true Strong = Ok (0, []).
Proof.
  intros g H1 H2. unfold connected_components, validate_graph. rewrite H1, H2. cbn [Nat.eqb negb bind]. unfold connected_components_directed, for_range. cbn [minus for_n repeat].
  unfold usub at 1. cbn [Nat.leb bind]. rewrite usub_any by lia. cbn [bind mapM]. rewrite Nat.sub_diag. reflexivity.
Qed.
End Wrap.

(** a column of [n] ones, and a row of [n] ones *)
Definition ones_col (n : nat) : CSR Z := {| csr_rows := n; csr_cols := 1; csr_rowptr := map Z.of_nat (seq 0 (S n)); csr_colidx := repeat 0%Z n; csr_values := repeat 1%Z n |}.
Definition ones_row (n : nat) : CSR Z := {| csr_rows := 1; csr_cols := n; csr_rowptr := [0%Z; Z.of_nat n]; csr_colidx := map Z.of_nat (seq 0 n); csr_values := repeat 1%Z n |}.
(** sixteen by sixteen, the first eight rows full, in descending column order; and the last eight rows full, in ascending order *)
Definition upper_half : CSR Z := {| csr_rows := 16; csr_cols := 16; csr_rowptr := map (fun i => Z.of_nat (16 * Nat.min i 8)) (seq 0 17);
  csr_colidx := concat (repeat (map (fun j => Z.of_nat (15 - j)) (seq 0 16)) 8); csr_values := repeat 1%Z 128 |}.
Definition lower_half : CSR Z := {| csr_rows := 16; csr_cols := 16; csr_rowptr := map (fun i => Z.of_nat (16 * (i - 8))) (seq 0 17);
  csr_colidx := concat (repeat (map Z.of_nat (seq 0 16)) 8); csr_values := repeat 1%Z 128 |}.
Lemma c85_mat_mat_wrong : exists a b c : CSR Z, wf_csr U8 a /\ wf_csr U8 b /\ csr_cols a = csr_rows b /\
  CSR_mat_mat (BD:=Debug) U8 a b = Panic /\ CSR_mat_mat (BD:=Release) U8 a b = Ok c /\ CSR_nnz (BD:=Release) c = Ok 0 /\ csr_row c 15 = [] /\ meets a b 15 15 = true.
Proof. exists (ones_col 16), (ones_row 16). eexists. split; [check|]. split; [check|]. split; [reflexivity|]. split; [vm_compute; reflexivity|]. do 2 (split; [vm_compute; reflexivity|]). split; vm_compute; reflexivity. Qed.
Lemma c85_add_wrong : exists a b c : CSR Z, wf_csr U8 a /\ wf_csr U8 b /\ csr_rows a = csr_rows b /\ csr_cols a = csr_cols b /\
  CSR_add (BD:=Debug) U8 a b = Panic /\ CSR_add (BD:=Release) U8 a b = Ok c /\ CSR_nnz (BD:=Release) c = Ok 0 /\ csr_row c 15 = [] /\ csr_at b 15 15 = [1%Z].
Proof. exists upper_half, lower_half. eexists. split; [check|]. split; [check|]. do 2 (split; [reflexivity|]). split; [vm_compute; reflexivity|]. do 2 (split; [vm_compute; reflexivity|]). split; vm_compute; reflexivity. Qed.
