(** Operations that must agree with one another: C70 - C76. *)
From Verif Require Import Rust Scalar Model_kernels Model_matrix Model_dok Spec SpecMore Wp Check Props_convert Props_arith Props_select Main_more.

Section Props.
Context {T : Type} {SC : Scalar T}.
Variable I : ity.

(** C70: converting a transposed matrix gives the very arrays of the transposed conversion *)
Theorem C70_coo_conversions : forall m : Coo T, wf_coo I m -> (Z.of_nat (length (coo_values m)) < imax I)%Z ->
  (exists r c, Coo_to_csr I m = Ok r /\ CSR_t r = Ok c /\ Coo_to_csc I (Coo_t m) = Ok c) /\
  (exists c r, Coo_to_csc I m = Ok c /\ CSC_t c = Ok r /\ Coo_to_csr I (Coo_t m) = Ok r).
Proof. exact (c70_coo I). Qed.
Theorem C70_csr_to_csc : forall m : CSR T, wf_csr I m -> csr_rows_fit I m ->
  exists c t mt, CSR_to_csc I m = Ok c /\ CSC_t c = Ok t /\ CSR_t m = Ok mt /\ CSC_to_csr I mt = Ok t.
Proof. exact (c70_csr I). Qed.
Theorem C70_csc_to_csr : forall m : CSC T, wf_csc I m -> csc_cols_fit I m ->
  exists c t mt, CSC_to_csr I m = Ok c /\ CSR_t c = Ok t /\ CSC_t m = Ok mt /\ CSR_to_csc I mt = Ok t.
Proof. exact (c70_csc I). Qed.
(** C70: the dense table of the transpose is the transposed dense table, and the diagonal stays the same *)
Theorem C70_to_dense : (forall m : Coo T, wf_coo I m -> exists d d', Coo_to_dense m = Ok d /\ Coo_to_dense (Coo_t m) = Ok d' /\
     is_table d' (coo_cols m) (coo_rows m) (fun j i => tcell d i j)) /\
  (forall m : CSR T, wf_csr I m -> csr_rows_fit I m -> exists mt d d', CSR_t m = Ok mt /\ CSR_to_dense m = Ok d /\ CSC_to_dense I mt = Ok d' /\
     is_table d' (csr_cols m) (csr_rows m) (fun j i => tcell d i j)) /\
  (forall m : CSC T, wf_csc I m -> csc_cols_fit I m -> exists mt d d', CSC_t m = Ok mt /\ CSC_to_dense I m = Ok d /\ CSR_to_dense mt = Ok d' /\
     is_table d' (csc_cols m) (csc_rows m) (fun j i => tcell d i j)).
Proof. exact (c70_to_dense I). Qed.
Theorem C70_diagonal : (forall m : Coo T, wf_coo I m -> exists d, Coo_diagonal m = Ok d /\ Coo_diagonal (Coo_t m) = Ok d) /\
  (forall m : CSR T, wf_csr I m -> exists mt d, CSR_t m = Ok mt /\ CSR_diagonal m = Ok d /\ CSC_diagonal mt = Ok d) /\
  (forall m : CSC T, wf_csc I m -> exists mt d, CSC_t m = Ok mt /\ CSC_diagonal m = Ok d /\ CSR_diagonal mt = Ok d).
Proof. exact (c70_diagonal I). Qed.

(** C71: the four matrices made from one dense table are conversions of one another, down to the arrays *)
Theorem C71_from_dense : forall (a : list (list T)) c, a <> [] -> rectangular c a -> seqb (T := T) s0 s0 = true ->
  (Z.of_nat (length a) <= imax I)%Z -> (Z.of_nat c <= imax I)%Z -> (Z.of_nat (nz_count a) < imax I)%Z ->
  exists r q co d, CSR_from_dense I a = Ok r /\ CSC_from_dense I a = Ok q /\ Coo_from_dense I a = Ok co /\ DoK_from_dense I a = Ok d /\
    CSC_to_csr I q = Ok r /\ CSR_to_csc I r = Ok q /\
    Coo_to_csr I co = Ok r /\ Coo_to_csc I co = Ok q /\
    (forall order, Permutation order (dok_values d) -> DoK_to_csr I d order = Ok r /\ DoK_to_csc I d order = Ok q).
Proof. exact (c71_from_dense I). Qed.

(** C72: selecting everything changes nothing; selecting from a selection is selecting once, by [through] *)
Theorem C72_csr_select_all : forall m : CSR T, wf_csr I m -> csr_canonical m -> csr_tight m ->
  (Z.of_nat (csr_count m) < imax I)%Z -> (Z.of_nat (csr_rows m) <= imax I)%Z -> (Z.of_nat (csr_cols m) <= imax I)%Z ->
  CSR_select I m None None = Ok m.
Proof. exact (c72_csr_select_all I). Qed.
Theorem C72_csc_select_all : forall m : CSC T, wf_csc I m -> csc_canonical m -> csc_tight m ->
  (Z.of_nat (csc_count m) < imax I)%Z -> (Z.of_nat (csc_rows m) <= imax I)%Z -> (Z.of_nat (csc_cols m) <= imax I)%Z ->
  CSC_select I m None None = Ok m.
Proof. exact (c72_csc_select_all I). Qed.
Theorem C72_csr_select_select : forall (m : CSR T) rs cs rs' cs', wf_csr I m -> csr_canonical m ->
  (Z.of_nat (csr_count m) < imax I)%Z -> (Z.of_nat (csr_rows m) <= imax I)%Z -> (Z.of_nat (csr_cols m) <= imax I)%Z ->
  in_range (csr_rows m) rs -> in_range (csr_cols m) cs -> in_range (length rs) rs' -> in_range (length cs) cs' ->
  (Z.of_nat (length rs) <= imax I)%Z -> (Z.of_nat (length cs) <= imax I)%Z -> (Z.of_nat (length cs') <= imax I + 1)%Z ->
  let stored rs cs := list_sum (map (fun i => list_sum (map (fun j => length (csr_at m i j)) (map Z.to_nat cs))) (map Z.to_nat rs)) in
  (Z.of_nat (stored rs cs) < imax I)%Z -> (Z.of_nat (stored (through rs rs') (through cs cs')) <= imax I)%Z ->
  exists s r, CSR_select I m (Some rs) (Some cs) = Ok s /\ CSR_select I s (Some rs') (Some cs') = Ok r /\
    CSR_select I m (Some (through rs rs')) (Some (through cs cs')) = Ok r.
Proof. exact (c72_csr_select_select I). Qed.
Theorem C72_csc_select_select : forall (m : CSC T) rs cs rs' cs', wf_csc I m -> csc_canonical m ->
  (Z.of_nat (csc_count m) < imax I)%Z -> (Z.of_nat (csc_rows m) <= imax I)%Z -> (Z.of_nat (csc_cols m) <= imax I)%Z ->
  in_range (csc_rows m) rs -> in_range (csc_cols m) cs -> in_range (length rs) rs' -> in_range (length cs) cs' ->
  (Z.of_nat (length rs) <= imax I)%Z -> (Z.of_nat (length cs) <= imax I)%Z -> (Z.of_nat (length rs') <= imax I + 1)%Z ->
  let stored rs cs := list_sum (map (fun j => list_sum (map (fun i => length (csc_at m i j)) (map Z.to_nat rs))) (map Z.to_nat cs)) in
  (Z.of_nat (stored rs cs) < imax I)%Z -> (Z.of_nat (stored (through rs rs') (through cs cs')) <= imax I)%Z ->
  exists s r, CSC_select I m (Some rs) (Some cs) = Ok s /\ CSC_select I s (Some rs') (Some cs') = Ok r /\
    CSC_select I m (Some (through rs rs')) (Some (through cs cs')) = Ok r.
Proof. exact (c72_csc_select_select I). Qed.

(** C73: [A; B] x = [A x; B x], in any scalar type and to the bit *)
Theorem C73_v_stack : forall (a b : Coo T) x, wf_coo I a -> wf_coo I b -> coo_cols a = coo_cols b -> (Z.of_nat (coo_rows a + coo_rows b) <= Z.min (imax I + 1) (imax Usize))%Z ->
  (Z.of_nat (length (coo_values a) + length (coo_values b)) < imax I)%Z -> length x = coo_cols a ->
  exists s ra rb rs ya yb, Coo_v_stack I a b = Ok s /\ Coo_to_csr I a = Ok ra /\ Coo_to_csr I b = Ok rb /\ Coo_to_csr I s = Ok rs /\
    CSR_mat_vec ra x = Ok ya /\ CSR_mat_vec rb x = Ok yb /\ CSR_mat_vec rs x = Ok (ya ++ yb).
Proof. exact (c73_v_stack I). Qed.

(** C74: the matrix made from a diagonal has that diagonal and multiplies by it. Each result is
    accumulated onto 0, so it is written 0 + d(i) and 0 + d(i) * x(i). *)
Theorem C74_csr_with_diagonal : forall d x : list T, (Z.of_nat (length d) <= imax I)%Z -> length x = length d ->
  exists r, CSR_with_diagonal I d = Ok r /\ CSR_diagonal r = Ok (map (fun v => sadd s0 v) d) /\
    CSR_mat_vec r x = Ok (map (fun e => sadd s0 (smul (fst e) (snd e))) (combine d x)).
Proof. exact (c74_csr I). Qed.
Theorem C74_csc_with_diagonal : forall d x : list T, (Z.of_nat (length d) <= imax I)%Z -> length x = length d ->
  exists r, CSC_with_diagonal I d = Ok r /\ CSC_diagonal r = Ok (map (fun v => sadd s0 v) d) /\
    CSC_mat_vec r x = Ok (map (fun e => sadd s0 (smul (fst e) (snd e))) (combine d x)).
Proof. exact (c74_csc I). Qed.

(** C76: if + of the scalars is commutative, + of matrices is: same cells to the bit, and for canonical
    operands the same rows. *)
Theorem C76_csr_add_comm : (forall x y : T, sadd x y = sadd y x) -> forall a b : CSR T, wf_csr I a -> wf_csr I b -> csr_rows b = csr_rows a -> csr_cols b = csr_cols a ->
  (Z.of_nat (csr_count a + csr_count b) < imax I)%Z ->
  exists s t, CSR_add I a b = Ok s /\ CSR_add I b a = Ok t /\ csr_rows s = csr_rows t /\ csr_cols s = csr_cols t /\
    (forall i j, i < csr_rows a -> csr_at s i j = csr_at t i j) /\
    (csr_canonical a -> csr_canonical b -> forall i, i < csr_rows a -> csr_row s i = csr_row t i).
Proof. exact (c76_csr_add_comm I). Qed.
Theorem C76_csc_add_comm : (forall x y : T, sadd x y = sadd y x) -> forall a b : CSC T, wf_csc I a -> wf_csc I b -> csc_rows b = csc_rows a -> csc_cols b = csc_cols a ->
  (Z.of_nat (csc_count a + csc_count b) < imax I)%Z ->
  exists s t, CSC_op_add I a b = Ok s /\ CSC_op_add I b a = Ok t /\ csc_rows s = csc_rows t /\ csc_cols s = csc_cols t /\
    (forall i j, j < csc_cols a -> csc_at s i j = csc_at t i j) /\
    (csc_canonical a -> csc_canonical b -> forall i, i < csc_cols a -> csc_col s i = csc_col t i).
Proof. exact (c76_csc_add_comm I). Qed.
End Props.
(** ... and + of IEEE binary64 is commutative. *)
Theorem C76_f64_comm : forall x y : f64, sadd x y = sadd y x.
Proof. exact c76_f64_comm. Qed.

Section Ring.
Context {T : Type} {SC : Scalar T} {SN : ScalarNeg T} {ER : ExactRing T}.
Variable I : ity.
(** C73: [A B] [x; y] = A x + B y *)
Theorem C73_h_stack : forall (a b : CSR T) x y, wf_csr I a -> wf_csr I b -> csr_tight a -> csr_tight b -> csr_rows_fit I a -> csr_rows_fit I b ->
  csr_rows a = csr_rows b -> (Z.of_nat (csr_cols a + csr_cols b) <= Z.min (imax I + 1) (imax Usize))%Z -> (Z.of_nat (csr_count a + csr_count b) < imax I)%Z ->
  length x = csr_cols a -> length y = csr_cols b ->
  exists s u v, CSR_h_stack I a b = Ok s /\ CSR_mat_vec a x = Ok u /\ CSR_mat_vec b y = Ok v /\ CSR_mat_vec s (x ++ y) = Ok (vplus u v).
Proof. exact (c73_h_stack I). Qed.
(** C73: [A B; C D] [x; y] = [A x + B y; C x + D y] *)
Theorem C73_compose : forall (a b c d : CSC T) x y, wf_csc I a -> wf_csc I b -> wf_csc I c -> wf_csc I d ->
  csc_rows a = csc_rows b -> csc_rows c = csc_rows d -> csc_cols a = csc_cols c -> csc_cols b = csc_cols d ->
  (Z.of_nat (csc_cols a + csc_cols b) <= Z.min (imax I + 1) (imax Usize))%Z -> (Z.of_nat (csc_rows a + csc_rows c) <= Z.min (imax I + 1) (imax Usize))%Z ->
  (Z.of_nat (csc_count a + csc_count b + csc_count c + csc_count d) < imax I)%Z ->
  length x = csc_cols a -> length y = csc_cols b ->
  exists s ax by_ cx dy, CSC_compose I a b c d = Ok s /\ CSC_mat_vec a x = Ok ax /\ CSC_mat_vec b y = Ok by_ /\ CSC_mat_vec c x = Ok cx /\ CSC_mat_vec d y = Ok dy /\
    CSC_mat_vec s (x ++ y) = Ok (vplus ax by_ ++ vplus cx dy).
Proof. exact (c73_compose I). Qed.
End Ring.

Section Complex.
Context {F C : Type} {SF : Scalar F} {CO : ComplexOps F C} {SC : Scalar C}.
Variable I : ity.
(** C75: (A B)^h = B^h A^h *)
Theorem C75_csr_h_product : conj_hom F C -> forall a b : CSR C, wf_csr I a -> wf_csr I b -> csr_cols a = csr_rows b -> (Z.of_nat (product_count a b) <= imax I)%Z ->
  exists p hp ha hb q, CSR_mat_mat I a b = Ok p /\ CSR_h (F := F) p = Ok hp /\ CSR_h (F := F) a = Ok ha /\ CSR_h (F := F) b = Ok hb /\ CSC_mat_mat I hb ha = Ok q /\
    csc_rows q = csc_rows hp /\ csc_cols q = csc_cols hp /\ forall k i, i < csr_rows a -> csc_at q k i = csc_at hp k i.
Proof. exact (c75_product I). Qed.
End Complex.

(** ** Concrete cases *)
Example C70_coo_ex : wf_coo I8 ex_coo /\ Coo_to_csc I8 (Coo_t ex_coo) = Ok (mkCSC 4 3 [3; 0; 1] [0; 1; 1; 3] [0; 6; 5])%Z /\
  Coo_to_csr I8 ex_coo = Ok (mkCSR 3 4 [0; 1; 1; 3] [3; 0; 1] [0; 6; 5])%Z.
Proof. split; [check|]. split; vm_compute; reflexivity. Qed.
Example C70_csr_ex : wf_csr I8 ex_csr /\ csr_rows_fit I8 ex_csr /\ exists mt, CSR_t ex_csr = Ok mt /\ CSC_to_csr I8 mt = Ok (mkCSR 4 3 [0; 2; 3; 3; 5] [0; 2; 2; 0; 0] [2; 5; 4; 1; 3])%Z.
Proof. split; [check|]. split; [intros i Hi _; cbn in *; lia|]. eexists. split; vm_compute; reflexivity. Qed.
Definition ex_table : list (list Z) := [[0; 3; 0]; [4; 0; -1]]%Z.
Example C71_ex : rectangular 3 ex_table /\ nz_count ex_table = 3 /\ CSR_from_dense I8 ex_table = Ok (mkCSR 2 3 [0; 1; 3] [1; 0; 2] [3; 4; -1])%Z /\
  CSC_from_dense I8 ex_table = Ok (mkCSC 2 3 [1; 0; 1] [0; 1; 2; 3] [4; 3; -1])%Z.
Proof. split; [repeat constructor|]. split; [reflexivity|]. split; vm_compute; reflexivity. Qed.
Example C72_ex : csr_canonical ex_sel /\ in_range 3 [2; 0; 2]%Z /\ in_range 4 [3; 1]%Z /\ through [2; 0; 2]%Z [1; 1; 0]%Z = [0; 0; 2]%Z /\
  exists s, CSR_select I8 ex_sel (Some [2; 0; 2]%Z) (Some [3; 1]%Z) = Ok s /\
    CSR_select I8 s (Some [1; 1; 0]%Z) (Some [1; 0; 0]%Z) = CSR_select I8 ex_sel (Some [0; 0; 2]%Z) (Some [1; 3; 3]%Z).
Proof. split; [check|]. split; [repeat constructor; lia|]. split; [repeat constructor; lia|]. split; [reflexivity|]. eexists. split; vm_compute; reflexivity. Qed.
Example C73_ex : exists s, CSR_h_stack I8 ex_b (mkCSR 2 1 [0; 1; 1] [0] [7])%Z = Ok s /\ CSR_mat_vec s [1; 2; 3; 4]%Z = Ok [16; 23]%Z /\
  CSR_mat_vec ex_b [1; 2; 3]%Z = Ok [-12; 23]%Z.
Proof. eexists. split; [vm_compute; reflexivity|]. split; vm_compute; reflexivity. Qed.
Example C73_compose_ex : exists s, CSC_compose I8 (mkCSC 1 2 [0; 0] [0; 1; 2] [1; 2])%Z (mkCSC 1 1 [] [0; 0] [])%Z (mkCSC 2 2 [1] [0; 1; 1] [3])%Z (mkCSC 2 1 [0] [0; 1] [4])%Z = Ok s /\
  CSC_mat_vec s [10; 20; 30]%Z = Ok [50; 120; 30]%Z.
Proof. eexists. split; vm_compute; reflexivity. Qed.
Example C73_v_stack_ex : exists s rs, Coo_v_stack I8 ex_coo (mkCoo 1 4 [0; 0]%Z [1; 1]%Z [5; 1]%Z) = Ok s /\ Coo_to_csr I8 s = Ok rs /\ CSR_mat_vec rs [1; 2; 3; 4]%Z = Ok [0; 0; 16; 12]%Z.
Proof. eexists _, _. split; [|split]; vm_compute; reflexivity. Qed.
Example C74_ex : exists r, CSR_with_diagonal I8 [3; 0; -2]%Z = Ok r /\ CSR_diagonal r = Ok [3; 0; -2]%Z /\ CSR_mat_vec r [1; 5; 7]%Z = Ok [3; 0; -14]%Z.
Proof. eexists. split; [|split]; vm_compute; reflexivity. Qed.
Example C75_ex : conj_hom Z gint.
Proof.
  repeat split.
  - intros [a b] [c d]. cbn -[Z.add Z.opp]. f_equal. lia.
  - intros [a b] [c d]. cbn -[Z.add Z.opp Z.mul Z.sub]. unfold gmul. cbn -[Z.add Z.opp Z.mul Z.sub]. f_equal; lia.
  - intros [a b]. cbn -[Z.eqb]. f_equal. destruct (Z.eqb_spec b 0), (Z.eqb_spec (- b) 0); lia.
Qed.
Example C75_product_ex : let a := mkCSR 1 2 [0; 2]%Z [1; 0]%Z [G 0 1; G 2 3] in let b := mkCSR 2 1 [0; 1; 2]%Z [0; 0]%Z [G 1 1; G 4 0] in
  wf_csr I8 a /\ wf_csr I8 b /\ CSR_mat_mat I8 a b = Ok (mkCSR 1 1 [0; 1]%Z [0]%Z [G (-1) 9]) /\
  exists ha hb, CSR_h (F := Z) a = Ok ha /\ CSR_h (F := Z) b = Ok hb /\ CSC_mat_mat I8 hb ha = Ok (mkCSC 1 1 [0]%Z [0; 1]%Z [G (-1) (-9)]).
Proof. split; [check|]. split; [check|]. split; [vm_compute; reflexivity|]. eexists _, _. split; [|split]; vm_compute; reflexivity. Qed.
Example C76_ex : ~ csr_canonical ex_a /\ wf_csr I8 ex_a /\ wf_csr I8 ex_b /\ exists s t, CSR_add I8 ex_a ex_b = Ok s /\ CSR_add I8 ex_b ex_a = Ok t /\ csr_at s 1 1 = [8%Z] /\ csr_at t 1 1 = [8%Z].
Proof.
  split; [intros H; specialize (H 0 ltac:(cbn; lia)); cbn in H; inversion H as [|? ? _ F]; inversion F; lia|]. split; [check|]. split; [check|].
  eexists _, _. split; [|split; [|split]]; vm_compute; reflexivity.
Qed.

Print Assumptions C70_coo_conversions.
Print Assumptions C70_csr_to_csc.
Print Assumptions C70_csc_to_csr.
Print Assumptions C70_to_dense.
Print Assumptions C70_diagonal.
Print Assumptions C71_from_dense.
Print Assumptions C72_csr_select_all.
Print Assumptions C72_csc_select_all.
Print Assumptions C72_csr_select_select.
Print Assumptions C72_csc_select_select.
Print Assumptions C73_v_stack.
Print Assumptions C74_csr_with_diagonal.
Print Assumptions C74_csc_with_diagonal.
Print Assumptions C76_csr_add_comm.
Print Assumptions C76_csc_add_comm.
Print Assumptions C76_f64_comm.
Print Assumptions C73_h_stack.
Print Assumptions C73_compose.
Print Assumptions C75_csr_h_product.
