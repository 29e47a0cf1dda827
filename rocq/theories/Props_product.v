(** Exactly when products of matrices panic, and the laws of C53 wherever the results exist: C17, C18, C53, C60. *)
From Verif Require Import Rust Scalar Model_kernels Model_matrix Spec SpecMore SpecBoundary Wp Check Main_product.

Section Props.
Context {T : Type} {SC : Scalar T}.
Variable I : ity.

(** C17, without a bound on the number of positions met: the product panics exactly if it has more entries than the index type can count. *)
Theorem C17_csr_mat_mat_exact : forall a b : CSR T,
  wf_csr I a -> wf_csr I b -> csr_cols a = csr_rows b ->
  ((imax I < Z.of_nat (product_kept a b))%Z -> CSR_mat_mat I a b = Panic /\ CSR_mul I a b = Panic) /\
  (~ (imax I < Z.of_nat (product_kept a b))%Z ->
   exists r, CSR_mat_mat I a b = Ok r /\ CSR_mul I a b = Ok r /\
     wf_csr I r /\ csr_rows r = csr_rows a /\ csr_cols r = csr_cols b /\ csr_nodup r /\ csr_nonzero r /\
     length (csr_colidx r) = product_count a b /\ length (csr_values r) = product_count a b /\
     forall i k, i < csr_rows a -> csr_at r i k = keep (csr_products a b i k) (sum0 (csr_products a b i k))).
Proof. exact (c17_csr_mat_mat_exact I). Qed.
(** C18, likewise. *)
Theorem C18_csc_mat_mat_exact : forall a b : CSC T,
  wf_csc I a -> wf_csc I b -> csc_cols a = csc_rows b ->
  ((imax I < Z.of_nat (csc_product_kept a b))%Z -> CSC_mat_mat I a b = Panic /\ CSC_mul I a b = Panic) /\
  (~ (imax I < Z.of_nat (csc_product_kept a b))%Z ->
   exists r, CSC_mat_mat I a b = Ok r /\ CSC_mul I a b = Ok r /\
     wf_csc I r /\ csc_rows r = csc_rows a /\ csc_cols r = csc_cols b /\ csc_nodup r /\ csc_nonzero r /\
     length (csc_rowidx r) = csc_product_count a b /\ length (csc_values r) = csc_product_count a b /\
     forall i k, k < csc_cols b -> csc_at r i k = keep (csc_products a b i k) (sum0 (csc_products a b i k))).
Proof. exact (c18_csc_mat_mat_exact I). Qed.
(** C60, likewise; here the right factor must also be convertible, that is, the numbers of its rows with entries must fit the index type. *)
Theorem C60_csc_mul_csr_exact : forall (a : CSC T) (b : CSR T), wf_csc I a -> wf_csr I b -> csc_cols a = csr_rows b ->
  (~ csr_rows_fit I b \/ (imax I < Z.of_nat (mixed_kept a b))%Z -> CSC_mul_csr I a b = Panic) /\
  (~ (~ csr_rows_fit I b \/ (imax I < Z.of_nat (mixed_kept a b))%Z) ->
   exists r, CSC_mul_csr I a b = Ok r /\
     wf_csc I r /\ csc_rows r = csc_rows a /\ csc_cols r = csr_cols b /\ csc_nodup r /\ csc_nonzero r /\
     forall i k, k < csr_cols b -> csc_at r i k = keep (mixed_products a b i k) (sum0 (mixed_products a b i k))).
Proof. exact (c60_csc_mul_csr_exact I). Qed.
(** C53, transposition of a product, with no bound: the transposed factors multiplied in the other order panic exactly if the product does, and else give its transpose. *)
Theorem C53_csr_transpose_product_any : forall a b : CSR T, wf_csr I a -> wf_csr I b -> csr_cols a = csr_rows b ->
  exists ta tb, CSR_t a = Ok ta /\ CSR_t b = Ok tb /\
    (forall p, CSR_mat_mat I a b = Ok p -> CSR_t p = CSC_mat_mat I tb ta) /\ (CSR_mat_mat I a b = Panic <-> CSC_mat_mat I tb ta = Panic).
Proof. exact (c53_csr_transpose_product_any I). Qed.
End Props.

(** C17, C18 and C53 over an exact ring, wherever the sums and products are values. *)
Section Ring.
Context {T : Type} {SC : Scalar T} {SN : ScalarNeg T} {ER : ExactRing T}.
Variable I : ity.

Theorem C17_csr_product_any : forall (a b r : CSR T), wf_csr I a -> wf_csr I b -> CSR_mat_mat I a b = Ok r ->
  forall i k, i < csr_rows a -> csr_val r i k = rsum (csr_cols a) (fun j => smul (csr_val a i j) (csr_val b j k)).
Proof. exact (c17_csr_product_any I). Qed.
Theorem C18_csc_product_any : forall (a b r : CSC T), wf_csc I a -> wf_csc I b -> CSC_mat_mat I a b = Ok r ->
  forall i k, k < csc_cols b -> csc_val r i k = rsum (csc_cols a) (fun j => smul (csc_val a i j) (csc_val b j k)).
Proof. exact (c18_csc_product_any I). Qed.
(** (A + B) x = A x + B x *)
Theorem C53_add_mat_vec_any : forall (a b s : CSR T) x, wf_csr I a -> wf_csr I b -> csr_rows b = csr_rows a -> csr_cols b = csr_cols a ->
  CSR_add I a b = Ok s -> length x = csr_cols a ->
  exists ya yb, CSR_mat_vec a x = Ok ya /\ CSR_mat_vec b x = Ok yb /\ CSR_mat_vec s x = Ok (vplus ya yb).
Proof. exact (c53_add_mat_vec_any I). Qed.
(** (A B) x = A (B x) *)
Theorem C53_mat_mat_vec_any : forall (a b p : CSR T) x, wf_csr I a -> wf_csr I b -> CSR_mat_mat I a b = Ok p -> length x = csr_cols b ->
  exists y z, CSR_mat_vec b x = Ok y /\ CSR_mat_vec a y = Ok z /\ CSR_mat_vec p x = Ok z.
Proof. exact (c53_mat_mat_vec_any I). Qed.
(** A + B = B + A *)
Theorem C53_add_comm_any : forall (a b s t : CSR T), wf_csr I a -> wf_csr I b -> csr_rows b = csr_rows a -> csr_cols b = csr_cols a ->
  CSR_add I a b = Ok s -> CSR_add I b a = Ok t -> csr_same s t /\ forall i j, i < csr_rows a -> csr_at s i j = csr_at t i j.
Proof. exact (c53_add_comm_any I). Qed.
(** (A + B) + C = A + (B + C) *)
Theorem C53_add_assoc_any : forall (a b c ab bc s t : CSR T), wf_csr I a -> wf_csr I b -> wf_csr I c ->
  csr_rows b = csr_rows a -> csr_cols b = csr_cols a -> csr_rows c = csr_rows a -> csr_cols c = csr_cols a ->
  CSR_add I a b = Ok ab -> CSR_add I b c = Ok bc -> CSR_add I ab c = Ok s -> CSR_add I a bc = Ok t -> csr_same s t.
Proof. exact (c53_add_assoc_any I). Qed.
(** (A - B) + B = A *)
Theorem C53_sub_add_any : forall (a b d s : CSR T), wf_csr I a -> wf_csr I b -> csr_rows b = csr_rows a -> csr_cols b = csr_cols a ->
  CSR_sub I a b = Ok d -> CSR_add I d b = Ok s -> csr_same s a.
Proof. exact (c53_sub_add_any I). Qed.
(** (A B) C = A (B C) *)
Theorem C53_product_assoc_any : forall (a b c ab bc s t : CSR T), wf_csr I a -> wf_csr I b -> wf_csr I c ->
  CSR_mat_mat I a b = Ok ab -> CSR_mat_mat I b c = Ok bc -> CSR_mat_mat I ab c = Ok s -> CSR_mat_mat I a bc = Ok t -> csr_same s t.
Proof. exact (c53_product_assoc_any I). Qed.
(** A (B + C) = A B + A C and (B + C) A = B A + C A *)
Theorem C53_distributes_any : forall (a b c s ab ac l r : CSR T), wf_csr I a -> wf_csr I b -> wf_csr I c -> csr_rows c = csr_rows b -> csr_cols c = csr_cols b ->
  CSR_add I b c = Ok s -> CSR_mat_mat I a b = Ok ab -> CSR_mat_mat I a c = Ok ac -> CSR_mat_mat I a s = Ok l -> CSR_add I ab ac = Ok r -> csr_same l r.
Proof. exact (c53_distributes_any I). Qed.
Theorem C53_distributes_right_any : forall (a b c s ba ca l r : CSR T), wf_csr I a -> wf_csr I b -> wf_csr I c -> csr_rows c = csr_rows b -> csr_cols c = csr_cols b ->
  CSR_add I b c = Ok s -> CSR_mat_mat I b a = Ok ba -> CSR_mat_mat I c a = Ok ca -> CSR_mat_mat I s a = Ok l -> CSR_add I ba ca = Ok r -> csr_same l r.
Proof. exact (c53_distributes_right_any I). Qed.
End Ring.

(** ** Concrete cases, with i8 indices (at most 127 entries) *)
Definition zs (l : list nat) : list Z := map Z.of_nat l.
(* a column of twelve ones and a row of twelve ones: the product would have 144 entries *)
Definition ex_column : CSR Z := mkCSR 12 1 (zs (seq 0 13)) (repeat 0%Z 12) (repeat 1%Z 12).
Definition ex_line : CSR Z := mkCSR 1 12 [0; 12]%Z (zs (seq 0 12)) (repeat 1%Z 12).
(* two columns of ones and a row of ones above a row of minus ones: 144 positions are met, all values are zero *)
Definition ex_columns : CSR Z := mkCSR 12 2 (map (fun i => Z.of_nat (2 * i)) (seq 0 13)) (concat (repeat [0; 1]%Z 12)) (repeat 1%Z 24).
Definition ex_lines : CSR Z := mkCSR 2 12 [0; 12; 24]%Z (zs (seq 0 12 ++ seq 0 12)) (repeat 1%Z 12 ++ repeat (-1)%Z 12).
Example ex_product_meets : wf_csr I8 ex_column /\ wf_csr I8 ex_line /\ wf_csr I8 ex_columns /\ wf_csr I8 ex_lines.
Proof. split; [check|]. split; [check|]. split; check. Qed.
Example C17_over_ex : product_kept ex_column ex_line = 144 /\ CSR_mat_mat I8 ex_column ex_line = Panic /\ CSR_mat_mat I16 ex_column ex_line <> Panic.
Proof. split; [vm_compute; reflexivity|]. split; [vm_compute; reflexivity|]. vm_compute. discriminate. Qed.
Example C17_cancel_ex : product_count ex_columns ex_lines = 144 /\ product_kept ex_columns ex_lines = 0 /\
  exists p, CSR_mat_mat I8 ex_columns ex_lines = Ok p /\ CSR_nnz p = Ok 0 /\ length (csr_values p) = 144 /\
    CSR_mat_vec p (repeat 1%Z 12) = Ok (repeat 0%Z 12).
Proof. split; [vm_compute; reflexivity|]. split; [vm_compute; reflexivity|]. eexists. split; [vm_compute; reflexivity|]. split; [vm_compute; reflexivity|]. split; vm_compute; reflexivity. Qed.
(* the other order has one entry per position of a 2 by 2 or 1 by 1 matrix *)
Example C53_any_ex : CSR_mat_mat I8 ex_line ex_column = Ok (mkCSR 1 1 [0; 1] [0] [12])%Z /\
  exists p s, CSR_mat_mat I8 ex_lines ex_columns = Ok p /\ csr_entries p = [(0, 1, 12%Z); (0, 0, 12%Z); (1, 1, (-12)%Z); (1, 0, (-12)%Z)] /\
    CSR_add I8 p p = Ok s /\ csr_at s 1 0 = [-24]%Z.
Proof. split; [vm_compute; reflexivity|]. eexists. eexists. split; [vm_compute; reflexivity|]. split; [vm_compute; reflexivity|]. split; vm_compute; reflexivity. Qed.
Definition ex_columnc : CSC Z := mkCSC 12 1 (zs (seq 0 12)) [0; 12]%Z (repeat 1%Z 12).
Definition ex_linec : CSC Z := mkCSC 1 12 (repeat 0%Z 12) (zs (seq 0 13)) (repeat 1%Z 12).
Example C18_exact_ex : wf_csc I8 ex_columnc /\ wf_csc I8 ex_linec /\ csc_product_kept ex_columnc ex_linec = 144 /\ CSC_mat_mat I8 ex_columnc ex_linec = Panic /\
  CSC_mat_mat I8 ex_linec ex_columnc = Ok (mkCSC 1 1 [0] [0; 1] [12])%Z.
Proof. split; [check|]. split; [check|]. split; [vm_compute; reflexivity|]. split; vm_compute; reflexivity. Qed.
(* the mixed product; and a right factor with an entry in row 128 *)
Example C60_exact_ex : mixed_kept ex_columnc ex_line = 144 /\ CSC_mul_csr I8 ex_columnc ex_line = Panic /\
  CSC_mul_csr I8 ex_linec ex_column = Ok (mkCSC 1 1 [0] [0; 1] [12])%Z /\
  let tall := mkCSR 129 1 (repeat 0%Z 129 ++ [1%Z]) [0]%Z [5]%Z in let wide := mkCSC 1 129 [0]%Z (repeat 0%Z 129 ++ [1%Z]) [3]%Z in
  wf_csr I8 tall /\ wf_csc I8 wide /\ mixed_kept wide tall = 1 /\ ~ csr_rows_fit I8 tall /\ CSC_mul_csr I8 wide tall = Panic /\
  CSC_mul_csr U8 wide tall = Ok (mkCSC 1 1 [0] [0; 1] [15])%Z.
Proof.
  split; [vm_compute; reflexivity|]. split; [vm_compute; reflexivity|]. split; [vm_compute; reflexivity|]. cbv zeta. split; [check|]. split; [check|].
  split; [vm_compute; reflexivity|]. split.
  - intros F. specialize (F 128 ltac:(cbn; lia) ltac:(vm_compute; discriminate)). cbn in F. lia.
  - split; vm_compute; reflexivity.
Qed.

Print Assumptions C17_csr_mat_mat_exact.
Print Assumptions C18_csc_mat_mat_exact.
Print Assumptions C60_csc_mul_csr_exact.
Print Assumptions C53_csr_transpose_product_any.
Print Assumptions C17_csr_product_any.
Print Assumptions C18_csc_product_any.
Print Assumptions C53_add_mat_vec_any.
Print Assumptions C53_mat_mat_vec_any.
Print Assumptions C53_add_comm_any.
Print Assumptions C53_add_assoc_any.
Print Assumptions C53_sub_add_any.
Print Assumptions C53_product_assoc_any.
Print Assumptions C53_distributes_any.
Print Assumptions C53_distributes_right_any.
