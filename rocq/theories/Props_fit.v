(** Conversions whose row or column numbers do not fit the index type: C03, C04, C06, C07, C09, C35, C37. *)
From Verif Require Import Rust Scalar Model_kernels Model_matrix Model_graph Spec Wp Check Main_fit.

Section Props.
Context {T : Type} {SC : Scalar T}.
Variable I : ity.

(** C03 and C06 require that the numbers of the rows with entries fit the index type; if one does not, the conversions panic. *)
Theorem C03_csr_unfit : forall m : CSR T, wf_csr I m -> ~ csr_rows_fit I m -> CSR_to_csc I m = Panic /\ CSR_to_coo I m = Panic.
Proof. exact (c03_csr_unfit I). Qed.
(** C04, C07 and C09, likewise for columns: also the dense table of a CSC matrix is made by way of row format. *)
Theorem C04_csc_unfit : forall m : CSC T, wf_csc I m -> ~ csc_cols_fit I m -> CSC_to_csr I m = Panic /\ CSC_to_coo I m = Panic /\ CSC_to_dense I m = Panic.
Proof. exact (c04_csc_unfit I). Qed.
(** C35 and C37 need the transposed matrix for paths in both directions: if it cannot be written, they panic too. *)
Theorem C35_weak_unfit : forall (g : CSR T) directed conn, wf_csr I g -> ~ csr_rows_fit I g -> csr_rows g = csr_cols g ->
  conn = Weak \/ directed = false -> connected_components I g directed conn = Panic.
Proof. exact (c35_weak_unfit I). Qed.
Theorem C37_undirected_unfit : forall (g : CSR T) s, wf_csr I g -> ~ csr_rows_fit I g -> csr_rows g = csr_cols g ->
  depth_first_order I g s false = Panic.
Proof. exact (c37_undirected_unfit I). Qed.
End Props.

(** ** Concrete cases: 129 rows (columns) and i8 indices, an entry in the last one *)
Definition ex_tall : CSR Z := mkCSR 129 1 (repeat 0%Z 129 ++ [1%Z]) [0]%Z [5]%Z.
Definition ex_wide : CSC Z := mkCSC 1 129 [0]%Z (repeat 0%Z 129 ++ [1%Z]) [3]%Z.
Example ex_fit_meets : wf_csr I8 ex_tall /\ wf_csc I8 ex_wide /\ ~ csr_rows_fit I8 ex_tall /\ ~ csc_cols_fit I8 ex_wide.
Proof.
  split; [check|]. split; [check|]. split; intros F; specialize (F 128 ltac:(cbn; lia) ltac:(vm_compute; discriminate)); cbn in F; lia.
Qed.
Example C03_unfit_ex : CSR_to_csc I8 ex_tall = Panic /\ CSC_to_dense I8 ex_wide = Panic /\ CSC_to_csr I8 ex_wide = Panic /\
  CSR_to_csc U8 ex_tall = Ok (mkCSC 129 1 [128] [0; 1] [5])%Z /\ exists d, CSR_to_dense ex_tall = Ok d /\ nth 128 d [] = [5]%Z.
Proof. split; [vm_compute; reflexivity|]. split; [vm_compute; reflexivity|]. split; [vm_compute; reflexivity|]. split; [vm_compute; reflexivity|]. eexists. split; vm_compute; reflexivity. Qed.

(** a square matrix of 129 nodes in which only the last has an edge *)
Definition ex_graph : CSR Z := mkCSR 129 129 (repeat 0%Z 129 ++ [1%Z]) [0]%Z [5]%Z.
Example C35_unfit_ex : wf_csr I8 ex_graph /\ ~ csr_rows_fit I8 ex_graph /\ connected_components I8 ex_graph true Weak = Panic /\
  depth_first_order I8 ex_graph 128 false = Panic /\ (exists pr, depth_first_order I8 ex_graph 128 true = Ok ([128; 0], pr)) /\
  exists labels, connected_components U8 ex_graph true Weak = Ok (128, labels).
Proof.
  split; [check|]. split; [intros F; specialize (F 128 ltac:(cbn; lia) ltac:(vm_compute; discriminate)); cbn in F; lia|].
  split; [vm_compute; reflexivity|]. split; [vm_compute; reflexivity|]. split; eexists; vm_compute; reflexivity.
Qed.
(** the ranges of the index types, as the language defines them *)
Example ex_ranges :
  map (fun t => (imin t, imax t)) [U8; U16; U32; U64; Usize; U128] =
    map (fun b => (0, 2 ^ b - 1))%Z [8; 16; 32; 64; 64; 128]%Z /\
  map (fun t => (imin t, imax t)) [I8; I16; I32; I64; Isize; I128] =
    map (fun b => (- 2 ^ (b - 1), 2 ^ (b - 1) - 1))%Z [8; 16; 32; 64; 64; 128]%Z.
Proof. split; vm_compute; reflexivity. Qed.

Print Assumptions C03_csr_unfit.
Print Assumptions C04_csc_unfit.
Print Assumptions C35_weak_unfit.
Print Assumptions C37_undirected_unfit.
