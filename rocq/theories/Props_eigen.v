(** Eigenvalues: C58, C65-C69.  ARPACK is an arbitrary pair of functions. *)
From Verif Require Import Rust Scalar Model_kernels Model_matrix Model_eigen Spec SpecEigen Wp Check Main_eigen.

Section Any.
Context {F : Type} {SC : Scalar F} {SN : ScalarNeg F} {H : Type}.
Notation naupd := (naupd F H).
Notation neupd := (neupd F H).

(** C58 (refuted): in every successful run the imaginary part of every returned eigenvalue is its real part, not the
    imaginary part ARPACK computed. *)
Theorem C58_imaginary_parts_refuted : forall (dnaupd : naupd) (dneupd : neupd) fuel a nev h d zz, keeps dneupd ->
  eigs dnaupd dneupd fuel a nev h = Ok (d, zz) ->
  exists dr di zv nconv, answered dneupd (csc_rows a) nev dr di zv nconv /\
    (forall k c, nth_error d k = Some c -> nth_error dr k = Some (fst c) /\ snd c = fst c) /\
    (forall k c x, nth_error d k = Some c -> nth_error di k = Some x -> c = (fst c, x) -> x = fst c).
Proof. exact c58_imaginary_parts_refuted. Qed.
(** The real parts and their number are ARPACK's: the first values, one fewer if the last complex one lacks its conjugate. *)
Theorem C58_real_parts : forall (dnaupd : naupd) (dneupd : neupd) fuel a nev h d zz, keeps dneupd ->
  eigs dnaupd dneupd fuel a nev h = Ok (d, zz) ->
  exists dr di zv nconv, answered dneupd (csc_rows a) nev dr di zv nconv /\
    map fst d = firstn (if lone di then nconv - 1 else nconv) dr.
Proof. exact c58_real_parts. Qed.

(** C65: the matrix of vectors has one row of n entries per Ritz value: for a complex value its vector and, in the next
    row, the conjugate; ... *)
Theorem C65_vectors : forall (dnaupd : naupd) (dneupd : neupd) fuel a nev h d zz, keeps dneupd ->
  eigs dnaupd dneupd fuel a nev h = Ok (d, zz) ->
  exists dr di zv nconv, answered dneupd (csc_rows a) nev dr di zv nconv /\ length zz = nev + 1 /\ zz = ritz_rows zv (csc_rows a) 0 di.
Proof. exact c65_vectors. Qed.
(** ... (refuted) for a real value, n times the same number, namely entry k of column k, instead of the column. *)
Theorem C65_real_vectors_refuted : forall (z : list F) n k x di, seqb x s0 = true ->
  forall r, nth_error (ritz_rows z n k (x :: di)) 0 = Some r -> forall j, j < n -> nth_error r j = Some (nth k (zcol z n k) s0, s0).
Proof. exact c65_real_vectors_refuted. Qed.

(** C66 (refuted): ARPACK should be given room for the vectors it is told to write.  It never is: eigs only looks at what
    dneupd does with arguments that violate its documentation, for any number of eigenvalues above 0 of a matrix whose size fits 32 bits. *)
Theorem C66_vector_buffer_refuted : forall (dnaupd : naupd) (d1 d2 : neupd),
  (forall z k ldz dr di zb we s, ~ z_fits z ldz zb -> d1 z k ldz dr di zb we s = d2 z k ldz dr di zb we s) ->
  forall fuel a nev h, 1 <= nev -> (Z.of_nat (csc_rows a) + 1 < 2 ^ 31)%Z -> eigs dnaupd d1 fuel a nev h = eigs dnaupd d2 fuel a nev h.
Proof. exact c66_vector_buffer_refuted. Qed.
(** Nor is there enough work space: eigs only looks at what dneupd does with a work array that is too short (refuted). *)
Theorem C66_workspace_refuted : forall (dnaupd : naupd) (d1 d2 : neupd),
  (forall z k ldz dr di zb we s, ~ workev_fits z we -> d1 z k ldz dr di zb we s = d2 z k ldz dr di zb we s) ->
  forall fuel a nev h, (Z.of_nat (csc_rows a) < 2 ^ 31)%Z -> eigs dnaupd d1 fuel a nev h = eigs dnaupd d2 fuel a nev h.
Proof. exact c66_workspace_refuted. Qed.
(** The other arguments are as documented, and dneupd is called when dnaupd has ended without an error: eigs only looks at what it does then. *)
Theorem C66_other_arguments : forall (dnaupd : naupd) (d1 d2 : neupd),
  (forall z k ldz dr di zb we s, neupd_asks z k ldz dr di s -> d1 z k ldz dr di zb we s = d2 z k ldz dr di zb we s) ->
  forall fuel a nev h, (Z.of_nat (csc_rows a) + 1 < 2 ^ 31)%Z -> eigs dnaupd d1 fuel a nev h = eigs dnaupd d2 fuel a nev h.
Proof. exact c66_other_arguments. Qed.
(** C67: the arguments of dnaupd are as its documentation asks, at the first call and at every later one, if at least one
    eigenvalue is wanted and the sizes fit 32 bits: eigs only looks at what dnaupd does with such arguments. *)
Theorem C67_dnaupd_arguments : forall (p1 p2 : naupd) (dneupd : neupd),
  (forall z s, same_buffers s (p1 z s)) -> (forall z s, naupd_asks z s -> p1 z s = p2 z s) ->
  forall fuel a nev h, 1 <= nev -> (Z.of_nat (10 * csc_rows a) < 2 ^ 31)%Z -> (Z.of_nat (3 * (2 * nev + 1) * (2 * nev + 3)) < 2 ^ 31)%Z ->
  eigs p1 dneupd fuel a nev h = eigs p2 dneupd fuel a nev h.
Proof. exact c67_dnaupd_arguments. Qed.
(** The first call has IDO = 0, every later one IDO = 1: let ARPACK remember whether it has been called ([fresh] before);
    eigs only looks at what dnaupd does with an IDO that says the same. *)
Theorem C67_first_call : forall (p1 p2 : naupd) (dneupd : neupd) (fresh : H -> bool),
  (forall z s, fresh (ar_saved (p1 z s)) = false) -> (forall z s, ar_ido s = (if fresh (ar_saved s) then 0 else 1)%Z -> p1 z s = p2 z s) ->
  forall fuel a nev h, fresh h = true -> eigs p1 dneupd fuel a nev h = eigs p2 dneupd fuel a nev h.
Proof. exact c67_first_call. Qed.
(** The sizes are passed as 32-bit integers.  With so many eigenvalues that the size of the work array does not fit, what is
    passed violates the documentation at every call (refuted there). *)
Theorem C67_large_refuted : forall (p1 p2 : naupd) (dneupd : neupd) fuel a nev h,
  (forall z s, ~ naupd_asks z s -> p1 z s = p2 z s) -> (Z.of_nat (csc_rows a) < 2 ^ 31)%Z -> 2 * nev + 1 <= csc_rows a ->
  (2 ^ 31 <= Z.of_nat (3 * (2 * nev + 1) * (2 * nev + 3)))%Z -> eigs p1 dneupd fuel a nev h = eigs p2 dneupd fuel a nev h.
Proof. exact c67_large_refuted. Qed.
(** With zero eigenvalues, which eigs lets pass, the documentation is violated from the first call on (refuted there). *)
Theorem C67_no_eigenvalues_refuted : forall (p1 p2 : naupd) (dneupd : neupd),
  (forall z s, ~ naupd_asks z s -> p1 z s = p2 z s) ->
  forall fuel a h, eigs p1 dneupd fuel a 0 h = eigs p2 dneupd fuel a 0 h.
Proof. exact c67_no_eigenvalues_refuted. Qed.

(** C68: a product asked for by ARPACK: where ARPACK wants the result in the last third of its work array, it is put
    there, the rest of the array unchanged ... *)
Theorem C68_product : forall I (a : CSC F) (st : arpack F H) p rest,
  wf_csc I a -> csc_rows a = csc_cols a -> length (ar_workd st) = 3 * csc_rows a ->
  p <= 2 * csc_rows a -> (Z.of_nat (2 * csc_rows a + 1) < 2 ^ 64)%Z ->
  ar_ipntr st = Z.of_nat (p + 1) :: Z.of_nat (2 * csc_rows a + 1) :: rest ->
  exists y st', eigs_product a (csc_rows a) st = Ok st' /\ CSC_mat_vec a (firstn (csc_rows a) (skipn p (ar_workd st))) = Ok y /\
    ar_workd st' = firstn (2 * csc_rows a) (ar_workd st) ++ y /\ ar_ipntr st' = ar_ipntr st /\ ar_ido st' = ar_ido st /\ ar_saved st' = ar_saved st.
Proof. exact c68_product. Qed.
(** ... (refuted) wherever else ARPACK wants the result, eigs panics. *)
Theorem C68_product_elsewhere_refuted : forall I (a : CSC F) (dnaupd : naupd) (dneupd : neupd) fuel nev h p q rest,
  wf_csc I a -> csc_rows a = csc_cols a -> nev + 1 < csc_rows a -> (Z.of_nat (3 * csc_rows a + 1) < 2 ^ 64)%Z ->
  let st := dnaupd (eigs_sizes (csc_rows a) nev) (eigs_start (csc_rows a) nev h) in
  same_buffers (eigs_start (csc_rows a) nev h) st ->
  ar_ido st = 1%Z -> ar_ipntr st = Z.of_nat (p + 1) :: Z.of_nat (q + 1) :: rest -> p <= 2 * csc_rows a -> q <= 3 * csc_rows a ->
  q <> 2 * csc_rows a -> eigs dnaupd dneupd (S fuel) a nev h = Panic.
Proof. exact c68_product_elsewhere_refuted. Qed.
(** ... (refuted) nor are the requests served that the documentation marks with IDO = -1 instead of 1: if ARPACK begins with one,
    the values of the matrix play no part in what eigs returns. *)
Theorem C68_other_requests_refuted : forall (dnaupd : naupd) (dneupd : neupd) fuel a b nev h, csc_rows a = csc_rows b -> csc_cols a = csc_cols b ->
  ar_ido (dnaupd (eigs_sizes (csc_rows a) nev) (eigs_start (csc_rows a) nev h)) = (-1)%Z ->
  eigs dnaupd dneupd fuel a nev h = eigs dnaupd dneupd fuel b nev h.
Proof. exact c68_other_requests_refuted. Qed.

(** C69: bad arguments are errors, before ARPACK is called: a matrix that is not square, and too many eigenvalues of a
    matrix that is not empty; ... *)
Theorem C69_argument_errors : forall (dnaupd : naupd) (dneupd : neupd) fuel a nev h,
  (csc_rows a <> csc_cols a -> eigs dnaupd dneupd fuel a nev h = Err ESquare) /\
  (csc_rows a = csc_cols a -> 0 < csc_rows a -> csc_rows a <= nev + 1 -> eigs dnaupd dneupd fuel a nev h = Err EArpack).
Proof. exact c69_argument_errors. Qed.
(** ... (refuted) the empty matrix is not: eigs panics. *)
Theorem C69_empty_matrix_refuted : forall (dnaupd : naupd) (dneupd : neupd) fuel a nev h, csc_rows a = 0 -> csc_cols a = 0 -> eigs dnaupd dneupd fuel a nev h = Panic.
Proof. exact c69_empty_matrix_refuted. Qed.
End Any.

(** ** A concrete run: the 4 by 4 matrix with 1 2 3 4 on the diagonal; one product in the last third of the work array, then
    a converged answer: 2 +- i and one real value *)
Definition ex_eig : CSC Z := mkCSC 4 4 [0; 1; 2; 3]%Z [0; 1; 2; 3; 4]%Z [1; 2; 3; 4]%Z.
Definition ex_naupd (s : sizes) (t : arpack Z nat) : arpack Z nat :=
  match ar_saved t with
  | 0 => mkArpack 1%Z 0%Z (ar_resid t) (ar_v t) (ar_iparam t) (upd (upd (ar_ipntr t) 0 1%Z) 1 9%Z) (upd (upd (ar_workd t) 0 10%Z) 2 20%Z) (ar_workl t) 1
  | _ => mkArpack 99%Z 0%Z (ar_resid t) (ar_v t) (upd (ar_iparam t) 4 3%Z) (ar_ipntr t) (ar_workd t) (ar_workl t) 2
  end.
Definition ex_neupd (s : sizes) (k : nat) (ldz : Z) (dr di zb we : list Z) (t : arpack Z nat) : list Z * list Z * list Z * arpack Z nat :=
  (firstn (length dr) ([2; 2; 5] ++ dr), firstn (length di) ([1; -1; 0] ++ di), firstn (length zb) ([1; 2; 3; 4; 5; 6; 7; 8; 9; 10; 11; 12] ++ zb), t)%Z.
Example ex_eig_meets : wf_csc Usize ex_eig /\ keeps ex_neupd /\ (forall z s, same_buffers s (ex_naupd z s)).
Proof.
  split; [check|]. split.
  - intros z k ldz dr di zb we s. cbn -[firstn app]. rewrite !firstn_length, !app_length. cbn [length]. lia.
  - intros z s. unfold ex_naupd, same_buffers. destruct (ar_saved s); cbn; rewrite ?upd_length; repeat split.
Qed.
Example C58_ex : eigs ex_naupd ex_neupd 3 ex_eig 1 0 =
  Ok ([(2, 2); (2, 2)], [[(1, 5); (2, 6); (3, 7); (4, 8)]; [(1, -5); (2, -6); (3, -7); (4, -8)]])%Z.
Proof. reflexivity. Qed.
Example C65_ex : eigs ex_naupd (fun s k ldz dr di zb we t => let '(dr', _, zb', t') := ex_neupd s k ldz dr di zb we t in (dr', di, zb', t')) 3 ex_eig 1 0 =
  Ok ([(2, 2); (2, 2)], [[(1, 0); (1, 0); (1, 0); (1, 0)]; [(6, 0); (6, 0); (6, 0); (6, 0)]])%Z.
Proof. reflexivity. Qed.
Example C68_ex : exists st', eigs_product ex_eig 4 (ex_naupd (eigs_sizes 4 1) (eigs_start 4 1 0)) = Ok st' /\ ar_workd st' = [10; 0; 20; 0; 0; 0; 0; 0; 10; 0; 60; 0]%Z.
Proof. eexists. split; reflexivity. Qed.
Example C68_elsewhere_ex : eigs (fun s t => let t' := ex_naupd s t in mkArpack (ar_ido t') 0%Z (ar_resid t') (ar_v t') (ar_iparam t') (upd (ar_ipntr t') 1 5%Z) (ar_workd t') (ar_workl t') (ar_saved t'))
  ex_neupd 3 ex_eig 1 0 = Panic.
Proof. reflexivity. Qed.
Example C66_ex : ~ z_fits (eigs_sizes 4 1) 5 (repeat 0%Z (4 * 2)) /\ naupd_asks (eigs_sizes 4 1) (eigs_start 4 1 0 : arpack Z nat).
Proof. split; [intros Q; apply Q; reflexivity|]. constructor; try (vm_compute; lia); try (split; vm_compute; congruence); try (vm_compute; congruence). intros _. vm_compute. repeat split. Qed.
(** the ARPACK of the examples counts its calls: [fresh] is count 0 *)
Example C67_first_ex : (forall z s, (ar_saved (ex_naupd z s) =? 0) = false) /\ ar_ido (eigs_start 4 1 0 : arpack Z nat) = 0%Z /\ ar_ido (ex_naupd (eigs_sizes 4 1) (eigs_start 4 1 0)) = 1%Z.
Proof. split; [|split; reflexivity]. intros z s. unfold ex_naupd. destruct (ar_saved s); reflexivity. Qed.
(** the iteration limit passed is ten times the order of the matrix, eigen/real.rs:48 *)
Example C66_limit_ex : nth 2 (ar_iparam (eigs_start 4 1 0 : arpack Z nat)) 0%Z = 40%Z.
Proof. reflexivity. Qed.
Example C66_workspace_ex : ~ workev_fits (eigs_sizes 4 1) (repeat 0%Z (2 * 3)) /\ neupd_asks (eigs_sizes 4 1) 3 5 [0; 0]%Z [0; 0]%Z (mkArpack 99%Z 0%Z [] [] [] [] [] [] 0 : arpack Z nat).
Proof. split; [intros Q; apply Q; reflexivity|]. constructor; vm_compute; congruence. Qed.
(** an ARPACK that starts with IDO = -1: the result is the same for the matrix with 7 at (0, 0) only *)
Example C68_other_ex : let p := fun (s : sizes) (t : arpack Z nat) => mkArpack (-1)%Z 0%Z (ar_resid t) (ar_v t) (upd (ar_iparam t) 4 2%Z) (ar_ipntr t) (ar_workd t) (ar_workl t) 2 in
  exists r, eigs p ex_neupd 3 ex_eig 1 0 = Ok r /\ eigs p ex_neupd 3 (mkCSC 4 4 [0]%Z [0; 1; 1; 1; 1]%Z [7]%Z) 1 0 = Ok r.
Proof. eexists. split; reflexivity. Qed.
(** sizes for which the 32-bit work array size is negative: 13377 eigenvalues *)
Example C67_large_ex : sz_lworkl (eigs_sizes (Z.to_nat 30000) (Z.to_nat 13377)) = (-2147316691)%Z.
Proof. unfold eigs_sizes, sz_lworkl, as_i32, eigs_lworkl, eigs_ncv. rewrite !Nat2Z.inj_mul, Nat2Z.inj_add, Nat2Z.inj_min, Nat2Z.inj_add, Nat2Z.inj_mul, !Z2Nat.id by lia. reflexivity. Qed.

Print Assumptions C58_imaginary_parts_refuted.
Print Assumptions C58_real_parts.
Print Assumptions C65_vectors.
Print Assumptions C65_real_vectors_refuted.
Print Assumptions C66_vector_buffer_refuted.
Print Assumptions C66_workspace_refuted.
Print Assumptions C66_other_arguments.
Print Assumptions C67_dnaupd_arguments.
Print Assumptions C67_first_call.
Print Assumptions C67_large_refuted.
Print Assumptions C67_no_eigenvalues_refuted.
Print Assumptions C68_product.
Print Assumptions C68_product_elsewhere_refuted.
Print Assumptions C68_other_requests_refuted.
Print Assumptions C69_argument_errors.
Print Assumptions C69_empty_matrix_refuted.
