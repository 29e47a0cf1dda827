(** What is made of ARPACK's output (C58, C65) and what ARPACK's documentation asks of its callers (C66, C67). *)
From Verif Require Import Rust Scalar Model_matrix Model_eigen Spec.

Section Spec.
Context {F : Type} {SC : Scalar F} {SN : ScalarNeg F}.

(** column [k] of the [n] values per column that ARPACK was expected to leave in [z] *)
Definition zcol (z : list F) (n k : nat) : list F := firstn n (skipn (k * n) z).
(** rows of the result for the imaginary parts [di], which belong to the Ritz values [k], [k + 1], ...:
    a real value gives one row, a complex one and its successor a row and its conjugate, a complex one at the end
    nothing. *)
Fixpoint ritz_rows (z : list F) (n k : nat) (di : list F) : list (list (F * F)) :=
  match di with
  | [] => []
  | x :: di' =>
      if seqb x s0 then repeat (nth k (zcol z n k) s0, s0) n :: ritz_rows z n (S k) di'
      else match di' with
           | [] => [repeat (s0, s0) n]
           | _ :: di'' => combine (zcol z n k) (zcol z n (S k)) ::
                          map (fun c => (fst c, sneg (snd c))) (combine (zcol z n k) (zcol z n (S k))) ::
                          ritz_rows z n (S (S k)) di''
           end
  end.
(** the last Ritz value is complex and its conjugate is missing *)
Fixpoint lone (di : list F) : bool :=
  match di with
  | [] => false
  | x :: di' => if seqb x s0 then lone di' else match di' with [] => true | _ :: di'' => lone di'' end
  end.
End Spec.

(** dnaupd's documentation: 0 < NEV < N-1, 2 <= NCV-NEV, NCV <= N, LDV >= N, LWORKL >= 3 NCV^2 + 6 NCV, arrays of the
    documented sizes, and at the first call (IDO = 0) of a standard problem with ARPACK's own shifts (ISHIFT = IPARAM(1) = 1):
    a start vector chosen by ARPACK (INFO = 0), MXITER = IPARAM(3) > 0, NB = IPARAM(4) = 1, MODE = IPARAM(7) = 1 *)
Record naupd_asks {F H} (z : sizes) (s : arpack F H) : Prop := {
  na_nev : (0 < sz_nev z /\ sz_nev z + 1 < sz_n z)%Z;
  na_ncv : (sz_nev z + 2 <= sz_ncv z <= sz_n z)%Z;
  na_ldv : (sz_n z <= sz_ldv z)%Z;
  na_lworkl : (3 * (sz_ncv z * sz_ncv z) + 6 * sz_ncv z <= sz_lworkl z)%Z;
  na_resid : (sz_n z <= Z.of_nat (length (ar_resid s)))%Z;
  na_v : (sz_ldv z * sz_ncv z <= Z.of_nat (length (ar_v s)))%Z;
  na_iparam : 11 <= length (ar_iparam s);
  na_ipntr : 14 <= length (ar_ipntr s);
  na_workd : (3 * sz_n z <= Z.of_nat (length (ar_workd s)))%Z;
  na_workl : (sz_lworkl z <= Z.of_nat (length (ar_workl s)))%Z;
  na_first : ar_ido s = 0%Z -> ar_info s = 0%Z /\ nth 0 (ar_iparam s) 0%Z = 1%Z /\ (0 < nth 2 (ar_iparam s) 0)%Z /\
    nth 3 (ar_iparam s) 0%Z = 1%Z /\ nth 6 (ar_iparam s) 0%Z = 1%Z }.
(** the foreign function writes into the buffers, it does not resize them *)
Definition same_buffers {F H} (s s' : arpack F H) : Prop :=
  length (ar_resid s') = length (ar_resid s) /\ length (ar_v s') = length (ar_v s) /\ length (ar_iparam s') = length (ar_iparam s) /\
  length (ar_ipntr s') = length (ar_ipntr s) /\ length (ar_workd s') = length (ar_workd s) /\ length (ar_workl s') = length (ar_workl s).
(** dneupd's documentation: Z is N by NEV+1 with leading dimension LDZ, so its last element is Z(N, NEV+1) *)
Definition z_fits {F} (z : sizes) (ldz : Z) (zbuf : list F) : Prop := (sz_nev z * ldz + sz_n z <= Z.of_nat (length zbuf))%Z.

(** dneupd's documentation: WORKEV is a work array of dimension 3 NCV *)
Definition workev_fits {F} (z : sizes) (we : list F) : Prop := (3 * sz_ncv z <= Z.of_nat (length we))%Z.
(** dneupd's documentation, the rest: SELECT has NCV elements, DR and DI have NEV+1, LDZ >= N, and dnaupd has finished without an
    error and is not waiting for a product *)
Record neupd_asks {F H} (z : sizes) (select : nat) (ldz : Z) (dr di : list F) (s : arpack F H) : Prop := {
  ne_select : (sz_ncv z <= Z.of_nat select)%Z;
  ne_ldz : (sz_n z <= ldz)%Z;
  ne_dr : (sz_nev z + 1 <= Z.of_nat (length dr))%Z;
  ne_di : (sz_nev z + 1 <= Z.of_nat (length di))%Z;
  ne_info : (0 <= ar_info s)%Z;
  ne_ido : ar_ido s <> 1%Z }.

(** the types of the two foreign functions *)
Definition naupd (F H : Type) : Type := sizes -> arpack F H -> arpack F H.
Definition neupd (F H : Type) : Type :=
  sizes -> nat -> Z -> list F -> list F -> list F -> list F -> arpack F H -> list F * list F * list F * arpack F H.
(** the foreign function writes into the buffers, it does not resize them *)
Definition keeps {F H} (dneupd : neupd F H) : Prop := forall z k ldz dr di zb we s, let '(dr', di', zb', _) := dneupd z k ldz dr di zb we s in
  length dr' = length dr /\ length di' = length di /\ length zb' = length zb.
(** ARPACK's answer, out of which a result was made *)
Definition answered {F H} `{Scalar F} (dneupd : neupd F H) (n nev : nat) (dr di zv : list F) (nconv : nat) : Prop :=
  exists z k we s s', dneupd z k (as_i32 (n + 1)) (repeat s0 (nev + 1)) (repeat s0 (nev + 1)) (repeat s0 (n * (nev + 1))) we s = (dr, di, zv, s') /\
    ar_info s' = 0%Z /\ (exists c, nth_error (ar_iparam s') 4 = Some c /\ nconv = as_usize c).
