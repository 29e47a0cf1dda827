(** Model of /repo/src/eigen/real.rs (feature "eigs").  The Fortran library ARPACK is a pair of arbitrary functions on
    the buffers handed to it; the lock around the calls has no effect on their results and is left out. *)
From Verif Require Import Rust Scalar Model_kernels Model_matrix.

(** [x as usize] for [x : i32] *)
Definition as_usize (z : Z) : nat := Z.to_nat (z mod 2 ^ 64)%Z.
(** [n as i32] for [n : usize] *)
Definition as_i32 (n : nat) : Z := ((Z.of_nat n + 2 ^ 31) mod 2 ^ 32 - 2 ^ 31)%Z.

(** real.rs:33-235: everything ARPACK may write to.  [H] is what it remembers itself between calls (Fortran [SAVE]). *)
Record arpack (F H : Type) := mkArpack {
  ar_ido : Z; ar_info : Z; ar_resid : list F; ar_v : list F; ar_iparam : list Z; ar_ipntr : list Z;
  ar_workd : list F; ar_workl : list F; ar_saved : H }.
Arguments mkArpack {F H}. Arguments ar_ido {F H}. Arguments ar_info {F H}. Arguments ar_resid {F H}. Arguments ar_v {F H}.
Arguments ar_iparam {F H}. Arguments ar_ipntr {F H}. Arguments ar_workd {F H}. Arguments ar_workl {F H}. Arguments ar_saved {F H}.

(** the sizes passed along, cast to [i32]: real.rs:47, 58, 71, 78-95, 105-122, 142-168 *)
Record sizes := mkSizes { sz_n : Z; sz_nev : Z; sz_ncv : Z; sz_ldv : Z; sz_lworkl : Z }.

Section Eigen.
Context {BD : Build}.
Context {F : Type} {SC : Scalar F} {SN : ScalarNeg F} {H : Type}.
(** [dnaupd_c], [dneupd_c] (arpack_ng_sys): the second also gets [select] (real.rs:133) by length, [ldz] and the
    buffers [dr], [di], [z], [workev] *)
Variable dnaupd : sizes -> arpack F H -> arpack F H.
Variable dneupd : sizes -> nat -> Z -> list F -> list F -> list F -> list F -> arpack F H -> list F * list F * list F * arpack F H.

(** complex numbers: real.rs:182-216 *)
Definition conj (c : F * F) : F * F := (fst c, sneg (snd c)).
(** [zz[(i, j)] = v] of full::Mat, rows of equal length *)
Definition mset (zz : list (list (F * F))) (i j : nat) (v : F * F) : res (list (list (F * F))) :=
  let* r := vget zz i in let* r' := vset r j v in vset zz i r'.
Definition mget (zz : list (list (F * F))) (i j : nat) : res (F * F) := let* r := vget zz i in vget r j.

(** real.rs:46-74: sizes and buffers before the first call *)
Definition eigs_ncv (n nev : nat) : nat := Nat.min n (2 * nev + 1).
Definition eigs_lworkl (n nev : nat) : nat := 3 * eigs_ncv n nev * (eigs_ncv n nev + 2).
Definition eigs_sizes (n nev : nat) : sizes :=
  mkSizes (as_i32 n) (as_i32 nev) (as_i32 (eigs_ncv n nev)) (as_i32 n) (as_i32 (eigs_lworkl n nev)).
Definition eigs_start (n nev : nat) (h : H) : arpack F H :=
  mkArpack 0%Z 0%Z (repeat s0 n) (repeat s0 (n * eigs_ncv n nev)) [1; 0; as_i32 (n * 10); 1; 0; 0; 1; 0; 0; 0; 0]%Z (repeat 0%Z 14)
    (repeat s0 (3 * n)) (repeat s0 (eigs_lworkl n nev)) h.

(** real.rs:100-101: one product asked for by ARPACK *)
Definition eigs_product (a : CSC F) (n : nat) (st : arpack F H) : res (arpack F H) :=
  let* p0 := vget (ar_ipntr st) 0 in
  let* p := usub (as_usize p0) 1 in
  let* x := vslice (ar_workd st) p (p + n) in
  let* y := CSC_mat_vec a x in
  let* q0 := vget (ar_ipntr st) 1 in
  let* q := usub (as_usize q0) 1 in
  (* workd[q..].copy_from_slice(&y) panics unless the lengths agree *)
  if negb ((q <=? length (ar_workd st)) && (length (ar_workd st) - q =? length y)) then Panic else
  Ok (mkArpack (ar_ido st) (ar_info st) (ar_resid st) (ar_v st) (ar_iparam st) (ar_ipntr st)
        (firstn q (ar_workd st) ++ y) (ar_workl st) (ar_saved st)).
(** real.rs:76-125: the reverse communication loop *)
Definition eigs_drive (fuel : nat) (a : CSC F) (n nev : nat) (h : H) : res (arpack F H) :=
  let z := eigs_sizes n nev in
  while fuel (fun st => Ok (ar_ido st =? 1)%Z) (fun st =>
    let* st := eigs_product a n st in Ok (dnaupd z st)) (dnaupd z (eigs_start n nev h)).

(** real.rs:186-224: the Ritz vectors; [i], the matrix and the number of converged values *)
Definition eigs_vectors (n nev : nat) (di z : list F) (zz : list (list (F * F))) (nconv : nat) : res (nat * list (list (F * F)) * nat) :=
  while (nev + 2) (fun '(i, zz, nconv) => Ok (i <? nev + 1)) (fun '(i, zz, nconv) =>
    let* d := vget di i in
    let* '(i, zz, nconv) :=
      (* |x| == 0.0 exactly if x == 0.0 *)
      (if seqb d s0 then
        let* zr := vslice z (i * n) (i * n + n) in
        let* zz := for_range 0 n (fun j zz => let* x := vget zr i in mset zz i j (x, s0)) zz in
        Ok (i, zz, nconv)
      else if i <? nev then
        let* zr := vslice z (i * n) (i * n + n) in
        let* zi := vslice z ((i + 1) * n) ((i + 1) * n + n) in
        let* zz := for_range 0 n (fun j zz =>
          let* x := vget zr j in let* y := vget zi j in
          let* zz := mset zz i j (x, y) in
          let* v := mget zz i j in mset zz (i + 1) j (conj v)) zz in
        Ok (i + 1, zz, nconv)
      else
        let* nconv := usub nconv 1 in Ok (i, zz, nconv)) in
    Ok (i + 1, zz, nconv)) (0, zz, nconv).
(** real.rs:176-234: what is made of ARPACK's output *)
Definition eigs_post (n nev : nat) (dr di z : list F) (nconv : nat) : res (list (F * F) * list (list (F * F))) :=
  let* d := mapM (fun i => let* x := vget dr i in Ok (x, x)) (seq 0 (nev + 1)) in
  let zz := repeat (repeat (s0, s0) n) (nev + 1) in
  let* '(_, zz, nconv) := eigs_vectors n nev di z zz nconv in
  let* d := (if nconv <=? nev then vslice d 0 nconv else Ok d) in
  Ok (d, zz).

(** real.rs:33-235 [eigs] *)
Definition eigs (fuel : nat) (a : CSC F) (nev : nat) (h : H) : res (list (F * F) * list (list (F * F))) :=
  if negb (csc_rows a =? csc_cols a) then Err ESquare else
  let n := csc_rows a in
  let* n1 := usub n 1 in
  if n1 <=? nev then Err EArpack else
  let z := eigs_sizes n nev in
  let* st := eigs_drive fuel a n nev h in
  if (ar_info st <? 0)%Z then Err EArpack else
  let '(dr, di, zv, st) := dneupd z (eigs_ncv n nev) (as_i32 (n + 1)) (repeat s0 (nev + 1)) (repeat s0 (nev + 1)) (repeat s0 (n * (nev + 1)))
                             (repeat s0 (2 * eigs_ncv n nev)) st in
  if negb (ar_info st =? 0)%Z then Err EArpack else
  let* nc := vget (ar_iparam st) 4 in
  eigs_post n nev dr di zv (as_usize nc).
End Eigen.
