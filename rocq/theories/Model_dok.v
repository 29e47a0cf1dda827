(** Model of /repo/src/dok/dok.rs. *)
From Verif Require Import Rust Scalar Model_kernels Model_matrix.

(** dok.rs:11-15 [DoK].  The [HashMap] is an association list in which each key occurs once;
    operations that iterate over it take the iteration order as an argument. *)
Record DoK (T : Type) := mkDoK {
  dok_rows : nat; dok_cols : nat;
  dok_values : list ((Z * Z) * T) }.
Arguments mkDoK {T}. Arguments dok_rows {T}. Arguments dok_cols {T}. Arguments dok_values {T}.

(** equality of keys (std [HashMap], dok.rs:66, 80, 82) *)
Definition key_eqb (a b : Z * Z) : bool := ((fst a =? fst b) && (snd a =? snd b))%Z.

Section DoK.
Context {BD : Build}.
Context {T : Type} {SC : Scalar T}.
Variable I : ity.

(** [HashMap::get], dok.rs:66 *)
Fixpoint hm_get (m : list ((Z * Z) * T)) (k : Z * Z) : option T :=
  match m with
  | [] => None
  | (k', v) :: m' => if key_eqb k' k then Some v else hm_get m' k
  end.
(** [HashMap::remove], dok.rs:80 *)
Definition hm_remove (m : list ((Z * Z) * T)) (k : Z * Z) : list ((Z * Z) * T) :=
  filter (fun e => negb (key_eqb (fst e) k)) m.
(** [HashMap::insert], dok.rs:82 *)
Definition hm_insert (m : list ((Z * Z) * T)) (k : Z * Z) (v : T) : list ((Z * Z) * T) :=
  (k, v) :: hm_remove m k.

(** dok.rs:18-32 [DoK::new], [DoK::with_capacity] *)
Definition DoK_new (rows cols : nat) : DoK T := mkDoK rows cols [].
(** dok.rs:61-63 [DoK::nnz] *)
Definition DoK_nnz (d : DoK T) : nat := length (dok_values d).
(** dok.rs:65-70 [DoK::get] *)
Definition DoK_get (d : DoK T) (i j : Z) : T :=
  match hm_get (dok_values d) (i, j) with None => s0 | Some v => v end.
(** dok.rs:72-85 [DoK::set] *)
Definition DoK_set (d : DoK T) (i j : Z) (v : T) : res (DoK T) :=
  let* bad := if (i <? 0)%Z then Ok true else
              (let* r := ifrom I (dok_rows d) in Ok (r <=? i)%Z) in
  if bad then Err ERange else
  let* bad := if (j <? 0)%Z then Ok true else
              (let* c := ifrom I (dok_cols d) in Ok (c <=? j)%Z) in
  if bad then Err ERange else
  if seqb v s0 then Ok (mkDoK (dok_rows d) (dok_cols d) (hm_remove (dok_values d) (i, j)))
  else Ok (mkDoK (dok_rows d) (dok_cols d) (hm_insert (dok_values d) (i, j) v)).
(** dok.rs:87-89 [DoK::add] *)
Definition DoK_add (d : DoK T) (i j : Z) (v : T) : res (DoK T) :=
  DoK_set d i j (sadd (DoK_get d i j) v).
(** dok.rs:91-93 [DoK::sub] *)
Definition DoK_sub (d : DoK T) (i j : Z) (v : T) : res (DoK T) :=
  DoK_set d i j (ssub (DoK_get d i j) v).

(** dok.rs:34-49 [DoK::from_dense] *)
Definition DoK_from_dense (a : list (list T)) : res (DoK T) :=
  let m := length a in
  let* n := if 0 <? m then (let* r := vget a 0 in Ok (length r)) else Ok 0 in
  for_enum 0 a (fun i row mat =>
    for_enum 0 row (fun j v mat =>
      if negb (seqb v s0) then
        let* zi := ifrom I i in
        let* zj := ifrom I j in
        unwrap (DoK_set mat zi zj v)
      else Ok mat) mat) (DoK_new m n).

(** dok.rs:95-101 [DoK::to_dense]; [order] is the iteration order of the map *)
Definition DoK_to_dense (d : DoK T) (order : list ((Z * Z) * T)) : res (list (list T)) :=
  for_each order (fun '((i, j), v) dense =>
    let* i := to_usize i in
    let* di := vget dense i in
    let* j := to_usize j in
    let* di' := vset di j v in
    vset dense i di') (repeat (repeat s0 (dok_cols d)) (dok_rows d)).
(** dok.rs:103-117 [DoK::to_coo] *)
Definition DoK_to_coo (d : DoK T) (order : list ((Z * Z) * T)) : res (Coo T) :=
  let* '(rowidx, colidx, values) := for_each order (fun '((i, j), v) '(rowidx, colidx, values) =>
    Ok (rowidx ++ [i], colidx ++ [j], values ++ [v])) ([], [], []) in
  unwrap (Coo_new (dok_rows d) (dok_cols d) rowidx colidx values).
(** dok.rs:119-121 [DoK::to_csc] *)
Definition DoK_to_csc (d : DoK T) (order : list ((Z * Z) * T)) : res (CSC T) :=
  let* c := DoK_to_coo d order in Coo_to_csc I c.
(** dok.rs:123-125 [DoK::to_csr] *)
Definition DoK_to_csr (d : DoK T) (order : list ((Z * Z) * T)) : res (CSR T) :=
  let* c := DoK_to_coo d order in Coo_to_csr I c.
End DoK.
