(** What the theorems of Props_checked.v speak about: scalar operations that panic instead of giving a wrong result. *)
From Verif Require Import Rust Scalar Model_matrix Spec SpecBoundary Model_checked.

(** [m] panics, which requires [P], or does exactly what [m'] does *)
Definition panics_or (P : Prop) {A} (m m' : res A) : Prop := m = Panic /\ P \/ m = m'.

(** The checked operations panic, which requires [P], or give the result of the unchecked ones. With [P := True]: every operation may
    overflow. With [P := False]: no operation overflows, as for floating-point numbers. *)
Class CheckedLaw (P : Prop) (T : Type) {SC : Scalar T} {CK : Checked T} : Prop :=
  { law_add : forall x y, panics_or P (cadd x y) (Ok (sadd x y));
    law_sub : forall x y, panics_or P (csub x y) (Ok (ssub x y));
    law_mul : forall x y, panics_or P (cmul x y) (Ok (smul x y));
    law_div : forall x y, panics_or P (cdiv x y) (sdiv x y) }.
Class CheckedNegLaw (P : Prop) (T : Type) {SN : ScalarNeg T} {CN : CheckedNeg T} : Prop :=
  { law_neg : forall x, panics_or P (cneg x) (Ok (sneg x)) }.

(** The primitive integer type [J] as scalar: mathematical integers, each operation panics if its result is not a value of [J], and
    division panics on a zero divisor; [i8::MIN / -1] overflows like every other result out of range. *)
Section Int.
Variable J : ity.
Definition int_checked : Checked Z :=
  {| cadd := fun x y => icheck J (x + y); csub := fun x y => icheck J (x - y); cmul := fun x y => icheck J (x * y);
     cdiv := fun x y => let* q := sdiv x y in icheck J q |}.
Definition int_checked_neg : CheckedNeg Z := {| cneg := fun x => icheck J (- x) |}.
End Int.
(** Scalars whose operations never panic, such as floating-point numbers (division as in [sdiv]) *)
Definition plain_checked {T} {SC : Scalar T} : Checked T :=
  {| cadd := fun x y => Ok (sadd x y); csub := fun x y => Ok (ssub x y); cmul := fun x y => Ok (smul x y); cdiv := sdiv |}.
Definition plain_checked_neg {T} {SN : ScalarNeg T} : CheckedNeg T := {| cneg := fun x => Ok (sneg x) |}.

(** Adding up the elements of [l] from the left, starting with zero, some addition overflows *)
Definition sum_overflows {T} {SC : Scalar T} {CK : Checked T} (l : list T) : Prop :=
  exists p v q, l = p ++ v :: q /\ cadd (sum0 p) v = Panic.
(** The run [m] panics exactly in the case [P], and otherwise does what [m'] does *)
Definition panics_iff (P : Prop) {A} (m m' : res A) : Prop := (P -> m = Panic) /\ (~ P -> m = m').

(** For the concrete cases: one row of three values, and its product with a vector of i8 *)
Definition row3 (a b c : Z) : CSR Z := mkCSR 1 3 [0; 3]%Z [0; 1; 2]%Z [a; b; c]%Z.
Definition vec3 := @CSR_mat_vec_ck Z _ (int_checked I8).
(** Adding up the elements of [l] from the left, starting with the first, some addition overflows *)
Definition dup_overflows {T} {SC : Scalar T} {CK : Checked T} (l : list T) : Prop :=
  exists u p v q, l = u :: p ++ v :: q /\ cadd (fold_left sadd p u) v = Panic.
(** The element-wise operation [op] on [a] and [b] overflows: at some position stored in [a] or [b], [op] overflows on the two values.
    Unless both matrices are in canonical form the values are the sums of the entries, and adding these up must not overflow either. *)
Definition csr_op_overflows {T} {SC : Scalar T} {CK : Checked T} {T2} (op : T -> T -> res T2) (a b : CSR T) : Prop :=
  exists i j, i < csr_rows a /\ csr_at a i j ++ csr_at b i j <> [] /\
    ((csr_canonical a /\ csr_canonical b) /\ op (hd s0 (csr_at a i j)) (hd s0 (csr_at b i j)) = Panic \/
     ~ (csr_canonical a /\ csr_canonical b) /\
       (sum_overflows (csr_at a i j) \/ sum_overflows (csr_at b i j) \/ op (sum0 (csr_at a i j)) (sum0 (csr_at b i j)) = Panic)).
Definition csc_op_overflows {T} {SC : Scalar T} {CK : Checked T} {T2} (op : T -> T -> res T2) (a b : CSC T) : Prop :=
  exists i j, j < csc_cols a /\ csc_at a i j ++ csc_at b i j <> [] /\
    ((csc_canonical a /\ csc_canonical b) /\ op (hd s0 (csc_at a i j)) (hd s0 (csc_at b i j)) = Panic \/
     ~ (csc_canonical a /\ csc_canonical b) /\
       (sum_overflows (csc_at a i j) \/ sum_overflows (csc_at b i j) \/ op (sum0 (csc_at a i j)) (sum0 (csc_at b i j)) = Panic)).
(** The element-wise kernel [ck], whose operation [op] may overflow, panics exactly if it does and otherwise does what [pl] does *)
Definition kernel_overflow (I : ity) {T} {SC : Scalar T} {CK : Checked T} {T2} (op : T -> T -> res T2)
  (ck pl : nat -> nat -> list Z -> list Z -> list T -> list Z -> list Z -> list T -> list Z -> list Z -> list T2 -> res (list Z * list Z * list T2)) : Prop :=
  forall (a b : CSR T) c_p c_j c_x,
  wf_csr I a -> wf_csr I b -> csr_rows b = csr_rows a -> csr_cols b = csr_cols a ->
  length c_p = csr_rows a + 1 -> csr_count a + csr_count b <= length c_j -> csr_count a + csr_count b <= length c_x ->
  panics_iff (csr_op_overflows op a b)
    (ck (csr_rows a) (csr_cols a) (csr_rowptr a) (csr_colidx a) (csr_values a) (csr_rowptr b) (csr_colidx b) (csr_values b) c_p c_j c_x)
    (pl (csr_rows a) (csr_cols a) (csr_rowptr a) (csr_colidx a) (csr_values a) (csr_rowptr b) (csr_colidx b) (csr_values b) c_p c_j c_x).
(** The product of two matrices overflows: in some entry of the product, a product of two stored values or the sum of these products does *)
Definition csr_product_overflows {T} {SC : Scalar T} {CK : Checked T} (a b : CSR T) : Prop :=
  exists i k, i < csr_rows a /\
    ((exists j u v, In u (csr_at a i j) /\ In v (csr_at b j k) /\ cmul u v = Panic) \/ sum_overflows (csr_products a b i k)).
Definition csc_product_overflows {T} {SC : Scalar T} {CK : Checked T} (a b : CSC T) : Prop :=
  exists i k, k < csc_cols b /\
    ((exists j u v, In u (csc_at a i j) /\ In v (csc_at b j k) /\ cmul v u = Panic) \/ sum_overflows (csc_products a b i k)).
Definition mixed_product_overflows {T} {SC : Scalar T} {CK : Checked T} (a : CSC T) (b : CSR T) : Prop :=
  exists i k, k < csr_cols b /\
    ((exists j u v, In u (csc_at a i j) /\ In v (csr_at b j k) /\ cmul v u = Panic) \/ sum_overflows (mixed_products a b i k)).
(** Adding the elements of [l] one by one to [u], some addition overflows *)
Definition adds_overflow {T} {SC : Scalar T} {CK : Checked T} (u : T) (l : list T) : Prop :=
  exists p v q, l = p ++ v :: q /\ cadd (fold_left sadd p u) v = Panic.
