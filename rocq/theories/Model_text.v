(** Model of the printed forms: /repo/src/coo/coo.rs:374-386, /repo/src/csr/csr.rs:450-490,
    /repo/src/csc/csc.rs:535-551, /repo/src/dok/dok.rs:127-136, /repo/src/csr/table.rs:11-65,
    /repo/src/traits.rs:88-126. *)
From Coq Require Import String Ascii.
From Coq Require Import DecimalString.
From Verif Require Import Rust Scalar Model_kernels Model_matrix Model_dok.
Open Scope list_scope.

(** characters U+000A and U+0009 *)
Definition nl : string := String "010"%char EmptyString.
Definition tab : string := String "009"%char EmptyString.

(** [Display] of the integer types (std): decimal digits, a minus sign for negative values *)
Definition dec (z : Z) : string := NilZero.string_of_int (Z.to_int z).
Definition decn (n : nat) : string := dec (Z.of_nat n).

(** [format!("({}, {}) {}", ...)], coo.rs:380-383, csr.rs:469, csc.rs:547, dok.rs:133 *)
Definition fmt_entry (i j v : string) : string := ("(" ++ i ++ ", " ++ j ++ ") " ++ v)%string.
(** [if !buf.is_empty() { buf.push('\n') }; buf.push_str(s)], coo.rs:377-383, csc.rs:544-547, dok.rs:130-133 *)
Definition push_line (buf s : string) : string :=
  (if (buf =? "")%string then buf ++ s else buf ++ nl ++ s)%string.

(** [str::trim_end_matches("\n")], csr.rs:486-489 *)
Fixpoint trim_nl (s : string) : string :=
  match s with
  | EmptyString => EmptyString
  | String c s' => match trim_nl s' with
                   | EmptyString => if (c =? "010")%char then EmptyString else String c EmptyString
                   | r => String c r
                   end
  end.

Section Text.
Context {BD : Build}.
Context {T : Type}.
(** [Display] of the scalar type: any function *)
Variable show : T -> string.

(** coo.rs:374-386 [Coo::to_string] *)
Definition Coo_to_string (m : Coo T) : res string :=
  for_range 0 (length (coo_values m)) (fun i buf =>
    let* r := vget (coo_rowidx m) i in
    let* c := vget (coo_colidx m) i in
    let* v := vget (coo_values m) i in
    Ok (push_line buf (fmt_entry (dec r) (dec c) (show v)))) EmptyString.

(** csr.rs:450-472 [CSR::to_string] *)
Definition CSR_to_string (m : CSR T) : res string :=
  for_range 0 (csr_rows m) (fun i w =>
    let* start := pget (csr_rowptr m) i in
    let* end_ := pget (csr_rowptr m) (i + 1) in
    for_range start end_ (fun jj w =>
      let* c := vget (csr_colidx m) jj in
      let* v := vget (csr_values m) jj in
      (* writeln! *)
      Ok (w ++ fmt_entry (decn i) (dec c) (show v) ++ nl)%string) w) EmptyString.

(** csc.rs:535-551 [CSC::to_string] *)
Definition CSC_to_string (m : CSC T) : res string :=
  for_range 0 (csc_cols m) (fun j buf =>
    let* start := pget (csc_colptr m) j in
    let* end_ := pget (csc_colptr m) (j + 1) in
    for_range start end_ (fun ii buf =>
      let* i := pget (csc_rowidx m) ii in
      let* v := vget (csc_values m) ii in
      Ok (push_line buf (fmt_entry (decn i) (decn j) (show v)))) buf) EmptyString.

(** dok.rs:127-136 [DoK::to_string]; [order] is the iteration order of the map *)
Definition DoK_to_string (order : list ((Z * Z) * T)) : res string :=
  for_each order (fun '((i, j), v) buf => Ok (push_line buf (fmt_entry (dec i) (dec j) (show v)))) EmptyString.

(** table.rs:44-47: a [HashMap<usize, usize>]; a later insertion under the same key replaces the earlier one *)
Fixpoint cols_get (m : list (nat * nat)) (k : nat) : option nat :=
  match m with
  | [] => None
  | (k', v) :: m' => if k' =? k then Some v else cols_get m' k
  end.

(** table.rs:11-65 [csr_table].  Modelled: the bytes written to the [TabWriter], in order; [show] stands for
    [pretty_string] with the given configuration.  Not modelled: the alignment the [TabWriter] performs on them. *)
Definition csr_table_bytes (n_row n_col : nat) (a_p a_j : list Z) (a_x : list T) (label : bool) : res string :=
  let* tw := (if label then
    let* tw := for_range 0 n_col (fun c tw => Ok (tw ++ decn c ++ tab)%string) tab in
    Ok (tw ++ nl)%string
  else Ok EmptyString) in
  for_range 0 n_row (fun r tw =>
    let tw := if label then (tw ++ decn r ++ tab)%string else tw in
    let* start := pget a_p r in
    let* end_ := pget a_p (r + 1) in
    let* nz_cols := for_range start end_ (fun jj nz_cols =>
      let* c := pget a_j jj in
      Ok ((c, jj) :: nz_cols)) [] in
    for_range 0 n_col (fun c tw =>
      let* tw := (match cols_get nz_cols c with
                  | None => Ok (tw ++ "-")%string
                  | Some ii => let* v := vget a_x ii in Ok (tw ++ show v)%string
                  end) in
      let* last := usub n_col 1 in
      Ok (if (c =? last)%nat then tw ++ tab ++ nl else tw ++ tab)%string) tw) tw.

(** table.rs:11-65 with the [TabWriter]'s alignment as the function [align] of the bytes written *)
Variable align : string -> string.
Definition csr_table (n_row n_col : nat) (a_p a_j : list Z) (a_x : list T) (label : bool) : res string :=
  let* tw := csr_table_bytes n_row n_col a_p a_j a_x label in Ok (align tw).
(** csr.rs:475-490 [CSR::to_table]; simplification: [align] returns text, so [String::from_utf8] succeeds *)
Definition CSR_to_table (m : CSR T) : res string :=
  let* w := csr_table (csr_rows m) (csr_cols m) (csr_rowptr m) (csr_colidx m) (csr_values m) false in Ok (trim_nl w).
End Text.

(** traits.rs:105-126 [pretty_string] of complex numbers; [dtoa] and [signum() < 0.0] of the parts are arbitrary functions *)
Definition complex_pretty {F} (dtoa : F -> string) (negative : F -> bool) (re im : F) : string :=
  (dtoa re ++ (if negative im then "-" else "+") ++ "j" ++ dtoa im)%string.
