(** What the printed forms should be (C57, C63). *)
From Coq Require Import String Ascii.
From Verif Require Import Rust Model_matrix Model_text Spec.

(** characters 10 and 9 *)
Definition line_break : string := String (ascii_of_nat 10) EmptyString.
Definition tabulator : string := String (ascii_of_nat 9) EmptyString.
(** ["(i, j) v"] *)
Definition line {T} (show : T -> string) (e : nat * nat * T) : string :=
  ("(" ++ decn (fst (fst e)) ++ ", " ++ decn (snd (fst e)) ++ ") " ++ show (snd e))%string.
(** lines with a line break between them *)
Fixpoint lines (l : list string) : string :=
  match l with [] => EmptyString | [a] => a | a :: l' => (a ++ line_break ++ lines l')%string end.
(** strings one after the other *)
Definition cat (l : list string) : string := fold_right append EmptyString l.
(** lines, each ended by a line break *)
Definition ended (l : list string) : string := cat (map (fun a => a ++ line_break)%string l).
(** cells, each ended by a tab *)
Definition tabbed (l : list string) : string := cat (map (fun a => a ++ tabulator)%string l).
(** the cell of a table for the values stored at its position *)
Definition table_cell {T} (show : T -> string) (l : list T) : string :=
  match l with [] => "-"%string | v :: l' => show (last l' v) end.
(** a table of [r] rows and [c] columns; without columns nothing is written *)
Definition table_text (r c : nat) (f : nat -> nat -> string) : string :=
  if c =? 0 then EmptyString else ended (map (fun i => tabbed (map (f i) (seq 0 c))) (seq 0 r)).
(** the same with the column numbers above and the row numbers in front *)
Definition labelled_text (r c : nat) (f : nat -> nat -> string) : string :=
  (tabulator ++ tabbed (map decn (seq 0 c)) ++ line_break ++
   cat (map (fun i => decn i ++ tabulator ++ (if (c =? 0)%nat then EmptyString else tabbed (map (f i) (seq 0 c)) ++ line_break)) (seq 0 r)))%string.

(** no line break inside *)
Fixpoint one_line (s : string) : Prop :=
  match s with EmptyString => True | String c s' => c <> "010"%char /\ one_line s' end.

(** [t] is [s] without the line breaks at its end *)
Definition stripped (s t : string) : Prop :=
  (exists k, s = t ++ cat (repeat line_break k))%string /\ ~ (exists u, t = u ++ line_break)%string.
