(** Specification vocabulary for graphs: a square matrix read as a directed graph with an edge
    from i to j for every stored entry (i, j), whatever its value. *)
From Coq Require Export Relations.
From Verif Require Import Rust Scalar Model_kernels Model_matrix Spec.

Section Graphs.
Context {T : Type}.

(** the columns stored in row [i], in storage order: the nodes [i] points to *)
Definition next_nodes (m : CSR T) (i : nat) : list nat := map fst (csr_row m i).
(** the rows storing something in column [i], in increasing order: the nodes that point to [i] *)
Definition prev_nodes (m : CSR T) (i : nat) : list nat :=
  flat_map (fun j => map (fun _ => j) (csr_at m j i)) (seq 0 (csr_rows m)).
(** the neighbours of [i] in the order in which a search tries them *)
Definition neighbours (directed : bool) (m : CSR T) (i : nat) : list nat :=
  if directed then next_nodes m i else next_nodes m i ++ prev_nodes m i.

Definition edge (m : CSR T) (i j : nat) : Prop := i < csr_rows m /\ In j (next_nodes m i).
(** a path along the edges *)
Definition reaches (m : CSR T) : nat -> nat -> Prop := clos_refl_trans nat (edge m).
(** a path that may take edges in either direction *)
Definition joined (m : CSR T) : nat -> nat -> Prop := clos_refl_sym_trans nat (edge m).
(** an entry (i, j) for every entry (j, i) *)
Definition csr_symmetric (m : CSR T) : Prop := forall i j, edge m i j -> edge m j i.
End Graphs.

(** Depth-first search: [dfs nb s L P] if the nodes [L] can be visited in this order from [s], where each
    next node is the first unvisited neighbour of the most recently visited node that still has one;
    [P] pairs every visited node other than [s] with the node it was found from. *)
Inductive dfs (nb : nat -> list nat) (s : nat) : list nat -> list (nat * nat) -> Prop :=
| dfs_start : dfs nb s [s] []
| dfs_next before p after seen w rest P :
    dfs nb s (before ++ p :: after) P ->
    (forall q, In q after -> incl (nb q) (before ++ p :: after)) ->
    nb p = seen ++ w :: rest -> incl seen (before ++ p :: after) -> ~ In w (before ++ p :: after) ->
    dfs nb s ((before ++ p :: after) ++ [w]) (P ++ [(w, p)]).
