(** Model of /repo/src/graph.rs. *)
From Verif Require Import Rust Scalar Model_kernels Model_matrix.

(** graph.rs:11-19 [Connection] *)
Inductive connection := Weak | Strong.

(** graph.rs:107-111 [Node] *)
Inductive node := NLabel (l : nat) | NVoid | NEnd.

(** graph.rs:106 derived [PartialEq] *)
Definition node_eqb (a b : node) : bool :=
  match a, b with
  | NLabel x, NLabel y => x =? y
  | NVoid, NVoid => true
  | NEnd, NEnd => true
  | _, _ => false
  end.

(** graph.rs:114-120 [Node::unwrap] *)
Definition node_unwrap (a : node) : res nat :=
  match a with NLabel l => Ok l | _ => Panic end.

(** graph.rs:123-137 [PartialOrd for Node]: End < Void < Label l *)
Definition node_cmp (a b : node) : comparison :=
  match a, b with
  | NLabel l1, NLabel l2 => Nat.compare l1 l2
  | NLabel _, NVoid => Gt
  | NLabel _, NEnd => Gt
  | NVoid, NLabel _ => Lt
  | NVoid, NVoid => Eq
  | NVoid, NEnd => Gt
  | NEnd, NLabel _ => Lt
  | NEnd, NVoid => Lt
  | NEnd, NEnd => Eq
  end.
(** [<] and [<=] derived from graph.rs:123-137 *)
Definition node_ltb (a b : node) : bool := match node_cmp a b with Lt => true | _ => false end.
Definition node_leb (a b : node) : bool := match node_cmp a b with Gt => false | _ => true end.

Section Graph.
Context {BD : Build}.
Variable I : ity.

(** graph.rs:186-207: push successor [w] onto the DFS stack, excising it first if it is
    already inside. State: (ss (= stack_f), stack_b, stack_head). *)
Definition scc_push (labels : list node) (w : nat) (st : list node * list node * node)
  : res (list node * list node * node) :=
  let '(ss, stack_b, stack_head) := st in
  let* lw := vget labels w in
  if node_eqb lw NVoid then
    let* f := vget ss w in
    let* '(ss, stack_b) :=
      if negb (node_eqb f NVoid) then
        let* b := vget stack_b w in
        let* ss := if negb (node_eqb b NEnd) then (let* ub := node_unwrap b in vset ss ub f)
                   else Ok ss in
        let* stack_b := if negb (node_eqb f NEnd) then (let* uf := node_unwrap f in vset stack_b uf b)
                        else Ok stack_b in
        Ok (ss, stack_b)
      else Ok (ss, stack_b) in
    let* ss := vset ss w stack_head in
    let* stack_b := vset stack_b w NEnd in
    let* uh := node_unwrap stack_head in
    let* stack_b := vset stack_b uh (NLabel w) in
    Ok (ss, stack_b, NLabel w)
  else Ok st.

(** graph.rs:246-258 [label -= 1] with -1 = Void *)
Definition label_pred (label : node) : res node :=
  match label with
  | NLabel l => if l =? 0 then Ok NVoid else Ok (NLabel (l - 1))
  | NVoid => Ok NEnd
  | NEnd => Panic
  end.

(** State of the strongly connected component search:
    (labels (= lowlinks), ss (= stack_f), stack_b, ss_head, stack_head, index, label) *)
Definition scc_state := (list node * list node * list node * node * node * nat * node)%type.

(** graph.rs:181-208: first visit of [v] *)
Definition scc_visit (indices indptr : list Z) (v : nat) (st : scc_state) : res scc_state :=
  let '(labels, ss, stack_b, ss_head, stack_head, index, label) := st in
  let* labels := vset labels v (NLabel index) in
  let index := index + 1 in
  let* start := pget indptr v in
  let* end_ := pget indptr (v + 1) in
  let* '(ss, stack_b, stack_head) := for_range start end_ (fun j st =>
    let* w := pget indices j in
    scc_push labels w st) (ss, stack_b, stack_head) in
  Ok (labels, ss, stack_b, ss_head, stack_head, index, label).

(** graph.rs:210-264: second visit of [v] (all successors done) *)
Definition scc_finish (n : nat) (indices indptr : list Z) (v : nat) (st : scc_state) : res scc_state :=
  let '(labels, ss, stack_b, ss_head, _, index, label) := st in
  let* stack_head := vget ss v in
  let* stack_b :=
    if negb (node_eqb stack_head NVoid) && negb (node_eqb stack_head NEnd) then
      let* uh := node_unwrap stack_head in vset stack_b uh NEnd
    else Ok stack_b in
  let* ss := vset ss v NVoid in
  let* stack_b := vset stack_b v NVoid in
  let* low_v := vget labels v in
  let* start := pget indptr v in
  let* end_ := pget indptr (v + 1) in
  let* '(root, low_v) := for_range start end_ (fun j '(root, low_v) =>
    let* w := pget indices j in
    let* low_w := vget labels w in
    if node_ltb low_w low_v then Ok (false, low_w) else Ok (root, low_v)) (true, low_v) in
  let* labels := vset labels v low_v in
  if root then
    let* index := usub index 1 in
    let* '(labels, ss, ss_head, index) := while (S n)
      (fun '(labels, ss, ss_head, index) =>
        if negb (node_eqb ss_head NEnd) then
          let* lv := vget labels v in
          let* uh := node_unwrap ss_head in
          let* lh := vget labels uh in
          Ok (node_leb lv lh)
        else Ok false)
      (fun '(labels, ss, ss_head, index) =>
        let* w := node_unwrap ss_head in
        let* ss_head := vget ss w in
        let* ss := vset ss w NVoid in
        let* labels := vset labels w label in
        let* index := usub index 1 in
        Ok (labels, ss, ss_head, index)) (labels, ss, ss_head, index) in
    let* labels := vset labels v label in
    let* label := label_pred label in
    Ok (labels, ss, stack_b, ss_head, stack_head, index, label)
  else
    let* ss := vset ss v ss_head in
    Ok (labels, ss, stack_b, NLabel v, stack_head, index, label).

(** graph.rs:152-279 [connected_components_directed]; the [while] at line 178 gets fuel
    2n^2+2n+1 per root.  On rows without repeated columns each node is visited once and finished once, so
    2n+1 rounds suffice (C36); on rows with repeats a node can be finished more often (see DESIGN.md, finding 8),
    and the larger fuel leaves room for that *)
Definition connected_components_directed (n : nat) (indices indptr : list Z)
  : res (nat * list nat) :=
  let labels := repeat NVoid n in
  let ss := repeat NVoid n in
  let stack_b := repeat NVoid n in
  let* n1 := usub n 1 in
  let* '(labels, _, _, _, _, _, label) := for_range 0 n
    (fun v '(labels, ss, stack_b, ss_head, stack_head, index, label) =>
      let* lv := vget labels v in
      if node_eqb lv NVoid then
        let* ss := vset ss v NEnd in
        let* stack_b := vset stack_b v NEnd in
        while (2 * n * n + 2 * n + 1)
          (fun '(_, _, _, _, stack_head, _, _) => Ok (negb (node_eqb stack_head NEnd)))
          (fun '(labels, ss, stack_b, ss_head, stack_head, index, label) =>
            let* v := node_unwrap stack_head in
            let* lv := vget labels v in
            if node_eqb lv NVoid then
              scc_visit indices indptr v (labels, ss, stack_b, ss_head, stack_head, index, label)
            else
              scc_finish n indices indptr v (labels, ss, stack_b, ss_head, stack_head, index, label))
          (labels, ss, stack_b, ss_head, NLabel v, index, label)
      else Ok (labels, ss, stack_b, ss_head, stack_head, index, label))
    (labels, ss, stack_b, NEnd, NEnd, 0, NLabel n1) in
  let* cnt := match label with NLabel l => usub n1 l | _ => Ok n end in
  let* out := mapM (fun l => let* ul := node_unwrap l in usub n1 ul) labels in
  Ok (cnt, out).

(** graph.rs:315-321 and 322-328: push the unseen neighbours of one row *)
Definition cc_push_row (indices indptr : list Z) (v : nat) (st : list node * node)
  : res (list node * node) :=
  let* start := pget indptr v in
  let* end_ := pget indptr (v + 1) in
  for_range start end_ (fun j '(labels, ss_head) =>
    let* w := pget indices j in
    let* lw := vget labels w in
    if node_eqb lw NVoid then
      let* labels := vset labels w ss_head in
      Ok (labels, NLabel w)
    else Ok (labels, ss_head)) st.

(** graph.rs:289-335 [connected_components_undirected]; the [while] gets fuel n+1 per root *)
Definition connected_components_undirected (n : nat) (indices1 indptr1 indices2 indptr2 : list Z)
  : res (nat * list nat) :=
  let labels := repeat NVoid n in
  let* '(labels, label) := for_range 0 n (fun v '(labels, label) =>
    let* lv := vget labels v in
    if node_eqb lv NVoid then
      let* labels := vset labels v NEnd in
      let* '(labels, _) := while (S n)
        (fun '(_, ss_head) => Ok (negb (node_eqb ss_head NEnd)))
        (fun '(labels, ss_head) =>
          let* v := node_unwrap ss_head in
          let* ss_head := vget labels v in
          let* labels := vset labels v (NLabel label) in
          let* st := cc_push_row indices1 indptr1 v (labels, ss_head) in
          cc_push_row indices2 indptr2 v st) (labels, NLabel v) in
      Ok (labels, label + 1)
    else Ok (labels, label)) (labels, 0) in
  let* out := mapM node_unwrap labels in
  Ok (label, out).

(** graph.rs:340-412 [cs_graph_components].  [F] is the signed type of [flag]; the [while] at
    line 364 gets fuel n+1.  What is left in [flag] after an error is not modelled. *)
Definition cs_graph_components (F : ity) (n_nod : nat) (a_p a_j flag : list Z)
  : res (Z * list Z) :=
  let pos := repeat 1%Z n_nod in
  let* m1 := icheck F (-1) in
  let* m2 := icheck F (-2) in
  let* '(flag, n_stop) := for_range 0 n_nod (fun ir '(flag, n_stop) =>
    let* flag := vset flag ir m1 in
    let* p1 := vget a_p (ir + 1) in
    let* p0 := vget a_p ir in
    if (p1 =? p0)%Z then
      let* n_stop := usub n_stop 1 in
      let* flag := vset flag ir m2 in
      Ok (flag, n_stop)
    else Ok (flag, n_stop)) (flag, n_nod) in
  let* c := for_range_exit 0 n_nod (fun icomp '(flag, pos, n_comp, n_tot) =>
    (* Find seed. *)
    let* ii := while (S n_nod)
      (fun ii => let* f := vget flag ii in Ok ((0 <=? f)%Z || (f =? m2)%Z))
      (fun ii => let ii := ii + 1 in if n_nod <=? ii then Err ECorrupt else Ok ii) 0 in
    let* zc := ifrom F icomp in
    let* flag := vset flag ii zc in
    let* zii := ifrom I ii in
    let* pos := vset pos 0 zii in
    let* c := for_range_exit 0 n_nod (fun _ '(flag, pos, n_pos0, n_pos, n_pos_new) =>
      let* '(flag, pos, n_pos_new, n_new) := for_range n_pos0 n_pos
        (fun ir '(flag, pos, n_pos_new, n_new) =>
          let* pos_ir := pget pos ir in
          let* start := pget a_p pos_ir in
          let* end_ := pget a_p (pos_ir + 1) in
          for_range start end_ (fun ic '(flag, pos, n_pos_new, n_new) =>
            let* aj_ic := pget a_j ic in
            let* f := vget flag aj_ic in
            if (f =? m1)%Z then
              let* zc := ifrom F icomp in
              let* flag := vset flag aj_ic zc in
              let* j := vget a_j ic in
              let* pos := vset pos n_pos_new j in
              Ok (flag, pos, n_pos_new + 1, n_new + 1)
            else Ok (flag, pos, n_pos_new, n_new)) (flag, pos, n_pos_new, n_new))
        (flag, pos, n_pos_new, 0) in
      let n_pos0 := n_pos in
      let n_pos := n_pos_new in
      if n_new =? 0 then Ok (Stop (flag, pos, n_pos0, n_pos, n_pos_new))
      else Ok (Cont (flag, pos, n_pos0, n_pos, n_pos_new))) (flag, pos, 0, 1, 1) in
    let '(flag, pos, _, n_pos, _) := ctl_state c in
    let n_tot := n_tot + n_pos in
    if n_tot =? n_stop then
      let* n_comp := ifrom I (icomp + 1) in
      Ok (Stop (flag, pos, n_comp, n_tot))
    else Ok (Cont (flag, pos, n_comp, n_tot))) (flag, pos, 0%Z, 0) in
  let '(flag, _, n_comp, _) := ctl_state c in
  Ok (n_comp, flag).

(** graph.rs:510-524, 563-577 and 580-594: scan a row for the first unvisited child.
    State: (i_root, i_nl_end, root_list, node_list, predecessors, flag); returns also [no_children]. *)
Definition dfs_state := (Z * nat * list nat * list nat * list (option nat) * list bool)%type.
Definition dfs_scan (indices indptr : list Z) (pnode : nat) (st : dfs_state)
  : res (dfs_state * bool) :=
  let* start := pget indptr pnode in
  let* end_ := pget indptr (pnode + 1) in
  let* c := for_range_exit start end_
    (fun i (s : dfs_state) =>
      let '(i_root, i_nl_end, root_list, node_list, predecessors, flag) := s in
      let* cnode := pget indices i in
      let* f := vget flag cnode in
      if f then Ok (Cont s) else
      let i_root := (i_root + 1)%Z in
      let* ur := to_usize i_root in
      let* root_list := vset root_list ur cnode in
      let* node_list := vset node_list i_nl_end cnode in
      let* predecessors := vset predecessors cnode (Some pnode) in
      let* flag := vset flag cnode true in
      let i_nl_end := i_nl_end + 1 in
      Ok (Stop (i_root, i_nl_end, root_list, node_list, predecessors, flag))) st in
  match c with
  | Cont st => Ok (st, true)
  | Stop st => Ok (st, false)
  end.

(** graph.rs:495-505 / 547-557: initial state *)
Definition dfs_init (head_node : nat) (node_list : list nat) (predecessors : list (option nat))
  : res dfs_state :=
  let n := length node_list in
  let root_list := repeat 0 n in
  let flag := repeat false n in
  let* node_list := vset node_list 0 head_node in
  let* root_list := vset root_list 0 head_node in
  let* flag := vset flag head_node true in
  Ok (0%Z, 1, root_list, node_list, predecessors, flag).

(** graph.rs:487-535 [depth_first_directed]; fuel 2n+1 (each iteration pushes or pops a node) *)
Definition depth_first_directed (head_node : nat) (indices indptr : list Z)
  (node_list : list nat) (predecessors : list (option nat))
  : res (nat * list nat * list (option nat)) :=
  let n := length node_list in
  let* st := dfs_init head_node node_list predecessors in
  let* '(_, i_nl_end, _, node_list, predecessors, _) := while_exit (2 * n + 1)
    (fun (s : dfs_state) => let '(i_root, _, _, _, _, _) := s in Ok (0 <=? i_root)%Z)
    (fun (s : dfs_state) =>
      let '(i_root, i_nl_end, root_list, node_list, predecessors, flag) := s in
      let* pnode := vget root_list (Z.to_nat i_root) in
      let* '(st, no_children) :=
        dfs_scan indices indptr pnode s in
      let '(i_root, i_nl_end, root_list, node_list, predecessors, flag) := st in
      if i_nl_end =? n then Ok (Stop st) else
      if no_children then
        Ok (Cont ((i_root - 1)%Z, i_nl_end, root_list, node_list, predecessors, flag))
      else Ok (Cont st)) st in
  Ok (i_nl_end, node_list, predecessors).

(** graph.rs:537-606 [depth_first_undirected] *)
Definition depth_first_undirected (head_node : nat) (indices1 indptr1 indices2 indptr2 : list Z)
  (node_list : list nat) (predecessors : list (option nat))
  : res (nat * list nat * list (option nat)) :=
  let n := length node_list in
  let* st := dfs_init head_node node_list predecessors in
  let* '(_, i_nl_end, _, node_list, predecessors, _) := while_exit (2 * n + 1)
    (fun (s : dfs_state) => let '(i_root, _, _, _, _, _) := s in Ok (0 <=? i_root)%Z)
    (fun (s : dfs_state) =>
      let '(i_root, i_nl_end, root_list, node_list, predecessors, flag) := s in
      let* pnode := vget root_list (Z.to_nat i_root) in
      let* '(st, no_children) :=
        dfs_scan indices1 indptr1 pnode s in
      let* '(st, no_children) :=
        if no_children then dfs_scan indices2 indptr2 pnode st else Ok (st, no_children) in
      let '(i_root, i_nl_end, root_list, node_list, predecessors, flag) := st in
      if i_nl_end =? n then Ok (Stop st) else
      if no_children then
        Ok (Cont ((i_root - 1)%Z, i_nl_end, root_list, node_list, predecessors, flag))
      else Ok (Cont st)) st in
  Ok (i_nl_end, node_list, predecessors).

Section Api.
Context {T : Type} {SC : Scalar T}.

(** graph.rs:608-613 [validate_graph] *)
Definition validate_graph (g : CSR T) : res unit :=
  if negb (csr_rows g =? csr_cols g) then Err ESquare else Ok tt.

(** graph.rs:60-88 [connected_components] *)
Definition connected_components (g : CSR T) (directed : bool) (conn : connection)
  : res (nat * list nat) :=
  let directed := match conn with Weak => false | Strong => directed end in
  let* _ := validate_graph g in
  let n := csr_cols g in
  if directed then connected_components_directed n (csr_colidx g) (csr_rowptr g)
  else
    let* gt := CSR_t g in
    let* csgraph_t := CSC_to_csr I gt in
    connected_components_undirected n (csr_colidx g) (csr_rowptr g)
      (csr_colidx csgraph_t) (csr_rowptr csgraph_t).

(** graph.rs:452-485 [depth_first_order] *)
Definition depth_first_order (g : CSR T) (i_start : nat) (directed : bool)
  : res (list nat * list (option nat)) :=
  let* _ := validate_graph g in
  let n := csr_cols g in
  let node_list := repeat 0 n in
  let predecessors := repeat None n in
  let* '(len, node_list, predecessors) :=
    if directed then
      depth_first_directed i_start (csr_colidx g) (csr_rowptr g) node_list predecessors
    else
      let* gt := CSR_t g in
      let* csgraph_t := CSC_to_csr I gt in
      depth_first_undirected i_start (csr_colidx g) (csr_rowptr g)
        (csr_colidx csgraph_t) (csr_rowptr csgraph_t) node_list predecessors in
  let* nodes := vslice node_list 0 len in
  Ok (nodes, predecessors).

(** csr.rs:435-447 [CSR::connected_components] *)
Definition CSR_connected_components (F : ity) (m : CSR T) : res (Z * list Z) :=
  if negb (csr_cols m =? csr_rows m) then Err ESquare else
  cs_graph_components F (csr_rows m) (csr_rowptr m) (csr_colidx m) (repeat 0%Z (csr_rows m)).
End Api.
End Graph.
