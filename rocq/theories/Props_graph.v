(** Graphs: undirected components (C35), strong components (C36), depth-first order (C37), component flags (C38). *)
From Verif Require Import Rust Scalar Model_kernels Model_matrix Model_graph Spec SpecGraph Wp Check Main_graph.

Section Props.
Context {T : Type} {SC : Scalar T}.
Variable I : ity.

(** C35: with Weak connection, or directed = false, a matrix that is not square is refused ... *)
Theorem C35_not_square : forall (g : CSR T) directed conn, csr_rows g <> csr_cols g -> connected_components I g directed conn = Err ESquare.
Proof. exact (c35_not_square I). Qed.
(** ... and every square one is labelled: two nodes share a label exactly if a path of stored entries, taken
    in either direction, joins them; the labels are 0..k-1, each used, numbered by smallest node. *)
Theorem C35_weak_components : forall (g : CSR T) directed conn, wf_csr I g -> csr_rows_fit I g -> csr_rows g = csr_cols g ->
  conn = Weak \/ directed = false ->
  exists k labels, connected_components I g directed conn = Ok (k, labels) /\ length labels = csr_rows g /\
    (forall x y, x < csr_rows g -> y < csr_rows g -> (nth x labels 0 = nth y labels 0 <-> joined g x y)) /\
    (forall x, x < csr_rows g -> nth x labels 0 < k) /\
    (forall c, c < k -> exists i, i < csr_rows g /\ nth i labels 0 = c /\ forall j, j < i -> nth j labels 0 < c).
Proof. exact (c35_weak_components I). Qed.

(** C36: strongly connected components of a non-empty square matrix without repeated positions: two nodes share a
    label exactly if each reaches the other along stored entries; the labels are 0..k-1, each used. *)
Theorem C36_strong_components : forall g : CSR T, wf_csr I g -> csr_nodup g -> csr_rows g = csr_cols g -> 0 < csr_rows g ->
  exists k labels, connected_components I g true Strong = Ok (k, labels) /\ length labels = csr_rows g /\
    (forall x y, x < csr_rows g -> y < csr_rows g -> (nth x labels 0 = nth y labels 0 <-> reaches g x y /\ reaches g y x)) /\
    (forall x, x < csr_rows g -> nth x labels 0 < k) /\
    (forall c, c < k -> exists i, i < csr_rows g /\ nth i labels 0 = c).
Proof. exact (c36_strong_components I). Qed.
(** the empty matrix is not labelled: the call panics ... *)
Theorem C36_empty_refuted : forall g : CSR T, csr_rows g = 0 -> csr_cols g = 0 -> connected_components I g true Strong = Panic.
Proof. exact (c36_empty_refuted I). Qed.

(** C37: the depth-first order from a node in range. *)
Theorem C37_depth_first_order : forall (g : CSR T) s directed, wf_csr I g -> csr_rows g = csr_cols g -> (directed = false -> csr_rows_fit I g) ->
  s < csr_rows g ->
  exists L pr P, depth_first_order I g s directed = Ok (L, pr) /\
    dfs (neighbours directed g) s L P /\ nth_error L 0 = Some s /\ NoDup L /\
    (forall x, In x L <-> if directed then reaches g s x else joined g s x) /\
    length pr = csr_rows g /\
    (forall u p, u < csr_rows g -> (nth u pr None = Some p <-> In (u, p) P)) /\
    (forall u, u < csr_rows g -> (nth u pr None = None <-> u = s \/ ~ In u L)).
Proof. exact (c37_depth_first_order I). Qed.
Theorem C37_not_square : forall (g : CSR T) s directed, csr_rows g <> csr_cols g -> depth_first_order I g s directed = Err ESquare.
Proof. exact (c37_not_square I). Qed.
(** a start node that does not exist is not reported as an error: the call panics. *)
Theorem C37_start_refuted : forall (g : CSR T) s directed, wf_csr I g -> csr_rows g = csr_cols g -> (directed = false -> csr_rows_fit I g) ->
  csr_rows g <= s -> depth_first_order I g s directed = Panic.
Proof. exact (c37_start_refuted I). Qed.

(** C38: CSR::connected_components. Rows without entries get -2. Every other node gets the number of the first seed
    that reaches it, where seed c is the smallest node with entries that no earlier seed reaches; the count is
    the number of seeds. *)
Theorem C38_flags : forall F (g : CSR T), wf_csr I g -> csr_rows_fit I g -> csr_rows g = csr_cols g ->
  (imin F <= -2)%Z -> (Z.of_nat (csr_rows g) <= imax F)%Z -> (exists i, i < csr_rows g /\ csr_row g i <> []) ->
  exists seeds flag, CSR_connected_components I F g = Ok (Z.of_nat (length seeds), flag) /\ length flag = csr_rows g /\
    (forall u, u < csr_rows g -> csr_row g u = [] -> nth u flag 0%Z = (-2)%Z) /\
    (forall u, u < csr_rows g -> csr_row g u <> [] -> exists c, c < length seeds /\ nth u flag 0%Z = Z.of_nat c /\
      reaches g (nth c seeds 0) u /\ forall c', c' < c -> ~ reaches g (nth c' seeds 0) u) /\
    (forall c, c < length seeds -> let s := nth c seeds 0 in s < csr_rows g /\ csr_row g s <> [] /\ nth s flag 0%Z = Z.of_nat c /\
      forall j, j < s -> csr_row g j <> [] -> (0 <= nth j flag 0 < Z.of_nat c)%Z).
Proof. exact (c38_flags I). Qed.
(** For a structurally symmetric matrix two nodes with entries share the number exactly if they are connected, and
    the count is the number of components. *)
Theorem C38_symmetric : forall F (g : CSR T), wf_csr I g -> csr_rows_fit I g -> csr_rows g = csr_cols g -> csr_symmetric g ->
  (imin F <= -2)%Z -> (Z.of_nat (csr_rows g) <= imax F)%Z -> (exists i, i < csr_rows g /\ csr_row g i <> []) ->
  exists k flag, CSR_connected_components I F g = Ok (Z.of_nat k, flag) /\ length flag = csr_rows g /\
    (forall u, u < csr_rows g -> csr_row g u = [] -> nth u flag 0%Z = (-2)%Z) /\
    (forall u, u < csr_rows g -> csr_row g u <> [] -> (0 <= nth u flag 0 < Z.of_nat k)%Z) /\
    (forall u v, u < csr_rows g -> v < csr_rows g -> csr_row g u <> [] -> csr_row g v <> [] -> (nth u flag 0%Z = nth v flag 0%Z <-> joined g u v)) /\
    (forall c, c < k -> exists i, i < csr_rows g /\ csr_row g i <> [] /\ nth i flag 0%Z = Z.of_nat c /\ forall j, j < i -> (nth j flag 0 < Z.of_nat c)%Z).
Proof. exact (c38_symmetric I). Qed.
Theorem C38_not_square : forall F (g : CSR T), csr_rows g <> csr_cols g -> CSR_connected_components I F g = Err ESquare.
Proof. exact (c38_not_square I). Qed.
Theorem C38_no_entries : forall F (g : CSR T), wf_csr I g -> csr_rows g = csr_cols g -> (imin F <= -2)%Z -> 0 < csr_rows g ->
  (forall i, i < csr_rows g -> csr_row g i = []) -> CSR_connected_components I F g = Err ECorrupt.
Proof. exact (c38_no_entries I). Qed.

(** C77: the labels of the strong components are a reverse topological order of the graph: no edge leads to a larger label ... *)
Theorem C77_edge : forall g : CSR T, wf_csr I g -> csr_nodup g -> csr_rows g = csr_cols g -> 0 < csr_rows g ->
  exists k labels, connected_components I g true Strong = Ok (k, labels) /\
    (forall x y, edge g x y -> nth y labels 0 <= nth x labels 0).
Proof. exact (c77_edge I). Qed.
(** ... so neither does any path, and a path that cannot be walked back leads to a smaller one. *)
Theorem C77_order : forall g : CSR T, wf_csr I g -> csr_nodup g -> csr_rows g = csr_cols g -> 0 < csr_rows g ->
  exists k labels, connected_components I g true Strong = Ok (k, labels) /\
    (forall x y, x < csr_rows g -> y < csr_rows g -> reaches g x y -> nth y labels 0 <= nth x labels 0 /\ (~ reaches g y x -> nth y labels 0 < nth x labels 0)).
Proof. exact (c77_order I). Qed.

(** C78: the weak labelling, numbers included, depends only on which pairs of nodes are linked, in either direction: not on values,
    repeated entries or their order ... *)
Theorem C78_weak_unique : forall (g h : CSR T) d1 c1 d2 c2, wf_csr I g -> csr_rows_fit I g -> csr_rows g = csr_cols g -> wf_csr I h -> csr_rows_fit I h -> csr_rows h = csr_cols h ->
  c1 = Weak \/ d1 = false -> c2 = Weak \/ d2 = false ->
  csr_rows g = csr_rows h -> (forall x y, edge g x y -> edge h x y \/ edge h y x) -> (forall x y, edge h x y -> edge g x y \/ edge g y x) ->
  connected_components I g d1 c1 = connected_components I h d2 c2.
Proof. exact (c78_weak_unique I). Qed.
(** ... so the transposed matrix gets the same labels. *)
Theorem C78_transposed_weak : forall (g : CSR T) d c d' c', wf_csr I g -> csr_rows_fit I g -> csr_rows g = csr_cols g -> c = Weak \/ d = false -> c' = Weak \/ d' = false ->
  exists gt r, CSR_t g = Ok gt /\ CSC_to_csr I gt = Ok r /\ connected_components I r d' c' = connected_components I g d c.
Proof. exact (c78_transposed_weak I). Qed.
(** The strong components of the transposed matrix are the same sets. *)
Theorem C78_transposed_strong : forall g : CSR T, wf_csr I g -> csr_rows_fit I g -> csr_nodup g -> csr_rows g = csr_cols g -> 0 < csr_rows g ->
  exists gt r k l k' l', CSR_t g = Ok gt /\ CSC_to_csr I gt = Ok r /\ connected_components I g true Strong = Ok (k, l) /\ connected_components I r true Strong = Ok (k', l') /\
    forall x y, x < csr_rows g -> y < csr_rows g -> (nth x l 0 = nth y l 0 <-> nth x l' 0 = nth y l' 0).
Proof. exact (c78_transposed_strong I). Qed.
(** Strong components lie inside weak ones, and coincide with them on a symmetric matrix. *)
Theorem C78_strong_refines_weak : forall g : CSR T, wf_csr I g -> csr_rows_fit I g -> csr_nodup g -> csr_rows g = csr_cols g -> 0 < csr_rows g ->
  exists ks ls kw lw, connected_components I g true Strong = Ok (ks, ls) /\ connected_components I g true Weak = Ok (kw, lw) /\ kw <= ks /\
    (forall x y, x < csr_rows g -> y < csr_rows g -> nth x ls 0 = nth y ls 0 -> nth x lw 0 = nth y lw 0) /\
    (csr_symmetric g -> ks = kw /\ forall x y, x < csr_rows g -> y < csr_rows g -> nth x lw 0 = nth y lw 0 -> nth x ls 0 = nth y ls 0).
Proof. exact (c78_strong_refines_weak I). Qed.
(** On a symmetric matrix CSR::connected_components groups the rows with entries as the free function does. *)
Theorem C78_flags_agree : forall F (g : CSR T), wf_csr I g -> csr_rows_fit I g -> csr_rows g = csr_cols g -> csr_symmetric g ->
  (imin F <= -2)%Z -> (Z.of_nat (csr_rows g) <= imax F)%Z -> (exists i, i < csr_rows g /\ csr_row g i <> []) ->
  exists k flag k' labels, CSR_connected_components I F g = Ok (Z.of_nat k, flag) /\ connected_components I g false Weak = Ok (k', labels) /\ k <= k' /\
    forall u v, u < csr_rows g -> v < csr_rows g -> csr_row g u <> [] -> csr_row g v <> [] -> (nth u flag 0%Z = nth v flag 0%Z <-> nth u labels 0 = nth v labels 0).
Proof. exact (c78_flags_agree I). Qed.

(** C79: an undirected search visits exactly the nodes with the label of its start ... *)
Theorem C79_undirected : forall (g : CSR T) s, wf_csr I g -> csr_rows_fit I g -> csr_rows g = csr_cols g -> s < csr_rows g ->
  exists L pr k labels, depth_first_order I g s false = Ok (L, pr) /\ connected_components I g false Weak = Ok (k, labels) /\
    forall x, In x L <-> x < csr_rows g /\ nth x labels 0 = nth s labels 0.
Proof. exact (c79_undirected I). Qed.
(** ... and two nodes are in one strong component exactly if the directed search from either visits the other. *)
Theorem C79_directed : forall (g : CSR T) s t, wf_csr I g -> csr_nodup g -> csr_rows g = csr_cols g -> s < csr_rows g -> t < csr_rows g ->
  exists L pr L' pr' k labels, depth_first_order I g s true = Ok (L, pr) /\ depth_first_order I g t true = Ok (L', pr') /\ connected_components I g true Strong = Ok (k, labels) /\
    (nth s labels 0 = nth t labels 0 <-> In t L /\ In s L').
Proof. exact (c79_directed I). Qed.
End Props.

(** A graph on seven nodes: 0 -> 2 -> 4 -> 0, 4 -> 1, 3 -> 5, with node 6 alone; unsorted rows, a self loop. *)
Definition ex_g : CSR Z := mkCSR 7 7 [0; 1; 2; 3; 4; 6; 6; 6]%Z [2; 1; 4; 5; 1; 0]%Z [1; 1; 1; 1; 1; 1]%Z.
Example ex_g_meets : wf_csr I32 ex_g /\ csr_rows_fit I32 ex_g /\ csr_rows ex_g = csr_cols ex_g.
Proof. sp; check. Qed.
Example C35_example : connected_components I32 ex_g true Weak = Ok (3, [0; 0; 0; 1; 0; 1; 2]) /\ connected_components I32 ex_g false Strong = Ok (3, [0; 0; 0; 1; 0; 1; 2]).
Proof. split; vm_compute; reflexivity. Qed.
(** ... and so does a well-formed matrix in which a row stores a column twice (the entry is pushed onto the stack it is on top of). *)
Theorem C36_duplicates_refuted : exists g : CSR Z, wf_csr I32 g /\ csr_rows g = csr_cols g /\ 0 < csr_rows g /\ connected_components I32 g true Strong = Panic.
Proof. exact c36_duplicates_refuted. Qed.
(** and another one for which a wrong answer is returned: nodes that reach one another have different labels, one of them
    not below the number of components returned *)
Theorem C36_duplicates_wrong_refuted : exists (g : CSR Z) k labels x y, wf_csr I32 g /\ csr_rows g = csr_cols g /\ connected_components I32 g true Strong = Ok (k, labels) /\
  x < csr_rows g /\ y < csr_rows g /\ reaches g x y /\ reaches g y x /\ nth x labels 0 <> nth y labels 0 /\ k < nth x labels 0.
Proof. exact c36_duplicates_wrong_refuted. Qed.
Example C36_example : csr_nodup ex_g /\ connected_components I32 ex_g true Strong = Ok (5, [1; 0; 1; 3; 1; 2; 4]).
Proof. split; [check|vm_compute; reflexivity]. Qed.
Example C35_not_square_example : connected_components I32 (mkCSR 1 2 [0; 0]%Z [] [] : CSR Z) false Weak = Err ESquare.
Proof. reflexivity. Qed.
Example C77_example : edge ex_g 4 1 /\ edge ex_g 3 5 /\ reaches ex_g 0 1 /\ nth 1 [1; 0; 1; 3; 1; 2; 4] 0 < nth 4 [1; 0; 1; 3; 1; 2; 4] 0 /\ nth 5 [1; 0; 1; 3; 1; 2; 4] 0 < nth 3 [1; 0; 1; 3; 1; 2; 4] 0.
Proof.
  split; [split; [cbn; lia|vm_compute; auto]|]. split; [split; [cbn; lia|vm_compute; auto]|]. split; [|cbn; lia].
  apply rt_trans with 2; [apply rt_step; split; [cbn; lia|vm_compute; auto]|]. apply rt_trans with 4; apply rt_step; (split; [cbn; lia|vm_compute; auto]).
Qed.
(** ex_g with every edge in both directions, other values and an entry twice: the same weak labels *)
Definition ex_gs : CSR Z := mkCSR 7 7 [0; 3; 5; 7; 8; 11; 12; 12]%Z [2; 4; 4; 1; 4; 4; 0; 5; 1; 0; 2; 3]%Z [5; 5; 5; 5; 5; 5; 5; 5; 5; 5; 5; 5]%Z.
Definition ex_gt : CSR Z := mkCSR 7 7 [0; 1; 3; 4; 4; 5; 6; 6]%Z [4; 1; 4; 0; 2; 3]%Z [1; 1; 1; 1; 1; 1]%Z.
Example C78_example : wf_csr I32 ex_gs /\ csr_rows_fit I32 ex_gs /\ (forall x y, edge ex_g x y -> edge ex_gs x y \/ edge ex_gs y x) /\
  connected_components I32 ex_g true Weak = Ok (3, [0; 0; 0; 1; 0; 1; 2]) /\ connected_components I32 ex_gs false Strong = Ok (3, [0; 0; 0; 1; 0; 1; 2]).
Proof.
  split; [check|]. split; [check|]. split; [|split; vm_compute; reflexivity]. intros x y [Hx Hy]. cbn in Hx.
  do 7 (destruct x as [|x]; [vm_compute in Hy; repeat destruct Hy as [<-|Hy]; try destruct Hy; left; (split; [cbn; lia|vm_compute; tauto])|]). lia.
Qed.
Example C78_transposed_example : (let* c := CSR_t ex_g in CSC_to_csr I32 c) = Ok ex_gt /\ connected_components I32 ex_gt true Weak = Ok (3, [0; 0; 0; 1; 0; 1; 2]) /\
  connected_components I32 ex_gt true Strong = Ok (5, [0; 1; 0; 2; 0; 3; 4]).
Proof. repeat split; vm_compute; reflexivity. Qed.
Example C37_example : depth_first_order I32 ex_g 2 true = Ok ([2; 4; 1; 0], [Some 4; Some 4; None; None; Some 2; None; None]) /\
  depth_first_order I32 ex_g 5 false = Ok ([5; 3], [None; None; None; Some 5; None; None; None]) /\ depth_first_order I32 ex_g 7 true = Panic.
Proof. repeat split; vm_compute; reflexivity. Qed.
(** directed flags: node 0's component contains 1, which does not reach back; nodes 5 and 6 have no entries *)
Example C38_example : CSR_connected_components I32 I32 ex_g = Ok (2%Z, [0; 0; 0; 1; 0; -2; -2]%Z) /\ exists i, i < csr_rows ex_g /\ csr_row ex_g i <> [].
Proof. split; [vm_compute; reflexivity|]. exists 0. split; [cbn; lia|discriminate]. Qed.
Definition ex_s : CSR Z := mkCSR 5 5 [0; 1; 2; 3; 4; 4]%Z [2; 3; 0; 1]%Z [1; 1; 1; 1]%Z.
Example C38_symmetric_example : wf_csr I32 ex_s /\ csr_rows_fit I32 ex_s /\ csr_symmetric ex_s /\ CSR_connected_components I32 I8 ex_s = Ok (2%Z, [0; 1; 0; 1; -2]%Z).
Proof.
  assert (X : csr_symmetric ex_s).
  { intros i j [Hi Hj]. cbn in Hi. do 5 (destruct i as [|i]; [vm_compute in Hj; repeat (destruct Hj as [<-|Hj]; [split; [cbn; lia|vm_compute; tauto]|]); destruct Hj|]). lia. }
  split; [check|]. split; [check|]. split; [exact X|vm_compute; reflexivity].
Qed.
Example C38_no_entries_example : CSR_connected_components I32 I32 (mkCSR 2 2 [0; 0; 0]%Z [] [] : CSR Z) = Err ECorrupt.
Proof. vm_compute. reflexivity. Qed.

Example C78_symmetric_example : csr_nodup ex_s /\ connected_components I32 ex_s true Strong = Ok (3, [0; 1; 0; 1; 2]) /\ connected_components I32 ex_s true Weak = Ok (3, [0; 1; 0; 1; 2]).
Proof. split; [check|]. split; vm_compute; reflexivity. Qed.

Print Assumptions C35_not_square.
Print Assumptions C35_weak_components.
Print Assumptions C36_strong_components.
Print Assumptions C36_empty_refuted.
Print Assumptions C37_depth_first_order.
Print Assumptions C37_not_square.
Print Assumptions C37_start_refuted.
Print Assumptions C38_flags.
Print Assumptions C38_symmetric.
Print Assumptions C38_not_square.
Print Assumptions C38_no_entries.
Print Assumptions C77_edge.
Print Assumptions C77_order.
Print Assumptions C78_weak_unique.
Print Assumptions C78_transposed_weak.
Print Assumptions C78_transposed_strong.
Print Assumptions C78_strong_refines_weak.
Print Assumptions C78_flags_agree.
Print Assumptions C79_undirected.
Print Assumptions C79_directed.
Print Assumptions C36_duplicates_refuted.
Print Assumptions C36_duplicates_wrong_refuted.
