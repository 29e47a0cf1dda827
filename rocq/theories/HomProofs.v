(** A map of scalars passes through loops and vector operations. *)
From Verif Require Import Rust Scalar Model_kernels Model_matrix Model_dok Spec SpecMore SpecHom.

(** the map on a type, found from the type *)
Class Map (A B : Type) := hmap : A -> B.
#[export] Instance map_same A : Map A A | 0 := fun a => a.
#[export] Instance map_list A B {M : Map A B} : Map (list A) (list B) | 5 := map M.
#[export] Instance map_prod A A' B B' {M : Map A A'} {N : Map B B'} : Map (A * B) (A' * B') | 5 := fun p => (M (fst p), N (snd p)).
#[export] Instance map_option A B {M : Map A B} : Map (option A) (option B) | 5 := option_map M.
#[export] Instance map_ctl A A' B B' {M : Map A A'} {N : Map B B'} : Map (ctl A B) (ctl A' B') | 5 :=
  fun c => match c with Cont s => Cont (M s) | Stop r => Stop (N r) end.
#[export] Instance map_Coo A B {M : Map A B} : Map (Coo A) (Coo B) | 5 := coo_map M.
#[export] Instance map_CSR A B {M : Map A B} : Map (CSR A) (CSR B) | 5 := csr_map M.
#[export] Instance map_CSC A B {M : Map A B} : Map (CSC A) (CSC B) | 5 := csc_map M.
#[export] Instance map_DoK A B {M : Map A B} : Map (DoK A) (DoK B) | 5 := dok_map M.

Ltac hcbv := cbv beta iota zeta delta [hmap map_same map_list map_prod map_option map_ctl map_Coo map_CSR map_CSC map_DoK coo_map csr_map csc_map dok_map Coo_nnz DoK_nnz];
  cbn [fst snd coo_rows coo_cols coo_rowidx coo_colidx coo_values csr_rows csr_cols csr_rowptr csr_colidx csr_values csc_rows csc_cols csc_rowidx csc_colptr csc_values dok_rows dok_cols dok_values].

Lemma rmap_id {A} (m : res A) : m = rmap (fun a => a) m.
Proof. destruct m; reflexivity. Qed.
Lemma hom_bind {A A' B B'} {M : Map A A'} {N : Map B B'} (m : res A) (m' : res A') (k : A -> res B) (k' : A' -> res B') :
  m' = rmap M m -> (forall a, k' (M a) = rmap N (k a)) -> bind m' k' = rmap N (bind m k).
Proof. intros -> H. destruct m; cbn; auto. Qed.
Lemma hom_unwrap {A A'} {M : Map A A'} (m : res A) (m' : res A') : m' = rmap M m -> unwrap m' = rmap M (unwrap m).
Proof. intros ->. destruct m; reflexivity. Qed.
Lemma hom_for_n {A B} {M : Map A B} (f : nat -> A -> res A) (f' : nat -> B -> res B) : (forall i s, f' i (M s) = rmap M (f i s)) ->
  forall n i s, for_n n i f' (M s) = rmap M (for_n n i f s).
Proof. intros H. induction n as [|n IH]; intros i s; cbn [for_n]; [reflexivity|]. apply hom_bind; [apply H|]. intros a. apply IH. Qed.
Lemma hom_for {A B} {M : Map A B} lo lo' hi hi' (f : nat -> A -> res A) (f' : nat -> B -> res B) s s' : lo' = lo -> hi' = hi -> s' = M s -> (forall i s, f' i (M s) = rmap M (f i s)) ->
  for_range lo' hi' f' s' = rmap M (for_range lo hi f s).
Proof. intros -> -> -> H. apply hom_for_n, H. Qed.
Lemma hom_for_exit {A B R R'} {M : Map A B} {N : Map R R'} lo lo' hi hi' (f : nat -> A -> res (ctl A R)) (f' : nat -> B -> res (ctl B R')) s s' : lo' = lo -> hi' = hi -> s' = M s ->
  (forall i s, f' i (M s) = rmap (map_ctl A B R R') (f i s)) -> for_range_exit lo' hi' f' s' = rmap (map_ctl A B R R') (for_range_exit lo hi f s).
Proof.
  intros -> -> -> H. unfold for_range_exit. generalize (hi - lo) as n. intros n. revert lo s. induction n as [|n IH]; intros i s; cbn [for_n_exit]; [reflexivity|].
  rewrite H. destruct (f i s) as [[]| | |]; cbn; auto.
Qed.
Lemma hom_for_each {A B X Y} {M : Map A B} {N : Map X Y} (l : list X) l' (f : X -> A -> res A) (f' : Y -> B -> res B) s s' : l' = map N l -> s' = M s ->
  (forall x s, f' (N x) (M s) = rmap M (f x s)) -> for_each l' f' s' = rmap M (for_each l f s).
Proof. intros -> -> H. revert s. induction l as [|x l IH]; intros s; cbn [for_each map]; [reflexivity|]. apply hom_bind; [apply H|]. intros a. apply IH. Qed.
Lemma hom_for_enum {A B X Y} {M : Map A B} {N : Map X Y} k (l : list X) l' (f : nat -> X -> A -> res A) (f' : nat -> Y -> B -> res B) s s' : l' = map N l -> s' = M s ->
  (forall k x s, f' k (N x) (M s) = rmap M (f k x s)) -> for_enum k l' f' s' = rmap M (for_enum k l f s).
Proof. intros -> -> H. revert k s. induction l as [|x l IH]; intros k s; cbn [for_enum map]; [reflexivity|]. apply hom_bind; [apply H|]. intros a. apply IH. Qed.
Lemma hom_while {A B} {M : Map A B} n n' (c : A -> res bool) (c' : B -> res bool) (f : A -> res A) (f' : B -> res B) s s' : n' = n -> s' = M s ->
  (forall s, c' (M s) = rmap (fun b => b) (c s)) -> (forall s, f' (M s) = rmap M (f s)) -> while n' c' f' s' = rmap M (while n c f s).
Proof.
  intros -> -> Hc Hf. revert s. induction n as [|n IH]; intros s; cbn [while]; [reflexivity|]. apply hom_bind; [apply Hc|]. intros [|]; [|reflexivity]. apply hom_bind; [apply Hf|]. intros a. apply IH.
Qed.
Lemma hom_while_exit {A B} {M : Map A B} n n' (c : A -> res bool) (c' : B -> res bool) (f : A -> res (ctl A A)) (f' : B -> res (ctl B B)) s s' : n' = n -> s' = M s ->
  (forall s, c' (M s) = rmap (fun b => b) (c s)) -> (forall s, f' (M s) = rmap (map_ctl A B A B) (f s)) -> while_exit n' c' f' s' = rmap M (while_exit n c f s).
Proof.
  intros -> -> Hc Hf. revert s. induction n as [|n IH]; intros s; cbn [while_exit]; [reflexivity|]. apply hom_bind; [apply Hc|]. intros [|]; [|reflexivity].
  rewrite Hf. destruct (f s) as [[]| | |]; cbn; auto.
Qed.
Lemma hom_mapM {A A' B B'} {M : Map A A'} {N : Map B B'} (f : A -> res B) (f' : A' -> res B') l l' : l' = map M l -> (forall a, f' (M a) = rmap N (f a)) ->
  mapM f' l' = rmap (map N) (mapM f l).
Proof.
  intros -> H. induction l as [|a l IH]; cbn [mapM map]; [reflexivity|]. rewrite H, IH. destruct (f a); cbn; try reflexivity. destruct (mapM f l); reflexivity.
Qed.

(** vectors *)
Lemma map_rep {A B} (f : A -> B) a n : map f (repeat a n) = repeat (f a) n.
Proof. induction n as [|n IH]; cbn; [reflexivity|]. now rewrite IH. Qed.
Lemma hom_vget {A B} (f : A -> B) l l' i i' : l' = map f l -> i' = i -> vget l' i' = rmap f (vget l i).
Proof. intros -> ->. unfold vget. rewrite nth_error_map. destruct (nth_error l i); reflexivity. Qed.
Lemma map_upd {A B} (f : A -> B) l i a : map f (upd l i a) = upd (map f l) i (f a).
Proof. revert i. induction l as [|b l IH]; intros [|i]; cbn; try reflexivity. now rewrite IH. Qed.
Lemma hom_vset {A B} (f : A -> B) l l' i i' a a' : l' = map f l -> i' = i -> a' = f a -> vset l' i' a' = rmap (map f) (vset l i a).
Proof. intros -> -> ->. unfold vset. rewrite map_length. destruct (_ <? _); cbn; [|reflexivity]. now rewrite map_upd. Qed.
Lemma map_vfill {A B} (f : A -> B) l a : map f (vfill l a) = vfill (map f l) (f a).
Proof. unfold vfill. now rewrite map_rep, map_length. Qed.
Lemma map_vresize {A B} (f : A -> B) l n a : map f (vresize l n a) = vresize (map f l) n (f a).
Proof. unfold vresize. now rewrite map_app, map_rep, map_length, firstn_map. Qed.
Lemma hom_vslice {A B} (f : A -> B) l l' s e : l' = map f l -> vslice l' s e = rmap (map f) (vslice l s e).
Proof. intros ->. unfold vslice. rewrite map_length. destruct (_ && _); cbn; [|reflexivity]. now rewrite <- firstn_map, <- skipn_map. Qed.
Lemma map_single {A B} (f : A -> B) a : map f [a] = [f a].
Proof. reflexivity. Qed.
Lemma map_empty {A B} (f : A -> B) : map f [] = [].
Proof. reflexivity. Qed.
Lemma hom_if {A B} (f : A -> B) (b b' : bool) (x y : res A) (x' y' : res B) : b' = b -> x' = rmap f x -> y' = rmap f y -> (if b' then x' else y') = rmap f (if b then x else y).
Proof. intros -> -> ->. destruct b; reflexivity. Qed.
Lemma hom_opt {A B C D} (h : A -> B) (f : C -> D) (o : option A) o' (x : A -> res C) (y : res C) x' y' : o' = option_map h o -> (forall a, x' (h a) = rmap f (x a)) -> y' = rmap f y ->
  (match o' with Some a => x' a | None => y' end) = rmap f (match o with Some a => x a | None => y end).
Proof. intros -> H ->. destruct o; cbn; auto. Qed.
Lemma map_idd {A} (l : list A) : map (fun a => a) l = l.
Proof. apply map_id. Qed.
#[export] Hint Rewrite @map_app @map_rep @map_vfill @map_vresize @map_single @map_empty @map_idd : hom.
