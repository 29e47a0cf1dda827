(** Proofs of the theorems of Props_frame.v, under the same names in lower case. *)
From Verif Require Import Rust Scalar Model_kernels Model_graph Wp.

Lemma bind_inv {A B} (m : res A) (k : A -> res B) r : bind m k = Ok r -> exists v, m = Ok v /\ k v = Ok r.
Proof. destruct m; try discriminate. intros H. eexists. split; [reflexivity|exact H]. Qed.
Lemma vget_app {A} (l t : list A) i v : vget l i = Ok v -> vget (l ++ t) i = Ok v.
Proof. unfold vget. destruct (nth_error l i) eqn:E; [|discriminate]. intros H. rewrite nth_error_app1 by (apply nth_error_Some; congruence). rewrite E. exact H. Qed.
Lemma upd_app {A} (l t : list A) i a : i < length l -> upd (l ++ t) i a = upd l i a ++ t.
Proof. revert i. induction l as [|x l IH]; intros i Hi; [cbn in Hi; lia|]. destruct i; [reflexivity|]. cbn in *. rewrite IH by lia. reflexivity. Qed.
Lemma vset_app {A} (l t l' : list A) i a : vset l i a = Ok l' -> vset (l ++ t) i a = Ok (l' ++ t).
Proof. unfold vset. destruct (Nat.ltb_spec i (length l)); [|discriminate]. intros X. injection X as <-. rewrite app_length. destruct (Nat.ltb_spec i (length l + length t)); [|lia]. rewrite upd_app by assumption. reflexivity. Qed.
Lemma vslice_app {A} (l t l' : list A) s e : vslice l s e = Ok l' -> vslice (l ++ t) s e = Ok l'.
Proof.
  unfold vslice. destruct (Nat.leb_spec s e); [|discriminate]. destruct (Nat.leb_spec e (length l)); [|discriminate]. cbn [andb]. intros X. injection X as <-. rewrite app_length. destruct (Nat.leb_spec e (length l + length t)); [|lia]. cbn [andb]. rewrite skipn_app, firstn_app, skipn_length.
  replace (e - s - (length l - s)) with 0 by lia. cbn [firstn]. rewrite app_nil_r. reflexivity.
Qed.
Section Frame.
Context {T : Type} {SC : Scalar T}.
Variable I : ity.
Lemma pget_app l t i v : pget l i = Ok v -> pget (l ++ t) i = Ok v.
Proof. unfold pget. intros H. apply bind_inv in H. destruct H as (z & E & H). rewrite (vget_app _ _ _ _ E). exact H. Qed.
Lemma vinc_app l t i z l' : vinc I l i z = Ok l' -> vinc I (l ++ t) i z = Ok (l' ++ t).
Proof. unfold vinc. intros H. apply bind_inv in H. destruct H as (u & E & H). apply bind_inv in H. destruct H as (w & E2 & H). rewrite (vget_app _ _ _ _ E). cbn [bind]. rewrite E2. cbn [bind]. apply vset_app, H. Qed.
Lemma vaddto_app (l t : list T) i z l' : vaddto l i z = Ok l' -> vaddto (l ++ t) i z = Ok (l' ++ t).
Proof. unfold vaddto. intros H. apply bind_inv in H. destruct H as (u & E & H). rewrite (vget_app _ _ _ _ E). cbn [bind]. apply vset_app, H. Qed.
End Frame.
Lemma for_range_ext {S S'} (e : S -> S') lo hi f g s s' : (forall i u v, f i u = Ok v -> g i (e u) = Ok (e v)) -> for_range lo hi f s = Ok s' -> for_range lo hi g (e s) = Ok (e s').
Proof.
  intros H. unfold for_range. generalize (hi - lo) as n. intros n. revert lo s. induction n as [|n IH]; intros lo s E; cbn in *; [congruence|]. apply bind_inv in E. destruct E as (v & E1 & E2). rewrite (H _ _ _ E1). cbn [bind]. apply IH, E2.
Qed.
Lemma for_range_exit_ext {S R} lo hi (f g : nat -> S -> res (ctl S R)) s s' : (forall i u v, f i u = Ok v -> g i u = Ok v) -> for_range_exit lo hi f s = Ok s' -> for_range_exit lo hi g s = Ok s'.
Proof.
  intros H. unfold for_range_exit. generalize (hi - lo) as n. intros n. revert lo s. induction n as [|n IH]; intros lo s E; cbn in *; [congruence|]. apply bind_inv in E. destruct E as (v & E1 & E2). rewrite (H _ _ _ E1). cbn [bind]. destruct v; [apply IH, E2|exact E2].
Qed.
Lemma while_ext {S S'} (e : S -> S') n c f c' g s s' : (forall u v, c u = Ok v -> c' (e u) = Ok v) -> (forall u v, f u = Ok v -> g (e u) = Ok (e v)) -> while n c f s = Ok s' -> while n c' g (e s) = Ok (e s').
Proof.
  intros Hc H. revert s. induction n as [|n IH]; intros s E; cbn in *; [discriminate|]. apply bind_inv in E. destruct E as (b & E1 & E2). rewrite (Hc _ _ E1). cbn [bind]. destruct b; [|congruence]. apply bind_inv in E2. destruct E2 as (v & E3 & E4). rewrite (H _ _ E3). cbn [bind]. apply IH, E4.
Qed.

Lemma for_each_ext {S A} (l : list A) (f g : A -> S -> res S) s s' : (forall i u v, f i u = Ok v -> g i u = Ok v) -> for_each l f s = Ok s' -> for_each l g s = Ok s'.
Proof. intros H. revert s. induction l as [|x l IH]; intros s E; cbn in *; [exact E|]. apply bind_inv in E. destruct E as (v & E1 & E2). rewrite (H _ _ _ E1). cbn [bind]. apply IH, E2. Qed.
Lemma for_enum_ext {S A} k (l : list A) (f g : nat -> A -> S -> res S) s s' : (forall k i u v, f k i u = Ok v -> g k i u = Ok v) -> for_enum k l f s = Ok s' -> for_enum k l g s = Ok s'.
Proof. intros H. revert k s. induction l as [|x l IH]; intros k s E; cbn in *; [exact E|]. apply bind_inv in E. destruct E as (v & E1 & E2). rewrite (H _ _ _ _ E1). cbn [bind]. apply IH, E2. Qed.

Ltac fr1 :=
  match goal with
  | H : Ok _ = Ok _ |- _ => injection H; clear H; intros; subst
  | H : bind _ _ = Ok _ |- _ => apply bind_inv in H; let v := fresh "v" in let E := fresh "E" in destruct H as (v & E & H); cbv beta in H; repeat match goal with w : (_ * _)%type |- _ => let v1 := fresh "v" in let v2 := fresh "v" in destruct w as [v1 v2] end; cbv iota in H
  | E : vget ?l ?i = Ok ?v |- context [vget (?l ++ ?t) ?i] => rewrite (vget_app l t i v E); cbn [bind]
  | E : pget ?l ?i = Ok ?v |- context [pget (?l ++ ?t) ?i] => rewrite (pget_app l t i v E); cbn [bind]
  | E : vset ?l ?i ?a = Ok ?v |- context [vset (?l ++ ?t) ?i ?a] => rewrite (vset_app l t v i a E); cbn [bind]
  | E : vslice ?l ?s ?e = Ok ?v |- context [vslice (?l ++ ?t) ?s ?e] => rewrite (vslice_app l t v s e E); cbn [bind]
  | E : vinc ?I ?l ?i ?a = Ok ?v |- context [vinc ?I (?l ++ ?t) ?i ?a] => rewrite (vinc_app I l t i a v E); cbn [bind]
  | E : vaddto ?l ?i ?a = Ok ?v |- context [vaddto (?l ++ ?t) ?i ?a] => rewrite (vaddto_app l t i a v E); cbn [bind]
  | E : ?m = Ok ?v |- context [bind ?m _] => rewrite E; cbn [bind]
  | H : (if ?b then _ else _) = Ok _ |- context [if ?b then _ else _] => destruct b eqn:?
  | |- Ok _ = Ok _ => reflexivity
  end.
Ltac fr := repeat fr1; try assumption; try reflexivity.
(** a loop whose state is extended by [e] *)
Ltac lp e :=
  match goal with
  | E : for_range ?lo ?hi ?f ?s = Ok ?s' |- context [for_range ?lo ?hi ?g ?t] =>
      let X := fresh "X" in assert (X : for_range lo hi g t = Ok (e s')); [change t with (e s); apply (for_range_ext e lo hi f g s s'); [clear E; cbv beta|exact E]|rewrite X; clear E X; cbv beta iota; cbn [bind]; fr]
  end.
Ltac body := let i := fresh "i" in let u := fresh "u" in let v := fresh "v" in let H := fresh "H" in intros i u v H;
  repeat match goal with w : (_ * _)%type |- _ => let v1 := fresh "v" in let v2 := fresh "v" in destruct w as [v1 v2] end; cbv iota in *; fr.

Ltac wl e :=
  match goal with
  | E : while ?n ?c ?f ?s = Ok ?s' |- context [while ?n ?c' ?g ?t] =>
      let X := fresh "X" in assert (X : while n c' g t = Ok (e s')); [change t with (e s); apply (while_ext e n c f c' g s s'); [clear E; cbv beta|clear E; cbv beta|exact E]|rewrite X; clear E X; cbv beta iota; cbn [bind]; fr]
  end.
Ltac wbody := let u := fresh "u" in let v := fresh "v" in let H := fresh "H" in intros u v H;
  repeat match goal with w : (_ * _)%type |- _ => let v1 := fresh "v" in let v2 := fresh "v" in destruct w as [v1 v2] end; cbv iota in *; fr.

Section Props.
Context {T : Type} {SC : Scalar T}.
Variable I : ity.
Lemma c80_csr_matvec : forall n c p j (a x y : list T) y' tp tj ta tx ty, csr_matvec n c p j a x y = Ok y' ->
  csr_matvec n c (p ++ tp) (j ++ tj) (a ++ ta) (x ++ tx) (y ++ ty) = Ok (y' ++ ty).
Proof.
  intros * E. unfold csr_matvec in *. lp (fun y : list T => y ++ ty). body. lp (fun s : T => s). { body. } all: fr.
Qed.

Lemma axpy_app k v (x : list T) xo (y : list T) yo y' tx ty : axpy k v x xo y yo = Ok y' -> axpy k v (x ++ tx) xo (y ++ ty) yo = Ok (y' ++ ty).
Proof. intros E. unfold axpy in *. lp (fun y : list T => y ++ ty). body. Qed.
Lemma short_app (x t : list T) k : (length x <? k) = false -> (length (x ++ t) <? k) = false.
Proof. rewrite app_length, !Nat.ltb_ge. lia. Qed.
Lemma c80_csr_matvecs : forall n c w p j (a x y : list T) y' tp tj ta tx ty, csr_matvecs n c w p j a x y = Ok y' ->
  csr_matvecs n c w (p ++ tp) (j ++ tj) (a ++ ta) (x ++ tx) (y ++ ty) = Ok (y' ++ ty).
Proof.
  intros * E. unfold csr_matvecs in *. lp (fun y : list T => y ++ ty). body. destruct (length u <? w * i) eqn:B; [discriminate|]. rewrite (short_app _ _ _ B). fr.
  lp (fun y : list T => y ++ ty). body. destruct (length x <? _) eqn:B2; [discriminate|]. rewrite (short_app _ _ _ B2). apply axpy_app. assumption.
Qed.
Lemma c80_csc_matvec : forall n c p j (a x y : list T) y' tp tj ta tx ty, csc_matvec n c p j a x y = Ok y' ->
  csc_matvec n c (p ++ tp) (j ++ tj) (a ++ ta) (x ++ tx) (y ++ ty) = Ok (y' ++ ty).
Proof.
  intros * E. unfold csc_matvec in *. lp (fun y : list T => y ++ ty). body. lp (fun y : list T => y ++ ty). body.
Qed.
Lemma c80_csc_matvecs : forall n c w p j (a x y : list T) y' tp tj ta tx ty, csc_matvecs n c w p j a x y = Ok y' ->
  csc_matvecs n c w (p ++ tp) (j ++ tj) (a ++ ta) (x ++ tx) (y ++ ty) = Ok (y' ++ ty).
Proof.
  intros * E. unfold csc_matvecs in *. lp (fun y : list T => y ++ ty). body. lp (fun y : list T => y ++ ty). body.
  destruct (length x <? w * i) eqn:B; [discriminate|]. rewrite (short_app _ _ _ B). destruct (length u0 <? _) eqn:B2; [discriminate|]. rewrite (short_app _ _ _ B2). apply axpy_app. assumption.
Qed.
Lemma c80_coo_matvec : forall nnz i j (a x y : list T) y' ti tj ta tx ty, coo_matvec nnz i j a x y = Ok y' ->
  coo_matvec nnz (i ++ ti) (j ++ tj) (a ++ ta) (x ++ tx) (y ++ ty) = Ok (y' ++ ty).
Proof. intros * E. unfold coo_matvec in *. lp (fun y : list T => y ++ ty). body. Qed.
Lemma c80_coo_todense : forall n c nnz i j (a b : list T) f b' ti tj ta tb, coo_todense n c nnz i j a b f = Ok b' ->
  coo_todense n c nnz (i ++ ti) (j ++ tj) (a ++ ta) (b ++ tb) f = Ok (b' ++ tb).
Proof. intros * E. unfold coo_todense in *. destruct f; cbn [negb] in *; lp (fun y : list T => y ++ tb); body. Qed.
Lemma c80_csr_todense : forall n c p j (a : list T) d d' tp tj ta td, csr_todense n c p j a d = Ok d' ->
  csr_todense n c (p ++ tp) (j ++ tj) (a ++ ta) (d ++ td) = Ok (d' ++ td).
Proof. intros * E. unfold csr_todense in *. lp (fun y : list (list T) => y ++ td). body. lp (fun y : list (list T) => y ++ td). body. Qed.
Lemma c80_csr_diagonal : forall k n c p j (a y : list T) y' tp tj ta ty, csr_diagonal k n c p j a y = Ok y' ->
  csr_diagonal k n c (p ++ tp) (j ++ tj) (a ++ ta) (y ++ ty) = Ok (y' ++ ty).
Proof.
  intros * E. unfold csr_diagonal in *. fr. lp (fun y : list T => y ++ ty). body. lp (fun s : T => s). { body. } all: fr.
Qed.
Lemma c80_csc_diagonal : forall k n c p j (a y : list T) y' tp tj ta ty, csc_diagonal k n c p j a y = Ok y' ->
  csc_diagonal k n c (p ++ tp) (j ++ tj) (a ++ ta) (y ++ ty) = Ok (y' ++ ty).
Proof. intros * E. unfold csc_diagonal in *. apply c80_csr_diagonal, E. Qed.
Lemma c80_expandptr : forall n p b b' tp tb, expandptr I n p b = Ok b' -> expandptr I n (p ++ tp) (b ++ tb) = Ok (b' ++ tb).
Proof. intros * E. unfold expandptr in *. lp (fun y : list Z => y ++ tb). body. lp (fun y : list Z => y ++ tb). body. Qed.
Lemma c80_csr_scale_rows : forall n c p j (a x a' : list T) tp tj ta tx, csr_scale_rows n c p j a x = Ok a' ->
  csr_scale_rows n c (p ++ tp) (j ++ tj) (a ++ ta) (x ++ tx) = Ok (a' ++ ta).
Proof. intros * E. unfold csr_scale_rows in *. lp (fun y : list T => y ++ ta). body. lp (fun y : list T => y ++ ta). body. Qed.
Lemma c80_csr_scale_columns : forall n c p j (a x a' : list T) tp tj ta tx, csr_scale_columns n c p j a x = Ok a' ->
  csr_scale_columns n c (p ++ tp) (j ++ tj) (a ++ ta) (x ++ tx) = Ok (a' ++ ta).
Proof. intros * E. unfold csr_scale_columns in *. fr. lp (fun y : list T => y ++ ta). body. Qed.
Lemma c80_csr_tocoo : forall n c p j (a : list T) bi bj bx bi' bj' bx' tp tj ta ti tk tx, csr_tocoo I n c p j a bi bj bx = Ok (bi', bj', bx') ->
  csr_tocoo I n c (p ++ tp) (j ++ tj) (a ++ ta) (bi ++ ti) (bj ++ tk) (bx ++ tx) = Ok (bi' ++ ti, bj' ++ tk, bx' ++ tx).
Proof.
  intros * E. unfold csr_tocoo in *. fr. lp (fun '(i, j, x, k) => (i ++ ti, j ++ tk, x ++ tx, k) : list Z * list Z * list T * nat). body.
  lp (fun '(i, j, x, k) => (i ++ ti, j ++ tk, x ++ tx, k) : list Z * list Z * list T * nat). body.
Qed.
Lemma c80_coo_tocsr : forall n c nnz i j (a : list T) bp bj bx bp' bj' bx' ti tj ta tk tx, coo_tocsr I n c nnz i j a bp bj bx = Ok (bp', bj', bx') ->
  coo_tocsr I n c nnz (i ++ ti) (j ++ tj) (a ++ ta) bp (bj ++ tk) (bx ++ tx) = Ok (bp', bj' ++ tk, bx' ++ tx).
Proof.
  intros * E. unfold coo_tocsr in *. fr. lp (fun y : list Z => y). { body. } all: fr. lp (fun '(b, j, x) => (b, j ++ tk, x ++ tx) : list Z * list Z * list T). { body. } all: fr.
Qed.
Lemma c80_csr_tocsc : forall n c p j (a : list T) bp bj bx bp' bj' bx' tp tj ta tk tx, csr_tocsc I n c p j a bp bj bx = Ok (bp', bj', bx') ->
  csr_tocsc I n c (p ++ tp) (j ++ tj) (a ++ ta) bp (bj ++ tk) (bx ++ tx) = Ok (bp', bj' ++ tk, bx' ++ tx).
Proof.
  intros * E. unfold csr_tocsc in *. fr. lp (fun y : list Z => y). { body. } all: fr. lp (fun '(b, j, x) => (b, j ++ tk, x ++ tx) : list Z * list Z * list T).
  { body. lp (fun '(b, j, x) => (b, j ++ tk, x ++ tx) : list Z * list Z * list T). body. } all: fr.
Qed.
Lemma c80_csc_tocsr : forall n c p j (a : list T) bp bj bx bp' bj' bx' tp tj ta tk tx, csc_tocsr I n c p j a bp bj bx = Ok (bp', bj', bx') ->
  csc_tocsr I n c (p ++ tp) (j ++ tj) (a ++ ta) bp (bj ++ tk) (bx ++ tx) = Ok (bp', bj' ++ tk, bx' ++ tx).
Proof. intros * E. unfold csc_tocsr in *. apply c80_csr_tocsc, E. Qed.
Lemma c80_csr_sort_indices : forall n p j (a : list T) j' a' tp tj ta, csr_sort_indices n p j a = Ok (j', a') ->
  csr_sort_indices n (p ++ tp) (j ++ tj) (a ++ ta) = Ok (j' ++ tj, a' ++ ta).
Proof.
  intros * E. unfold csr_sort_indices in *. fr. lp (fun '(t, j, x) => (t, j ++ tj, x ++ ta) : list (Z * T) * list Z * list T). body.
  lp (fun s : list (Z * T) * nat => s). { body. } all: fr. lp (fun '(j, x, k) => (j ++ tj, x ++ ta, k) : list Z * list T * nat). { body. } all: fr.
Qed.
Lemma c80_csr_sum_duplicates : forall n c p j (a : list T) p' j' a' tp tj ta, csr_sum_duplicates I n c p j a = Ok (p', j', a') ->
  csr_sum_duplicates I n c (p ++ tp) (j ++ tj) (a ++ ta) = Ok (p' ++ tp, j' ++ tj, a' ++ ta).
Proof.
  intros * E. unfold csr_sum_duplicates in *. fr. lp (fun '(p, j, x, k, r) => (p ++ tp, j ++ tj, x ++ ta, k, r) : list Z * list Z * list T * nat * nat). body.
  wl (fun '(k, j, x, r) => (k, j ++ tj, x ++ ta, r) : nat * list Z * list T * nat). { wbody. } { wbody. wl (fun s : nat * T => s). { wbody. } { wbody. } all: fr. } all: fr.
Qed.
Lemma c80_csr_eliminate_zeros : forall n c p j (a : list T) p' j' a' tp tj ta, csr_eliminate_zeros I n c p j a = Ok (p', j', a') ->
  csr_eliminate_zeros I n c (p ++ tp) (j ++ tj) (a ++ ta) = Ok (p' ++ tp, j' ++ tj, a' ++ ta).
Proof.
  intros * E. unfold csr_eliminate_zeros in *. fr. lp (fun '(p, j, x, k, r) => (p ++ tp, j ++ tj, x ++ ta, k, r) : list Z * list Z * list T * nat * nat). body.
  wl (fun '(k, j, x, r) => (k, j ++ tj, x ++ ta, r) : nat * list Z * list T * nat). { wbody. } { wbody. } all: fr.
Qed.
Lemma c80_csr_matmat_maxnnz : forall n c ap aj bp bj k tp tj tq tk, csr_matmat_maxnnz n c ap aj bp bj = Ok k ->
  csr_matmat_maxnnz n c (ap ++ tp) (aj ++ tj) (bp ++ tq) (bj ++ tk) = Ok k.
Proof.
  intros * E. unfold csr_matmat_maxnnz in *. fr. lp (fun s : list Z * nat => s).  body. lp (fun s : list Z * nat => s).  body. lp (fun s : list Z * nat => s).  body.
Qed.
Lemma c80_csc_matmat_maxnnz : forall n c ap aj bp bj k tp tj tq tk, csc_matmat_maxnnz n c ap aj bp bj = Ok k ->
  csc_matmat_maxnnz n c (ap ++ tp) (aj ++ tj) (bp ++ tq) (bj ++ tk) = Ok k.
Proof. intros * E. unfold csc_matmat_maxnnz in *. apply c80_csr_matmat_maxnnz, E. Qed.
Lemma c80_csr_matmat : forall n c ap aj (ax : list T) bp bj bx cp cj cx cp' cj' cx' tp tj ta tq tk tb tr tl tx, csr_matmat I n c ap aj ax bp bj bx cp cj cx = Ok (cp', cj', cx') ->
  csr_matmat I n c (ap ++ tp) (aj ++ tj) (ax ++ ta) (bp ++ tq) (bj ++ tk) (bx ++ tb) (cp ++ tr) (cj ++ tl) (cx ++ tx) = Ok (cp' ++ tr, cj' ++ tl, cx' ++ tx).
Proof.
  intros * E. unfold csr_matmat in *. fr. lp (fun '(nx, su, z, p, j, x) => (nx, su, z, p ++ tr, j ++ tl, x ++ tx) : list Z * list T * Z * list Z * list Z * list T).  body.
  lp (fun s : list Z * list T * Z * Z => s). { body. lp (fun s : list Z * list T * Z * Z => s).  body. } all: fr.
  lp (fun '(nx, su, h, z, j, x) => (nx, su, h, z, j ++ tl, x ++ tx) : list Z * list T * Z * Z * list Z * list T).  body.
Qed.
Lemma c80_csc_matmat : forall n c ap aj (ax : list T) bp bj bx cp cj cx cp' cj' cx' tp tj ta tq tk tb tr tl tx, csc_matmat I n c ap aj ax bp bj bx cp cj cx = Ok (cp', cj', cx') ->
  csc_matmat I n c (ap ++ tp) (aj ++ tj) (ax ++ ta) (bp ++ tq) (bj ++ tk) (bx ++ tb) (cp ++ tr) (cj ++ tl) (cx ++ tx) = Ok (cp' ++ tr, cj' ++ tl, cx' ++ tx).
Proof. intros * E. unfold csc_matmat in *. apply c80_csr_matmat, E. Qed.
Ltac le :=
  match goal with
  | E : for_range_exit ?lo ?hi ?f ?s = Ok ?s' |- context [for_range_exit ?lo ?hi ?g ?s] =>
      let X := fresh "X" in assert (X : for_range_exit lo hi g s = Ok s'); [apply (for_range_exit_ext lo hi f g s s'); [clear E; cbv beta|exact E]|rewrite X; clear E X; cbv beta iota; cbn [bind]; fr]
  end.
Lemma c80_csr_has_sorted_indices : forall n p j b tp tj, csr_has_sorted_indices I n p j = Ok b -> csr_has_sorted_indices I n (p ++ tp) (j ++ tj) = Ok b.
Proof. intros * E. unfold csr_has_sorted_indices in *. fr. le.  body. le.  body. Qed.
Lemma c80_csr_has_canonical_format : forall n p j b tp tj, csr_has_canonical_format I n p j = Ok b -> csr_has_canonical_format I n (p ++ tp) (j ++ tj) = Ok b.
Proof. intros * E. unfold csr_has_canonical_format in *. fr. le. body. assert (v6 = v2) as -> by congruence. le. body. Qed.

Section Binop.
Context {T2 : Type} {NZ : Nonzero T2}.
Variable op : T -> T -> res T2.
Lemma binop_scan_app lo hi j (x : list T) s s' tj tx : binop_scan I lo hi j x s = Ok s' -> binop_scan I lo hi (j ++ tj) (x ++ tx) s = Ok s'.
Proof. intros E. unfold binop_scan in *. lp (fun s : list Z * list T * Z * Z => s). body. Qed.
Lemma binop_emit_app z (r : T2) j x k j' x' k' tj tx : binop_emit z r (j, x, k) = Ok (j', x', k') -> binop_emit z r (j ++ tj, x ++ tx, k) = Ok (j' ++ tj, x' ++ tx, k').
Proof. intros E. unfold binop_emit in *. fr. Qed.
Ltac fb := repeat first [fr1 | match goal with
  | E : binop_scan ?I ?lo ?hi ?j ?x ?s = Ok ?r |- context [binop_scan ?I ?lo ?hi (?j ++ ?tj) (?x ++ ?tx) ?s] => rewrite (binop_scan_app lo hi j x s r tj tx E); cbn [bind]
  | E : binop_emit ?z ?r (?j, ?x, ?k) = Ok (?j', ?x', ?k') |- context [binop_emit ?z ?r (?j ++ ?tj, ?x ++ ?tx, ?k)] => rewrite (binop_emit_app z r j x k j' x' k' tj tx E); cbn [bind]
  end]; try assumption; try reflexivity.
Lemma c80_general : forall n c ap aj (ax : list T) bp bj bx cp cj cx cp' cj' cx' tp tj ta tq tk tb tr tl tx, csr_binop_csr_general I op n c ap aj ax bp bj bx cp cj cx = Ok (cp', cj', cx') ->
  csr_binop_csr_general I op n c (ap ++ tp) (aj ++ tj) (ax ++ ta) (bp ++ tq) (bj ++ tk) (bx ++ tb) (cp ++ tr) (cj ++ tl) (cx ++ tx) = Ok (cp' ++ tr, cj' ++ tl, cx' ++ tx).
Proof.
  intros * E. unfold csr_binop_csr_general in *. fr. lp (fun '(nx, ar, br, z, p, j, x) => (nx, ar, br, z, p ++ tr, j ++ tl, x ++ tx) : list Z * list T * list T * Z * list Z * list Z * list T2). body. fb.
  lp (fun '(nx, ar, br, h, z, j, x) => (nx, ar, br, h, z, j ++ tl, x ++ tx) : list Z * list T * list T * Z * Z * list Z * list T2). body.
Qed.
Lemma c80_canonical : forall n c ap aj (ax : list T) bp bj bx cp cj cx cp' cj' cx' tp tj ta tq tk tb tr tl tx, csr_binop_csr_canonical I op n c ap aj ax bp bj bx cp cj cx = Ok (cp', cj', cx') ->
  csr_binop_csr_canonical I op n c (ap ++ tp) (aj ++ tj) (ax ++ ta) (bp ++ tq) (bj ++ tk) (bx ++ tb) (cp ++ tr) (cj ++ tl) (cx ++ tx) = Ok (cp' ++ tr, cj' ++ tl, cx' ++ tx).
Proof.
  intros * E. unfold csr_binop_csr_canonical in *. fr. lp (fun '(p, j, x, z) => (p ++ tr, j ++ tl, x ++ tx, z) : list Z * list Z * list T2 * nat). body.
  wl (fun '(a, b, (j, x, k)) => (a, b, (j ++ tl, x ++ tx, k)) : nat * nat * (list Z * list T2 * nat)). { wbody. } { wbody; fb. } fb.
  wl (fun '(a, (j, x, k)) => (a, (j ++ tl, x ++ tx, k)) : nat * (list Z * list T2 * nat)). { wbody. } { wbody; fb. } fb.
  wl (fun '(a, (j, x, k)) => (a, (j ++ tl, x ++ tx, k)) : nat * (list Z * list T2 * nat)). { wbody. } { wbody; fb. } all: fb.
Qed.
Lemma c80_csr_binop_csr : forall n c ap aj (ax : list T) bp bj bx cp cj cx cp' cj' cx' tp tj ta tq tk tb tr tl tx, csr_binop_csr I op n c ap aj ax bp bj bx cp cj cx = Ok (cp', cj', cx') ->
  csr_binop_csr I op n c (ap ++ tp) (aj ++ tj) (ax ++ ta) (bp ++ tq) (bj ++ tk) (bx ++ tb) (cp ++ tr) (cj ++ tl) (cx ++ tx) = Ok (cp' ++ tr, cj' ++ tl, cx' ++ tx).
Proof.
  intros * E. unfold csr_binop_csr in *. apply bind_inv in E. destruct E as (ca & E1 & E). apply bind_inv in E. destruct E as (cc & E2 & E). rewrite (c80_csr_has_canonical_format _ _ _ _ _ _ E1). cbn [bind].
  destruct ca; [rewrite (c80_csr_has_canonical_format _ _ _ _ _ _ E2)|injection E2 as <-]; cbn [bind]; [destruct cc|]; [apply c80_canonical|apply c80_general|apply c80_general]; exact E.
Qed.
End Binop.

Lemma c80_csr_count_diagonals : forall n p j k tp tj, csr_count_diagonals n p j = Ok k -> csr_count_diagonals n (p ++ tp) (j ++ tj) = Ok k.
Proof. intros * E. unfold csr_count_diagonals in *. fr. lp (fun s : list nat => s). body. lp (fun s : list nat => s). body. Qed.
Lemma row_colptrs_app j lo hi m tj : row_colptrs j lo hi = Ok m -> row_colptrs (j ++ tj) lo hi = Ok m.
Proof. intros E. unfold row_colptrs in *. lp (fun s : list (nat * nat) => s). body. Qed.
Lemma c80_csr_select : forall n c p j (a : list T) rs cs bp bj bx r tp tj ta, csr_select I n c p j a rs cs bp bj bx = Ok r ->
  csr_select I n c (p ++ tp) (j ++ tj) (a ++ ta) rs cs bp bj bx = Ok r.
Proof.
  intros * E. unfold csr_select in *. apply bind_inv in E. destruct E as (nnz & E1 & E).
  match goal with |- bind ?m _ = _ => assert (X : m = Ok nnz) end.
  { eapply for_each_ext; [|exact E1]. clear E E1. cbv beta. body. rewrite (row_colptrs_app _ _ _ _ tj E2). cbn [bind]. assumption. }
  rewrite X. clear X E1. cbn [bind]. fr. match goal with E : for_enum _ _ _ _ = Ok ?v |- bind ?m _ = _ => assert (X : m = Ok v); [eapply for_enum_ext; [|exact E]; clear E; cbv beta|rewrite X; reflexivity] end.
  intros k. body. rewrite (row_colptrs_app _ _ _ _ tj E3). cbn [bind].
  match goal with E : for_enum _ _ _ _ = Ok ?v |- bind ?m _ = _ => assert (X : m = Ok v); [eapply for_enum_ext; [|exact E]; clear E; cbv beta|rewrite X; cbn [bind]; fr] end.
  intros k'. body. destruct (map_get _ _); fr.
Qed.
Lemma c80_get_csr_submatrix : forall n c p j (a : list T) r0 r1 c0 c1 bp bj bx r tp tj ta, get_csr_submatrix I n c p j a r0 r1 c0 c1 bp bj bx = Ok r ->
  get_csr_submatrix I n c (p ++ tp) (j ++ tj) (a ++ ta) r0 r1 c0 c1 bp bj bx = Ok r.
Proof.
  intros * E. unfold get_csr_submatrix in *. fr. lp (fun s : nat => s). { body. lp (fun s : nat => s). body. } fr.
  lp (fun s : list Z * list Z * list T * nat => s). body. lp (fun s : list Z * list T * nat => s). body.
Qed.
Lemma c80_csr_row_index : forall n rows p j (a : list T) bj bx r tr tp tj ta, csr_row_index n rows p j a bj bx = Ok r ->
  csr_row_index n (rows ++ tr) (p ++ tp) (j ++ tj) (a ++ ta) bj bx = Ok r.
Proof. intros * E. unfold csr_row_index in *. lp (fun s : list Z * list T => s). body. Qed.
Lemma c80_csr_row_slice : forall k lo hi st p j (a : list T) bj bx r tp tj ta, csr_row_slice k lo hi st p j a bj bx = Ok r ->
  csr_row_slice k lo hi st (p ++ tp) (j ++ tj) (a ++ ta) bj bx = Ok r.
Proof. intros * E. unfold csr_row_slice in *. fr; wl (fun s : nat * list Z * list T => s); wbody. Qed.
Lemma c80_csr_column_index1 : forall k cs n c p j o b o' b' ts tp tj to tb, csr_column_index1 I k cs n c p j o b = Ok (o', b') ->
  csr_column_index1 I k (cs ++ ts) n c (p ++ tp) (j ++ tj) (o ++ to) (b ++ tb) = Ok (o' ++ to, b' ++ tb).
Proof.
  intros * E. unfold csr_column_index1 in *. fr. lp (fun s : list Z => s ++ to). { body. } fr. lp (fun '(p, z) => (p ++ tb, z) : list Z * Z). { body. lp (fun s : Z => s). body. }
  lp (fun s : list Z => s ++ to). body.
Qed.
Lemma c80_csr_column_index2 : forall r o k j (a : list T) bj bx bj' bx' tr to tj ta tk tx, csr_column_index2 r o k j a bj bx = Ok (bj', bx') ->
  csr_column_index2 (r ++ tr) (o ++ to) k (j ++ tj) (a ++ ta) (bj ++ tk) (bx ++ tx) = Ok (bj' ++ tk, bx' ++ tx).
Proof.
  intros * E. unfold csr_column_index2 in *. fr. lp (fun '(j, x, k) => (j ++ tk, x ++ tx, k) : list Z * list T * nat). body.
  all: cbn [bind]; fr; lp (fun '(j, x, k) => (j ++ tk, x ++ tx, k) : list Z * list T * nat); body.
Qed.
End Props.

(** the component kernel of the graph module *)
Lemma for_range_exit_map {S S'} (e : S -> S') lo hi (f : nat -> S -> res (ctl S S)) (g : nat -> S' -> res (ctl S' S')) s c :
  (forall i u v, f i u = Ok v -> g i (e u) = Ok match v with Cont w => Cont (e w) | Stop w => Stop (e w) end) ->
  for_range_exit lo hi f s = Ok c -> for_range_exit lo hi g (e s) = Ok match c with Cont w => Cont (e w) | Stop w => Stop (e w) end.
Proof.
  intros H. unfold for_range_exit. generalize (hi - lo) as n. intros n. revert lo s. induction n as [|n IH]; intros lo s E; cbn in *; [injection E as <-; reflexivity|]. apply bind_inv in E. destruct E as (v & E1 & E2). rewrite (H _ _ _ E1). cbn [bind]. destruct v; [apply IH, E2|injection E2 as <-; reflexivity].
Qed.
Ltac lx e :=
  match goal with
  | E : for_range_exit ?lo ?hi ?f ?s = Ok ?c |- context [for_range_exit ?lo ?hi ?g ?t] =>
      let X := fresh "X" in pose proof (for_range_exit_map e lo hi f g s c) as X; cbv beta in X; change (e s) with t in X; rewrite X; [clear X|clear X E; cbv beta|exact E]
  end.
Lemma c80_cs_graph_components : forall I F n p j flag k flag' tp tj tf, cs_graph_components I F n p j flag = Ok (k, flag') ->
  cs_graph_components I F n (p ++ tp) (j ++ tj) (flag ++ tf) = Ok (k, flag' ++ tf).
Proof.
  intros * E. unfold cs_graph_components in *. cbv zeta in *. fr.
  lp (fun '(f, k) => (f ++ tf, k) : list Z * nat). { body. }
  match goal with E : for_range_exit _ _ _ _ = Ok ?c |- _ => rename E into E9; rename c into c9 end.
  lx (fun '(f, a, b, c) => (f ++ tf, a, b, c) : list Z * list Z * Z * nat).
  - cbn [bind]. destruct c9 as [[[[f1 p1] q1] t1]|[[[f1 p1] q1] t1]]; cbn [ctl_state] in *; fr.
  - body. wl (fun i : nat => i). { wbody. } { wbody. } fr.
    match goal with E : for_range_exit _ _ _ _ = Ok ?c |- _ => rename E into E8; rename c into c8 end.
    lx (fun '(f, a, b, c, d) => (f ++ tf, a, b, c, d) : list Z * list Z * nat * nat * nat).
    + cbn [bind]. destruct c8 as [[[[[f1 p1] q1] r1] t1]|[[[[f1 p1] q1] r1] t1]]; cbn [ctl_state] in *; fr.
    + body. lp (fun '(f, a, b, c) => (f ++ tf, a, b, c) : list Z * list Z * nat * nat). body. lp (fun '(f, a, b, c) => (f ++ tf, a, b, c) : list Z * list Z * nat * nat). body.
      match goal with A : ifrom F ?i = Ok ?x, B : ifrom F ?i = Ok ?y |- _ => assert (x = y) as <- by congruence end. fr.
Qed.

(** two runs from different states *)
Definition alike {A B} (R : A -> B -> Prop) (m : res A) (m' : res B) : Prop :=
  match m, m' with Ok a, Ok b => R a b | Err e, Err e' => e = e' | Panic, Panic => True | NoFuel, NoFuel => True | _, _ => False end.
Lemma for_range_alike {S S'} (R : nat -> S -> S' -> Prop) lo hi f g s s' : lo <= hi -> R lo s s' ->
  (forall i u v, lo <= i < hi -> R i u v -> alike (R (Datatypes.S i)) (f i u) (g i v)) -> alike (R hi) (for_range lo hi f s) (for_range lo hi g s').
Proof.
  intros Hle H0 H. unfold for_range. assert (G : forall k i s s', R i s s' -> lo <= i -> i + k = hi -> alike (R hi) (for_n k i f s) (for_n k i g s')).
  { clear s s' H0. induction k as [|k IH]; intros i s s' Hi Hl E; cbn [for_n]; [replace hi with i by lia; exact Hi|]. specialize (H i s s' ltac:(lia) Hi). destruct (f i s), (g i s'); cbn in H |- *; try contradiction; try exact H. apply IH; [exact H|lia|lia]. }
  apply G; [exact H0|lia|lia].
Qed.
Lemma firstn_S_upd {A} (l : list A) i a : i < length l -> firstn (S i) (upd l i a) = firstn i l ++ [a].
Proof. revert i. induction l as [|x l IH]; intros [|i] H; cbn in *; try lia; [reflexivity|]. f_equal. apply IH. lia. Qed.
Lemma c81_cs_graph_components : forall I F n p j flag flag', length flag = n -> length flag' = n ->
  cs_graph_components I F n p j flag = cs_graph_components I F n p j flag'.
Proof.
  intros I F n p j flag flag' L L'. unfold cs_graph_components. cbv zeta. destruct (icheck F (-1)) as [m1| | |]; try reflexivity. cbn [bind]. destruct (icheck F (-2)) as [m2| | |]; try reflexivity. cbn [bind].
  match goal with |- bind ?a _ = bind ?b _ => assert (H : alike (fun u v : list Z * nat => u = v) a b) end.
  2:{ match goal with |- bind ?a _ = bind ?b _ => destruct a, b; cbn in H; try contradiction; try reflexivity; subst; reflexivity end. }
  pose proof (for_range_alike (fun i u v => length (fst u) = n /\ length (fst v) = n /\ firstn i (fst u) = firstn i (fst v) /\ snd u = snd v) 0 n
    (fun ir '(flag, n_stop) => let* flag := vset flag ir m1 in let* p1 := vget p (ir + 1) in let* p0 := vget p ir in if (p1 =? p0)%Z then let* n_stop := usub n_stop 1 in let* flag := vset flag ir m2 in Ok (flag, n_stop) else Ok (flag, n_stop))
    (fun ir '(flag, n_stop) => let* flag := vset flag ir m1 in let* p1 := vget p (ir + 1) in let* p0 := vget p ir in if (p1 =? p0)%Z then let* n_stop := usub n_stop 1 in let* flag := vset flag ir m2 in Ok (flag, n_stop) else Ok (flag, n_stop))
    (flag, n) (flag', n)) as X.
  assert (Y : forall (m m' : res (list Z * nat)), alike (fun u v => length (fst u) = n /\ length (fst v) = n /\ firstn n (fst u) = firstn n (fst v) /\ snd u = snd v) m m' -> alike (fun u v : list Z * nat => u = v) m m').
  { intros [u| | |] [v| | |]; cbn; try tauto. intros (A1 & A2 & A3 & A4). rewrite !firstn_all2 in A3 by lia. destruct u, v. cbn in *. congruence. }
  apply Y, X; clear X Y; [lia|cbn; auto|].
  intros i [u k] [v k'] Hi (A1 & A2 & A3 & A4). cbn [fst snd] in *. subst k'. rewrite !vset_ok by lia. cbn [bind]. destruct (vget p (i + 1)); cbn [bind alike]; auto. destruct (vget p i); cbn [bind alike]; auto.
  destruct (_ =? _)%Z; cbn [alike fst snd].
  - destruct (usub k 1); cbn [bind alike]; auto. rewrite !vset_ok by (rewrite upd_length; lia). cbn [bind alike fst snd]. rewrite !upd_length, !firstn_S_upd by (rewrite upd_length; lia). sp; try assumption.
    f_equal. assert (Fi : forall w : list Z, firstn i (upd w i m1) = firstn i w). { clear. intros w. revert i. induction w as [|x w IH]; intros [|i]; cbn; try reflexivity. f_equal. apply IH. } rewrite !Fi. exact A3.
  - rewrite !upd_length, !firstn_S_upd by lia. sp; try assumption. f_equal. exact A3.
Qed.
