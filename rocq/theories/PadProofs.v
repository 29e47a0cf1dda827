(** Unused capacity: what addition, subtraction and products leave behind the last entry of their result. *)
From Verif Require Import Rust Scalar Model_kernels Model_matrix Spec Wp Rep.

(** [Q] holds of the result if there is one *)
Definition pc {A} (m : res A) (Q : A -> Prop) : Prop := forall a, m = Ok a -> Q a.
Lemma pc_ok {A} (a : A) (Q : A -> Prop) : Q a -> pc (Ok a) Q.
Proof. intros H b [= <-]. exact H. Qed.
Lemma pc_bind {A B} (m : res A) (f : A -> res B) (P : A -> Prop) (Q : B -> Prop) : pc m P -> (forall a, P a -> pc (f a) Q) -> pc (bind m f) Q.
Proof. intros H K b E. destruct m as [a| | |]; try discriminate. cbn in E. exact (K a (H a eq_refl) b E). Qed.
Lemma pc_any {A B} (m : res A) (f : A -> res B) (Q : B -> Prop) : (forall a, pc (f a) Q) -> pc (bind m f) Q.
Proof. intros K. apply (pc_bind m f (fun _ => True)); [intros a _; exact Logic.I|auto]. Qed.
Lemma pc_for {St} (Inv : nat -> St -> Prop) lo hi f (s : St) (Q : St -> Prop) : lo <= hi -> Inv lo s ->
  (forall i s, lo <= i < hi -> Inv i s -> pc (f i s) (Inv (S i))) -> (forall s, Inv hi s -> Q s) -> pc (for_range lo hi f s) Q.
Proof.
  intros Hle H0 Hs HQ. unfold for_range. remember (hi - lo) as n eqn:En. revert lo s Hle H0 Hs En.
  induction n as [|n IH]; intros lo s Hle H0 Hs En; cbn [for_n].
  - apply pc_ok, HQ. replace hi with lo by lia. exact H0.
  - eapply pc_bind; [apply Hs; [lia|exact H0]|]. intros s' H'. apply IH; [lia|exact H'| |lia]. intros i t Hi. apply Hs. lia.
Qed.
(** invariant that does not mention the counter *)
Lemma pc_for_inv {St} (Inv : St -> Prop) lo hi f (s : St) : Inv s -> (forall i s, Inv s -> pc (f i s) Inv) -> pc (for_range lo hi f s) Inv.
Proof.
  intros H0 Hs. unfold for_range. generalize (hi - lo) as n. intros n. revert lo s H0. induction n as [|n IH]; intros lo s H0; cbn [for_n].
  - apply pc_ok, H0.
  - eapply pc_bind; [apply Hs, H0|]. intros s' H'. apply IH, H'.
Qed.
Lemma pc_while {St} (Inv : St -> Prop) n cond body (s : St) : Inv s -> (forall s, Inv s -> pc (body s) Inv) -> pc (while n cond body s) Inv.
Proof.
  intros H0 Hs. revert s H0. induction n as [|n IH]; intros s H0; cbn [while]; [discriminate|].
  apply pc_any. intros []; [|apply pc_ok, H0]. eapply pc_bind; [apply Hs, H0|]. intros s' H'. apply IH, H'.
Qed.
Lemma pc_vset {A} (l : list A) i a : pc (vset l i a) (fun l' => i < length l /\ l' = upd l i a).
Proof. unfold vset. destruct (Nat.ltb_spec i (length l)); [apply pc_ok; auto|discriminate]. Qed.
Lemma pc_to_usize z : pc (to_usize z) (fun n => z = Z.of_nat n).
Proof. unfold to_usize. destruct (Z.leb_spec 0 z); [apply pc_ok; lia|discriminate]. Qed.
Lemma pc_iadd I a b : pc (iadd I a b) (fun c => c = (a + b)%Z).
Proof. unfold iadd, icheck. destruct ((_ <=? _) && (_ <=? _))%Z; [apply pc_ok; reflexivity|discriminate]. Qed.

(** [l] is [l0] apart from the first [k] elements *)
Definition kept {A} (k : nat) (l l0 : list A) : Prop := length l = length l0 /\ skipn k l = skipn k l0.
Lemma kept_refl {A} k (l : list A) : kept k l l.
Proof. split; reflexivity. Qed.
Lemma skipn_upd {A} (l : list A) k a : skipn (S k) (upd l k a) = skipn (S k) l.
Proof. revert k. induction l as [|b l IH]; intros [|k]; cbn; [reflexivity..|]. apply (IH k). Qed.
Lemma skipn_1 {A} (l : list A) k : skipn (S k) l = skipn 1 (skipn k l).
Proof. revert l. induction k as [|k IH]; intros [|b l]; try reflexivity. exact (IH l). Qed.
Lemma skipn_S {A} (l l0 : list A) k : skipn k l = skipn k l0 -> skipn (S k) l = skipn (S k) l0.
Proof. intros H. rewrite !(skipn_1 _ k), H. reflexivity. Qed.
Lemma kept_push {A} k (l l0 : list A) a : kept k l l0 -> kept (S k) (upd l k a) l0.
Proof. intros [H1 H2]. split; [rewrite upd_length; exact H1|]. rewrite skipn_upd. apply skipn_S, H2. Qed.

Section Kernels.
Context {T : Type} {SC : Scalar T}.
Variable I : ity.

(** the last pointer is the number of positions written, everything behind them is as before *)
Definition padded {A} (n : nat) (j0 : list Z) (x0 : list A) '(p, j, x) : Prop :=
  exists k, nth_error p n = Some (Z.of_nat k) /\ kept k j j0 /\ kept k x x0.

Section Binop.
Context {T2 : Type} {NZ : Nonzero T2}.
Variable op : T -> T -> res T2.

Lemma binop_general_pad n c a_p a_j a_x b_p b_j b_x c_p c_j (c_x : list T2) :
  pc (csr_binop_csr_general I op n c a_p a_j a_x b_p b_j b_x c_p c_j c_x) (padded n c_j c_x).
Proof.
  unfold csr_binop_csr_general. eapply pc_bind; [apply pc_vset|]. intros p [Hp ->]. 
  eapply pc_bind.
  { eapply (pc_for (fun i '(_, _, _, nnz, p, j, x) => exists k, nnz = Z.of_nat k /\ nth_error p i = Some nnz /\ kept k j c_j /\ kept k x c_x)); [lia| | |intros s H; exact H].
    - exists 0. rewrite nth_error_upd. destruct (Nat.ltb_spec 0 (length c_p)); [|lia]. sp; apply kept_refl.
    - intros i [[[[[[next a_row] b_row] nnz] p] j] x] Hi (k & -> & _ & Kj & Kx).
      do 2 (apply pc_any; intros ?). apply pc_any. intros [[[? ?] ?] ?]. do 2 (apply pc_any; intros ?). apply pc_any. intros [[[? ?] ?] ?]. apply pc_any. intros ul.
      eapply pc_bind.
      { eapply (pc_for_inv (fun '(_, _, _, _, nnz, j, x) => exists k, nnz = Z.of_nat k /\ kept k j c_j /\ kept k x c_x)).
        - exists k. sp; assumption.
        - clear. intros _ [[[[[[next a_row] b_row] head] nnz] j] x] (k & -> & Kj & Kx). apply pc_any. intros h. do 2 (apply pc_any; intros ?). apply pc_any. intros r.
          eapply (pc_bind _ _ (fun '(nnz, j, x) => exists k, nnz = Z.of_nat k /\ kept k j c_j /\ kept k x c_x)).
          + destruct (nonzero r); [|apply pc_ok; exists k; sp; assumption]. eapply pc_bind; [apply pc_to_usize|]. intros u Hu. apply Nat2Z.inj in Hu. subst u. apply pc_any. intros zh.
            eapply pc_bind; [apply pc_vset|]. intros j' [_ ->]. eapply pc_bind; [apply pc_vset|]. intros x' [_ ->]. eapply pc_bind; [apply pc_iadd|]. intros z ->. apply pc_ok.
            exists (S k). sp; [lia| |]; apply kept_push; assumption.
          + intros [[nnz j'] x'] H. do 4 (apply pc_any; intros ?). apply pc_ok. exact H. }
      intros [[[[[[? ?] ?] ?] nnz] j'] x'] (k' & -> & Kj' & Kx'). eapply pc_bind; [apply pc_vset|]. intros p' [Hp' ->]. apply pc_ok.
      exists k'. replace (i + 1) with (S i) in * by lia. rewrite nth_error_upd, Nat.eqb_refl. destruct (Nat.ltb_spec (S i) (length p)); [|lia]. sp; assumption. }
  intros [[[[[[? ?] ?] ?] p] j] x] (k & -> & E & Kj & Kx). apply pc_ok. exists k. sp; assumption.
Qed.

Definition outpad (j0 : list Z) (x0 : list T2) '(j, x, k) : Prop := kept k j j0 /\ kept k x x0.
Lemma binop_emit_pad j0 x0 z r out : outpad j0 x0 out -> pc (binop_emit z r out) (outpad j0 x0).
Proof.
  destruct out as [[j x] k]. intros [Hj Hx]. unfold binop_emit. destruct (nonzero r); [|apply pc_ok; split; assumption].
  eapply pc_bind; [apply pc_vset|]. intros j' [_ ->]. eapply pc_bind; [apply pc_vset|]. intros x' [_ ->]. apply pc_ok. rewrite Nat.add_1_r. split; apply kept_push; assumption.
Qed.
Lemma binop_canonical_pad n c a_p a_j a_x b_p b_j b_x c_p c_j (c_x : list T2) :
  pc (csr_binop_csr_canonical I op n c a_p a_j a_x b_p b_j b_x c_p c_j c_x) (padded n c_j c_x).
Proof.
  unfold csr_binop_csr_canonical. eapply pc_bind; [apply pc_vset|]. intros p [Hp ->].
  eapply pc_bind.
  { eapply (pc_for (fun i '(p, j, x, k) => nth_error p i = Some (Z.of_nat k) /\ kept k j c_j /\ kept k x c_x)); [lia| | |intros s H; exact H].
    - rewrite nth_error_upd. destruct (Nat.ltb_spec 0 (length c_p)); [|lia]. sp; apply kept_refl.
    - intros i [[[p j] x] k] Hi (_ & Kj & Kx). do 4 (apply pc_any; intros ?).
      eapply (pc_bind _ _ (fun '(_, _, out) => outpad c_j c_x out)).
      { apply pc_while; [split; assumption|]. intros [[ap bp] out] Ho. do 2 (apply pc_any; intros ?). destruct (_ =? _)%Z.
        - do 3 (apply pc_any; intros ?). eapply pc_bind; [apply binop_emit_pad, Ho|]. intros o H. apply pc_ok. exact H.
        - destruct (_ <? _)%Z; do 2 (apply pc_any; intros ?); (eapply pc_bind; [apply binop_emit_pad, Ho|]); intros o H; apply pc_ok; exact H. }
      intros [[ap bp] out] Ho. eapply (pc_bind _ _ (fun '(_, out) => outpad c_j c_x out)).
      { apply pc_while; [exact Ho|]. intros [ap' out'] Ho'. do 3 (apply pc_any; intros ?). eapply pc_bind; [apply binop_emit_pad, Ho'|]. intros o H. apply pc_ok. exact H. }
      clear ap out Ho. intros [ap out] Ho. eapply (pc_bind _ _ (fun '(_, out) => outpad c_j c_x out)).
      { apply pc_while; [exact Ho|]. intros [ap' out'] Ho'. do 3 (apply pc_any; intros ?). eapply pc_bind; [apply binop_emit_pad, Ho'|]. intros o H. apply pc_ok. exact H. }
      clear ap bp out Ho. intros [bp [[j' x'] k']] [Kj' Kx']. unfold ifrom. eapply (pc_bind _ _ (fun z => z = Z.of_nat k')).
      { unfold icheck. destruct ((_ <=? _) && (_ <=? _))%Z; [apply pc_ok; reflexivity|discriminate]. }
      intros z ->. eapply pc_bind; [apply pc_vset|]. intros p' [Hp' ->]. apply pc_ok. replace (i + 1) with (S i) in * by lia.
      rewrite nth_error_upd, Nat.eqb_refl. destruct (Nat.ltb_spec (S i) (length p)); [|lia]. sp; assumption. }
  intros [[[p j] x] k] (E & Kj & Kx). apply pc_ok. exists k. sp; assumption.
Qed.
Lemma binop_pad n c a_p a_j a_x b_p b_j b_x c_p c_j (c_x : list T2) :
  pc (csr_binop_csr I op n c a_p a_j a_x b_p b_j b_x c_p c_j c_x) (padded n c_j c_x).
Proof. unfold csr_binop_csr. do 2 (apply pc_any; intros ?). destruct a0; [apply binop_canonical_pad|apply binop_general_pad]. Qed.
End Binop.

Lemma matmat_pad n c a_p a_j a_x b_p b_j b_x c_p c_j (c_x : list T) :
  pc (csr_matmat I n c a_p a_j a_x b_p b_j b_x c_p c_j c_x) (padded n c_j c_x).
Proof.
  unfold csr_matmat. eapply pc_bind; [apply pc_vset|]. intros p [Hp ->].
  eapply pc_bind.
  { eapply (pc_for (fun i '(_, _, nnz, p, j, x) => exists k, nnz = Z.of_nat k /\ nth_error p i = Some nnz /\ kept k j c_j /\ kept k x c_x)); [lia| | |intros s H; exact H].
    - exists 0. rewrite nth_error_upd. destruct (Nat.ltb_spec 0 (length c_p)); [|lia]. sp; apply kept_refl.
    - intros i [[[[[next sums] nnz] p] j] x] Hi (k & -> & _ & Kj & Kx).
      do 2 (apply pc_any; intros ?). apply pc_any. intros [[[? ?] ?] ?]. apply pc_any. intros ul.
      eapply pc_bind.
      { eapply (pc_for_inv (fun '(_, _, _, nnz, j, x) => exists k, nnz = Z.of_nat k /\ kept k j c_j /\ kept k x c_x)).
        - exists k. sp; assumption.
        - clear. intros _ [[[[[next sums] head] nnz] j] x] (k & -> & Kj & Kx). apply pc_any. intros h. apply pc_any. intros r.
          eapply (pc_bind _ _ (fun '(nnz, j, x) => exists k, nnz = Z.of_nat k /\ kept k j c_j /\ kept k x c_x)).
          + destruct (negb _); [|apply pc_ok; exists k; sp; assumption]. eapply pc_bind; [apply pc_to_usize|]. intros u Hu. apply Nat2Z.inj in Hu. subst u. apply pc_any. intros zh.
            eapply pc_bind; [apply pc_vset|]. intros j' [_ ->]. eapply pc_bind; [apply pc_vset|]. intros x' [_ ->]. eapply pc_bind; [apply pc_iadd|]. intros z ->. apply pc_ok.
            exists (S k). sp; [lia| |]; apply kept_push; assumption.
          + intros [[nnz j'] x'] H. do 3 (apply pc_any; intros ?). apply pc_ok. exact H. }
      intros [[[[[? ?] ?] nnz] j'] x'] (k' & -> & Kj' & Kx'). eapply pc_bind; [apply pc_vset|]. intros p' [Hp' ->]. apply pc_ok.
      exists k'. replace (i + 1) with (S i) in * by lia. rewrite nth_error_upd, Nat.eqb_refl. destruct (Nat.ltb_spec (S i) (length p)); [|lia]. sp; assumption. }
  intros [[[[[? ?] ?] p] j] x] (k & -> & E & Kj & Kx). apply pc_ok. exists k. sp; assumption.
Qed.

Lemma pc_pget p i : pc (pget p i) (fun n => n = ptr p i).
Proof.
  unfold pget, vget, ptr. destruct (nth_error p i) as [z|] eqn:E; [|discriminate]. cbn [bind]. rewrite (nth_error_nth _ _ _ E).
  unfold to_usize. destruct (0 <=? z)%Z; [apply pc_ok; reflexivity|discriminate].
Qed.
Lemma kept_below {A} K k (l l0 : list A) a : kept K l l0 -> k < K -> kept K (upd l k a) l0.
Proof. intros [H1 H2] H. split; [rewrite upd_length; exact H1|]. rewrite skipn_upd_lt by exact H. exact H2. Qed.
(** sorting leaves everything behind the last entry alone *)
Lemma sort_pad n p j (x : list T) K : (forall i, i < n -> ptr p (S i) <= K) ->
  pc (csr_sort_indices n p j x) (fun '(j', x') => kept K j' j /\ kept K x' x).
Proof.
  intros HK. unfold csr_sort_indices. eapply pc_bind.
  { eapply (pc_for (fun _ '(_, j', x') => kept K j' j /\ kept K x' x)); [lia|split; apply kept_refl| |intros s H; exact H].
    intros i [[temp j'] x'] [_ Hi] [Kj Kx]. apply pc_any. intros rs. eapply pc_bind; [apply pc_pget|]. intros re ->. do 2 (apply pc_any; intros ?). destruct a0 as [tmp ?].
    eapply (pc_bind _ _ (fun '(j', x', _) => kept K j' j /\ kept K x' x)).
    - destruct (Nat.le_gt_cases rs (ptr p (i + 1))) as [Hr|Hr].
      + eapply (pc_for (fun _ '(j', x', _) => kept K j' j /\ kept K x' x)); [exact Hr|split; assumption| |intros s H; exact H].
        intros q [[j1 x1] m] Hq [K1 K2]. apply pc_any. intros t. eapply pc_bind; [apply pc_vset|]. intros ? [_ ->]. eapply pc_bind; [apply pc_vset|]. intros ? [_ ->]. apply pc_ok.
        specialize (HK i Hi). rewrite Nat.add_1_r in Hq. split; apply kept_below; try assumption; lia.
      + unfold for_range. replace (ptr p (i + 1) - rs) with 0 by lia. apply pc_ok. split; assumption.
    - intros [[j1 x1] m] H. apply pc_ok. exact H. }
  intros [[tmp j'] x'] H. apply pc_ok. exact H.
Qed.

(** ** Matrices whose unused capacity is filled with zeros *)
Definition zpad {A} (z : A) (k : nat) (l : list A) : Prop := skipn k l = repeat z (length l - k).
Lemma kept_repeat {A} (z : A) k m l : kept k l (repeat z m) -> zpad z k l.
Proof.
  intros [H1 H2]. rewrite repeat_length in H1. unfold zpad. rewrite H2, H1. clear. revert k. induction m as [|m IH]; intros [|k]; try reflexivity. cbn. apply IH.
Qed.
Lemma kept_zpad {A} (z : A) k l l0 : kept k l l0 -> zpad z k l0 -> zpad z k l.
Proof. intros [H1 H2] H. unfold zpad. rewrite H2, H1. exact H. Qed.
Lemma tight_zpad {A} (z : A) l k : length l = k -> zpad z k l.
Proof. intros <-. unfold zpad. rewrite skipn_all, Nat.sub_diag. reflexivity. Qed.
Lemma map_zpad {A B} (f : A -> B) (z : A) (w : B) k l : f z = w -> zpad z k l -> zpad w k (map f l).
Proof. intros E H. unfold zpad in *. rewrite skipn_map, H, map_length, <- E. generalize (length l - k) as n. induction n as [|n IH]; [reflexivity|]. cbn. rewrite IH. reflexivity. Qed.

(** indices and values behind the last entry are zero *)
Definition zero_spare (n : nat) (p j : list Z) (x : list T) : Prop := zpad 0%Z (ptr p n) j /\ zpad s0 (ptr p n) x.
Lemma padded_spare n nj nx p j (x : list T) : padded n (repeat 0%Z nj) (repeat s0 nx) (p, j, x) -> zero_spare n p j x.
Proof.
  intros (k & E & Kj & Kx). unfold zero_spare, ptr. rewrite (nth_error_nth _ _ _ E), Nat2Z.id. split; eapply kept_repeat; eassumption.
Qed.
Lemma pc_unwrap {A} (m : res A) Q : pc m Q -> pc (unwrap m) Q.
Proof. intros H a E. destruct m; cbn in E; try discriminate. apply H, E. Qed.
Lemma pc_CSR_new r c p j (x : list T) : pc (CSR_new r c p j x) (fun m => m = mkCSR r c p j x).
Proof.
  unfold CSR_new. destruct (negb _); [unfold bad_length; destruct (Z.eqb _ _); discriminate|]. apply pc_any. intros l. apply pc_any. intros n. destruct (length j <? n); [discriminate|]. destruct (length x <? n); [discriminate|]. apply pc_ok. reflexivity.
Qed.
Lemma pc_CSC_new r c j p (x : list T) : pc (CSC_new r c j p x) (fun m => m = mkCSC r c j p x).
Proof.
  unfold CSC_new. destruct (negb _); [unfold bad_length; destruct (Z.eqb _ _); discriminate|]. apply pc_any. intros l. apply pc_any. intros n. destruct (length j <? n); [discriminate|]. destruct (length x <? n); [discriminate|]. apply pc_ok. reflexivity.
Qed.
Definition csr_zero_spare (m : CSR T) : Prop := zero_spare (csr_rows m) (csr_rowptr m) (csr_colidx m) (csr_values m).
Definition csc_zero_spare (m : CSC T) : Prop := zero_spare (csc_cols m) (csc_colptr m) (csc_rowidx m) (csc_values m).

Lemma CSR_add_spare a b : pc (CSR_add I a b) csr_zero_spare.
Proof.
  unfold CSR_add. do 2 (apply pc_any; intros ?). eapply pc_bind; [apply binop_pad|]. intros [[p j] x] H.
  eapply pc_unwrap. intros r E. rewrite (pc_CSR_new _ _ _ _ _ _ E). eapply padded_spare, H.
Qed.
Lemma CSR_sub_spare a b : pc (CSR_sub I a b) csr_zero_spare.
Proof.
  unfold CSR_sub. do 2 (apply pc_any; intros ?). eapply pc_bind; [apply binop_pad|]. intros [[p j] x] H.
  eapply pc_unwrap. intros r E. rewrite (pc_CSR_new _ _ _ _ _ _ E). eapply padded_spare, H.
Qed.
Lemma CSR_mat_mat_spare a b : pc (CSR_mat_mat I a b) csr_zero_spare.
Proof.
  unfold CSR_mat_mat. destruct (negb _); [discriminate|]. apply pc_any. intros nnz. eapply pc_bind; [apply matmat_pad|]. intros [[p j] x] H r E.
  rewrite (pc_CSR_new _ _ _ _ _ _ E). eapply padded_spare, H.
Qed.
Lemma CSC_op_add_spare a b : pc (CSC_op_add I a b) csc_zero_spare.
Proof.
  unfold CSC_op_add. do 2 (apply pc_any; intros ?). eapply pc_bind; [apply binop_pad|]. intros [[p j] x] H.
  eapply pc_unwrap. intros r E. rewrite (pc_CSC_new _ _ _ _ _ _ E). eapply padded_spare, H.
Qed.
Lemma CSC_mat_mat_spare a b : pc (CSC_mat_mat I a b) csc_zero_spare.
Proof.
  unfold CSC_mat_mat. destruct (negb _); [discriminate|]. apply pc_any. intros nnz. eapply pc_bind; [apply matmat_pad|]. intros [[p j] x] H r E.
  rewrite (pc_CSC_new _ _ _ _ _ _ E). eapply padded_spare, H.
Qed.
End Kernels.
