(** Proofs of the theorems of Props_eigen.v, under the same names in lower case. *)
From Verif Require Import Rust Scalar Model_kernels Model_matrix Model_eigen Spec SpecEigen Wp Rep LinProofs Main_linear EigenProofs Check.

Section Any.
Context {F : Type} {SC : Scalar F} {SN : ScalarNeg F} {H : Type}.
Notation naupd := (naupd F H).
Notation neupd := (neupd F H).
Lemma eigs_ok (dnaupd : naupd) (dneupd : neupd) fuel a nev h d zz : keeps dneupd -> eigs dnaupd dneupd fuel a nev h = Ok (d, zz) ->
  exists dr di zv nconv, answered dneupd (csc_rows a) nev dr di zv nconv /\ length dr = nev + 1 /\ length di = nev + 1 /\
    length zv = csc_rows a * (nev + 1) /\ nev + 1 < csc_rows a /\
    (lone di = false \/ 0 < nconv) /\ d = firstn (if lone di then nconv - 1 else nconv) (map (fun x => (x, x)) dr) /\ zz = ritz_rows zv (csc_rows a) 0 di.
Proof.
  intros K. unfold eigs. destruct (negb _); [discriminate|]. unfold usub. destruct (Nat.leb_spec 1 (csc_rows a)) as [Hn|]; [|discriminate]. cbn [bind].
  destruct (Nat.leb_spec (csc_rows a - 1) nev) as [|Hv]; [discriminate|]. destruct (eigs_drive _ _ _ _ _ _) as [st| | |]; try discriminate. cbn [bind]. destruct (ar_info st <? 0)%Z; [discriminate|].
  match goal with |- context[dneupd ?z ?k ?l ?a1 ?a2 ?a3 ?we ?s] => pose proof (K z k l a1 a2 a3 we s) as L; destruct (dneupd z k l a1 a2 a3 we s) as [[[dr di] zv] st'] eqn:E end.
  destruct (Z.eqb_spec (ar_info st') 0) as [Ei|]; [|discriminate]. cbn [negb]. unfold vget. destruct (nth_error (ar_iparam st') 4) as [c|] eqn:Ec; [|discriminate]. cbn [bind].
  rewrite !repeat_length in L. destruct L as (L1 & L2 & L3). rewrite post_ok by (assumption || lia). destruct (lone di && (as_usize c =? 0)) eqn:B; [discriminate|]. intros Q. injection Q as <- <-.
  exists dr, di, zv, (as_usize c). repeat split; try assumption; try lia.
  - do 5 eexists. split; [exact E|]. split; [exact Ei|]. exists c. split; [exact Ec|reflexivity].
  - destruct (lone di); [|left; reflexivity]. right. cbn in B. apply Nat.eqb_neq in B. lia.
Qed.

Lemma c58_imaginary_parts_refuted : forall (dnaupd : naupd) (dneupd : neupd) fuel a nev h d zz, keeps dneupd ->
  eigs dnaupd dneupd fuel a nev h = Ok (d, zz) ->
  exists dr di zv nconv, answered dneupd (csc_rows a) nev dr di zv nconv /\
    (forall k c, nth_error d k = Some c -> nth_error dr k = Some (fst c) /\ snd c = fst c) /\
    (forall k c x, nth_error d k = Some c -> nth_error di k = Some x -> c = (fst c, x) -> x = fst c).
Proof.
  intros dnaupd dneupd fuel a nev h d zz K E. destruct (eigs_ok _ _ _ _ _ _ _ _ K E) as (dr & di & zv & nconv & A & L1 & L2 & L3 & Hn & Hl & -> & ->).
  exists dr, di, zv, nconv. split; [exact A|].
  assert (G : forall m k c, nth_error (firstn m (map (fun x : F => (x, x)) dr)) k = Some c -> nth_error dr k = Some (fst c) /\ snd c = fst c).
  { intros m k c Ec. assert (Hk : k < m). { assert (Lk : k < length (firstn m (map (fun x : F => (x, x)) dr))) by (apply nth_error_Some; congruence). rewrite firstn_length in Lk. lia. }
    assert (Ec' : nth_error (map (fun x : F => (x, x)) dr) k = Some c).
    { rewrite <- Ec. symmetry. rewrite <- (firstn_skipn m (map (fun x : F => (x, x)) dr)) at 2. rewrite nth_error_app1; [reflexivity|]. apply nth_error_Some. congruence. }
    rewrite nth_error_map in Ec'. destruct (nth_error dr k); [|discriminate]. injection Ec' as <-. split; reflexivity. }
  split; [apply G|]. intros k c x Ec _ Q. destruct (G _ _ _ Ec) as [_ Q2]. rewrite Q in Q2. exact Q2.
Qed.
Lemma c58_real_parts : forall (dnaupd : naupd) (dneupd : neupd) fuel a nev h d zz, keeps dneupd ->
  eigs dnaupd dneupd fuel a nev h = Ok (d, zz) ->
  exists dr di zv nconv, answered dneupd (csc_rows a) nev dr di zv nconv /\
    map fst d = firstn (if lone di then nconv - 1 else nconv) dr.
Proof.
  intros dnaupd dneupd fuel a nev h d zz K E. destruct (eigs_ok _ _ _ _ _ _ _ _ K E) as (dr & di & zv & nconv & A & L1 & L2 & L3 & Hn & Hl & -> & ->).
  exists dr, di, zv, nconv. split; [exact A|]. rewrite <- firstn_map, map_map. cbn. rewrite map_id. reflexivity.
Qed.

Lemma c65_vectors : forall (dnaupd : naupd) (dneupd : neupd) fuel a nev h d zz, keeps dneupd ->
  eigs dnaupd dneupd fuel a nev h = Ok (d, zz) ->
  exists dr di zv nconv, answered dneupd (csc_rows a) nev dr di zv nconv /\ length zz = nev + 1 /\ zz = ritz_rows zv (csc_rows a) 0 di.
Proof.
  intros dnaupd dneupd fuel a nev h d zz K E. destruct (eigs_ok _ _ _ _ _ _ _ _ K E) as (dr & di & zv & nconv & A & L1 & L2 & L3 & Hn & Hl & -> & ->).
  exists dr, di, zv, nconv. split; [exact A|]. split; [|reflexivity]. rewrite <- L2. apply (ritz_length _ _ (length di)). lia.
Qed.
Lemma c65_real_vectors_refuted : forall (z : list F) n k x di, seqb x s0 = true ->
  forall r, nth_error (ritz_rows z n k (x :: di)) 0 = Some r -> forall j, j < n -> nth_error r j = Some (nth k (zcol z n k) s0, s0).
Proof. intros z n k x di E r. cbn [ritz_rows]. rewrite E. intros Q j Hj. injection Q as <-. apply nth_error_repeat, Hj. Qed.

Lemma as_i32_small n : (Z.of_nat n < 2 ^ 31)%Z -> as_i32 n = Z.of_nat n.
Proof. intros Hn. unfold as_i32. rewrite Z.mod_small by lia. lia. Qed.
Lemma as_i32_below n : (as_i32 n < 2 ^ 31)%Z.
Proof. unfold as_i32. pose proof (Z.mod_pos_bound (Z.of_nat n + 2 ^ 31) (2 ^ 32) eq_refl). lia. Qed.

Lemma c66_vector_buffer_refuted : forall (dnaupd : naupd) (d1 d2 : neupd),
  (forall z k ldz dr di zb we s, ~ z_fits z ldz zb -> d1 z k ldz dr di zb we s = d2 z k ldz dr di zb we s) ->
  forall fuel a nev h, 1 <= nev -> (Z.of_nat (csc_rows a) + 1 < 2 ^ 31)%Z -> eigs dnaupd d1 fuel a nev h = eigs dnaupd d2 fuel a nev h.
Proof.
  intros dnaupd d1 d2 E fuel a nev h Hv Hb. unfold eigs. destruct (negb _); [reflexivity|]. unfold usub. destruct (1 <=? csc_rows a); [|reflexivity]. cbn [bind].
  destruct (Nat.leb_spec (csc_rows a - 1) nev); [reflexivity|]. destruct (eigs_drive _ _ _ _ _ _) as [st| | |]; try reflexivity. cbn [bind]. destruct (ar_info st <? 0)%Z; [reflexivity|].
  rewrite E; [reflexivity|]. unfold z_fits. rewrite repeat_length. unfold eigs_sizes, sz_nev, sz_n. rewrite !as_i32_small by lia. nia.
Qed.

Lemma drive_agree (p1 p2 : naupd) a n nev : csc_rows a = n -> 1 <= nev -> nev + 1 < n -> (Z.of_nat (10 * n) < 2 ^ 31)%Z -> (Z.of_nat (3 * (2 * nev + 1) * (2 * nev + 3)) < 2 ^ 31)%Z ->
  (forall z s, same_buffers s (p1 z s)) -> (forall z s, naupd_asks z s -> p1 z s = p2 z s) ->
  forall fuel h, eigs_drive p1 fuel a n nev h = eigs_drive p2 fuel a n nev h.
Proof.
  intros Ha Hv Hn Hb Hl Hk E fuel h. unfold eigs_drive.
  assert (Ask : forall s, same_buffers (eigs_start n nev h) s -> (s = eigs_start n nev h \/ ar_ido s = 1%Z) -> naupd_asks (eigs_sizes n nev) s).
  { intros s (B1 & B2 & B3 & B4 & B5 & B6) B. unfold eigs_start in B1, B2, B3, B4, B5, B6. cbn [ar_resid ar_v ar_iparam ar_ipntr ar_workd ar_workl] in *. rewrite ?repeat_length in *. cbn [length] in B3.
    assert (Cv : nev + 2 <= eigs_ncv n nev <= n /\ eigs_ncv n nev <= 2 * nev + 1) by (unfold eigs_ncv; lia).
    assert (Lw : eigs_lworkl n nev <= 3 * (2 * nev + 1) * (2 * nev + 3)) by (unfold eigs_lworkl; nia).
    assert (Lq : Z.of_nat (eigs_lworkl n nev) = (3 * (Z.of_nat (eigs_ncv n nev) * Z.of_nat (eigs_ncv n nev)) + 6 * Z.of_nat (eigs_ncv n nev))%Z) by (unfold eigs_lworkl; nia).
    constructor; unfold eigs_sizes, sz_n, sz_nev, sz_ncv, sz_ldv, sz_lworkl; rewrite ?B1, ?B2, ?B3, ?B4, ?B5, ?B6, ?(as_i32_small n), ?(as_i32_small nev), ?(as_i32_small (eigs_ncv n nev)), ?(as_i32_small (eigs_lworkl n nev)) by lia; try lia.
    destruct B as [->|B]; [|rewrite B; discriminate]. intros _. unfold eigs_start. cbn [ar_info ar_iparam nth]. rewrite as_i32_small by lia. repeat split; lia. }
  assert (S0 : same_buffers (eigs_start n nev h) (eigs_start n nev h)) by (repeat split).
  assert (Tr : forall s1 s2 s3 : arpack F H, same_buffers s1 s2 -> same_buffers s2 s3 -> same_buffers s1 s3) by (unfold same_buffers; intros; intuition congruence).
  rewrite <- E by (apply Ask; [apply S0|left; reflexivity]).
  assert (G : forall s, same_buffers (eigs_start n nev h) s ->
    while fuel (fun st => Ok (ar_ido st =? 1)%Z) (fun st => let* st := eigs_product a n st in Ok (p1 (eigs_sizes n nev) st)) s =
    while fuel (fun st => Ok (ar_ido st =? 1)%Z) (fun st => let* st := eigs_product a n st in Ok (p2 (eigs_sizes n nev) st)) s).
  { induction fuel as [|fuel IH]; intros s Hs; [reflexivity|]. cbn [while bind]. destruct (Z.eqb_spec (ar_ido s) 1) as [Es|]; [|reflexivity].
    destruct (eigs_product a n s) as [s'| | |] eqn:Ep; try reflexivity. cbn [bind].
    assert (Hs' : same_buffers (eigs_start n nev h) s' /\ ar_ido s' = 1%Z).
    { cut (same_buffers s s' /\ ar_ido s' = 1%Z); [intros [C1 C2]; split; [apply (Tr _ s); assumption|exact C2]|]. unfold eigs_product in Ep. destruct (vget (ar_ipntr s) 0) as [p0| | |]; try discriminate. cbn [bind] in Ep. destruct (usub (as_usize p0) 1) as [p| | |]; try discriminate. cbn [bind] in Ep.
      destruct (vslice _ _ _) as [x| | |]; try discriminate. cbn [bind] in Ep. destruct (CSC_mat_vec a x) as [y| | |]; try discriminate. cbn [bind] in Ep.
      destruct (vget (ar_ipntr s) 1) as [q0| | |]; try discriminate. cbn [bind] in Ep. destruct (usub (as_usize q0) 1) as [q| | |]; try discriminate. cbn [bind] in Ep.
      destruct (Nat.leb_spec q (length (ar_workd s))); [|discriminate]. destruct (Nat.eqb_spec (length (ar_workd s) - q) (length y)) as [Ey|]; [|discriminate]. cbn in Ep. injection Ep as <-.
      repeat split; try exact Es. cbn. rewrite app_length, firstn_length. lia. }
    rewrite <- E by (apply Ask; [apply Hs'|right; apply Hs']). apply IH. apply (Tr _ s'); [apply Hs'|apply Hk]. }
  apply G. apply (Tr _ (eigs_start n nev h)); [exact S0|apply Hk].
Qed.
Lemma c67_dnaupd_arguments : forall (p1 p2 : naupd) (dneupd : neupd),
  (forall z s, same_buffers s (p1 z s)) -> (forall z s, naupd_asks z s -> p1 z s = p2 z s) ->
  forall fuel a nev h, 1 <= nev -> (Z.of_nat (10 * csc_rows a) < 2 ^ 31)%Z -> (Z.of_nat (3 * (2 * nev + 1) * (2 * nev + 3)) < 2 ^ 31)%Z ->
  eigs p1 dneupd fuel a nev h = eigs p2 dneupd fuel a nev h.
Proof.
  intros p1 p2 dneupd Hk E fuel a nev h Hv Hb Hl. unfold eigs. destruct (negb _); [reflexivity|]. unfold usub. destruct (1 <=? csc_rows a); [|reflexivity]. cbn [bind].
  destruct (Nat.leb_spec (csc_rows a - 1) nev); [reflexivity|]. rewrite (drive_agree p1 p2 a (csc_rows a) nev eq_refl Hv ltac:(lia) Hb Hl Hk E). reflexivity.
Qed.
Lemma c67_first_call : forall (p1 p2 : naupd) (dneupd : neupd) (fresh : H -> bool),
  (forall z s, fresh (ar_saved (p1 z s)) = false) -> (forall z s, ar_ido s = (if fresh (ar_saved s) then 0 else 1)%Z -> p1 z s = p2 z s) ->
  forall fuel a nev h, fresh h = true -> eigs p1 dneupd fuel a nev h = eigs p2 dneupd fuel a nev h.
Proof.
  intros p1 p2 dneupd fresh Hk E fuel a nev h Hh.
  assert (D : forall n, eigs_drive p1 fuel a n nev h = eigs_drive p2 fuel a n nev h).
  { intros n. unfold eigs_drive. rewrite <- E by (cbn [eigs_start ar_saved ar_ido]; rewrite Hh; reflexivity).
    assert (G : forall s, fresh (ar_saved s) = false ->
      while fuel (fun st => Ok (ar_ido st =? 1)%Z) (fun st => let* st := eigs_product a n st in Ok (p1 (eigs_sizes n nev) st)) s =
      while fuel (fun st => Ok (ar_ido st =? 1)%Z) (fun st => let* st := eigs_product a n st in Ok (p2 (eigs_sizes n nev) st)) s).
    { clear Hh. induction fuel as [|f IH]; intros s Hs; [reflexivity|]. cbn [while bind]. destruct (Z.eqb_spec (ar_ido s) 1) as [Es|]; [|reflexivity].
      destruct (eigs_product a n s) as [s'| | |] eqn:Ep; try reflexivity. cbn [bind].
      assert (Hs' : ar_ido s' = 1%Z /\ fresh (ar_saved s') = false).
      { unfold eigs_product in Ep. destruct (vget (ar_ipntr s) 0) as [p0| | |]; try discriminate. cbn [bind] in Ep. destruct (usub (as_usize p0) 1) as [p| | |]; try discriminate. cbn [bind] in Ep.
        destruct (vslice _ _ _) as [x| | |]; try discriminate. cbn [bind] in Ep. destruct (CSC_mat_vec a x) as [y| | |]; try discriminate. cbn [bind] in Ep.
        destruct (vget (ar_ipntr s) 1) as [q0| | |]; try discriminate. cbn [bind] in Ep. destruct (usub (as_usize q0) 1) as [q| | |]; try discriminate. cbn [bind] in Ep.
        destruct (negb _); [discriminate|]. injection Ep as <-. split; assumption. }
      destruct Hs' as [I1 I2]. rewrite <- E by (rewrite I2; exact I1). apply IH, Hk. }
    apply G, Hk. }
  unfold eigs. destruct (negb _); [reflexivity|]. destruct (usub _ _); try reflexivity. cbn [bind]. destruct (_ <=? nev); [reflexivity|]. rewrite D. reflexivity.
Qed.
Lemma never_asked (p1 p2 : naupd) (dneupd : neupd) fuel a nev h : (forall z s, ~ naupd_asks z s -> p1 z s = p2 z s) ->
  (forall s : arpack F H, ~ naupd_asks (eigs_sizes (csc_rows a) nev) s) -> eigs p1 dneupd fuel a nev h = eigs p2 dneupd fuel a nev h.
Proof.
  intros E N. assert (E' : forall s, p1 (eigs_sizes (csc_rows a) nev) s = p2 (eigs_sizes (csc_rows a) nev) s) by (intros s; apply E, N).
  assert (D : eigs_drive p1 fuel a (csc_rows a) nev h = eigs_drive p2 fuel a (csc_rows a) nev h).
  { unfold eigs_drive. rewrite E'. generalize (p2 (eigs_sizes (csc_rows a) nev) (eigs_start (csc_rows a) nev h)). induction fuel as [|f IH]; intros s; [reflexivity|]. cbn [while bind].
    destruct (ar_ido s =? 1)%Z; [|reflexivity]. destruct (eigs_product a (csc_rows a) s); try reflexivity. cbn [bind]. rewrite E'. apply IH. }
  unfold eigs. destruct (negb _); [reflexivity|]. destruct (usub _ _); try reflexivity. cbn [bind]. destruct (_ <=? nev); [reflexivity|]. rewrite D. reflexivity.
Qed.
Lemma c67_no_eigenvalues_refuted : forall (p1 p2 : naupd) (dneupd : neupd),
  (forall z s, ~ naupd_asks z s -> p1 z s = p2 z s) ->
  forall fuel a h, eigs p1 dneupd fuel a 0 h = eigs p2 dneupd fuel a 0 h.
Proof. intros p1 p2 dneupd E fuel a h. apply (never_asked _ _ _ _ _ _ _ E). intros s Q. destruct (na_nev _ _ Q) as [N _]. unfold eigs_sizes, sz_nev in N. rewrite as_i32_small in N by lia. lia. Qed.
Lemma c67_large_refuted : forall (p1 p2 : naupd) (dneupd : neupd) fuel a nev h,
  (forall z s, ~ naupd_asks z s -> p1 z s = p2 z s) -> (Z.of_nat (csc_rows a) < 2 ^ 31)%Z -> 2 * nev + 1 <= csc_rows a ->
  (2 ^ 31 <= Z.of_nat (3 * (2 * nev + 1) * (2 * nev + 3)))%Z -> eigs p1 dneupd fuel a nev h = eigs p2 dneupd fuel a nev h.
Proof.
  intros p1 p2 dneupd fuel a nev h E Hb Hn Hl. apply (never_asked _ _ _ _ _ _ _ E). intros s Q. pose proof (na_lworkl _ _ Q) as N. unfold eigs_sizes, sz_ncv, sz_lworkl in N.
  pose proof (as_i32_below (eigs_lworkl (csc_rows a) nev)) as B. assert (Ec : eigs_ncv (csc_rows a) nev = 2 * nev + 1) by (unfold eigs_ncv; lia).
  rewrite Ec in N. rewrite (as_i32_small (2 * nev + 1)) in N by lia. nia.
Qed.

Lemma c68_product : forall I (a : CSC F) (st : arpack F H) p rest,
  wf_csc I a -> csc_rows a = csc_cols a -> length (ar_workd st) = 3 * csc_rows a ->
  p <= 2 * csc_rows a -> (Z.of_nat (2 * csc_rows a + 1) < 2 ^ 64)%Z ->
  ar_ipntr st = Z.of_nat (p + 1) :: Z.of_nat (2 * csc_rows a + 1) :: rest ->
  exists y st', eigs_product a (csc_rows a) st = Ok st' /\ CSC_mat_vec a (firstn (csc_rows a) (skipn p (ar_workd st))) = Ok y /\
    ar_workd st' = firstn (2 * csc_rows a) (ar_workd st) ++ y /\ ar_ipntr st' = ar_ipntr st /\ ar_ido st' = ar_ido st /\ ar_saved st' = ar_saved st.
Proof.
  intros I a st p rest W Sq Lw Hp Hb Ei. unfold eigs_product. rewrite Ei. cbn [vget nth_error bind].
  assert (U : forall k, k <= 2 * csc_rows a -> usub (as_usize (Z.of_nat (k + 1))) 1 = Ok k).
  { intros k Hk. unfold as_usize. rewrite Z.mod_small by lia. rewrite Nat2Z.id. rewrite usub_ok by lia. f_equal. lia. }
  rewrite (U p Hp). cbn [bind]. rewrite vslice_ok by lia. cbn [bind]. replace (p + csc_rows a - p) with (csc_rows a) by lia.
  destruct (proj2 (c16_csc_mat_vec I a (firstn (csc_rows a) (skipn p (ar_workd st))) W)) as (y & Ey & Ly & _). { rewrite firstn_length, skipn_length. lia. }
  rewrite Ey. cbn [bind]. rewrite (U (2 * csc_rows a)) by lia. cbn [bind].
  rewrite (proj2 (Nat.leb_le _ _)) by lia. rewrite (proj2 (Nat.eqb_eq _ _)) by lia. cbn [andb negb].
  eexists _, _. split; [reflexivity|]. repeat split.
Qed.
Lemma c68_product_elsewhere_refuted : forall I (a : CSC F) (dnaupd : naupd) (dneupd : neupd) fuel nev h p q rest,
  wf_csc I a -> csc_rows a = csc_cols a -> nev + 1 < csc_rows a -> (Z.of_nat (3 * csc_rows a + 1) < 2 ^ 64)%Z ->
  let st := dnaupd (eigs_sizes (csc_rows a) nev) (eigs_start (csc_rows a) nev h) in
  same_buffers (eigs_start (csc_rows a) nev h) st ->
  ar_ido st = 1%Z -> ar_ipntr st = Z.of_nat (p + 1) :: Z.of_nat (q + 1) :: rest -> p <= 2 * csc_rows a -> q <= 3 * csc_rows a ->
  q <> 2 * csc_rows a -> eigs dnaupd dneupd (S fuel) a nev h = Panic.
Proof.
  intros I a dnaupd dneupd fuel nev h p q rest W Sq Hn Hb st B Hi Ei Hp Hq Ne. unfold eigs. rewrite Sq, Nat.eqb_refl. cbn [negb]. rewrite <- Sq. rewrite usub_ok by lia. cbn [bind].
  rewrite (proj2 (Nat.leb_gt _ _)) by lia. unfold eigs_drive. fold st. cbn [while bind]. rewrite Hi. cbn [Z.eqb Pos.eqb].
  assert (Lw : length (ar_workd st) = 3 * csc_rows a) by (destruct B as (_ & _ & _ & _ & B & _); rewrite B; cbn; rewrite repeat_length; lia).
  unfold eigs_product. rewrite Ei. cbn [vget nth_error bind].
  assert (U : forall k, k <= 3 * csc_rows a -> usub (as_usize (Z.of_nat (k + 1))) 1 = Ok k).
  { intros k Hk. unfold as_usize. rewrite Z.mod_small by lia. rewrite Nat2Z.id. rewrite usub_ok by lia. f_equal. lia. }
  rewrite (U p) by lia. cbn [bind]. rewrite vslice_ok by lia. cbn [bind]. replace (p + csc_rows a - p) with (csc_rows a) by lia.
  destruct (proj2 (c16_csc_mat_vec I a (firstn (csc_rows a) (skipn p (ar_workd st))) W)) as (y & Ey & Ly & _). { rewrite firstn_length, skipn_length. lia. }
  rewrite Ey. cbn [bind]. rewrite (U q) by lia. cbn [bind]. rewrite (proj2 (Nat.leb_le _ _)) by lia. rewrite (proj2 (Nat.eqb_neq _ _)) by lia. reflexivity.
Qed.

Lemma c66_workspace_refuted : forall (dnaupd : naupd) (d1 d2 : neupd),
  (forall z k ldz dr di zb we s, ~ workev_fits z we -> d1 z k ldz dr di zb we s = d2 z k ldz dr di zb we s) ->
  forall fuel a nev h, (Z.of_nat (csc_rows a) < 2 ^ 31)%Z -> eigs dnaupd d1 fuel a nev h = eigs dnaupd d2 fuel a nev h.
Proof.
  intros dnaupd d1 d2 E fuel a nev h Hb. unfold eigs. destruct (negb _); [reflexivity|]. unfold usub. destruct (1 <=? csc_rows a); [|reflexivity]. cbn [bind].
  destruct (Nat.leb_spec (csc_rows a - 1) nev); [reflexivity|]. destruct (eigs_drive _ _ _ _ _ _) as [st| | |]; try reflexivity. cbn [bind]. destruct (ar_info st <? 0)%Z; [reflexivity|].
  rewrite E; [reflexivity|]. unfold workev_fits. rewrite repeat_length. unfold eigs_sizes, sz_ncv, eigs_ncv. rewrite as_i32_small by lia. lia.
Qed.
Lemma while_exit_cond {St} fuel (cond : St -> res bool) body s r : while fuel cond body s = Ok r -> cond r = Ok false.
Proof.
  revert s. induction fuel as [|f IH]; intros s E; [discriminate E|]. cbn [while] in E. destruct (cond s) as [b| | |] eqn:C; try discriminate E. cbn [bind] in E.
  destruct b; [|injection E as <-; exact C]. destruct (body s) as [s'| | |]; try discriminate E. cbn [bind] in E. apply (IH s' E).
Qed.
Lemma c66_other_arguments : forall (dnaupd : naupd) (d1 d2 : neupd),
  (forall z k ldz dr di zb we s, neupd_asks z k ldz dr di s -> d1 z k ldz dr di zb we s = d2 z k ldz dr di zb we s) ->
  forall fuel a nev h, (Z.of_nat (csc_rows a) + 1 < 2 ^ 31)%Z -> eigs dnaupd d1 fuel a nev h = eigs dnaupd d2 fuel a nev h.
Proof.
  intros dnaupd d1 d2 E fuel a nev h Hb. unfold eigs. destruct (negb _); [reflexivity|]. unfold usub. destruct (1 <=? csc_rows a); [|reflexivity]. cbn [bind].
  destruct (Nat.leb_spec (csc_rows a - 1) nev); [reflexivity|]. destruct (eigs_drive _ _ _ _ _ _) as [st| | |] eqn:ED; try reflexivity. cbn [bind]. destruct (Z.ltb_spec (ar_info st) 0); [reflexivity|].
  rewrite E; [reflexivity|]. unfold eigs_drive in ED. apply while_exit_cond in ED. injection ED as ED. apply Z.eqb_neq in ED.
  constructor; rewrite ?repeat_length; unfold eigs_sizes, sz_ncv, sz_n, sz_nev, eigs_ncv; rewrite ?as_i32_small by lia; try lia; assumption.
Qed.
Lemma c68_other_requests_refuted : forall (dnaupd : naupd) (dneupd : neupd) fuel a b nev h, csc_rows a = csc_rows b -> csc_cols a = csc_cols b ->
  ar_ido (dnaupd (eigs_sizes (csc_rows a) nev) (eigs_start (csc_rows a) nev h)) = (-1)%Z ->
  eigs dnaupd dneupd fuel a nev h = eigs dnaupd dneupd fuel b nev h.
Proof.
  intros dnaupd dneupd fuel a b nev h Er Ec Hi. unfold eigs. rewrite <- Er, <- Ec. destruct (negb _); [reflexivity|]. destruct (usub _ _); try reflexivity. cbn [bind].
  destruct (_ <=? nev); [reflexivity|]. unfold eigs_drive. destruct fuel as [|f]; [reflexivity|]. cbn [while bind]. rewrite Hi. reflexivity.
Qed.
Lemma c69_argument_errors : forall (dnaupd : naupd) (dneupd : neupd) fuel a nev h,
  (csc_rows a <> csc_cols a -> eigs dnaupd dneupd fuel a nev h = Err ESquare) /\
  (csc_rows a = csc_cols a -> 0 < csc_rows a -> csc_rows a <= nev + 1 -> eigs dnaupd dneupd fuel a nev h = Err EArpack).
Proof.
  intros dnaupd dneupd fuel a nev h. unfold eigs. split.
  - intros Ne. rewrite (proj2 (Nat.eqb_neq _ _)) by exact Ne. reflexivity.
  - intros E H0 H1. rewrite (proj2 (Nat.eqb_eq _ _)) by exact E. cbn [negb]. rewrite usub_ok by lia. cbn [bind]. rewrite (proj2 (Nat.leb_le _ _)) by lia. reflexivity.
Qed.
Lemma c69_empty_matrix_refuted : forall (dnaupd : naupd) (dneupd : neupd) fuel a nev h, csc_rows a = 0 -> csc_cols a = 0 -> eigs dnaupd dneupd fuel a nev h = Panic.
Proof. intros dnaupd dneupd fuel a nev h E1 E2. unfold eigs. rewrite E1, E2. reflexivity. Qed.
End Any.
