(** Proofs about the post-processing of ARPACK's output. *)
From Verif Require Import Rust Scalar Model_kernels Model_matrix Model_eigen Spec SpecEigen Wp LinProofs.

Section Vectors.
Context {F : Type} {SC : Scalar F} {SN : ScalarNeg F}.
Notation row := (list (F * F)).

Lemma vget_mid {A} (l1 : list A) a l2 : vget (l1 ++ a :: l2) (length l1) = Ok a.
Proof. unfold vget. rewrite nth_error_app2, Nat.sub_diag by lia. reflexivity. Qed.
Lemma upd_mid {A} (l1 : list A) a b l2 : upd (l1 ++ a :: l2) (length l1) b = l1 ++ b :: l2.
Proof. induction l1 as [|c l1 IH]; [reflexivity|]. cbn. rewrite IH. reflexivity. Qed.
Lemma vset_mid {A} (l1 : list A) a b l2 : vset (l1 ++ a :: l2) (length l1) b = Ok (l1 ++ b :: l2).
Proof. rewrite vset_ok, upd_mid; [reflexivity|]. rewrite app_length. cbn. lia. Qed.
Lemma mset_mid (d : list row) r1 c r2 post v i j : i = length d -> j = length r1 ->
  mset (d ++ (r1 ++ c :: r2) :: post) i j v = Ok (d ++ (r1 ++ v :: r2) :: post).
Proof. intros -> ->. unfold mset. rewrite vget_mid. cbn [bind]. rewrite vset_mid. cbn [bind]. apply vset_mid. Qed.
Lemma mget_mid (d : list row) r1 c r2 post i j : i = length d -> j = length r1 -> mget (d ++ (r1 ++ c :: r2) :: post) i j = Ok c.
Proof. intros -> ->. unfold mget. rewrite vget_mid. cbn [bind]. apply vget_mid. Qed.

Lemma zcol_slice (z : list F) n k : k * n + n <= length z -> vslice z (k * n) (k * n + n) = Ok (zcol z n k).
Proof. intros H. rewrite vslice_ok by lia. unfold zcol. do 2 f_equal. lia. Qed.
Lemma zcol_length (z : list F) n k : k * n + n <= length z -> length (zcol z n k) = n.
Proof. intros H. unfold zcol. rewrite firstn_length, skipn_length. lia. Qed.

Lemma fill_real (done post : list row) n i zr : i < n -> length zr = n -> i = length done ->
  for_range 0 n (fun j zz => let* x := vget zr i in mset zz i j (x, s0)) (done ++ repeat (s0, s0) n :: post) =
  Ok (done ++ repeat (nth i zr s0, s0) n :: post).
Proof.
  intros Hi Hz Hd. apply wp_eq1.
  eapply (wp_for (fun j zz => zz = done ++ (repeat (nth i zr s0, s0) j ++ repeat (s0, s0) (n - j)) :: post)); [lia| | |].
  - rewrite Nat.sub_0_r. reflexivity.
  - intros j zz Hj ->. rewrite (vget_nth _ _ s0) by lia. cbn [bind]. replace (n - j) with (S (n - S j)) by lia. cbn [repeat].
    rewrite mset_mid by (rewrite ?repeat_length; auto; lia). apply wp_ok. f_equal. f_equal. change (repeat (nth i zr s0, s0) (S j)) with ((nth i zr s0, s0) :: repeat (nth i zr s0, s0) j). rewrite repeat_cons, <- app_assoc. reflexivity.
  - intros zz ->. rewrite Nat.sub_diag, app_nil_r. reflexivity.
Qed.
Lemma firstn_S_mid {A} (l : list A) j d : j < length l -> firstn (S j) l = firstn j l ++ [nth j l d].
Proof. revert j. induction l as [|a l IH]; intros [|j] H; cbn in *; try lia; [reflexivity|]. rewrite IH by lia. reflexivity. Qed.
Lemma fill_pair (done post : list row) n i zr zi : length zr = n -> length zi = n -> i = length done ->
  for_range 0 n (fun j zz =>
          let* x := vget zr j in let* y := vget zi j in
          let* zz := mset zz i j (x, y) in
          let* v := mget zz i j in mset zz (i + 1) j (conj v)) (done ++ repeat (s0, s0) n :: repeat (s0, s0) n :: post) =
  Ok (done ++ combine zr zi :: map conj (combine zr zi) :: post).
Proof.
  intros Hr Hz Hd. apply wp_eq1. set (L := combine zr zi). assert (HL : length L = n) by (unfold L; rewrite combine_length; lia).
  eapply (wp_for (fun j zz => zz = done ++ (firstn j L ++ repeat (s0, s0) (n - j)) :: (map conj (firstn j L) ++ repeat (s0, s0) (n - j)) :: post)); [lia| | |].
  - cbn. rewrite Nat.sub_0_r. reflexivity.
  - intros j zz Hj ->. rewrite (vget_nth _ _ s0) by lia. cbn [bind]. rewrite (vget_nth _ _ s0) by lia. cbn [bind]. replace (n - j) with (S (n - S j)) by lia. cbn [repeat].
    assert (Lj : length (firstn j L) = j) by (rewrite firstn_length; lia).
    rewrite mset_mid by (auto; lia). cbn [bind]. rewrite mget_mid by (auto; lia). cbn [bind].
    change (done ++ (firstn j L ++ (nth j zr s0, nth j zi s0) :: repeat (s0, s0) (n - S j)) :: (map conj (firstn j L) ++ (s0, s0) :: repeat (s0, s0) (n - S j)) :: post)
      with (done ++ [firstn j L ++ (nth j zr s0, nth j zi s0) :: repeat (s0, s0) (n - S j)] ++ (map conj (firstn j L) ++ (s0, s0) :: repeat (s0, s0) (n - S j)) :: post).
    rewrite app_assoc. rewrite mset_mid; [|rewrite app_length; cbn; lia|rewrite map_length; lia]. apply wp_ok. rewrite <- app_assoc. cbn [app].
    assert (En : (nth j zr s0, nth j zi s0) = nth j L (s0, s0)) by (unfold L; rewrite combine_nth by lia; reflexivity). rewrite En.
    rewrite (firstn_S_mid L j (s0, s0)) by lia. rewrite map_app, <- !app_assoc. reflexivity.
  - intros zz ->. rewrite Nat.sub_diag, !app_nil_r, <- HL, firstn_all. reflexivity.
Qed.

Lemma skipn_cons_nth {A} (l : list A) i x r : skipn i l = x :: r -> nth_error l i = Some x /\ skipn (S i) l = r /\ i < length l.
Proof. revert i. induction l as [|a l IH]; intros [|i] E; cbn in *; try discriminate; [injection E as -> ->; repeat split; lia|]. destruct (IH i E) as (? & ? & ?). repeat split; auto; lia. Qed.
Lemma vectors_loop n nev (di z : list F) : length di = nev + 1 -> length z = n * (nev + 1) -> nev + 1 < n ->
  forall fuel i rest done nconv, skipn i di = rest -> length done = i -> i + length rest = nev + 1 -> length rest < fuel ->
  while fuel (fun '(i, zz, nconv) => Ok (i <? nev + 1)) (fun '(i, zz, nconv) =>
    let* d := vget di i in
    let* '(i, zz, nconv) :=
      (if seqb d s0 then
        let* zr := vslice z (i * n) (i * n + n) in
        let* zz := for_range 0 n (fun j zz => let* x := vget zr i in mset zz i j (x, s0)) zz in
        Ok (i, zz, nconv)
      else if i <? nev then
        let* zr := vslice z (i * n) (i * n + n) in
        let* zi := vslice z ((i + 1) * n) ((i + 1) * n + n) in
        let* zz := for_range 0 n (fun j zz =>
          let* x := vget zr j in let* y := vget zi j in
          let* zz := mset zz i j (x, y) in
          let* v := mget zz i j in mset zz (i + 1) j (conj v)) zz in
        Ok (i + 1, zz, nconv)
      else
        let* nconv := usub nconv 1 in Ok (i, zz, nconv)) in
    Ok (i + 1, zz, nconv)) (i, done ++ repeat (repeat (s0, s0) n) (length rest), nconv) =
  if lone rest then (if 1 <=? nconv then Ok (nev + 1, done ++ ritz_rows z n i rest, nconv - 1) else Panic)
  else Ok (nev + 1, done ++ ritz_rows z n i rest, nconv).
Proof.
  intros Ld Lz Hn. induction fuel as [|fuel IH]; intros i rest done nconv Er Li Hi Hf; [lia|]. cbn [while bind].
  destruct rest as [|x rest].
  - cbn [length] in Hi. rewrite (proj2 (Nat.ltb_ge i (nev + 1))) by lia. cbn [lone ritz_rows length repeat]. replace i with (nev + 1) by lia. reflexivity.
  - cbn [length] in Hi, Hf. rewrite (proj2 (Nat.ltb_lt i (nev + 1))) by lia. destruct (skipn_cons_nth _ _ _ _ Er) as (Ex & Er' & _). rewrite (vget_some _ _ _ Ex). cbn [bind lone ritz_rows length repeat].
    assert (Hz : forall k, k < nev + 1 -> k * n + n <= length z) by (intros k Hk; rewrite Lz; nia).
    destruct (seqb x s0) eqn:Sx.
    + rewrite zcol_slice by (apply Hz; lia). cbn [bind]. rewrite fill_real; [|lia|apply zcol_length, Hz; lia|auto]. cbn [bind].
      change (done ++ ?r :: ?t) with (done ++ [r] ++ t). rewrite app_assoc. rewrite (IH (i + 1) rest); [|replace (i + 1) with (S i) by lia; exact Er'|rewrite app_length; cbn; lia|lia|lia].
      rewrite <- app_assoc. cbn [app]. replace (i + 1) with (S i) by lia. reflexivity.
    + destruct rest as [|y rest].
      * cbn [length] in *. rewrite (proj2 (Nat.ltb_ge i nev)) by lia. unfold usub. destruct (1 <=? nconv); [|reflexivity]. cbn [bind]. destruct fuel as [|fuel]; [lia|]. cbn [while bind].
        rewrite (proj2 (Nat.ltb_ge (i + 1) (nev + 1))) by lia. cbn [repeat]. replace (i + 1) with (nev + 1) by lia. reflexivity.
      * cbn [length repeat] in *. rewrite (proj2 (Nat.ltb_lt i nev)) by lia. rewrite (zcol_slice z n i) by (apply Hz; lia). cbn [bind]. rewrite (zcol_slice z n (i + 1)) by (apply Hz; lia). cbn [bind].
        rewrite fill_pair by (auto; apply zcol_length, Hz; lia). cbn [bind].
        change (done ++ ?r :: ?q :: ?t) with (done ++ [r; q] ++ t). rewrite app_assoc. destruct (skipn_cons_nth _ _ _ _ Er') as (_ & Er'' & _).
        rewrite (IH (i + 1 + 1) rest); [|replace (i + 1 + 1) with (S (S i)) by lia; exact Er''|rewrite app_length; cbn; lia|lia|lia].
        rewrite <- app_assoc. cbn [app]. replace (i + 1 + 1) with (S (S i)) by lia. replace (i + 1) with (S i) by lia. reflexivity.
Qed.
Lemma vectors_ok n nev (di z : list F) nconv : length di = nev + 1 -> length z = n * (nev + 1) -> nev + 1 < n ->
  eigs_vectors n nev di z (repeat (repeat (s0, s0) n) (nev + 1)) nconv =
  if lone di then (if 1 <=? nconv then Ok (nev + 1, ritz_rows z n 0 di, nconv - 1) else Panic) else Ok (nev + 1, ritz_rows z n 0 di, nconv).
Proof.
  intros Ld Lz Hn. pose proof (vectors_loop n nev di z Ld Lz Hn (nev + 2) 0 di [] nconv eq_refl eq_refl Ld ltac:(lia)) as G. replace (length di) with (nev + 1) in G. exact G.
Qed.
Lemma ritz_length (z : list F) n : forall m di k, length di <= m -> length (ritz_rows z n k di) = length di.
Proof.
  induction m as [|m IH]; intros di k H; [destruct di; [reflexivity|cbn in H; lia]|]. destruct di as [|x di]; [reflexivity|]. cbn [ritz_rows]. destruct (seqb x s0); [cbn; rewrite IH by (cbn in H; lia); reflexivity|].
  destruct di as [|y di]; [reflexivity|]. cbn. rewrite IH by (cbn in H; lia). reflexivity.
Qed.
Lemma values_ok (dr : list F) m : length dr = m -> mapM (fun i => let* x := vget dr i in Ok (x, x)) (seq 0 m) = Ok (map (fun x => (x, x)) dr).
Proof.
  intros L. assert (G : forall pre l, dr = pre ++ l -> mapM (fun i => let* x := vget dr i in Ok (x, x)) (seq (length pre) (length l)) = Ok (map (fun x => (x, x)) l)).
  { intros pre l. revert pre. induction l as [|a l IH]; intros pre E; [reflexivity|]. cbn [length seq mapM]. rewrite E at 1. rewrite vget_mid. cbn [bind].
    specialize (IH (pre ++ [a])). rewrite app_length in IH. cbn [length] in IH. rewrite Nat.add_1_r in IH. rewrite IH by (rewrite <- app_assoc; exact E). reflexivity. }
  rewrite <- L. exact (G [] dr eq_refl).
Qed.
Lemma post_ok n nev (dr di z : list F) nconv : length dr = nev + 1 -> length di = nev + 1 -> length z = n * (nev + 1) -> nev + 1 < n ->
  eigs_post n nev dr di z nconv =
  if lone di && (nconv =? 0) then Panic else
  Ok (firstn (if lone di then nconv - 1 else nconv) (map (fun x => (x, x)) dr), ritz_rows z n 0 di).
Proof.
  intros Lr Ld Lz Hn. unfold eigs_post. rewrite (values_ok dr (nev + 1) Lr). cbn [bind]. rewrite vectors_ok by assumption.
  assert (V : forall k, (if k <=? nev then vslice (map (fun x => (x, x)) dr) 0 k else Ok (map (fun x => (x, x)) dr)) = Ok (firstn k (map (fun x => (x, x)) dr))).
  { intros k. destruct (Nat.leb_spec k nev); [rewrite vslice_ok by (rewrite ?map_length; lia); rewrite Nat.sub_0_r; reflexivity|]. rewrite firstn_all2 by (rewrite map_length; lia). reflexivity. }
  destruct (lone di); cbn [andb]; [|cbn [bind]; rewrite V; reflexivity]. destruct nconv as [|k]; [reflexivity|]. cbn [Nat.leb Nat.eqb bind]. rewrite V. reflexivity.
Qed.
End Vectors.
