(** Lemmas about the bulk-synchronous collectives. *)
From Verif.Base Require Import Prelude ListLemmas.
From Verif.Mpi Require Import CommModel.
From Coq Require Import ZifyBool ZifyNat.

Lemma all_pairs_true P f :
  all_pairs P f = true <-> (forall i j, (i < P)%nat -> (j < P)%nat -> f i j = true).
Proof.
  unfold all_pairs. rewrite forallb_forall. split.
  - intros H i j Hi Hj. specialize (H i). rewrite forallb_forall in H. apply H; apply in_seq; lia.
  - intros H i Hi. apply in_seq in Hi. rewrite forallb_forall. intros j Hj. apply in_seq in Hj.
    apply H; lia.
Qed.

Lemma mat_alltoall P m i j : (i < P)%nat -> (j < P)%nat -> mat (alltoall P m) i j = mat m j i.
Proof. intros Hi Hj. unfold mat at 1, alltoall. rewrite nth_spmd by assumption. now rewrite nth_spmd. Qed.
Lemma nth_alltoall P m i : (i < P)%nat -> nth i (alltoall P m) [] = spmd P (fun j => mat m j i).
Proof. intros Hi. unfold alltoall. now rewrite nth_spmd. Qed.
Lemma mat_spmd P (f : nat -> list Z) i j : (i < P)%nat -> mat (spmd P f) i j = nth j (f i) 0.
Proof. intro H. unfold mat. now rewrite nth_spmd. Qed.

Lemma nth_map_dflt {A B} (f : A -> B) l k d d' :
  (k < length l)%nat -> nth k (map f l) d = f (nth k l d').
Proof.
  intro H. rewrite nth_indep with (d' := f d') by (rewrite map_length; lia). apply map_nth.
Qed.

Lemma a2av_valid_spec {A} P (sbuf : list (list A)) sc sd rbuf rc rd :
  a2av_valid P sbuf sc sd rbuf rc rd = true <->
  (forall i j, (i < P)%nat -> (j < P)%nat ->
     mat sc i j = mat rc j i /\ 0 <= mat sc i j /\
     (mat sc i j = 0 \/ 0 <= mat sd i j /\ mat sd i j + mat sc i j <= zlen (nth i sbuf [])) /\
     (mat rc i j = 0 \/ 0 <= mat rd i j /\ mat rd i j + mat rc i j <= zlen (nth i rbuf []))) /\
  (forall r i j, (r < P)%nat -> (i < P)%nat -> (j < P)%nat -> i <> j ->
     mat rc r i <= 0 \/ mat rc r j <= 0 \/
     mat rd r i + mat rc r i <= mat rd r j \/ mat rd r j + mat rc r j <= mat rd r i).
Proof.
  unfold a2av_valid. rewrite andb_true_iff, all_pairs_true, forallb_forall.
  unfold slice_fits, slices_disjoint. split.
  - intros [H1 H2]. split.
    + intros i j Hi Hj. specialize (H1 i j Hi Hj). lia.
    + intros r i j Hr Hi Hj Hij. specialize (H2 r ltac:(apply in_seq; lia)).
      rewrite all_pairs_true in H2. specialize (H2 i j Hi Hj).
      apply orb_true_iff in H2. destruct H2 as [H2|H2]; [apply Nat.eqb_eq in H2; contradiction|]. lia.
  - intros [H1 H2]. split.
    + intros i j Hi Hj. specialize (H1 i j Hi Hj). lia.
    + intros r Hr. apply in_seq in Hr. rewrite all_pairs_true. intros i j Hi Hj.
      destruct (Nat.eqb_spec i j) as [E|E]; [reflexivity|]. cbn [orb].
      specialize (H2 r i j ltac:(lia) Hi Hj E). lia.
Qed.

(** writing blocks one after the other *)
Lemma fold_write_consecutive {A} (data : nat -> list A) (off : nat -> Z) n buf :
  (forall i, (i < n)%nat -> off i = sumZ (spmd i (fun k => zlen (data k)))) ->
  sumZ (spmd n (fun k => zlen (data k))) <= zlen buf ->
  fold_left (fun b i => write_at b (off i) (data i)) (seq 0 n) buf =
  concat (spmd n data) ++ skipn (Z.to_nat (sumZ (spmd n (fun k => zlen (data k))))) buf.
Proof.
  induction n as [|n IH]; intros Hoff Hlen.
  - reflexivity.
  - rewrite seq_S, fold_left_app. cbn [fold_left Nat.add].
    rewrite spmd_S, sumZ_app in Hlen. cbn [sumZ] in Hlen.
    pose proof (zlen_nonneg (data n)).
    rewrite IH; [|intros i Hi; apply Hoff; lia | lia].
    rewrite (Hoff n) by lia.
    assert (zlen (concat (spmd n data)) = sumZ (spmd n (fun k => zlen (data k)))) as Hc.
    { rewrite zlen_concat. now rewrite map_spmd. }
    set (s := sumZ (spmd n (fun k => zlen (data k)))) in *.
    pose proof (zlen_nonneg (concat (spmd n data))) as Hnn.
    unfold write_at.
    rewrite firstn_app, firstn_all2 by (unfold zlen in *; lia).
    replace (Z.to_nat s - length (concat (spmd n data)))%nat with 0%nat by (unfold zlen in *; lia).
    rewrite firstn_O, app_nil_r.
    rewrite skipn_app, skipn_all2 by (unfold zlen in *; lia). cbn [app].
    rewrite skipn_skipn', concat_spmd_app, <- app_assoc. do 2 f_equal.
    rewrite spmd_S, sumZ_app. cbn [sumZ]. fold s. f_equal. unfold zlen in *. lia.
Qed.

Lemma sumZ_firstn_spmd P f k : (k <= P)%nat -> sumZ (firstn k (spmd P f)) = sumZ (spmd k f).
Proof. intro H. now rewrite firstn_spmd. Qed.

Lemma sumZ_spmd_mono (f : nat -> Z) i j : (i <= j)%nat -> (forall k, (k < j)%nat -> 0 <= f k) ->
  sumZ (spmd i f) <= sumZ (spmd j f).
Proof.
  intros Hij Hf. induction Hij as [|j Hij IH]; [lia|].
  rewrite spmd_S, sumZ_app. cbn [sumZ]. specialize (IH ltac:(intros; apply Hf; lia)).
  specialize (Hf j ltac:(lia)). lia.
Qed.

(** A call with receive slices one after the other: rank j's buffer starts with
    the slices sent to it in rank order. *)
Lemma alltoallv_consecutive {A} P (sbuf : list (list A)) sc sd rbuf rc rd :
  (forall i j, (i < P)%nat -> (j < P)%nat -> 0 <= mat sc i j /\ mat rc j i = mat sc i j /\
     (mat sc i j = 0 \/ 0 <= mat sd i j /\ mat sd i j + mat sc i j <= zlen (nth i sbuf []))) ->
  (forall i j, (i < P)%nat -> (j < P)%nat -> mat rd j i = sumZ (spmd i (fun k => mat sc k j))) ->
  (forall j, (j < P)%nat -> sumZ (spmd P (fun k => mat sc k j)) <= zlen (nth j rbuf [])) ->
  alltoallv P sbuf sc sd rbuf rc rd =
  Ok (spmd P (fun j => concat (spmd P (fun i =>
        zslice (nth i sbuf []) (mat sd i j) (mat sd i j + mat sc i j)))
        ++ skipn (Z.to_nat (sumZ (spmd P (fun k => mat sc k j)))) (nth j rbuf []))).
Proof.
  intros H Hoff Hbl. unfold alltoallv.
  assert (a2av_valid P sbuf sc sd rbuf rc rd = true) as ->.
  { apply a2av_valid_spec. split.
    - intros i j Hi Hj.
      destruct (H i j Hi Hj) as (H1 & H2 & H3). repeat split; auto.
      right. rewrite Hoff by assumption. destruct (H j i Hj Hi) as (H4 & H5 & H6). rewrite H5.
      split.
      + change 0 with (sumZ (spmd 0 (fun k => mat sc k i))).
        apply sumZ_spmd_mono; [lia|]. intros k Hk. apply H; lia.
      + replace (sumZ (spmd j (fun k => mat sc k i)) + mat sc j i) with (sumZ (spmd (S j) (fun k => mat sc k i)))
          by (rewrite spmd_S, sumZ_app; cbn [sumZ]; lia).
        eapply Z.le_trans; [|apply Hbl; assumption].
        apply sumZ_spmd_mono; [lia|]. intros k Hk. apply H; lia.
    - intros r i j Hr Hi Hj Hij. rewrite !Hoff by assumption.
      destruct (H i r Hi Hr) as (_ & E1 & _). destruct (H j r Hj Hr) as (_ & E2 & _). rewrite E1, E2.
      right. right.
      assert (forall a b, (a < b)%nat -> (b < P)%nat ->
         sumZ (spmd a (fun k => mat sc k r)) + mat sc a r <= sumZ (spmd b (fun k => mat sc k r))) as Hlt.
      { intros a b Hab Hb.
        replace (sumZ (spmd a (fun k => mat sc k r)) + mat sc a r) with (sumZ (spmd (S a) (fun k => mat sc k r)))
          by (rewrite spmd_S, sumZ_app; cbn [sumZ]; lia).
        apply sumZ_spmd_mono; [lia|]. intros k Hk. apply H; lia. }
      destruct (Nat.lt_total i j) as [Hlt1|[Heq|Hlt1]]; [left | contradiction | right]; apply Hlt; auto. }
  f_equal. apply spmd_ext. intros j Hj.
  assert (forall i, (i < P)%nat ->
     pyslice (nth i sbuf []) (mat sd i j) (mat sd i j + mat sc i j) =
     zslice (nth i sbuf []) (mat sd i j) (mat sd i j + mat sc i j)) as Hps.
  { intros i Hi. destruct (H i j Hi Hj) as (H1 & _ & [H2|[H2 H3]]).
    - rewrite H2, Z.add_0_r. unfold pyslice. now rewrite !zslice_empty by lia.
    - apply pyslice_zslice; lia. }
  assert (forall i, (i < P)%nat ->
     zlen (zslice (nth i sbuf []) (mat sd i j) (mat sd i j + mat sc i j)) = mat sc i j) as Hzl.
  { intros i Hi. destruct (H i j Hi Hj) as (H1 & _ & [H2|[H2 H3]]).
    - rewrite zslice_empty by lia. rewrite H2. reflexivity.
    - rewrite zlen_zslice; lia. }
  set (data := fun i => zslice (nth i sbuf []) (mat sd i j) (mat sd i j + mat sc i j)).
  assert (forall l, (forall i, In i l -> (i < P)%nat) -> forall b,
     fold_left (fun buf i => write_at buf (mat rd j i)
            (pyslice (nth i sbuf []) (mat sd i j) (mat sd i j + mat sc i j))) l b =
     fold_left (fun b i => write_at b (mat rd j i) (data i)) l b) as ->.
  { induction l as [|i is IH]; intros Hin b; [reflexivity|].
    cbn [fold_left]. rewrite Hps by (apply Hin; now left). apply IH. intros; apply Hin; now right. }
  2: { intros i Hi. apply in_seq in Hi. lia. }
  assert (spmd P (fun k => zlen (data k)) = spmd P (fun k => mat sc k j)) as Hsd
    by (apply spmd_ext; intros; apply Hzl; assumption).
  rewrite fold_write_consecutive.
  - now rewrite Hsd.
  - intros i Hi. rewrite Hoff by assumption. f_equal. apply spmd_ext. intros k Hk. symmetry. apply Hzl. lia.
  - rewrite Hsd. apply Hbl. assumption.
Qed.

Lemma mat_excl_cumsum m r k : (k < length (nth r m []))%nat -> (r < length m)%nat ->
  mat (map excl_cumsum m) r k = sumZ (firstn k (nth r m [])).
Proof.
  intros Hk Hr. unfold mat. rewrite nth_map_dflt with (d' := []) by assumption.
  now apply nth_excl_cumsum.
Qed.

(** The exchange idiom succeeds for send slices inside the send buffers, and each
    rank receives the slices sent to it in rank order. *)
Lemma exchange_ok {A} (junk : A) P (sbuf : list (list A)) sc sd :
  (forall i j, (i < P)%nat -> (j < P)%nat -> 0 <= mat sc i j /\
     (mat sc i j = 0 \/ 0 <= mat sd i j /\ mat sd i j + mat sc i j <= zlen (nth i sbuf []))) ->
  exchange junk P sbuf sc sd =
  Ok (spmd P (fun j => concat (spmd P (fun i =>
        zslice (nth i sbuf []) (mat sd i j) (mat sd i j + mat sc i j))))).
Proof.
  intro H. unfold exchange.
  set (rc := alltoall P sc).
  assert (length rc = P) as Hlrc by (unfold rc, alltoall; apply spmd_length).
  assert (forall r, (r < P)%nat ->
     zlen (nth r (map (fun c => repeat junk (Z.to_nat (sumZ c))) rc) []) = sumZ (spmd P (fun k => mat sc k r))) as Hbl.
  { intros r Hr. rewrite nth_map_dflt with (d' := []) by lia. unfold rc. rewrite nth_alltoall by assumption.
    unfold zlen. rewrite repeat_length.
    assert (0 <= sumZ (spmd P (fun k => mat sc k r))); [|lia].
    apply sumZ_nonneg. apply Forall_forall. intros x Hx. apply In_spmd in Hx.
    destruct Hx as (k & Hk & ->). apply H; assumption. }
  rewrite alltoallv_consecutive.
  - f_equal. apply spmd_ext. intros j Hj. rewrite skipn_all2; [apply app_nil_r|].
    specialize (Hbl j Hj). unfold zlen in Hbl. lia.
  - intros i j Hi Hj. destruct (H i j Hi Hj) as [H1 H2]. repeat split; auto.
    unfold rc. now apply mat_alltoall.
  - intros i j Hi Hj. rewrite mat_excl_cumsum; [|unfold rc; rewrite nth_alltoall, ?spmd_length by assumption; lia | lia].
    unfold rc. rewrite nth_alltoall by assumption. now rewrite sumZ_firstn_spmd by lia.
  - intros j Hj. rewrite Hbl by assumption. lia.
Qed.

(** *** n-d arrays: counts in rows, buffers flattened *)
Lemma zslice_concat_rows {A} nv (l : list (list A)) a b :
  (forall row, In row l -> zlen row = nv) -> 0 <= nv -> 0 <= a -> 0 <= b ->
  zslice (concat l) (nv * a) (nv * b) = concat (zslice l a b).
Proof.
  intros Hrow Hnv Ha Hb.
  assert (forall n, skipn (Z.to_nat nv * n) (concat l) = concat (skipn n l)) as Hs.
  { intro n. revert l Hrow. induction n as [|n IH]; intros l Hrow.
    - now rewrite Nat.mul_0_r.
    - destruct l as [|x l]; [now rewrite !skipn_nil|]. cbn [concat skipn].
      assert (length x = Z.to_nat nv) as Hx by (specialize (Hrow x ltac:(now left)); unfold zlen in Hrow; lia).
      rewrite skipn_app, Hx. replace (Z.to_nat nv * S n - Z.to_nat nv)%nat with (Z.to_nat nv * n)%nat by nia.
      rewrite skipn_all2 by nia. apply IH. intros; apply Hrow; now right. }
  assert (forall n (m : list (list A)), (forall row, In row m -> zlen row = nv) ->
     firstn (Z.to_nat nv * n) (concat m) = concat (firstn n m)) as Hf.
  { induction n as [|n IH]; intros m Hm.
    - now rewrite Nat.mul_0_r.
    - destruct m as [|x m]; [now rewrite !firstn_nil|]. cbn [concat firstn].
      assert (length x = Z.to_nat nv) as Hx by (specialize (Hm x ltac:(now left)); unfold zlen in Hm; lia).
      rewrite firstn_app, Hx. replace (Z.to_nat nv * S n - Z.to_nat nv)%nat with (Z.to_nat nv * n)%nat by nia.
      rewrite firstn_all2 by nia. f_equal. apply IH. intros; apply Hm; now right. }
  unfold zslice. rewrite !Z2Nat.inj_mul by lia. rewrite <- Nat.mul_sub_distr_l, Hs. apply Hf.
  intros row Hin. apply Hrow. rewrite <- (firstn_skipn (Z.to_nat a) l). apply in_or_app. now right.
Qed.

Lemma sumZ_scale k l : sumZ (scale k l) = k * sumZ l.
Proof. unfold scale. induction l as [|x l IH]; cbn [map sumZ]; [lia|]. rewrite IH. lia. Qed.

Lemma mat_scale nv m i j : mat (map (scale nv) m) i j = nv * mat m i j.
Proof.
  unfold mat. destruct (Nat.lt_ge_cases i (length m)) as [Hi|Hi].
  - rewrite nth_map_dflt with (d' := []) by assumption. unfold scale.
    destruct (Nat.lt_ge_cases j (length (nth i m []))) as [Hj|Hj].
    + now rewrite nth_map_dflt with (d' := 0) by assumption.
    + rewrite !nth_overflow; rewrite ?map_length; try lia.
  - rewrite (nth_overflow (map _ m)) by (rewrite map_length; lia). rewrite (nth_overflow m) by lia.
    cbn. destruct j; lia.
Qed.

Lemma sumZ_spmd_scale n f k : sumZ (spmd n (fun i => k * f i)) = k * sumZ (spmd n f).
Proof. rewrite <- sumZ_scale. unfold scale. now rewrite map_spmd. Qed.

Lemma sumZ_mat_scale n nv sc j :
  sumZ (spmd n (fun k => mat (map (scale nv) sc) k j)) = nv * sumZ (spmd n (fun k => mat sc k j)).
Proof. rewrite <- sumZ_spmd_scale. f_equal. apply spmd_ext. intros. apply mat_scale. Qed.

Lemma concat_concat_spmd {A} n (f : nat -> list (list A)) :
  concat (concat (spmd n f)) = concat (spmd n (fun i => concat (f i))).
Proof. induction n as [|n IH]; [reflexivity|]. rewrite !concat_spmd_app, concat_app, IH. reflexivity. Qed.

Lemma alltoallv_rows {A} nv P (rows : list (list (list A))) sc sd rbuf rc rd :
  0 <= nv ->
  (forall i row, (i < P)%nat -> In row (nth i rows []) -> zlen row = nv) -> length rows = P ->
  (forall i j, (i < P)%nat -> (j < P)%nat -> 0 <= mat sc i j /\ mat rc j i = mat sc i j /\
     (mat sc i j = 0 \/ 0 <= mat sd i j /\ mat sd i j + mat sc i j <= zlen (nth i rows []))) ->
  (forall i j, (i < P)%nat -> (j < P)%nat -> mat rd j i = sumZ (spmd i (fun k => mat sc k j))) ->
  (forall j, (j < P)%nat -> nv * sumZ (spmd P (fun k => mat sc k j)) = zlen (nth j rbuf [])) ->
  alltoallv P (map (@concat A) rows) (map (scale nv) sc) (map (scale nv) sd)
              rbuf (map (scale nv) rc) (map (scale nv) rd) =
  Ok (spmd P (fun j => concat (concat (spmd P (fun i =>
        zslice (nth i rows []) (mat sd i j) (mat sd i j + mat sc i j)))))).
Proof.
  intros Hnv Hrow HP H Hoff Hbl.
  assert (forall i, (i < P)%nat -> nth i (map (@concat A) rows) [] = concat (nth i rows [])) as Hn
    by (intros i Hi; apply nth_map_dflt; lia).
  assert (forall i, (i < P)%nat -> zlen (concat (nth i rows [])) = nv * zlen (nth i rows [])) as Hzl.
  { intros i Hi. specialize (Hrow i). rewrite zlen_concat.
    assert (forall row, In row (nth i rows []) -> zlen row = nv) as Hr by (intros; apply Hrow; auto).
    revert Hr. generalize (nth i rows []) as l. clear. induction l as [|x l IH]; intro Hr; [unfold zlen; cbn; lia|].
    cbn [map sumZ]. rewrite IH by (intros; apply Hr; now right). rewrite zlen_cons, (Hr x) by (now left). lia. }
  rewrite alltoallv_consecutive.
  - f_equal. apply spmd_ext. intros j Hj.
    rewrite skipn_all2, app_nil_r.
    + rewrite concat_concat_spmd. f_equal. apply spmd_ext. intros i Hi.
      rewrite !mat_scale, Hn by assumption. destruct (H i j Hi Hj) as (H1 & H2 & [H3|[H3 H4]]).
      * rewrite H3, Z.mul_0_r, !Z.add_0_r, !zslice_empty by lia. reflexivity.
      * rewrite <- Z.mul_add_distr_l. apply zslice_concat_rows; try lia. intros row Hr. now apply (Hrow i).
    + specialize (Hbl j Hj). rewrite sumZ_mat_scale. unfold zlen in Hbl. lia.
  - intros i j Hi Hj. rewrite !mat_scale. destruct (H i j Hi Hj) as (H1 & H2 & H3).
    rewrite Hn, Hzl, H2 by assumption. repeat split; try nia.
  - intros i j Hi Hj. rewrite mat_scale, Hoff by assumption.
    now rewrite sumZ_mat_scale.
  - intros j Hj. rewrite sumZ_mat_scale. rewrite Hbl by assumption. lia.
Qed.
