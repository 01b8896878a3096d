(** Proofs about fetch_elements. *)
From Verif.Base Require Import Prelude ListLemmas Order.
From Verif.Mpi Require Import CommModel CommProofs CutProofs.
From Verif.Psort Require Import MoveModel MoveProofs.
From Coq Require Import ZifyBool ZifyNat.

(** *** scatter through a permutation *)
Lemma np_put_length {A} (l : list A) idx vals : length (np_put l idx vals) = length l.
Proof.
  unfold np_put. revert l. induction (combine idx vals) as [|iv c IH]; intro l; cbn [fold_left]; [reflexivity|].
  rewrite IH. apply set_nth_length.
Qed.
Lemma np_put_other {A} (l : list A) idx vals k d : (forall i, In i idx -> 0 <= i < zlen l) ->
  ~ In (Z.of_nat k) idx -> nth k (np_put l idx vals) d = nth k l d.
Proof.
  unfold np_put. revert l vals. induction idx as [|i idx IH]; intros l vals Hr Hk; [reflexivity|].
  destruct vals as [|v vals]; [reflexivity|]. cbn [combine fold_left fst snd].
  rewrite IH.
  - rewrite nth_set_nth.
    + destruct (Nat.eqb_spec k (Z.to_nat i)) as [->|]; [|reflexivity].
      exfalso. apply Hk. left. specialize (Hr i ltac:(now left)). lia.
    + specialize (Hr i ltac:(now left)). unfold zlen in Hr. lia.
  - intros j Hj. unfold zlen. rewrite set_nth_length. apply Hr. now right.
  - intro H. apply Hk. now right.
Qed.
Lemma np_put_at {A} (l : list A) idx vals k d : NoDup idx -> (forall i, In i idx -> 0 <= i < zlen l) ->
  length vals = length idx -> (k < length idx)%nat ->
  nth (Z.to_nat (nth k idx 0)) (np_put l idx vals) d = nth k vals d.
Proof.
  unfold np_put. revert l vals k. induction idx as [|i idx IH]; intros l vals k Hnd Hr Hlen Hk; [cbn in Hk; lia|].
  destruct vals as [|v vals]; [discriminate|]. cbn [combine fold_left fst snd].
  inversion Hnd as [|i' idx' Hni Hnd']; subst.
  assert (forall j, In j idx -> 0 <= j < zlen (set_nth l (Z.to_nat i) v)) as Hr'
    by (intros j Hj; unfold zlen; rewrite set_nth_length; apply Hr; now right).
  assert (0 <= i < zlen l) as Hi by (apply Hr; now left).
  destruct k as [|k]; cbn [nth].
  - fold (np_put (set_nth l (Z.to_nat i) v) idx vals). rewrite np_put_other.
    + rewrite nth_set_nth by (unfold zlen in Hi; lia). now rewrite Nat.eqb_refl.
    + assumption.
    + rewrite Z2Nat.id by lia. assumption.
  - apply IH; auto; cbn in *; lia.
Qed.
(** [vals[idx] = vals] for a permutation that sorted the requests puts the value
    belonging to request k at position k *)
Lemma np_put_perm {A} (l : list A) idx (f : Z -> A) : Permutation idx (zseq 0 (length l)) ->
  np_put l idx (map f idx) = map f (zseq 0 (length l)).
Proof.
  intro HP. assert (length idx = length l) as Hlen by (rewrite (Permutation_length HP); apply zseq_length).
  assert (NoDup idx) as Hnd by (eapply Permutation_NoDup; [symmetry; exact HP | apply NoDup_zseq]).
  assert (forall i, In i idx -> 0 <= i < zlen l) as Hr.
  { intros i Hi. apply (Permutation_in _ HP) in Hi. apply In_zseq in Hi. unfold zlen. lia. }
  destruct l as [|a0 l0]; [destruct idx; [reflexivity | discriminate]|]. set (l := a0 :: l0) in *.
  apply list_ext_nth with (d := f 0).
  - now rewrite np_put_length, map_length, zseq_length.
  - intros k Hk. rewrite np_put_length in Hk. rewrite map_nth, nth_zseq by assumption.
    assert (In (Z.of_nat k) idx) as Hin.
    { apply (Permutation_in _ (Permutation_sym HP)). apply In_zseq. lia. }
    apply In_nth with (d := 0) in Hin. destruct Hin as (p & Hp & Ep).
    replace k with (Z.to_nat (nth p idx 0)) at 1 by lia.
    rewrite np_put_at; auto; [|now rewrite map_length].
    rewrite map_nth, Ep. f_equal.
Qed.

Lemma nth_tl {B} (l : list B) k d : nth k (tl l) d = nth (S k) l d.
Proof. destruct l; [destruct k; reflexivity | reflexivity]. Qed.
Lemma zslice_In {A} (l : list A) a b x : In x (zslice l a b) -> In x l.
Proof.
  unfold zslice. intro H. rewrite <- (firstn_skipn (Z.to_nat a) l). apply in_or_app. right.
  rewrite <- (firstn_skipn (Z.to_nat b - Z.to_nat a) (skipn (Z.to_nat a) l)). apply in_or_app. now left.
Qed.
Lemma zslice_In_nth {A} (l : list A) a b x d : 0 <= a -> In x (zslice l a b) ->
  exists k, (k < length l)%nat /\ a <= Z.of_nat k < b /\ x = nth k l d.
Proof.
  intros Ha H. apply In_nth with (d := d) in H. destruct H as (k & Hk & <-).
  rewrite zslice_length in Hk. exists (Z.to_nat a + k)%nat. rewrite nth_zslice by lia. repeat split; lia.
Qed.

Lemma mapM_seq_ok {B} (f : nat -> res B) (g : nat -> B) P :
  (forall r, (r < P)%nat -> f r = Ok (g r)) -> mapM f (seq 0 P) = Ok (spmd P g).
Proof. intro H. unfold spmd. apply mapM_map_ok. intros x Hx. apply in_seq in Hx. apply H. lia. Qed.

Section Fetch.
  Context {A : Type} (d : list (list A)) (index : list (list Z)).
  Hypothesis Hlen : length index = length d.
  Hypothesis Hrange : forall r i, (r < length d)%nat -> In i (nth r index []) -> 0 <= i < zlen (global d).
  Set Default Proof Using "All".
  Let P := length d.
  Let F := goff (nperproc d).
  Definition sidx (r : nat) : list Z :=
    map (fun i => nth (Z.to_nat i) (nth r index []) 0) (argsort ZOrd (nth r index [])).
  Definition fcut (r k : nat) : Z := count_lt ZOrd (F k) (sidx r).

  Lemma sidx_sorted r : sorted ZOrd (sidx r).
  Proof. apply is_argsort_sorted, argsort_is_argsort. Qed.
  Lemma sidx_perm r : Permutation (sidx r) (nth r index []).
  Proof. apply (is_argsort_perm ZOrd), argsort_is_argsort. Qed.
  Lemma sidx_range r i : (r < P)%nat -> In i (sidx r) -> 0 <= i < zlen (global d).
  Proof. intros Hr Hi. apply (Hrange r); [assumption|]. eapply Permutation_in; [apply sidx_perm | exact Hi]. Qed.
  Lemma sidx_len r : length (sidx r) = length (nth r index []).
  Proof. apply Permutation_length, sidx_perm. Qed.

  Lemma F_end : F P = zlen (global d).
  Proof. unfold F. rewrite goff_all by (rewrite nperproc_length; unfold P; lia). apply sum_nperproc. Qed.

  Lemma fcut_counts r : (r < P)%nat ->
    fetch_counts (excl_cumsum (nperproc d)) (sidx r) = spmd P (fun k => fcut r (S k) - fcut r k).
  Proof.
    intro Hr. unfold fetch_counts. set (fi := map (searchsorted_left ZOrd (sidx r)) (excl_cumsum (nperproc d))).
    assert (length fi = P) as Hfi by (unfold fi; rewrite map_length, excl_cumsum_length, nperproc_length; reflexivity).
    assert (forall k, (k < P)%nat -> nth k fi 0 = fcut r k) as Hnth.
    { intros k Hk. unfold fi. rewrite nth_map_dflt with (d' := 0) by (rewrite excl_cumsum_length, nperproc_length; exact Hk).
      rewrite nth_excl_goff by (rewrite nperproc_length; exact Hk). now rewrite ssl_count by apply sidx_sorted. }
    assert (length (map (fun x => x - 1) (tl fi) ++ [zlen (sidx r) - 1]) = P) as Hla.
    { rewrite app_length, map_length. destruct fi; cbn in *; lia. }
    apply list_ext_nth with (d := 0).
    - rewrite zipwith_length, spmd_length, Hla, Hfi. lia.
    - intros k Hk. rewrite zipwith_length, Hla, Hfi, Nat.min_id in Hk. rewrite nth_spmd by assumption.
      rewrite nth_zipwith with (da := 0) (db := 0) by lia. rewrite Hnth by assumption.
      destruct (Nat.lt_ge_cases (S k) P) as [Hk'|Hk'].
      + rewrite app_nth1 by (rewrite map_length; destruct fi; cbn in *; lia).
        rewrite nth_map_dflt with (d' := 0) by (destruct fi; cbn in *; lia).
        rewrite nth_tl, Hnth by assumption. lia.
      + assert (k = length (map (fun x => x - 1) (tl fi))) as Ek by (rewrite map_length; destruct fi; cbn in *; lia).
        rewrite Ek at 1. rewrite nth_middle.
        assert (fcut r (S k) = zlen (sidx r)) as ->; [|lia].
        unfold fcut. replace (S k) with P by lia. rewrite F_end. unfold count_lt. apply count_all.
        intros x Hx. apply sidx_range in Hx; [|exact Hr]. unfold ltb. cbn. lia.
  Qed.

  Lemma fcut_is_cut : is_cut P (spmd P sidx) (map (fetch_counts (excl_cumsum (nperproc d))) (spmd P sidx)) fcut.
  Proof.
    constructor.
    - intros i Hi. rewrite nth_map_dflt with (d' := []) by (now rewrite spmd_length).
      rewrite nth_spmd by assumption. now apply fcut_counts.
    - rewrite map_length. apply spmd_length.
    - intros i Hi. unfold fcut, F. rewrite goff_0. apply count_none. intros x Hx. apply sidx_range in Hx; [|exact Hi].
      unfold ltb. cbn. lia.
    - intros i k Hi Hk. unfold fcut. apply count_lt_mono. cbn. apply Z.leb_le. unfold F. apply goff_mono; [apply nperproc_nonneg | lia].
    - intros i Hi. rewrite nth_spmd by assumption. unfold fcut. rewrite F_end. apply count_all.
      intros x Hx. apply sidx_range in Hx; [|exact Hi]. unfold ltb. cbn. lia.
  Qed.

  (** requests routed to rank j are for elements on rank j *)
  Lemma fcut_slice_range i j x : (i < P)%nat -> (j < P)%nat ->
    In x (zslice (sidx i) (fcut i j) (fcut i (S j))) -> F j <= x < F (S j).
  Proof.
    intros Hi Hj Hx. apply zslice_In_nth with (d := 0) in Hx; [|apply count_nonneg].
    destruct Hx as (k & Hk & Hk2 & ->). unfold fcut in Hk2. rewrite <- !ssl_count in Hk2 by apply sidx_sorted.
    split.
    - pose proof (ssl_after ZOrd (sidx i) (F j) k 0 (sidx_sorted i) ltac:(lia) Hk) as H. unfold ltb in H. cbn in H. lia.
    - pose proof (ssl_before ZOrd (sidx i) (F (S j)) k 0 ltac:(lia)) as H. unfold ltb in H. cbn in H. lia.
  Qed.

  Variable dflt : A.
  Let get (x : Z) : A := nth (Z.to_nat x) (global d) dflt.

  Definition piece (i j : nat) : list Z := zslice (sidx i) (fcut i j) (fcut i (S j)).

  Lemma local_get j x : (j < P)%nat -> F j <= x < F (S j) ->
    0 <= x - F j < zlen (nth j d []) /\ nth (Z.to_nat (x - F j)) (nth j d []) dflt = get x.
  Proof.
    intros Hj Hx. unfold F in *. rewrite goff_S in Hx by (now rewrite nperproc_length).
    rewrite nth_nperproc in Hx by assumption. split; [lia|].
    unfold get, global. rewrite <- (nth_concat d j) by (assumption || (unfold zlen in Hx; lia)).
    f_equal. fold (nperproc d). fold (goff (nperproc d) j).
    pose proof (goff_mono (nperproc d) 0 j (nperproc_nonneg d) ltac:(lia)). rewrite goff_0 in *. lia.
  Qed.

  Definition fsc : list (list Z) := map (fetch_counts (excl_cumsum (nperproc d))) (spmd P sidx).
  Lemma fetch_request_ok :
    fetch_request d index = Ok {| f_idx := map (argsort ZOrd) index;
      f_sc := fsc;
      f_values := spmd P (fun j => concat (spmd P (fun i => map get (piece i j)))) |}.
  Proof.
    unfold fetch_request. fold P.
    rewrite (mapM_seq_ok _ sidx).
    2:{ intros r Hr. rewrite nth_map_dflt with (d' := []) by (rewrite Hlen; exact Hr).
        unfold sidx. apply np_take_ok. intros i Hi. now apply argsort_In in Hi. }
    cbn [bind]. rewrite (ic_exchange _ _ _ _ fcut_is_cut). cbn [bind].
    rewrite (mapM_seq_ok _ (fun j => concat (spmd P (fun i => map get (piece i j))))); [reflexivity|].
    intros j Hj. rewrite nth_spmd by assumption.
    rewrite nth_excl_goff by (now rewrite nperproc_length).
    rewrite np_take_ok with (d := dflt).
    - rewrite map_map, concat_map, map_spmd. do 2 f_equal. apply spmd_ext. intros i Hi.
      rewrite nth_spmd by assumption. apply map_ext_in. intros x Hx.
      apply local_get; [assumption|]. now apply (fcut_slice_range i j).
    - intros y Hy. apply in_map_iff in Hy. destruct Hy as (x & <- & Hx). apply in_concat in Hx.
      destruct Hx as (l & Hl & Hx). apply In_spmd in Hl. destruct Hl as (i & Hi & ->).
      rewrite nth_spmd in Hx by assumption. apply local_get; [assumption|]. now apply (fcut_slice_range i j).
  Qed.

  Lemma piece_len i j : (i < P)%nat -> (j < P)%nat -> zlen (piece i j) = fcut i (S j) - fcut i j.
  Proof.
    intros Hi Hj. pose proof (ic_zslice_len _ _ _ _ fcut_is_cut i j Hi Hj) as H.
    now rewrite nth_spmd in H by assumption.
  Qed.
  Lemma piece_concat i : (i < P)%nat -> concat (spmd P (piece i)) = sidx i.
  Proof.
    intro Hi. pose proof (ic_concat _ _ _ _ fcut_is_cut i Hi) as H. rewrite nth_spmd in H by assumption. exact H.
  Qed.

  Lemma unsort_sorted r : (r < P)%nat ->
    unsort (map get (sidx r)) (argsort ZOrd (nth r index [])) = Ok (map get (nth r index [])).
  Proof.
    intro Hr. unfold unsort. rewrite map_length, sidx_len, argsort_length, Nat.eqb_refl. f_equal.
    assert (map get (sidx r) = map (fun i => get (nth (Z.to_nat i) (nth r index []) 0)) (argsort ZOrd (nth r index []))) as E
      by (unfold sidx; now rewrite map_map).
    rewrite E at 2. rewrite np_put_perm.
    - rewrite map_length, sidx_len. rewrite <- (map_map (fun i => nth (Z.to_nat i) (nth r index []) 0) get).
      now rewrite map_nth_zseq.
    - rewrite map_length, sidx_len. apply argsort_perm.
  Qed.

  Lemma fetch_elements_out junk result :
    match result with None => True | Some b => length b = P /\ forall r, (r < P)%nat -> length (nth r b []) = length (nth r index []) end ->
    fetch_elements junk d index result = Ok (map (map get) index).
  Proof.
    intro Hres. unfold fetch_elements. fold P. rewrite fetch_request_ok. cbn [bind f_sc f_values f_idx].
    set (buffers := match result with None => _ | Some b => b end).
    assert (forall r, (r < P)%nat -> length (nth r buffers []) = length (nth r index [])) as Hb.
    { intros r Hr. unfold buffers. destruct result as [b|].
      - apply Hres. assumption.
      - rewrite nth_map_dflt with (d' := []) by (rewrite Hlen; exact Hr). apply repeat_length. }
    unfold fsc. rewrite (ic_back _ _ _ _ fcut_is_cut _ _ (fun i j => map get (piece i j))).
    - cbn [bind]. rewrite (mapM_seq_ok _ (fun r => map get (nth r index []))).
      + f_equal. rewrite <- (map_spmd P (fun r => nth r index []) (map get)). f_equal.
        unfold P. rewrite <- Hlen. apply spmd_nth.
      + intros r Hr. rewrite nth_spmd by assumption.
        rewrite nth_map_dflt with (d' := []) by (rewrite Hlen; exact Hr).
        rewrite (ic_end _ _ _ _ fcut_is_cut) by assumption. rewrite nth_spmd by assumption.
        rewrite skipn_all2 by (rewrite Hb, to_nat_zlen, sidx_len by assumption; lia). rewrite app_nil_r.
        rewrite <- (map_spmd P (piece r) (map get)), <- concat_map, piece_concat by assumption.
        now apply unsort_sorted.
    - intros j Hj. now rewrite nth_spmd.
    - intros i j Hi Hj. rewrite zlen_map. now apply piece_len.
    - intros i Hi. rewrite (ic_end _ _ _ _ fcut_is_cut) by assumption. rewrite nth_spmd by assumption.
      unfold zlen. rewrite Hb, sidx_len by assumption. lia.
  Qed.
End Fetch.

Lemma fetch_elements_ok {A} (junk dflt : A) d index result :
  length index = length d ->
  (forall r i, (r < length d)%nat -> In i (nth r index []) -> 0 <= i < zlen (global d)) ->
  match result with
  | None => True
  | Some b => map (@length A) b = map (@length Z) index
  end ->
  fetch_elements junk d index result = Ok (map (map (fun i => nth (Z.to_nat i) (global d) dflt)) index).
Proof.
  intros H1 H2 H3. apply (fetch_elements_out d index H1 H2 dflt). destruct result as [b|]; [|trivial].
  assert (length b = length index) as Hl by (rewrite <- (map_length (@length A)), H3; apply map_length).
  split; [lia|]. intros r Hr.
  rewrite <- (nth_map_dflt (@length A) b r 0%nat []) by lia. rewrite H3.
  now rewrite nth_map_dflt with (d' := []) by lia.
Qed.

(** *** rows *)
Lemma nth_concat_map {A} (r : nat) (d : list (list (list A))) :
  nth r (map (@concat A) d) [] = concat (nth r d []).
Proof. change (@nil A) with (concat (@nil (list A))). apply map_nth. Qed.

Lemma fetch_elements_nd_eq {A} (junk : A) (junkr : list A) nv d index result :
  0 <= nv -> (forall r row, (r < length d)%nat -> In row (nth r d []) -> zlen row = nv) ->
  length index = length d ->
  (forall r i, (r < length d)%nat -> In i (nth r index []) -> 0 <= i < zlen (global d)) ->
  match result with
  | None => True
  | Some b => map (@length (list A)) b = map (@length Z) index /\
              forall r row, In row (nth r b []) -> zlen row = nv
  end ->
  fetch_elements_nd junk nv d index result = fetch_elements junkr d index result.
Proof.
  intros Hnv Hrow H1 H2 H3.
  rewrite (fetch_elements_ok junkr [] d index result H1 H2) by (destruct result; tauto).
  unfold fetch_elements_nd. set (P := length d).
  rewrite (fetch_request_ok d index H1 H2 []). cbn [bind f_sc f_values f_idx]. fold P.
  pose proof (fcut_is_cut d index H1 H2) as C. fold P in C. fold (fsc d index) in C. fold P.
  set (sc := fsc d index) in *. set (get := fun x : Z => nth (Z.to_nat x) (global d) []).
  set (vals := spmd P (fun j => concat (spmd P (fun i => map get (piece d index i j))))).
  set (buffers := match result with None => _ | Some b => map (@concat A) b end).
  pose proof (ic_mat _ _ _ _ C) as Hm. pose proof (ic_displ _ _ _ _ C) as Hd.
  assert (forall i j, (i < P)%nat -> (j < P)%nat -> 0 <= fcut d index i j <= fcut d index i (S j)) as Hr.
  { intros i j Hi Hj. pose proof (ic_mono _ _ _ _ C i j Hi Hj). pose proof (ic_range _ _ _ _ C i j Hi ltac:(lia)). lia. }
  assert (forall r, (r < P)%nat -> zlen (nth r buffers []) = nv * zlen (nth r index [])) as Hb.
  { intros r Hr'. unfold buffers. destruct result as [b|].
    - rewrite nth_concat_map.
      assert (length b = length index) as Hl by (rewrite <- (map_length (@length (list A)) b), (proj1 H3); apply map_length).
      assert (zlen (nth r index []) = zlen (nth r b [])) as ->.
      { unfold zlen. f_equal. rewrite <- (nth_map_dflt (@length Z) index r 0%nat []) by (rewrite H1; exact Hr').
        rewrite <- (proj1 H3). rewrite nth_map_dflt with (d' := []) by (rewrite Hl, H1; exact Hr'). reflexivity. }
      rewrite zlen_concat. rewrite (sumZ_map_ext_in _ (fun _ => nv)); [|intros row Hin; eapply H3; eassumption].
      apply sumZ_map_const.
    - rewrite nth_map_dflt with (d' := []) by (rewrite H1; exact Hr'). unfold zlen. rewrite repeat_length. lia. }
  assert (forall i j, (i < P)%nat -> (j < P)%nat -> zlen (map get (piece d index i j)) = mat sc i j) as Hpl.
  { intros i j Hi Hj. rewrite zlen_map, (piece_len d index H1 H2) by assumption. now rewrite Hm. }
  assert (forall i j, (i < P)%nat -> (j < P)%nat -> mat (map excl_cumsum (alltoall P sc)) j i = sumZ (spmd i (fun k => mat sc k j))) as Hrd.
  { intros i j Hi Hj. rewrite mat_excl_cumsum.
    - rewrite nth_alltoall by assumption. now rewrite sumZ_firstn_spmd by lia.
    - rewrite nth_alltoall, spmd_length; assumption.
    - unfold alltoall. now rewrite spmd_length. }
  assert (forall j, (j < P)%nat -> nth j vals [] = concat (spmd P (fun i => map get (piece d index i j)))) as Hvals.
  { intros j Hj. unfold vals. now rewrite nth_spmd. }
  assert (forall x, 0 <= x < zlen (global d) -> zlen (get x) = nv) as Hget.
  { intros x Hx. unfold get. assert (In (nth (Z.to_nat x) (global d) []) (global d)) as Hin
      by (apply nth_In; unfold zlen in Hx; lia).
    revert Hin. generalize (nth (Z.to_nat x) (global d) []). intros row Hin.
    unfold global in Hin. apply in_concat in Hin. destruct Hin as (l & Hl & Hin).
    apply In_nth with (d := []) in Hl. destruct Hl as (r & Hr' & <-). eauto. }
  assert (forall i x, (i < P)%nat -> In x (sidx index i) -> 0 <= x < zlen (global d)) as Hsr
    by (intros i x; apply (sidx_range d index H1 H2)).
  assert (forall i j, (i < P)%nat -> (j < P)%nat ->
    zslice (nth j vals []) (mat (map excl_cumsum (alltoall P sc)) j i)
      (mat (map excl_cumsum (alltoall P sc)) j i + mat (alltoall P sc) j i) = map get (piece d index i j)) as Hsl.
  { intros i j Hi Hj. rewrite mat_alltoall, Hrd, Hvals by assumption.
    rewrite zslice_concat, spmd_length.
    set (off := sumZ (spmd i (fun k => mat sc k j))).
    assert (forall k, (k <= P)%nat -> sumZ (firstn k (map zlen (spmd P (fun i0 => map get (piece d index i0 j))))) =
                 sumZ (spmd k (fun k => mat sc k j))) as Hoff.
    { intros k Hk. rewrite map_spmd, sumZ_firstn_spmd by assumption. f_equal. apply spmd_ext.
      intros q Hq. apply Hpl; lia. }
    assert (forall k, (k < P)%nat -> 0 <= mat sc k j) as Hnn.
    { intros k Hk. rewrite Hm by assumption. specialize (Hr k j Hk Hj). lia. }
    rewrite (spmd_ext P _ (fun k => if (k =? i)%nat then map get (piece d index i j) else [])).
    - clear -Hi. assert (forall n, (n <= P)%nat -> concat (spmd n (fun k => if (k =? i)%nat then map get (piece d index i j) else []))
               = if (i <? n)%nat then map get (piece d index i j) else []) as H.
      { induction n as [|n IH]; intro Hn; [reflexivity|]. rewrite concat_spmd_app, IH by lia.
        destruct (Nat.ltb_spec i n), (Nat.eqb_spec n i), (Nat.ltb_spec i (S n)); try lia; rewrite ?app_nil_r; reflexivity. }
      rewrite H by lia. destruct (Nat.ltb_spec i P); [reflexivity | lia].
    - intros k Hk. rewrite nth_spmd, Hoff by (assumption || lia).
      assert (sumZ (spmd (S k) (fun q => mat sc q j)) = sumZ (spmd k (fun q => mat sc q j)) + mat sc k j) as HS.
      { rewrite spmd_S, sumZ_app. cbn [sumZ]. lia. }
      destruct (Nat.eqb_spec k i) as [->|Hne].
      + apply zslice_all; [unfold off; lia|]. rewrite Hpl by assumption. unfold off. lia.
      + destruct (Nat.lt_ge_cases k i) as [Hlt|Hge].
        * apply zslice_past. rewrite Hpl by assumption. unfold off.
          pose proof (sumZ_spmd_mono (fun q => mat sc q j) (S k) i ltac:(lia) ltac:(intros; apply Hnn; lia)). lia.
        * apply zslice_neg. unfold off.
          pose proof (sumZ_spmd_mono (fun q => mat sc q j) (S i) k ltac:(lia) ltac:(intros; apply Hnn; lia)) as Hq.
          rewrite spmd_S, sumZ_app in Hq. cbn [sumZ] in Hq. lia. }
  assert (forall i, (i < P)%nat -> sumZ (spmd P (fun k => mat sc i k)) = zlen (nth i index [])) as Hsum.
  { intros i Hi. rewrite (spmd_ext P (fun k => mat sc i k) (fun k => fcut d index i (S k) - fcut d index i k)) by (intros; now apply Hm).
    rewrite (sumZ_telescope (fcut d index i)), (ic_b0 _ _ _ _ C), (ic_end _ _ _ _ C), nth_spmd by assumption.
    unfold zlen. rewrite (sidx_len d index H1 H2). lia. }
  assert (forall i, (i < P)%nat -> spmd P (fun k => mat (alltoall P sc) k i) = spmd P (fun k => mat sc i k)) as Hat
    by (intros i Hi; apply spmd_ext; intros; now apply mat_alltoall).
  rewrite alltoallv_rows; auto.
  - cbn [bind]. rewrite (mapM_seq_ok _ (fun r => map get (nth r index []))).
    + f_equal. rewrite <- (map_spmd P (fun r => nth r index []) (map get)). f_equal.
      unfold P. rewrite <- H1. apply spmd_nth.
    + intros i Hi. rewrite nth_spmd by assumption.
      rewrite nth_map_dflt with (d' := []) by (rewrite H1; exact Hi).
      rewrite (spmd_ext P _ (fun j => map get (piece d index i j))) by (intros; now apply Hsl).
      rewrite <- (map_spmd P (piece d index i) (map get)), <- concat_map.
      rewrite (piece_concat d index H1 H2 []) by exact Hi.
      assert (zlen (nth i index []) = zlen (map get (sidx index i))) as ->
        by (rewrite zlen_map; unfold zlen; now rewrite (sidx_len d index H1 H2)).
      rewrite rows_of_concat.
      * now apply (unsort_sorted d index H1 H2 []).
      * intros row Hin. apply in_map_iff in Hin. destruct Hin as (x & <- & Hx). eauto.
  - intros j row Hj Hin. rewrite Hvals in Hin by assumption. revert row Hin. apply concat_spmd_rows.
    intros i row Hi Hin. apply in_map_iff in Hin. destruct Hin as (x & <- & Hx). apply Hget.
    apply (Hsr i); [assumption|]. unfold piece in Hx. now apply zslice_In in Hx.
  - unfold vals. apply spmd_length.
  - intros i j Hi Hj. rewrite mat_alltoall by assumption.
    assert (0 <= mat sc j i) by (rewrite Hm by assumption; specialize (Hr j i Hj Hi); lia).
    split; [assumption|]. split; [reflexivity|]. right.
    rewrite Hrd by assumption.
    assert (forall k, (k < P)%nat -> 0 <= mat sc k i) as Hnn.
    { intros k Hk. rewrite Hm by assumption. specialize (Hr k i Hk Hi). lia. }
    split.
    + pose proof (sumZ_spmd_mono (fun q => mat sc q i) 0 j ltac:(lia) ltac:(intros; apply Hnn; lia)). cbn in *. lia.
    + rewrite Hvals, zlen_concat, map_spmd by assumption.
      rewrite (spmd_ext P (fun r => zlen (map get (piece d index r i))) (fun r => mat sc r i)) by (intros; now apply Hpl).
      pose proof (sumZ_spmd_mono (fun q => mat sc q i) (S j) P ltac:(lia) ltac:(intros; apply Hnn; lia)) as Hq.
      rewrite spmd_S, sumZ_app in Hq. cbn [sumZ] in Hq. lia.
  - intros i j Hi Hj. rewrite Hd by assumption.
    rewrite (spmd_ext i (fun k => mat (alltoall P sc) k j) (fun k => mat sc j k)) by (intros; apply mat_alltoall; lia).
    rewrite (spmd_ext i (fun k => mat sc j k) (fun k => fcut d index j (S k) - fcut d index j k)) by (intros; apply Hm; lia).
    rewrite (sumZ_telescope (fcut d index j)), (ic_b0 _ _ _ _ C) by assumption. lia.
  - intros i Hi. rewrite Hb, Hat, Hsum by assumption. reflexivity.
Qed.

(** *** an index beyond the end raises *)
Lemma py_nth_err {A} (l : list A) i e : py_nth l i = Err e -> e = EIndex.
Proof.
  unfold py_nth. set (j := if i <? 0 then _ else _). destruct (_ || _); [congruence|].
  destruct (nth_error l (Z.to_nat j)); congruence.
Qed.
Lemma np_take_err {A} (l : list A) idx i : In i idx -> zlen l <= i -> np_take l idx = Err EIndex.
Proof.
  intros Hin Hi. unfold np_take. induction idx as [|j idx IH]; [destruct Hin|]. cbn [mapM].
  destruct (py_nth l j) as [a|e] eqn:E.
  - cbn [bind]. destruct Hin as [->|Hin].
    + exfalso. unfold py_nth in E. destruct (Z.ltb_spec i 0); [pose proof (zlen_nonneg l); lia|].
      destruct (Z.leb_spec (zlen l) i); [|lia]. rewrite orb_true_r in E. discriminate.
    + now rewrite IH.
  - cbn [bind]. f_equal. eapply py_nth_err; eassumption.
Qed.
Lemma mapM_err_at {A B} (f : A -> res B) l x e : (forall y e', In y l -> f y = Err e' -> e' = e) ->
  In x l -> f x = Err e -> mapM f l = Err e.
Proof.
  intros H Hin Hx. induction l as [|y l IH]; [destruct Hin|]. cbn [mapM].
  destruct (f y) as [b|e'] eqn:E.
  - cbn [bind]. destruct Hin as [->|Hin]; [congruence|]. rewrite IH; auto. intros; eapply H; [right|]; eassumption.
  - cbn [bind]. f_equal. apply (H y); [now left | assumption].
Qed.
Lemma np_take_err_inv {A} (l : list A) idx e : np_take l idx = Err e -> e = EIndex.
Proof.
  unfold np_take. induction idx as [|j idx IH]; cbn [mapM]; [discriminate|].
  destruct (py_nth l j) eqn:E; cbn [bind].
  - destruct (mapM (py_nth l) idx) eqn:E2; cbn [bind]; [discriminate|]. intro H. injection H as <-. now apply IH.
  - intro H. injection H as <-. eapply py_nth_err; eassumption.
Qed.

Section FetchBad.
  Context {A : Type} (d : list (list A)) (index : list (list Z)).
  Hypothesis Hlen : length index = length d.
  Hypothesis Hpos : forall r i, (r < length d)%nat -> In i (nth r index []) -> 0 <= i.
  Set Default Proof Using "All".
  Let P := length d.
  Let F := goff (nperproc d).
  Definition bcut (r k : nat) : Z :=
    if (k =? P)%nat then zlen (sidx index r) else count_lt ZOrd (F k) (sidx index r).

  Lemma bsorted r : sorted ZOrd (sidx index r).
  Proof. apply is_argsort_sorted, argsort_is_argsort. Qed.

  Lemma bcut_is_cut : is_cut P (spmd P (sidx index)) (map (fetch_counts (excl_cumsum (nperproc d))) (spmd P (sidx index))) bcut.
  Proof.
    constructor.
    - intros r Hr. rewrite nth_map_dflt with (d' := []) by (now rewrite spmd_length).
      rewrite nth_spmd by assumption. unfold fetch_counts.
      set (fi := map (searchsorted_left ZOrd (sidx index r)) (excl_cumsum (nperproc d))).
      assert (length fi = P) as Hfi by (unfold fi; rewrite map_length, excl_cumsum_length, nperproc_length; reflexivity).
      assert (forall k, (k < P)%nat -> nth k fi 0 = count_lt ZOrd (F k) (sidx index r)) as Hnth.
      { intros k Hk. unfold fi. rewrite nth_map_dflt with (d' := 0) by (rewrite excl_cumsum_length, nperproc_length; exact Hk).
        rewrite nth_excl_goff by (rewrite nperproc_length; exact Hk). now rewrite ssl_count by apply bsorted. }
      assert (length (map (fun x => x - 1) (tl fi) ++ [zlen (sidx index r) - 1]) = P) as Hla.
      { rewrite app_length, map_length. destruct fi; cbn in *; lia. }
      apply list_ext_nth with (d := 0).
      + rewrite zipwith_length, spmd_length, Hla, Hfi. lia.
      + intros k Hk. rewrite zipwith_length, Hla, Hfi, Nat.min_id in Hk. rewrite nth_spmd by assumption.
        rewrite nth_zipwith with (da := 0) (db := 0) by lia. rewrite Hnth by assumption. unfold bcut.
        destruct (Nat.eqb_spec k P); [lia|].
        destruct (Nat.eqb_spec (S k) P) as [Hk'|Hk'].
        * assert (k = length (map (fun x => x - 1) (tl fi))) as Ek by (rewrite map_length; destruct fi; cbn in *; lia).
          rewrite Ek at 1. rewrite nth_middle. lia.
        * rewrite app_nth1 by (rewrite map_length; destruct fi; cbn in *; lia).
          rewrite nth_map_dflt with (d' := 0) by (destruct fi; cbn in *; lia).
          rewrite nth_tl, Hnth by lia. lia.
    - rewrite map_length. apply spmd_length.
    - intros i Hi. unfold bcut. destruct (Nat.eqb_spec 0 P); [lia|].
      unfold F. rewrite goff_0. apply count_none. intros x Hx. unfold ltb. cbn.
      assert (In x (nth i index [])) as Hx' by (eapply Permutation_in; [apply (is_argsort_perm ZOrd), argsort_is_argsort | exact Hx]).
      pose proof (Hpos i x Hi Hx'). lia.
    - intros i k Hi Hk. unfold bcut. destruct (Nat.eqb_spec k P); [lia|]. destruct (Nat.eqb_spec (S k) P).
      + apply count_le_zlen.
      + apply count_lt_mono. apply Z.leb_le. unfold F. apply goff_mono; [apply nperproc_nonneg | lia].
    - intros i Hi. rewrite nth_spmd by assumption. unfold bcut. now rewrite Nat.eqb_refl.
  Qed.

  Lemma fetch_request_err r i : (r < P)%nat -> In i (nth r index []) -> zlen (global d) <= i ->
    fetch_request d index = Err EIndex.
  Proof.
    intros Hr Hin Hi. unfold fetch_request. fold P.
    rewrite (mapM_seq_ok _ (sidx index)).
    2:{ intros q Hq. rewrite nth_map_dflt with (d' := []) by (rewrite Hlen; exact Hq).
        unfold sidx. apply np_take_ok. intros j Hj. now apply argsort_In in Hj. }
    cbn [bind]. rewrite (ic_exchange _ _ _ _ bcut_is_cut). cbn [bind].
    rewrite (mapM_err_at _ _ (P - 1)%nat EIndex); [reflexivity | | apply in_seq; lia |].
    - intros y e' _. apply np_take_err_inv.
    - set (j := (P - 1)%nat). assert (j < P)%nat as Hj by (unfold j; lia). rewrite nth_spmd by assumption.
      rewrite nth_excl_goff by (now rewrite nperproc_length). fold F.
      assert (goff (nperproc d) (S j) = zlen (global d)) as Hend.
      { rewrite goff_all by (rewrite nperproc_length; fold P; unfold j; lia). apply sum_nperproc. }
      rewrite goff_S in Hend by (now rewrite nperproc_length). rewrite nth_nperproc in Hend by exact Hj. fold F in Hend.
      apply np_take_err with (i := i - F j); [|lia].
      apply (in_map (fun x => x - goff (nperproc d) j)). apply in_concat. exists (zslice (sidx index r) (bcut r j) (bcut r (S j))). split.
      + apply In_spmd. exists r. split; [assumption|]. now rewrite nth_spmd.
      + assert (In i (sidx index r)) as His.
        { eapply Permutation_in; [symmetry; apply (is_argsort_perm ZOrd), argsort_is_argsort | exact Hin]. }
        assert (bcut r (S j) = zlen (sidx index r)) as ->.
        { unfold bcut. replace (S j) with P by (unfold j; lia). now rewrite Nat.eqb_refl. }
        rewrite <- (firstn_skipn (Z.to_nat (bcut r j)) (sidx index r)) in His. apply in_app_or in His.
        destruct His as [His|His].
        * exfalso. apply In_nth with (d := 0) in His. destruct His as (k & Hk & Ek).
          assert (k < Z.to_nat (bcut r j))%nat as Hk' by (rewrite firstn_length in Hk; lia).
          rewrite nth_firstn in Ek by assumption. unfold bcut in Hk'. destruct (Nat.eqb_spec j P); [lia|].
          rewrite <- ssl_count in Hk' by apply bsorted.
          pose proof (ssl_before ZOrd (sidx index r) (F j) k 0 ltac:(lia)) as H. unfold ltb in H. cbn in H.
          pose proof (zlen_nonneg (nth j d [])). lia.
        * unfold zslice. rewrite firstn_all2; [exact His|]. rewrite skipn_length. unfold zlen. lia.
  Qed.
End FetchBad.

Lemma fetch_elements_raises {A} (junk : A) d index result r i :
  length index = length d -> (forall r i, (r < length d)%nat -> In i (nth r index []) -> 0 <= i) ->
  (r < length d)%nat -> In i (nth r index []) -> zlen (global d) <= i ->
  fetch_elements junk d index result = Err EIndex.
Proof.
  intros H1 H2 H3 H4 H5. unfold fetch_elements. rewrite (fetch_request_err d index H1 H2 r i H3 H4 H5). reflexivity.
Qed.
