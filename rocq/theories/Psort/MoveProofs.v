(** Proofs about repartition and fetch_elements. *)
From Verif.Base Require Import Prelude ListLemmas Order.
From Verif.Mpi Require Import CommModel CommProofs CutProofs.
From Verif.Psort Require Import MoveModel.
From Coq Require Import ZifyBool ZifyNat.

(** offset of rank k's elements in the global array *)
Definition goff (n : list Z) (k : nat) : Z := sumZ (firstn k n).

Arguments goff : simpl never.
Lemma goff_0 n : goff n 0 = 0. Proof. reflexivity. Qed.
Lemma goff_S n k : (k < length n)%nat -> goff n (S k) = goff n k + nth k n 0.
Proof.
  unfold goff. revert k; induction n as [|x n IH]; intros k Hk; [cbn in Hk; lia|].
  destruct k as [|k]; cbn [firstn sumZ nth]; [lia|].
  specialize (IH k ltac:(cbn in Hk; lia)). cbn [firstn] in IH. lia.
Qed.
Lemma goff_all n k : (length n <= k)%nat -> goff n k = sumZ n.
Proof. intro H. unfold goff. now rewrite firstn_all2. Qed.
Lemma goff_mono n i j : Forall (fun x => 0 <= x) n -> (i <= j)%nat -> goff n i <= goff n j.
Proof.
  intros Hn Hij. induction Hij as [|j Hij IH]; [lia|].
  destruct (Nat.lt_ge_cases j (length n)) as [H|H].
  - rewrite goff_S by assumption. rewrite Forall_nth in Hn. specialize (Hn j 0 H). lia.
  - rewrite (goff_all n (S j)) by lia. rewrite (goff_all n j) in IH by lia. exact IH.
Qed.
Lemma nperproc_length {A} (d : list (list A)) : length (nperproc d) = length d.
Proof. unfold nperproc. apply map_length. Qed.
Lemma nth_nperproc {A} (d : list (list A)) r : (r < length d)%nat -> nth r (nperproc d) 0 = zlen (nth r d []).
Proof. intro H. unfold nperproc. now rewrite nth_map_dflt with (d' := []). Qed.
Lemma nperproc_nonneg {A} (d : list (list A)) : Forall (fun x => 0 <= x) (nperproc d).
Proof. apply Forall_nonneg_zlen. Qed.
Lemma sum_nperproc {A} (d : list (list A)) : sumZ (nperproc d) = zlen (concat d).
Proof. unfold nperproc. now rewrite zlen_concat. Qed.

Lemma nth_excl_goff n k : (k < length n)%nat -> nth k (excl_cumsum n) 0 = goff n k.
Proof. intro H. now apply nth_excl_cumsum. Qed.

(** *** repartition *)
Section Repartition.
  Context {A : Type} (d : list (list A)) (nd : list Z).
  Hypothesis Hlen : length nd = length d.
  Hypothesis Hnn : Forall (fun x => 0 <= x) nd.
  Hypothesis Hsum : sumZ (nperproc d) = sumZ nd.
  Set Default Proof Using "All".
  Let P := length d.
  Let nin := nperproc d.

  Definition rcut (r k : nat) : Z := Z.min (Z.max 0 (goff nd k - goff nin r)) (nth r nin 0).

  Lemma rcut_counts r : (r < P)%nat ->
    repartition_counts nin nd P r = spmd P (fun k => rcut r (S k) - rcut r k).
  Proof.
    intro Hr. unfold repartition_counts. apply spmd_ext. intros k Hk. cbv zeta.
    assert (length nin = P) as Hl by apply nperproc_length.
    rewrite !nth_excl_goff by (unfold P in *; lia). unfold rcut. rewrite goff_S by (unfold P in *; lia).
    pose proof Hnn as Hnn'. rewrite Forall_nth in Hnn'. specialize (Hnn' k 0 ltac:(unfold P in *; lia)).
    pose proof (nperproc_nonneg d) as Hn2. rewrite Forall_nth in Hn2. specialize (Hn2 r 0 ltac:(fold nin; lia)).
    fold nin in Hn2. lia.
  Qed.

  Lemma rcut_mono r k : (r < P)%nat -> rcut r k <= rcut r (S k).
  Proof. intro Hr. unfold rcut. pose proof (goff_mono nd k (S k) Hnn ltac:(lia)). lia. Qed.
  Lemma rcut_0 r : (r < P)%nat -> rcut r 0 = 0.
  Proof.
    intro Hr. unfold rcut. rewrite goff_0.
    pose proof (goff_mono nin 0 r (nperproc_nonneg d) ltac:(lia)). rewrite goff_0 in *.
    pose proof (nperproc_nonneg d) as Hn2. rewrite Forall_nth in Hn2.
    specialize (Hn2 r 0 ltac:(rewrite nperproc_length; exact Hr)). unfold nin in *. lia.
  Qed.
  Lemma rcut_end r : (r < P)%nat -> rcut r P = zlen (nth r d []).
  Proof.
    intro Hr. unfold rcut. rewrite goff_all by (unfold P; lia). rewrite <- Hsum.
    assert (length nin = P) as Hl by apply nperproc_length.
    pose proof (goff_mono nin (S r) P (nperproc_nonneg d) ltac:(lia)) as H.
    rewrite goff_S in H by lia. rewrite (goff_all nin P) in H by lia.
    rewrite <- nth_nperproc by exact Hr. fold nin.
    pose proof (nperproc_nonneg d) as Hn2. rewrite Forall_nth in Hn2. specialize (Hn2 r 0 ltac:(fold nin; lia)).
    fold nin in Hn2. unfold nin in *. lia.
  Qed.

  Lemma rcut_slice r k : (r < P)%nat -> (k < P)%nat ->
    zslice (nth r d []) (rcut r k) (rcut r (S k)) =
    zslice (nth r d []) (goff nd k - goff nin r) (goff nd (S k) - goff nin r).
  Proof.
    intros Hr Hk. unfold rcut. unfold nin at 2 4. rewrite nth_nperproc by exact Hr.
    pose proof (goff_mono nd k (S k) Hnn ltac:(lia)).
    set (a := goff nd k - goff nin r). set (c := goff nd (S k) - goff nin r).
    assert (a <= c) by (unfold a, c; lia). clearbody a c. clear - H0.
    unfold zslice, zlen. set (l := nth r d []).
    destruct (Z.le_gt_cases (Z.of_nat (length l)) a) as [Ha|Ha].
    - rewrite !skipn_all2 by lia. now rewrite !firstn_nil.
    - replace (Z.to_nat (Z.min (Z.max 0 a) (Z.of_nat (length l)))) with (Z.to_nat a) by lia.
      destruct (Z.le_gt_cases (Z.of_nat (length l)) c) as [Hc|Hc].
      + rewrite !firstn_all2 by (rewrite skipn_length; lia). reflexivity.
      + f_equal. lia.
  Qed.

  Definition repart_out : list (list A) :=
    spmd P (fun k => zslice (concat d) (goff nd k) (goff nd (S k))).

  Lemma repartition_slices : spmd P (fun j => concat (spmd P (fun i => zslice (nth i d []) (rcut i j) (rcut i (S j)))))
    = repart_out.
  Proof.
    unfold repart_out. apply spmd_ext. intros k Hk. rewrite zslice_concat. f_equal.
    apply spmd_ext. intros r Hr. now apply rcut_slice.
  Qed.

  Lemma rcut_is_cut : is_cut P d (spmd P (repartition_counts nin nd P)) rcut.
  Proof.
    constructor.
    - intros i Hi. rewrite nth_spmd by assumption. now apply rcut_counts.
    - apply spmd_length.
    - apply rcut_0.
    - intros; now apply rcut_mono.
    - apply rcut_end.
  Qed.

  Lemma repartition_out junk : repartition junk d nd = Ok repart_out.
  Proof.
    unfold repartition. rewrite Hsum, Z.eqb_refl. cbn [negb].
    destruct (Nat.ltb_spec (length nd) (length d)) as [H|H]; [lia|]. fold P nin.
    rewrite (ic_exchange _ _ _ _ rcut_is_cut). now rewrite repartition_slices.
  Qed.

  Lemma repart_out_global : global repart_out = global d.
  Proof.
    unfold global, repart_out. rewrite (concat_zslices (concat d) (goff nd)).
    - rewrite goff_0, goff_all, <- Hsum, sum_nperproc by (unfold P; lia). apply zslice_all; lia.
    - intros k Hk. apply goff_mono; auto.
  Qed.
  Lemma repart_out_sizes : nperproc repart_out = nd.
  Proof.
    apply list_ext_nth with (d := 0).
    - unfold repart_out. rewrite nperproc_length, spmd_length. unfold P. lia.
    - intros k Hk. unfold repart_out in *. rewrite nperproc_length, spmd_length in Hk.
      rewrite nth_nperproc by (rewrite spmd_length; assumption). rewrite nth_spmd by assumption.
      assert (0 <= goff nd k) by (rewrite <- (goff_0 nd); apply goff_mono; auto; lia).
      assert (goff nd k <= goff nd (S k)) by (apply goff_mono; auto).
      assert (goff nd (S k) <= goff nd P) by (apply goff_mono; auto; lia).
      rewrite (goff_all nd P) in * by (unfold P; lia). rewrite <- Hsum, sum_nperproc in *.
      rewrite zlen_zslice by lia. rewrite goff_S in * by (unfold P in *; lia). lia.
  Qed.
End Repartition.

Lemma repartition_ok {A} (junk : A) d nd :
  length nd = length d -> Forall (fun x => 0 <= x) nd -> sumZ nd = zlen (global d) ->
  exists out, repartition junk d nd = Ok out /\ global out = global d /\ map zlen out = nd.
Proof.
  intros H1 H2 H3. assert (sumZ (nperproc d) = sumZ nd) as Hs by (rewrite H3; apply sum_nperproc).
  eexists. split; [now apply repartition_out|]. split.
  - now apply repart_out_global.
  - now apply repart_out_sizes.
Qed.

Lemma repartition_abort {A} (junk : A) d nd : sumZ nd <> zlen (global d) -> repartition junk d nd = Err EAbort.
Proof.
  intro H. unfold repartition. rewrite sum_nperproc. destruct (Z.eqb_spec (zlen (concat d)) (sumZ nd)) as [E|E].
  - unfold global in H. lia.
  - reflexivity.
Qed.

(** rows *)
Lemma rows_of_concat {A} nv (rows : list (list A)) :
  (forall row, In row rows -> zlen row = nv) -> rows_of nv (zlen rows) (concat rows) = rows.
Proof.
  intro H. unfold rows_of. destruct rows as [|r0 rows']; [reflexivity|]. set (rows := r0 :: rows') in *.
  assert (0 <= nv) as Hnv by (rewrite <- (H r0 ltac:(now left)); apply zlen_nonneg).
  apply list_ext_nth with (d := []).
  - rewrite map_length, zseq_length. unfold zlen. lia.
  - intros k Hk. rewrite map_length, zseq_length in Hk.
    rewrite nth_map_dflt with (d' := 0) by (rewrite zseq_length; exact Hk).
    rewrite nth_zseq by exact Hk. rewrite Z.add_0_l.
    rewrite zslice_concat_rows by (assumption || lia).
    assert (k < length rows)%nat as Hk' by (unfold zlen in Hk; lia).
    unfold zslice. replace (Z.to_nat (Z.of_nat k + 1) - Z.to_nat (Z.of_nat k))%nat with 1%nat by lia.
    rewrite Nat2Z.id. clear -Hk'. revert k Hk'. induction rows as [|x l IH]; intros k Hk; [cbn in Hk; lia|].
    destruct k as [|k]; cbn [skipn nth].
    + cbn. apply app_nil_r.
    + apply IH. cbn in Hk. lia.
Qed.

Lemma concat_spmd_rows {A} nv P (f : nat -> list (list A)) :
  (forall i row, (i < P)%nat -> In row (f i) -> zlen row = nv) ->
  forall row, In row (concat (spmd P f)) -> zlen row = nv.
Proof.
  intros H row Hin. apply in_concat in Hin. destruct Hin as (l & Hl & Hr). apply In_spmd in Hl.
  destruct Hl as (i & Hi & ->). eauto.
Qed.

Lemma repartition_nd_eq {A} (junk : A) (junkr : list A) nv d nd :
  0 <= nv -> (forall r row, (r < length d)%nat -> In row (nth r d []) -> zlen row = nv) ->
  length nd = length d -> Forall (fun x => 0 <= x) nd -> sumZ nd = zlen (global d) ->
  repartition_nd junk nv d nd = repartition junkr d nd.
Proof.
  intros Hnv Hrow H1 H2 H3. assert (sumZ (nperproc d) = sumZ nd) as Hs by (rewrite H3; apply sum_nperproc).
  rewrite (repartition_out d nd H1 H2 Hs junkr).
  unfold repartition_nd. rewrite Hs, Z.eqb_refl. cbn [negb].
  destruct (Nat.ltb_spec (length nd) (length d)) as [H|H]; [lia|].
  set (P := length d). set (sc := spmd P (repartition_counts (nperproc d) nd P)).
  pose proof (rcut_is_cut d nd H1 H2 Hs : is_cut P d sc (rcut d nd)) as C.
  pose proof (ic_mat _ _ _ _ C) as Hm. pose proof (ic_displ _ _ _ _ C) as Hd.
  assert (forall i j, (i < P)%nat -> (j < P)%nat -> 0 <= rcut d nd i j <= rcut d nd i (S j) /\
      rcut d nd i (S j) <= zlen (nth i d [])) as Hr.
  { intros i j Hi Hj. pose proof (ic_mono _ _ _ _ C i j Hi Hj).
    pose proof (ic_range _ _ _ _ C i j Hi ltac:(lia)). pose proof (ic_range _ _ _ _ C i (S j) Hi ltac:(lia)). lia. }
  rewrite alltoallv_rows; auto.
  - cbn [bind]. f_equal.
    rewrite <- (repartition_slices d nd H1 H2 Hs). fold P.
    apply spmd_ext. intros j Hj. rewrite nth_spmd by assumption.
    set (rows := concat (spmd P (fun i => zslice (nth i d []) (mat (map excl_cumsum sc) i j)
                     (mat (map excl_cumsum sc) i j + mat sc i j)))).
    assert (rows = concat (spmd P (fun i => zslice (nth i d []) (rcut d nd i j) (rcut d nd i (S j))))) as Er.
    { unfold rows. f_equal. apply spmd_ext. intros i Hi. rewrite Hm, Hd by assumption. f_equal. lia. }
    assert (sumZ (nth j (alltoall P sc) []) = zlen rows) as ->.
    { rewrite Er, zlen_concat, map_spmd, nth_alltoall by assumption. f_equal. apply spmd_ext.
      intros i Hi. rewrite Hm by assumption. specialize (Hr i j Hi Hj). rewrite zlen_zslice; lia. }
    rewrite rows_of_concat; [exact Er|].
    unfold rows. apply concat_spmd_rows. intros i row Hi Hin. apply (Hrow i row Hi).
    unfold zslice in Hin. rewrite <- (firstn_skipn (Z.to_nat (mat (map excl_cumsum sc) i j)) (nth i d [])).
    apply in_or_app. right. revert Hin. generalize (skipn (Z.to_nat (mat (map excl_cumsum sc) i j)) (nth i d [])).
    intros l Hin. rewrite <- (firstn_skipn (Z.to_nat (mat (map excl_cumsum sc) i j + mat sc i j) - Z.to_nat (mat (map excl_cumsum sc) i j)) l).
    apply in_or_app. now left.
  - intros i j Hi Hj. rewrite mat_alltoall, Hm, Hd by assumption. specialize (Hr i j Hi Hj).
    split; [lia|]. split; [reflexivity|]. right. lia.
  - intros i j Hi Hj. rewrite mat_excl_cumsum.
    + rewrite nth_alltoall by assumption. now rewrite sumZ_firstn_spmd by lia.
    + rewrite nth_alltoall, spmd_length; assumption.
    + unfold alltoall. now rewrite spmd_length.
  - intros j Hj. rewrite nth_map_dflt with (d' := []) by (unfold alltoall; now rewrite spmd_length).
    rewrite nth_alltoall by assumption. unfold zlen. rewrite repeat_length.
    assert (0 <= sumZ (spmd P (fun k => mat sc k j))); [|nia].
    apply sumZ_nonneg. apply Forall_forall. intros x Hx. apply In_spmd in Hx. destruct Hx as (k & Hk & ->).
    rewrite Hm by assumption. specialize (Hr k j Hk Hj). lia.
Qed.
