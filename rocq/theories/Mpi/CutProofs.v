(** Exchanges in which every rank cuts its buffer into P consecutive pieces, and
    the reverse exchange that sends one value per element back. *)
From Verif.Base Require Import Prelude ListLemmas.
From Verif.Mpi Require Import CommModel CommProofs.

Lemma sumZ_telescope (b : nat -> Z) n : sumZ (spmd n (fun k => b (S k) - b k)) = b n - b 0%nat.
Proof. induction n as [|n IH]; [cbn; lia|]. rewrite spmd_S, sumZ_app, IH. cbn [sumZ]. lia. Qed.

Lemma mono_le (b : nat -> Z) n i j : (forall k, (k < n)%nat -> b k <= b (S k)) ->
  (i <= j)%nat -> (j <= n)%nat -> b i <= b j.
Proof.
  intros H Hij. induction Hij as [|j Hij IH]; intro Hj; [lia|].
  specialize (IH ltac:(lia)). specialize (H j ltac:(lia)). lia.
Qed.

Lemma zlen_spmd {B} n (f : nat -> B) : zlen (spmd n f) = Z.of_nat n.
Proof. unfold zlen. now rewrite spmd_length. Qed.

Section Cuts.
  Context {A : Type} (P : nat) (sbuf : list (list A)) (sc : list (list Z)) (b : nat -> nat -> Z).
  Hypothesis Hsc : forall i, (i < P)%nat -> nth i sc [] = spmd P (fun k => b i (S k) - b i k).
  Hypothesis Hlsc : length sc = P.
  Hypothesis Hb0 : forall i, (i < P)%nat -> b i 0%nat = 0.
  Hypothesis Hmono : forall i k, (i < P)%nat -> (k < P)%nat -> b i k <= b i (S k).
  Hypothesis Hend : forall i, (i < P)%nat -> b i P = zlen (nth i sbuf []).

  Lemma cut_mat i j : (i < P)%nat -> (j < P)%nat -> mat sc i j = b i (S j) - b i j.
  Proof. intros Hi Hj. unfold mat. rewrite Hsc by assumption. now rewrite nth_spmd. Qed.
  Lemma cut_displ i j : (i < P)%nat -> (j < P)%nat -> mat (map excl_cumsum sc) i j = b i j.
  Proof.
    intros Hi Hj. rewrite mat_excl_cumsum; [|rewrite Hsc, ?spmd_length by assumption; lia | lia].
    rewrite Hsc by assumption. rewrite sumZ_firstn_spmd by lia.
    rewrite (sumZ_telescope (b i)), Hb0 by assumption. lia.
  Qed.
  Lemma cut_range i k : (i < P)%nat -> (k <= P)%nat -> 0 <= b i k <= zlen (nth i sbuf []).
  Proof.
    intros Hi Hk. rewrite <- Hend, <- (Hb0 i) by assumption. split.
    - apply (mono_le (b i) P); auto; lia.
    - apply (mono_le (b i) P); auto; lia.
  Qed.

  Lemma cut_exchange junk :
    exchange junk P sbuf sc (map excl_cumsum sc) =
    Ok (spmd P (fun j => concat (spmd P (fun i => zslice (nth i sbuf []) (b i j) (b i (S j)))))).
  Proof.
    rewrite exchange_ok.
    - f_equal. apply spmd_ext. intros j Hj. f_equal. apply spmd_ext. intros i Hi.
      rewrite cut_mat, cut_displ by assumption. f_equal. lia.
    - intros i j Hi Hj. rewrite cut_mat, cut_displ by assumption.
      pose proof (Hmono i j Hi Hj). pose proof (cut_range i j Hi ltac:(lia)).
      pose proof (cut_range i (S j) Hi ltac:(lia)). split; [lia|]. right. lia.
  Qed.

  Lemma cut_zslice_len i j : (i < P)%nat -> (j < P)%nat ->
    zlen (zslice (nth i sbuf []) (b i j) (b i (S j))) = b i (S j) - b i j.
  Proof.
    intros Hi Hj. pose proof (Hmono i j Hi Hj). pose proof (cut_range i j Hi ltac:(lia)).
    pose proof (cut_range i (S j) Hi ltac:(lia)). rewrite zlen_zslice; lia.
  Qed.

  (** all pieces of one rank together are its buffer *)
  Lemma cut_concat i : (i < P)%nat ->
    concat (spmd P (fun j => zslice (nth i sbuf []) (b i j) (b i (S j)))) = nth i sbuf [].
  Proof.
    intro Hi. rewrite (concat_zslices (nth i sbuf []) (b i)) by auto.
    rewrite Hb0, Hend by assumption. apply zslice_all; lia.
  Qed.

  (** sending one value per received element back *)
  Lemma cut_back {B} (vals rbuf : list (list B)) (V : nat -> nat -> list B) :
    (forall j, (j < P)%nat -> nth j vals [] = concat (spmd P (fun i => V i j))) ->
    (forall i j, (i < P)%nat -> (j < P)%nat -> zlen (V i j) = b i (S j) - b i j) ->
    (forall i, (i < P)%nat -> b i P <= zlen (nth i rbuf [])) ->
    alltoallv P vals (alltoall P sc) (map excl_cumsum (alltoall P sc)) rbuf sc (map excl_cumsum sc) =
    Ok (spmd P (fun i => concat (spmd P (fun j => V i j)) ++ skipn (Z.to_nat (b i P)) (nth i rbuf []))).
  Proof.
    intros Hv HV Hr.
    assert (forall i j, (i < P)%nat -> (j < P)%nat ->
       mat (map excl_cumsum (alltoall P sc)) j i = sumZ (spmd i (fun k => b k (S j) - b k j))) as Hrd.
    { intros i j Hi Hj. rewrite mat_excl_cumsum.
      - rewrite nth_alltoall by assumption. rewrite sumZ_firstn_spmd by lia.
        f_equal. apply spmd_ext. intros k Hk. apply cut_mat; lia.
      - rewrite nth_alltoall by assumption. rewrite spmd_length. assumption.
      - unfold alltoall. now rewrite spmd_length. }
    assert (forall i j, (i < P)%nat -> (j < P)%nat ->
       zslice (nth j vals []) (sumZ (spmd i (fun k => b k (S j) - b k j)))
          (sumZ (spmd i (fun k => b k (S j) - b k j)) + (b i (S j) - b i j)) = V i j) as Hsl.
    { intros i j Hi Hj. rewrite Hv by assumption.
      rewrite zslice_concat, spmd_length.
      assert (forall r, (r <= P)%nat -> sumZ (firstn r (map zlen (spmd P (fun i => V i j)))) =
                sumZ (spmd r (fun k => b k (S j) - b k j))) as Hsum.
      { intros r Hrr. rewrite map_spmd, sumZ_firstn_spmd by assumption. f_equal. apply spmd_ext.
        intros k Hk. apply HV; lia. }
      set (S' := fun r => sumZ (spmd r (fun k => b k (S j) - b k j))) in *.
      assert (forall r, (r < P)%nat -> S' (S r) = S' r + (b r (S j) - b r j)) as HS
        by (intros r Hrr; unfold S'; rewrite spmd_S, sumZ_app; cbn [sumZ]; lia).
      assert (forall x y, (x <= y)%nat -> (y <= P)%nat -> S' x <= S' y) as Hm.
      { intros x y Hxy Hy. apply (mono_le S' P); auto. intros k Hk. rewrite HS by assumption.
        specialize (Hmono k j Hk Hj). lia. }
      transitivity (concat (spmd P (fun r => if (r =? i)%nat then V i j else []))).
      - f_equal. apply spmd_ext. intros r Hr'. rewrite nth_spmd by assumption. rewrite Hsum by lia.
        fold (S' r) (S' i). specialize (HS r Hr'). pose proof (HV r j Hr' Hj) as HVr.
        destruct (Nat.eqb_spec r i) as [->|Hne].
        + rewrite Z.sub_diag. apply zslice_all; lia.
        + destruct (Nat.lt_total r i) as [Hlt|[?|Hlt]]; [|lia|].
          * apply zslice_past. specialize (Hm (S r) i ltac:(lia) ltac:(lia)). lia.
          * apply zslice_neg. specialize (Hm (S i) r ltac:(lia) ltac:(lia)).
            pose proof (HV i j Hi Hj). assert (S' (S i) = S' i + (b i (S j) - b i j)) as HSi
              by (unfold S'; rewrite spmd_S, sumZ_app; cbn [sumZ]; lia). lia.
      - assert (forall n, (n <= P)%nat -> concat (spmd n (fun r => if (r =? i)%nat then V i j else [])) =
                  if (i <? n)%nat then V i j else []) as Hc.
        { induction n as [|n IH]; intro Hn.
          - destruct (Nat.ltb_spec i 0); [lia | reflexivity].
          - rewrite concat_spmd_app, IH by lia.
            destruct (Nat.ltb_spec i n), (Nat.ltb_spec i (S n)), (Nat.eqb_spec n i); try lia;
              rewrite ?app_nil_r; reflexivity. }
        rewrite Hc by lia. destruct (Nat.ltb_spec i P); [reflexivity | lia]. }
    rewrite alltoallv_consecutive.
    - f_equal. apply spmd_ext. intros i Hi.
      assert (forall k, (k < P)%nat -> mat (alltoall P sc) k i = b i (S k) - b i k) as Hm
        by (intros k Hk; rewrite mat_alltoall, cut_mat by assumption; reflexivity).
      f_equal.
      + f_equal. apply spmd_ext. intros j Hj. rewrite Hm, Hrd by assumption. now apply Hsl.
      + rewrite (spmd_ext P (fun k => mat (alltoall P sc) k i) (fun k => b i (S k) - b i k)) by (intros; now apply Hm).
        rewrite (sumZ_telescope (b i)), Hb0, Z.sub_0_r by assumption. reflexivity.
    - intros j i Hj Hi. rewrite mat_alltoall, cut_mat by assumption. specialize (Hmono i j Hi Hj).
      split; [lia|]. split; [reflexivity|]. right. rewrite Hrd by assumption.
      rewrite Hv by assumption. rewrite zlen_concat, map_spmd.
      rewrite (spmd_ext P (fun r => zlen (V r j)) (fun r => b r (S j) - b r j)) by (intros; now apply HV).
      assert (forall k, (k < P)%nat -> 0 <= b k (S j) - b k j) as Hnn
        by (intros k Hk; pose proof (HV k j Hk Hj); pose proof (zlen_nonneg (V k j)); lia).
      split.
      + change 0 with (sumZ (spmd 0 (fun k => b k (S j) - b k j))).
        apply sumZ_spmd_mono; [lia|]. intros; apply Hnn; lia.
      + replace (sumZ (spmd i (fun k => b k (S j) - b k j)) + (b i (S j) - b i j))
          with (sumZ (spmd (S i) (fun k => b k (S j) - b k j)))
          by (rewrite spmd_S, sumZ_app; cbn [sumZ]; lia).
        apply sumZ_spmd_mono; [lia|]. intros; apply Hnn; lia.
    - intros j i Hj Hi. rewrite cut_displ by assumption.
      rewrite (spmd_ext j (fun k => mat (alltoall P sc) k i) (fun k => b i (S k) - b i k)).
      + rewrite (sumZ_telescope (b i)), Hb0 by assumption. lia.
      + intros k Hk. rewrite mat_alltoall, cut_mat by (assumption || lia). reflexivity.
    - intros i Hi.
      rewrite (spmd_ext P (fun k => mat (alltoall P sc) k i) (fun k => b i (S k) - b i k)).
      + rewrite (sumZ_telescope (b i)), Hb0, Z.sub_0_r by assumption. now apply Hr.
      + intros k Hk. rewrite mat_alltoall, cut_mat by (assumption || lia). reflexivity.
  Qed.
End Cuts.

(** The section's hypotheses in one record: counts [sc] cut rank i's buffer at
    the increasing positions [b i 0] = 0, [b i 1], ..., [b i P] = its length. *)
Record is_cut {A} (P : nat) (sbuf : list (list A)) (sc : list (list Z)) (b : nat -> nat -> Z) : Prop := {
  ic_sc : forall i, (i < P)%nat -> nth i sc [] = spmd P (fun k => b i (S k) - b i k);
  ic_len : length sc = P;
  ic_b0 : forall i, (i < P)%nat -> b i 0%nat = 0;
  ic_mono : forall i k, (i < P)%nat -> (k < P)%nat -> b i k <= b i (S k);
  ic_end : forall i, (i < P)%nat -> b i P = zlen (nth i sbuf [])
}.

Section IsCut.
  Context {A : Type} (P : nat) (sbuf : list (list A)) (sc : list (list Z)) (b : nat -> nat -> Z).
  Hypothesis C : is_cut P sbuf sc b.

  Lemma ic_mat i j : (i < P)%nat -> (j < P)%nat -> mat sc i j = b i (S j) - b i j.
  Proof using C. destruct C. now apply cut_mat. Qed.
  Lemma ic_displ i j : (i < P)%nat -> (j < P)%nat -> mat (map excl_cumsum sc) i j = b i j.
  Proof using C. destruct C. now apply (cut_displ P sbuf sc b). Qed.
  Lemma ic_range i k : (i < P)%nat -> (k <= P)%nat -> 0 <= b i k <= zlen (nth i sbuf []).
  Proof using C. destruct C. now apply (cut_range P sbuf sc b). Qed.
  Lemma ic_le i j k : (i < P)%nat -> (j <= k)%nat -> (k <= P)%nat -> b i j <= b i k.
  Proof using C. destruct C as [_ _ _ Hm _]. intros. apply (mono_le (b i) P); auto. Qed.
  Lemma ic_exchange junk :
    exchange junk P sbuf sc (map excl_cumsum sc) =
    Ok (spmd P (fun j => concat (spmd P (fun i => zslice (nth i sbuf []) (b i j) (b i (S j)))))).
  Proof using C. destruct C. now apply cut_exchange. Qed.
  Lemma ic_zslice_len i j : (i < P)%nat -> (j < P)%nat ->
    zlen (zslice (nth i sbuf []) (b i j) (b i (S j))) = b i (S j) - b i j.
  Proof using C. destruct C. now apply (cut_zslice_len P sbuf sc b). Qed.
  Lemma ic_concat i : (i < P)%nat ->
    concat (spmd P (fun j => zslice (nth i sbuf []) (b i j) (b i (S j)))) = nth i sbuf [].
  Proof using C. destruct C. now apply (cut_concat P sbuf sc b). Qed.
  Lemma ic_back {B} (vals rbuf : list (list B)) (V : nat -> nat -> list B) :
    (forall j, (j < P)%nat -> nth j vals [] = concat (spmd P (fun i => V i j))) ->
    (forall i j, (i < P)%nat -> (j < P)%nat -> zlen (V i j) = b i (S j) - b i j) ->
    (forall i, (i < P)%nat -> b i P <= zlen (nth i rbuf [])) ->
    alltoallv P vals (alltoall P sc) (map excl_cumsum (alltoall P sc)) rbuf sc (map excl_cumsum sc) =
    Ok (spmd P (fun i => concat (spmd P (fun j => V i j)) ++ skipn (Z.to_nat (b i P)) (nth i rbuf []))).
  Proof using C. destruct C. now apply (cut_back P sbuf sc b). Qed.
End IsCut.
