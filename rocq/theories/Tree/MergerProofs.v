(** Proofs about match_halos and consistent_match. *)
From Coq Require Import QArith.
From Verif.Base Require Import Prelude ListLemmas Order.
From Verif.Mpi Require Import CommModel CommProofs CutProofs.
From Verif.Psort Require Import MoveModel MoveSpec MoveProofs FetchProofs MoveFinal SortSpec SortProofs SortFinal UniqueModel UniqueProofs MatchModel MatchSpec MatchFinal UniqueFinal ReduceProofs ReduceFinal.
From Verif.Tree Require Import MergerModel MergerSpec.
From Coq Require Import ZifyBool ZifyNat.
Local Open Scope Z_scope.

Lemma mask_put_ok {A B} (R : A -> B -> Prop) (p : A -> bool) (dflt : B) idx : forall vals,
  Forall2 R (np_mask idx (map p idx)) vals ->
  Forall2 (fun i v => if p i then R i v else v = dflt) idx (np_mask_put (repeat dflt (length idx)) (map p idx) vals).
Proof.
  induction idx as [|i idx IH]; intros vals H; cbn [map np_mask length repeat np_mask_put] in *; [constructor|].
  destruct (p i) eqn:E.
  - inversion H; subst. constructor; [now rewrite E | now apply IH].
  - constructor; [now rewrite E | now apply IH].
Qed.

Lemma np_mask_In {A} (p : A -> bool) l x : In x (np_mask l (map p l)) <-> In x l /\ p x = true.
Proof.
  induction l as [|y l IH]; cbn [map np_mask]; [cbn; tauto|]. destruct (p y) eqn:E; cbn [In]; rewrite IH; intuition (subst; congruence).
Qed.

Lemma Forall2_nth_error {A B} (R : A -> B -> Prop) l m : Forall2 R l m -> forall k a, nth_error l k = Some a -> exists b, nth_error m k = Some b /\ R a b.
Proof.
  induction 1 as [|x y l m H _ IH]; intros k a Hk; [destruct k; discriminate|]. destruct k as [|k]; cbn in Hk |- *; [injection Hk as <-; eauto | auto].
Qed.

(** fetch of the elements with a non-negative index *)
Lemma masked_fetch (d idx : list (list Z)) : length idx = length d -> Forall (Forall (fun i => i < total d)) idx ->
  exists f, fetch_elements 0 d (spmd (length idx) (fun r => np_mask (nth r idx []) (nth r (map (map (fun i => 0 <=? i)) idx) []))) None = Ok f /\
    forall r, (r < length idx)%nat -> Forall2 (fun i v => if 0 <=? i then global_at d i v else v = -1) (nth r idx [])
      (np_mask_put (repeat (-1) (length (nth r idx []))) (nth r (map (map (fun i => 0 <=? i)) idx) []) (nth r f [])).
Proof.
  intros Hl Hr. set (sel := spmd _ _).
  destruct (@fetch_elements_main Z 0 d sel None) as (f & F1 & F2).
  - unfold sel. now rewrite spmd_length.
  - apply Forall_forall. intros l Hl'. unfold sel in Hl'. apply In_spmd in Hl'. destruct Hl' as (r & Hr' & ->). apply Forall_forall. intros i Hi.
    replace (nth r (map (map (fun i => 0 <=? i)) idx) []) with (map (fun i => 0 <=? i) (nth r idx [])) in Hi by (symmetry; exact (map_nth (map (fun i => 0 <=? i)) idx [] r)).
    apply np_mask_In in Hi. destruct Hi as [Hi Hp]. pose proof (nth_ranks _ _ Hr r i Hi). cbn in *. lia.
  - discriminate.
  - exists f. split; [exact F1|]. intros r Hr'.
    replace (nth r (map (map (fun i => 0 <=? i)) idx) []) with (map (fun i => 0 <=? i) (nth r idx [])) by (symmetry; exact (map_nth (map (fun i => 0 <=? i)) idx [] r)).
    apply mask_put_ok. pose proof (nth_ranks2 _ _ _ F2 r) as H. unfold sel in H. rewrite spmd_length in H. specialize (H Hr'). rewrite nth_spmd in H by assumption.
    replace (nth r (map (map (fun i => 0 <=? i)) idx) []) with (map (fun i => 0 <=? i) (nth r idx [])) in H by (symmetry; exact (map_nth (map (fun i => 0 <=? i)) idx [] r)).
    exact H.
Qed.

Lemma global_at_fun {A} (d : list (list A)) i a b : global_at d i a -> global_at d i b -> a = b.
Proof. intros [_ H1] [_ H2]. congruence. Qed.

Lemma zipwith_length {A B C} (f : A -> B -> C) l : forall m, length l = length m -> length (zipwith f l m) = length l.
Proof. induction l as [|x l IH]; intros [|y m] H; try discriminate; cbn; [reflexivity|]. f_equal. apply IH. now injection H. Qed.
Lemma nth_error_zipwith {A B C} (f : A -> B -> C) l : forall m k, nth_error (zipwith f l m) k =
  match nth_error l k, nth_error m k with Some a, Some b => Some (f a b) | _, _ => None end.
Proof.
  induction l as [|x l IH]; intros [|y m] [|k]; cbn [zipwith nth_error]; try reflexivity; [now destruct (nth_error l k) | apply IH].
Qed.
Lemma nth_error_zseq' n : forall s k, (k < n)%nat -> nth_error (zseq s n) k = Some (s + Z.of_nat k).
Proof. induction n as [|n IH]; intros s k H; [lia|]. destruct k as [|k]; cbn; [f_equal; lia|]. rewrite IH by lia. f_equal. lia. Qed.

Lemma consistent_match_spec (m12 m21 : list (list Z)) :
  length m12 = length m21 -> Forall (Forall (fun i => i < total m21)) m12 ->
  exists out, consistent_match m12 m21 = Ok out /\ layout out = layout m12 /\
    forall i j, global_at m12 i j ->
      (0 <= j /\ global_at m21 j i -> global_at out i 1) /\ (~ (0 <= j /\ global_at m21 j i) -> global_at out i 0).
Proof.
  intros Hl Hr. unfold consistent_match. destruct (masked_fetch m21 m12 Hl Hr) as (f & F1 & F2). rewrite F1. cbn [bind].
  set (P := length m12) in *. eexists. split; [reflexivity|]. set (out := spmd P _).
  assert (forall r, (r < P)%nat -> nth r out [] = zipwith (fun a b => if a =? b then 1 else 0)
     (np_mask_put (repeat (-1) (length (nth r m12 []))) (nth r (map (map (fun i => 0 <=? i)) m12) []) (nth r f []))
     (zseq (goff (nperproc m12) r) (length (nth r m12 [])))) as Ho.
  { intros r Hr'. unfold out. rewrite nth_spmd by assumption. f_equal. f_equal. apply nth_excl_goff. unfold nperproc. rewrite map_length. exact Hr'. }
  assert (layout out = layout m12) as Hlay.
  { unfold layout. apply list_ext_nth with (d := 0%nat); rewrite !map_length; [unfold out; now rewrite spmd_length|]. intros k Hk.
    assert (k < P)%nat as Hk' by (unfold out in Hk; now rewrite spmd_length in Hk).
    change 0%nat with (@length Z []). rewrite !map_nth. rewrite Ho by assumption. specialize (F2 k Hk'). pose proof (Forall2_len _ _ _ F2) as HF.
    rewrite zipwith_length; [now symmetry|]. now rewrite zseq_length. }
  split; [exact Hlay|].
  intros i j Hij. pose proof Hij as Hij0. apply global_at_local in Hij. destruct Hij as (r & k & Hr' & Hk & -> & Hn).
  destruct (Forall2_nth_error _ _ _ (F2 r Hr') k j Hn) as (b & Hb & Hbb).
  assert (forall v, (if b =? goff (nperproc m12) r + Z.of_nat k then 1 else 0) = v -> global_at out (goff (nperproc m12) r + Z.of_nat k) v) as Hout.
  { intros v Hv. rewrite <- (goff_layout _ _ Hlay). apply local_global_at; [unfold out; now rewrite spmd_length|].
    rewrite Ho by assumption. rewrite nth_error_zipwith, Hb, nth_error_zseq' by assumption. now f_equal. }
  assert (0 <= goff (nperproc m12) r + Z.of_nat k) as Hpos by (destruct Hij0; lia).
  split.
  - intros [Hj Hback]. apply Hout. destruct (Z.leb_spec 0 j); [|lia]. rewrite (global_at_fun _ _ _ _ Hbb Hback). now rewrite Z.eqb_refl.
  - intro Hno. apply Hout. destruct (Z.eqb_spec b (goff (nperproc m12) r + Z.of_nat k)) as [->|]; [|reflexivity].
    destruct (Z.leb_spec 0 j); [exfalso; auto|]. lia.
Qed.
