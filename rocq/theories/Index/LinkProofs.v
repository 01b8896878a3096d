(** Proofs about the linked lists of progenitors (index_trees.py:27-46). *)
From Verif.Base Require Import Prelude Order ListLemmas.
From Verif.Index Require Import IndexModel.
From Coq Require Import ZifyBool ZifyNat.
Local Open Scope Z_scope.

Definition gz (l : list Z) (i : Z) : Z := nth (Z.to_nat i) l (-1).

Lemma gz_py l i : 0 <= i < zlen l -> py_nth l i = Ok (gz l i).
Proof. intro H. unfold gz. apply py_nth_ok. lia. Qed.

Lemma py_set_ok {A} (l : list A) i x : 0 <= i < zlen l -> py_set l i x = Ok (set_nth l (Z.to_nat i) x).
Proof.
  intro H. unfold py_set. destruct (Z.ltb_spec i 0); [lia|]. cbv zeta.
  replace ((i <? 0) || (zlen l <=? i)) with false by (symmetry; apply orb_false_iff; split; lia). reflexivity.
Qed.

Lemma zlen_set_nth {A} (l : list A) i x : zlen (set_nth l i x) = zlen l.
Proof. unfold zlen. now rewrite set_nth_length. Qed.

Lemma gz_set l i x k : 0 <= i < zlen l -> 0 <= k -> gz (set_nth l (Z.to_nat i) x) k = if k =? i then x else gz l k.
Proof.
  intros Hi Hk. unfold gz, zlen in *. rewrite nth_set_nth by lia.
  destruct (Z.eqb_spec k i) as [->|Hn]; [now rewrite Nat.eqb_refl|].
  destruct (Nat.eqb_spec (Z.to_nat k) (Z.to_nat i)); [lia | reflexivity].
Qed.

Lemma zlen_minus_ones {A} (l : list A) : zlen (minus_ones l) = zlen l.
Proof. apply zlen_map. Qed.

Lemma gz_minus_ones {A} (l : list A) i : gz (minus_ones l) i = -1.
Proof.
  unfold gz, minus_ones. destruct (Nat.lt_ge_cases (Z.to_nat i) (length l)) as [H|H].
  - destruct (nth_in_or_default (Z.to_nat i) (map (fun _ => -1) l) (-1)) as [Hin|E]; [|exact E].
    apply in_map_iff in Hin. destruct Hin as (a & <- & _). reflexivity.
  - apply nth_overflow. rewrite map_length. exact H.
Qed.

Section Link.
  Context (desc_ptr : list Z).
  Definition D (i : Z) : Z := gz desc_ptr i.
  Definition N := length desc_ptr.
  Definition inr (i : Z) : Prop := 0 <= i < zlen desc_ptr.
  Context (HD : forall i, inr i -> D i = -1 \/ inr (D i)).

  (** progenitors of j among those in [order], last first *)
  Definition chp (order : list Z) (j : Z) : list Z := rev (filter (fun i => D i =? j) order).

  Definition linked (order : list Z) (pn : list Z * list Z) : Prop :=
    let (pp, np) := pn in
    zlen pp = zlen desc_ptr /\ zlen np = zlen desc_ptr /\
    (forall j, inr j -> gz pp j = hd (-1) (chp order j)) /\
    (forall j, inr j -> forall l1 a l2, chp order j = l1 ++ a :: l2 -> gz np a = hd (-1) l2) /\
    (forall i, inr i -> ~ In i order -> gz np i = -1).

  Lemma chp_In order j i : In i (chp order j) <-> In i order /\ D i = j.
  Proof. unfold chp. rewrite <- in_rev, filter_In, Z.eqb_eq. reflexivity. Qed.

  Lemma chp_snoc order x j : chp (order ++ [x]) j = if D x =? j then x :: chp order j else chp order j.
  Proof.
    unfold chp. rewrite filter_app, rev_app_distr. cbn [filter]. destruct (D x =? j); reflexivity.
  Qed.

  Lemma link_step order x pn : linked order pn -> NoDup (order ++ [x]) -> (forall i, In i (order ++ [x]) -> inr i) ->
    exists pn', link desc_ptr pn x = Ok pn' /\ linked (order ++ [x]) pn'.
  Proof.
    destruct pn as [pp np]. intros (Hp & Hn & H1 & H2 & H3) Hnd Hin.
    assert (inr x) as Hx by (apply Hin, in_or_app; right; left; reflexivity).
    assert (~ In x order) as Hnx.
    { intro Hc. apply NoDup_remove_2 in Hnd. apply Hnd. rewrite app_nil_r. exact Hc. }
    unfold link. rewrite gz_py by exact Hx. cbn [bind]. change (gz desc_ptr x) with (D x).
    destruct (HD x Hx) as [E|Hj].
    - rewrite E. cbn. exists (pp, np). split; [reflexivity|]. repeat split; try assumption.
      + intros j Hj. rewrite chp_snoc, E. replace (-1 =? j) with false by (unfold inr in Hj; lia). now apply H1.
      + intros j Hj l1 a l2. rewrite chp_snoc, E. replace (-1 =? j) with false by (unfold inr in Hj; lia). now apply H2.
      + intros i Hi Hni. apply H3; [assumption|]. intro Hc. apply Hni, in_or_app. now left.
    - set (j := D x) in *. replace (0 <=? j) with true by (unfold inr in Hj; lia).
      rewrite gz_py by (unfold inr in Hj; lia). cbn [bind]. rewrite (H1 j Hj).
      assert (forall i, In i (chp order j) -> 0 <= i) as Hpos.
      { intros i Hi. apply chp_In in Hi. destruct (Hin i) as [? _]; [apply in_or_app; now left | assumption]. }
      rewrite py_set_ok by (unfold inr in Hj; lia). cbn [bind].
      set (pp' := set_nth pp (Z.to_nat j) x).
      assert (forall np', zlen np' = zlen desc_ptr -> gz np' x = hd (-1) (chp order j) -> (forall i, inr i -> i <> x -> gz np' i = gz np i) -> linked (order ++ [x]) (pp', np')) as Hmk.
      { intros np' Hl' Hx' Ho'. repeat split.
        - unfold pp'. now rewrite zlen_set_nth.
        - assumption.
        - intros k Hk. unfold pp'. rewrite gz_set by (unfold inr in *; lia). rewrite chp_snoc. fold j. destruct (Z.eqb_spec k j) as [->|Hne].
          + rewrite Z.eqb_refl. reflexivity.
          + replace (j =? k) with false by lia. now apply H1.
        - intros k Hk l1 a l2. rewrite chp_snoc. fold j. destruct (Z.eqb_spec j k) as [<-|Hne].
          + destruct l1 as [|b l1]; cbn [app]; intro E.
            * injection E as <- <-. exact Hx'.
            * injection E as <- E. assert (In a (chp order j)) as Ha by (rewrite E; apply in_elt).
              apply chp_In in Ha. rewrite Ho'; [now apply (H2 j Hk l1) | apply Hin, in_or_app; now left | intros ->; tauto].
          + intro E. assert (In a (chp order k)) as Ha by (rewrite E; apply in_elt).
            apply chp_In in Ha. rewrite Ho'; [now apply (H2 k Hk l1) | apply Hin, in_or_app; now left | intros ->; tauto].
        - intros i Hi Hni. rewrite in_app_iff in Hni. rewrite Ho'; [apply H3; [assumption | tauto] | assumption |].
          intros ->. apply Hni. right. left. reflexivity. }
      destruct (Z.eqb_spec (hd (-1) (chp order j)) (-1)) as [E|E].
      + exists (pp', np). split; [reflexivity|]. apply Hmk; [assumption | rewrite E; now apply H3 | auto].
      + rewrite py_set_ok by (unfold inr in Hx; lia). cbn [bind]. exists (pp', set_nth np (Z.to_nat x) (hd (-1) (chp order j))). split; [reflexivity|].
        apply Hmk; [now rewrite zlen_set_nth | |].
        * rewrite gz_set by (unfold inr in *; lia). now rewrite Z.eqb_refl.
        * intros i Hi Hne. rewrite gz_set by (unfold inr in *; lia). replace (i =? x) with false by lia. reflexivity.
  Qed.

  Lemma link_all : forall rest order pn, linked order pn -> NoDup (order ++ rest) -> (forall i, In i (order ++ rest) -> inr i) ->
    exists pn', foldM (link desc_ptr) rest pn = Ok pn' /\ linked (order ++ rest) pn'.
  Proof.
    induction rest as [|x rest IH]; intros order pn Hl Hnd Hin.
    - exists pn. rewrite app_nil_r. split; [reflexivity | assumption].
    - replace (order ++ x :: rest) with ((order ++ [x]) ++ rest) in * by (rewrite <- app_assoc; reflexivity).
      destruct (link_step order x pn Hl) as (pn' & E & Hl').
      { clear -Hnd. rewrite <- (app_nil_r (order ++ [x])). induction rest as [|y rest IH]; [assumption|]. apply IH. now apply NoDup_remove_1 in Hnd. }
      { intros i Hi. apply Hin, in_or_app. now left. }
      cbn [foldM]. rewrite E. cbn [bind]. now apply IH.
  Qed.

  Lemma link_main order : Permutation order (zseq 0 N) -> exists pp np, foldM (link desc_ptr) order (minus_ones desc_ptr, minus_ones desc_ptr) = Ok (pp, np) /\ linked order (pp, np).
  Proof.
    intro Hp. destruct (link_all order [] (minus_ones desc_ptr, minus_ones desc_ptr)) as ([pp np] & E & Hl).
    - repeat split; try apply zlen_minus_ones.
      + intros j Hj. cbn. apply gz_minus_ones.
      + intros j Hj l1 a l2 E. destruct l1; discriminate E.
      + intros. apply gz_minus_ones.
    - apply (Permutation_NoDup (Permutation_sym Hp)), NoDup_zseq.
    - intros i Hi. apply (Permutation_in _ Hp) in Hi. apply In_zseq in Hi. unfold inr, zlen, N in *. lia.
    - exists pp, np. split; assumption.
  Qed.
End Link.
