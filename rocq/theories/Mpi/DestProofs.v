(** Exchange of a buffer that is sorted by destination rank. *)
From Verif.Base Require Import Prelude ListLemmas.
From Verif.Mpi Require Import CommModel CommProofs CutProofs.
From Coq Require Import ZifyBool ZifyNat.
Local Open Scope Z_scope.

Section Dest.
  Context {A : Type} (dest : A -> Z).
  Definition dsorted (l : list A) : Prop := StronglySorted Z.le (map dest l).
  Definition below (v : Z) (l : list A) : Z := zlen (filter (fun x => dest x <? v) l).

  Lemma dsorted_split v l : dsorted l -> l = filter (fun x => dest x <? v) l ++ filter (fun x => negb (dest x <? v)) l.
  Proof.
    unfold dsorted. induction l as [|x l IH]; intro H; [reflexivity|]. cbn [map] in H. apply StronglySorted_inv in H. destruct H as [H Hf].
    cbn [filter]. destruct (Z.ltb_spec (dest x) v) as [Hx|Hx]; cbn [negb app].
    - f_equal. now apply IH.
    - assert (forall y, In y l -> (dest y <? v) = false) as Hy.
      { intros y Hy. rewrite Forall_forall in Hf. specialize (Hf (dest y) (in_map dest _ _ Hy)). lia. }
      replace (filter (fun y => dest y <? v) l) with (@nil A).
      + cbn [app]. f_equal. clear - Hy. induction l as [|y l IH]; [reflexivity|].
        cbn [filter]. rewrite (Hy y) by (now left). cbn [negb]. cbn [app]. f_equal. apply IH. intros z Hz. apply Hy. now right.
      + clear - Hy. induction l as [|y l IH]; [reflexivity|]. cbn [filter]. rewrite (Hy y) by (now left). apply IH. intros z Hz. apply Hy. now right.
  Qed.
  Lemma filter_filter (p q : A -> bool) l : filter p (filter q l) = filter (fun x => q x && p x) l.
  Proof. induction l as [|x l IH]; [reflexivity|]. cbn [filter]. destruct (q x); cbn [filter andb]; [destruct (p x); now rewrite IH | exact IH]. Qed.
  Lemma dsorted_filter p l : dsorted l -> dsorted (filter p l).
  Proof.
    unfold dsorted. induction l as [|x l IH]; intro H; [constructor|]. cbn [map] in H. apply StronglySorted_inv in H. destruct H as [H Hf]. cbn [filter].
    destruct (p x); [|now apply IH]. cbn [map]. constructor; [now apply IH|]. rewrite Forall_forall in *. intros y Hy. apply Hf.
    apply in_map_iff in Hy. destruct Hy as (z & <- & Hz). apply filter_In in Hz. now apply in_map.
  Qed.
  Lemma dsorted_zslice v l : dsorted l -> zslice l (below v l) (below (v + 1) l) = filter (fun x => dest x =? v) l.
  Proof.
    intro H. rewrite (dsorted_split v l H) at 1. unfold zslice, below, zlen. rewrite !Nat2Z.id.
    rewrite skipn_app, skipn_all, Nat.sub_diag. cbn [app skipn].
    pose proof (dsorted_split (v + 1) _ (dsorted_filter (fun x => negb (dest x <? v)) l H)) as H2. rewrite !filter_filter in H2.
    assert (forall l, filter (fun x => negb (dest x <? v) && (dest x <? v + 1)) l = filter (fun x => dest x =? v) l) as E by (intro l0; apply filter_ext; intro; lia).
    rewrite E in H2. rewrite H2.
    set (F1 := filter (fun x => dest x <? v + 1) l). set (F2 := filter (fun x => dest x <? v) l). set (F3 := filter (fun x => dest x =? v) l).
    assert (length F1 - length F2 = length F3)%nat as ->.
    { assert (length F1 = length F2 + length F3)%nat; [|lia]. unfold F1, F2, F3. clear.
      induction l as [|x l IH]; [reflexivity|]. cbn [filter]. destruct (Z.ltb_spec (dest x) (v + 1)), (Z.ltb_spec (dest x) v), (Z.eqb_spec (dest x) v); cbn [length]; lia. }
    rewrite firstn_app, firstn_all, Nat.sub_diag. cbn [firstn]. apply app_nil_r.
  Qed.

  Lemma exchange_by_dest {B} (P : nat) (f : A -> B) (L : nat -> list A) junk :
    (forall i, (i < P)%nat -> dsorted (L i)) ->
    (forall i x, (i < P)%nat -> In x (L i) -> 0 <= dest x < Z.of_nat P) ->
    let sc := spmd P (fun i => spmd P (fun j => zlen (filter (fun v => v =? Z.of_nat j) (map dest (L i))))) in
    exchange junk P (spmd P (fun i => map f (L i))) sc (map excl_cumsum sc) =
    Ok (spmd P (fun j => map f (concat (spmd P (fun i => filter (fun x => dest x =? Z.of_nat j) (L i)))))).
  Proof.
    intros Hs Hd sc.
    assert (forall v l, zlen (filter (fun x => dest x =? v) l) = below (v + 1) l - below v l) as Hcnt.
    { intros v l. unfold below, zlen. induction l as [|x l IH]; [reflexivity|]. cbn [filter].
      destruct (Z.ltb_spec (dest x) (v + 1)), (Z.ltb_spec (dest x) v), (Z.eqb_spec (dest x) v); cbn [length]; lia. }
    assert (is_cut P (spmd P (fun i => map f (L i))) sc (fun i j => below (Z.of_nat j) (L i))) as C.
    { constructor.
      - intros i Hi. unfold sc. rewrite nth_spmd by assumption. apply spmd_ext. intros j Hj. replace (Z.of_nat (S j)) with (Z.of_nat j + 1) by lia. rewrite <- Hcnt.
        unfold zlen. f_equal. clear. induction (L i) as [|x l IH]; [reflexivity|]. cbn [map filter]. destruct (dest x =? Z.of_nat j); cbn [length]; lia.
      - unfold sc. apply spmd_length.
      - intros i Hi. unfold below, zlen. replace (filter (fun x => dest x <? Z.of_nat 0) (L i)) with (@nil A); [reflexivity|].
        specialize (Hd i). clear - Hd Hi. induction (L i) as [|x l IH]; [reflexivity|]. cbn [filter]. pose proof (Hd x Hi (or_introl eq_refl)).
        destruct (Z.ltb_spec (dest x) (Z.of_nat 0)); [lia|]. apply IH. intros y Hi' Hy. apply Hd; [assumption | now right].
      - intros i k Hi Hk. pose proof (Hcnt (Z.of_nat k) (L i)) as H. replace (Z.of_nat (S k)) with (Z.of_nat k + 1) by lia. unfold zlen in H. lia.
      - intros i Hi. rewrite nth_spmd by assumption. unfold below, zlen. rewrite map_length. do 2 f_equal.
        specialize (Hd i). clear - Hd Hi. induction (L i) as [|x l IH]; [reflexivity|]. cbn [filter]. pose proof (Hd x Hi (or_introl eq_refl)).
        destruct (Z.ltb_spec (dest x) (Z.of_nat P)); [|lia]. f_equal. apply IH. intros y Hi' Hy. apply Hd; [assumption | now right]. }
    rewrite (ic_exchange _ _ _ _ C). f_equal. apply spmd_ext. intros j Hj. rewrite concat_map, map_spmd. f_equal. apply spmd_ext. intros i Hi.
    rewrite nth_spmd by assumption. rewrite <- map_zslice. f_equal. replace (Z.of_nat (S j)) with (Z.of_nat j + 1) by lia. apply dsorted_zslice. now apply Hs.
  Qed.
End Dest.
