(** The lemmas about sorting in the vocabulary of SortSpec. *)
From Coq Require Import QArith.
From Verif.Base Require Import Prelude ListLemmas Order.
From Verif.Mpi Require Import CommModel.
From Verif.Psort Require Import MoveModel MoveSpec MoveProofs FetchProofs MoveFinal SplitModel MedianProofs SplitProofs SortModel SortSpec SortProofs.
From Coq Require Import ZifyBool ZifyNat.
Local Open Scope Z_scope.

Lemma weighted_median_spec {A} (Od : TOrd A) (arr : list A) (weight : list Q) :
  length weight = length arr -> Forall (fun w => 0 <= w)%Q weight -> (0 < fold_right Qplus 0 weight)%Q ->
  exists v, weighted_median Od arr weight = Ok v /\
    (exists k w, nth_error arr k = Some v /\ nth_error weight k = Some w /\ (0 < w)%Q) /\
    (weight_where (fun x => ltb Od x v) arr weight <= fold_right Qplus 0 weight / 2)%Q /\
    (weight_where (fun x => ltb Od v x) arr weight <= fold_right Qplus 0 weight / 2)%Q.
Proof.
  intros H1 H2 H3. destruct (weighted_median_main Od arr weight H1 H2 H3) as (k & v & w & E1 & E2 & E3 & E4 & E5 & E6).
  exists v. split; [exact E1|]. split; [exists k, w; auto|]. split; assumption.
Qed.

Lemma number_count {A} (p : A -> bool) l : number p l = count p l.
Proof. reflexivity. Qed.

Lemma ascending_sorted {A} (Od : TOrd A) l : ascending Od l <-> sorted Od l.
Proof.
  split.
  - intro H. destruct l as [|x l]; [constructor|]. apply StronglySorted_of_nth with (d := x). intros i j Hij Hj.
    apply (H i j); [assumption| |]; apply nth_error_nth'; lia.
  - intros H i j a b Hij Ha Hb.
    pose proof (StronglySorted_nth _ l i j a H Hij ltac:(apply nth_error_Some; congruence)) as H'.
    rewrite (nth_error_nth _ _ _ Ha), (nth_error_nth _ _ _ Hb) in H'. exact H'.
Qed.

Lemma find_splitting_points_spec {A} (Od : TOrd A) (zero : A) (arrs : list (list A)) (r : list Z) fuel :
  Forall (ascending Od) arrs -> Forall (fun x => 0 <= x < total arrs) r -> total arrs <= Z.of_nat fuel ->
  exists out, find_splitting_points_exact Od zero fuel arrs r = Ok out /\
    Forall2 (fun x o => let '(v, lo, hi) := o in
      In v (concat arrs) /\ lo = number (fun a => ltb Od a v) (concat arrs) /\
      hi = number (fun a => leb Od a v) (concat arrs) - 1 /\ lo <= x <= hi) r out.
Proof.
  intros H1 H2 H3. apply find_splitting_points_ok; auto.
  - apply exact_median_ok.
  - eapply Forall_impl; [|exact H1]. intro l. apply ascending_sorted.
Qed.

Lemma positions_zseq n : positions n = zseq 0 n.
Proof.
  unfold positions. change 0 with (Z.of_nat 0). generalize 0%nat as s. induction n as [|n IH]; intro s; cbn [seq map zseq]; [reflexivity|].
  f_equal. rewrite IH. f_equal. lia.
Qed.

Lemma stable_argsort_origin {A} (Od : TOrd A) (G : list A) idx dflt :
  is_stable_argsort Od G idx ->
  let out := map (fun i => nth (Z.to_nat i) G dflt) idx in
  ascending Od out /\ Permutation out G /\ stable_origin G out idx.
Proof.
  intros [HP HS] out.
  assert (forall i, In i idx -> 0 <= i < zlen G) as Hr.
  { intros i Hi. apply (Permutation_in _ HP) in Hi. apply In_zseq in Hi. unfold zlen. lia. }
  assert (forall i, In i idx -> nth_error G (Z.to_nat i) = Some (nth (Z.to_nat i) G dflt)) as Hn.
  { intros i Hi. apply nth_error_nth'. specialize (Hr i Hi). unfold zlen in Hr. lia. }
  split; [|split; [|split; [|split; [|split]]]].
  - apply ascending_sorted. unfold out, sorted. rewrite StronglySorted_map.
    eapply StronglySorted_weaken; [|exact HS]. intros i j Hi Hj H.
    destruct (H _ _ (Hn i Hi) (Hn j Hj)) as [H'|[H' _]]; [now apply ltb_leb | rewrite H'; apply leb_refl].
  - unfold out. rewrite (Permutation_map _ HP). now rewrite map_nth_zseq.
  - now rewrite positions_zseq.
  - unfold out. now rewrite map_length.
  - intros k i a Hk Ha. apply nth_error_In in Hk as Hin. specialize (Hr i Hin). split; [lia|].
    unfold out in Ha. rewrite nth_error_map, Hk in Ha. cbn in Ha. rewrite (Hn i Hin). exact Ha.
  - intros k l i j a Hkl Hk Hl Ha Hb. unfold out in Ha, Hb.
    rewrite nth_error_map, Hk in Ha. rewrite nth_error_map, Hl in Hb. cbn in Ha, Hb.
    pose proof (StronglySorted_nth _ idx k l i HS Hkl ltac:(apply nth_error_Some; congruence)) as H'.
    rewrite (nth_error_nth _ _ _ Hk), (nth_error_nth _ _ _ Hl) in H'.
    apply nth_error_In in Hk, Hl.
    destruct (H' a a) as [E|[_ E]]; [rewrite (Hn i Hk); exact Ha | rewrite (Hn j Hl); exact Hb | | exact E].
    rewrite ltb_irrefl in E. discriminate.
Qed.

Lemma parallel_sort_spec {A} (Od : TOrd A) (zero junk : A) (d : list (list A)) fuel :
  total d <= Z.of_nat fuel ->
  exists out index, parallel_sort_exact Od zero fuel junk d = Ok (out, index) /\
    layout out = layout d /\ layout index = layout d /\
    ascending Od (concat out) /\ Permutation (concat out) (concat d) /\
    stable_origin (concat d) (concat out) (concat index).
Proof.
  intro H. destruct (parallel_sort_ok Od zero Q 0%Q q_weight (weighted_median Od) fuel junk d) as (out & index & E1 & E2 & E3 & E4 & E5).
  - apply exact_median_ok.
  - exact H.
  - exists out, index. split; [exact E1|]. split; [exact E2|]. split; [exact E3|]. rewrite E5. now apply stable_argsort_origin with (Od := Od).
Qed.

Lemma list_by_layout {A} : forall (d e : list (list A)), map (@length A) d = map (@length A) e -> concat d = concat e -> d = e.
Proof.
  induction d as [|l d IH]; intros [|m e] Hl Hc; try discriminate; [reflexivity|]. cbn in Hl, Hc. injection Hl as H1 H2.
  assert (l = m /\ concat d = concat e) as [-> Hc'].
  { clear -Hc H1. revert m H1 Hc. induction l as [|x l IH]; intros [|y m] H1 Hc; try discriminate; [now split|].
    cbn in Hc. injection Hc as -> Hc. injection H1 as H1. destruct (IH m H1 Hc) as [-> ?]. now split. }
  f_equal. now apply IH.
Qed.

Lemma parallel_sort_fetch {A} (Od : TOrd A) (zero junk : A) (d : list (list A)) fuel out index :
  total d <= Z.of_nat fuel -> parallel_sort_exact Od zero fuel junk d = Ok (out, index) ->
  fetch_elements junk d index None = Ok out.
Proof.
  intros H E. destruct (parallel_sort_spec Od zero junk d fuel H) as (out' & index' & E1 & E2 & E3 & _ & _ & E6).
  rewrite E in E1. injection E1 as <- <-. destruct E6 as (HP & HL & HO & _).
  assert (Forall (Forall (fun i => 0 <= i < total d)) index) as HF.
  { apply Forall_forall. intros l Hl. apply Forall_forall. intros i Hi.
    assert (In i (concat index)) as Hin by (apply in_concat; eauto).
    apply (Permutation_in _ HP) in Hin. rewrite positions_zseq in Hin. apply In_zseq in Hin. unfold total. lia. }
  destruct (fetch_elements_main junk d index None) as (o & Eo & Ho).
  - unfold layout in E3. rewrite <- (map_length (@length Z) index), E3. apply map_length.
  - exact HF.
  - discriminate.
  - rewrite Eo. f_equal. apply list_by_layout.
    + unfold layout in *. rewrite E2, <- E3. unfold on_all_ranks in Ho. clear -Ho.
      induction Ho as [|x y l m Hxy _ IH]; cbn [map]; [reflexivity|]. f_equal; [|exact IH]. symmetry. exact (Forall2_len _ _ _ Hxy).
    + apply nth_error_ext. intro k.
      assert (Forall2 (global_at d) (concat index) (concat o)) as HC.
      { clear -Ho. unfold on_all_ranks in Ho. induction Ho as [|x y l m Hxy _ IH]; cbn [concat]; [constructor|]. now apply Forall2_app. }
      assert (length (concat o) = length (concat out)) as Hlen by (now rewrite <- HL, <- (Forall2_len _ _ _ HC)).
      destruct (nth_error (concat index) k) as [i|] eqn:Ei.
      * assert (k < length (concat out))%nat as Hk by (rewrite <- HL; apply nth_error_Some; congruence).
        destruct (nth_error (concat out) k) as [a|] eqn:Ea; [|apply nth_error_None in Ea; lia].
        destruct (HO k i a Ei Ea) as [_ E7]. rewrite <- E7.
        clear -HC Ei. revert k Ei. induction HC as [|x y l m Hxy _ IH]; intros k Ei; destruct k as [|k]; cbn in *; try discriminate.
        -- injection Ei as ->. symmetry. apply Hxy.
        -- now apply IH.
      * apply nth_error_None in Ei. rewrite !(proj2 (nth_error_None _ _)); [reflexivity | lia | lia].
Qed.
