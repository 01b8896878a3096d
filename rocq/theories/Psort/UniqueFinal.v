(** The lemmas about parallel_unique in the vocabulary of MatchSpec. *)
From Coq Require Import QArith.
From Verif.Base Require Import Prelude ListLemmas Order.
From Verif.Psort Require Import MoveSpec SortModel SortSpec SortProofs SortFinal UniqueModel MatchSpec UniqueProofs.
From Coq Require Import ZifyBool ZifyNat.
Local Open Scope Z_scope.

Lemma strictly_ascending_iff {A} (Od : TOrd A) l : strictly_ascending Od l <-> StronglySorted (fun x y => ltb Od x y = true) l.
Proof.
  split.
  - intro H. destruct l as [|x l]; [constructor|]. apply StronglySorted_of_nth with (d := x). intros i j Hij Hj.
    apply (H i j); [assumption| |]; apply nth_error_nth'; lia.
  - intros H i j a b Hij Ha Hb.
    pose proof (StronglySorted_nth _ l i j a H Hij ltac:(apply nth_error_Some; congruence)) as H'.
    rewrite (nth_error_nth _ _ _ Ha), (nth_error_nth _ _ _ Hb) in H'. exact H'.
Qed.

Lemma even_sizes_layout n P sizes : map Z.of_nat sizes = even_sizes n P -> even_layout sizes.
Proof.
  intros E i j a b Hij Ha Hb.
  assert (forall k c, nth_error sizes k = Some c -> Z.of_nat c = n / Z.of_nat P + (if Z.of_nat k <? n mod Z.of_nat P then 1 else 0)) as H.
  { intros k c Hk. pose proof (map_nth_error Z.of_nat _ _ Hk) as H. rewrite E in H.
    assert (k < P)%nat as HkP.
    { assert (k < length (even_sizes n P))%nat as H' by (apply nth_error_Some; congruence). unfold even_sizes in H'. now rewrite spmd_length in H'. }
    unfold even_sizes in H. rewrite nth_error_spmd in H by assumption. congruence. }
  pose proof (H i a Ha). pose proof (H j b Hb). destruct (Z.ltb_spec (Z.of_nat i) (n mod Z.of_nat P)), (Z.ltb_spec (Z.of_nat j) (n mod Z.of_nat P)); lia.
Qed.

Lemma map_zlen_layout {A} (d : list (list A)) : map zlen d = map Z.of_nat (layout d).
Proof. unfold layout. rewrite map_map. reflexivity. Qed.
Lemma map_of_nat_inj l m : map Z.of_nat l = map Z.of_nat m -> l = m.
Proof.
  revert m; induction l as [|x l IH]; intros [|y m] H; try discriminate; [reflexivity|]. cbn in H. injection H as H1 H2.
  f_equal; [lia | now apply IH].
Qed.

Lemma parallel_unique_spec {A} (Od : TOrd A) (zero junk : A) fuel srt rep (d : list (list A)) :
  d <> [] -> (srt = true -> ascending Od (concat d)) -> total d <= Z.of_nat fuel ->
  exists vals counts, parallel_unique Od zero fuel junk srt rep d = Ok (vals, counts) /\
    length vals = length d /\ layout counts = layout vals /\
    strictly_ascending Od (concat vals) /\
    (forall x, In x (concat vals) <-> In x (concat d)) /\
    (forall k x n, nth_error (concat vals) k = Some x -> nth_error (concat counts) k = Some n ->
       n = number (fun y => eqb Od y x) (concat d)) /\
    (rep = true -> even_layout (layout vals)).
Proof.
  intros H1 H2 H3. destruct (parallel_unique_ok Od zero fuel junk srt rep d) as (v & c & p & E1 & E2 & E3 & E4 & E5 & E6 & E7 & E8).
  - assumption.
  - intro H. apply ascending_sorted. auto.
  - exact H3.
  - exists v, c. split; [exact E1|]. split; [exact E2|]. split; [rewrite !map_zlen_layout in E3; now apply map_of_nat_inj|].
    split; [apply strictly_ascending_iff; rewrite E4; now apply slt_map|]. split; [|split].
    + intro x. rewrite E4, in_map_iff. split.
      * intros ([y n] & <- & H). apply E7 in H. tauto.
      * intro H. exists (x, count_eq Od x (concat d)). split; [reflexivity|]. apply E7. auto.
    + intros k x n Hx Hn. rewrite E4 in Hx. rewrite E5 in Hn. rewrite nth_error_map in Hx, Hn.
      destruct (nth_error p k) as [[y m]|] eqn:E; cbn in Hx, Hn; [|discriminate].
      assert (y = x) by congruence. assert (m = n) by congruence. subst y m.
      apply nth_error_In in E. apply E7 in E. tauto.
    + intro H. specialize (E8 H). rewrite map_zlen_layout in E8. eapply even_sizes_layout. exact E8.
Qed.

Lemma strict_pairs_unique {A} (Od : TOrd A) (p q : list (A * Z)) :
  StronglySorted (slt Od) p -> StronglySorted (slt Od) q -> (forall x n, In (x, n) p <-> In (x, n) q) -> p = q.
Proof.
  intros Hp Hq H.
  assert (forall l, StronglySorted (slt Od) l -> NoDup l) as HN.
  { induction 1 as [|x l Hl IH Hf]; constructor; [|assumption]. intro Hx. rewrite Forall_forall in Hf. specialize (Hf x Hx).
    unfold slt in Hf. now rewrite ltb_irrefl in Hf. }
  apply StronglySorted_unique with (R := slt Od); auto.
  - intros x y Ha Hb. unfold slt in *. pose proof (ltb_trans Od _ _ _ Ha Hb) as Hc. now rewrite ltb_irrefl in Hc.
  - apply NoDup_Permutation; auto. intros [x n]. apply H.
Qed.

Lemma parallel_unique_same {A} (Od : TOrd A) (zero junk : A) fuel srt rep (d d' : list (list A)) :
  d <> [] -> (srt = true -> ascending Od (concat d)) -> total d <= Z.of_nat fuel ->
  d' <> [] -> Permutation (concat d) (concat d') ->
  exists v1 c1 v2 c2,
    parallel_unique Od zero fuel junk srt rep d = Ok (v1, c1) /\
    parallel_unique Od zero fuel junk false false d' = Ok (v2, c2) /\
    concat v1 = concat v2 /\ concat c1 = concat c2.
Proof.
  intros H1 H2 H3 H4 HP.
  destruct (parallel_unique_ok Od zero fuel junk srt rep d) as (v & c & p & E1 & _ & _ & E4 & E5 & E6 & E7 & _); [assumption | | exact H3 |].
  { intro H. apply ascending_sorted. auto. }
  destruct (parallel_unique_ok Od zero fuel junk false false d') as (v' & c' & p' & F1 & _ & _ & F4 & F5 & F6 & F7 & _); [assumption | discriminate | |].
  { unfold total, zlen in *. now rewrite <- (Permutation_length HP). }
  exists v, c, v', c'. split; [exact E1|]. split; [exact F1|]. rewrite E4, E5, F4, F5.
  assert (p = p') as ->; [|split; reflexivity]. apply (strict_pairs_unique Od); auto. intros x n. rewrite E7, F7.
  unfold count_eq. rewrite (count_perm _ _ _ HP). split; intros [H ->]; split; auto.
  - now apply (Permutation_in _ HP).
  - now apply (Permutation_in _ (Permutation_sym HP)).
Qed.
