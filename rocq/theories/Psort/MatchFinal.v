(** The lemma about parallel_match in the vocabulary of MatchSpec. *)
From Coq Require Import QArith.
From Verif.Base Require Import Prelude ListLemmas Order.
From Verif.Psort Require Import MoveSpec SortModel SortSpec SortProofs SortFinal MatchModel MatchSpec MatchProofs.
Local Open Scope Z_scope.

Lemma parallel_match_spec {A} (Od : TOrd A) (zero junk : A) (fuel : nat) (arr2_sorted : bool) (arr1 arr2 : list (list A)) :
  length arr1 = length arr2 -> (arr2_sorted = true -> ascending Od (concat arr2)) -> total arr2 <= Z.of_nat fuel ->
  exists out, parallel_match Od zero fuel junk arr2_sorted arr1 arr2 = Ok out /\
    on_all_ranks (first_position (concat arr2)) arr1 out.
Proof.
  intros H1 H2 H3. eexists. split.
  - apply parallel_match_ok; [assumption | | exact H3]. intro H. apply ascending_sorted. auto.
  - unfold on_all_ranks. clear. induction arr1 as [|l arr1 IH]; cbn [map]; constructor; [|exact IH].
    induction l as [|x l IHl]; cbn [map]; constructor; [|exact IHl]. apply find_first_spec.
Qed.
