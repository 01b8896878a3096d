(** Property theorems C07 to C10: weighted_median, find_splitting_points, parallel_sort. *)
From Coq Require Import QArith.
From Verif.Base Require Import Prelude Order.
From Verif.Psort Require Import MoveModel MoveSpec SplitModel SortModel SortSpec SortFinal.
Local Open Scope Z_scope.

(** C07. The value returned carries weight, and neither side has more than half. *)
Theorem C07_weighted_median :
  forall (A : Type) (Od : TOrd A) (arr : list A) (weight : list Q),
  length weight = length arr -> Forall (fun w => 0 <= w)%Q weight -> (0 < fold_right Qplus 0 weight)%Q ->
  exists v, weighted_median Od arr weight = Ok v /\
    (exists k w, nth_error arr k = Some v /\ nth_error weight k = Some w /\ (0 < w)%Q) /\
    (weight_where (fun x => ltb Od x v) arr weight <= fold_right Qplus 0 weight / 2)%Q /\
    (weight_where (fun x => ltb Od v x) arr weight <= fold_right Qplus 0 weight / 2)%Q.
Proof. exact @weighted_median_spec. Qed.
Print Assumptions C07_weighted_median.

(** C08. The search terminates (any bound on the iterations that is at least the
    number of elements is enough) and finds the element of every requested rank. *)
Theorem C08_find_splitting_points :
  forall (A : Type) (Od : TOrd A) (zero : A) (arrs : list (list A)) (r : list Z) (fuel : nat),
  Forall (ascending Od) arrs -> Forall (fun x => 0 <= x < total arrs) r -> total arrs <= Z.of_nat fuel ->
  exists out, find_splitting_points_exact Od zero fuel arrs r = Ok out /\
    Forall2 (fun x o => let '(v, lo, hi) := o in
      In v (concat arrs) /\ lo = number (fun a => ltb Od a v) (concat arrs) /\
      hi = number (fun a => leb Od a v) (concat arrs) - 1 /\ lo <= x <= hi) r out.
Proof. exact @find_splitting_points_spec. Qed.
Print Assumptions C08_find_splitting_points.

(** C09. The array is sorted in place, over all ranks, keeping the layout. *)
Theorem C09_parallel_sort_sorts :
  forall (A : Type) (Od : TOrd A) (zero junk : A) (d : list (list A)) (fuel : nat),
  total d <= Z.of_nat fuel ->
  exists out index, parallel_sort_exact Od zero fuel junk d = Ok (out, index) /\
    layout out = layout d /\ layout index = layout d /\
    ascending Od (concat out) /\ Permutation (concat out) (concat d) /\
    stable_origin (concat d) (concat out) (concat index).
Proof. exact @parallel_sort_spec. Qed.
Print Assumptions C09_parallel_sort_sorts.

(** C10. Fetching the input elements at the returned index gives the sorted array. *)
Theorem C10_sort_index_fetches_sorted :
  forall (A : Type) (Od : TOrd A) (zero junk : A) (d : list (list A)) (fuel : nat) out index,
  total d <= Z.of_nat fuel -> parallel_sort_exact Od zero fuel junk d = Ok (out, index) ->
  fetch_elements junk d index None = Ok out.
Proof. exact @parallel_sort_fetch. Qed.
Print Assumptions C10_sort_index_fetches_sorted.

(** *** Concrete cases: duplicates straddling ranks, an empty rank, zero weights. *)
Example ex_median : weighted_median ZOrd [5; 1; 3; 9] [1#4; 0; 1#2; 0]%Q = Ok 3.
Proof. vm_compute. reflexivity. Qed.
Example ex_median_hyps : Forall (fun w => 0 <= w)%Q [1#4; 0; 1#2; 0]%Q /\ (0 < fold_right Qplus 0 [1#4; 0; 1#2; 0])%Q.
Proof. split; [repeat constructor; discriminate | reflexivity]. Qed.
Example ex_split : find_splitting_points_exact ZOrd 0 9 [[1;3;3]; []; [3;3;9]; [2;7]] [0; 3; 7]
  = Ok [(1, 0, 0); (3, 2, 5); (9, 7, 7)].
Proof. vm_compute. reflexivity. Qed.
Example ex_sort : parallel_sort_exact ZOrd 0 8 99 [[5;3;3]; []; [3;1;9;3]; [3]]
  = Ok ([[1;3;3]; []; [3;3;3;5]; [9]], [[4;1;2]; []; [3;6;7;0]; [5]]).
Proof. vm_compute. reflexivity. Qed.
Example ex_sort_all_equal : parallel_sort_exact ZOrd 0 5 99 [[2]; [2;2;2]; [2]]
  = Ok ([[2]; [2;2;2]; [2]], [[0]; [1;2;3]; [4]]).
Proof. vm_compute. reflexivity. Qed.
Example ex_sort_no_data : parallel_sort_exact ZOrd 0 0 99 [[]; []] = Ok ([[]; []], [[]; []]).
Proof. vm_compute. reflexivity. Qed.
