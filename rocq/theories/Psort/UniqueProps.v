(** Property theorems C12: parallel_unique. *)
From Coq Require Import QArith.
From Verif.Base Require Import Prelude Order.
From Verif.Psort Require Import MoveSpec SortSpec UniqueModel MatchSpec UniqueFinal.
Local Open Scope Z_scope.

(** C12. Sorted distinct values of the whole input with their exact counts; with
    repartition_output the values are spread evenly. *)
Theorem C12_parallel_unique :
  forall (A : Type) (Od : TOrd A) (zero junk : A) (fuel : nat) (arr_sorted repartition_output : bool) (d : list (list A)),
  d <> [] -> (arr_sorted = true -> ascending Od (concat d)) -> total d <= Z.of_nat fuel ->
  exists vals counts, parallel_unique Od zero fuel junk arr_sorted repartition_output d = Ok (vals, counts) /\
    length vals = length d /\ layout counts = layout vals /\
    strictly_ascending Od (concat vals) /\
    (forall x, In x (concat vals) <-> In x (concat d)) /\
    (forall k x n, nth_error (concat vals) k = Some x -> nth_error (concat counts) k = Some n ->
       n = number (fun y => eqb Od y x) (concat d)) /\
    (repartition_output = true -> even_layout (layout vals)).
Proof. exact @parallel_unique_spec. Qed.
Print Assumptions C12_parallel_unique.

(** The options, the order of the input and its distribution (even the number of
    ranks) do not change the global result. *)
Theorem C12_options_and_distribution_do_not_matter :
  forall (A : Type) (Od : TOrd A) (zero junk : A) (fuel : nat) (arr_sorted repartition_output : bool) (d d' : list (list A)),
  d <> [] -> (arr_sorted = true -> ascending Od (concat d)) -> total d <= Z.of_nat fuel ->
  d' <> [] -> Permutation (concat d) (concat d') ->
  exists v1 c1 v2 c2,
    parallel_unique Od zero fuel junk arr_sorted repartition_output d = Ok (v1, c1) /\
    parallel_unique Od zero fuel junk false false d' = Ok (v2, c2) /\
    concat v1 = concat v2 /\ concat c1 = concat c2.
Proof. exact @parallel_unique_same. Qed.
Print Assumptions C12_options_and_distribution_do_not_matter.

(** *** Concrete cases: a value on four ranks, an empty rank, a rank with one value. *)
Example ex_unique : parallel_unique ZOrd 0 9 99 false false [[5;3]; []; [3;3]; [3;1;9]; [3;3]]
  = Ok ([[1;3]; []; []; []; [5;9]], [[1;6]; []; []; []; [1;1]]).
Proof. vm_compute. reflexivity. Qed.
Example ex_unique_sorted_repartitioned : parallel_unique ZOrd 0 9 99 true true [[1;2;3]; [3;3]; []; [3;4;5]; [9]]
  = Ok ([[1;2]; [3]; [4]; [5]; [9]], [[1;1]; [4]; [1]; [1]; [1]]).
Proof. vm_compute. reflexivity. Qed.
Example ex_unique_no_data : parallel_unique ZOrd 0 0 99 false true [[]; []] = Ok ([[]; []], [[]; []]).
Proof. vm_compute. reflexivity. Qed.
