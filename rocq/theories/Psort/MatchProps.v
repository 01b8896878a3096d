(** Property theorem C11: parallel_match. *)
From Coq Require Import QArith.
From Verif.Base Require Import Prelude Order.
From Verif.Psort Require Import MoveSpec SortSpec MatchModel MatchSpec MatchFinal.
Local Open Scope Z_scope.

(** C11. Each element of arr1 gets the first global position in arr2 of an equal
    element, or -1; also with arr2_sorted=True if arr2 is in fact sorted. *)
Theorem C11_parallel_match :
  forall (A : Type) (Od : TOrd A) (zero junk : A) (fuel : nat) (arr2_sorted : bool) (arr1 arr2 : list (list A)),
  length arr1 = length arr2 -> (arr2_sorted = true -> ascending Od (concat arr2)) -> total arr2 <= Z.of_nat fuel ->
  exists out, parallel_match Od zero fuel junk arr2_sorted arr1 arr2 = Ok out /\
    on_all_ranks (first_position (concat arr2)) arr1 out.
Proof. exact @parallel_match_spec. Qed.
Print Assumptions C11_parallel_match.

(** *** Concrete cases: duplicates over several ranks, empty ranks, values out of range. *)
Example ex_match : parallel_match ZOrd 0 7 99 false [[5;8]; [-3;7]; []; [2;5;99]] [[7;5]; []; [5;2;5]; [7;1]]
  = Ok [[1;-1]; [-1;0]; []; [3;1;-1]].
Proof. vm_compute. reflexivity. Qed.
Example ex_match_sorted : parallel_match ZOrd 0 6 99 true [[5;5]; [7;-1]; [0]] [[1;5]; [5;5]; [5;7]]
  = Ok [[1;1]; [5;-1]; [-1]].
Proof. vm_compute. reflexivity. Qed.
Example ex_match_no_arr2 : parallel_match ZOrd 0 0 99 false [[5]; [1;2]] [[]; []] = Ok [[-1]; [-1;-1]].
Proof. vm_compute. reflexivity. Qed.
(** without the sortedness the flag promises, a value that is present is missed *)
Example ex_match_unsorted_flag : parallel_match ZOrd 0 3 99 true [[1]; []] [[3;1]; [2]] = Ok [[-1]; []].
Proof. vm_compute. reflexivity. Qed.
