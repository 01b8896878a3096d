(** Specification vocabulary for weighted_median, find_splitting_points and parallel_sort. *)
From Coq Require Import QArith.
From Verif.Base Require Import Prelude Order.
From Verif.Psort Require Import MoveSpec.
Local Open Scope Z_scope.

(** total weight of the elements that satisfy [p] *)
Definition weight_where {A} (p : A -> bool) (arr : list A) (weight : list Q) : Q :=
  fold_right Qplus 0%Q (map snd (filter (fun x => p (fst x)) (combine arr weight))).

(** number of elements that satisfy [p] *)
Definition number {A} (p : A -> bool) (l : list A) : Z := Z.of_nat (length (filter p l)).

(** non-decreasing *)
Definition ascending {A} (Od : TOrd A) (l : list A) : Prop :=
  forall i j a b, (i < j)%nat -> nth_error l i = Some a -> nth_error l j = Some b -> leb Od a b = true.

(** the positions 0 .. n-1 *)
Definition positions (n : nat) : list Z := map Z.of_nat (seq 0 n).

(** [index] lists where the elements of the sorted array were in the input, and
    equal elements stay in input order *)
Definition stable_origin {A} (input output : list A) (index : list Z) : Prop :=
  Permutation index (positions (length input)) /\
  length index = length output /\
  (forall k i a, nth_error index k = Some i -> nth_error output k = Some a ->
     0 <= i /\ nth_error input (Z.to_nat i) = Some a) /\
  (forall k l i j a, (k < l)%nat -> nth_error index k = Some i -> nth_error index l = Some j ->
     nth_error output k = Some a -> nth_error output l = Some a -> i < j).

(** number of elements held by each rank *)
Definition layout {A} (d : list (list A)) : list nat := map (@length A) d.
