(** Specification vocabulary for reduce_elements and parallel_bincount. *)
From Verif.Base Require Import Prelude.
From Verif.Psort Require Import MoveSpec.

(** the updates addressed to global element [g], in rank order *)
Definition updates_for {B} (g : Z) (index : list (list Z)) (updates : list (list B)) : list B :=
  map snd (filter (fun p => fst p =? g) (combine (concat index) (concat updates))).

(** an addition that may be reordered *)
Definition exact_addition {W} (add : W -> W -> W) (zero : W) : Prop :=
  (forall a b, add a b = add b a) /\ (forall a b c, add a (add b c) = add (add a b) c) /\ (forall a, add a zero = a).

(** the total weight of the entries of [x] equal to [g] *)
Definition bin_total {W} (add : W -> W -> W) (zero : W) (g : Z) (x : list (list Z)) (weights : list (list W)) : W :=
  fold_right add zero (updates_for g x weights).

(** [n] is the number of bins numpy.bincount would use, except that no data at all
    gives one bin *)
Definition bins_needed (x : list Z) (minlength : option Z) (n : Z) : Prop :=
  exists m, (forall i, In i x -> i <= m) /\ (In m x \/ x = [] /\ m = 0) /\
    n = match minlength with Some l => Z.max (m + 1) l | None => m + 1 end.
