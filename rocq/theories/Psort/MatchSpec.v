(** Specification vocabulary for parallel_match, parallel_unique, reduce_elements
    and parallel_bincount. *)
From Verif.Base Require Import Prelude Order.

(** [i] is the position of the first element of [l] equal to [x], or -1 if there is none *)
Definition first_position {A} (l : list A) (x : A) (i : Z) : Prop :=
  (i = -1 /\ ~ In x l) \/
  (0 <= i /\ nth_error l (Z.to_nat i) = Some x /\ forall j, (Z.of_nat j < i) -> nth_error l j <> Some x).

(** strictly increasing *)
Definition strictly_ascending {A} (Od : TOrd A) (l : list A) : Prop :=
  forall i j a b, (i < j)%nat -> nth_error l i = Some a -> nth_error l j = Some b -> ltb Od a b = true.

(** sizes that differ by at most one, the larger ones first *)
Definition even_layout (sizes : list nat) : Prop :=
  forall i j a b, (i < j)%nat -> nth_error sizes i = Some a -> nth_error sizes j = Some b -> (b <= a <= b + 1)%nat.
