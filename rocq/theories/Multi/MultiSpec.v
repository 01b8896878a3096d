(** What read_multi should return. *)
From Verif Require Import Base.Prelude Base.NdArray Multi.MultiModel.
Local Open Scope Z_scope.

(** [k] is the axis of an [n]-dimensional array that python calls [ax] *)
Definition axis_of (ax : Z) (n k : nat) : Prop :=
  (k < n)%nat /\ (ax = Z.of_nat k \/ ax = Z.of_nat k - Z.of_nat n).
(** the same shape except along axis [k] *)
Definition agree_but (k : nat) (s t : list nat) : Prop :=
  length s = length t /\ forall j, j <> k -> nth_error s j = nth_error t j.

(** [out] is [xs] joined along axis [k]: each array occupies the slab after those
    of its predecessors, and there is nothing else *)
Definition joined {A} (k : nat) (xs : list (nd A)) (out : nd A) : Prop :=
  nd_ok out /\
  (forall x, In x xs -> agree_but k (shape x) (shape out)) /\
  nth_error (shape out) k = Some (list_sum (map (fun x => nth k (shape x) 0%nat) xs)) /\
  forall pre x post, xs = pre ++ x :: post -> forall idx v, nd_at x idx v ->
  nd_at out (upd k (fun i => (i + list_sum (map (fun x => nth k (shape x) 0%nat) pre))%nat) idx) v.

(** the arrays called [n], in the order of the files *)
Definition arrays_of {A Name Idx} (F : Idx -> Name -> option (nd A)) (idx : list Idx) (n : Name) : list (nd A) :=
  flat_map (fun i => match F i n with Some a => [a] | None => [] end) idx.
