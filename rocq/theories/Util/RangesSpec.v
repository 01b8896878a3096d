(** Ranges of an array, and what assigning to and summing over them means. *)
From Verif.Base Require Import Prelude.
Local Open Scope Z_scope.

(** ranges (offset, length) in order, not overlapping and inside [c, n) *)
Fixpoint ordered (c : Z) (rs : list (Z * Z)) (n : Z) : Prop :=
  match rs with
  | [] => c <= n
  | (o, l) :: rs' => c <= o /\ 0 <= l /\ ordered (o + l) rs' n
  end.

(** position [k] is in the range *)
Definition in_range (r : Z * Z) (k : nat) : Prop := fst r <= Z.of_nat k < fst r + snd r.

(** [out] is [array] with value i in range i *)
Definition assigned {A} (array : list A) (rs : list (Z * Z)) (value out : list A) : Prop :=
  length out = length array /\
  (forall i r v k, nth_error rs i = Some r -> nth_error value i = Some v -> in_range r k -> nth_error out k = Some v) /\
  (forall k, (forall r, In r rs -> ~ in_range r k) -> nth_error out k = nth_error array k).

(** elements of [array] in the range, in order *)
Definition elements {A} (array : list A) (r : Z * Z) : list A :=
  firstn (Z.to_nat (snd r)) (skipn (Z.to_nat (fst r)) array).
