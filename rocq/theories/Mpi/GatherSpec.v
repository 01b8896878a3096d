(** Specification vocabulary for gather_array. *)
From Verif.Base Require Import Prelude NdArray.
Local Open Scope nat_scope.

(** extent along axis [k] *)
Definition extent {A} (k : nat) (a : nd A) : nat := nth k (shape a) 0.
(** total extent of the first [r] arrays *)
Definition extent_before {A} (k : nat) (l : list (nd A)) (r : nat) : nat := fold_right plus 0 (map (extent k) (firstn r l)).

(** [out] is the concatenation of the arrays [l] along axis [k] (np.concatenate) *)
Definition concatenation {A} (k : nat) (l : list (nd A)) (out : nd A) : Prop :=
  nd_ok out /\
  (forall a, In a l -> shape out = upd k (fun _ => extent_before k l (length l)) (shape a)) /\
  (forall r a idx x, nth_error l r = Some a -> nd_at a idx x -> nd_at out (upd k (plus (extent_before k l r)) idx) x) /\
  (forall idx x, nd_at out idx x -> exists r a idx', nth_error l r = Some a /\ nd_at a idx' x /\ idx = upd k (plus (extent_before k l r)) idx').
