(** Specification vocabulary for group_index_from_length_and_offset. *)
From Verif.Base Require Import Prelude.
Local Open Scope Z_scope.

(** group [k] has offset [o] and length [l] and contains particle [p] *)
Definition contains (offset length : list Z) (p : Z) (k : nat) (o l : Z) : Prop :=
  nth_error offset k = Some o /\ nth_error length k = Some l /\ o <= p < o + l.

(** what the serial loop [for k in groups: grnr[offset[k]:offset[k]+length[k]] = k]
    leaves for particle [p]: the last group that contains it, with the particle's
    position in that group, or -1 *)
Definition last_group (offset length : list Z) (p g pos : Z) : Prop :=
  (g = -1 /\ pos = -1 /\ forall k o l, ~ contains offset length p k o l) \/
  (exists k o l, g = Z.of_nat k /\ pos = p - o /\ contains offset length p k o l /\
     forall k' o' l', (k < k')%nat -> ~ contains offset length p k' o' l').

(** on each rank the offset of a non-empty group is not below the offset of any
    earlier group (empty groups may have an offset such as -1) *)
Definition offsets_ascending (offset length : list Z) : Prop :=
  forall j k o o' l', (j < k)%nat -> nth_error offset j = Some o -> nth_error offset k = Some o' ->
    nth_error length k = Some l' -> 0 < l' -> o <= o'.
