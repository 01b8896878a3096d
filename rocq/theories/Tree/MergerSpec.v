(** Specification vocabulary for match_halos and consistent_match. *)
From Verif.Base Require Import Prelude Order.
From Verif.Psort Require Import MoveSpec SortSpec.
Local Open Scope Z_scope.

(** group of the particle with id [x] according to a catalogue (its first entry
    if the id is repeated), -1 if it has no entry *)
Definition group_of {I} (Od : TOrd I) (ids : list I) (grnr : list Z) (x : I) : Z :=
  match find (fun p => eqb Od (fst p) x) (combine ids grnr) with Some p => snd p | None => -1 end.

(** number of particles of halo [i] of the first catalogue that are in halo [j] of the second *)
Definition shared {I} (Od : TOrd I) (ids1 : list I) (grnr1 : list Z) (ids2 : list I) (grnr2 : list Z) (i j : Z) : Z :=
  number (fun p => (snd p =? i) && (group_of Od ids2 grnr2 (fst p) =? j)) (combine ids1 grnr1).

(** [m] is the halo with the largest share of halo [i], the first of them if
    several have the same share; -1 if there is none *)
Definition plurality (share : Z -> Z) (m : Z) : Prop :=
  (m = -1 /\ forall j, 0 <= j -> share j = 0) \/
  (0 <= m /\ 0 < share m /\ forall j, 0 <= j -> share j < share m \/ (share j = share m /\ m <= j)).
