(** Property theorems C15 (match_halos) and C16 (consistent_match). *)
From Verif.Base Require Import Prelude Order.
From Verif.Psort Require Import MoveSpec SortSpec.
From Verif.Tree Require Import MergerModel MergerSpec MergerProofs MatchHalosProofs.
Local Open Scope Z_scope.

(** C15. Every halo is matched with the halo that shares most particles with it. *)
Theorem C15_match_halos :
  forall (I : Type) (Od : TOrd I) (zero_id junk_id : I) (junk : Z) (fuel : nat) (grnr1 : list (list Z)) (ids1 : list (list I))
    (grnr2 : list (list Z)) (ids2 : list (list I)) (nlocal : list Z),
  ids1 <> [] -> layout grnr1 = layout ids1 -> layout grnr2 = layout ids2 -> length ids1 = length ids2 ->
  length nlocal = length ids1 -> Forall (fun n => 0 <= n) nlocal ->
  Forall (Forall (fun g => g < fold_right Z.add 0 nlocal)) grnr1 ->
  total ids1 <= Z.of_nat fuel -> total ids2 <= Z.of_nat fuel ->
  exists out, match_halos Od zero_id fuel junk_id junk grnr1 ids1 grnr2 ids2 nlocal = Ok out /\
    map (fun l => Z.of_nat (length l)) out = nlocal /\
    forall i, 0 <= i < fold_right Z.add 0 nlocal ->
      exists m, global_at out i m /\ plurality (shared Od (concat ids1) (concat grnr1) (concat ids2) (concat grnr2) i) m.
Proof. exact @match_halos_spec. Qed.
Print Assumptions C15_match_halos.

(** C16. The mutual matches and no others are marked. *)
Theorem C16_consistent_match :
  forall (m12 m21 : list (list Z)),
  length m12 = length m21 -> Forall (Forall (fun i => i < total m21)) m12 ->
  exists out, consistent_match m12 m21 = Ok out /\ layout out = layout m12 /\
    forall i j, global_at m12 i j ->
      (0 <= j /\ global_at m21 j i -> global_at out i 1) /\ (~ (0 <= j /\ global_at m21 j i) -> global_at out i 0).
Proof. exact @consistent_match_spec. Qed.
Print Assumptions C16_consistent_match.

(** *** Concrete cases *)

(** halo 0: one particle to halo 1, two to halo 4; halo 1: a tie between 4 and 1 with
    a particle in no halo; halo 2: nothing in common; particle 77 unknown; three ranks, one empty *)
Example ex_match_halos :
  match_halos ZOrd 0 20 99 98 [[0;0;1]; []; [0;1;1;2;-1]] [[10;11;20]; []; [12;21;22;77;13]]
    [[4;1;4]; [1;4]; [-1;3]] [[21;20;12]; [10;11]; [22;13]] [0; 2; 1]
  = Ok [[]; [4; 1]; [-1]].
Proof. vm_compute. reflexivity. Qed.
(** fewer halos than ranks *)
Example ex_match_halos_few :
  match_halos ZOrd 0 20 99 98 [[0]; []; [0]] [[10]; []; [12]] [[]; [5;7]; [7]] [[]; [12;3]; [10]] [1; 0; 0]
  = Ok [[5]; []; []].
Proof. vm_compute. reflexivity. Qed.
Example ex_consistent : consistent_match [[2;-1]; [0;2]] [[3;1;0]; []] = Ok [[1;0]; [0;0]].
Proof. vm_compute. reflexivity. Qed.
