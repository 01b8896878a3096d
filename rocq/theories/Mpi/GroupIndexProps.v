(** Property theorems C17 and C18 (group_index_from_length_and_offset). *)
From Verif.Base Require Import Prelude.
From Verif.Psort Require Import MoveSpec SortSpec.
From Verif.Mpi Require Import GroupIndexModel GroupIndexSpec GroupIndexProofs.
From Coq Require Import Lia.
Local Open Scope Z_scope.

(** C17, C18. Every particle gets the group (and its position in the group) that the
    serial loop over all groups would give it. *)
Theorem C17_group_index :
  forall (junk : Z) (length_ offset : list (list Z)) (nids : list Z),
  (0 < length length_)%nat -> layout offset = layout length_ -> length nids = length length_ ->
  Forall (fun n => 0 <= n) nids ->
  (forall r, (r < length length_)%nat -> offsets_ascending (nth r offset []) (nth r length_ [])) ->
  exists grnr rank, group_index junk length_ offset nids = Ok (grnr, rank) /\
    map zlen grnr = nids /\ map zlen rank = nids /\
    forall p g pos, global_at grnr p g -> global_at rank p pos -> last_group (concat offset) (concat length_) p g pos.
Proof. exact @group_index_main. Qed.
Print Assumptions C17_group_index.

(** Finding: without the ordering hypothesis the claim fails. Both groups are stored on
    rank 0, the later one having the smaller offset: its particles on rank 0 are missed. *)
Theorem C17_unsorted_refuted :
  exists (length_ offset : list (list Z)) (nids : list Z) (grnr rank : list (list Z)),
    group_index 0 length_ offset nids = Ok (grnr, rank) /\ layout offset = layout length_ /\ length nids = length length_ /\
    exists p g pos, global_at grnr p g /\ global_at rank p pos /\ ~ last_group (concat offset) (concat length_) p g pos.
Proof.
  exists [[2;2]; []], [[2;0]; []], [2;2], [[-1;-1]; [0;0]], [[-1;-1]; [0;1]].
  repeat split. exists 0, (-1), (-1). repeat split; try (cbn; discriminate).
  intros [(_ & _ & H)|(k & o & l & H & _)]; [|destruct k; discriminate].
  apply (H 1%nat 0 2). repeat split; discriminate.
Qed.
Print Assumptions C17_unsorted_refuted.

(** *** Concrete cases *)

(** five groups on three ranks: one spanning all ranks, an empty one with offset -1,
    overlapping ones, and particles in no group; the middle rank has one particle *)
Definition ex_len := [[2; 0]; [6; 2]; [1]].
Definition ex_off := [[0; -1]; [1; 5]; [8]].
Example ex_group_index :
  group_index 99 ex_len ex_off [3; 1; 6] = Ok ([[0; 2; 2]; [2]; [2; 3; 3; -1; 4; -1]], [[0; 0; 1]; [2]; [3; 0; 1; -1; 0; -1]]).
Proof. vm_compute. reflexivity. Qed.
Example ex_group_index_hyp : forall r, (r < 3)%nat -> offsets_ascending (nth r ex_off []) (nth r ex_len []).
Proof.
  intros r Hr. destruct r as [|[|[|r]]]; [| | |exfalso; lia]; intros j k o o' l' Hjk H1 H2 H3 H4.
  - destruct k as [|[|k]]; [inversion Hjk| |destruct k; discriminate]. cbn in H3. injection H3 as <-. discriminate.
  - destruct k as [|[|k]]; [inversion Hjk| |destruct k; discriminate]. destruct j as [|j]; [|inversion Hjk as [|? Hj]; inversion Hj].
    cbn in H1, H2. injection H1 as <-. injection H2 as <-. discriminate.
  - destruct k as [|k]; [inversion Hjk | destruct k; discriminate].
Qed.
