(** Model of group_index_from_length_and_offset
    (/repo/python/virgo/mpi/util.py:107-217). *)
From Verif.Base Require Import Prelude.
From Verif.Mpi Require Import CommModel.
Local Open Scope Z_scope.

(** lines 150-152: advance first_rank_to_send_group_to; at most [n] iterations,
    the comparison with comm_size-1 ending the loop before that *)
Fixpoint advance_first (n : nat) (P : Z) (last_id_offset : list Z) (offset first : Z) : Z :=
  match n with
  | O => first
  | S n' => if (first <? P - 1) && (nth (Z.to_nat first) last_id_offset 0 <? offset)
            then advance_first n' P last_id_offset offset (first + 1) else first
  end.
(** lines 153-155 *)
Fixpoint advance_last (n : nat) (P : Z) (first_id_offset : list Z) (group_end last : Z) : Z :=
  match n with
  | O => last
  | S n' => if (last <? P - 1) && (nth (Z.to_nat (last + 1)) first_id_offset 0 <? group_end)
            then advance_last n' P first_id_offset group_end (last + 1) else last
  end.

(** state of the loop over local groups: the two ranks, rank_send_offset, rank_send_count *)
Record plan := { p_first : Z; p_last : Z; p_offset : list Z; p_count : list Z }.

(** lines 149-160 for group [i] *)
Definition plan_step (P : nat) (first_id last_id : list Z) (st : plan) (i offset length : Z) : plan :=
  let first := advance_first P (Z.of_nat P) last_id offset (p_first st) in
  let last := advance_last P (Z.of_nat P) first_id (offset + length) (p_last st) in
  let hit d := (first <=? Z.of_nat d) && (Z.of_nat d <=? last) in
  {| p_first := first; p_last := last;
     p_offset := spmd P (fun d => let o := nth d (p_offset st) 0 in if hit d && (o <? 0) then i else o);
     p_count := spmd P (fun d => nth d (p_count st) 0 + if hit d then 1 else 0) |}.
Fixpoint plan_loop (P : nat) (first_id last_id : list Z) (st : plan) (i : Z) (groups : list (Z * Z)) : plan :=
  match groups with
  | [] => st
  | (offset, length) :: groups' => plan_loop P first_id last_id (plan_step P first_id last_id st i offset length) (i + 1) groups'
  end.
Definition plan_start (P : nat) : plan :=
  {| p_first := 0; p_last := -1; p_offset := repeat (-1) P; p_count := repeat 0 P |}.

(** lines 187-211 on one rank: [grnr[start:end] = ind] and
    [rank[start:end] = arange(offset, offset+num)] for every received group *)
Definition assign_groups (nr_local_ids nr_ids_prev : Z) (recv : list (Z * (Z * Z))) : list Z :=
  fold_left (fun grnr g => let '(ind, (offset, length)) := g in
    let i1 := Z.max 0 (offset - nr_ids_prev) in
    let i2 := Z.min nr_local_ids (offset + length - nr_ids_prev) in
    if i1 <? i2 then write_at grnr i1 (repeat ind (Z.to_nat (i2 - i1))) else grnr)
    recv (repeat (-1) (Z.to_nat nr_local_ids)).
Definition assign_ranks (nr_local_ids nr_ids_prev : Z) (recv : list (Z * (Z * Z))) : list Z :=
  fold_left (fun rank g => let '(ind, (offset, length)) := g in
    let i1 := offset - nr_ids_prev in
    let rank_offset := if i1 <? 0 then Z.abs i1 else 0 in
    let i1 := Z.max 0 i1 in
    let i2 := Z.min nr_local_ids (offset + length - nr_ids_prev) in
    if 0 <? i2 - i1 then write_at rank i1 (zseq rank_offset (Z.to_nat (i2 - i1))) else rank)
    recv (repeat (-1) (Z.to_nat nr_local_ids)).

(** lines 107-217: (grnr, rank) on every rank. [nids] holds nr_local_ids of each rank. *)
Definition group_index (junk : Z) (length_ offset : list (list Z)) (nids : list Z) : res (list (list Z) * list (list Z)) :=
  let P := length length_ in
  let index_offset := excl_cumsum (nperproc length_) in
  let index := spmd P (fun r => map (fun i => i + nth r index_offset 0) (zseq 0 (length (nth r length_ [])))) in
  let first_id_offset := excl_cumsum nids in
  let last_id_offset := map (fun n => n - 1) (cumsum nids) in
  let plans := spmd P (fun r => plan_loop P first_id_offset last_id_offset (plan_start P) 0 (combine (nth r offset []) (nth r length_ []))) in
  let sc := map p_count plans in
  let sd := map p_offset plans in
  do length_recv <- exchange junk P length_ sc sd;
  do offset_recv <- exchange junk P offset sc sd;
  do index_recv <- exchange junk P index sc sd;
  let recv := spmd P (fun r => combine (nth r index_recv []) (combine (nth r offset_recv []) (nth r length_recv []))) in
  Ok (spmd P (fun r => assign_groups (nth r nids 0) (nth r first_id_offset 0) (nth r recv [])),
      spmd P (fun r => assign_ranks (nth r nids 0) (nth r first_id_offset 0) (nth r recv []))).
