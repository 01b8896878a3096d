(** C97: the particles of a FoF group, plot_fof_group.py. *)
From Coq Require Import Ascii String.
From Verif Require Import Base.Prelude Base.Order Formats.FileSpec Formats.CatSpec Snap.ReadSpec Snap.MillSpec Snap.MillProps Fortran.FofSpec.
From Verif Require Import Script.FofPlotModel Script.FofPlotSpec Script.FofPlotFinal.
Local Open Scope Z_scope.

(** every id of the group has a particle in the cell of its hash key: the positions and velocities
    of particles with these ids, in the order of the ids *)
Theorem C97_group : forall little files group_tab sub_ids np_argsort tab ids fs nhash boxsize ifof gids,
  is_file group_tab "NTask" L2_group_tab tab -> is_file sub_ids "NFiles" (L2_sub_ids 8) ids -> is_snapshot files fs nhash boxsize -> (forall l, is_argsort ZOrd l (np_argsort l)) -> group_ids tab ids ifof gids ->
  gids <> [] -> (forall g, In g gids -> hash_key g < nhash) -> (forall g, In g gids -> exists p, in_cell fs (hash_key g) p /\ id_of p = plain_id g) ->
  exists chosen, chooses fs gids chosen /\ plot_fof_group little files group_tab sub_ids np_argsort ifof = Ok (map (fun p => fst (fst p)) chosen, map (fun p => snd (fst p)) chosen).
Proof. exact plot_ok. Qed.
Print Assumptions C97_group.
(** if all ids of the snapshot are different: the members of the group *)
Theorem C97_unique : forall little files group_tab sub_ids np_argsort tab ids fs nhash boxsize ifof gids,
  is_file group_tab "NTask" L2_group_tab tab -> is_file sub_ids "NFiles" (L2_sub_ids 8) ids -> is_snapshot files fs nhash boxsize -> (forall l, is_argsort ZOrd l (np_argsort l)) -> group_ids tab ids ifof gids ->
  forall members, gids <> [] -> (forall g, In g gids -> hash_key g < nhash) -> Forall2 (fun g p => in_cell fs (hash_key g) p /\ id_of p = plain_id g) gids members ->
  (forall h h' p q, in_cell fs h p -> in_cell fs h' q -> id_of p = id_of q -> p = q) ->
  plot_fof_group little files group_tab sub_ids np_argsort ifof = Ok (map (fun p => fst (fst p)) members, map (fun p => snd (fst p)) members).
Proof. exact plot_unique. Qed.
Print Assumptions C97_unique.
(** an id which no particle of the cells has is noticed *)
Theorem C97_missing : forall little files group_tab sub_ids np_argsort tab ids fs nhash boxsize ifof gids,
  is_file group_tab "NTask" L2_group_tab tab -> is_file sub_ids "NFiles" (L2_sub_ids 8) ids -> is_snapshot files fs nhash boxsize -> (forall l, is_argsort ZOrd l (np_argsort l)) -> group_ids tab ids ifof gids ->
  forall g, (forall g, In g gids -> hash_key g < nhash) -> (exists p g', In g' gids /\ in_cell fs (hash_key g') p) -> In g gids -> (forall p, (exists g', In g' gids /\ in_cell fs (hash_key g') p) -> id_of p <> plain_id g) ->
  plot_fof_group little files group_tab sub_ids np_argsort ifof = Err ERuntime.
Proof. exact plot_missing. Qed.
Print Assumptions C97_missing.
(** a key which is not in the hash table, and a group without particles *)
Theorem C97_bad_key : forall little files group_tab sub_ids np_argsort tab ids fs nhash boxsize ifof gids,
  is_file group_tab "NTask" L2_group_tab tab -> is_file sub_ids "NFiles" (L2_sub_ids 8) ids -> is_snapshot files fs nhash boxsize -> (forall l, is_argsort ZOrd l (np_argsort l)) -> group_ids tab ids ifof gids ->
  forall g, In g gids -> nhash <= hash_key g -> plot_fof_group little files group_tab sub_ids np_argsort ifof = Err EIndex.
Proof. exact plot_bad_key. Qed.
Print Assumptions C97_bad_key.
Theorem C97_empty : forall little files group_tab sub_ids np_argsort tab ids fs nhash boxsize ifof gids,
  is_file group_tab "NTask" L2_group_tab tab -> is_file sub_ids "NFiles" (L2_sub_ids 8) ids -> is_snapshot files fs nhash boxsize -> (forall l, is_argsort ZOrd l (np_argsort l)) -> group_ids tab ids ifof gids ->
  gids = [] -> plot_fof_group little files group_tab sub_ids np_argsort ifof = Err EValue.
Proof. exact plot_empty. Qed.
Print Assumptions C97_empty.
(** check_units.py for the same simulation keeps only 30 of the 34 bits of an id: right only for
    small ids *)
Theorem C97_check_units : forall v, 0 <= v -> (check_units_id v = plain_id v <-> plain_id v < 2 ^ 30).
Proof. exact check_units_right. Qed.
Print Assumptions C97_check_units.
Theorem C97_check_units_refuted : ~ forall v, 0 <= v < 2 ^ 64 -> check_units_id v = plain_id v.
Proof. intro H. specialize (H (2 ^ 30) ltac:(lia)). vm_compute in H. discriminate H. Qed.
Print Assumptions C97_check_units_refuted.

(** the snapshot of [C78_ex]; groups of one, three, no and one particles *)
Definition ex_group_tab : catalogue := fun name =>
  if (name =? "Ngroups")%string then [4] else if (name =? "Nids")%string then [5] else if (name =? "TotNgroups")%string then [4] else if (name =? "NTask")%string then [2]
  else if (name =? "GroupLen")%string then [1; 3; 0; 1] else if (name =? "GroupOffset")%string then [0; 1; 4; 4] else if (name =? "GroupMinLen")%string then [0] else [].
Definition ex_sub_ids : catalogue := fun name =>
  if (name =? "Ngroups")%string then [4] else if (name =? "Nids")%string then [5] else if (name =? "TotNgroups")%string then [4] else if (name =? "NFiles")%string then [2]
  else if (name =? "GroupIDs")%string then [3 * 2 ^ 34 + 7; 4 * 2 ^ 34 + 9; 0 * 2 ^ 34 + 100; 4 * 2 ^ 34 + 8; 0 * 2 ^ 34 + 101] else [].
Definition ex_tab_bytes : option (list Z) := Some (file_bytes true (pieces_of ex_group_tab L2_group_tab) ++ [])%list.
Definition ex_ids_bytes : option (list Z) := Some (file_bytes false (pieces_of ex_sub_ids (L2_sub_ids 8)) ++ [1; 2])%list.
Example C97_ex : is_file ex_tab_bytes "NTask" L2_group_tab ex_group_tab /\ is_file ex_ids_bytes "NFiles" (L2_sub_ids 8) ex_sub_ids /\ is_snapshot ex_files ex_points 8 5 /\ (forall l, is_argsort ZOrd l (argsort ZOrd l)) /\
  group_ids ex_group_tab ex_sub_ids 1 [4 * 2 ^ 34 + 9; 0 * 2 ^ 34 + 100; 4 * 2 ^ 34 + 8] /\
  Forall2 (fun g p => in_cell ex_points (hash_key g) p /\ id_of p = plain_id g) [4 * 2 ^ 34 + 9; 0 * 2 ^ 34 + 100; 4 * 2 ^ 34 + 8] [([12; 3; 14], [44; 45; 46], [9]); ([1; 2; 3], [11; 12; 13], [100]); ([11; 2; 13], [34; 35; 36], [8])] /\
  let plot := plot_fof_group true ex_files ex_tab_bytes ex_ids_bytes (argsort ZOrd) in
  plot 0 = Ok ([[11; 2; 3]], [[24; 25; 26]]) /\ plot 1 = Ok ([[12; 3; 14]; [1; 2; 3]; [11; 2; 13]], [[44; 45; 46]; [11; 12; 13]; [34; 35; 36]]) /\
  plot 2 = Err EValue /\ plot 3 = Err ERuntime /\ plot 4 = Err EIndex /\ plot (-3) = plot 1.
Proof.
  split; [exists true, []; split; [reflexivity|]; split; [split; [unfold pieces_of, L2_group_tab; cbn; repeat constructor; cbn; lia | repeat constructor; cbn; lia] | vm_compute; split; discriminate]|].
  split; [exists false, [1; 2]; split; [reflexivity|]; split; [split; [unfold pieces_of, L2_sub_ids; cbn; repeat constructor; cbn; lia | repeat constructor; cbn; lia] | vm_compute; split; discriminate]|].
  split; [apply C78_ex|]. split; [exact (argsort_is_argsort ZOrd)|].
  split; [exists 1, 3; repeat split; vm_compute; discriminate || reflexivity|].
  split; [|vm_compute; repeat split].
  assert (forall n c p g, nth_error (cf_cells (ex_file n)) (Z.to_nat (hash_key g - cf_first (ex_file n))) = Some c -> cf_first (ex_file n) <= hash_key g -> (n < 2)%nat -> In p c -> in_cell ex_points (hash_key g) p) as K.
  { intros n c p g H1 H2 H3 H4. exists (ex_file n), (Z.to_nat (hash_key g - cf_first (ex_file n))), c. split; [destruct n as [|[|n]]; [left; reflexivity | right; left; reflexivity | lia]|]. split; [exact H1|]. split; [lia | exact H4]. }
  constructor; [split; [eapply (K 1%nat); [vm_compute; reflexivity | vm_compute; discriminate | lia | right; left; reflexivity] | reflexivity]|].
  constructor; [split; [eapply (K 0%nat); [vm_compute; reflexivity | vm_compute; discriminate | lia | left; reflexivity] | reflexivity]|].
  constructor; [split; [eapply (K 1%nat); [vm_compute; reflexivity | vm_compute; discriminate | lia | left; reflexivity] | reflexivity]|]. constructor.
Qed.
