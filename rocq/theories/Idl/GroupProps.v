(** C86: the function of groupstuff.c which reads the positions of the particles of a group. *)
From Coq Require Import QArith.
From Coq Require Import Ascii String.
From Coq Require Import Sorting.Permutation Sorting.Sorted.
From Verif Require Import Base.Prelude Formats.FileSpec Formats.CatSpec Snap.ReadSpec Fortran.RegionSpec Fortran.GroupTabSpec Fortran.FofSpec.
From Verif Require Import Text.StrModel Idl.LibModel Idl.LibSpec Idl.SnapSpec Idl.TabFinal Idl.HashFinal Idl.GroupSpec Idl.GroupFinal.
Local Open Scope Z_scope. Local Open Scope list_scope.

(** The positions are those of the particles of the group, in the order of their ids, relative to
    the centre of mass of the group in the periodic box. The centre and the size of the box are
    returned, the table of files is as before, and what is past the positions in the array of the
    caller is left alone. This holds for any function qsort which sorts. The numbers are exact. *)
Theorem C86_positions : forall little fs qsort dir base num n nhash box files t value4 value8 groupnr filenr gids members fuel pos centre box0,
  sorts qsort -> 0 <= num -> 0 <= filenr -> snap_files little fs dir base num n nhash box files -> covers 0 nhash files -> holds files t -> zlen files < 2 ^ 30 ->
  group_ids little fs dir num filenr groupnr gids -> gids <> [] -> members_are files gids members -> different_ids files -> zlen (neighbours files gids) < 2 ^ 29 ->
  (0 < value8 box)%Q -> Forall (in_box value4 (value8 box)) members -> 3 * zlen gids <= zlen pos -> 3 * zlen gids < 2 ^ 31 -> (2 <= fuel)%nat ->
  exists sel new cx cy cz,
    get_group_coordinates little fs qsort dir num base value4 value8 fuel t nhash groupnr filenr (zlen gids) pos centre box0 =
      Ok {| c_ret := 0; c_file := Filetable t; c_pos := flat new ++ skipn (3 * List.length gids) pos; c_centre := [cx; cy; cz]; c_box := value8 box |} /\
    Permutation members sel /\ by_id sel /\
    about_centre (value8 box) (map (coordinate value4 0) sel) (map (fun q => fst (fst q)) new) cx /\
    about_centre (value8 box) (map (coordinate value4 1) sel) (map (fun q => snd (fst q)) new) cy /\
    about_centre (value8 box) (map (coordinate value4 2) sel) (map snd new) cz.
Proof. exact group_final. Qed.
Print Assumptions C86_positions.
(** a group with three particles in a box of size 8, one of them on the other side of x = 0 and
    one on the other side of z = 0 *)
Example C86_positions_case (fs := ex_groups 2 8 8 [ex_1; ex_2] ex_gids) :
  snap_files false fs (lit "/data") (lit "snap") 7 2 8 8 [ex_1; ex_2] /\ covers 0 8 [ex_1; ex_2] /\ holds [ex_1; ex_2] ex_tables /\ sorts isort /\ sorts rsort /\
  group_ids false fs (lit "/data") 7 0 1 ex_gids /\ members_are [ex_1; ex_2] ex_gids ex_members /\ different_ids [ex_1; ex_2] /\ zlen (neighbours [ex_1; ex_2] ex_gids) = 4 /\
  Forall (in_box inject_Z 8) ex_members /\
  match get_group_coordinates false fs isort (lit "/data") 7 (lit "snap") inject_Z inject_Z 2 ex_tables 8 1 0 3 (repeat (9 # 1)%Q 10) [] 0%Q with
  | Ok r => c_ret r = 0 /\ c_file r = Filetable ex_tables /\ map Qred (c_pos r) = [2 # 3; 0; 1 # 3; - (4 # 3); 0; 4 # 3; 2 # 3; 0; - (5 # 3); 9]%Q /\ map Qred (c_centre r) = [1 # 3; 1; 2 # 3]%Q /\ c_box r = 8%Q
  | Err _ => False
  end.
Proof.
  split; [apply ex_group_snaps|]. split; [repeat split|]. split; [exact ex_tables_hold|]. split; [exact isort_sorts|]. split; [exact rsort_sorts|]. split; [exact ex_group_ids|]. split; [exact ex_members_ok|].
  split; [exact ex_different|]. split; [reflexivity|]. split; [exact ex_in_box|]. vm_compute. repeat split.
Qed.

(** If one of the two files of the catalogue is missing the result is -1 and nothing is changed. *)
Theorem C86_missing_tab : forall little fs qsort dir base num value4 value8 fuel t size groupnr filenr len pos centre box,
  0 <= num -> 0 <= filenr -> file_is fs dir (lit "group_tab") num filenr None ->
  get_group_coordinates little fs qsort dir num base value4 value8 fuel t size groupnr filenr len pos centre box =
    Ok {| c_ret := -1; c_file := Filetable t; c_pos := pos; c_centre := centre; c_box := box |}.
Proof. exact group_missing_tab. Qed.
Print Assumptions C86_missing_tab.
Theorem C86_missing_ids : forall little fs qsort dir base num value4 value8 fuel t size groupnr filenr len pos centre box tab c1 e1,
  0 <= num -> 0 <= filenr -> file_is fs dir (lit "group_tab") num filenr (Some c1) -> catalogue_file little L2_group_tab tab e1 c1 -> 0 <= groupnr < zlen (tab "GroupOffset"%string) ->
  file_is fs dir (lit "group_ids") num filenr None ->
  get_group_coordinates little fs qsort dir num base value4 value8 fuel t size groupnr filenr len pos centre box =
    Ok {| c_ret := -1; c_file := Filetable t; c_pos := pos; c_centre := centre; c_box := box |}.
Proof. exact group_missing_ids. Qed.
Print Assumptions C86_missing_ids.
Example C86_missing_case : file_is (ex_fs [ex_a]) (lit "/data") (lit "group_tab") 7 1 None /\ file_is (ex_fs [ex_a]) (lit "/data") (lit "group_tab") 7 0 (Some (ex_file false ex_a)) /\
  catalogue_file false L2_group_tab ex_a [8%Z; 8%Z] (ex_file false ex_a) /\ 0 <= 1 < zlen (ex_a "GroupOffset"%string) /\ file_is (ex_fs [ex_a]) (lit "/data") (lit "group_ids") 7 0 None.
Proof.
  split; [apply file_is_intro; [discriminate | discriminate | vm_compute; reflexivity]|]. split; [apply file_is_intro; [discriminate | discriminate | vm_compute; reflexivity]|].
  split; [apply ex_file_ok; vm_compute; reflexivity|]. split; [vm_compute; split; [discriminate | reflexivity]|]. apply file_is_intro; [discriminate | discriminate | vm_compute; reflexivity].
Qed.
(** If a file of the snapshot is missing the result is -1 too, but the table of files in the
    memory of the caller has been changed: later calls with it read the wrong files. *)
Theorem C86_changed_refuted : exists fs t gids, group_ids false fs (lit "/data") 7 0 1 gids /\ snap_files false fs (lit "/data") (lit "snap") 7 2 8 8 [ex_1] /\ file_is fs (lit "/data") (lit "snap") 7 1 None /\ holds [ex_1; ex_2] t /\
  exists r, get_group_coordinates false fs isort (lit "/data") 7 (lit "snap") inject_Z inject_Z 2 t 8 1 0 (zlen gids) (repeat 0%Q 9) [] 0%Q = Ok r /\ c_ret r = -1 /\ c_file r <> Filetable t.
Proof. exact group_changed_refuted. Qed.
Print Assumptions C86_changed_refuted.
(** If no particle has one of the ids, memory is read past the end of the array of the ids. *)
Theorem C86_lost_refuted : exists fs t gids, group_ids false fs (lit "/data") 7 0 1 gids /\ Forall (fun gid => hash_key gid < 8) gids /\ snap_files false fs (lit "/data") (lit "snap") 7 2 8 8 [ex_1; ex_2] /\ holds [ex_1; ex_2] t /\
  get_group_coordinates false fs isort (lit "/data") 7 (lit "snap") inject_Z inject_Z 2 t 8 1 0 (zlen gids) (repeat 0%Q 9) [] 0%Q = Err EAbort.
Proof. exact group_lost_refuted. Qed.
Print Assumptions C86_lost_refuted.
