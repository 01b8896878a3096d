(** C84: the functions of groupstuff.c which read the group catalogues. *)
From Coq Require Import QArith.
From Coq Require Import Ascii String.
From Coq Require Import Sorting.Permutation Sorting.Sorted.
From Verif Require Import Base.Prelude Binary.BinModel Formats.FileSpec Formats.CatSpec.
From Verif Require Import Text.StrModel Text.StrSpec Text.PathSpec Fortran.RegionSpec Fortran.GroupTabSpec.
From Verif Require Import Idl.LibModel Idl.LibSpec Idl.TabFinal.
Local Open Scope Z_scope. Local Open Scope list_scope.

(** The number of groups and the minimum size of a group are those in the header of file 0. *)
Theorem C84_total : forall little fs dir num cat cats,
  0 <= num -> tab_files little fs dir num (cat :: cats) ->
  get_total_number_of_groups little fs dir num = Ok (signed (scalar cat "TotNgroups")).
Proof. exact total_final. Qed.
Print Assumptions C84_total.
Theorem C84_minimum : forall little fs dir num cat cats,
  0 <= num -> tab_files little fs dir num (cat :: cats) ->
  get_minimum_group_len little fs dir num = Ok (signed (scalar cat "GroupMinLen")).
Proof. exact minimum_final. Qed.
Print Assumptions C84_minimum.
Example C84_total_case : tab_files false (ex_fs [ex_a; ex_b]) (lit "/data") 7 [ex_a; ex_b] /\
  get_total_number_of_groups false (ex_fs [ex_a; ex_b]) (lit "/data") 7 = Ok 3 /\ get_minimum_group_len false (ex_fs [ex_a; ex_b]) (lit "/data") 7 = Ok 3.
Proof. split; [exact ex_files | split; vm_compute; reflexivity]. Qed.

(** The catalogue has every group of every file once, with its file and its number in the file,
    from the largest to the smallest; what is past it in the arrays of the caller is left alone.
    This holds for any function qsort which sorts. *)
Theorem C84_catalogue : forall little fs qsort dir num cats fuel g (all := all_groups cats),
  sorts qsort -> 0 <= num -> cats <> [] -> tab_files little fs dir num cats ->
  all_files_say "NTask" cats (zlen cats) -> all_files_say "TotNgroups" cats (zlen all) -> zlen all < 2 ^ 31 ->
  fits (zlen all) g -> (List.length cats < fuel)%nat ->
  exists table g', get_group_catalogue little fs qsort dir num fuel g = Ok (zlen all, g') /\
    Permutation all table /\ StronglySorted (fun a b => fst (fst b) <= fst (fst a)) table /\
    g_len g' = map (fun t => fst (fst t)) table ++ skipn (List.length all) (g_len g) /\
    g_file g' = map (fun t => snd (fst t)) table ++ skipn (List.length all) (g_file g) /\
    g_nr g' = map snd table ++ skipn (List.length all) (g_nr g).
Proof. exact catalogue_final. Qed.
Print Assumptions C84_catalogue.
Example C84_catalogue_case : tab_files false (ex_fs [ex_a; ex_b]) (lit "/data") 7 [ex_a; ex_b] /\ sorts isort /\ sorts rsort /\
  all_files_say "NTask" [ex_a; ex_b] 2 /\ all_files_say "TotNgroups" [ex_a; ex_b] 3 /\ all_groups [ex_a; ex_b] = [(5, 0, 0); (9, 0, 1); (7, 1, 0)] /\
  get_group_catalogue false (ex_fs [ex_a; ex_b]) isort (lit "/data") 7 5 {| g_len := [-1; -1; -1; -1]; g_file := [-1; -1; -1; -1]; g_nr := [-1; -1; -1; -1] |} =
    Ok (3, {| g_len := [9; 7; 5; -1]; g_file := [0; 1; 0; -1]; g_nr := [1; 0; 0; -1] |}).
Proof. split; [exact ex_files|]. split; [exact isort_sorts|]. split; [exact rsort_sorts|]. repeat (split; [repeat constructor|]). split; vm_compute; reflexivity. Qed.

(** The counts of the groups below the minimum size are the sums over the files, the number of
    ids is the sum over the files; what is returned is the minimum size in the last file. *)
Theorem C84_below : forall little fs dir num cat cats fuel junk counts ids0 (all := cat :: cats) (m := signed (scalar cat "GroupMinLen")),
  0 <= num -> tab_files little fs dir num all -> all_files_say "NTask" all (zlen all) ->
  Forall (fun c => signed (scalar c "GroupMinLen") <= m) all -> m <= zlen counts -> (List.length all < fuel)%nat ->
  get_groupcount_below_minimum_len little fs dir num fuel junk counts ids0 =
  Ok {| b_ret := signed (scalar (last all cat) "GroupMinLen");
        b_count := map (groups_of_size all) (zseq 0 (Z.to_nat m)) ++ skipn (Z.to_nat m) counts; b_ids := all_ids all |}.
Proof. exact below_final. Qed.
Print Assumptions C84_below.
Example C84_below_case : get_groupcount_below_minimum_len false (ex_fs [ex_a; ex_b]) (lit "/data") 7 5 0 [-1; -1; -1; -1] 99 = Ok {| b_ret := 3; b_count := [8; 7; 2; -1]; b_ids := 21 |}.
Proof. vm_compute. reflexivity. Qed.
(** If the minimum size in a later file is larger than that in file 0, the counts are read past
    the end of the memory which was allocated for them, here with room for 100 counts in the
    array of the caller. *)
Theorem C84_below_refuted : exists fs cats,
  tab_files false fs (lit "/data") 7 cats /\ all_files_say "NTask" cats (zlen cats) /\
  get_groupcount_below_minimum_len false fs (lit "/data") 7 5 0 (repeat 0 100) 0 = Err EAbort.
Proof. exact below_refuted. Qed.
Print Assumptions C84_below_refuted.

(** If the first file is missing each of the four functions returns -1 and changes nothing. If a
    later file is missing the two which read all files return -1. *)
Theorem C84_missing : forall little fs qsort dir num,
  0 <= num -> file_is fs dir (lit "group_tab") num 0 None ->
  get_total_number_of_groups little fs dir num = Ok (-1) /\ get_minimum_group_len little fs dir num = Ok (-1) /\
  (forall fuel junk counts ids, get_groupcount_below_minimum_len little fs dir num fuel junk counts ids = Ok {| b_ret := -1; b_count := counts; b_ids := ids |}) /\
  (forall fuel g, get_group_catalogue little fs qsort dir num fuel g = Ok (-1, g)).
Proof. exact missing_final. Qed.
Print Assumptions C84_missing.
Example C84_missing_case : file_is (ex_fs [ex_a; ex_b]) (lit "/data") (lit "group_tab") 8 0 None.
Proof. apply file_is_intro; [discriminate | discriminate | vm_compute; reflexivity]. Qed.
Theorem C84_missing_later : forall little fs qsort dir num cats n,
  0 <= num -> cats <> [] -> tab_files little fs dir num cats -> all_files_say "NTask" cats n -> zlen cats < n ->
  file_is fs dir (lit "group_tab") num (zlen cats) None ->
  (forall fuel g, (List.length cats < fuel)%nat -> fits (zlen (all_groups cats)) g -> zlen (all_groups cats) < 2 ^ 31 ->
     exists g', get_group_catalogue little fs qsort dir num fuel g = Ok (-1, g')) /\
  (forall cat rest fuel junk counts ids, cats = cat :: rest -> (List.length cats < fuel)%nat ->
     Forall (fun c => signed (scalar c "GroupMinLen") <= signed (scalar cat "GroupMinLen")) cats -> signed (scalar cat "GroupMinLen") <= zlen counts ->
     exists counts', get_groupcount_below_minimum_len little fs dir num fuel junk counts ids = Ok {| b_ret := -1; b_count := counts'; b_ids := ids |}).
Proof. exact missing_later_final. Qed.
Print Assumptions C84_missing_later.
Example C84_missing_later_case : tab_files false (ex_fs [ex_a]) (lit "/data") 7 [ex_a] /\ all_files_say "NTask" [ex_a] 2 /\ file_is (ex_fs [ex_a]) (lit "/data") (lit "group_tab") 7 1 None /\
  get_groupcount_below_minimum_len false (ex_fs [ex_a]) (lit "/data") 7 5 0 [0; 0; 0] 99 = Ok {| b_ret := -1; b_count := [7; 3; 0]; b_ids := 99 |}.
Proof. split; [exact (proj1 ex_files3)|]. split; [repeat constructor|]. split; [exact (proj2 ex_files3)|]. vm_compute. reflexivity. Qed.
