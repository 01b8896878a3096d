(** C100: IDL programs which read single files of the Millennium simulation. *)
From Coq Require Import Ascii String.
From Verif Require Import Base.Prelude Formats.FileSpec Formats.CatSpec Formats.StructModel Formats.StructSpec Fortran.RegionSpec Fortran.GroupTabSpec.
From Verif Require Import Text.StrModel Pro.ProModel Pro.ProSpec Pro.NameProofs Pro.ProProofs Pro.ProFinal.
From Verif Require Fortran.RegionProps.
Local Open Scope Z_scope. Local Open Scope list_scope.

(** the names of the files, for directories without blanks and snapshots up to number 999 *)
Theorem C100_names base num k : no_blanks base -> three_digits num ->
  group_tab_name base num k = group_tab_file base num k /\ sub_tab_name base num k = sub_tab_file base num k /\ potential_name base num k = potential_file base num k /\
  tree_name base num k = tree_path "trees" base num k /\ treeaux_name base num k = tree_path "treeaux" base num k /\
  forall snapbase, no_blanks snapbase -> snapshot_name base snapbase num k = snapshot_path base snapbase num k.
Proof. exact (names_final base num k). Qed.
Print Assumptions C100_names.
Theorem C100_blanks_refuted : ~ (forall base num k, three_digits num -> group_tab_name base num k = group_tab_file base num k).
Proof. exact blanks_refuted. Qed.
Print Assumptions C100_blanks_refuted.
Theorem C100_thousand_refuted : ~ (forall base num k, no_blanks base -> 0 <= num -> group_tab_name base num k = group_tab_file base num k).
Proof. exact thousand_refuted. Qed.
Print Assumptions C100_thousand_refuted.

(** ReadGroups.pro never comes to an end *)
Theorem C100_groups_refuted little fs base num k : exists e, read_groups little fs base num k = Err e.
Proof. exact (groups_final little fs base num k). Qed.
Print Assumptions C100_groups_refuted.

(** ReadSubHalos.pro, for files of which the first [k1] and [k2] bytes are there *)
Theorem C100_sub_halos little fs base num sub cat1 cat2 extra1 extra2 content1 content2 k1 k2 : no_blanks base -> three_digits num ->
  catalogue_file little L2_group_tab cat1 extra1 content1 -> catalogue_file little (L2_sub_tab 8) cat2 extra2 content2 ->
  fs (group_tab_file base num sub) = Some (firstn k1 content1) -> fs (sub_tab_file base num sub) = Some (firstn k2 content2) ->
  0 < scalar cat1 "Ngroups" -> 0 < scalar cat2 "Ngroups" -> 0 < scalar cat2 "Nsubhalos" ->
  read_sub_halos little fs base num sub =
    if (Z.of_nat k1 <? 16 + 4 * scalar cat1 "Ngroups") || (Z.of_nat k2 <? size_of cat2 (L2_sub_tab 8)) then Err EIO else
    Ok (map signed (cat1 "GroupLen"%string), map (map signed) (arrays_of cat2 sub_tab_counts), arrays_of cat2 halo_properties, arrays_of cat2 subhalo_properties).
Proof. intros Hb Hn. exact (sub_top little fs base num Hb Hn sub cat1 cat2 extra1 extra2 content1 content2 k1 k2). Qed.
Print Assumptions C100_sub_halos.

(** ReadTree.pro: one file, all the files *)
Theorem C100_tree little fs base num filenr trees extra content k : no_blanks base -> three_digits num ->
  trees_file little trees extra content -> 0 < zlen trees -> zlen (concat trees) < 2 ^ 32 -> fs (tree_path "trees" base num filenr) = Some (firstn k content) ->
  read_tree_file little fs base num filenr = if Z.of_nat k <? trees_size trees then Err EIO else Ok (tree_numbers trees).
Proof. intros Hb Hn. exact (tree_top little fs base num Hb Hn filenr trees extra content k). Qed.
Print Assumptions C100_tree.
Theorem C100_all_trees little fs base num (trees : Z -> list (list structure)) : no_blanks base -> three_digits num ->
  (forall i, 0 <= i < 512 -> exists extra content, trees_file little (trees i) extra content /\ 0 < zlen (trees i) /\ zlen (concat (trees i)) < 2 ^ 32 /\ fs (tree_path "trees" base num i) = Some content) ->
  read_tree little fs base num = Ok (map (fun i => tree_numbers (trees i)) (zseq 0 512)).
Proof. intros Hb Hn. exact (all_trees_top little fs base num Hb Hn trees). Qed.
Print Assumptions C100_all_trees.
(** it stops with an error for trees of a simulation with fewer files, *)
Theorem C100_few_refuted little fs base num i : no_blanks base -> three_digits num -> 0 <= i < 512 -> fs (tree_path "trees" base num i) = None -> exists e, read_tree little fs base num = Err e.
Proof. intros Hb Hn. exact (few_top little fs base num Hb Hn i). Qed.
Print Assumptions C100_few_refuted.
(** and for a tree without halos *)
Theorem C100_empty_refuted little fs base num filenr n extra : no_blanks base -> three_digits num -> 0 <= n < 2 ^ 32 ->
  fs (tree_path "trees" base num filenr) = Some (number_bytes little 4 1 ++ number_bytes little 4 n ++ number_bytes little 4 0 ++ extra) ->
  read_tree_file little fs base num filenr = Err EValue.
Proof. intros Hb Hn. exact (empty_tree_top little fs base num Hb Hn filenr n extra). Qed.
Print Assumptions C100_empty_refuted.

(** Read_TreeAux.pro *)
Theorem C100_aux little fs base num filenr cat extra content k : no_blanks base -> three_digits num ->
  catalogue_file little (MPA_tree_aux 8) cat extra content -> fs (tree_path "treeaux" base num filenr) = Some (firstn k content) ->
  Forall (fun n => 0 < scalar cat n) ["TotSnaps"; "Ntrees"; "TotHalos"; "Totunique"]%string ->
  read_tree_aux little fs base num filenr =
    if Z.of_nat k <? size_of cat (firstn 12 (MPA_tree_aux 8)) then Err EIO else Ok (map (map signed) (arrays_of cat aux_counts) ++ [map signed64 (cat "IDs"%string); cat "Pos"%string]).
Proof. intros Hb Hn. exact (aux_top little fs base num Hb Hn filenr cat extra content k). Qed.
Print Assumptions C100_aux.

(** ReadSingle.pro *)
Theorem C100_single little fs base num snapbase sub cat extra content k : no_blanks base -> three_digits num ->
  no_blanks snapbase -> snapshot_file little cat extra content -> fs (snapshot_path base snapbase num sub) = Some (firstn k content) -> 0 < npart_of cat -> 12 * npart_of cat < 2 ^ 31 ->
  read_single little fs base snapbase num sub = if Z.of_nat k <? 288 + 32 * npart_of cat then Err EIO else
    Ok (map signed (cat "Header/NumPart_ThisFile"%string), (cat "PartType1/Coordinates"%string, cat "PartType1/Velocities"%string, map signed64 (cat "PartType1/ParticleIDs"%string))).
Proof. intros Hb Hn. exact (single_top little fs base num Hb Hn snapbase sub cat extra content k). Qed.
Print Assumptions C100_single.

(** a file with two trees *)
Example C100_ex : let content := tree_file false (map zlen ex_trees) (map (halo_bytes false) (concat ex_trees)) [9] in
  trees_file false ex_trees [9] content /\ no_blanks (lit "/data") /\ three_digits 63 /\
  (let fs name := if str_eqb name (lit "/data/treedata/trees_063.17") then Some content else None in
   fs (tree_path "trees" (lit "/data") 63 17) = Some content /\ read_tree_file false fs (lit "/data") 63 17 = Ok (tree_numbers ex_trees)).
Proof. cbn zeta. split; [apply ex_trees_ok|]. split; [repeat constructor; discriminate|]. split; [unfold three_digits; split; discriminate|]. vm_compute. split; reflexivity. Qed.
(** group_tab and sub_tab files with two groups and two subhalos; a treeaux file *)
Example C100_ex_tab : catalogue_file true L2_group_tab ex_tab [] (file_bytes true (pieces_of ex_tab L2_group_tab) ++ []) /\ consistent ex_tab (L2_sub_tab 8) /\ consistent ex_tab (MPA_tree_aux 8) /\
  0 < scalar ex_tab "Ngroups" /\ 0 < scalar ex_tab "Nsubhalos" /\ Forall (fun n => 0 < scalar ex_tab n) ["TotSnaps"; "Ntrees"; "TotHalos"; "Totunique"]%string /\
  (let fs name := if str_eqb name (lit "d/snapdir_007/group_tab_007.0") then Some (file_bytes true (pieces_of ex_tab L2_group_tab)) else
     if str_eqb name (lit "d/postproc_007/sub_tab_007.0") then Some (file_bytes true (pieces_of ex_tab (L2_sub_tab 8))) else None in
   exists h s, read_sub_halos true fs (lit "d") 7 0 = Ok ([7; -1], repeat [7; -1] 5, h, s)).
Proof. destruct (ex_tab_ok true) as (_ & A & B & C). split; [exact C|]. split; [exact A|]. split; [exact B|]. split; [reflexivity|]. split; [reflexivity|]. split; [repeat constructor|]. vm_compute. eexists. eexists. reflexivity. Qed.
(** a snapshot file with three particles *)
Example C100_ex_single : snapshot_file false RegionProps.ex_file1 [9; 9] (file_bytes false (L2_snapshot RegionProps.ex_file1) ++ [9; 9]) /\
  (let fs name := if str_eqb name (lit "d/snapdir_007/s_007.12") then Some (file_bytes false (L2_snapshot RegionProps.ex_file1) ++ [9; 9]) else None in
   exists r, read_single false fs (lit "d") (lit "s") 7 12 = Ok r /\ map zlen [fst (fst (snd r)); snd (fst (snd r)); snd (snd r)] = [9; 9; 3]).
Proof. split; [exact (proj1 RegionProps.C67_ex)|]. vm_compute. eexists. split; reflexivity. Qed.
