(** C70: readgroups.f90, C71: readfile.f90 (readers of whole Millennium files). *)
From Coq Require Import Ascii String.
From Verif Require Import Base.Prelude Formats.FileSpec Formats.CatSpec Fortran.RegionSpec Fortran.RegionFinal Fortran.RegionProps Fortran.GroupTabModel Fortran.GroupTabSpec Fortran.GroupTabProofs Fortran.ReadFileProofs Fortran.GroupTabFinal.
Local Open Scope Z_scope.

(** ** C70: readgroups.f90 *)
Theorem C70_group_tab : forall little cat extra content, catalogue_file little L2_group_tab cat extra content -> 16 + 8 * scalar cat "Ngroups" < 2 ^ 31 ->
  readgrouptab little content = Ok (header_of cat ["Ngroups"; "Nids"; "TotNgroups"; "NTask"]%string, map signed (cat "GroupLen"%string), map signed (cat "GroupOffset"%string)).
Proof. exact group_tab_final. Qed.
Print Assumptions C70_group_tab.
Theorem C70_group_ids : forall little cat extra content, catalogue_file little (L2_group_ids 8) cat extra content -> 16 + 8 * scalar cat "Nids" < 2 ^ 31 ->
  readgroupids little content = Ok (header_of cat ["Ngroups"; "Nids"; "TotNgroups"; "NTask"]%string, map signed64 (cat "GroupIDs"%string)).
Proof. intros little cat extra content. exact (ids_final little cat extra content "NTask"%string). Qed.
Print Assumptions C70_group_ids.
(** readsubids is the same code as readgroupids *)
Theorem C70_sub_ids : forall little cat extra content, catalogue_file little (L2_sub_ids 8) cat extra content -> 16 + 8 * scalar cat "Nids" < 2 ^ 31 ->
  readgroupids little content = Ok (header_of cat ["Ngroups"; "Nids"; "TotNgroups"; "NFiles"]%string, map signed64 (cat "GroupIDs"%string)).
Proof. intros little cat extra content. exact (ids_final little cat extra content "NFiles"%string). Qed.
Print Assumptions C70_sub_ids.
Theorem C70_sub_tab : forall little cat extra content, catalogue_file little (L2_sub_tab 8) cat extra content -> 20 + 8 * scalar cat "Ngroups" + 12 * scalar cat "Nsubhalos" < 2 ^ 31 ->
  readsubtab little content = Ok (header_of cat ["Ngroups"; "Nids"; "TotNgroups"; "NFiles"; "Nsubhalos"]%string,
    (map signed (cat "NsubPerHalo"%string), map signed (cat "FirstSubOfHalo"%string)), (map signed (cat "SubLen"%string), map signed (cat "SubOffset"%string), map signed (cat "SubParentHalo"%string))).
Proof. exact sub_tab_final. Qed.
Print Assumptions C70_sub_tab.
(** every field of every halo and subhalo *)
Theorem C70_subhalos : forall little cat extra content, catalogue_file little (L2_sub_tab 8) cat extra content -> 20 + 32 * scalar cat "Ngroups" + 68 * scalar cat "Nsubhalos" < 2 ^ 31 ->
  exists halos subs, readsubhalos little content = Ok (header_of cat ["Ngroups"; "Nids"; "TotNgroups"; "NFiles"; "Nsubhalos"]%string, halos, subs) /\
    map h_nsubgroups halos = map signed (cat "NsubPerHalo"%string) /\ map h_firstsubgroup halos = map signed (cat "FirstSubOfHalo"%string) /\
    map h_mmean200 halos = cat "Halo_M_Mean200"%string /\ map h_rmean200 halos = cat "Halo_R_Mean200"%string /\ map h_mcrit200 halos = cat "Halo_M_Crit200"%string /\ map h_rcrit200 halos = cat "Halo_R_Crit200"%string /\
    map h_mtophat200 halos = cat "Halo_M_TopHat200"%string /\ map h_rtophat200 halos = cat "Halo_R_TopHat200"%string /\
    map s_len subs = map signed (cat "SubLen"%string) /\ map s_offset subs = map signed (cat "SubOffset"%string) /\ map s_parent subs = map signed (cat "SubParentHalo"%string) /\
    concat (map s_pos subs) = cat "SubPos"%string /\ concat (map s_vel subs) = cat "SubVel"%string /\ concat (map s_spin subs) = cat "SubSpin"%string /\
    Forall (fun s => zlen (s_pos s) = 3 /\ zlen (s_vel s) = 3 /\ zlen (s_spin s) = 3) subs /\
    map s_veldisp subs = cat "SubVelDisp"%string /\ map s_vmax subs = cat "SubVmax"%string /\ map s_mostboundid subs = map signed64 (cat "SubMostBoundID"%string) /\ map s_halfmass subs = cat "SubHalfMass"%string.
Proof. exact subhalos_final. Qed.
Print Assumptions C70_subhalos.
(** readsubhalosexample.f90 *)
Theorem C70_program : forall little cat extra content, catalogue_file little (L2_sub_tab 8) cat extra content -> 20 + 32 * scalar cat "Ngroups" + 68 * scalar cat "Nsubhalos" < 2 ^ 31 ->
  (forall i, 0 <= i < scalar cat "Ngroups" -> has_subhalos cat i = true -> 0 <= signed (at_index (cat "FirstSubOfHalo"%string) i) < scalar cat "Nsubhalos") ->
  subhalos_program little content = Ok (map (subhalo_line cat) (zseq 0 (Z.to_nat (scalar cat "Nsubhalos"))), map (halo_line cat) (filter (has_subhalos cat) (zseq 0 (Z.to_nat (scalar cat "Ngroups"))))).
Proof. exact program_final. Qed.
Print Assumptions C70_program.
(** a file which ends early is an error of the reader, not a shorter catalogue *)
Theorem C70_truncated : forall little cat extra content k,
  (catalogue_file little L2_group_tab cat extra content -> 16 + 8 * scalar cat "Ngroups" < 2 ^ 31 -> Z.of_nat k < 16 + 8 * scalar cat "Ngroups" -> readgrouptab little (firstn k content) = Err EIO) /\
  (catalogue_file little (L2_group_ids 8) cat extra content -> 16 + 8 * scalar cat "Nids" < 2 ^ 31 -> Z.of_nat k < 16 + 8 * scalar cat "Nids" -> readgroupids little (firstn k content) = Err EIO) /\
  (catalogue_file little (L2_sub_tab 8) cat extra content -> 20 + 8 * scalar cat "Ngroups" + 12 * scalar cat "Nsubhalos" < 2 ^ 31 -> Z.of_nat k < 20 + 8 * scalar cat "Ngroups" + 12 * scalar cat "Nsubhalos" -> readsubtab little (firstn k content) = Err EIO) /\
  (catalogue_file little (L2_sub_tab 8) cat extra content -> 20 + 32 * scalar cat "Ngroups" + 68 * scalar cat "Nsubhalos" < 2 ^ 31 -> Z.of_nat k < 20 + 32 * scalar cat "Ngroups" + 68 * scalar cat "Nsubhalos" -> readsubhalos little (firstn k content) = Err EIO).
Proof. exact truncated_final. Qed.
Print Assumptions C70_truncated.
(** from 2 GB on the length of the record overflows a default integer *)
Theorem C70_2GB_refuted : forall little cat extra content,
  (catalogue_file little L2_group_tab cat extra content -> 2 ^ 31 <= 16 + 8 * scalar cat "Ngroups" -> readgrouptab little content = Err EAbort) /\
  (catalogue_file little (L2_group_ids 8) cat extra content -> 2 ^ 31 <= 16 + 8 * scalar cat "Nids" -> readgroupids little content = Err EAbort) /\
  (catalogue_file little (L2_sub_tab 8) cat extra content -> 2 ^ 31 <= 20 + 8 * scalar cat "Ngroups" + 12 * scalar cat "Nsubhalos" -> readsubtab little content = Err EAbort) /\
  (catalogue_file little (L2_sub_tab 8) cat extra content -> 2 ^ 31 <= 20 + 32 * scalar cat "Ngroups" + 68 * scalar cat "Nsubhalos" -> readsubhalos little content = Err EAbort).
Proof. exact twoGB_final. Qed.
Print Assumptions C70_2GB_refuted.

(** two groups (the second without subhalos), three subhalos *)
Definition ex_subs : catalogue := fun name =>
  if (name =? "Ngroups")%string then [2] else if (name =? "Nids")%string then [4] else if (name =? "TotNgroups")%string then [7] else if (name =? "NFiles")%string || (name =? "NTask")%string then [5]
  else if (name =? "Nsubhalos")%string then [3] else if (name =? "NsubPerHalo")%string then [3; 0] else if (name =? "FirstSubOfHalo")%string then [0; 2 ^ 32 - 1]
  else if (name =? "SubLen")%string then [20; 21; 22] else if (name =? "SubOffset")%string then [0; 20; 41] else if (name =? "SubParentHalo")%string then [0; 0; 0]
  else if (name =? "GroupLen")%string then [3; 1] else if (name =? "GroupOffset")%string then [0; 3] else if (name =? "GroupIDs")%string then [9; 2 ^ 64 - 2; 7; 6]
  else if (name =? "Halo_M_Mean200")%string then [31; 32] else if (name =? "Halo_R_Mean200")%string then [33; 34] else if (name =? "Halo_M_Crit200")%string then [35; 36] else if (name =? "Halo_R_Crit200")%string then [37; 38]
  else if (name =? "Halo_M_TopHat200")%string then [39; 40] else if (name =? "Halo_R_TopHat200")%string then [41; 42]
  else if (name =? "SubPos")%string then [51; 52; 53; 54; 55; 56; 57; 58; 59] else if (name =? "SubVel")%string then [61; 62; 63; 64; 65; 66; 67; 68; 69] else if (name =? "SubSpin")%string then [71; 72; 73; 74; 75; 76; 77; 78; 79]
  else if (name =? "SubVelDisp")%string then [81; 82; 83] else if (name =? "SubVmax")%string then [84; 85; 86] else if (name =? "SubMostBoundID")%string then [87; 88; 89] else if (name =? "SubHalfMass")%string then [91; 92; 93]
  else if (name =? "GroupMinLen")%string then [0] else [].
Example C70_ex : let f l := file_bytes false (pieces_of ex_subs l) ++ [1; 2] in
  catalogue_file false L2_group_tab ex_subs [1; 2] (f L2_group_tab) /\ catalogue_file false (L2_group_ids 8) ex_subs [1; 2] (f (L2_group_ids 8)) /\ catalogue_file false (L2_sub_ids 8) ex_subs [1; 2] (f (L2_sub_ids 8)) /\
  catalogue_file false (L2_sub_tab 8) ex_subs [1; 2] (f (L2_sub_tab 8)) /\ (forall i, 0 <= i < 2 -> has_subhalos ex_subs i = true -> 0 <= signed (at_index (ex_subs "FirstSubOfHalo"%string) i) < 3) /\
  readgrouptab false (f L2_group_tab) = Ok ([2; 4; 7; 5], [3; 1], [0; 3]) /\ readgroupids false (f (L2_sub_ids 8)) = Ok ([2; 4; 7; 5], [9; -2; 7; 6]) /\
  readsubtab false (f (L2_sub_tab 8)) = Ok ([2; 4; 7; 5; 3], ([3; 0], [0; -1]), ([20; 21; 22], [0; 20; 41], [0; 0; 0])) /\
  subhalos_program false (f (L2_sub_tab 8)) = Ok ([(20, 91, [51; 52; 53]); (21, 92, [54; 55; 56]); (22, 93, [57; 58; 59])], [(31, 33, [51; 52; 53])]) /\
  readsubhalos false (firstn 287 (f (L2_sub_tab 8))) = Err EIO /\ (exists r, readsubhalos false (firstn 288 (f (L2_sub_tab 8))) = Ok r).
Proof.
  cbn zeta.
  repeat match goal with |- catalogue_file _ _ _ _ _ /\ _ => split; [split; [split; [apply pieces_okb; vm_compute; reflexivity | repeat constructor; vm_compute; congruence] | reflexivity]|] end.
  split; [intros i Hi; assert (i = 0 \/ i = 1) as [-> | ->] by lia; vm_compute; [split; congruence | discriminate]|].
  repeat (split; [vm_compute; reflexivity|]). eexists. vm_compute. reflexivity.
Qed.
(** the hypotheses of [C70_2GB_refuted] can be met *)
Example C70_2GB_ex : forall n lf, n = 2 ^ 28 - 2 -> 2 ^ 31 <= 16 + 8 * scalar (many n) "Nids" /\ catalogue_file lf (L2_group_ids 8) (many n) [] (file_bytes lf (pieces_of (many n) (L2_group_ids 8)) ++ []).
Proof. exact many_ok. Qed.

(** ** C71: readfile.f90 *)
Definition header_list : list string :=
  ["Header/NumPart_ThisFile"; "Header/MassTable"; "Header/Time"; "Header/Redshift"; "Header/Flag_Sfr"; "Header/Flag_Feedback"; "Header/NumPart_Total"; "Header/Flag_Cooling"; "Header/NumFilesPerSnapshot";
   "Header/BoxSize"; "Header/Omega0"; "Header/OmegaLambda"; "Header/HubbleParam"; "Header/Flag_StellarAge"; "Header/Flag_Metals"; "Header/HashTabSize"]%string.
Definition ncells (cat : catalogue) : Z := scalar cat "last_hash_cell" - scalar cat "first_hash_cell" + 1.
Definition sizes_fit (cat : catalogue) : Prop := 12 * npart_of cat < 2 ^ 31 /\ 4 * ncells cat < 2 ^ 31 /\ scalar cat "first_hash_cell" < 2 ^ 31 /\ scalar cat "last_hash_cell" < 2 ^ 31.
Theorem C71_header : forall little cat extra content, snapshot_file little cat extra content -> readheader little content = Ok (map cat header_list).
Proof. exact header_final. Qed.
Print Assumptions C71_header.
(** everything in the file *)
Theorem C71_file : forall little cat extra content room hroom, snapshot_file little cat extra content -> sizes_fit cat -> npart_of cat <= room -> ncells cat <= hroom ->
  readfile little content room hroom = Ok (map cat header_list, (scalar cat "first_hash_cell", scalar cat "last_hash_cell", map signed (cat "blockid"%string)),
    (map (row3 (cat "PartType1/Coordinates"%string)) (zseq 0 (Z.to_nat (npart_of cat))), map (row3 (cat "PartType1/Velocities"%string)) (zseq 0 (Z.to_nat (npart_of cat))), map signed64 (cat "PartType1/ParticleIDs"%string))).
Proof. intros little cat extra content room hroom H (H1 & H2 & H3 & H4). exact (file_final little cat extra content H H1 H2 H3 H4 room hroom). Qed.
Print Assumptions C71_file.
(** readfileexample.f90: particles 0, 10, 20, ... *)
Theorem C71_program : forall little cat extra content, snapshot_file little cat extra content -> sizes_fit cat -> ncells cat <= signed (scalar cat "Header/HashTabSize") ->
  file_program little content = Ok (map (fun i => (signed64 (at_index (cat "PartType1/ParticleIDs"%string) i), row3 (cat "PartType1/Coordinates"%string) i)) (filter (fun i => i mod 10 =? 0) (zseq 0 (Z.to_nat (npart_of cat))))).
Proof. intros little cat extra content H (H1 & H2 & H3 & H4). exact (program_ok little cat extra content H H1 H2 H3 H4). Qed.
Print Assumptions C71_program.
(** no file which ends early is read *)
Theorem C71_truncated : forall little cat extra content k room hroom, snapshot_file little cat extra content -> sizes_fit cat -> npart_of cat <= room -> ncells cat <= hroom ->
  Z.of_nat k < sumZ (map piece_size (L2_snapshot cat)) -> readfile little (firstn k content) room hroom = Err EIO /\ (ncells cat <= signed (scalar cat "Header/HashTabSize") -> file_program little (firstn k content) = Err EIO).
Proof. intros little cat extra content k room hroom H (H1 & H2 & H3 & H4). exact (cut_final little cat extra content H H1 H2 H3 H4 k room hroom). Qed.
Print Assumptions C71_truncated.
(** more particles than the caller has room for: memory after the arrays would be overwritten *)
Theorem C71_room_refuted : forall little cat extra content room hroom, snapshot_file little cat extra content -> room < npart_of cat -> readfile little content room hroom = Err EAbort.
Proof. intros little cat extra content room hroom H. exact (file_room little cat extra content H room hroom). Qed.
Print Assumptions C71_room_refuted.
(** positions of 2 GB or more: the record marker is read as a negative number *)
Theorem C71_2GB_refuted : forall little cat extra content room hroom, snapshot_file little cat extra content -> 2 ^ 31 <= 12 * npart_of cat -> npart_of cat <= room -> readfile little content room hroom = Err EIO.
Proof. intros little cat extra content room hroom H. exact (file_big little cat extra content H room hroom). Qed.
Print Assumptions C71_2GB_refuted.
Definition ex_part (n : Z) : catalogue := fun name => if (name =? "Header/HashTabSize")%string then [9] else
  ex_cat 3 5 (zseq 100 (Z.to_nat (3 * n))) (zseq 200 (Z.to_nat (3 * n))) (zseq (2 ^ 63) (Z.to_nat n)) [0; 4; 4] name.
Example C71_ex : let f := file_bytes true (L2_snapshot (ex_part 12)) ++ [9; 9] in snapshot_file true (ex_part 12) [9; 9] f /\ sizes_fit (ex_part 12) /\ npart_of (ex_part 12) = 12 /\ ncells (ex_part 12) = 3 /\
  ncells (ex_part 12) <= signed (scalar (ex_part 12) "Header/HashTabSize") /\ file_program true f = Ok [(- 2 ^ 63, [100; 101; 102]); (- 2 ^ 63 + 10, [130; 131; 132])] /\
  (exists h t p, readfile true f 12 3 = Ok (h, t, p) /\ t = (3, 5, [0; 4; 4])) /\ readfile true f 11 3 = Err EAbort /\ readfile true f 12 2 = Err EAbort /\ sumZ (map piece_size (L2_snapshot (ex_part 12))) = 708 /\ readfile true (firstn 707 f) 12 3 = Err EIO.
Proof.
  cbn zeta. split; [split; [apply pieces_okb; vm_compute; reflexivity | reflexivity]|]. split; [repeat split; vm_compute; congruence|]. repeat (split; [vm_compute; (reflexivity || congruence)|]).
  split; [do 3 eexists; split; vm_compute; reflexivity|]. repeat (split; [vm_compute; reflexivity|]). vm_compute. reflexivity.
Qed.
Example C71_2GB_ex : forall n, n = 178956971 -> 2 ^ 31 <= 12 * n /\ npart_of (blank n) = n /\ snapshot_file true (blank n) [] (file_bytes true (L2_snapshot (blank n)) ++ []).
Proof. intros n H. split; [lia|]. apply C67_blank_ex. lia. Qed.
