(** C110: R200, and what plot_profile_dens.pro shows. *)
From Coq Require Import Reals QArith Qreals Lra.
From Coq Require Import Ascii String.
From Coq Require Import Sorting.Permutation Sorting.Sorted.
From Verif Require Import Base.Prelude Formats.FileSpec Formats.CatSpec Text.StrModel Snap.ReadSpec Fortran.RegionSpec Fortran.GroupTabSpec Fortran.FofSpec.
From Verif Require Import Idl.LibModel Idl.LibSpec Idl.SnapSpec Idl.GroupSpec Idl.TabFinal Idl.HashFinal Idl.GroupFinal Idl.SphereSpec Idl.ProgSpec Idl.ProgModel Idl.ProgProofs Idl.ProgFinal Idl.ProgCases.
From Verif Require Import Idl.ProfSpec Idl.ProfModel Idl.ProfProofs Idl.ProfFinal Idl.ProfCases Idl.NfwModel Idl.NfwSpec Idl.NfwFinal Idl.DensModel Idl.DensSpec Idl.DensFinal Idl.DensCases Pro.ProSpec.
Local Open Scope Z_scope. Local Open Scope list_scope.

(** R200 is the largest of the radii of the particles in the sphere up to which the mean density is
    200 times the critical one or more. *)
Theorem C110_r200 m time ds x : (0 <= m)%R -> (0 < time)%R -> R200 m time ds = Ok x <-> is_r200 m time (radii time ds) x.
Proof. exact (fun Hm Ht => R200_ok m time ds Hm Ht x). Qed.
Print Assumptions C110_r200.
(** without such a radius there is an error *)
Theorem C110_r200_none m time ds : (0 <= m)%R -> (0 < time)%R -> R200 m time ds = Err EIndex <-> forall x, In x (radii time ds) -> ~ over_200 m time (radii time ds) x.
Proof. exact (R200_none m time ds). Qed.
Print Assumptions C110_r200_none.
Example C110_r200_case : R200 100000 1 [81; 1; 4]%Q = Ok 2%R /\ is_r200 100000 1 [9; 1; 2]%R 2.
Proof. split; [|exact three_r200]. apply R200_ok; [lra|lra|]. change (map (radius 1) [81; 1; 4]%Q) with (radii 1 [81; 1; 4]%Q). rewrite radii_now. exact three_r200. Qed.

(** What is shown of a group with particles of mass [m] at the radii in its sphere: the program ends
    with R200, M200, the densities of the shells and the fit exactly if these are as specified. *)
Theorem C110_shown m time ds d : (0 <= m)%R -> (0 < time)%R -> (exists N, forall steps, (N <= steps)%nat -> dens m time ds steps = Ok d) <-> shown_of m time (radii time ds) d.
Proof. exact (dens_shown m time ds d). Qed.
Print Assumptions C110_shown.
Example C110_shown_case : exists r l rho, (0 < r)%R /\ shown_of 1000000 late (radii late [1 # 4000000]%Q) (r, 200 * critical late * (4 / 3 * PI * r ^ 3), rho, (Some l, Some (1 / 100)))%R.
Proof. destruct one_shown as (r & l & H). exists r, l. eexists. exact H. Qed.
Theorem C110_shown_only m time ds steps d : (0 <= m)%R -> (0 < time)%R -> dens m time ds steps = Ok d -> shown_of m time (radii time ds) d.
Proof. exact (dens_only m time ds steps d). Qed.
Print Assumptions C110_shown_only.

(** The program, for the groups number 100 to 108 by their lengths: if it ends it shows for each of
    them what it should for all particles of the snapshot in its sphere, in the group or not; and it
    ends if the fits do. The spheres have to be inside of the half of the box in each direction, and
    their centres in the box. *)
Theorem C110_program little fs qsort limit basedir snapbase num dir fuel box files value4 value8 cats root b (nhash := 8 ^ b) (B := value8 box) : snapdir basedir num dir -> whole_snapshot little fs dir snapbase num nhash box files -> (List.length files < fuel)%nat ->
  nhash <= limit /\ zlen files <= limit -> sorts qsort -> whole_catalogue little fs dir num cats -> (List.length cats < fuel)%nat -> different_ids files -> (0 < B)%Q -> 109 <= zlen (all_groups cats) <= limit -> (2 <= fuel)%nat ->
  (forall q, (0 <= q)%Q -> (0 <= root q /\ q <= root q * root q)%Q) -> 1 <= b <= 10 -> in_its_cell value4 B b files -> 3 * zlen (concat (cells files)) <= limit /\ 3 * zlen (concat (cells files)) < 2 ^ 31 ->
  (forall table n group, by_length cats table -> 100 <= n < 109 -> nth_error table (Z.to_nat n) = Some group -> exists members, good_group little fs dir num files value4 B limit 25 group members /\
    forall s pts centre rad2, arranged value4 B members s pts -> sphere_of 25 s pts centre rad2 -> point_in_box B centre /\ (root rad2 + cell_size B b < (1 # 2) * B)%Q /\ ~ in_sphere files value4 B centre rad2 []) ->
  exists N, forall steps, (N <= steps)%nat -> exists table groups, by_length cats table /\ Forall2 (spherical little fs dir num files value4 B table) [100; 101; 102; 103; 104; 105; 106; 107; 108] groups /\
    forall partmass time out, (0 <= partmass)%R -> (0 < time)%R ->
      (forall newton_steps, plot_profile_dens little fs qsort limit basedir snapbase num fuel value4 value8 root steps newton_steps partmass time = Ok out -> Forall2 (group_shown partmass time) groups out) /\
      (Forall2 (group_shown partmass time) groups out -> exists M, forall newton_steps, (M <= newton_steps)%nat -> plot_profile_dens little fs qsort limit basedir snapbase num fuel value4 value8 root steps newton_steps partmass time = Ok out).
Proof. exact (dens_whole little fs qsort limit basedir snapbase num dir fuel box files value4 value8 cats root b). Qed.
Print Assumptions C110_program.
Example C110_program_case : snapdir ex_base 7 ex_dir /\ whole_snapshot false many_fs ex_dir (lit "snap") 7 (8 ^ 2) 800 [in_1; in_2] /\ sorts isort /\ whole_catalogue false many_fs ex_dir 7 [line_tab 26 109] /\ different_ids [in_1; in_2] /\ zlen (all_groups [line_tab 26 109]) = 109 /\
  (forall q, (0 <= q)%Q -> (0 <= ex_root q /\ q <= ex_root q * ex_root q)%Q) /\ in_its_cell inject_Z 800 2 [in_1; in_2] /\ zlen (concat (cells [in_1; in_2])) = 27 /\
  forall table n group, by_length [line_tab 26 109] table -> 100 <= n < 109 -> nth_error table (Z.to_nat n) = Some group -> exists members, good_group false many_fs ex_dir 7 [in_1; in_2] inject_Z 800 1000 25 group members /\
    forall s pts centre rad2, arranged inject_Z 800 members s pts -> sphere_of 25 s pts centre rad2 -> point_in_box 800 centre /\ (ex_root rad2 + cell_size 800 2 < (1 # 2) * 800)%Q /\ ~ in_sphere [in_1; in_2] inject_Z 800 centre rad2 [].
Proof.
  split; [exact ex_snapdir|]. split; [exact many_snapshot|]. split; [exact isort_sorts|]. split; [exact many_catalogue|]. split; [exact in_different|]. split; [vm_compute; reflexivity|]. split; [exact ex_root_ok|]. split; [exact in_hold|]. split; [reflexivity|].
  intros table n group HB Hn HE. destruct (many_table table (Z.to_nat n) group HB HE) as (nr & Hr & ->). exists (in_members 26). split; [exact (many_good nr Hr) | exact in_box_26].
Qed.

(** Mass and time are those of the header of the first file, which has to be longer than the header. *)
Theorem C110_header little fs basedir snapbase num cat extra content k : no_blanks basedir -> no_blanks snapbase -> three_digits num -> snapshot_file little cat extra content -> fs (snapshot_path basedir snapbase num 0) = Some (firstn k content) ->
  dens_header little fs basedir snapbase num = if Z.of_nat k <? 264 then Err EIO else Ok (nth 1 (cat "Header/MassTable"%string) 0, scalar cat "Header/Time").
Proof. exact (header_ok little fs basedir snapbase num cat extra content k). Qed.
Print Assumptions C110_header.
(** The name of the file is wrong if there are blanks in the name of the directory. *)
Theorem C110_header_refuted : ~ forall basedir snapbase num, three_digits num -> header_name basedir snapbase num = snapshot_path basedir snapbase num 0.
Proof. intro H. specialize (H (lit " ") [] 7 ltac:(unfold three_digits; lia)). vm_compute in H. discriminate. Qed.
Print Assumptions C110_header_refuted.
(** The program, with these. *)
Theorem C110_all little fs qsort limit basedir snapbase num dir fuel box files value4 value8 cats root b cat extra content (nhash := 8 ^ b) (B := value8 box) : snapdir basedir num dir -> whole_snapshot little fs dir snapbase num nhash box files -> (List.length files < fuel)%nat ->
  nhash <= limit /\ zlen files <= limit -> sorts qsort -> whole_catalogue little fs dir num cats -> (List.length cats < fuel)%nat -> different_ids files -> (0 < B)%Q -> 109 <= zlen (all_groups cats) <= limit -> (2 <= fuel)%nat ->
  (forall q, (0 <= q)%Q -> (0 <= root q /\ q <= root q * root q)%Q) -> 1 <= b <= 10 -> in_its_cell value4 B b files -> 3 * zlen (concat (cells files)) <= limit /\ 3 * zlen (concat (cells files)) < 2 ^ 31 ->
  (forall table n group, by_length cats table -> 100 <= n < 109 -> nth_error table (Z.to_nat n) = Some group -> exists members, good_group little fs dir num files value4 B limit 25 group members /\
    forall s pts centre rad2, arranged value4 B members s pts -> sphere_of 25 s pts centre rad2 -> point_in_box B centre /\ (root rad2 + cell_size B b < (1 # 2) * B)%Q /\ ~ in_sphere files value4 B centre rad2 []) ->
  no_blanks basedir -> no_blanks snapbase -> snapshot_file little cat extra content -> fs (snapshot_path basedir snapbase num 0) = Some content ->
  let partmass := Q2R (value8 (nth 1 (cat "Header/MassTable"%string) 0)) in let time := Q2R (value8 (scalar cat "Header/Time")) in (0 <= partmass)%R -> (0 < time)%R ->
  exists N, forall steps, (N <= steps)%nat -> exists table groups, by_length cats table /\ Forall2 (spherical little fs dir num files value4 B table) [100; 101; 102; 103; 104; 105; 106; 107; 108] groups /\ forall out,
    (forall newton_steps, dens_program little fs qsort limit basedir snapbase num fuel value4 value8 root steps newton_steps = Ok out -> Forall2 (group_shown partmass time) groups out) /\
    (Forall2 (group_shown partmass time) groups out -> exists M, forall newton_steps, (M <= newton_steps)%nat -> dens_program little fs qsort limit basedir snapbase num fuel value4 value8 root steps newton_steps = Ok out).
Proof. exact (dens_all little fs qsort limit basedir snapbase num dir fuel box files value4 value8 cats root b cat extra content). Qed.
Print Assumptions C110_all.
Example C110_all_case : no_blanks ex_base /\ no_blanks (lit "snap") /\ snapshot_file false (ex_snap 2 64 800 in_1) [9] (ex_content 2 64 800 in_1) /\ many_fs (snapshot_path ex_base (lit "snap") 7 0) = Some (ex_content 2 64 800 in_1) /\
  Q2R (inject_Z (nth 1 (ex_snap 2 64 800 in_1 "Header/MassTable"%string) 0)) = 7%R /\ Q2R (inject_Z (scalar (ex_snap 2 64 800 in_1) "Header/Time")) = 1%R /\ dens_header false many_fs ex_base (lit "snap") 7 = Ok (7, 1).
Proof.
  split; [repeat constructor; discriminate|]. split; [repeat constructor; discriminate|]. split; [exact (proj1 many_header)|]. split; [exact (proj2 many_header)|]. split; [cbn; unfold Q2R; cbn; lra|]. split; [cbn; unfold Q2R; cbn; lra|]. vm_compute. reflexivity.
Qed.
