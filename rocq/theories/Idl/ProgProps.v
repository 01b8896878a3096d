(** C105: what the IDL programs show_massfunc, get_groupcount_below_minlength, getcubes and
    show_group show. *)
From Coq Require Import QArith.
From Coq Require Import Ascii String.
From Verif Require Import Base.Prelude Formats.FileSpec Formats.CatSpec Text.StrModel Snap.ReadSpec Fortran.RegionSpec Fortran.GroupTabSpec Fortran.FofSpec.
From Verif Require Import Idl.LibModel Idl.LibSpec Idl.SnapSpec Idl.GroupSpec Idl.TabFinal Idl.HashFinal Idl.GroupFinal Idl.ProgSpec Idl.ProgModel Idl.ProgProofs Idl.ProgFinal Idl.ProgCases.
Local Open Scope Z_scope. Local Open Scope list_scope.

(** show_massfunc plots one point for each group of all files: its length, and its rank among all
    groups. *)
Theorem C105_massfunc little fs qsort limit basedir num dir fuel cats : snapdir basedir num dir -> sorts qsort -> whole_catalogue little fs dir num cats -> (List.length cats < fuel)%nat ->
  0 < zlen (all_groups cats) <= limit -> exists points, show_massfunc little fs qsort limit basedir num fuel = Ok points /\ mass_function cats points.
Proof. exact (fun Hd Hs Hc Hf Hl => massfunc_ok little fs qsort limit basedir num dir Hd fuel cats Hs Hc Hf Hl). Qed.
Print Assumptions C105_massfunc.
(** Without groups there is an error: IDL has no arrays of length 0. *)
Theorem C105_no_groups little fs qsort limit basedir num dir fuel cats : snapdir basedir num dir -> sorts qsort -> whole_catalogue little fs dir num cats -> (List.length cats < fuel)%nat ->
  all_groups cats = [] -> show_massfunc little fs qsort limit basedir num fuel = Err EValue.
Proof. intros Hd Hs Hc Hf H. unfold show_massfunc. now rewrite (no_groups little fs qsort limit basedir num dir Hd fuel cats Hs Hc Hf H). Qed.
Print Assumptions C105_no_groups.
(** If the first file is missing there is an error too: the number of groups is taken for
    4294967295, for which there is no memory. *)
Theorem C105_missing little fs qsort limit basedir num dir fuel junk : snapdir basedir num dir -> file_is fs dir (lit "group_tab") num 0 None -> 0 <= limit < 2 ^ 32 - 1 ->
  show_massfunc little fs qsort limit basedir num fuel = Err ERuntime /\ show_below little fs qsort limit basedir num fuel junk = Err ERuntime.
Proof. intros Hd Hm Hl. destruct (missing_first little fs qsort limit basedir num dir Hd fuel junk Hm Hl) as [H1 H2]. split; [|exact H2]. unfold show_massfunc. now rewrite H1. Qed.
Print Assumptions C105_missing.
(** The same if a later file is missing. *)
Theorem C105_missing_later little fs qsort limit basedir num dir fuel cat rest n : let cats := cat :: rest in snapdir basedir num dir -> tab_files little fs dir num cats -> all_files_say "NTask" cats n -> zlen cats < n ->
  file_is fs dir (lit "group_tab") num (zlen cats) None -> (List.length cats < fuel)%nat -> zlen (all_groups cats) <= signed (scalar cat "TotNgroups") <= limit -> 0 < signed (scalar cat "TotNgroups") < 2 ^ 31 -> limit < 2 ^ 32 - 1 ->
  show_massfunc little fs qsort limit basedir num fuel = Err ERuntime.
Proof. exact (fun Hd => missing_later little fs qsort limit basedir num dir Hd fuel cat rest n). Qed.
Print Assumptions C105_missing_later.
Example C105_massfunc_case : snapdir ex_base 7 ex_dir /\ sorts isort /\ whole_catalogue false ex_tabs ex_dir 7 [ex_a; ex_b] /\ zlen (all_groups [ex_a; ex_b]) = 3 /\
  show_massfunc false ex_tabs isort 100 ex_base 7 5 = Ok [(9, 1); (7, 2); (5, 3)].
Proof. split; [exact ex_snapdir|]. split; [exact isort_sorts|]. split; [exact (proj1 ex_catalogue)|]. split; [reflexivity | vm_compute; reflexivity]. Qed.
Example C105_no_groups_case : whole_catalogue false (moved (ex_fs [ex_none])) ex_dir 7 [ex_none] /\ all_groups [ex_none] = [] /\ show_massfunc false (moved (ex_fs [ex_none])) isort 100 ex_base 7 5 = Err EValue.
Proof. split; [exact ex_none_ok|]. split; [reflexivity | vm_compute; reflexivity]. Qed.
Example C105_missing_later_case : tab_files false (moved (ex_fs [ex_a])) ex_dir 7 [ex_a] /\ all_files_say "NTask" [ex_a] 2 /\ file_is (moved (ex_fs [ex_a])) ex_dir (lit "group_tab") 7 (zlen [ex_a]) None /\
  signed (scalar ex_a "TotNgroups") = 3 /\ show_massfunc false (moved (ex_fs [ex_a])) isort 100 ex_base 7 5 = Err ERuntime /\ file_is (moved (ex_fs [])) ex_dir (lit "group_tab") 7 0 None.
Proof.
  split; [exact (moved_tabs _ _ _ (proj1 ex_files3))|]. split; [repeat constructor|]. split; [exact (moved_is _ _ _ _ (proj2 ex_files3))|]. split; [reflexivity|]. split; [vm_compute; reflexivity | intros s3 s1 _ _; reflexivity].
Qed.

(** get_groupcount_below_minlength plots in addition for each size below the minimum the number of
    groups which have at least this size, and prints the number of particles in all groups. *)
Theorem C105_below little fs qsort limit basedir num dir fuel cats m junk : snapdir basedir num dir -> sorts qsort -> whole_catalogue little fs dir num cats -> (List.length cats < fuel)%nat ->
  all_files_say "GroupMinLen" cats m -> 3 <= m <= limit -> 0 < zlen (all_groups cats) <= limit ->
  exists points, mass_function cats points /\
    show_below little fs qsort limit basedir num fuel junk = Ok (points, map (fun s => (s, all_at_least cats m s)) (zseq 1 (Z.to_nat (m - 1))), all_particles cats m).
Proof. exact (fun Hd Hs Hc Hf Hm => below_ok little fs qsort limit basedir num dir Hd fuel cats Hs Hc Hf m Hm junk). Qed.
Print Assumptions C105_below.
(** For a minimum of one or two particles there is an error, though all data are right; for 0 as well. *)
Theorem C105_below_small little fs qsort limit basedir num dir fuel cats m junk : snapdir basedir num dir -> sorts qsort -> whole_catalogue little fs dir num cats -> (List.length cats < fuel)%nat ->
  all_files_say "GroupMinLen" cats m -> m = 1 \/ m = 2 -> m <= limit -> 0 < zlen (all_groups cats) <= limit -> show_below little fs qsort limit basedir num fuel junk = Err EIndex.
Proof. exact (fun Hd Hs Hc Hf Hm => below_small little fs qsort limit basedir num dir Hd fuel cats Hs Hc Hf m Hm junk). Qed.
Print Assumptions C105_below_small.
Theorem C105_below_none little fs qsort limit basedir num dir fuel cats m junk : snapdir basedir num dir -> sorts qsort -> whole_catalogue little fs dir num cats -> (List.length cats < fuel)%nat ->
  all_files_say "GroupMinLen" cats m -> m = 0 -> show_below little fs qsort limit basedir num fuel junk = Err EValue.
Proof. exact (fun Hd Hs Hc Hf Hm => below_none little fs qsort limit basedir num dir Hd fuel cats Hs Hc Hf m Hm junk). Qed.
Print Assumptions C105_below_none.
Example C105_below_case : whole_catalogue false ex_tabs ex_dir 7 [ex_a; ex_b] /\ all_files_say "GroupMinLen" [ex_a; ex_b] 3 /\
  show_below false ex_tabs isort 100 ex_base 7 5 0 = Ok ([(9, 1); (7, 2); (5, 3)], [(1, 12); (2, 5)], 32) /\ all_at_least [ex_a; ex_b] 3 1 = 3 + (3 + 4) + (0 + 2) /\ all_particles [ex_a; ex_b] 3 = 5 + 9 + 7 + (3 + 4) * 1 + (0 + 2) * 2.
Proof. split; [exact (proj1 ex_catalogue)|]. split; [exact (proj2 ex_catalogue)|]. split; [vm_compute; reflexivity|]. split; reflexivity. Qed.
Example C105_below_small_case : whole_catalogue false (moved (ex_fs [ex_min 2])) ex_dir 7 [ex_min 2] /\ all_files_say "GroupMinLen" [ex_min 2] 2 /\ show_below false (moved (ex_fs [ex_min 2])) isort 100 ex_base 7 5 0 = Err EIndex /\
  whole_catalogue false (moved (ex_fs [ex_min 1])) ex_dir 7 [ex_min 1] /\ all_files_say "GroupMinLen" [ex_min 1] 1 /\ whole_catalogue false (moved (ex_fs [ex_min 0])) ex_dir 7 [ex_min 0] /\ all_files_say "GroupMinLen" [ex_min 0] 0.
Proof.
  split; [apply ex_min_ok; repeat constructor|]. split; [repeat constructor|]. split; [vm_compute; reflexivity|]. split; [apply ex_min_ok; repeat constructor|]. split; [repeat constructor|]. split; [apply ex_min_ok; repeat constructor|]. repeat constructor.
Qed.

(** getcubes prints for each file the number of particles in one part of the hash cells: the parts
    have the same number of cells. There is room for 512 numbers. *)
Theorem C105_cubes little fs limit basedir snapbase num dir fuel nhash box files (per := nhash / zlen files) : snapdir basedir num dir -> whole_snapshot little fs dir snapbase num nhash box files -> (List.length files < fuel)%nat ->
  nhash <= limit /\ zlen files <= limit -> zlen files <= 512 <= limit -> (forall p, 0 <= p < zlen files -> zlen (concat (zslice (cells files) (p * per) ((p + 1) * per))) < 2 ^ 31) ->
  getcubes little fs limit basedir snapbase num fuel = Ok (map (fun p => zlen (concat (zslice (cells files) (p * per) ((p + 1) * per)))) (zseq 0 (List.length files)) ++ repeat 0 (512 - List.length files)).
Proof. exact (fun Hd Hs Hf Hl => cubes_prog little fs limit basedir snapbase num dir Hd fuel nhash box files Hs Hf Hl). Qed.
Print Assumptions C105_cubes.
(** With more than 512 files it never ends well. *)
Theorem C105_cubes_many little fs limit basedir snapbase num dir fuel nhash box files r : snapdir basedir num dir -> whole_snapshot little fs dir snapbase num nhash box files -> (List.length files < fuel)%nat ->
  nhash <= limit /\ zlen files <= limit -> 512 < zlen files -> getcubes little fs limit basedir snapbase num fuel <> Ok r.
Proof. exact (fun Hd Hs Hf Hl => cubes_many little fs limit basedir snapbase num dir Hd fuel nhash box files Hs Hf Hl r). Qed.
Print Assumptions C105_cubes_many.
(** If a file of the snapshot is missing the program does not notice: the numbers are wrong. *)
Theorem C105_cubes_missing_refuted : exists fs dir, snapdir ex_base 7 dir /\ snap_files false fs dir (lit "snap") 7 3 8 8 [ex_1] /\ file_is fs dir (lit "snap") 7 1 None /\
  getcubes false fs 1000 ex_base (lit "snap") 7 9 = Ok (3 :: repeat 0 511).
Proof. exact cubes_missing_refuted. Qed.
Print Assumptions C105_cubes_missing_refuted.
Example C105_cubes_case : whole_snapshot false ex_six_fs ex_dir (lit "snap") 7 8 8 [ex_1; ex_2] /\ getcubes false ex_six_fs 1000 ex_base (lit "snap") 7 9 = Ok (4 :: 4 :: repeat 0 510).
Proof. split; [exact (ex_prog_snapshot ex_six) | vm_compute; reflexivity]. Qed.

(** show_group shows of the groups number 2 to 5, counted from the largest, the length, the centre
    and the positions of all particles around it. *)
Theorem C105_group little fs qsort limit basedir snapbase num dir fuel nhash box files value4 value8 cats : snapdir basedir num dir -> whole_snapshot little fs dir snapbase num nhash box files -> (List.length files < fuel)%nat ->
  nhash <= limit /\ zlen files <= limit -> sorts qsort -> whole_catalogue little fs dir num cats -> (List.length cats < fuel)%nat -> different_ids files -> (0 < value8 box)%Q ->
  good_groups little fs dir num files value4 (value8 box) cats -> 0 < zlen (all_groups cats) <= limit -> (forall group, In group (all_groups cats) -> 3 * fst (fst group) <= limit) -> (2 <= fuel)%nat ->
  6 <= zlen (all_groups cats) -> exists table out, by_length cats table /\ show_group little fs qsort limit basedir snapbase num fuel value4 value8 = Ok out /\
    Forall2 (shown little fs dir num files value4 (value8 box) table) [2; 3; 4; 5] out.
Proof. exact (fun Hd Hs Hf Hl => group_prog little fs qsort limit basedir snapbase num dir Hd fuel nhash box files Hs Hf Hl value4 value8 cats). Qed.
Print Assumptions C105_group.
(** With fewer than six groups there is an error. *)
Theorem C105_few_groups little fs qsort limit basedir snapbase num dir fuel nhash box files value4 value8 cats : snapdir basedir num dir -> whole_snapshot little fs dir snapbase num nhash box files -> (List.length files < fuel)%nat ->
  nhash <= limit /\ zlen files <= limit -> sorts qsort -> whole_catalogue little fs dir num cats -> (List.length cats < fuel)%nat -> different_ids files -> (0 < value8 box)%Q ->
  good_groups little fs dir num files value4 (value8 box) cats -> 0 < zlen (all_groups cats) <= limit -> (forall group, In group (all_groups cats) -> 3 * fst (fst group) <= limit) -> (2 <= fuel)%nat ->
  zlen (all_groups cats) < 6 -> show_group little fs qsort limit basedir snapbase num fuel value4 value8 = Err EIndex.
Proof. exact (fun Hd Hs Hf Hl => group_few little fs qsort limit basedir snapbase num dir Hd fuel nhash box files Hs Hf Hl value4 value8 cats). Qed.
Print Assumptions C105_few_groups.
Example C105_group_case : whole_snapshot false ex_six_fs ex_dir (lit "snap") 7 8 8 [ex_1; ex_2] /\ whole_catalogue false ex_six_fs ex_dir 7 [ex_six] /\ different_ids [ex_1; ex_2] /\
  good_groups false ex_six_fs ex_dir 7 [ex_1; ex_2] inject_Z 8 [ex_six] /\ zlen (all_groups [ex_six]) = 6 /\ (forall group, In group (all_groups [ex_six]) -> 3 * fst (fst group) <= 100) /\
  match show_group false ex_six_fs isort 100 ex_base (lit "snap") 7 9 inject_Z inject_Z with
  | Ok out => map (fun '(n, len, c, p) => (n, len, map Qred c, map Qred p)) out =
      [(2, 2, [2; 6; 0]%Q, [-1; -1; 1; 1; 1; -1]%Q); (3, 2, [5 # 2; 13 # 2; 6]%Q, [-1 # 2; -1 # 2; -1; 1 # 2; 1 # 2; 1]%Q); (4, 1, [7; 1; 2]%Q, [0; 0; 0]%Q); (5, 1, [6; 2; 6]%Q, [0; 0; 0]%Q)]
  | Err _ => False
  end.
Proof.
  split; [exact (ex_prog_snapshot ex_six)|]. split; [exact ex_six_catalogue|]. split; [exact ex_different|]. split; [exact ex_six_good|]. split; [reflexivity|].
  split; [intros group H; cbn in H; repeat (destruct H as [<- | H]; [discriminate|]); contradiction|]. vm_compute. reflexivity.
Qed.
Example C105_few_groups_case : whole_snapshot false ex_two_fs ex_dir (lit "snap") 7 8 8 [ex_1; ex_2] /\ whole_catalogue false ex_two_fs ex_dir 7 [ex_two] /\
  good_groups false ex_two_fs ex_dir 7 [ex_1; ex_2] inject_Z 8 [ex_two] /\ zlen (all_groups [ex_two]) = 2 /\ show_group false ex_two_fs isort 100 ex_base (lit "snap") 7 9 inject_Z inject_Z = Err EIndex.
Proof. split; [exact (ex_prog_snapshot ex_two)|]. split; [exact ex_two_catalogue|]. split; [exact ex_two_good|]. split; [reflexivity | vm_compute; reflexivity]. Qed.
Example C105_cubes_many_case : whole_snapshot false ex_many_fs ex_dir (lit "snap") 7 513 8 ex_many /\ zlen ex_many = 513.
Proof. split; [exact ex_many_ok | reflexivity]. Qed.
