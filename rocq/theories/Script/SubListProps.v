(** C111: the table of subhalos printed by read_subhalo_catalogue.py. *)
From Coq Require Import Ascii String NArith.
From Verif.Base Require Import Prelude.
From Verif.Formats Require Import FileSpec CatSpec.
From Verif.Text Require Import StrModel StrSpec.
From Verif.Script Require Import SubListModel SubListSpec SubListFinal SubListWhole.
Local Open Scope Z_scope.
Local Open Scope list_scope.

(** a line for each subhalo of each file, in order, whatever the byte orders of files and machine *)
Theorem C111_table : forall little fs fmt_f isnap cats, 0 <= isnap <= 999 -> all_hold fs isnap cats ->
  exists out, read_subhalo_catalogue little fs fmt_f isnap (zlen cats) = (heading :: out, Ok tt) /\ table_for fmt_f cats out.
Proof. exact @table_final. Qed.
Print Assumptions C111_table.
(** the script as it is: snapshot 63, which has 512 files *)
Theorem C111_script : forall little fs fmt_f cats, List.length cats = 512%nat -> all_hold fs 63 cats ->
  exists out, read_subhalo_catalogue_py little fs fmt_f = (heading :: out, Ok tt) /\ table_for fmt_f cats out.
Proof. exact @script_final. Qed.
Print Assumptions C111_script.
(** the number of lines of a table *)
Theorem C111_lines : forall fmt_f cats out, table_for fmt_f cats out -> zlen out = sumZ (map (fun cat => scalar cat "Nsubhalos") cats).
Proof. exact @table_lines. Qed.
Print Assumptions C111_lines.
(** what is printed before the first file which is missing; IOError *)
Theorem C111_missing : forall little fs fmt_f isnap cats nfiles, 0 <= isnap <= 999 -> all_hold fs isnap cats -> zlen cats < nfiles ->
  (forall name, file_name_is isnap (zlen cats) name -> fs name = None) ->
  exists out, read_subhalo_catalogue little fs fmt_f isnap nfiles = (heading :: out, Err EIO) /\ table_for fmt_f cats out.
Proof. exact @missing_final. Qed.
Print Assumptions C111_missing.
(** whatever is in the other files, the table starts with the lines of the first files *)
Theorem C111_prefix : forall little fs fmt_f isnap cats nfiles, 0 <= isnap <= 999 -> all_hold fs isnap cats -> zlen cats <= nfiles ->
  exists out more, fst (read_subhalo_catalogue little fs fmt_f isnap nfiles) = heading :: out ++ more /\ table_for fmt_f cats out.
Proof. exact @prefix_final. Qed.
Print Assumptions C111_prefix.

(** whatever is in the files, none is listed in part: the output consists of as many lines for each
    file as its header says; it ends after the last file, or in an error at the next one *)
Theorem C111_whole : forall little fs fmt_f isnap nfiles, 0 <= isnap <= 999 -> 0 <= nfiles ->
  exists parts r, read_subhalo_catalogue little fs fmt_f isnap nfiles = (heading :: concat parts, r) /\
    (forall i part, nth_error parts i = Some part ->
      exists name content lf, file_name_is isnap (Z.of_nat i) name /\ fs name = Some content /\ zlen part = subhalos_of_header lf content) /\
    match r with Ok _ => zlen parts = nfiles | Err _ => zlen parts < nfiles end.
Proof. exact @whole_final. Qed.
Print Assumptions C111_whole.
(** a file has one name *)
Theorem C111_name : forall isnap ifile s t, file_name_is isnap ifile s -> file_name_is isnap ifile t -> s = t.
Proof. exact @name_unique. Qed.
Print Assumptions C111_name.

(** one group with two subhalos, the second of which has -1 as its group *)
Definition two_subhalos : catalogue := fun name =>
  if String.eqb name "Ngroups" then [1] else if String.eqb name "Nids" then [50] else if String.eqb name "TotNgroups" then [1]
  else if String.eqb name "NFiles" then [512] else if String.eqb name "Nsubhalos" then [2]
  else if String.eqb name "SubLen" then [30; 20] else if String.eqb name "SubParentHalo" then [0; 4294967295]
  else if String.eqb name "SubPos" then [1; 2; 3; 4; 5; 6] else if String.eqb name "SubVel" then [7; 8; 9; 10; 11; 12]
  else if String.eqb name "SubSpin" then [0; 0; 0; 0; 0; 0]
  else if existsb (String.eqb name) ["SubOffset"; "SubVelDisp"; "SubVmax"; "SubMostBoundID"; "SubHalfMass"]%string then [0; 1] else [0].
Definition these_bytes (lf : bool) : list Z := file_bytes lf (pieces_of two_subhalos (L2_sub_tab 8)).
(** all files have the same contents *)
Definition same_files (lf : bool) : str -> option (list Z) := fun _ => Some (these_bytes lf).
Example two_consistent : consistent two_subhalos (L2_sub_tab 8).
Proof. split; repeat constructor; cbn; try lia. Qed.
Example C111_script_case : forall lf, List.length (repeat two_subhalos 512) = 512%nat /\ all_hold (same_files lf) 63 (repeat two_subhalos 512).
Proof.
  intro lf. split; [apply repeat_length|]. intros i cat H. apply nth_error_In, repeat_spec in H. subst cat. split; [exact two_consistent|]. split; [vm_compute; split; discriminate|].
  exists lf, [], (sub_tab_name 63 (Z.of_nat i)). split; [now apply name_ok | rewrite app_nil_r; reflexivity].
Qed.
(** a floating point number is shown here as the decimal of its bit pattern *)
Example C111_table_case : forall little lf, read_subhalo_catalogue little (same_files lf) fmt_d 63 2 =
  ([heading; lit "0, 30, 1, 2, 3, 7, 8, 9"; lit "-1, 20, 4, 5, 6, 10, 11, 12"; lit "0, 30, 1, 2, 3, 7, 8, 9"; lit "-1, 20, 4, 5, 6, 10, 11, 12"], Ok tt).
Proof. intros [] []; vm_compute; reflexivity. Qed.
(** the second file ends in the positions *)
Definition cut_file (lf : bool) : str -> option (list Z) := fun name =>
  if str_eqb name (lit "/virgo/data/Millennium/postproc_063/sub_tab_063.1") then Some (firstn 100 (these_bytes lf)) else Some (these_bytes lf).
Example C111_whole_case : forall little lf, read_subhalo_catalogue little (cut_file lf) fmt_d 63 512 =
  ([heading; lit "0, 30, 1, 2, 3, 7, 8, 9"; lit "-1, 20, 4, 5, 6, 10, 11, 12"], Err EIO) /\ subhalos_of_header lf (these_bytes lf) = 2.
Proof. intros [] []; vm_compute; split; reflexivity. Qed.
(** only the first file exists *)
Definition first_file (lf : bool) : str -> option (list Z) :=
  fun name => if str_eqb name (lit "/virgo/data/Millennium/postproc_063/sub_tab_063.0") then Some (these_bytes lf) else None.
Example C111_missing_hyps : forall lf, all_hold (first_file lf) 63 [two_subhalos] /\ forall name, file_name_is 63 (zlen [two_subhalos]) name -> first_file lf name = None.
Proof.
  intro lf. split.
  - intros [|[|i]] cat H; try discriminate. injection H as <-. split; [exact two_consistent|]. split; [vm_compute; split; discriminate|].
    exists lf, [], (sub_tab_name 63 0). split; [now apply name_ok | rewrite app_nil_r; reflexivity].
  - intros name H. rewrite (name_unique _ _ _ _ H (name_ok 63 (zlen [two_subhalos]) ltac:(lia))). reflexivity.
Qed.
Example C111_missing_case : forall little lf, read_subhalo_catalogue little (first_file lf) fmt_d 63 512 =
  ([heading; lit "0, 30, 1, 2, 3, 7, 8, 9"; lit "-1, 20, 4, 5, 6, 10, 11, 12"], Err EIO).
Proof. intros [] []; vm_compute; reflexivity. Qed.
