(** C56: the cache of eagle_filename. *)
From Coq Require Import Ascii String.
From Verif Require Import Base.Prelude Text.StrModel Text.EagleModel Text.EagleSpec Text.EagleProofs Text.EagleFinal.
Local Open Scope Z_scope.
Local Open Scope char_scope.
Local Open Scope list_scope.

(** if the search of the directories (with an empty cache) finds the file then the
    same name is returned after any sequence of calls, successful or not, on any
    directories, snapshots and file types. [z] is the redshift label of the
    snapshot, which must be the same in all its names. *)
Theorem C56_transparent : forall F calls basedir base isnap ifile z f,
  plain basedir -> one_label F basedir base isnap z ->
  fst (eagle_filename F [] basedir base isnap ifile) = Ok f ->
  fst (eagle_filename F (history F [] calls) basedir base isnap ifile) = Ok f.
Proof. exact transparent. Qed.
Print Assumptions C56_transparent.

(** a name that is returned is always the one with that label *)
Theorem C56_name : forall F calls basedir base isnap ifile z f,
  plain basedir -> one_label F basedir base isnap z ->
  fst (eagle_filename F (history F [] calls) basedir base isnap ifile) = Ok f ->
  exists dir, directory base dir /\ f = path_name basedir dir base isnap z ifile.
Proof. exact in_directory. Qed.
Print Assumptions C56_name.

(** every file that is there is found *)
Theorem C56_found : forall F calls basedir base isnap ifile z dir,
  plain basedir -> one_label F basedir base isnap z -> directory base dir ->
  ~ In (ascii_of_nat 10) basedir -> 0 <= ifile -> listing_ok F -> file_there F basedir dir base isnap z ifile ->
  fst (eagle_filename F (history F [] calls) basedir base isnap ifile) = Ok (path_name basedir dir base isnap z ifile).
Proof. exact found. Qed.
Print Assumptions C56_found.

(** other kinds of files are a KeyError *)
Theorem C56_other_kinds : forall F c basedir base isnap ifile,
  (forall dir, ~ directory base dir) -> eagle_filename F c basedir base isnap ifile = (Err EKey, c).
Proof. exact other_kinds. Qed.
Print Assumptions C56_other_kinds.
Example ex_kinds : directory (lit "eagle_subfind_snip_tab") (lit "groups_snip") /\ directory (lit "group_tab") (lit "groups") /\ forall dir, ~ directory (lit "subhalo_tab") dir.
Proof. split; [|split]; [now apply dir_of_directory | now apply dir_of_directory | intros dir H; apply dir_of_directory in H; discriminate H]. Qed.

(** finding: once the label of a snapshot is known, files are not looked for: the
    name of a file that does not exist is returned instead of an IOError *)
Theorem C56_missing_file_refuted :
  fst (eagle_filename ex_fs [] L100 (lit "group_tab") 3 2) = Err EIO /\
  fst (eagle_filename ex_fs (history ex_fs [] [(L100, lit "group_tab", 3, 1)]) L100 (lit "group_tab") 3 2)
    = Ok (lit "/data/L100/groups_003_z012p345/group_tab_003_z012p345.2.hdf5").
Proof. exact ex_missing_file. Qed.
Print Assumptions C56_missing_file_refuted.

(** finding: if the label of the directory differs from that of the files in it,
    the second call returns a name that does not exist *)
Theorem C56_two_labels_refuted :
  fst (eagle_filename ex_fs [] L100 (lit "group_tab") 4 1) = Ok (lit "/data/L100/groups_004_z009p000/group_tab_004_z009p001.1.hdf5") /\
  fst (eagle_filename ex_fs (history ex_fs [] [(L100, lit "group_tab", 4, 0)]) L100 (lit "group_tab") 4 1)
    = Ok (lit "/data/L100/groups_004_z009p001/group_tab_004_z009p001.1.hdf5").
Proof. exact ex_two_labels. Qed.
Print Assumptions C56_two_labels_refuted.

(** finding: a base directory written with a final slash gives two spellings of
    the name *)
Theorem C56_final_slash_refuted :
  let dir := L100 ++ ["/"] in
  fst (eagle_filename ex_fs [] dir (lit "group_tab") 3 1) = Ok (lit "/data/L100/groups_003_z012p345/group_tab_003_z012p345.1.hdf5") /\
  fst (eagle_filename ex_fs (history ex_fs [] [(dir, lit "group_tab", 3, 0)]) dir (lit "group_tab") 3 1)
    = Ok (lit "/data/L100//groups_003_z012p345/group_tab_003_z012p345.1.hdf5").
Proof. exact ex_final_slash. Qed.
Print Assumptions C56_final_slash_refuted.

(** snapshot 3 of the file system meets the hypotheses of the theorems *)
Example ex_plain : plain L100.
Proof.
  repeat split; try (intro H; cbn in H; repeat destruct H as [H|H]; discriminate || contradiction).
  right. intros b E. apply (f_equal (fun l => hd "/" (rev l))) in E. rewrite rev_app_distr in E. discriminate.
Qed.
Example ex_root : forall root, root_of L100 root -> root = L100.
Proof. intros root [[H _]|[_ ->]]; [|reflexivity]. inversion H as [|? ? _ H2]; subst. inversion H2. discriminate. Qed.
Example ex_one_label : one_label ex_fs L100 (lit "group_tab") 3 (lit "z012p345").
Proof.
  split; [exists "0", "1", "2", "3", "4", "5"; split; [reflexivity | repeat constructor]|].
  intros dir root Hd Hr q r i b Hq Hr' H1 H2. apply ex_root in Hr. subst root. apply dir_of_directory in Hd. vm_compute in Hd. injection Hd as <-.
  assert (q = lit "z012p345") as ->.
  { change (listdir ex_fs L100) with [(lit "readme", false); (lit "groups_003_z012p345", true); (lit "groups_004_z009p000", true); (lit "snapshot_003_z012p345", true)] in H1.
    destruct H1 as [H1|[H1|[H1|[H1|[]]]]]; pose proof (f_equal (fun e => firstn 11 (fst e)) H1) as H3; vm_compute in H3; try discriminate H3.
    apply (f_equal (fun e => skipn 11 (fst e))) in H1. symmetry. exact H1. }
  split; [reflexivity|].
  change (In (file_name (lit "group_tab") 3 r i, b) [(lit "group_tab_003_z012p345.0.hdf5", false); (lit "group_tab_003_z012p345.1.hdf5", false); (lit "eagle_subfind_tab_003_z012p345.0.hdf5", false)]) in H2.
  destruct Hr' as (c1 & c2 & c3 & c4 & c5 & c6 & ->). 
  destruct H2 as [H2|[H2|[H2|[]]]]; apply (f_equal (fun e => firstn 22 (fst e))) in H2; vm_compute in H2; [injection H2 as <- <- <- <- <- <-; reflexivity..|discriminate H2].
Qed.
Example ex_there : file_there ex_fs L100 (lit "groups") (lit "group_tab") 3 (lit "z012p345") 1.
Proof. intros root Hr. apply ex_root in Hr. subst root. split; [vm_compute; tauto|]. exists false. vm_compute. tauto. Qed.
Example ex_listing : listing_ok ex_fs.
Proof.
  intro d. cbn [listdir ex_fs]. repeat match goal with |- context [if ?b then _ else _] => destruct b end; cbn [map fst]; repeat constructor;
    intro H; repeat destruct H as [H|H]; try discriminate; contradiction.
Qed.
Example ex_call : fst (eagle_filename ex_fs (history ex_fs [] [(L100, lit "snapshot", 3, 0); (L100, lit "group_tab", 3, 0); (L100, lit "group_tab", 9, 0)]) L100 (lit "group_tab") 3 1)
  = Ok (lit "/data/L100/groups_003_z012p345/group_tab_003_z012p345.1.hdf5").
Proof. vm_compute. reflexivity. Qed.
