(** Where the output files of an Eagle run are. *)
From Coq Require Import Ascii String.
From Verif Require Import Base.Prelude Text.StrModel Text.EagleModel.
Local Open Scope Z_scope.
Local Open Scope char_scope.
Local Open Scope list_scope.

(** z123p456 *)
Definition is_label (z : str) : Prop :=
  exists a b c d e f, z = ["z"; a; b; c; "p"; d; e; f] /\ Forall (fun c => is_digit c = true) [a; b; c; d; e; f].
(** what z???p??? matches *)
Definition like_label (z : str) : Prop := exists a b c d e f, z = ["z"; a; b; c; "p"; d; e; f].

(** the directory name without characters special to glob, and not written with
    a final slash (unless it is the root) *)
Definition all_slashes (s : str) : Prop := Forall (fun c => c = "/") s.
Definition plain (basedir : str) : Prop :=
  ~ In "*" basedir /\ ~ In "?" basedir /\ ~ In "[" basedir /\
  (all_slashes basedir \/ forall b, basedir <> b ++ ["/"]).
(** the directory as it is given to os.listdir *)
Definition root_of (basedir root : str) : Prop :=
  (all_slashes basedir /\ root = basedir ++ ["/"]) \/ (~ all_slashes basedir /\ root = basedir).

Definition sub_name (dir : str) (isnap : Z) (z : str) : str := dir ++ "_" :: fmt_0d 3 isnap ++ "_" :: z.
Definition file_name (base : str) (isnap : Z) (z : str) (ifile : Z) : str :=
  base ++ "_" :: fmt_0d 3 isnap ++ "_" :: z ++ "." :: fmt_d ifile ++ lit ".hdf5".
(** basedir/dir_snap_label/base_snap_label.ifile.hdf5 *)
Definition path_name (basedir dir base : str) (isnap : Z) (z : str) (ifile : Z) : str :=
  basedir ++ "/" :: sub_name dir isnap z ++ "/" :: file_name base isnap z ifile.

(** the directories of the kinds of files: those of snipshots are marked in the same way as the files *)
Inductive directory : str -> str -> Prop :=
  | dir_tab kind snip : In kind [lit "eagle_subfind"; lit "group"] -> In snip [[]; lit "_snip"] -> directory (kind ++ snip ++ lit "_tab") (lit "groups" ++ snip)
  | dir_particles snip : In snip [[]; lit "_snip"] -> directory (lit "eagle_subfind" ++ snip ++ lit "_particles") (lit "particledata" ++ snip)
  | dir_shot base : In base [lit "snapshot"; lit "snipshot"] -> directory base base.

(** [z] is the only label in the names of the directories and files of snapshot [isnap] *)
Definition one_label (F : fs) (basedir base : str) (isnap : Z) (z : str) : Prop :=
  is_label z /\
  forall dir root, directory base dir -> root_of basedir root ->
  forall q r i b, like_label q -> like_label r ->
  In (sub_name dir isnap q, true) (listdir F root) ->
  In (file_name base isnap r i, b) (listdir F (basedir ++ "/" :: sub_name dir isnap q)) -> q = z /\ r = z.

(** the file is there *)
Definition file_there (F : fs) (basedir dir base : str) (isnap : Z) (z : str) (ifile : Z) : Prop :=
  forall root, root_of basedir root ->
  In (sub_name dir isnap z, true) (listdir F root) /\
  exists b, In (file_name base isnap z ifile, b) (listdir F (basedir ++ "/" :: sub_name dir isnap z)).
(** no directory lists the same name twice *)
Definition listing_ok (F : fs) : Prop := forall d, NoDup (map fst (listdir F d)).
