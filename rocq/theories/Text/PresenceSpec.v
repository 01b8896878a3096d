(** When all the files of an output are there (C79). *)
From Coq Require Import Ascii String.
From Verif Require Import Base.Prelude Text.StrModel Text.EagleModel Text.EagleSpec.
Local Open Scope char_scope.
Local Open Scope Z_scope.
Local Open Scope list_scope.

(** [first]: the number of files according to the first one, if it can be read; [names]: the
    names in the directory, if it can be read; [file i]: the name of file i *)
Definition complete (first : res Z) (names : option (list str)) (file : Z -> str) : Prop :=
  exists n, first = Ok n /\ 0 <= n /\ forall i, 0 <= i < n -> exists l, names = Some l /\ In (file i) l.
(** [k] of [n] files are there *)
Definition present (names : option (list str)) (file : Z -> str) (n k : Z) : Prop :=
  exists found, NoDup found /\ (forall i, In i found <-> 0 <= i < n /\ exists l, names = Some l /\ In (file i) l) /\ k = zlen found.

(** the line which is printed *)
Definition heading (dirbase : str) (isnap : Z) : str := pad " " 20 dirbase ++ " " :: fmt_0d 3 isnap.
Definition all_line (dirbase filebase : str) (isnap n : Z) : str :=
  heading dirbase isnap ++ lit ": OK      - " ++ fmt_d n ++ lit " of " ++ fmt_d n ++ " " :: filebase ++ lit " files present".
Definition some_line (dirbase filebase : str) (isnap k n : Z) : str :=
  heading dirbase isnap ++ lit ": MISSING - " ++ fmt_d k ++ lit " of " ++ fmt_d n ++ " " :: filebase ++ lit " files present".
Definition none_line (dirbase filebase : str) (isnap : Z) : str :=
  heading dirbase isnap ++ lit ": MISSING - no " ++ filebase ++ lit " files present!".
Definition says (dirbase filebase : str) (isnap : Z) (first : res Z) (names : option (list str)) (file : Z -> str) (line : str) : Prop :=
  match first with
  | Err _ => line = none_line dirbase filebase isnap
  | Ok n => exists k, present names file n k /\
      line = if k =? n then all_line dirbase filebase isnap n else if n =? -1 then none_line dirbase filebase isnap else some_line dirbase filebase isnap k n
  end.

(** P-Gadget3 *)
Definition pg_dir (basedir dirbase : str) (isnap : Z) : str := basedir ++ "/" :: dirbase ++ "_" :: fmt_0d 3 isnap.
Definition pg_file (filebase : str) (isnap ifile : Z) : str :=
  filebase ++ "_" :: fmt_0d 3 isnap ++ "." :: fmt_d ifile ++ (if str_eqb filebase (lit "500_dm") then lit ".hdf5" else []).

(** Eagle: the only name in the base directory of the form dirbase_isnap_z???p??? has label z *)
Definition only_label (F : fs) (basedir dirbase : str) (isnap : Z) (z : str) : Prop :=
  like_label z /\ forall root, root_of basedir root ->
  In (sub_name dirbase isnap z) (map fst (listdir F root)) /\ forall q, like_label q -> In (sub_name dirbase isnap q) (map fst (listdir F root)) -> q = z.
(** names have no slashes and are listed once *)
Definition proper (F : fs) : Prop := forall d, NoDup (map fst (listdir F d)) /\ forall n, In n (map fst (listdir F d)) -> ~ In "/" n.
Definition eg_dir (basedir dirbase : str) (isnap : Z) (z : str) : str := basedir ++ "/" :: sub_name dirbase isnap z.

(** the numbers start, start + step, ... up to stop; a negative step stops above stop + 1 *)
Definition steps (start stop step : Z) (l : list Z) : Prop :=
  forall i, In i l <-> (exists k, 0 <= k /\ i = start + k * step) /\ (if 0 <? step then i <= stop else stop + 1 < i).

(** one output of an Eagle run *)
Section EagleOutput.
  Variable F : fs.
  Variable listing : str -> option (list str).
  Variable attribute : str -> str -> res Z.
  Definition eg_first (basedir dirbase filebase attr : str) (isnap : Z) (z : str) : res Z := attribute (eg_dir basedir dirbase isnap z ++ "/" :: file_name filebase isnap z 0) attr.
  Definition eg_complete (basedir dirbase filebase attr : str) (isnap : Z) : Prop := exists z, only_label F basedir dirbase isnap z /\
    complete (eg_first basedir dirbase filebase attr isnap z) (listing (eg_dir basedir dirbase isnap z)) (file_name filebase isnap z).
  Definition eg_says (basedir dirbase filebase attr : str) (isnap : Z) (line : str) : Prop :=
    (forall z, only_label F basedir dirbase isnap z -> says dirbase filebase isnap (eg_first basedir dirbase filebase attr isnap z) (listing (eg_dir basedir dirbase isnap z)) (file_name filebase isnap z) line) /\
    ((forall z, ~ only_label F basedir dirbase isnap z) -> line = none_line dirbase filebase isnap).
End EagleOutput.
(** (directory, file, type, attribute) of the outputs of a run *)
Definition eg_outputs (snip : bool) : list (str * str * str * str) :=
  map (fun x => let '(d, f, t, a) := x in (lit d, lit f, lit t, lit a))
  (if snip
   then [("snipshot", "snip", "snip", "NumFilesPerSnapshot"); ("groups_snip", "group_snip_tab", "group_snip_tab", "NTask");
         ("particledata_snip", "eagle_subfind_snip_particles", "eagle_subfind_snip_particles", "NumFilesPerSnapshot"); ("groups_snip", "eagle_subfind_snip_tab", "eagle_subfind_snip_tab", "NTask")]
   else [("snapshot", "snap", "snap", "NumFilesPerSnapshot"); ("groups", "group_tab", "group_tab", "NTask");
         ("particledata", "eagle_subfind_particles", "eagle_subfind_particles", "NumFilesPerSnapshot"); ("groups", "eagle_subfind_tab", "eagle_subfind_tab", "NTask")])%string.
(** (directory, file, type, number of files according to a file) of the outputs of a P-Gadget3
    run *)
Definition pg_outputs (snapbase : str) (snap group_tab group_ids sub_tab sub_ids : str -> res Z) : list (str * str * str * (str -> res Z)) :=
  [(lit "snapdir", snapbase, lit "snapshot", snap); (lit "groups", lit "group_tab", lit "group_tab", group_tab); (lit "groups", lit "group_ids", lit "group_ids", group_ids);
   (lit "groups", lit "subhalo_tab", lit "subhalo_tab", sub_tab); (lit "groups", lit "subhalo_ids", lit "subhalo_ids", sub_ids)].
