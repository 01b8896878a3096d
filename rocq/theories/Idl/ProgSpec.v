(** What the IDL programs for groups should show, stated without their code. *)
From Coq Require Import QArith.
From Coq Require Import Ascii String.
From Coq Require Import Sorting.Permutation Sorting.Sorted.
From Verif Require Import Base.Prelude Text.StrModel Text.PathSpec Formats.FileSpec Formats.CatSpec Snap.ReadSpec Fortran.RegionSpec Fortran.GroupTabSpec Fortran.FofSpec.
From Verif Require Import Idl.LibSpec Idl.SnapSpec Idl.GroupSpec.
Local Open Scope Z_scope. Local Open Scope list_scope.

(** the directory of a snapshot, which has a number of three digits *)
Definition snapdir (basedir : list ascii) (num : Z) (dir : list ascii) : Prop :=
  0 <= num < 1000 /\ exists s3, number 3 num s3 /\ dir = basedir ++ lit "/snapdir_" ++ s3 ++ lit "/".
(** all files of a group catalogue *)
Definition whole_catalogue (little : bool) (fs : list ascii -> option (list Z)) (dir : list ascii) (num : Z) (cats : list catalogue) : Prop :=
  cats <> [] /\ tab_files little fs dir num cats /\ all_files_say "NTask" cats (zlen cats) /\
  all_files_say "TotNgroups" cats (zlen (all_groups cats)) /\ zlen (all_groups cats) < 2 ^ 31.
(** all files of a snapshot *)
Definition whole_snapshot (little : bool) (fs : list ascii -> option (list Z)) (dir base : list ascii) (num nhash box : Z) (files : list (cellfile (list Z))) : Prop :=
  files <> [] /\ snap_files little fs dir base num (zlen files) nhash box files /\ covers 0 nhash files /\
  Forall (fun f => cf_cells f <> [] \/ 0 < cf_first f < nhash) files /\ zlen files < 2 ^ 30 /\ 0 < nhash < 2 ^ 31.

Definition lengths (cats : list catalogue) : list Z := map (fun t => fst (fst t)) (all_groups cats).
(** the number of groups with more than, and with at least, [len] particles *)
Definition longer (cats : list catalogue) (len : Z) : Z := zlen (filter (fun l => len <? l) (lengths cats)).
Definition at_least (cats : list catalogue) (len : Z) : Z := zlen (filter (fun l => len <=? l) (lengths cats)).
(** the points of a cumulative mass function: one for each group, with the length of the group and
    its rank. Groups of the same length have different ranks. *)
Definition mass_function (cats : list catalogue) (points : list (Z * Z)) : Prop :=
  Permutation (lengths cats) (map fst points) /\ map snd points = zseq 1 (length (all_groups cats)) /\
  Forall (fun '(len, rank) => longer cats len < rank <= at_least cats len) points.
(** the number of groups with at least [s] particles, where those with less than [m] are only counted *)
Definition all_at_least (cats : list catalogue) (m s : Z) : Z := zlen (all_groups cats) + sumZ (map (groups_of_size cats) (zseq s (Z.to_nat (m - s)))).
Definition all_particles (cats : list catalogue) (m : Z) : Z := sumZ (lengths cats) + sumZ (map (fun s => groups_of_size cats s * s) (zseq 0 (Z.to_nat m))).

(** the groups, from the largest to the smallest *)
Definition by_length (cats : list catalogue) (table : list (Z * Z * Z)) : Prop :=
  Permutation (all_groups cats) table /\ StronglySorted (fun a b => fst (fst b) <= fst (fst a)) table.
(** the ids of a group, and its particles *)
Definition group_members (little : bool) (fs : list ascii -> option (list Z)) (dir : list ascii) (num : Z) (files : list (cellfile (list Z))) (group : Z * Z * Z) (gids : list Z) (members : list particle) : Prop :=
  let '(len, filenr, nr) := group in
  group_ids little fs dir num filenr nr gids /\ zlen gids = len /\ members_are files gids members.
(** what is known of the groups *)
Definition good_groups (little : bool) (fs : list ascii -> option (list Z)) (dir : list ascii) (num : Z) (files : list (cellfile (list Z))) (value4 : Z -> Q) (box : Q) (cats : list catalogue) : Prop :=
  forall group, In group (all_groups cats) -> exists gids members, group_members little fs dir num files group gids members /\
    gids <> [] /\ 3 * zlen gids < 2 ^ 31 /\ zlen (neighbours files gids) < 2 ^ 29 /\ Forall (in_box value4 box) members.
Definition in_id_order (l : list particle) : Prop := StronglySorted (fun p q => plain_id (id_of p) <= plain_id (id_of q)) l.
(** what is shown of a group: its length, its centre and the positions of all its particles around
    the centre, in the order of their ids *)
Definition shown (little : bool) (fs : list ascii -> option (list Z)) (dir : list ascii) (num : Z) (files : list (cellfile (list Z))) (value4 : Z -> Q) (box : Q)
    (table : list (Z * Z * Z)) (n : Z) (r : Z * Z * list Q * list Q) : Prop :=
  exists group gids members sel new cx cy cz,
    nth_error table (Z.to_nat n) = Some group /\ group_members little fs dir num files group gids members /\ Permutation members sel /\ in_id_order sel /\
    r = (n, fst (fst group), [cx; cy; cz], flat new) /\
    about_centre box (map (coordinate value4 0) sel) (map (fun q => fst (fst q)) new) cx /\
    about_centre box (map (coordinate value4 1) sel) (map (fun q => snd (fst q)) new) cy /\
    about_centre box (map (coordinate value4 2) sel) (map snd new) cz.
