(** What get_group_coordinates should return, stated without its code. *)
From Coq Require Import QArith.
From Coq Require Import Ascii String.
From Verif Require Import Base.Prelude Text.StrModel Formats.FileSpec Formats.CatSpec Snap.ReadSpec Fortran.RegionSpec Fortran.GroupTabSpec Fortran.FofSpec Idl.LibSpec Idl.SnapSpec.
Local Open Scope Z_scope. Local Open Scope list_scope.

(** [gids] is the ids of the first [zlen gids] particles of group number [groupnr] in file number
    [filenr] of the group catalogue *)
Definition group_ids (little : bool) (fs : list ascii -> option (list Z)) (dir : list ascii) (num filenr groupnr : Z) (gids : list Z) : Prop :=
  exists tab ids c1 e1 c2 e2,
    file_is fs dir (lit "group_tab") num filenr (Some c1) /\ catalogue_file little L2_group_tab tab e1 c1 /\
    file_is fs dir (lit "group_ids") num filenr (Some c2) /\ catalogue_file little (L2_group_ids 8) ids e2 c2 /\
    0 <= groupnr < zlen (tab "GroupOffset"%string) /\
    exists off, off = signed (at_index (tab "GroupOffset"%string) groupnr) /\ 0 <= off /\ off + zlen gids <= zlen (ids "GroupIDs"%string) /\
      gids = zslice (ids "GroupIDs"%string) off (off + zlen gids).
(** the particles in hash cell number [c] *)
Definition cell_of (files : list (cellfile (list Z))) (c : Z) : list particle := nth (Z.to_nat c) (cells files) [].
(** the particle of each id: it is in the cell which is the key of the id *)
Definition members_are (files : list (cellfile (list Z))) (gids : list Z) (members : list particle) : Prop :=
  Forall2 (fun gid p => plain_id (id_of p) = plain_id gid /\ In p (cell_of files (hash_key gid))) gids members.
(** no two particles have the same id *)
Definition different_ids (files : list (cellfile (list Z))) : Prop := NoDup (map (fun p => plain_id (id_of p)) (concat (cells files))).
(** the particles in all cells which have a member of the group *)
Definition neighbours (files : list (cellfile (list Z))) (gids : list Z) : list particle :=
  concat (map (cell_of files) (filter (fun c => existsb (fun gid => hash_key gid =? c) gids) (zseq 0 (length (cells files))))).
(** coordinate number [k] of a particle *)
Definition coordinate (value4 : Z -> Q) (k : nat) (p : particle) : Q := value4 (nth k (fst (fst p)) 0).
Definition in_box (value4 : Z -> Q) (box : Q) (p : particle) : Prop := forall k, (k < 3)%nat -> (0 <= coordinate value4 k p < box)%Q.

Definition total (l : list Q) : Q := fold_right Qplus 0%Q l.
(** [y] is the coordinates [x] in a periodic box relative to the centre of mass, which is at [c]:
    the images of the particles are those which are closest to the first one *)
Definition about_centre (box : Q) (x y : list Q) (c : Q) : Prop :=
  Forall2 (fun a b => exists k : Z, (b + c == a + inject_Z k * box)%Q) x y /\
  (0 <= c < box)%Q /\ (total y == 0)%Q /\
  Forall (fun b => (- ((1 # 2) * box) <= b - nth 0 y 0 < (1 # 2) * box)%Q) y.
Definition flat (l : list (Q * Q * Q)) : list Q := concat (map (fun '(a, b, c) => [a; b; c]) l).
