(** What read_region.py should give, stated without its code. *)
From Coq Require Import Ascii String Reals.
From Verif Require Import Base.Prelude Text.StrModel Fortran.FofSpec Fortran.VolumeSpec Script.SubListSpec.
Local Open Scope Z_scope.
Local Open Scope list_scope.

(** the name of file [i] of snapshot 63 *)
Definition name_63 (i : Z) (name : str) : Prop := exists b, shows b i /\ name = lit "/virgo/data/Millennium//snapdir_063/snap_millennium_063." ++ b.
(** the files of the snapshot are on the disk *)
Definition on_disk (fsys : str -> option (list Z)) (files : Z -> option (list Z)) : Prop := forall i name, 0 <= i -> name_63 i name -> fsys name = files i.
(** [val] gives the real numbers of bit patterns in single precision; these are 10 and 20 *)
Definition single_10_20 (val : Z -> R) : Prop := val 1092616192 = 10%R /\ val 1101004800 = 20%R.
(** between 10 and 20 in each direction *)
Definition in_region (val : Z -> R) (p : particle) : Prop := forall k, (k < 3)%nat -> (10 <= val (coord k p) <= 20)%R.
(** in a cell from that of 10 to that of 20, where there are [side] cells along the side of a periodic box; [cell x] is the cell of [x] *)
Definition near (val : Z -> R) (cell : R -> Z) (side : Z) (a : Z) : Prop := exists i, cell 10%R <= i <= cell 20%R /\ cell (val a) = i mod side.
