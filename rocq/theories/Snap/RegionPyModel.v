(** Model of /repo/examples/millennium/python/read_region.py: the particles of a region of a snapshot of the Millennium simulation, by class Snapshot of
    sims/millennium.py, lines 54-59, which is that of formats/subfind_lgadget2.py (Snap/MillModel.v).

    A file system gives the bytes of the files which exist. The result is the value of line 22. [box] is the real number with the bit pattern of BoxSize;
    coordinates are real numbers, with rounding to double precision (Snap/MillFloat.v); the reals are why [floor_cell] does not compute. *)
From Coq Require Import Ascii String Reals.
From Verif Require Import Base.Prelude Text.StrModel Snap.MillModel Snap.MillFloat.
Local Open Scope Z_scope.
Local Open Scope list_scope.

(** Snapshot.open_file, subfind_lgadget2.py lines 443-453, basedir other than COSMA *)
Definition snapshot_name (basedir basename : str) (isnap ifile : Z) : str :=
  basedir ++ lit "/snapdir_" ++ fmt_0d 3 isnap ++ lit "/" ++ basename ++ lit "_" ++ fmt_0d 3 isnap ++ lit "." ++ fmt_d ifile.
Section Script.
  Variable little : bool.
  Variable fsys : str -> option (list Z).
  Variable float_dims : bool.
  Variable junk : Z.
  Variable box : Z -> R.
  (** Snapshot(basedir, basename, isnap).read_region(coords), lines 18-22 of the script and lines 417-475 of subfind_lgadget2.py *)
  Definition open_and_read (basedir basename : str) (isnap : Z) (coords : list R) : res (list (list Z) * list (list Z) * list (list Z)) :=
    let files := fun i => fsys (snapshot_name basedir basename isnap i) in
    do s <- snapshot_init little files;
    snd (read_region little files float_dims junk s (new_table s) (map (floor_cell (box (s_boxsize s)) (s_ncell s)) coords)).
  (** lines 10-22 *)
  Definition read_region_py : res (list (list Z) * list (list Z) * list (list Z)) :=
    open_and_read (lit "/virgo/data/Millennium/") (lit "snap_millennium") 63 [10; 20; 10; 20; 10; 20]%R.
End Script.
