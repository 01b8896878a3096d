(** What the readers of whole Millennium files should return, stated without their code. *)
From Coq Require Import String.
From Verif Require Import Base.Prelude Formats.FileSpec Formats.CatSpec Fortran.RegionSpec.
Local Open Scope Z_scope.

(** a 32 bit pattern as a signed number *)
Definition signed (v : Z) : Z := if v <? 2 ^ 31 then v else v - 2 ^ 32.
(** a file with the given arrays, and anything after them *)
Definition catalogue_file (lf : bool) (l : list field) (cat : catalogue) (extra content : list Z) : Prop :=
  consistent cat l /\ content = file_bytes lf (pieces_of cat l) ++ extra.
Definition header_of (cat : catalogue) (names : list string) : list Z := map (fun n => signed (scalar cat n)) names.
(** row [i] of an array with three columns *)
Definition row3 (vals : list Z) (i : Z) : list Z := zslice vals (3 * i) (3 * i + 3).
Definition at_index (vals : list Z) (i : Z) : Z := nth (Z.to_nat i) vals 0.
(** the lines which readsubhalosexample should write *)
Definition subhalo_line (cat : catalogue) (i : Z) : Z * Z * list Z :=
  (signed (at_index (cat "SubLen"%string) i), at_index (cat "SubHalfMass"%string) i, row3 (cat "SubPos"%string) i).
Definition halo_line (cat : catalogue) (i : Z) : Z * Z * list Z :=
  (at_index (cat "Halo_M_Mean200"%string) i, at_index (cat "Halo_R_Mean200"%string) i, row3 (cat "SubPos"%string) (signed (at_index (cat "FirstSubOfHalo"%string) i))).
Definition has_subhalos (cat : catalogue) (i : Z) : bool := 0 <? signed (at_index (cat "NsubPerHalo"%string) i).
