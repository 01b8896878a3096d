(** Several files with particles, and with the potential on a grid, stated without the IDL programs. *)
From Coq Require Import Ascii String.
From Verif Require Import Base.Prelude Text.StrModel Formats.FileSpec Formats.CatSpec Fortran.RegionSpec Fortran.GroupTabSpec Pro.ProSpec.
Local Open Scope Z_scope. Local Open Scope list_scope.

(** a snapshot file with one or more particles, of which header and positions are there *)
Definition positions_file (little : bool) (cat : catalogue) (content : list Z) : Prop :=
  exists extra whole k, snapshot_file little cat extra whole /\ content = firstn k whole /\ 272 + 12 * npart_of cat <= Z.of_nat k /\ 0 < npart_of cat /\ 12 * npart_of cat < 2 ^ 31.
Definition all_particles (cats : list catalogue) : Z := sumZ (map npart_of cats).
Definition total_particles (cat : catalogue) : Z := signed (nth 1 (cat "Header/NumPart_Total"%string) 0).
Definition files_of (cat : catalogue) : Z := signed (scalar cat "Header/NumFilesPerSnapshot").
Definition all_positions (cats : list catalogue) : list Z := concat (map (fun cat => cat "PartType1/Coordinates"%string) cats).
(** a file which is not there, has no particles, or is cut off before the end of the positions *)
Definition unreadable (little : bool) (file : option (list Z)) : Prop :=
  file = None \/ exists cat extra whole k, snapshot_file little cat extra whole /\ file = Some (firstn k whole) /\ 12 * npart_of cat < 2 ^ 31 /\ (npart_of cat = 0 \/ Z.of_nat k < 272 + 12 * npart_of cat).

(** a file with [slabs] planes of the potential [phi], from number [first] on *)
Definition plane (g : Z) (phi : Z -> Z -> Z -> Z) (x : Z) : list Z := concat (map (fun y => map (phi x y) (zseq 0 (Z.to_nat g))) (zseq 0 (Z.to_nat g))).
Definition planes (g : Z) (phi : Z -> Z -> Z -> Z) (first slabs : Z) : list Z := concat (map (plane g phi) (zseq first (Z.to_nat slabs))).
Definition potential_bytes (lf : bool) (g : Z) (phi : Z -> Z -> Z -> Z) (first slabs sizeof boxsize asmth : Z) : list Z :=
  number_bytes lf 4 g ++ number_bytes lf 4 sizeof ++ number_bytes lf 4 slabs ++ number_bytes lf 4 first ++ number_bytes lf 8 boxsize ++ number_bytes lf 8 asmth ++
  concat (map (number_bytes lf 4) (planes g phi first slabs)).
Definition slabs_file (lf : bool) (g : Z) (phi : Z -> Z -> Z -> Z) (first slabs : Z) (whole : list Z) : Prop :=
  exists sizeof boxsize asmth extra, 0 <= sizeof < 2 ^ 32 /\ 0 <= boxsize < 2 ^ 64 /\ 0 <= asmth < 2 ^ 64 /\ whole = potential_bytes lf g phi first slabs sizeof boxsize asmth ++ extra.
Definition potential_ok (g : Z) (phi : Z -> Z -> Z -> Z) : Prop := 0 < g < 2 ^ 31 /\ forall x y z, 0 <= phi x y z < 2 ^ 32.
(** the files, as first plane and number of planes, have each of the planes once *)
Definition slabs_ok (g : Z) (slabs : list (Z * Z)) : Prop :=
  Forall (fun s => 0 <= fst s /\ 0 < snd s /\ fst s + snd s <= g) slabs /\ sumZ (map snd slabs) = g /\ forall x, 0 <= x < g -> exists s, In s slabs /\ fst s <= x < fst s + snd s.
(** a file from which all of the planes can be read *)
Definition readable_slabs (lf : bool) (g : Z) (phi : Z -> Z -> Z -> Z) (s : Z * Z) (file : option (list Z)) : Prop :=
  exists whole k, slabs_file lf g phi (fst s) (snd s) whole /\ file = Some (firstn k whole) /\ 32 + 4 * (g * g * snd s) <= Z.of_nat k.
(** a file which is not there, has no planes or is cut off *)
Definition unreadable_slabs (lf : bool) (g : Z) (phi : Z -> Z -> Z -> Z) (file : option (list Z)) : Prop :=
  file = None \/ exists first slabs whole k, 0 <= first < 2 ^ 31 /\ 0 <= slabs < 2 ^ 31 /\ slabs_file lf g phi first slabs whole /\ file = Some (firstn k whole) /\ (slabs = 0 \/ Z.of_nat k < 32 + 4 * (g * g * slabs)).
