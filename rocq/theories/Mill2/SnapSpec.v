(** A snapshot file of the Millennium-2 simulation and what programs should write for it, stated
    without their code. *)
From Coq Require Import Ascii String.
From Verif Require Import Base.Prelude Formats.FileSpec Formats.CatSpec Formats.GadgetSpec Fortran.RegionSpec Fortran.GroupTabSpec.
Local Open Scope Z_scope.

Definition M2_header : list field := G_header ++ [F "Header/unused" 1 [Fixed 64]].
(** all particles are of type 1 *)
Definition M2_snapshot (cat : catalogue) : list piece :=
  let n := nth 1 (cat "Header/NumPart_ThisFile"%string) 0 in
  record (map (attr_of cat) M2_header) ++
  record [plain_data cat "PartType1/Coordinates" 4 [n; 3]] ++ record [plain_data cat "PartType1/Velocities" 4 [n; 3]] ++ record [plain_data cat "PartType1/ParticleIDs" 8 [n]].
Definition m2_file (lf : bool) (cat : catalogue) (extra content : list Z) : Prop :=
  Forall piece_ok (M2_snapshot cat) /\ content = file_bytes lf (M2_snapshot cat) ++ extra.
Definition count (cat : catalogue) : Z := nth 1 (cat "Header/NumPart_ThisFile"%string) 0.
(** position, velocity and id of each particle; [f] says how ids are written *)
Definition particle_lines (f : Z -> Z) (cat : catalogue) : list (list Z * Z) :=
  map (fun i => (row3 (cat "PartType1/Coordinates"%string) i ++ row3 (cat "PartType1/Velocities"%string) i, f (at_index (cat "PartType1/ParticleIDs"%string) i))) (zseq 0 (Z.to_nat (count cat))).
(** the number of particles in all files, from its lower and higher 32 bits *)
Definition all_particles (cat : catalogue) : Z :=
  nth 1 (cat "Header/NumPart_Total"%string) 0 + 2 ^ 32 * nth 1 (cat "Header/NumPart_Total_HighWord"%string) 0.
(** a file which has particles of type 0 as well *)
Definition M2_mixed (cat : catalogue) : list piece :=
  let np := cat "Header/NumPart_ThisFile"%string in
  let n0 := nth 0 np 0 in let n1 := nth 1 np 0 in
  record (map (attr_of cat) M2_header) ++
  record [plain_data cat "PartType0/Coordinates" 4 [n0; 3]; plain_data cat "PartType1/Coordinates" 4 [n1; 3]] ++
  record [plain_data cat "PartType0/Velocities" 4 [n0; 3]; plain_data cat "PartType1/Velocities" 4 [n1; 3]] ++
  record [plain_data cat "PartType0/ParticleIDs" 8 [n0]; plain_data cat "PartType1/ParticleIDs" 8 [n1]].
Definition mixed_file (lf : bool) (cat : catalogue) (content : list Z) : Prop :=
  Forall piece_ok (M2_mixed cat) /\ content = file_bytes lf (M2_mixed cat).
(** memory of the given sizes, with anything in it *)
Definition memory_ok (irec0 header0 : list Z) (malloc : Z -> list Z) : Prop :=
  zlen irec0 = 4 /\ zlen header0 = 256 /\ forall n, 0 <= n -> zlen (malloc n) = n.
