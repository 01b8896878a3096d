(** Millennium snapshots as sets of files, for C78. *)
From Coq Require Import Ascii String.
From Verif Require Import Base.Prelude Formats.FileSpec Formats.CatSpec Peano.PeanoModel Snap.ReadSpec.
Local Open Scope Z_scope.

(** the numbers of a snapshot file which holds the given hash cells. A particle is its position
    and velocity (three bit patterns each) and its id. *)
Definition holds_cells (cat : catalogue) (f : cellfile (list Z)) : Prop :=
  let all := concat (cf_cells f) in
  Forall (fun p => zlen (fst (fst p)) = 3 /\ zlen (snd (fst p)) = 3) all /\
  nth 1 (cat "Header/NumPart_ThisFile"%string) 0 = zlen all /\
  cat "PartType1/Coordinates"%string = concat (map (fun p => fst (fst p)) all) /\
  cat "PartType1/Velocities"%string = concat (map (fun p => snd (fst p)) all) /\
  map snd all = map (fun v => [v]) (cat "PartType1/ParticleIDs"%string) /\
  scalar cat "first_hash_cell" = cf_first f /\ scalar cat "last_hash_cell" = cf_first f + zlen (cf_cells f) - 1 /\
  cat "blockid"%string = starts 0 (cf_cells f).

(** file number i holds the cells of [nth i fs]; the header of the first file has the number of
    files, the size of the hash table and the size of the box *)
Definition is_snapshot (files : Z -> option (list Z)) (fs : list (cellfile (list Z))) (nhash boxsize : Z) : Prop :=
  fs <> [] /\ zlen fs < 2 ^ 31 /\ 0 <= nhash < 2 ^ 31 - 1 /\ Forall (file_ok nhash) fs /\
  forall i f, nth_error fs i = Some f -> exists lf cat extra,
    files (Z.of_nat i) = Some (file_bytes lf (L2_snapshot cat) ++ extra)%list /\ records_ok (L2_snapshot cat) /\ holds_cells cat f /\
    (i = 0%nat -> scalar cat "Header/NumFilesPerSnapshot" = zlen fs /\ scalar cat "Header/HashTabSize" = nhash /\ scalar cat "Header/BoxSize" = boxsize).

(** hash cell [c] is one of those between two corners of a periodic grid with 2^bits cells along
    a side. The key of a cell is that of C29. *)
Definition in_corners (bits : Z) (lo hi : Z * Z * Z) (c : Z) : Prop :=
  let '(x0, y0, z0) := lo in let '(x1, y1, z1) := hi in
  exists i j k, x0 <= i <= x1 /\ y0 <= j <= y1 /\ z0 <= k <= z1 /\ key_scalar bits (i mod 2 ^ bits, j mod 2 ^ bits, k mod 2 ^ bits) = Ok c.

(** the coordinate [x] is in a cell from that of [lo] to that of [hi], of a periodic grid with [side] cells *)
Definition within_cells (grid : Z -> Z) (side lo hi x : Z) : Prop := exists i, grid lo <= i <= grid hi /\ grid x = i mod side.
