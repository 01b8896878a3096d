(** What the functions of the library for IDL which read snapshots should return, stated without
    their code. *)
From Coq Require Import Ascii String.
From Verif Require Import Base.Prelude Formats.FileSpec Formats.CatSpec Snap.ReadSpec Fortran.RegionSpec Idl.LibSpec.
Local Open Scope Z_scope. Local Open Scope list_scope.

(** [content] is the bytes of a snapshot file with the given hash cells. A particle is its
    position and velocity (three bit patterns each) and its id (one bit pattern). The lengths of
    the records fit in an int. *)
Definition particle_file (lf : bool) (cat : catalogue) (f : cellfile (list Z)) (content : list Z) : Prop :=
  exists extra, let all := concat (cf_cells f) in
  snapshot_file lf cat extra content /\
  Forall (fun p => zlen (fst (fst p)) = 3) all /\
  npart_of cat = zlen all /\ 12 * zlen all < 2 ^ 31 /\
  cat "PartType1/Coordinates"%string = concat (map (fun p => fst (fst p)) all) /\
  map (fun v => [v]) (cat "PartType1/ParticleIDs"%string) = map snd all /\
  scalar cat "first_hash_cell" = cf_first f /\ scalar cat "last_hash_cell" = cf_first f + zlen (cf_cells f) - 1 /\
  cat "blockid"%string = starts 0 (cf_cells f) /\ 4 * zlen (cf_cells f) < 2 ^ 31.
(** The files number 0, 1, ... of a snapshot with [n] files, [nhash] hash cells and the given size
    of the box (a bit pattern). *)
Definition snap_files (little : bool) (fs : list ascii -> option (list Z)) (dir base : list ascii) (num n nhash box : Z) (files : list (cellfile (list Z))) : Prop :=
  forall i f, nth_error files i = Some f -> exists cat content,
    file_is fs dir base num (Z.of_nat i) (Some content) /\ particle_file little cat f content /\
    scalar cat "Header/NumFilesPerSnapshot" = n /\ scalar cat "Header/HashTabSize" = nhash /\ scalar cat "Header/BoxSize" = box.
(** all cells *)
Definition cells (files : list (cellfile (list Z))) : list (list (list Z * list Z * list Z)) := concat (map (@cf_cells _) files).
(** for each cell the number of its first particle in its file, and the number of its file *)
Definition first_particles (files : list (cellfile (list Z))) : list Z := concat (map (fun f => starts 0 (cf_cells f)) files).
Definition files_of_cells (files : list (cellfile (list Z))) : list Z := concat (map (fun '(i, f) => repeat i (length (cf_cells f))) (numbered files)).
(** for each file its last cell and the number of its particles *)
Definition last_cells (files : list (cellfile (list Z))) : list Z := map (fun f => cf_first f + zlen (cf_cells f) - 1) files.
Definition particle_counts (files : list (cellfile (list Z))) : list Z := map (fun f => zlen (concat (cf_cells f))) files.
(** the first four arguments of the functions which use the hash table: what get_hash_table returns,
    and anything after it *)
Definition is_tables (files : list (cellfile (list Z))) (hashtable filetable lastcell ninfiles : list Z) : Prop :=
  exists a b c d, hashtable = first_particles files ++ a /\ filetable = files_of_cells files ++ b /\ lastcell = last_cells files ++ c /\ ninfiles = particle_counts files ++ d.
(** the number of particles in a file fits in an int *)
Definition countable (files : list (cellfile (list Z))) : Prop := Forall (fun f => zlen (concat (cf_cells f)) < 2 ^ 31) files.
