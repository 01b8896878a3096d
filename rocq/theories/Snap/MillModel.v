(** Model of class Snapshot of formats/subfind_lgadget2.py (lines 412-535) from the bytes of the
    files; read_cells is in ReadModel.v and SnapshotFile in Formats/ReaderModel.v.

    Simplified: files are given by their number, [files i] being the contents if there is such a
    file; names are not modelled. The files are opened before read_cells is called and not one
    after the other, which makes a difference only to which error comes first. *)
From Coq Require Import Ascii String.
From Verif Require Import Base.Prelude Base.NdArray Binary.BinModel Formats.ReaderModel Multi.GroupCatModel Peano.PeanoModel Snap.ReadModel Snap.OrderedModel.
Local Open Scope Z_scope.

(** lines 434-438: ncell, bits *)
Fixpoint grid_size (fuel : nat) (nhash ncell bits : Z) : res (Z * Z) :=
  match fuel with
  | O => Err EFuel
  | S fuel' => if ncell * ncell * ncell <? nhash then grid_size fuel' nhash (ncell * 2) (bits + 1) else Ok (ncell, bits)
  end.

Section Snapshot.
  Variable little : bool.
  Variable files : Z -> option (list Z).

  (** open_file, lines 443-453 *)
  Definition open_snapshot (i : Z) : res (list Z * file) :=
    match files i with
    | None => Err EIO
    | Some content => match open_file little content lgadget2_snapshot with (f, Ok _) => Ok (content, f) | (_, Err e) => Err e end
    end.

  Record snapshot := { s_nhash : Z; s_boxsize : Z; s_nfiles : Z; s_ncell : Z; s_bits : Z }.
  (** lines 417-441; BoxSize is a bit pattern. An int32 is at most 8^11. *)
  Definition snapshot_init : res snapshot :=
    do (content, f) <- open_snapshot 0;
    do h <- read_attr little content f (nm "Header") (nm "HashTabSize");
    do b <- read_attr little content f (nm "Header") (nm "BoxSize");
    do n <- read_attr little content f (nm "Header") (nm "NumFilesPerSnapshot");
    do (ncell, bits) <- grid_size 20 (i32 h) 1 0;
    Ok {| s_nhash := i32 h; s_boxsize := nth 0 b 0; s_nfiles := i32 n; s_ncell := ncell; s_bits := bits |}.

  (** snap[name][...]: the rows, for a scalar its value *)
  Definition array_of (content : list Z) (f : file) (name : string) : res (nd Z) :=
    match lookup_array little content f (nm name) with None => Err EKey | Some r => r end.
  (** what read_cells uses of a file, lines 500-530 *)
  Definition hash_file_of (i : Z) : res (hfile (list Z)) :=
    do (content, f) <- open_snapshot i;
    do first <- array_of content f "first_hash_cell";
    do last <- array_of content f "last_hash_cell";
    do n <- read_attr little content f (nm "Header") (nm "NumPart_ThisFile");
    do b <- array_of content f "blockid";
    do p <- array_of content f "PartType1/Coordinates";
    do v <- array_of content f "PartType1/Velocities";
    do d <- array_of content f "PartType1/ParticleIDs";
    Ok {| h_first := i32 (data first); h_last := i32 (data last); h_npart := nth 1 n 0; h_blockid := map signed32 (data b);
          h_pos := nd_rows p; h_vel := nd_rows v; h_ids := nd_rows d |}.

  (** read_cells of an object; the state is self.hash_table, one entry for each file. A negative
      size of the hash table is a ValueError of np.zeros *)
  Definition hash_table : Type := list (option (Z * Z)).
  Definition snap_read_cells (s : snapshot) (state : hash_table) (keys : list Z) : hash_table * res (list (list Z) * list (list Z) * list (list Z)) :=
    if s_nhash s <? 0 then (state, Err EValue)
    else match mapM hash_file_of (zseq 0 (Z.to_nat (s_nfiles s))) with
         | Ok fs => read_cells (s_nhash s) fs state keys
         | Err e => (state, Err e)
         end.

  (** np.indices(dims): all the index vectors, the last index running fastest; negative
      dimensions are a ValueError *)
  Definition indices (a b c : Z) : res (list (Z * Z * Z)) :=
    do _ <- check ((0 <=? a) && (0 <=? b) && (0 <=? c)) EValue;
    Ok (flat_map (fun i => flat_map (fun j => map (fun k => (i, j, k)) (zseq 0 (Z.to_nat c))) (zseq 0 (Z.to_nat b))) (zseq 0 (Z.to_nat a))).

  (** read_region, lines 457-475. [icoords] is floor(coords / (boxsize / ncell)) in floating
      point arithmetic; its integer values are exact. [float_dims]: np.indices accepts
      dimensions which are floats, as numpy did before version 1.12; since then it is a TypeError.
      [junk]: the first contents of the array of keys. *)
  Variable float_dims : bool.
  Variable junk : Z.
  Definition region_keys (s : snapshot) (icoords : list Z) : res (list Z) :=
    let ic k := nth k icoords 0 in
    do _ <- check float_dims EType;
    do idx <- indices (ic 1%nat - ic 0%nat + 1) (ic 3%nat - ic 2%nat + 1) (ic 5%nat - ic 4%nat + 1);
    peano_hilbert_keys junk (s_bits s) (map (fun t => let '(i, j, k) := t in
      ((i + ic 0%nat) mod s_ncell s, (j + ic 2%nat) mod s_ncell s, (k + ic 4%nat) mod s_ncell s)) idx).
  Definition read_region (s : snapshot) (state : hash_table) (icoords : list Z) : hash_table * res (list (list Z) * list (list Z) * list (list Z)) :=
    match region_keys s icoords with
    | Err e => (state, Err e)
    | Ok keys => snap_read_cells s state keys
    end.

  (** the object after a sequence of method calls, whatever their outcome; line 441 *)
  Inductive call := Cells (keys : list Z) | Region (icoords : list Z).
  Definition new_table (s : snapshot) : hash_table := repeat None (Z.to_nat (s_nfiles s)).
  Definition after (s : snapshot) (calls : list call) : hash_table :=
    fold_left (fun state c => match c with Cells keys => fst (snap_read_cells s state keys) | Region ic => fst (read_region s state ic) end) calls (new_table s).
End Snapshot.
