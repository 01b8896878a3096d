(** Model of the readers that pick particles out of multi-file snapshots:
    Snapshot.read_cells (formats/subfind_lgadget2.py lines 477-535),
    GroupOrderedSnapshot.read_particle_range, read_fof_group and
    read_subfind_group (formats/subfind_pgadget3.py lines 485-570) and
    GroupOrderedSnapshot.read_fof_group (formats/subfind_gadget4.py lines 238-343).

    A row of a dataset is an element of [A]. The objects cache what they learn
    about the files; a method returns the new cache together with its result
    because the cache is kept when the method raises. *)
From Coq Require Import String.
From Verif Require Import Base.Prelude Peano.PeanoModel Util.RangesModel Index.IndexModel.
Local Open Scope Z_scope.

(** np.concatenate of a list of arrays: a ValueError if there are none *)
Definition np_concat {A} (l : list (list A)) : res (list A) :=
  match l with [] => Err EValue | _ => Ok (concat l) end.

(** ** subfind_lgadget2.py, Snapshot *)
Section Cells.
  Context {A : Type}.

  (** the datasets of one SnapshotFile that are used *)
  Record hfile := { h_first : Z; h_last : Z; h_npart : Z; h_blockid : list Z; h_pos : list A; h_vel : list A; h_ids : list A }.

  (** lines 483-484: hashgrid = zeros; hashgrid[keys] = True *)
  Definition hashgrid (nhash : Z) (keys : list Z) : res (list bool) :=
    foldM (fun g k => py_set g k true) keys (repeat false (Z.to_nat nhash)).

  (** array[mask]: the mask must have one element for each row *)
  Definition mask_rows (rows : list A) (m : list bool) : res (list A) :=
    do _ <- check (zlen rows =? zlen m) EIndex; Ok (np_mask rows m).

  (** lines 512-530, for one file with requested cells *)
  Definition read_file_cells (f : hfile) (read_cell : list bool) : res (list A * list A * list A) :=
    let npart := h_npart f in
    let this := h_blockid f in
    (* [-1] of an empty array *)
    do _ <- check (negb (zlen this =? 0)) EIndex;
    (* the arrays are int32 *)
    let next := skipn 1 this ++ [wrap32 npart] in
    let num := zipwith (fun a b => wrap32 (a - b)) next this in
    do _ <- check (zlen read_cell =? zlen num) EValue;
    do read_particle <- np_repeat read_cell num;
    do p <- mask_rows (h_pos f) read_particle;
    do v <- mask_rows (h_vel f) read_particle;
    do i <- mask_rows (h_ids f) read_particle;
    Ok (p, v, i).

  (** lines 490-530: the loop over files. [cache] is self.hash_table, one entry
      per file *)
  Fixpoint cells_loop (grid : list bool) (files : list hfile) (cache : list (option (Z * Z)))
    : list (option (Z * Z)) * res (list (list A * list A * list A)) :=
    match files, cache with
    | f :: files', c :: cache' =>
        let fl := match c with Some fl => fl | None => (h_first f, h_last f) end in
        let read_cell := pyslice grid (fst fl) (snd fl + 1) in
        match (if existsb (fun b => b) read_cell then do x <- read_file_cells f read_cell; Ok [x] else Ok []) with
        | Err e => (Some fl :: cache', Err e)
        | Ok here => let '(rest, r) := cells_loop grid files' cache' in (Some fl :: rest, do l <- r; Ok (here ++ l))
        end
    | _, _ => (cache, Ok [])
    end.

  (** lines 477-535 *)
  Definition read_cells (nhash : Z) (files : list hfile) (cache : list (option (Z * Z))) (keys : list Z)
    : list (option (Z * Z)) * res (list A * list A * list A) :=
    match hashgrid nhash keys with
    | Err e => (cache, Err e)
    | Ok grid =>
        let '(cache', r) := cells_loop grid files cache in
        (cache', do l <- r;
                 do p <- np_concat (map (fun x => fst (fst x)) l);
                 do v <- np_concat (map (fun x => snd (fst x)) l);
                 do i <- np_concat (map snd l);
                 Ok (p, v, i))
    end.

  (** line 440: no file is known at the start *)
  Definition new_hash_table (files : list hfile) : list (option (Z * Z)) := map (fun _ => None) files.
  (** the cache after a sequence of calls, whatever their outcome *)
  Definition cells_history (nhash : Z) (files : list hfile) (calls : list (list Z)) : list (option (Z * Z)) :=
    fold_left (fun c keys => fst (read_cells nhash files c keys)) calls (new_hash_table files).
End Cells.
Arguments hfile : clear implicits.

(** ** multi-file snapshots *)
Section Snap.
  Context {A : Type}.

  (** one snapshot file: NumPart_ThisFile and the datasets PartType<t>/<name> *)
  Record sfile := { sf_npart : list Z; sf_data : Z -> string -> option (list A) }.

  (** snap["PartType%d/%s" % (t, name)][a:b,...] *)
  Definition read_rows (f : sfile) (t : Z) (name : string) (a b : Z) : res (list A) :=
    match sf_data f t name with None => Err EKey | Some rows => Ok (pyslice rows a b) end.

  (** *** subfind_pgadget3.py, GroupOrderedSnapshot *)

  (** result[dataset].append(x) *)
  Definition dict_append (d : list (string * list (list A))) (name : string) (x : list A) : list (string * list (list A)) :=
    map (fun e => if String.eqb (fst e) name then (fst e, snd e ++ [x]) else e) d.
  (** {name : [] for name in datasets} *)
  Fixpoint dict_new (names : list string) : list (string * list (list A)) :=
    match names with
    | [] => []
    | n :: names' => (n, []) :: filter (fun e => negb (String.eqb (fst e) n)) (dict_new names')
    end.

  (** lines 515-533: read from one file what is wanted of it *)
  Definition range_from_file (datasets : list string) (first_particle last_particle : Z) (f : sfile) (npart first_in_snap : Z)
      (result : list (string * list (list A))) : res (list (string * list (list A))) :=
    let last_in_snap := first_in_snap + npart - 1 in
    if last_in_snap >=? first_in_snap then
      let first_to_read := first_particle - first_in_snap in
      let last_to_read := last_particle - first_in_snap in
      let first_to_read := if first_to_read <? 0 then 0 else first_to_read in
      let last_to_read := if last_to_read >=? npart then npart - 1 else last_to_read in
      if (last_to_read >=? first_to_read) && (npart >? 0) then
        foldM (fun d name => do x <- read_rows f 1 name first_to_read (last_to_read + 1); Ok (dict_append d name x)) datasets result
      else Ok result
    else Ok result.

  (** lines 498-540. [cache] is self.npart_file, -1 where not known yet *)
  Fixpoint range_loop (datasets : list string) (first_particle last_particle : Z) (files : list sfile) (cache : list Z) (first_in_snap : Z)
      (result : list (string * list (list A))) : list Z * res (list (string * list (list A))) :=
    match files, cache with
    | f :: files', c :: cache' =>
        match (if c =? -1 then py_nth (sf_npart f) 1 else Ok c) with
        | Err e => (cache, Err e)
        | Ok npart =>
            let last_in_snap := first_in_snap + npart - 1 in
            match range_from_file datasets first_particle last_particle f npart first_in_snap result with
            | Err e => (npart :: cache', Err e)
            | Ok result' =>
                if last_in_snap >=? last_particle then (npart :: cache', Ok result')
                else let '(rest, r) := range_loop datasets first_particle last_particle files' cache' (first_in_snap + npart) result' in
                     (npart :: rest, r)
            end
        end
    | _, _ => (cache, Ok result)
    end.

  (** lines 485-544. [wr] is the arithmetic of offset + count - 1: exact for python
      ints, int64 and the uint32/int32 pair GroupOffset/GroupLen (which numpy
      promotes to int64), [wrap32] for the int32 pair SubOffset/SubLen *)
  Definition read_particle_range (wr : Z -> Z) (files : list sfile) (cache : list Z) (offset count : Z) (datasets : list string)
    : list Z * res (list (string * list A)) :=
    let first_particle := offset in
    let last_particle := wr (wr (offset + count) - 1) in
    let '(cache', r) := range_loop datasets first_particle last_particle files cache 0 (dict_new datasets) in
    (cache', do d <- r; mapM (fun e => do x <- np_concat (snd e); Ok (fst e, x)) d).

  (** lines 546-557 and 559-570 *)
  Definition read_group_range (wr : Z -> Z) (files : list sfile) (cache : list Z) (cat_offset cat_len : list Z) (grnr : Z) (datasets : list string)
    : list Z * res (list (string * list A)) :=
    match (do o <- py_nth cat_offset grnr; do c <- py_nth cat_len grnr; Ok (o, c)) with
    | Err e => (cache, Err e)
    | Ok (o, c) => read_particle_range wr files cache o c datasets
    end.
  Definition p3_read_fof_group := read_group_range (fun x => x).
  Definition p3_read_subfind_group := read_group_range wrap32.

  (** line 461 *)
  Definition new_npart (files : list sfile) : list Z := map (fun _ => -1) files.
  (** the cache after a sequence of read_particle_range calls *)
  Definition range_history (files : list sfile) (calls : list ((Z -> Z) * Z * Z * list string)) : list Z :=
    fold_left (fun c k => let '(wr, o, n, names) := k in fst (read_particle_range wr files c o n names)) calls (new_npart files).

  (** *** subfind_gadget4.py, GroupOrderedSnapshot *)

  Definition fof_datasets : list string := ["Coordinates"; "Velocities"; "ParticleIDs"]%string.

  (** lines 276-301 for one type and one dataset: the rows to append to
      result[itype][dataset], if any. An absent key and a key without arrays are
      not distinguished: the code makes the key when it appends the first array. *)
  Definition fof_piece (f : sfile) (name : string) (itype first_in_fof last_in_fof npart first_in_snap : Z) : res (list (list A)) :=
    let last_in_snap := first_in_snap + npart in
    if last_in_snap >=? first_in_snap then
      let first_to_read := first_in_fof - first_in_snap in
      let last_to_read := last_in_fof - first_in_snap in
      let first_to_read := if first_to_read <? 0 then 0 else first_to_read in
      let last_to_read := if last_to_read >=? npart then npart - 1 else last_to_read in
      if (last_to_read >=? first_to_read) && (npart >? 0) then
        do x <- read_rows f itype name first_to_read (last_to_read + 1); Ok [x]
      else Ok []
    else Ok [].

  Definition at_type (l : list Z) (t : Z) : Z := nth (Z.to_nat t) l 0.

  (** lines 268-301: all types and datasets of one file. The arrays found, indexed
      by type and dataset; the code visits datasets in the outer loop, which only
      matters for which of several missing datasets raises the KeyError *)
  Definition fof_pieces (f : sfile) (first_in_fof last_in_fof npart first_in_snap : list Z) : res (list (list (list (list A)))) :=
    mapM (fun t => mapM (fun name => fof_piece f name t (at_type first_in_fof t) (at_type last_in_fof t) (at_type npart t) (at_type first_in_snap t))
                        fof_datasets) (zseq 0 6).

  Definition append_pieces (a b : list (list (list (list A)))) : list (list (list (list A))) :=
    zipwith (zipwith (fun x y => x ++ y)) a b.

  (** lines 257-308. [cache] is self.npart_file, rows of -1 where not known yet *)
  Fixpoint fof_loop (first_in_fof last_in_fof : list Z) (files : list sfile) (cache : list (list Z)) (first_in_snap : list Z)
      (result : list (list (list (list A)))) : list (list Z) * res (list (list (list (list A)))) :=
    match files, cache with
    | f :: files', c :: cache' =>
        let npart := if at_type c 0 =? -1 then sf_npart f else c in
        let last_in_snap := zipwith Z.add first_in_snap npart in
        match fof_pieces f first_in_fof last_in_fof npart first_in_snap with
        | Err e => (npart :: cache', Err e)
        | Ok here =>
            let result' := append_pieces result here in
            if forallb (fun p => fst p >=? snd p) (combine last_in_snap last_in_fof) then (npart :: cache', Ok result')
            else let '(rest, r) := fof_loop first_in_fof last_in_fof files' cache' (zipwith Z.add first_in_snap npart) result' in
                 (npart :: rest, r)
        end
    | _, _ => (cache, Ok result)
    end.

  (** the catalogue arrays held by the object, one row or value per group / subhalo *)
  Record fofcat := { foflentype : list (list Z); fof_nsubs : list Z; fof_firstsub : list Z; sublentype : list (list Z); nfof_file : list Z }.

  (** line 213: np.cumsum(foflentype, axis=0) - foflentype *)
  Fixpoint offsets_from (acc : list Z) (rows : list (list Z)) : list (list Z) :=
    match rows with [] => [] | r :: rows' => acc :: offsets_from (zipwith Z.add acc r) rows' end.
  Definition fof_offset (c : fofcat) : list (list Z) := offsets_from (repeat 0 6) (foflentype c).

  (** lines 321-341: SubNr of the [n] particles of one type *)
  Definition sub_nr (c : fofcat) (ifof itype n : Z) : res (list Z) :=
    let out := repeat (-1) (Z.to_nat n) in
    do nsubs <- py_nth (fof_nsubs c) ifof;
    if nsubs >? 0 then
      do first_sub <- py_nth (fof_firstsub c) ifof;
      let last_sub := first_sub + nsubs - 1 in
      let sublen := map (fun row => at_type row itype) (pyslice (sublentype c) first_sub (last_sub + 1)) in
      do subnr <- np_repeat (zseq 0 (length sublen)) sublen;
      let subnr := map (Z.add first_sub) subnr in
      (* assigning to result[0:k] *)
      do _ <- check (zlen subnr <=? n) EValue;
      Ok (write_at out 0 subnr)
    else Ok out.

  (** what is returned for one particle type: None for an empty dictionary,
      otherwise Coordinates, Velocities, ParticleIDs and SubNr *)
  Definition fof_result : Type := option (list (list A) * list Z).

  (** grnr: a catalogue position or a (file number, position in file) pair *)
  Inductive grnr_t := GrNr (i : Z) | GrPair (filenum fofnum : Z).

  (** lines 250-254 *)
  Definition fof_index (c : fofcat) (grnr : grnr_t) : res Z :=
    match grnr with
    | GrNr i => Ok i
    | GrPair filenum fofnum => do o <- py_nth (excl_cumsum (nfof_file c)) filenum; Ok (o + fofnum)
    end.

  (** lines 238-343 *)
  Definition g4_read_fof_group (c : fofcat) (files : list sfile) (cache : list (list Z)) (grnr : grnr_t) : list (list Z) * res (list fof_result) :=
    match (do ifof <- fof_index c grnr;
           do o <- py_nth (fof_offset c) ifof;
           do l <- py_nth (foflentype c) ifof;
           Ok (ifof, o, zipwith (fun a b => a + b - 1) o l)) with
    | Err e => (cache, Err e)
    | Ok (ifof, first_in_fof, last_in_fof) =>
        let '(cache', r) := fof_loop first_in_fof last_in_fof files cache (repeat 0 6) (repeat (repeat [] 3) 6) in
        (cache', do res <- r;
                 mapM (fun tp => let '(t, pieces) := (tp : Z * list (list (list A))) in
                          let arrays := map (@concat A) pieces in
                          (* line 317: no particles of this type were found *)
                          if existsb (fun p => match p with [] => false | _ => true end) pieces then
                            do s <- sub_nr c ifof t (zlen (nth 2 arrays []));
                            Ok (Some (arrays, s))
                          else Ok None) (combine (zseq 0 6) res))
    end.

  (** line 218 *)
  Definition new_npart6 (files : list sfile) : list (list Z) := map (fun _ => repeat (-1) 6) files.
  Definition fof_history (c : fofcat) (files : list sfile) (calls : list grnr_t) : list (list Z) :=
    fold_left (fun s k => fst (g4_read_fof_group c files s k)) calls (new_npart6 files).
End Snap.
Arguments sfile : clear implicits.
