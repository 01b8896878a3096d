(** Model of the constructors of the two GroupOrderedSnapshot classes, from the bytes of the
    files: formats/subfind_pgadget3.py lines 408-466 and formats/subfind_gadget4.py lines
    155-236, with gadget_snapshot.open (formats/gadget_snapshot.py lines 163-188). Their other
    methods are in Snap/ReadModel.v.

    Simplified: files are given by their number as in Multi/GroupCatModel.v, and they are not HDF5
    files. A snapshot file is opened before the methods are called and not when it is needed
    (so that a missing file matters even if it is not needed); an array which can not be read
    counts as missing. *)
From Coq Require Import Ascii String.
From Verif Require Import Base.Prelude Base.NdArray Binary.BinModel Formats.ReaderModel Multi.MultiModel Multi.GroupCatModel Snap.ReadModel.
Local Open Scope Z_scope.

(** the rows of an array with at least one dimension *)
Definition nd_rows (a : nd Z) : list (list Z) :=
  match shape a with
  | [] => []
  | n :: s => map (fun i => firstn (nelem s) (skipn (i * nelem s) (data a))) (seq 0 n)
  end.

Section Init.
  Variable little : bool.
  (** the files of the group catalogue and of the snapshot *)
  Variables tabs snaps : Z -> option (list Z).

  (** open_snap_file (pgadget3 lines 459-466, gadget4 lines 222-229) *)
  Definition open_snap (i : Z) : res (list Z * file) :=
    match snaps i with
    | None => Err EIO
    | Some content => match open_file little content (gadget_snapshot []) with (f, Ok _) => Ok (content, f) | (_, Err e) => Err e end
    end.
  (** snap["Header"].attrs["NumPart_ThisFile"] and snap["PartType%d/%s" % (t, name)] *)
  Definition snap_of (i : Z) : res (sfile (list Z)) :=
    do (content, f) <- open_snap i;
    do n <- read_attr little content f (nm "Header") (nm "NumPart_ThisFile");
    Ok {| sf_npart := map signed32 n;
          sf_data := fun t name => match lookup_array little content f (part_name (Z.to_nat t) (nm name)) with Some (Ok a) => Some (nd_rows a) | _ => None end |}.
  Definition snap_list (n : Z) : res (list (sfile (list Z))) := mapM snap_of (zseq 0 (Z.to_nat n)).
  (** num_snap_files and the allocation of npart_file *)
  Definition snap_count : res Z :=
    do (content, f) <- open_snap 0;
    do v <- read_attr little content f (nm "Header") (nm "NumFilesPerSnapshot");
    do _ <- check (0 <=? i32 v) EValue;
    Ok (i32 v).

  (** *** P-Gadget3 *)
  Record p3_object := { o_GroupLen : list Z; o_GroupOffset : list Z; o_SubLen : list Z; o_SubOffset : list Z; o_nfiles : Z }.
  Definition cat_array (cat : list (str * @cell Z)) (name : string) : res (list Z) :=
    match List.find (fun e => str_eqb (fst e) (nm name)) cat with
    | Some (_, CArr a) => Ok (data a)
    | _ => Err EKey
    end.
  (** lines 408-457; the total number of particles is worked out but not used *)
  Definition p3_init (so_vel_dispersions : bool) (id_bytes float_bytes : Z) : res p3_object :=
    do (cat, opened) <- p3_group_catalogue little tabs (Some ["GroupLen"; "GroupOffset"; "SubLen"; "SubOffset"]%string) so_vel_dispersions id_bytes float_bytes;
    do gl <- cat_array cat "GroupLen";
    do go <- cat_array cat "GroupOffset";
    do sl <- cat_array cat "SubLen";
    do so <- cat_array cat "SubOffset";
    do n <- snap_count;
    (* GroupOffset is uint32, the others int32 *)
    Ok {| o_GroupLen := map signed32 gl; o_GroupOffset := go; o_SubLen := map signed32 sl; o_SubOffset := map signed32 so; o_nfiles := n |}.

  (** *** Gadget-4 *)
  (** what is read from one file, lines 182-198 *)
  Record tables := { t_nfof : Z; t_lentype : list (nd Z); t_nsubs : list (nd Z); t_firstsub : list (nd Z); t_sublentype : list (nd Z) }.
  Definition entry_of (f : str -> option (res (nd Z))) (name : string) : res (nd Z) :=
    match f (nm name) with None => Err EKey | Some r => r end.
  Definition read_tables (f : str -> option (res (nd Z))) : res tables :=
    do v <- entry_of f "Ngroups";
    let nfof := i32 (data v) in
    do v <- entry_of f "Nsubgroups";
    let nsub := i32 (data v) in
    do (l, n, s) <- (if nfof >? 0 then
                       do a <- entry_of f "GroupLenType";
                       do b <- entry_of f "Nsubs";
                       do c <- entry_of f "FirstSub";
                       Ok ([a], [b], [c])
                     else Ok ([], [], []));
    do sl <- (if nsub >? 0 then do a <- entry_of f "SubLenType"; Ok [a] else Ok []);
    Ok {| t_nfof := nfof; t_lentype := l; t_nsubs := n; t_firstsub := s; t_sublentype := sl |}.
  (** lines 170-220: the tables of the catalogue and the number of snapshot files *)
  Definition g4_init (id_bytes : Z) : res (fofcat * Z) :=
    do f <- open_nr little tabs (gadget4_sub_tab id_bytes) 0;
    do v <- entry_of f "NFiles";
    let nfiles := i32 (data v) in
    do first <- read_tables f;
    (* -np.ones(nfiles) and nfof_file[0] = nfof *)
    do _ <- check (0 <=? nfiles) EValue;
    do _ <- check (0 <? nfiles) EIndex;
    do rest <- mapM (fun i => do f <- open_nr little tabs (gadget4_sub_tab id_bytes) i; read_tables f) (zseq 1 (Z.to_nat (nfiles - 1)));
    let all := first :: rest in
    do a <- np_concatenate (Some 0) (flat_map t_lentype all);
    do b <- np_concatenate (Some 0) (flat_map t_nsubs all);
    do c <- np_concatenate (Some 0) (flat_map t_firstsub all);
    do d <- np_concatenate (Some 0) (flat_map t_sublentype all);
    do n <- snap_count;
    Ok ({| foflentype := map (map signed32) (nd_rows a); fof_nsubs := map signed32 (data b); fof_firstsub := map signed32 (data c);
           sublentype := map (map signed32) (nd_rows d); nfof_file := map t_nfof all |}, n).
End Init.
