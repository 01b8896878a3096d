(** Model of BinaryGroup.write_hdf5, /repo/python/virgo/util/read_binary.py lines 192-253.

    An HDF5 file is a tree of groups and datasets with attributes. What h5py and HDF5 refuse
    is modelled as far as it matters here: a name which exists already, the names "" and ".",
    a chunk with no elements or of 4 GiB or more, a compression level above 9; attributes
    which HDF5 cannot store are those for which [fits] is false. A file which is only
    partly written because of an error, and mode "r", are not modelled. *)
From Coq Require Import Ascii.
From Verif.Base Require Import Prelude.
From Verif.Binary Require Import BinModel.
Local Open Scope Z_scope.

(** a numpy array, also the data of a dataset or attribute: the type in memory, the shape
    and the bytes of each item *)
Record arr := { a_dtype : dtype; a_shape : list Z; a_items : list (list Z) }.
Inductive h5 :=
  | HGroup (attrs : list (str * arr)) (members : list (str * h5))
  | HDset (data : arr) (attrs : list (str * arr)) (chunks : option (list Z)).
(** the mode of h5py.File: "w-" (or "x"), "w", "a", "r+" *)
Inductive mode := MNew | MTruncate | MAppend | MUpdate.

Section Write.
  Variable little : bool.
  Variable content : list Z.
  Variable blocks : list block.
  Variable fits : arr -> bool.
  Variable gzip : Z.

  (** dataset[...], attrs[name] *)
  Definition read_block (id : nat) : res arr :=
    match nth_error blocks id with
    | None => Err EFuel
    | Some b => do items <- getitem little content b None; Ok {| a_dtype := b_dtype b; a_shape := b_shape b; a_items := items |}
    end.
  (** h5obj.attrs[name] = value *)
  Definition set_attr (name : str) (value : arr) (attrs : list (str * arr)) : res (list (str * arr)) :=
    do _ <- check (negb (str_eqb name [])) EValue;
    do _ <- check (fits value) ERuntime;
    Ok (put name value attrs).
  (** lines 237, 238 and 243, 244 *)
  Fixpoint copy_attrs (src : list (str * nat)) (attrs : list (str * arr)) : res (list (str * arr)) :=
    match src with
    | [] => Ok attrs
    | (name, id) :: src' => do v <- read_block id; do attrs' <- set_attr name v attrs; copy_attrs src' attrs'
    end.
  (** a new link in a group *)
  Definition link (name : str) (members : list (str * h5)) : res unit :=
    do _ <- check (negb (str_eqb name [] || str_eqb name ["."%char])) EValue;
    check (negb (has name members)) EValue.
  (** lines 196, 218-221 *)
  Definition chunk_size : Z := 8192 * 10.
  Definition chunks_of (shape : list Z) : option (list Z) :=
    if 0 <? gzip then Some (map (fun s => if s <? chunk_size then s else chunk_size) shape) else None.
  (** what HDF5 asks of chunks, h5py of the level (lines 199-206) *)
  Definition storable (d : dtype) (chunks : option (list Z)) : res unit :=
    match chunks with
    | None => Ok tt
    | Some cs =>
      do _ <- check (gzip <=? 9) EValue;
      do _ <- check (forallb (fun c => 0 <? c) cs) EValue;
      check (itemsize d * fold_left Z.mul cs 1 <? 2 ^ 32) EValue
    end.
  (** lines 212-238 for one dataset *)
  Definition write_dset (name : str) (id : nat) (dattrs : list (str * nat)) (members : list (str * h5)) : res (list (str * h5)) :=
    do data <- read_block id;
    do chunks <- match a_shape data with
      | [] => Ok None
      | _ => let cs := chunks_of (a_shape data) in do _ <- storable (a_dtype data) cs; Ok cs
      end;
    do _ <- link name members;
    do attrs <- copy_attrs dattrs [];
    Ok (members ++ [(name, HDset data attrs chunks)]).
  Fixpoint write_dsets (dsets : list (str * (nat * list (str * nat)))) (members : list (str * h5)) : res (list (str * h5)) :=
    match dsets with
    | [] => Ok members
    | (name, (id, dattrs)) :: dsets' => do m <- write_dset name id dattrs members; write_dsets dsets' m
    end.
  (** lines 211-247: the members of the HDF5 group afterwards *)
  Fixpoint write_group (g : group) (members : list (str * h5)) {struct g} : res (list (str * h5)) :=
    match g with
    | Group _ dsets groups =>
      do members' <- write_dsets dsets members;
      (fix go (groups : list (str * group)) (members : list (str * h5)) {struct groups} : res (list (str * h5)) :=
        match groups with
        | [] => Ok members
        | (name, sub) :: groups' =>
          do _ <- link name members;
          do attrs <- copy_attrs (match sub with Group a _ _ => a end) [];
          do inner <- write_group sub [];
          go groups' (members ++ [(name, HGroup attrs inner)])
        end) groups members'
    end.
End Write.

(** h5py.File(filename, mode): attributes and members of its first group *)
Definition open_h5 (m : mode) (existing : option (list (str * arr) * list (str * h5))) : res (list (str * arr) * list (str * h5)) :=
  match m, existing with
  | MNew, Some _ => Err EIO
  | MUpdate, None => Err EIO
  | MNew, None | MTruncate, _ | MAppend, None => Ok ([], [])
  | MAppend, Some e | MUpdate, Some e => Ok e
  end.
(** lines 192-253 for a file: what the HDF5 file has in it at the end *)
Definition write_hdf5 (little : bool) (content : list Z) (fits : arr -> bool) (gzip : Z) (m : mode) (existing : option (list (str * arr) * list (str * h5))) (f : file)
  : res (list (str * arr) * list (str * h5)) :=
  do (attrs, members) <- open_h5 m existing;
  do members' <- write_group little content (f_blocks f) fits gzip (f_tree f) members;
  Ok (attrs, members').
