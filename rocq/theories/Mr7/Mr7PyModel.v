(** The other two readers for a snapshot file of the Millennium-WMAP7 simulation: examples/millennium-wmap7/python/read_mr7_snapshot_file.py (python 2 and h5py) and
    examples/millennium-wmap7/idl/read_mr7_snapshot_file.pro.

    Simplifications.  Both leave arrays in variables; these are the result here, with the two numbers which are printed.  Elements are bytes of the type in the file, as in
    Mr7Model.v; datasets have the dimensions of Fortran and IDL (the first varies fastest), which are those of numpy in reverse.  An attribute of more than one
    dimension, of which [1] would be a row, is not modelled, and that IDL may drop a last dimension of 1 makes no
    difference to its elements.  In IDL any error stops the program (ERuntime). *)
From Coq Require Import Ascii String.
From Verif Require Import Base.Prelude Text.StrModel H5w.H5wModel.
Local Open Scope Z_scope.
Local Open Scope list_scope.

(** the name of the file: line 11 of the first, line 36 of the second *)
Definition mr7_name : str := lit "/gpfs/data/Millgas/data/dm/500/snapdir_061/500_dm_061.0.hdf5".
(** an array: its dimensions and its elements in the order of the file *)
Definition array : Type := list Z * list elt.
(** box size; number of particles; positions, velocities and ids *)
Definition left_behind : Type := list elt * elt * array * array * array.

Section Read.
  (** what is raised if there is no file, no such object, or no second element *)
  Variables (no_file no_object no_element : exn).
  (** the order in which the dimensions of a dataset are given *)
  Variable order : list Z -> list Z.
  (** f[group].attrs[name]; read_group_attribute *)
  Definition read_attr (h : list obj) (group name : str) : res attr :=
    match resolve h 0 group with
    | None => Err no_object
    | Some o => match assoc name (attrs_at h o) with None => Err no_object | Some a => Ok a end
    end.
  (** f[name][...]; read_dataset *)
  Definition read_dset (h : list obj) (name : str) : res array :=
    match dopen h name with
    | None => Err no_object
    | Some o => match dset_at h o with None => Err no_object | Some d => Ok (order (d_dims d), d_data d) end
    end.
  (** numpart_thisfile[1] *)
  Definition second (a : attr) : res elt :=
    match a_dims a with
    | [_] => match nth_error (a_data a) 1 with Some e => Ok e | None => Err no_element end
    | _ => Err no_element
    end.
  Definition read_snapshot (files : list (str * dfile)) : res left_behind :=
    match assoc mr7_name files with
    | None => Err no_file
    | Some fl =>
      do boxsize <- read_attr (heap fl) (lit "Header") (lit "BoxSize");
      do numpart <- read_attr (heap fl) (lit "Header") (lit "NumPart_ThisFile");
      do n <- second numpart;
      do pos <- read_dset (heap fl) (lit "PartType1/Coordinates");
      do vel <- read_dset (heap fl) (lit "PartType1/Velocities");
      do ids <- read_dset (heap fl) (lit "PartType1/ParticleIDs");
      Ok (a_data boxsize, n, pos, vel, ids)
    end.
End Read.
(** read_mr7_snapshot_file.py, lines 11-30 *)
Definition python_reader : list (str * dfile) -> res left_behind := read_snapshot EIO EKey EIndex (@rev Z).
(** read_mr7_snapshot_file.pro, lines 36-54 (and the functions of lines 2-25) *)
Definition idl_reader : list (str * dfile) -> res left_behind := read_snapshot ERuntime ERuntime ERuntime (fun d => d).
