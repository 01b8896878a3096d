(** Model of compress_dcpl() of mpi/parallel_hdf5.py (lines 33-80). *)
From Verif Require Import Base.Prelude.
Local Open Scope Z_scope.

(** An HDF5 dataset creation property list: the layout, the chunk shape, the filter
    pipeline, and all the other properties (fill value, allocation time, ...). *)
Inductive layout := Compact | Contiguous | Chunked.
Inductive filter := Shuffle | Deflate (level : Z) | OtherFilter (id : Z).
Record plist {P : Type} := { p_layout : layout; p_chunk : list Z; p_filters : list filter; p_other : P }.
Arguments plist : clear implicits.
Definition is_chunked (l : layout) : bool := match l with Chunked => true | _ => false end.

Section Dcpl.
  Context {P : Type}.
  Notation plist := (plist P).
  (** the library calls: H5Pset_layout, H5Pset_chunk (dimensions must be positive;
      an empty tuple is refused), H5Pset_shuffle, H5Pset_deflate (levels 0 to 9) *)
  Definition set_layout (l : layout) (d : plist) : plist := {| p_layout := l; p_chunk := p_chunk d; p_filters := p_filters d; p_other := p_other d |}.
  Definition set_chunk (c : list Z) (d : plist) : res plist :=
    if forallb (fun n => 0 <? n) c && negb (zlen c =? 0) then Ok {| p_layout := Chunked; p_chunk := c; p_filters := p_filters d; p_other := p_other d |} else Err EValue.
  Definition add_filter (f : filter) (d : plist) : plist := {| p_layout := p_layout d; p_chunk := p_chunk d; p_filters := p_filters d ++ [f]; p_other := p_other d |}.
  Definition set_deflate (level : Z) (d : plist) : res plist := if (0 <=? level) && (level <=? 9) then Ok (add_filter (Deflate level) d) else Err EValue.

  (** comparison of h5py.version.hdf5_version_tuple with (1, 12, 0) *)
  Definition before_1_12 (v : Z * Z * Z) : bool :=
    let '(a, b, c) := v in (a <? 1) || ((a =? 1) && ((b <? 12) || ((b =? 12) && (c <? 0)))).
  Definition product (l : list Z) : Z := fold_left Z.mul l 1.

  (** [None] is python's None; the copy made in line 44 is the value itself *)
  Definition compress_dcpl (version : Z * Z * Z) (dcpl : plist) (shape : list Z) (gzip : option Z) (shuffle : bool) (chunk : option Z) : res (option plist) :=
    (* lines 47-48 *)
    if before_1_12 version then Ok (Some dcpl) else
    (* lines 51-57 *)
    if product shape =? 0 then Ok None else
    (* lines 60-63 *)
    let chunk_size := match chunk with None => 8 * 1024 * 1024 | Some c => c end in
    let wanted := match gzip with Some _ => true | None => shuffle end in
    (* lines 66-72 *)
    do dcpl <- (if wanted then
                  if negb (is_chunked (p_layout dcpl)) then
                    match shape with
                    | [] => Err EIndex
                    | n :: rest => set_chunk ((if n >? chunk_size then chunk_size else n) :: rest) (set_layout Chunked dcpl)
                    end
                  else Ok dcpl
                else Ok dcpl);
    (* lines 75-78 *)
    let dcpl := if shuffle then add_filter Shuffle dcpl else dcpl in
    do dcpl <- match gzip with Some g => set_deflate g dcpl | None => Ok dcpl end;
    Ok (Some dcpl).
End Dcpl.
