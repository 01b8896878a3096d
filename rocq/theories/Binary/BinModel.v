(** Model of /repo/python/virgo/util/read_binary.py (HDF5 output, lines 192-253, and the
    cache of open files, lines 295-329, are not part of this file; the cache is in
    CacheModel.v). The contents of the file do not change while it is in use. *)
From Coq Require Import Ascii.
From Verif.Base Require Import Prelude Order.
Local Open Scope Z_scope.

(** byte order marks: "<", ">", "=" and "|" *)
Inductive ord := LE | BE | NAT | NA.
Definition ord_eqb (a b : ord) : bool :=
  match a, b with LE, LE => true | BE, BE => true | NAT, NAT => true | NA, NA => true | _, _ => false end.
Definition valid_endian (e : ord) : bool := match e with NA => false | _ => true end.

Section Machine.
Variable little : bool. (* sys.byteorder *)

(** lines 23-30 *)
Definition big_or_little (e : ord) : ord := match e with NAT => if little then LE else BE | _ => e end.

(** A dtype has the sizes of its numbers and a byte order; structured types (several
    numbers, each in native byte order) and one byte types have byte order "|". *)
Record dtype := { dt_order : ord; dt_fields : list Z }.
Definition itemsize (d : dtype) : Z := sumZ (dt_fields d).
(** lines 33-46 *)
Definition need_byteswap (data_endian : ord) (d : dtype) : res bool :=
  if ord_eqb (dt_order d) NA then Ok false
  else if negb (valid_endian data_endian) then Err EValue
  else Ok (negb (ord_eqb (big_or_little (dt_order d)) (big_or_little data_endian))).

(** an item is a list of bytes; the bytes of each of its numbers *)
Fixpoint split_fields (fields : list Z) (item : list Z) : list (list Z) :=
  match fields with
  | [] => []
  | n :: fields' => firstn (Z.to_nat n) item :: split_fields fields' (skipn (Z.to_nat n) item)
  end.
Definition swap_item (d : dtype) (item : list Z) : list Z := concat (map (@rev Z) (split_fields (dt_fields d) item)).

(** lines 281-293 *)
Record block := { b_dtype : dtype; b_off : Z; b_shape : list Z; b_endian : ord }.
Definition b_size (b : block) : Z := fold_left Z.mul (b_shape b) 1.
Definition b_nbytes (b : block) : Z := itemsize (b_dtype b) * b_size b.
Definition set_b_endian (e : ord) (b : block) : block :=
  {| b_dtype := b_dtype b; b_off := b_off b; b_shape := b_shape b; b_endian := e |}.

(** np.ndarray(shape, dtype, buffer, offset) as a flat list of items *)
Definition view (content : list Z) (off isize n : Z) : list (list Z) :=
  map (fun k => zslice content (off + isize * k) (off + isize * (k + 1))) (zseq 0 (Z.to_nat n)).
(** lines 331-352; [key] lists the flat positions of the selected items (None: all of
    them, as for the keys [...] and [()]). An empty file can not be mapped (line 76). *)
Definition getitem (content : list Z) (b : block) (key : option (list Z)) : res (list (list Z)) :=
  do _ <- check (negb (zlen content =? 0)) EValue;
  do _ <- check (0 <=? b_off b) EIO;
  do _ <- check (b_off b + b_nbytes b <=? zlen content) EIO;
  do _ <- check (forallb (fun s => 0 <=? s) (b_shape b)) EValue;
  let array := view content (b_off b) (itemsize (b_dtype b)) (b_size b) in
  do swap <- need_byteswap (b_endian b) (b_dtype b);
  do sel <- match key with None => Ok array | Some idx => np_take array idx end;
  Ok (if swap : bool then map (swap_item (b_dtype b)) sel else sel).

(** *** names, lines 49-64 and 117-187 *)
Definition str := list ascii.
Definition slash : ascii := "/".
Fixpoint str_eqb (a b : str) : bool :=
  match a, b with
  | [], [] => true
  | x :: a', y :: b' => Ascii.eqb x y && str_eqb a' b'
  | _, _ => false
  end.
Fixpoint lstrip (s : str) : str := match s with c :: s' => if Ascii.eqb c slash then lstrip s' else s | [] => [] end.
Definition strip (s : str) : str := rev (lstrip (rev (lstrip s))).
(** split("/", 1) *)
Fixpoint split1 (s : str) : option (str * str) :=
  match s with
  | [] => None
  | c :: s' => if Ascii.eqb c slash then Some ([], s') else match split1 s' with None => None | Some (h, t) => Some (c :: h, t) end
  end.
Definition split_path (s : str) : option str * str :=
  match split1 (strip s) with None => (None, strip s) | Some (h, t) => (Some h, t) end.

(** dictionaries in insertion order *)
Fixpoint get {V} (k : str) (d : list (str * V)) : option V :=
  match d with [] => None | (k', v) :: d' => if str_eqb k k' then Some v else get k d' end.
Fixpoint put {V} (k : str) (v : V) (d : list (str * V)) : list (str * V) :=
  match d with [] => [(k, v)] | (k', v') :: d' => if str_eqb k k' then (k', v) :: d' else (k', v') :: put k v d' end.
Definition has {V} (k : str) (d : list (str * V)) : bool := match get k d with None => false | Some _ => true end.

(** blocks are referred to by their position in all_blocks; a dataset has attributes *)
Inductive group := Group (attrs : list (str * nat)) (dsets : list (str * (nat * list (str * nat)))) (groups : list (str * group)).
Definition empty_group : group := Group [] [] [].

(** lines 144-187 (the test for an existing attribute goes through Mapping.__contains__,
    which reads its data: if that fails the read error is raised, not KeyError; this is
    not modelled): the group afterwards (also if there is an error), and whether the block
    became an attribute of a dataset, in which case its endian attribute is not set *)
Fixpoint add_block (fuel : nat) (g : group) (name : str) (id : nat) (is_attr : bool) : group * res bool :=
  match fuel with
  | O => (g, Err EFuel)
  | S fuel' =>
    match g, split_path name with
    | Group attrs dsets groups, (None, tail) =>
      if is_attr then
        if has tail attrs then (g, Err EKey) else (Group (put tail id attrs) dsets groups, Ok false)
      else if has tail dsets then (g, Err EKey)
      else if has tail groups then (g, Err EKey)
      else (Group attrs (put tail (id, []) dsets) groups, Ok false)
    | Group attrs dsets groups, (Some head, tail) =>
      match (if is_attr then get head dsets else None) with
      | Some (did, dattrs) =>
        if has tail dattrs then (g, Err EKey)
        else (Group attrs (put head (did, put tail id dattrs) dsets) groups, Ok true)
      | None =>
        match get head groups with
        | Some sub =>
          let (sub', r) := add_block fuel' sub tail id is_attr in
          (Group attrs dsets (put head sub' groups), r)
        | None =>
          if has head dsets then (g, Err EKey)
          else
            let (sub', r) := add_block fuel' empty_group tail id is_attr in
            (Group attrs dsets (put head sub' groups), r)
        end
      end
    end
  end.

(** lines 127-135 *)
Inductive entry := EDset (id : nat) (attrs : list (str * nat)) | EGroup (g : group).
Fixpoint lookup (fuel : nat) (g : group) (key : str) : res entry :=
  match fuel with
  | O => Err EFuel
  | S fuel' =>
    match g, split_path key with
    | Group _ dsets groups, (None, tail) =>
      match get tail groups with
      | Some sub => Ok (EGroup sub)
      | None => match get tail dsets with Some (id, at_) => Ok (EDset id at_) | None => Err EKey end
      end
    | Group _ _ groups, (Some head, tail) =>
      match get head groups with Some sub => lookup fuel' sub tail | None => Err EKey end
    end
  end.
Definition fuel_for (s : str) : nat := S (length s).
Definition g_getitem (g : group) (key : str) : res entry := lookup (fuel_for key) g key.

(** *** the file, lines 394-500 *)
Record file := { f_off : Z; f_endian : ord; f_blocks : list block; f_tree : group; f_rec : option (Z * Z * bool) }.
(** lines 415-421 *)
Definition new_file : file := {| f_off := 0; f_endian := NAT; f_blocks := []; f_tree := empty_group; f_rec := None |}.
Definition set_tree (g : group) (f : file) : file := {| f_off := f_off f; f_endian := f_endian f; f_blocks := f_blocks f; f_tree := g; f_rec := f_rec f |}.
Definition set_off (o : Z) (f : file) : file := {| f_off := o; f_endian := f_endian f; f_blocks := f_blocks f; f_tree := f_tree f; f_rec := f_rec f |}.
Definition set_rec (r : option (Z * Z * bool)) (f : file) : file := {| f_off := f_off f; f_endian := f_endian f; f_blocks := f_blocks f; f_tree := f_tree f; f_rec := r |}.
Definition set_flag (e : ord) (f : file) : file := {| f_off := f_off f; f_endian := e; f_blocks := f_blocks f; f_tree := f_tree f; f_rec := f_rec f |}.
Definition push (b : block) (f : file) : file := {| f_off := f_off f + b_nbytes b; f_endian := f_endian f; f_blocks := f_blocks f ++ [b]; f_tree := f_tree f; f_rec := f_rec f |}.

(** lines 430-447 *)
Definition f_add (name : str) (d : dtype) (shape : list Z) (is_attr : bool) (f : file) : file * res unit :=
  let (g, r) := add_block (fuel_for name) (f_tree f) name (length (f_blocks f)) is_attr in
  match r with
  | Err e => (set_tree g f, Err e)
  | Ok on_dset =>
    let b := {| b_dtype := d; b_off := f_off f; b_shape := shape; b_endian := if on_dset then NAT else f_endian f |} in
    (push b (set_tree g f), Ok tt)
  end.
(** lines 449-450 *)
Definition skip_bytes (n : Z) (f : file) : file := set_off (f_off f + n) f.
(** lines 452-458 *)
Definition read_and_skip (content : list Z) (d : dtype) (shape : list Z) (f : file) : file * res (list (list Z)) :=
  let b := {| b_dtype := d; b_off := f_off f; b_shape := shape; b_endian := f_endian f |} in
  match getitem content b None with
  | Ok data => (push b f, Ok data)
  | Err e => (f, Err e)
  end.
(** lines 460-472 *)
Definition set_endian (e : ord) (f : file) : file * res unit :=
  if negb (valid_endian e) then (f, Err EValue)
  else ({| f_off := f_off f; f_endian := e; f_blocks := map (set_b_endian e) (f_blocks f); f_tree := f_tree f; f_rec := f_rec f |}, Ok tt).
(** lines 474-491 *)
Definition swap_endian (byteswap : bool) : ord :=
  if little then if byteswap then BE else LE else if byteswap then LE else BE.
Definition enable_byteswap (byteswap : bool) (f : file) : file * res unit := set_endian (swap_endian byteswap) f.
(** lines 493-500 *)
Definition toggle_byteswap (f : file) : file * res unit :=
  match f_endian f with
  | LE => (set_flag BE f, Ok tt)
  | BE => (set_flag LE f, Ok tt)
  | NAT => enable_byteswap true f
  | NA => (f, Ok tt)
  end.

(** numbers *)
Fixpoint le_value (bytes : list Z) : Z := match bytes with [] => 0 | b :: bytes' => b + 256 * le_value bytes' end.
Definition endian_value (e : ord) (bytes : list Z) : Z :=
  match big_or_little e with LE => le_value bytes | _ => le_value (rev bytes) end.
Definition signed32 (v : Z) : Z := if 2 ^ 31 <=? v then v - 2 ^ 32 else v.
Fixpoint le_bytes (n : nat) (v : Z) : list Z := match n with O => [] | S n' => v mod 256 :: le_bytes n' (v / 256) end.
(** np.int32.byteswap() *)
Definition bswap32 (v : Z) : Z := signed32 (le_value (rev (le_bytes 4 (v mod 2 ^ 32)))).
Definition int32_t : dtype := {| dt_order := NAT; dt_fields := [4] |}.
Definition int32_of (items : list (list Z)) : Z := signed32 (endian_value NAT (nth 0 items [])).

(** lines 560-563 *)
Definition start_fortran_record (content : list Z) (auto_byteswap : bool) (f : file) : file * res unit :=
  match f_rec f with
  | Some _ => (f, Err EIO)
  | None =>
    match read_and_skip content int32_t [] f with
    | (f, Err e) => (f, Err e)
    | (f, Ok data) => (set_rec (Some (int32_of data, f_off f, auto_byteswap)) f, Ok tt)
    end
  end.
(** lines 565-585 *)
Definition end_fortran_record (content : list Z) (f : file) : file * res unit :=
  match f_rec f with
  | None => (f, Err EIO)
  | Some (irec_start, start_offset, auto_byteswap) =>
    let end_offset := f_off f in
    match read_and_skip content int32_t [] f with
    | (f, Err e) => (f, Err e)
    | (f, Ok data) =>
      let irec_end := int32_of data in
      let len := end_offset - start_offset in
      if negb (irec_start =? irec_end) then (f, Err EIO)
      else if auto_byteswap && (65535 <? len) then (f, Err EIO)
      else
        let swap := (len =? bswap32 irec_start) && negb (len =? irec_start) && auto_byteswap in
        let f := if swap then fst (toggle_byteswap f) else f in
        let irec_start := if swap then bswap32 irec_start else irec_start in
        if negb (len =? irec_start) then (f, Err EIO)
        else (set_rec None f, Ok tt)
    end
  end.

(** *** operations on the whole file *)
Definition sorted_blocks (f : file) : list block := sort_by ZOrd b_off (f_blocks f).
(** lines 587-615 *)
Definition all_bytes_used (content : list Z) (f : file) : bool :=
  let blocks := sorted_blocks f in
  let offsets := map b_off blocks in
  let lengths := map b_nbytes blocks in
  if (0 <? zlen blocks) && negb (hd 0 offsets =? 0) then false
  else if (1 <? zlen blocks) && negb (forallb (fun p : Z * Z => fst p =? snd p) (combine (tl offsets) (zipwith Z.add (removelast offsets) (removelast lengths)))) then false
  else if negb (zlen content =? sumZ lengths) then false
  else true.

(** data.astype(data.dtype.newbyteorder(target)) *)
Definition mem_endian (d : dtype) : ord := big_or_little (match dt_order d with NA => NAT | o => o end).
Definition to_order (target : ord) (d : dtype) (item : list Z) : list Z :=
  if ord_eqb (mem_endian d) (big_or_little target) then item else swap_item d item.
(** lines 531-558: the bytes which are hashed *)
Definition hash_stream (content : list Z) (f : file) : res (list Z) :=
  do _ <- check (all_bytes_used content f) EIO;
  do parts <- mapM (fun b => do data <- getitem content b None; Ok (concat (map (to_order LE (b_dtype b)) data))) (sorted_blocks f);
  Ok (concat parts).

(** outfile.seek(off); outfile.write(data) *)
Definition fwrite (buf : list Z) (off : Z) (data : list Z) : list Z :=
  match data with [] => buf | _ => write_at (buf ++ repeat 0 (Z.to_nat (off - zlen buf))) off data end.
(** lines 505-529: contents of the new file; [wb]: the mode is "wb" (the default "wb-" is
    not a valid mode) *)
Definition write_binary (content : list Z) (wb : bool) (endian : option ord) (f : file) : res (list Z) :=
  do _ <- check wb EValue;
  fold_left (fun acc b =>
    do out <- acc;
    do data <- getitem content b None;
    let data := match endian with None => data | Some e => map (to_order e (b_dtype b)) data end in
    Ok (fwrite out (b_off b) (concat data))) (sorted_blocks f) (Ok []).

(** *** histories *)
Inductive op :=
  | OAdd (name : str) (d : dtype) (shape : list Z) (is_attr : bool)
  | OSkip (n : Z)
  | ORead (d : dtype) (shape : list Z)
  | OSet (e : ord)
  | OEnable (byteswap : bool)
  | OToggle
  | OStart (auto : bool)
  | OEnd.
Definition run_op (content : list Z) (f : file) (o : op) : file :=
  match o with
  | OAdd name d shape is_attr => fst (f_add name d shape is_attr f)
  | OSkip n => skip_bytes n f
  | ORead d shape => fst (read_and_skip content d shape f)
  | OSet e => fst (set_endian e f)
  | OEnable s => fst (enable_byteswap s f)
  | OToggle => fst (toggle_byteswap f)
  | OStart a => fst (start_fortran_record content a f)
  | OEnd => fst (end_fortran_record content f)
  end.
Definition run (content : list Z) (ops : list op) (f : file) : file := fold_left (run_op content) ops f.
End Machine.
