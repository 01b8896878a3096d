(** Model of the constructors of the classes which read binary catalogues and snapshots
    (/repo/python/virgo/formats). A constructor is a sequence of calls of the methods of
    BinaryFile in which the later calls may depend on values read from the file. Numbers
    are given by their bit pattern (an unsigned integer); whether numpy takes them to be
    signed or floating point is not modelled. *)
From Coq Require Import Ascii String.
From Verif.Base Require Import Prelude Order.
From Verif.Binary Require Import BinModel.
Local Open Scope Z_scope.

Inductive prog :=
  | Done
  | Fail (e : exn)
  | Add (name : str) (d : dtype) (shape : list Z) (is_attr : bool) (k : prog) (* add_dataset, add_attribute *)
  | Get (name : str) (k : list Z -> prog) (* self[name][...] *)
  | GetAttr (grp : str) (name : str) (k : list Z -> prog) (* self[grp].attrs[name] *)
  | Swap (byteswap : bool) (k : prog) (* enable_byteswap *)
  | Start (auto : bool) (k : prog) (* start_fortran_record *)
  | End_ (k : prog) (* end_fortran_record *)
  | ReadSkip (d : dtype) (k : list Z -> prog) (h : prog) (* read_and_skip of a scalar; [h]: what happens in case of IOError *)
  | SkipTo (off : Z) (k : prog) (* skip_bytes(off-self.offset) *)
  | OffsetIs (off : Z) (k : prog). (* assert self.offset == off *)

Section Machine.
Variable little : bool.
Variable content : list Z.

(** bit patterns of the numbers in an array of a type with one number per item *)
Definition numbers (d : dtype) (items : list (list Z)) : list Z := map (endian_value little (mem_endian little d)) items.
(** self[name][...] *)
Definition read_dataset (f : file) (name : str) : res (list Z) :=
  do e <- g_getitem (f_tree f) name;
  match e with
  | EDset id _ =>
    match nth_error (f_blocks f) id with
    | Some b => do items <- getitem little content b None; Ok (numbers (b_dtype b) items)
    | None => Err EFuel (* can not happen *)
    end
  | EGroup _ => Err EType
  end.
(** self[grp].attrs[name], read_binary.py lines 93-104 *)
Definition read_attr (f : file) (grp name : str) : res (list Z) :=
  do e <- g_getitem (f_tree f) grp;
  match e with
  | EDset _ attrs | EGroup (Group attrs _ _) =>
    match get name attrs with
    | None => Err EKey
    | Some id =>
      match nth_error (f_blocks f) id with
      | Some b => do items <- getitem little content b None; Ok (numbers (b_dtype b) items)
      | None => Err EFuel
      end
    end
  end.

Fixpoint exec (p : prog) (f : file) : file * res unit :=
  match p with
  | Done => (f, Ok tt)
  | Fail e => (f, Err e)
  | Add name d shape is_attr k => match f_add name d shape is_attr f with (f, Ok _) => exec k f | (f, Err e) => (f, Err e) end
  | Get name k => match read_dataset f name with Ok v => exec (k v) f | Err e => (f, Err e) end
  | GetAttr grp name k => match read_attr f grp name with Ok v => exec (k v) f | Err e => (f, Err e) end
  | Swap s k => match enable_byteswap little s f with (f, Ok _) => exec k f | (f, Err e) => (f, Err e) end
  | Start auto k => match start_fortran_record little content auto f with (f, Ok _) => exec k f | (f, Err e) => (f, Err e) end
  | End_ k => match end_fortran_record little content f with (f, Ok _) => exec k f | (f, Err e) => (f, Err e) end
  | ReadSkip d k h =>
    match read_and_skip little content d [] f with
    | (f, Ok items) => exec (k (numbers d items)) f
    | (f, Err EIO) => exec h f
    | (f, Err e) => (f, Err e)
    end
  | SkipTo off k => exec k (skip_bytes (off - f_off f) f)
  | OffsetIs off k => if f_off f =? off then exec k f else (f, Err EAssert)
  end.
(** the constructor, applied to the name of a file with the given contents *)
Definition open_file (p : prog) : file * res unit := exec p new_file.
End Machine.

(** *** types and names *)
Definition num (size : Z) : dtype := {| dt_order := if size =? 1 then NA else NAT; dt_fields := [size] |}.
Definition t_int32 := num 4. Definition t_uint32 := num 4. Definition t_float32 := num 4.
Definition t_int64 := num 8. Definition t_uint64 := num 8. Definition t_float64 := num 8.
Definition t_uint8 := num 1.
Definition nm (s : string) : str := list_ascii_of_string s.
Coercion nm : string >-> str.

(** add_dataset calls one after another *)
Fixpoint adds (l : list (str * dtype * list Z)) (k : prog) : prog :=
  match l with [] => k | (name, d, shape) :: l' => Add name d shape false (adds l' k) end.
Definition i32 (v : list Z) : Z := signed32 (nth 0 v 0).

(** if nfiles < 1 or nfiles > 65535: self.enable_byteswap(True) *)
Definition guess_order (name : str) (k : prog) : prog :=
  Get name (fun v => let nfiles := i32 v in if (nfiles <? 1) || (65535 <? nfiles) then Swap true k else k).
(** the id_bytes and float_bytes parameters *)
Definition id_or_value_error (id_bytes : Z) (k : dtype -> prog) : prog :=
  if id_bytes =? 4 then k t_uint32 else if id_bytes =? 8 then k t_uint64 else Fail EValue.
Definition float_or_value_error (float_bytes : Z) (k : dtype -> prog) : prog :=
  if float_bytes =? 4 then k t_float32 else if float_bytes =? 8 then k t_float64 else Fail EValue.
(** here another number of bytes leaves self.id_type unset: AttributeError (given as
    EName) when it is used *)
Definition id_or_unset (id_bytes : Z) (k : dtype -> prog) (h : prog) : prog :=
  if id_bytes =? 4 then k t_uint32 else if id_bytes =? 8 then k t_uint64 else h.

(** *** subfind_lgadget2.py *)
Arguments Get name%string.
Arguments GetAttr grp%string name%string.
Arguments guess_order name%string.
(** GroupTabFile, lines 31-51 *)
Definition lgadget2_group_tab : prog :=
  adds [(nm "Ngroups", t_int32, []); (nm "Nids", t_int32, []); (nm "TotNgroups", t_int32, []); (nm "NTask", t_int32, [])] (
  guess_order "NTask" (
  Get "Ngroups" (fun v => let ngroups := i32 v in
  adds [(nm "GroupLen", t_int32, [ngroups]); (nm "GroupOffset", t_int32, [ngroups]); (nm "GroupMinLen", t_int32, [])] (
  Get "GroupMinLen" (fun v => let minlen := i32 v in
  adds [(nm "Count", t_int32, [minlen])] Done))))).
(** GroupIDsFile, lines 77-104 *)
Definition lgadget2_group_ids (id_bytes : Z) : prog :=
  adds [(nm "Ngroups", t_int32, []); (nm "Nids", t_int32, []); (nm "TotNgroups", t_int32, []); (nm "NTask", t_int32, [])] (
  guess_order "NFiles" (
  id_or_value_error id_bytes (fun id_type =>
  Get "Nids" (fun v => let nids := i32 v in
  adds [(nm "GroupIDs", id_type, [nids])] Done)))).
(** SubTabFile, lines 133-186 *)
Definition lgadget2_sub_tab (id_bytes : Z) : prog :=
  adds [(nm "Ngroups", t_int32, []); (nm "Nids", t_int32, []); (nm "TotNgroups", t_int32, []); (nm "NFiles", t_int32, []); (nm "Nsubhalos", t_int32, [])] (
  guess_order "NFiles" (
  id_or_value_error id_bytes (fun id_type =>
  Get "Ngroups" (fun v => let ngroups := i32 v in
  Get "Nids" (fun _ =>
  Get "NFiles" (fun _ =>
  Get "Nsubhalos" (fun v => let nsubgroups := i32 v in
  adds [(nm "NsubPerHalo", t_int32, [ngroups]); (nm "FirstSubOfHalo", t_int32, [ngroups]);
        (nm "SubLen", t_int32, [nsubgroups]); (nm "SubOffset", t_int32, [nsubgroups]); (nm "SubParentHalo", t_int32, [nsubgroups]);
        (nm "Halo_M_Mean200", t_float32, [ngroups]); (nm "Halo_R_Mean200", t_float32, [ngroups]);
        (nm "Halo_M_Crit200", t_float32, [ngroups]); (nm "Halo_R_Crit200", t_float32, [ngroups]);
        (nm "Halo_M_TopHat200", t_float32, [ngroups]); (nm "Halo_R_TopHat200", t_float32, [ngroups]);
        (nm "SubPos", t_float32, [nsubgroups; 3]); (nm "SubVel", t_float32, [nsubgroups; 3]); (nm "SubVelDisp", t_float32, [nsubgroups]);
        (nm "SubVmax", t_float32, [nsubgroups]); (nm "SubSpin", t_float32, [nsubgroups; 3]); (nm "SubMostBoundID", id_type, [nsubgroups]);
        (nm "SubHalfMass", t_float32, [nsubgroups])] Done))))))).
(** SubIDsFile, lines 238-265 *)
Definition lgadget2_sub_ids (id_bytes : Z) : prog :=
  adds [(nm "Ngroups", t_int32, []); (nm "Nids", t_int32, []); (nm "TotNgroups", t_int32, []); (nm "NFiles", t_int32, [])] (
  guess_order "NFiles" (
  id_or_value_error id_bytes (fun id_type =>
  Get "Nids" (fun v => let nids := i32 v in
  adds [(nm "GroupIDs", id_type, [nids])] Done)))).

(** *** subfind_lgadget3.py *)
(** SubTabFile, lines 15-99 *)
Definition lgadget3_sub_tab (so_vel_dispersions sub_shapes : bool) (id_bytes float_bytes : Z) : prog :=
  id_or_value_error id_bytes (fun id_type =>
  float_or_value_error float_bytes (fun float_type =>
  adds [(nm "Ngroups", t_int32, []); (nm "TotNgroups", t_int64, []); (nm "Nids", t_int32, []); (nm "TotNids", t_int64, []);
        (nm "NTask", t_int32, []); (nm "Nsubgroups", t_int32, []); (nm "TotNsubgroups", t_int64, [])] (
  guess_order "NTask" (
  Get "Ngroups" (fun v => let ngroups := i32 v in
  adds ([(nm "GroupLen", t_int32, [ngroups]); (nm "GroupOffset", t_int32, [ngroups]); (nm "GroupNr", t_int64, [ngroups]);
         (nm "GroupCofM", float_type, [ngroups; 3]); (nm "GroupVel", float_type, [ngroups; 3]); (nm "GroupPos", float_type, [ngroups; 3]);
         (nm "Halo_M_Mean200", float_type, [ngroups]); (nm "Halo_M_Crit200", float_type, [ngroups]); (nm "Halo_M_TopHat200", float_type, [ngroups]);
         (nm "GroupVelDisp", float_type, [ngroups])] ++
        (if so_vel_dispersions then
         [(nm "VelDisp_Mean200", float_type, [ngroups]); (nm "VelDisp_Crit200", float_type, [ngroups]); (nm "VelDisp_TopHat200", float_type, [ngroups])] else []) ++
        [(nm "Nsubs", t_int32, [ngroups]); (nm "FirstSub", t_int32, [ngroups])]) (
  Get "Nsubgroups" (fun v => let nsubgroups := i32 v in
  adds ([(nm "SubLen", t_int32, [nsubgroups]); (nm "SubOffset", t_int32, [nsubgroups]); (nm "SubGrNr", t_int64, [nsubgroups]); (nm "SubNr", t_int64, [nsubgroups]);
         (nm "SubPos", float_type, [nsubgroups; 3]); (nm "SubVel", float_type, [nsubgroups; 3]); (nm "SubCofM", float_type, [nsubgroups; 3]); (nm "SubSpin", float_type, [nsubgroups; 3]);
         (nm "SubVelDisp", float_type, [nsubgroups]); (nm "SubVmax", float_type, [nsubgroups]); (nm "SubRVmax", float_type, [nsubgroups]); (nm "SubHalfMass", float_type, [nsubgroups])] ++
        (if sub_shapes then [(nm "SubShape", float_type, [nsubgroups; 6])] else []) ++
        [(nm "SubBindingEnergy", float_type, [nsubgroups]); (nm "SubPotentialEnergy", float_type, [nsubgroups]); (nm "SubProfile", float_type, [nsubgroups; 9])]) Done))))))).
(** SubIDsFile, lines 177-205 *)
Definition lgadget3_sub_ids (id_bytes : Z) : prog :=
  adds [(nm "Ngroups", t_int32, []); (nm "TotNgroups", t_int64, []); (nm "Nids", t_int32, []); (nm "TotNids", t_int64, []);
        (nm "NTask", t_int32, []); (nm "NidsPrevious", t_int64, [])] (
  guess_order "NTask" (
  Get "Nids" (fun v => let nids := i32 v in
  id_or_unset id_bytes (fun id_type => adds [(nm "GroupIDs", id_type, [nids])] Done) (Fail EName)))).

(** *** subfind_pgadget3.py *)
(** GroupIDsFile, lines 22-51 (float_bytes is not used) *)
Definition pgadget3_group_ids (id_bytes : Z) : prog :=
  id_or_value_error id_bytes (fun id_type =>
  adds [(nm "Ngroups", t_int32, []); (nm "TotNgroups", t_int32, []); (nm "Nids", t_int32, []); (nm "TotNids", t_int64, []);
        (nm "NTask", t_int32, []); (nm "SendOffset", t_int32, [])] (
  guess_order "NTask" (
  Get "Nids" (fun v => let nids := i32 v in
  adds [(nm "GroupIDs", id_type, [nids])] Done)))).
(** GroupTabFile, lines 69-110 *)
Definition pgadget3_group_tab (id_bytes float_bytes : Z) : prog :=
  id_or_value_error id_bytes (fun id_type =>
  float_or_value_error float_bytes (fun float_type =>
  adds [(nm "Ngroups", t_int32, []); (nm "TotNgroups", t_int32, []); (nm "Nids", t_int32, []); (nm "TotNids", t_int64, []); (nm "NTask", t_int32, [])] (
  guess_order "NTask" (
  Get "Ngroups" (fun v => let ngroups := i32 v in
  adds [(nm "GroupLen", t_int32, [ngroups]); (nm "GroupOffset", t_uint32, [ngroups]); (nm "GroupMass", float_type, [ngroups]);
        (nm "GroupCofM", float_type, [ngroups; 3]); (nm "GroupVel", float_type, [ngroups; 3]);
        (nm "GroupLenType", t_int32, [ngroups; 6]); (nm "GroupMassType", float_type, [ngroups; 6])] Done))))).
(** SubTabFile, lines 143-236; NotImplementedError is a RuntimeError *)
Definition pgadget3_sub_tab (so_vel_dispersions so_bar_info write_sub_in_snap_format : bool) (id_bytes float_bytes : Z) : prog :=
  if write_sub_in_snap_format then Fail ERuntime else if so_bar_info then Fail ERuntime else
  id_or_value_error id_bytes (fun id_type =>
  float_or_value_error float_bytes (fun float_type =>
  adds [(nm "Ngroups", t_int32, []); (nm "TotNgroups", t_int32, []); (nm "Nids", t_int32, []); (nm "TotNids", t_int64, []); (nm "NTask", t_int32, []);
        (nm "Nsubgroups", t_int32, []); (nm "TotNsubgroups", t_int32, [])] (
  guess_order "NTask" (
  Get "Ngroups" (fun v => let ngroups := i32 v in
  adds ([(nm "GroupLen", t_int32, [ngroups]); (nm "GroupOffset", t_uint32, [ngroups]); (nm "GroupMass", float_type, [ngroups]); (nm "GroupPos", float_type, [ngroups; 3]);
         (nm "Halo_M_Mean200", float_type, [ngroups]); (nm "Halo_R_Mean200", float_type, [ngroups]); (nm "Halo_M_Crit200", float_type, [ngroups]); (nm "Halo_R_Crit200", float_type, [ngroups]);
         (nm "Halo_M_TopHat200", float_type, [ngroups]); (nm "Halo_R_TopHat200", float_type, [ngroups])] ++
        (if so_vel_dispersions then
         [(nm "VelDisp_Mean200", float_type, [ngroups]); (nm "VelDisp_Crit200", float_type, [ngroups]); (nm "VelDisp_TopHat200", float_type, [ngroups])] else []) ++
        [(nm "ContaminationLen", t_int32, [ngroups]); (nm "ContaminationMass", float_type, [ngroups]);
         (nm "Nsubs", t_int32, [ngroups]); (nm "FirstSub", t_int32, [ngroups])]) (
  Get "Nsubgroups" (fun v => let nsubgroups := i32 v in
  adds [(nm "SubLen", t_int32, [nsubgroups]); (nm "SubOffset", t_int32, [nsubgroups]); (nm "SubParent", t_int32, [nsubgroups]); (nm "SubMass", float_type, [nsubgroups]);
        (nm "SubPos", float_type, [nsubgroups; 3]); (nm "SubVel", float_type, [nsubgroups; 3]); (nm "SubCofM", float_type, [nsubgroups; 3]); (nm "SubSpin", float_type, [nsubgroups; 3]);
        (nm "SubVelDisp", float_type, [nsubgroups]); (nm "SubVmax", float_type, [nsubgroups]); (nm "SubRVmax", float_type, [nsubgroups]); (nm "SubHalfMass", float_type, [nsubgroups]);
        (nm "SubMostBoundID", id_type, [nsubgroups]); (nm "SubGrNr", t_int32, [nsubgroups])] Done))))))).
(** SubIDsFile, lines 313-340 *)
Definition pgadget3_sub_ids (id_bytes : Z) : prog :=
  adds [(nm "Ngroups", t_int32, []); (nm "TotNgroups", t_int32, []); (nm "Nids", t_int32, []); (nm "TotNids", t_int64, []);
        (nm "NTask", t_int32, []); (nm "SendOffset", t_int32, [])] (
  guess_order "NTask" (
  Get "Nids" (fun v => let nids := i32 v in
  id_or_unset id_bytes (fun id_type => adds [(nm "GroupIDs", id_type, [nids])] Done) (Fail EName)))).

(** *** subfind_gadget4.py *)
(** lines 23-27 *)
Fixpoint records (l : list (str * dtype * list Z)) (k : prog) : prog :=
  match l with [] => k | (name, d, shape) :: l' => Start false (Add name d shape false (End_ (records l' k))) end.
(** SubTabFile, lines 29-107 *)
Definition gadget4_sub_tab (id_bytes : Z) : prog :=
  id_or_value_error id_bytes (fun id_type =>
  Start true (
  adds [(nm "Ngroups", t_int32, []); (nm "Nsubgroups", t_int32, []); (nm "Nids", t_int32, []); (nm "TotNgroups", t_int32, []);
        (nm "TotNsubgroups", t_int32, []); (nm "TotNids", t_int32, []); (nm "NFiles", t_int32, []); (nm "padding1", t_int32, []);
        (nm "Time", t_float64, []); (nm "Redshift", t_float64, []); (nm "HubbleParam", t_float64, []); (nm "BoxSize", t_float64, []);
        (nm "Omega0", t_float64, []); (nm "OmegaLambda", t_float64, []); (nm "flag_dp", t_int32, []); (nm "padding2", t_int32, [])] (
  End_ (
  Get "flag_dp" (fun v => let float_type := if i32 v =? 0 then t_float32 else t_float64 in
  Get "Ngroups" (fun v => let ngroups := i32 v in
  records (if 0 <? ngroups then
       [(nm "GroupLen", t_int32, [ngroups]); (nm "GroupMass", float_type, [ngroups]); (nm "GroupPos", float_type, [ngroups; 3]); (nm "GroupVel", float_type, [ngroups; 3]);
        (nm "GroupLenType", t_int32, [ngroups; 6]); (nm "GroupMassType", float_type, [ngroups; 6]);
        (nm "Halo_M_Mean200", float_type, [ngroups]); (nm "Halo_R_Mean200", float_type, [ngroups]); (nm "Halo_M_Crit200", float_type, [ngroups]); (nm "Halo_R_Crit200", float_type, [ngroups]);
        (nm "Halo_M_TopHat200", float_type, [ngroups]); (nm "Halo_R_TopHat200", float_type, [ngroups]); (nm "Nsubs", t_int32, [ngroups]); (nm "FirstSub", t_int32, [ngroups])] else []) (
  Get "Nsubgroups" (fun v => let nsubgroups := i32 v in
  records (if 0 <? nsubgroups then
       [(nm "SubLen", t_int32, [nsubgroups]); (nm "SubMass", float_type, [nsubgroups]); (nm "SubPos", float_type, [nsubgroups; 3]); (nm "SubVel", float_type, [nsubgroups; 3]);
        (nm "SubLenType", t_int32, [nsubgroups; 6]); (nm "SubMassType", float_type, [nsubgroups; 6]); (nm "SubCofM", float_type, [nsubgroups; 3]); (nm "SubSpin", float_type, [nsubgroups; 3]);
        (nm "SubVelDisp", float_type, [nsubgroups]); (nm "SubVmax", float_type, [nsubgroups]); (nm "SubRVmax", float_type, [nsubgroups]); (nm "SubHalfMassRad", float_type, [nsubgroups]);
        (nm "SubHalfMassRadType", float_type, [nsubgroups; 6]); (nm "SubMassInRad", float_type, [nsubgroups]); (nm "SubMassInRadType", float_type, [nsubgroups; 6]);
        (nm "SubMostBoundID", id_type, [nsubgroups]); (nm "SubGrNr", t_int32, [nsubgroups]); (nm "SubParent", t_int32, [nsubgroups])] else []) Done)))))))).

(** *** the Millennium snapshots: subfind_lgadget2.py, SnapshotFile, lines 293-348 *)
Fixpoint attributes (l : list (str * dtype * list Z)) (k : prog) : prog :=
  match l with [] => k | (name, d, shape) :: l' => Add name d shape true (attributes l' k) end.
Definition lgadget2_snapshot : prog :=
  Start true (
  attributes [(nm "Header/NumPart_ThisFile", t_uint32, [6]); (nm "Header/MassTable", t_float64, [6]); (nm "Header/Time", t_float64, []);
     (nm "Header/Redshift", t_float64, []); (nm "Header/Flag_Sfr", t_int32, []); (nm "Header/Flag_Feedback", t_int32, []);
     (nm "Header/NumPart_Total", t_uint32, [6]); (nm "Header/Flag_Cooling", t_int32, []); (nm "Header/NumFilesPerSnapshot", t_int32, []);
     (nm "Header/BoxSize", t_float64, []); (nm "Header/Omega0", t_float64, []); (nm "Header/OmegaLambda", t_float64, []); (nm "Header/HubbleParam", t_float64, []);
     (nm "Header/Flag_StellarAge", t_int32, []); (nm "Header/Flag_Metals", t_int32, []); (nm "Header/HashTabSize", t_int32, []); (nm "Header/fill", t_uint8, [84])] (
  End_ (
  GetAttr "Header" "NumPart_ThisFile" (fun v => let n := nth 1 v 0 in
  records [(nm "PartType1/Coordinates", t_float32, [n; 3]); (nm "PartType1/Velocities", t_float32, [n; 3]); (nm "PartType1/ParticleIDs", t_uint64, [n])] (
  Start false (
  adds [(nm "first_hash_cell", t_int32, []); (nm "last_hash_cell", t_int32, [])] (
  End_ (
  Get "last_hash_cell" (fun v => Get "first_hash_cell" (fun w => let nhash := i32 v - i32 w + 1 in
  records [(nm "blockid", t_int32, [nhash])] Done)))))))))).

(** *** gadget_snapshot.py *)
Inductive typestr := TInt | TFloat | TOther.
Definition dataset := (str * typestr * list Z * list bool)%type. (* name, typestr, shape, ptypes *)
Definition all_types : list bool := repeat true 6.
Definition gas_only : list bool := true :: repeat false 5.
(** masstable==0 for a 64 bit floating point number *)
Definition is_zero (v : Z) : bool := v mod 2 ^ 63 =? 0.
(** "PartType%i/%s" for i below 10 *)
Definition part_name (i : nat) (name : str) : str := (nm "PartType" ++ [ascii_of_nat (48 + i)] ++ slash :: name)%list.
(** lines 94-102 *)
Definition standard (masstable : list Z) : list dataset :=
  [(nm "Coordinates", TFloat, [3], all_types); (nm "Velocities", TFloat, [3], all_types); (nm "ParticleIDs", TInt, [], all_types);
   (nm "Masses", TFloat, [], map is_zero masstable); (nm "InternalEnergy", TFloat, [], gas_only);
   (nm "Density", TFloat, [], gas_only); (nm "SmoothingLength", TFloat, [], gas_only)].
(** lines 108-160; the number of particles and the lengths of records are exact integers
    (there is no overflow of numpy integers) *)
Fixpoint blocks (npart_type : list Z) (l : list dataset) (count_records : Z) : prog :=
  match l with
  | [] => Done
  | (name, ty, shape, ptypes) :: l' =>
    let nextra := sumZ (np_mask npart_type ptypes) in
    if 0 <? nextra then
      let n_per_part := fold_left Z.mul shape 1 in
      ReadSkip t_uint32 (fun v =>
        let irec := nth 0 v 0 in
        let nbytes := irec / (n_per_part * nextra) in
        if negb (nbytes =? 4) && negb (nbytes =? 8) || negb (nbytes * n_per_part * nextra =? irec) then Fail EIO
        else
          match ty with
          | TOther => Fail EValue
          | _ =>
            let d := num nbytes in
            adds (map (fun p : nat * (bool * Z) => (part_name (fst p) name, d, snd (snd p) :: shape))
                   (filter (fun p : nat * (bool * Z) => fst (snd p) && (0 <? snd (snd p))) (combine (seq 0 6) (combine ptypes npart_type))))
              (ReadSkip t_uint32 (fun v =>
                 if negb (nth 0 v 0 =? n_per_part * itemsize d * nextra) then Fail EIO
                 else blocks npart_type l' (count_records + 1)) (Fail EIO))
          end)
        (if count_records <? 3 then Fail EIO else Done)
    else blocks npart_type l' count_records
  end.
(** lines 52-160 *)
Definition gadget_body (extra : list dataset) : prog :=
  attributes [(nm "Header/NumPart_ThisFile", t_int32, [6]); (nm "Header/MassTable", t_float64, [6]); (nm "Header/Time", t_float64, []);
     (nm "Header/Redshift", t_float64, []); (nm "Header/Flag_Sfr", t_int32, []); (nm "Header/Flag_Feedback", t_int32, []);
     (nm "Header/NumPart_Total", t_uint32, [6]); (nm "Header/Flag_Cooling", t_int32, []); (nm "Header/NumFilesPerSnapshot", t_int32, []);
     (nm "Header/BoxSize", t_float64, []); (nm "Header/Omega0", t_float64, []); (nm "Header/OmegaLambda", t_float64, []); (nm "Header/HubbleParam", t_float64, []);
     (nm "Header/Flag_StellarAge", t_int32, []); (nm "Header/Flag_Metals", t_int32, []); (nm "Header/NumPart_Total_HighWord", t_uint32, [6])] (
  SkipTo (256 + 4) (
  GetAttr "Header" "NumPart_ThisFile" (fun v => let npart_type := map signed32 v in
  GetAttr "Header" "MassTable" (fun masstable =>
  ReadSkip t_uint32 (fun v =>
    if negb (nth 0 v 0 =? 256) then Fail EIO
    else blocks npart_type (standard masstable ++ extra) 0) (Fail EIO))))).
Definition gadget_snapshot (extra : list dataset) : prog :=
  ReadSkip t_uint32 (fun v =>
    let irec := nth 0 v 0 in
    if irec =? 256 then Swap false (gadget_body extra)
    else if irec =? 65536 then Swap true (gadget_body extra)
    else Fail EIO) (Fail EIO).

(** *** mpa_trees.py: SubDescFile, lines 11-17, and TreeAuxFile, lines 25-59 (TreeFile, which has
    an array of structures, is in StructModel.v). The byte order is taken to be that of the machine. *)
Definition mpa_sub_desc : prog :=
  adds [(nm "TotNsubhalos", t_int32, [])] (
  Get "TotNsubhalos" (fun v => let n := i32 v in
  adds [(nm "HaloIndex", t_int32, [n]); (nm "SnapNum", t_int32, [n])] Done)).
Definition mpa_tree_aux (id_bytes : Z) : prog :=
  id_or_value_error id_bytes (fun id_type =>
  adds [(nm "TotHalos", t_int32, []); (nm "Totunique", t_int32, []); (nm "Ntrees", t_int32, []); (nm "TotSnaps", t_int32, [])] (
  Get "TotHalos" (fun v => let nhalos := i32 v in
  Get "Totunique" (fun v => let nunique := i32 v in
  Get "Ntrees" (fun v => let ntrees := i32 v in
  Get "TotSnaps" (fun v => let nsnaps := i32 v in
  adds [(nm "CountID_Snap", t_int32, [nsnaps]); (nm "OffsetID_Snap", t_int32, [nsnaps]);
        (nm "CountID_SnapTree", t_int32, [nsnaps; ntrees]); (nm "OffsetID_SnapTree", t_int32, [nsnaps; ntrees]);
        (nm "Nunique", t_int32, [nhalos]); (nm "OffsetID_Halo", t_int32, [nhalos]);
        (nm "IDs", id_type, [nunique]); (nm "Pos", t_float32, [nunique; 3]); (nm "Vel", t_float64, [nunique; 3])] Done)))))).
