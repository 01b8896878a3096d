(** Model of the readers of files with arrays of structures: formats/rockstar.py,
    formats/velociraptor.py, TreeFile of formats/mpa_trees.py; and of the readers in
    sims/mxxl.py. See ReaderModel.v for what is not modelled. *)
From Coq Require Import Ascii String.
From Verif.Base Require Import Prelude Order.
From Verif.Binary Require Import BinModel.
From Verif.Text Require StrModel.
From Verif.Formats Require Import ReaderModel.
Local Open Scope Z_scope.

(** *** structured types of numpy *)
(** (name, number, shape): [m_count] numbers of [m_size] bytes *)
Record member := M { m_name : string; m_size : Z; m_count : Z }.
(** numpy's NPY_NEXT_ALIGNED_OFFSET *)
Definition next_aligned (off a : Z) : Z := Z.land (off + a - 1) (- a).
(** np.dtype(fields, align=align) (_convert_from_array_descr in numpy): the members with
    their offsets, and the size of an item. A number is aligned to its size. *)
Fixpoint np_layout (align : bool) (off maxalign : Z) (l : list member) : list (member * Z) * Z :=
  match l with
  | [] => ([], if align && (1 <? maxalign) then next_aligned off maxalign else off)
  | m :: l' =>
    let off := if align && (1 <? m_size m) then next_aligned off (m_size m) else off in
    let (r, total) := np_layout align (off + m_size m * m_count m) (Z.max maxalign (m_size m)) l' in
    ((m, off) :: r, total)
  end.
(** the sizes of the numbers, with single bytes for the padding *)
Fixpoint np_fields (from : Z) (l : list (member * Z)) (total : Z) : list Z :=
  match l with
  | [] => repeat 1 (Z.to_nat (total - from))
  | (m, off) :: l' => repeat 1 (Z.to_nat (off - from)) ++ repeat (m_size m) (Z.to_nat (m_count m)) ++ np_fields (off + m_size m * m_count m) l' total
  end.
Definition np_struct (align : bool) (l : list member) : dtype :=
  let (r, total) := np_layout align 0 1 l in {| dt_order := NA; dt_fields := np_fields 0 r total |}.
(** np.dtype("S12") and the like *)
Definition t_string (n : Z) : dtype := {| dt_order := NA; dt_fields := repeat 1 (Z.to_nat n) |}.

Section Columns.
Variable little : bool.
Variable content : list Z.
(** self[name][...] for an array of structures: the bytes of each item *)
Definition read_items (f : file) (name : str) : res (list (list Z)) :=
  do e <- g_getitem (f_tree f) name;
  match e with
  | EDset id _ => match nth_error (f_blocks f) id with Some b => getitem little content b None | None => Err EFuel end
  | EGroup _ => Err EType
  end.
(** array[name]: the numbers under this name in each item (ValueError if there are none) *)
Definition column (align : bool) (l : list member) (name : string) (items : list (list Z)) : res (list (list Z)) :=
  match List.find (fun p => String.eqb (m_name (fst p)) name) (fst (np_layout align 0 1 l)) with
  | None => Err EValue
  | Some (m, off) =>
    Ok (map (fun item => map (endian_value little NAT) (view item off (m_size m) (m_count m))) items)
  end.
End Columns.

(** members which are one number or an array of numbers *)
Definition m1 (size : Z) (name : string) : member := M name size 1.
Definition f4 := m1 4. Definition f8 := m1 8. Definition i4 := m1 4. Definition i8 := m1 8. Definition u4 := m1 4. Definition u8 := m1 8.
Definition signed64 (v : Z) : Z := if 2 ^ 63 <=? v then v - 2 ^ 64 else v.
Definition i64 (v : list Z) : Z := signed64 (nth 0 v 0).

(** *** rockstar.py, lines 42-103 *)
Definition rockstar_members (format_revision : Z) (hydro : bool) : list member :=
  [i8 "id"; M "pos" 4 6; M "corevel" 4 3; M "bulkvel" 4 3; f4 "m"; f4 "r"; f4 "child_r"; f4 "vmax_r"; f4 "mgrav"; f4 "vmax"; f4 "rvmax"; f4 "rs"; f4 "klypin_rs"; f4 "vrms";
   M "J" 4 3; f4 "energy"; f4 "spin"; M "alt_m" 4 4; f4 "Xoff"; f4 "Voff"; f4 "b_to_a"; f4 "c_to_a"; M "A" 4 3; f4 "b_to_a2"; f4 "c_to_a2"; M "A2" 4 3;
   f4 "bullock_spin"; f4 "kin_to_pot"; f4 "m_pe_b"; f4 "m_pe_d"] ++
  (if 2 <=? format_revision then [f4 "halfmass_radius"] else []) ++
  [i8 "num_p"; i8 "num_child_particles"; i8 "p_start"; i8 "desc"; i8 "flags"; i8 "n_core"; f4 "min_pos_err"; f4 "min_vel_err"; f4 "min_bulkvel_err"] ++
  (if hydro then [i4 "type"; f4 "sm"; f4 "gas"; f4 "bh"; f4 "peak_density"; f4 "av_density"] else []).
(** lines 18-40 and 105-109 *)
Definition rockstar (hydro : bool) : prog :=
  attributes [(nm "Header/magic", t_uint64, []); (nm "Header/snap", t_int64, []); (nm "Header/chunk", t_int64, []); (nm "Header/scale", t_float32, []);
     (nm "Header/om", t_float32, []); (nm "Header/ol", t_float32, []); (nm "Header/h0", t_float32, []); (nm "Header/bounds", t_float32, [6]);
     (nm "Header/num_halos", t_int64, []); (nm "Header/num_particles", t_int64, []); (nm "Header/box_size", t_float32, []); (nm "Header/particle_mass", t_float32, []);
     (nm "Header/particle_type", t_int64, []); (nm "Header/format_revision", t_int32, []); (nm "Header/rockstar_version", t_string 12, []); (nm "Header/unused", t_string 144, [])] (
  OffsetIs 256 (
  GetAttr "Header" "num_halos" (fun v => let num_halos := i64 v in
  GetAttr "Header" "num_particles" (fun v => let num_particles := i64 v in
  GetAttr "Header" "format_revision" (fun v => let format_revision := i32 v in
  adds [(nm "Halo", np_struct true (rockstar_members format_revision hydro), [num_halos]); (nm "IDs", t_int64, [num_particles])] Done))))).
(** sanity_check, lines 111-125; p_start and num_p are 64 bit integers, whose sum wraps
    around. SanityCheckFailedException is given as EAssert. *)
Definition wrap64 (v : Z) : Z := signed64 (v mod 2 ^ 64).
Definition rockstar_check (little : bool) (content : list Z) (hydro : bool) (f : file) : res unit :=
  do v <- read_attr little content f (nm "Header") (nm "format_revision");
  let l := rockstar_members (i32 v) hydro in
  do halo <- read_items little content f (nm "Halo");
  do p_start <- column little true l "p_start" halo;
  do num_p <- column little true l "num_p" halo;
  do ids <- g_getitem (f_tree f) (nm "IDs");
  do nids <- match ids with
             | EDset id _ => match nth_error (f_blocks f) id with Some b => Ok (nth 0 (b_shape b) 0) | None => Err EFuel end
             | EGroup _ => Err EType
             end;
  do _ <- check (forallb (fun p => wrap64 (i64 (fst p) + i64 (snd p)) <=? nids) (combine p_start num_p)) EAssert;
  check (forallb (fun s => 0 <=? i64 s) p_start) EAssert.

(** *** velociraptor.py *)
(** lines 33-80 *)
Definition velociraptor_members (ikeepfof : Z) : list member :=
  [u8 "haloid"; u8 "ibound"; u8 "hostid"; u8 "numsubs"; u8 "num"; u4 "stype"] ++
  (if negb (ikeepfof =? 0) then [u8 "directhostid"; u8 "hostfofid"] else []) ++
  [f8 "gMvir"; M "gcm" 8 3; M "gpos" 8 3; M "gcmvel" 8 3; M "gvel" 8 3; f8 "gmass"; f8 "gMFOF"; f8 "gM200m"; f8 "gM200c"; f8 "gMvir_again"; f8 "Efrac"; f8 "gRvir"; f8 "gsize";
   f8 "gR200m"; f8 "gR200c"; f8 "gRvir_again"; f8 "gRhalfmass"; f8 "gRmaxvel"; f8 "gmaxvel"; f8 "gsigma_v"; M "gveldisp" 8 9; f8 "glambda_B"; M "gJ" 8 3; f8 "gq"; f8 "gs";
   M "geigvec" 8 9; f8 "cNFW"; f8 "Krot"; f8 "T"; f8 "Pot"; f8 "RV_sigma_v"; M "RV_veldisp" 8 9; f8 "RV_lambda_B"; M "RV_J" 8 3; f8 "RV_q"; f8 "RV_s"; M "RV_eigvec" 8 9].
(** lines 29-31: "Header/entry%03d" % i *)
Definition entry_name (i : Z) : str := (nm "Header/entry" ++ StrModel.fmt_0d 3 i)%list.
Definition velociraptor_entries (hsize : Z) : list (str * dtype * list Z) :=
  map (fun i => (entry_name i, t_string 40, [])) (zseq 0 (Z.to_nat hsize)).
(** lines 17-86. [np_int]: whether numpy has np.int, a 64 bit type, which was removed in
    version 1.24 (AttributeError, given as EName). [other]: one of GASON, STARON, BHON, HIGHRES
    (NotImplementedError). The unsigned number [ng] is used as it is. *)
Definition velociraptor (np_int : bool) (ikeepfof : Z) (other : bool) : prog :=
  attributes [(nm "Header/ThisTask", t_int32, []); (nm "Header/NProcs", t_int32, []); (nm "Header/ng", t_uint64, []); (nm "Header/ngtot", t_uint64, [])] (
  if negb np_int then Fail EName else
    attributes [(nm "Header/hsize", t_int64, [])] (
    GetAttr "Header" "hsize" (fun v => let hsize := i64 v in
    attributes (velociraptor_entries hsize) (
    if other then Fail ERuntime else
    GetAttr "Header" "ng" (fun v => let ng := nth 0 v 0 in
    adds [(nm "Halo", np_struct false (velociraptor_members ikeepfof), [ng])] Done))))).

(** *** mpa_trees.py, TreeFile, lines 62-114 *)
Definition mpa_members (id_bytes : Z) (save_mass_tab : bool) : list member :=
  [i4 "Descendant"; i4 "FirstProgenitor"; i4 "NextProgenitor"; i4 "FirstHaloInFOFgroup"; i4 "NextHaloInFOFgroup"; i4 "Len"; f4 "M_Mean200"; f4 "M_Crit200"; f4 "M_TopHat";
   M "Pos" 4 3; M "Vel" 4 3; f4 "VelDisp"; f4 "VMax"; M "Spin" 4 3; m1 id_bytes "MostBoundID"; i4 "SnapNum"; i4 "FileNr"; i4 "SubhaloIndex"; f4 "SubhalohalfMass"] ++
  (if save_mass_tab then [M "SubMassTab" 4 6] else []).
Definition mpa_tree (id_bytes : Z) (save_mass_tab : bool) : prog :=
  id_or_value_error id_bytes (fun _ =>
  adds [(nm "Ntrees", t_int32, []); (nm "Nhalos", t_int32, [])] (
  Get "Ntrees" (fun v => let ntrees := i32 v in
  Get "Nhalos" (fun v => let nhalos := i32 v in
  adds [(nm "NPerTree", t_int32, [ntrees]); (nm "HaloList", np_struct false (mpa_members id_bytes save_mass_tab), [nhalos])] Done)))).

(** *** sims/mxxl.py *)
(** SubDescFile, lines 20-26 *)
Definition mxxl_sub_desc : prog :=
  adds [(nm "Nsubgroups", t_int32, [])] (
  Get "Nsubgroups" (fun v => let nsub := i32 v in
  adds [(nm "SubMostBoundID", t_uint64, [nsub]); (nm "Desc_FileNr", t_int32, [nsub]); (nm "Desc_SubIndex", t_int32, [nsub])] Done)).
(** SubTabFile, lines 33-43: SO_BAR_INFO and WRITE_SUB_IN_SNAP_FORMAT are passed to the
    constructor of subfind_lgadget3.SubTabFile, which has no such parameters: TypeError *)
Definition lgadget3_sub_tab_parameters : list string := ["SO_VEL_DISPERSIONS"; "SUB_SHAPES"; "id_bytes"; "float_bytes"]%string.
Definition with_keywords (parameters keywords : list string) (p : prog) : prog :=
  if forallb (fun k => existsb (String.eqb k) parameters) keywords then p else Fail EType.
Definition mxxl_sub_tab (so_vel_dispersions so_bar_info write_sub_in_snap_format : bool) (id_bytes float_bytes : Z) : prog :=
  with_keywords lgadget3_sub_tab_parameters ["SO_VEL_DISPERSIONS"; "SO_BAR_INFO"; "WRITE_SUB_IN_SNAP_FORMAT"; "id_bytes"; "float_bytes"]%string
    (lgadget3_sub_tab so_vel_dispersions false id_bytes float_bytes).
(** FieldFile, lines 55-76; products of 32 bit integers are taken to be exact *)
Definition mxxl_field : prog :=
  ReadSkip t_int32 (fun v => let irec := i32 v in
  Swap (negb (irec =? 8)) (
  adds [(nm "NTask", t_int32, []); (nm "BoxSize", t_float64, []); (nm "nn", t_int32, []); (nm "isw_slabs_per_task", t_int32, [])] (
  ReadSkip t_int32 (fun _ =>
  Get "nn" (fun v => let nn := i32 v in
  Get "isw_slabs_per_task" (fun v => let slabs := i32 v in
  ReadSkip t_int32 (fun v => let irec := i32 v in
  if negb (irec =? 4 * slabs * nn * nn) then Fail EIO else
  adds [(nm "grid", t_float32, [slabs; nn; nn])] (
  ReadSkip t_int32 (fun v => let irec := i32 v in
  if negb (irec =? 4 * slabs * nn * nn) then Fail EIO else Done) (Fail EIO))) (Fail EIO)))) (Fail EIO)))) (Fail EIO).
