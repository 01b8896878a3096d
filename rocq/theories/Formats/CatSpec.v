(** The formats of the halo catalogues: the arrays in a file in the order in which they
    are stored, as written by the simulation codes, with the size of a number in bytes and
    the dimensions, which may depend on numbers stored earlier in the file.
    Specification, independent of how the files are read. *)
From Coq Require Import Ascii String.
From Verif.Base Require Import Prelude.
From Verif.Binary Require Import BinModel NameProofs LayoutProofs.
From Verif.Formats Require Import ReaderModel FileSpec.
Local Open Scope Z_scope.

Inductive dim := Fixed (n : Z) | Of (name : string).
Record field := F { fd_name : string; fd_size : Z; fd_dims : list dim }.
(** the numbers (bit patterns) under each name *)
Definition catalogue := string -> list Z.
Definition scalar (cat : catalogue) (name : string) : Z := nth 0 (cat name) 0.
Definition extent (cat : catalogue) (d : dim) : Z := match d with Fixed n => n | Of name => scalar cat name end.
Definition data_of (cat : catalogue) (fd : field) : piece :=
  Data (list_ascii_of_string (fd_name fd)) false (fd_size fd) (map (extent cat) (fd_dims fd)) (cat (fd_name fd)).
Definition pieces_of (cat : catalogue) (l : list field) : list piece := map (data_of cat) l.
(** a catalogue in which each array has the size given by the header *)
Definition consistent (cat : catalogue) (l : list field) : Prop :=
  Forall piece_ok (pieces_of cat l) /\
  Forall (fun fd => Forall (fun d => match d with Fixed n => True | Of name => 0 <= scalar cat name < 2 ^ 31 end) (fd_dims fd)) l.

(** what a file gives *)
Definition dataset_is (little : bool) (content : list Z) (f : file) (name : str) (size : Z) (shape vals : list Z) : Prop :=
  exists id attrs b items, g_getitem (f_tree f) name = Ok (EDset id attrs) /\ nth_error (f_blocks f) id = Some b /\ b_shape b = shape /\ itemsize (b_dtype b) = size /\
    getitem little content b None = Ok items /\ numbers little (b_dtype b) items = vals.
Definition attribute_is (little : bool) (content : list Z) (f : file) (grp name : str) (size : Z) (shape vals : list Z) : Prop :=
  exists attrs ds gs id b items, g_getitem (f_tree f) grp = Ok (EGroup (Group attrs ds gs)) /\ get name attrs = Some id /\ nth_error (f_blocks f) id = Some b /\ b_shape b = shape /\ itemsize (b_dtype b) = size /\
    getitem little content b None = Ok items /\ numbers little (b_dtype b) items = vals.
(** each array reads back as it is in the file, there are no other datasets, and a group
    is there only because of the path of something in it *)
Definition reads_back (little : bool) (content : list Z) (pieces : list piece) (f : file) : Prop :=
  (forall name size shape vals, In (Data name false size shape vals) pieces -> dataset_is little content f name size shape vals) /\
  (forall grp name full size shape vals, In (Data full true size shape vals) pieces -> keys full = keys grp ++ [name] -> attribute_is little content f grp name size shape vals) /\
  (forall name id attrs, g_getitem (f_tree f) name = Ok (EDset id attrs) -> exists full size shape vals, In (Data full false size shape vals) pieces /\ keys full = keys name) /\
  (forall name g, g_getitem (f_tree f) name = Ok (EGroup g) -> exists full is_attr size shape vals t, In (Data full is_attr size shape vals) pieces /\ keys full = keys name ++ t /\ t <> []).
(** all the numbers in the file have the same byte order *)
Definition order_is (little lf : bool) (f : file) : Prop := Forall (fun b => big_or_little little (b_endian b) = if lf then LE else BE) (f_blocks f).

(** *** L-Gadget2 and L-SubFind (Millennium) *)
Definition one (name : string) (size : Z) : field := F name size [].
Definition col (count : string) (name : string) (size : Z) : field := F name size [Of count].
Definition vec (count : string) (n : Z) (name : string) (size : Z) : field := F name size [Of count; Fixed n].
Definition L2_group_tab : list field :=
  [one "Ngroups" 4; one "Nids" 4; one "TotNgroups" 4; one "NTask" 4; col "Ngroups" "GroupLen" 4; col "Ngroups" "GroupOffset" 4;
   one "GroupMinLen" 4; col "GroupMinLen" "Count" 4].
Definition L2_group_ids (id_bytes : Z) : list field :=
  [one "Ngroups" 4; one "Nids" 4; one "TotNgroups" 4; one "NTask" 4; col "Nids" "GroupIDs" id_bytes].
Definition L2_sub_tab (id_bytes : Z) : list field :=
  [one "Ngroups" 4; one "Nids" 4; one "TotNgroups" 4; one "NFiles" 4; one "Nsubhalos" 4;
   col "Ngroups" "NsubPerHalo" 4; col "Ngroups" "FirstSubOfHalo" 4;
   col "Nsubhalos" "SubLen" 4; col "Nsubhalos" "SubOffset" 4; col "Nsubhalos" "SubParentHalo" 4;
   col "Ngroups" "Halo_M_Mean200" 4; col "Ngroups" "Halo_R_Mean200" 4; col "Ngroups" "Halo_M_Crit200" 4; col "Ngroups" "Halo_R_Crit200" 4;
   col "Ngroups" "Halo_M_TopHat200" 4; col "Ngroups" "Halo_R_TopHat200" 4;
   vec "Nsubhalos" 3 "SubPos" 4; vec "Nsubhalos" 3 "SubVel" 4; col "Nsubhalos" "SubVelDisp" 4; col "Nsubhalos" "SubVmax" 4; vec "Nsubhalos" 3 "SubSpin" 4;
   col "Nsubhalos" "SubMostBoundID" id_bytes; col "Nsubhalos" "SubHalfMass" 4].
Definition L2_sub_ids (id_bytes : Z) : list field :=
  [one "Ngroups" 4; one "Nids" 4; one "TotNgroups" 4; one "NFiles" 4; col "Nids" "GroupIDs" id_bytes].

(** *** L-Gadget3 (Millennium-XXL, Millennium-WMAP7) *)
Definition L3_sub_tab (so_vel_dispersions sub_shapes : bool) (id_bytes fl : Z) : list field :=
  [one "Ngroups" 4; one "TotNgroups" 8; one "Nids" 4; one "TotNids" 8; one "NTask" 4; one "Nsubgroups" 4; one "TotNsubgroups" 8;
   col "Ngroups" "GroupLen" 4; col "Ngroups" "GroupOffset" 4; col "Ngroups" "GroupNr" 8;
   vec "Ngroups" 3 "GroupCofM" fl; vec "Ngroups" 3 "GroupVel" fl; vec "Ngroups" 3 "GroupPos" fl;
   col "Ngroups" "Halo_M_Mean200" fl; col "Ngroups" "Halo_M_Crit200" fl; col "Ngroups" "Halo_M_TopHat200" fl; col "Ngroups" "GroupVelDisp" fl] ++
  (if so_vel_dispersions then [col "Ngroups" "VelDisp_Mean200" fl; col "Ngroups" "VelDisp_Crit200" fl; col "Ngroups" "VelDisp_TopHat200" fl] else []) ++
  [col "Ngroups" "Nsubs" 4; col "Ngroups" "FirstSub" 4;
   col "Nsubgroups" "SubLen" 4; col "Nsubgroups" "SubOffset" 4; col "Nsubgroups" "SubGrNr" 8; col "Nsubgroups" "SubNr" 8;
   vec "Nsubgroups" 3 "SubPos" fl; vec "Nsubgroups" 3 "SubVel" fl; vec "Nsubgroups" 3 "SubCofM" fl; vec "Nsubgroups" 3 "SubSpin" fl;
   col "Nsubgroups" "SubVelDisp" fl; col "Nsubgroups" "SubVmax" fl; col "Nsubgroups" "SubRVmax" fl; col "Nsubgroups" "SubHalfMass" fl] ++
  (if sub_shapes then [vec "Nsubgroups" 6 "SubShape" fl] else []) ++
  [col "Nsubgroups" "SubBindingEnergy" fl; col "Nsubgroups" "SubPotentialEnergy" fl; vec "Nsubgroups" 9 "SubProfile" fl].
Definition L3_sub_ids (id_bytes : Z) : list field :=
  [one "Ngroups" 4; one "TotNgroups" 8; one "Nids" 4; one "TotNids" 8; one "NTask" 4; one "NidsPrevious" 8; col "Nids" "GroupIDs" id_bytes].

(** *** P-Gadget3 (Aquarius, Phoenix) *)
Definition P3_ids (id_bytes : Z) : list field :=
  [one "Ngroups" 4; one "TotNgroups" 4; one "Nids" 4; one "TotNids" 8; one "NTask" 4; one "SendOffset" 4; col "Nids" "GroupIDs" id_bytes].
Definition P3_group_tab (fl : Z) : list field :=
  [one "Ngroups" 4; one "TotNgroups" 4; one "Nids" 4; one "TotNids" 8; one "NTask" 4;
   col "Ngroups" "GroupLen" 4; col "Ngroups" "GroupOffset" 4; col "Ngroups" "GroupMass" fl; vec "Ngroups" 3 "GroupCofM" fl; vec "Ngroups" 3 "GroupVel" fl;
   vec "Ngroups" 6 "GroupLenType" 4; vec "Ngroups" 6 "GroupMassType" fl].
Definition P3_sub_tab (so_vel_dispersions : bool) (id_bytes fl : Z) : list field :=
  [one "Ngroups" 4; one "TotNgroups" 4; one "Nids" 4; one "TotNids" 8; one "NTask" 4; one "Nsubgroups" 4; one "TotNsubgroups" 4;
   col "Ngroups" "GroupLen" 4; col "Ngroups" "GroupOffset" 4; col "Ngroups" "GroupMass" fl; vec "Ngroups" 3 "GroupPos" fl;
   col "Ngroups" "Halo_M_Mean200" fl; col "Ngroups" "Halo_R_Mean200" fl; col "Ngroups" "Halo_M_Crit200" fl; col "Ngroups" "Halo_R_Crit200" fl;
   col "Ngroups" "Halo_M_TopHat200" fl; col "Ngroups" "Halo_R_TopHat200" fl] ++
  (if so_vel_dispersions then [col "Ngroups" "VelDisp_Mean200" fl; col "Ngroups" "VelDisp_Crit200" fl; col "Ngroups" "VelDisp_TopHat200" fl] else []) ++
  [col "Ngroups" "ContaminationLen" 4; col "Ngroups" "ContaminationMass" fl; col "Ngroups" "Nsubs" 4; col "Ngroups" "FirstSub" 4;
   col "Nsubgroups" "SubLen" 4; col "Nsubgroups" "SubOffset" 4; col "Nsubgroups" "SubParent" 4; col "Nsubgroups" "SubMass" fl;
   vec "Nsubgroups" 3 "SubPos" fl; vec "Nsubgroups" 3 "SubVel" fl; vec "Nsubgroups" 3 "SubCofM" fl; vec "Nsubgroups" 3 "SubSpin" fl;
   col "Nsubgroups" "SubVelDisp" fl; col "Nsubgroups" "SubVmax" fl; col "Nsubgroups" "SubRVmax" fl; col "Nsubgroups" "SubHalfMass" fl;
   col "Nsubgroups" "SubMostBoundID" id_bytes; col "Nsubgroups" "SubGrNr" 4].

(** *** MPA merger trees *)
Definition MPA_sub_desc : list field := [one "TotNsubhalos" 4; col "TotNsubhalos" "HaloIndex" 4; col "TotNsubhalos" "SnapNum" 4].
Definition MPA_tree_aux (id_bytes : Z) : list field :=
  [one "TotHalos" 4; one "Totunique" 4; one "Ntrees" 4; one "TotSnaps" 4; col "TotSnaps" "CountID_Snap" 4; col "TotSnaps" "OffsetID_Snap" 4;
   F "CountID_SnapTree" 4 [Of "TotSnaps"; Of "Ntrees"]; F "OffsetID_SnapTree" 4 [Of "TotSnaps"; Of "Ntrees"];
   col "TotHalos" "Nunique" 4; col "TotHalos" "OffsetID_Halo" 4; col "Totunique" "IDs" id_bytes; vec "Totunique" 3 "Pos" 4; vec "Totunique" 3 "Vel" 8].

(** which class reads which format; the number under the second name is the number of
    files of the catalogue *)
Definition id_size (n : Z) : Prop := n = 4 \/ n = 8.
Inductive reads : prog -> string -> list field -> Prop :=
  | r_L2_group_tab : reads lgadget2_group_tab "NTask" L2_group_tab
  | r_L2_sub_tab id : id_size id -> reads (lgadget2_sub_tab id) "NFiles" (L2_sub_tab id)
  | r_L2_sub_ids id : id_size id -> reads (lgadget2_sub_ids id) "NFiles" (L2_sub_ids id)
  | r_L3_sub_tab so sh id fl : id_size id -> id_size fl -> reads (lgadget3_sub_tab so sh id fl) "NTask" (L3_sub_tab so sh id fl)
  | r_L3_sub_ids id : id_size id -> reads (lgadget3_sub_ids id) "NTask" (L3_sub_ids id)
  | r_P3_group_ids id : id_size id -> reads (pgadget3_group_ids id) "NTask" (P3_ids id)
  | r_P3_group_tab id fl : id_size id -> id_size fl -> reads (pgadget3_group_tab id fl) "NTask" (P3_group_tab fl)
  | r_P3_sub_tab so id fl : id_size id -> id_size fl -> reads (pgadget3_sub_tab so false false id fl) "NTask" (P3_sub_tab so id fl)
  | r_P3_sub_ids id : id_size id -> reads (pgadget3_sub_ids id) "NTask" (P3_ids id).

(** *** Gadget-4: Fortran records; no records for groups or subhalos if there are none *)
Definition G4_header : list field :=
  [one "Ngroups" 4; one "Nsubgroups" 4; one "Nids" 4; one "TotNgroups" 4; one "TotNsubgroups" 4; one "TotNids" 4; one "NFiles" 4; one "padding1" 4;
   one "Time" 8; one "Redshift" 8; one "HubbleParam" 8; one "BoxSize" 8; one "Omega0" 8; one "OmegaLambda" 8; one "flag_dp" 4; one "padding2" 4].
Definition G4_groups (fl : Z) : list field :=
  [col "Ngroups" "GroupLen" 4; col "Ngroups" "GroupMass" fl; vec "Ngroups" 3 "GroupPos" fl; vec "Ngroups" 3 "GroupVel" fl;
   vec "Ngroups" 6 "GroupLenType" 4; vec "Ngroups" 6 "GroupMassType" fl;
   col "Ngroups" "Halo_M_Mean200" fl; col "Ngroups" "Halo_R_Mean200" fl; col "Ngroups" "Halo_M_Crit200" fl; col "Ngroups" "Halo_R_Crit200" fl;
   col "Ngroups" "Halo_M_TopHat200" fl; col "Ngroups" "Halo_R_TopHat200" fl; col "Ngroups" "Nsubs" 4; col "Ngroups" "FirstSub" 4].
Definition G4_subs (id_bytes fl : Z) : list field :=
  [col "Nsubgroups" "SubLen" 4; col "Nsubgroups" "SubMass" fl; vec "Nsubgroups" 3 "SubPos" fl; vec "Nsubgroups" 3 "SubVel" fl;
   vec "Nsubgroups" 6 "SubLenType" 4; vec "Nsubgroups" 6 "SubMassType" fl; vec "Nsubgroups" 3 "SubCofM" fl; vec "Nsubgroups" 3 "SubSpin" fl;
   col "Nsubgroups" "SubVelDisp" fl; col "Nsubgroups" "SubVmax" fl; col "Nsubgroups" "SubRVmax" fl; col "Nsubgroups" "SubHalfMassRad" fl;
   vec "Nsubgroups" 6 "SubHalfMassRadType" fl; col "Nsubgroups" "SubMassInRad" fl; vec "Nsubgroups" 6 "SubMassInRadType" fl;
   col "Nsubgroups" "SubMostBoundID" id_bytes; col "Nsubgroups" "SubGrNr" 4; col "Nsubgroups" "SubParent" 4].
Definition one_each (l : list piece) : list piece := flat_map (fun p => record [p]) l.
Definition G4_sub_tab (id_bytes : Z) (cat : catalogue) : list piece :=
  let fl := if scalar cat "flag_dp" =? 0 then 4 else 8 in
  record (pieces_of cat G4_header) ++
  (if 0 <? scalar cat "Ngroups" then one_each (pieces_of cat (G4_groups fl)) else []) ++
  (if 0 <? scalar cat "Nsubgroups" then one_each (pieces_of cat (G4_subs id_bytes fl)) else []).
(** all records are shorter than 2 GB *)
Definition records_ok (l : list piece) : Prop := Forall piece_ok l /\ Forall (fun p => match p with Mark n => n < 2 ^ 31 | _ => True end) l.

(** *** L-Gadget2 snapshots (Millennium) with a hash table *)
Definition attr_of (cat : catalogue) (fd : field) : piece :=
  Data (list_ascii_of_string (fd_name fd)) true (fd_size fd) (map (extent cat) (fd_dims fd)) (cat (fd_name fd)).
Definition six (name : string) (size : Z) : field := F name size [Fixed 6].
Definition L2_snapshot_header : list field :=
  [six "Header/NumPart_ThisFile" 4; six "Header/MassTable" 8; one "Header/Time" 8; one "Header/Redshift" 8; one "Header/Flag_Sfr" 4; one "Header/Flag_Feedback" 4;
   six "Header/NumPart_Total" 4; one "Header/Flag_Cooling" 4; one "Header/NumFilesPerSnapshot" 4; one "Header/BoxSize" 8; one "Header/Omega0" 8; one "Header/OmegaLambda" 8;
   one "Header/HubbleParam" 8; one "Header/Flag_StellarAge" 4; one "Header/Flag_Metals" 4; one "Header/HashTabSize" 4; F "Header/fill" 1 [Fixed 84]].
Definition plain_data (cat : catalogue) (name : string) (size : Z) (shape : list Z) : piece := Data (list_ascii_of_string name) false size shape (cat name).
Definition L2_snapshot (cat : catalogue) : list piece :=
  let n := nth 1 (cat "Header/NumPart_ThisFile"%string) 0 in
  let first := scalar cat "first_hash_cell" in let last := scalar cat "last_hash_cell" in
  record (map (attr_of cat) L2_snapshot_header) ++
  record [plain_data cat "PartType1/Coordinates" 4 [n; 3]] ++ record [plain_data cat "PartType1/Velocities" 4 [n; 3]] ++ record [plain_data cat "PartType1/ParticleIDs" 8 [n]] ++
  record [plain_data cat "first_hash_cell" 4 []; plain_data cat "last_hash_cell" 4 []] ++
  record [plain_data cat "blockid" 4 [last - first + 1]].
