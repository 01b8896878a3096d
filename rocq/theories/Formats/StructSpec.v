(** Files with arrays of structures. Specification, independent of how they are read. *)
From Coq Require Import Ascii String.
From Verif.Base Require Import Prelude.
From Verif.Text Require StrModel.
From Verif.Formats Require Import StructModel FileSpec CatSpec.
Local Open Scope Z_scope.

Definition byte (b : Z) : Prop := 0 <= b < 256.

(** *** the layout of a structure in memory *)
(** [off] is the first multiple of [al] that is not below [from] *)
Definition first_multiple (al from off : Z) : Prop := from <= off /\ (al | off) /\ forall o, from <= o -> (al | o) -> off <= o.
(** in C each member is put at the first multiple of its alignment (that of its numbers,
    which is their size) after the member before it *)
Inductive c_struct : Z -> list member -> list Z -> Z -> Prop :=
  | cs_nil from : c_struct from [] [] from
  | cs_cons from m l off offs e : first_multiple (m_size m) from off -> c_struct (off + m_size m * m_count m) l offs e -> c_struct from (m :: l) (off :: offs) e.
(** and the size is a multiple of all alignments *)
Definition c_layout (l : list member) (offs : list Z) (size : Z) : Prop :=
  exists e, c_struct 0 l offs e /\ first_multiple (fold_right Z.max 1 (map m_size l)) e size.
(** members one after another without gaps *)
Inductive packed : Z -> list member -> list Z -> Z -> Prop :=
  | pk_nil from : packed from [] [] from
  | pk_cons from m l offs e : packed (from + m_size m * m_count m) l offs e -> packed from (m :: l) (from :: offs) e.
Definition packed_layout (l : list member) (offs : list Z) (size : Z) : Prop := packed 0 l offs size.

(** the numbers under each name in one structure *)
Definition structure := string -> list Z.
(** bytes which hold a structure; those between members are arbitrary *)
Definition image (little_file : bool) (l : list member) (offs : list Z) (size : Z) (s : structure) (bytes : list Z) : Prop :=
  zlen bytes = size /\ Forall byte bytes /\
  Forall2 (fun m off => zlen (s (m_name m)) = m_count m /\ Forall (fun v => 0 <= v < 256 ^ m_size m) (s (m_name m)) /\
    zslice bytes off (off + m_size m * m_count m) = concat (map (number_bytes little_file (m_size m)) (s (m_name m)))) l offs.

(** an item as one number, made up by its bytes *)
Fixpoint base256 (bytes : list Z) : Z := match bytes with [] => 0 | b :: t => b + 256 * base256 t end.
Definition as_number (little_file : bool) (bytes : list Z) : Z := base256 (if little_file then bytes else rev bytes).

Definition decl (size : Z) (names : list string) : list member := map (fun n => M n size 1) names.
(** *** Rockstar: 256 bytes of header, the halos (struct halo of halo.h), the particle ids *)
Definition rockstar_header : list field :=
  [one "Header/magic" 8; one "Header/snap" 8; one "Header/chunk" 8; one "Header/scale" 4; one "Header/om" 4; one "Header/ol" 4; one "Header/h0" 4; six "Header/bounds" 4;
   one "Header/num_halos" 8; one "Header/num_particles" 8; one "Header/box_size" 4; one "Header/particle_mass" 4; one "Header/particle_type" 8; one "Header/format_revision" 4;
   one "Header/rockstar_version" 12; one "Header/unused" 144].
Definition rockstar_halo (revision : Z) (galaxies : bool) : list member :=
  decl 8 ["id"]%string ++ [M "pos" 4 6; M "corevel" 4 3; M "bulkvel" 4 3] ++
  decl 4 ["m"; "r"; "child_r"; "vmax_r"; "mgrav"; "vmax"; "rvmax"; "rs"; "klypin_rs"; "vrms"]%string ++ [M "J" 4 3] ++ decl 4 ["energy"; "spin"]%string ++ [M "alt_m" 4 4] ++
  decl 4 ["Xoff"; "Voff"; "b_to_a"; "c_to_a"]%string ++ [M "A" 4 3] ++ decl 4 ["b_to_a2"; "c_to_a2"]%string ++ [M "A2" 4 3] ++
  decl 4 ["bullock_spin"; "kin_to_pot"; "m_pe_b"; "m_pe_d"]%string ++ (if 1 <? revision then decl 4 ["halfmass_radius"]%string else []) ++
  decl 8 ["num_p"; "num_child_particles"; "p_start"; "desc"; "flags"; "n_core"]%string ++ decl 4 ["min_pos_err"; "min_vel_err"; "min_bulkvel_err"]%string ++
  (if galaxies then decl 4 ["type"; "sm"; "gas"; "bh"; "peak_density"; "av_density"]%string else []).
Definition revision_of (cat : catalogue) : Z := let v := scalar cat "Header/format_revision" in if v <? 2 ^ 31 then v else v - 2 ^ 32.
Definition rockstar_pieces (little_file : bool) (cat : catalogue) (size : Z) (images : list (list Z)) (ids : list Z) : list piece :=
  map (attr_of cat) rockstar_header ++
  [Data (list_ascii_of_string "Halo") false size [zlen images] (map (as_number little_file) images); Data (list_ascii_of_string "IDs") false 8 [zlen ids] ids].
(** the whole file, [rest] being anything after that *)
Definition rockstar_file (little : bool) (cat : catalogue) (images : list (list Z)) (ids rest : list Z) : list Z :=
  file_bytes little (map (attr_of cat) rockstar_header) ++ concat images ++ concat (map (number_bytes little 8) ids) ++ rest.
(** 64 bit signed integers *)
Definition int64 (v : Z) : Z := if v <? 2 ^ 63 then v else v - 2 ^ 64.
Definition first_particle (s : structure) : Z := int64 (nth 0 (s "p_start"%string) 0).
Definition number_of_particles (s : structure) : Z := int64 (nth 0 (s "num_p"%string) 0).

(** *** VELOCIraptor: a header with the names of the properties, then the properties of each object *)
Definition velociraptor_header : list field :=
  [one "Header/ThisTask" 4; one "Header/NProcs" 4; one "Header/ng" 8; one "Header/ngtot" 8; one "Header/hsize" 8].
(** names of 40 characters, "Header/entry000" and so on *)
Definition entry (i : Z) (v : Z) : piece := Data (list_ascii_of_string "Header/entry" ++ StrModel.fmt_0d 3 i)%list true 40 [] [v].
Definition velociraptor_object (keep_fof : bool) : list member :=
  decl 8 ["haloid"; "ibound"; "hostid"; "numsubs"; "num"]%string ++ decl 4 ["stype"]%string ++ (if keep_fof then decl 8 ["directhostid"; "hostfofid"]%string else []) ++
  decl 8 ["gMvir"]%string ++ [M "gcm" 8 3; M "gpos" 8 3; M "gcmvel" 8 3; M "gvel" 8 3] ++
  decl 8 ["gmass"; "gMFOF"; "gM200m"; "gM200c"; "gMvir_again"; "Efrac"; "gRvir"; "gsize"; "gR200m"; "gR200c"; "gRvir_again"; "gRhalfmass"; "gRmaxvel"; "gmaxvel"; "gsigma_v"]%string ++
  [M "gveldisp" 8 9] ++ decl 8 ["glambda_B"]%string ++ [M "gJ" 8 3] ++ decl 8 ["gq"; "gs"]%string ++ [M "geigvec" 8 9] ++ decl 8 ["cNFW"; "Krot"; "T"; "Pot"; "RV_sigma_v"]%string ++
  [M "RV_veldisp" 8 9] ++ decl 8 ["RV_lambda_B"]%string ++ [M "RV_J" 8 3] ++ decl 8 ["RV_q"; "RV_s"]%string ++ [M "RV_eigvec" 8 9].
Definition velociraptor_pieces (little_file : bool) (cat : catalogue) (entries : list Z) (size : Z) (images : list (list Z)) : list piece :=
  map (attr_of cat) velociraptor_header ++ zipwith entry (zseq 0 (List.length entries)) entries ++
  [Data (list_ascii_of_string "Halo") false size [zlen images] (map (as_number little_file) images)].
Definition velociraptor_file (little : bool) (cat : catalogue) (texts images : list (list Z)) (rest : list Z) : list Z :=
  file_bytes little (map (attr_of cat) velociraptor_header) ++ concat texts ++ concat images ++ rest.

(** *** merger trees (struct halo_data of B-HaloTrees) *)
Definition tree_halo (id_bytes : Z) (mass_tab : bool) : list member :=
  decl 4 ["Descendant"; "FirstProgenitor"; "NextProgenitor"; "FirstHaloInFOFgroup"; "NextHaloInFOFgroup"; "Len"; "M_Mean200"; "M_Crit200"; "M_TopHat"]%string ++
  [M "Pos" 4 3; M "Vel" 4 3] ++ decl 4 ["VelDisp"; "VMax"]%string ++ [M "Spin" 4 3] ++ decl id_bytes ["MostBoundID"]%string ++
  decl 4 ["SnapNum"; "FileNr"; "SubhaloIndex"; "SubhalohalfMass"]%string ++ (if mass_tab then [M "SubMassTab" 4 6] else []).
Definition tree_pieces (little_file : bool) (n_per_tree : list Z) (size : Z) (images : list (list Z)) : list piece :=
  [Data (list_ascii_of_string "Ntrees") false 4 [] [zlen n_per_tree]; Data (list_ascii_of_string "Nhalos") false 4 [] [zlen images];
   Data (list_ascii_of_string "NPerTree") false 4 [zlen n_per_tree] n_per_tree; Data (list_ascii_of_string "HaloList") false size [zlen images] (map (as_number little_file) images)].
Definition tree_file (little : bool) (n_per_tree : list Z) (images : list (list Z)) (rest : list Z) : list Z :=
  number_bytes little 4 (zlen n_per_tree) ++ number_bytes little 4 (zlen images) ++ concat (map (number_bytes little 4) n_per_tree) ++ concat images ++ rest.

(** *** Millennium-XXL *)
Definition MXXL_sub_desc : list field := [one "Nsubgroups" 4; col "Nsubgroups" "SubMostBoundID" 8; col "Nsubgroups" "Desc_FileNr" 4; col "Nsubgroups" "Desc_SubIndex" 4].
Definition MXXL_field_header : list field := [one "NTask" 4; one "BoxSize" 8; one "nn" 4; one "isw_slabs_per_task" 4].
Definition MXXL_field (cat : catalogue) : list piece :=
  record (pieces_of cat MXXL_field_header) ++ record [data_of cat (F "grid" 4 [Of "isw_slabs_per_task"; Of "nn"; Of "nn"])].
