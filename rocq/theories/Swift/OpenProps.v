(** C108: SWIFT snapshots and SOAP catalogues opened by SwiftSnapshot and SOAPCatalogue. *)
From Coq Require Import QArith Qreals Reals Ascii String.
From Verif Require Import Base.Prelude Swift.SwiftModel Swift.SwiftSpec Swift.OpenModel Swift.OpenSpec Swift.OpenFinal.
Local Open Scope Z_scope.
Local Open Scope string_scope.

(** the table of units made from a file has the units declared by the file, with the
    values it gives, those of unyt, and no others *)
Theorem C108_table : forall std f r, wf_meta f -> fresh std -> soap_unit_registry_from_snapshot std f = Ok r ->
  forall n v d, r_lut r n = Some (v, d) <-> unit_of f n v d \/ std n = Some (v, d).
Proof. exact registry_units. Qed.
Print Assumptions C108_table.

(** there is one exactly if every attribute of the four groups is one number and none of
    those used is absent *)
Theorem C108_table_defined : forall std f, wf_meta f -> fresh std ->
  ((exists r, soap_unit_registry_from_snapshot std f = Ok r) <-> numeric f /\ complete f).
Proof. exact registry_iff. Qed.
Print Assumptions C108_table_defined.

(** the attributes used are not enough: three masses of neutrinos, which nothing needs *)
Theorem C108_array_refuted : ~ (forall std f, fresh std -> wf_meta f -> complete f -> exists r, soap_unit_registry_from_snapshot std f = Ok r).
Proof. exact array_refuted. Qed.
Print Assumptions C108_array_refuted.

(** files with all the metadata can be opened as a snapshot and as a catalogue, with the
    arguments handed to h5py.File *)
Theorem C108_open : forall Data Units Cosmo std SWIFTUnits to_astropy h5py_File args kw obj snap c p u (units : Units) (cosmo : Cosmo) a,
  ~ In "mode" (map fst kw) -> ~ In "metadata_path" (map fst kw) ->
  h5py_File args kw = Ok obj -> f_meta obj "/" = Ok snap -> wf_meta snap -> fresh std -> numeric snap -> complete snap ->
  snap "Cosmology" = Some c -> snap "PhysicalConstants/CGS" = Some p -> snap "Units" = Some u ->
  SWIFTUnits c p u = Ok units -> to_astropy c units = Ok cosmo -> In ("Scale-factor", AArray [a]) c ->
  exists w, @swift_snapshot Data Units Cosmo std SWIFTUnits to_astropy h5py_File args kw = Ok w /\
            @soap_catalogue Data Units Cosmo std SWIFTUnits to_astropy h5py_File args kw = Ok w.
Proof. exact @snapshot_defined. Qed.
Print Assumptions C108_open.

(** and no others; the expansion factor must be an array *)
Theorem C108_open_only : forall Data Units Cosmo std SWIFTUnits to_astropy h5py_File args kw w obj snap,
  ~ In "mode" (map fst kw) -> ~ In "metadata_path" (map fst kw) ->
  @swift_snapshot Data Units Cosmo std SWIFTUnits to_astropy h5py_File args kw = Ok w \/
  @soap_catalogue Data Units Cosmo std SWIFTUnits to_astropy h5py_File args kw = Ok w ->
  h5py_File args kw = Ok obj -> f_meta obj "/" = Ok snap -> wf_meta snap -> fresh std ->
  numeric snap /\ complete snap /\ exists c a l, snap "Cosmology" = Some c /\ In ("Scale-factor", AArray (a :: l)) c.
Proof. exact @snapshot_needs. Qed.
Print Assumptions C108_open_only.

Theorem C108_open_missing : forall Data Units Cosmo std SWIFTUnits to_astropy h5py_File args kw obj snap,
  ~ In "mode" (map fst kw) -> ~ In "metadata_path" (map fst kw) ->
  h5py_File args kw = Ok obj -> f_meta obj "/" = Ok snap -> wf_meta snap -> fresh std ->
  numeric snap -> snap "Units" <> None -> ~ complete snap ->
  @swift_snapshot Data Units Cosmo std SWIFTUnits to_astropy h5py_File args kw = Err EKey /\
  @soap_catalogue Data Units Cosmo std SWIFTUnits to_astropy h5py_File args kw = Err EKey.
Proof. exact @snapshot_missing. Qed.
Print Assumptions C108_open_missing.

(** a dataset anywhere in the file is read with the declared powers of the units which
    the file declares, and its unit has the declared value in physical CGS; if that value
    is the product of the powers there is no further factor *)
Theorem C108_read : forall Data Units Cosmo std SWIFTUnits to_astropy (simio_cgs : Units -> sym -> R) h5py_File args kw w obj snap ks a (d : Data) e x,
  ~ In "mode" (map fst kw) -> ~ In "metadata_path" (map fst kw) ->
  @swift_snapshot Data Units Cosmo std SWIFTUnits to_astropy h5py_File args kw = Ok w \/
  @soap_catalogue Data Units Cosmo std SWIFTUnits to_astropy h5py_File args kw = Ok w ->
  h5py_File args kw = Ok obj -> f_meta obj "/" = Ok snap -> wf_meta snap -> fresh std ->
  hwalk (HGroup (f_items obj)) ks = Ok (HDataset a d) -> (forall s, declares a s (e s)) -> physical_cgs a x ->
  exists c u, declared snap c /\ read simio_cgs w ks = Ok (d, u, None) /\ (forall s, expo u s == e s)%Q /\
    (value c u = x \/ (scale u = 1%R /\ agrees (value c u) x)) /\
    (x = product c e -> scale u = 1%R /\ value c u = x).
Proof. exact @snapshot_read. Qed.
Print Assumptions C108_read.

(** mode="swiftsimio": the units are those which swiftsimio makes from the three groups *)
Theorem C108_swiftsimio : forall Data Units Cosmo std SWIFTUnits to_astropy (simio_cgs : Units -> sym -> R) h5py_File args kw w obj snap ks a (d : Data) out,
  ~ In "mode" (map fst kw) -> ~ In "metadata_path" (map fst kw) ->
  @swift_snapshot Data Units Cosmo std SWIFTUnits to_astropy h5py_File args (("mode", "swiftsimio") :: kw) = Ok w \/
  @soap_catalogue Data Units Cosmo std SWIFTUnits to_astropy h5py_File args (("mode", "swiftsimio") :: kw) = Ok w ->
  h5py_File args kw = Ok obj -> f_meta obj "/" = Ok snap ->
  hwalk (HGroup (f_items obj)) ks = Ok (HDataset a d) -> read simio_cgs w ks = Ok out ->
  exists c p u units un com ea, snap "Cosmology" = Some c /\ snap "PhysicalConstants/CGS" = Some p /\ snap "Units" = Some u /\ SWIFTUnits c p u = Ok units /\
    out = (d, un, Some (com, ea)) /\ swiftsimio_units_from_attributes (simio_cgs units) a = Ok (un, com) /\ declares a Sa ea.
Proof. exact @snapshot_simio. Qed.
Print Assumptions C108_swiftsimio.

(** the keyword mode never reaches h5py.File: whether the file can be opened does not
    depend on it, and with mode="r" or "r+" nothing can be read *)
Theorem C108_mode_taken : forall Data Units Cosmo std SWIFTUnits to_astropy h5py_File args m m' kw,
  ~ In "mode" (map fst kw) -> ~ In "metadata_path" (map fst kw) ->
  (exists w, @swift_snapshot Data Units Cosmo std SWIFTUnits to_astropy h5py_File args (("mode", m) :: kw) = Ok w) <->
  (exists w, @swift_snapshot Data Units Cosmo std SWIFTUnits to_astropy h5py_File args (("mode", m') :: kw) = Ok w).
Proof. exact @snapshot_mode_taken. Qed.
Print Assumptions C108_mode_taken.

Theorem C108_mode_other : forall Data Units Cosmo std SWIFTUnits to_astropy (simio_cgs : Units -> sym -> R) h5py_File args m kw w obj ks a (d : Data),
  ~ In "mode" (map fst kw) -> ~ In "metadata_path" (map fst kw) -> m <> "soap" -> m <> "swiftsimio" ->
  @swift_snapshot Data Units Cosmo std SWIFTUnits to_astropy h5py_File args (("mode", m) :: kw) = Ok w \/
  @soap_catalogue Data Units Cosmo std SWIFTUnits to_astropy h5py_File args (("mode", m) :: kw) = Ok w ->
  h5py_File args kw = Ok obj -> hwalk (HGroup (f_items obj)) ks = Ok (HDataset a d) -> read simio_cgs w ks = Err EValue.
Proof. exact @snapshot_other. Qed.
Print Assumptions C108_mode_other.

Theorem C108_metadata_path : forall Data Units Cosmo std SWIFTUnits to_astropy h5py_File args kw, In "metadata_path" (map fst kw) ->
  @swift_snapshot Data Units Cosmo std SWIFTUnits to_astropy h5py_File args kw = Err EType /\
  @soap_catalogue Data Units Cosmo std SWIFTUnits to_astropy h5py_File args kw = Err EType.
Proof. exact @open_twice. Qed.
Print Assumptions C108_metadata_path.

(** get_unit of the file or any group in it *)
Theorem C108_get_unit : forall Data Units Cosmo std SWIFTUnits to_astropy h5py_File args kw w obj snap ks g w',
  ~ In "mode" (map fst kw) -> ~ In "metadata_path" (map fst kw) ->
  @swift_snapshot Data Units Cosmo std SWIFTUnits to_astropy h5py_File args kw = Ok w \/
  @soap_catalogue Data Units Cosmo std SWIFTUnits to_astropy h5py_File args kw = Ok w ->
  h5py_File args kw = Ok obj -> f_meta obj "/" = Ok snap -> wf_meta snap -> fresh std ->
  hwalk (HGroup (f_items obj)) ks = Ok (HGroup g) -> walk w ks = Ok w' ->
  forall n v d, get_unit w' n = Ok (v, d) <-> unit_of snap n v d \/ std n = Some (v, d).
Proof. exact @snapshot_unit. Qed.
Print Assumptions C108_get_unit.

(** the expansion factor and the cosmology attached to the file and everything in it *)
Theorem C108_attached : forall Data Units Cosmo std SWIFTUnits to_astropy h5py_File args m kw w obj snap ks o r,
  ~ In "mode" (map fst kw) -> ~ In "metadata_path" (map fst kw) ->
  @swift_snapshot Data Units Cosmo std SWIFTUnits to_astropy h5py_File args (("mode", m) :: kw) = Ok w \/
  @soap_catalogue Data Units Cosmo std SWIFTUnits to_astropy h5py_File args (("mode", m) :: kw) = Ok w ->
  h5py_File args kw = Ok obj -> f_meta obj "/" = Ok snap -> wf_meta snap ->
  walk w ks = Ok o -> (exists a d m', o = WDataset a d m' r) \/ (exists g m', o = WGroup g m' r) ->
  exists c p u a l, snap "Cosmology" = Some c /\ snap "PhysicalConstants/CGS" = Some p /\ snap "Units" = Some u /\ In ("Scale-factor", AArray (a :: l)) c /\
    at_a r = a /\ SWIFTUnits c p u = Ok (at_simio r) /\ to_astropy c (at_simio r) = Ok (at_cosmology r).
Proof. exact @snapshot_attached. Qed.
Print Assumptions C108_attached.

(** a file with units of 3 cm, 2 g and 5 s; with the masses of neutrinos *)
Example ex_file : wf_meta (ex_meta []) /\ fresh no_units /\ numeric (ex_meta []) /\ complete (ex_meta []).
Proof. exact (conj (ex_wf [] (or_introl eq_refl)) (conj ex_fresh (conj ex_numeric (ex_complete [] (or_introl eq_refl))))). Qed.
Example ex_neutrinos : soap_unit_registry_from_snapshot no_units (ex_meta neutrinos) = Err EType.
Proof. reflexivity. Qed.
Example ex_open : exists w, swift_snapshot no_units (fun c p u => Ok (List.length u)) (fun c u => Ok tt) (fun args kw => match args with ["snap.hdf5"] => Ok ex_obj | _ => Err EIO end) ["snap.hdf5"] [] = Ok w.
Proof. eexists. reflexivity. Qed.
Example ex_open_r : exists w, swift_snapshot no_units (fun c p u => Ok (List.length u)) (fun c u => Ok tt) (fun args kw => match args, kw with ["snap.hdf5"], [] => Ok ex_obj | _, _ => Err EIO end) ["snap.hdf5"] [("mode", "r")] = Ok w
  /\ read (fun _ _ => 1%R) w ["PartType1"; "Coordinates"] = Err EValue.
Proof. eexists. split; reflexivity. Qed.
