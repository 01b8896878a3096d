(** Model of formats/swift.py (the table of units made from the metadata of a file, and
    how a file is opened) and of formats/soap.py.

    Simplified: a unit of the table is a real number times powers of cm, g, s, K, rad
    and A. The table of units which unyt starts with is any table. The name of a unit
    which is not in the table is an error ERuntime, which stands for unyt's
    UnitParseError. The units and the cosmology made by swiftsimio are any functions of
    the attributes of the groups handed over. *)
From Coq Require Import QArith Qreals Reals Ascii String.
From Verif Require Import Base.Prelude Swift.SwiftModel.
Local Open Scope Z_scope.
Local Open Scope string_scope.

(** ** groups of a file and their attributes *)
(** an attribute: a number, an array of numbers, or something else (text) *)
Inductive attr := AScalar (x : R) | AArray (l : list R) | AText.
(** float(value): an array must have one element *)
Definition to_float (v : attr) : res R :=
  match v with AScalar x => Ok x | AArray [x] => Ok x | AArray _ => Err EType | AText => Err EValue end.
(** value[0] *)
Definition first (v : attr) : res R :=
  match v with AArray (x :: _) => Ok x | AArray [] => Err EIndex | AScalar _ => Err EIndex | AText => Err EType end.
(** the attributes of each group, by the path of the group from the place of the metadata *)
Definition meta := string -> option (list (string * attr)).

Fixpoint dget {A} (d : list (string * A)) (n : string) : res A :=
  match d with
  | [] => Err EKey
  | (m, x) :: d' => if m =? n then Ok x else dget d' n
  end.
(** snap[name] *)
Definition group (snap : meta) (g : string) : res (list (string * attr)) := get (snap g).
(** dict of name : float(value) for name, value in group.attrs.items() *)
Definition float_attrs (l : list (string * attr)) : res (list (string * R)) :=
  mapM (fun nv => do x <- to_float (snd nv); Ok (fst nv, x)) l.

(** ** the table of units *)
(** powers of cm, g, s, K, rad and A *)
Record dims := { d_cm : Z; d_g : Z; d_s : Z; d_K : Z; d_rad : Z; d_A : Z }.
Definition cm := {| d_cm := 1; d_g := 0; d_s := 0; d_K := 0; d_rad := 0; d_A := 0 |}.
Definition g_ := {| d_cm := 0; d_g := 1; d_s := 0; d_K := 0; d_rad := 0; d_A := 0 |}.
Definition s_ := {| d_cm := 0; d_g := 0; d_s := 1; d_K := 0; d_rad := 0; d_A := 0 |}.
Definition K_ := {| d_cm := 0; d_g := 0; d_s := 0; d_K := 1; d_rad := 0; d_A := 0 |}.
Definition rad := {| d_cm := 0; d_g := 0; d_s := 0; d_K := 0; d_rad := 1; d_A := 0 |}.
Definition amp := {| d_cm := 0; d_g := 0; d_s := 0; d_K := 0; d_rad := 0; d_A := 1 |}.
Definition none := {| d_cm := 0; d_g := 0; d_s := 0; d_K := 0; d_rad := 0; d_A := 0 |}.
(** cm**3/g/s**2 *)
Definition cm3_g_s2 := {| d_cm := 3; d_g := -1; d_s := -2; d_K := 0; d_rad := 0; d_A := 0 |}.

Definition lut := string -> option (R * dims).
(** unyt.define_unit(name, value, registry) *)
Definition define_unit (name : string) (v : R) (d : dims) (reg : lut) : res lut :=
  match reg name with
  | Some _ => Err ERuntime
  | None => Ok (fun n => if name =? n then Some (v, d) else reg n)
  end.
(** unyt.Unit(name, registry) *)
Definition named_unit (reg : lut) (name : string) : res (R * dims) :=
  match reg name with Some u => Ok u | None => Err ERuntime end.

(** the base units of a unit system, by name (lines 58-67) *)
Record usystem := { us_length : string; us_mass : string; us_time : string; us_temperature : string; us_angle : string; us_current : string }.
Definition unit_system (reg : lut) (l m t te an c : string) : res usystem :=
  do _ <- named_unit reg l; do _ <- named_unit reg m; do _ <- named_unit reg t;
  do _ <- named_unit reg te; do _ <- named_unit reg an; do _ <- named_unit reg c;
  Ok {| us_length := l; us_mass := m; us_time := t; us_temperature := te; us_angle := an; us_current := c |}.

Record registry := { r_lut : lut; r_system : usystem }.

(** lines 44-51: one pass of the loop *)
Definition define_group (snap : meta) (reg : lut) (group_name prefix : string) : res lut :=
  match snap group_name with
  | None => Ok reg
  | Some at_ =>
      do units_cgs <- float_attrs at_;
      do x <- dget units_cgs "Unit length in cgs (U_L)"; do reg <- define_unit (prefix ++ "_length") x cm reg;
      do x <- dget units_cgs "Unit mass in cgs (U_M)"; do reg <- define_unit (prefix ++ "_mass") x g_ reg;
      do x <- dget units_cgs "Unit time in cgs (U_t)"; do reg <- define_unit (prefix ++ "_time") x s_ reg;
      do x <- dget units_cgs "Unit temperature in cgs (U_T)"; do reg <- define_unit (prefix ++ "_temperature") x K_ reg;
      do reg <- define_unit (prefix ++ "_angle") 1%R rad reg;
      do x <- dget units_cgs "Unit current in cgs (U_I)"; define_unit (prefix ++ "_current") x amp reg
  end.

(** lines 28-77, soap_unit_registry_from_snapshot *)
Definition soap_unit_registry_from_snapshot (std : lut) (snap : meta) : res registry :=
  do at_ <- group snap "PhysicalConstants/CGS"; do physical_constants_cgs <- float_attrs at_;
  do at_ <- group snap "Cosmology"; do cosmology <- float_attrs at_;
  do a <- dget cosmology "Scale-factor";
  do h <- dget cosmology "h";
  do reg <- define_group snap std "Units" "snap";
  do reg <- define_group snap reg "InternalCodeUnits" "code";
  do reg <- define_unit "a" a none reg;
  do reg <- define_unit "h" h none reg;
  do us <- unit_system reg "snap_length" "snap_mass" "snap_time" "snap_temperature" "snap_angle" "snap_current";
  do x <- dget physical_constants_cgs "parsec"; do reg <- define_unit "swift_mpc" (1000000 * x)%R cm reg;
  do x <- dget physical_constants_cgs "solar_mass"; do reg <- define_unit "swift_msun" x g_ reg;
  do x <- dget physical_constants_cgs "newton_G"; do reg <- define_unit "newton_G" x cm3_g_s2 reg;
  Ok {| r_lut := reg; r_system := us |}.

(** the values in CGS of registry.unit_system.base_units and of a and h, as used by
    soap_units_from_attributes (lines 92-98, 113 and 122) *)
Definition value_of (reg : registry) (n : string) : R := match r_lut reg n with Some (x, _) => x | None => 0%R end.
Definition registry_cgs (reg : registry) (s : sym) : R :=
  value_of reg (match s with
                | SI => us_current (r_system reg) | SL => us_length (r_system reg) | SM => us_mass (r_system reg)
                | ST => us_temperature (r_system reg) | St => us_time (r_system reg) | Sa => "a" | Sh => "h"
                end).

(** ** opening a file *)
Section Open.
  Context {Data Units Cosmo : Type}.
  (** unyt's own table of units, swiftsimio.reader.SWIFTUnits of a file with the groups
      Cosmology, PhysicalConstants (that is, PhysicalConstants/CGS) and Units, and
      swiftsimio.conversions.swift_cosmology_to_astropy *)
  Variable std : lut.
  Variable SWIFTUnits : list (string * attr) -> list (string * attr) -> list (string * attr) -> res Units.
  Variable to_astropy : list (string * attr) -> Units -> res Cosmo.

  (** a file: what is found under each name, and the groups of the metadata under a path *)
  Record h5file := { f_items : string -> res (@hobj string Data); f_meta : string -> res meta }.
  (** h5py.File( * args, ** kwargs) *)
  Variable h5py_File : list string -> list (string * string) -> res h5file.

  Record attached := { at_soap : registry; at_simio : Units; at_cosmology : Cosmo; at_a : R }.

  (** lines 144-158, swiftsimio_units *)
  Definition swiftsimio_units (snap : meta) : res Units :=
    do c <- group snap "Cosmology";
    do p <- group snap "PhysicalConstants/CGS";
    do u <- group snap "Units";
    SWIFTUnits c p u.
  (** lines 161-175, swiftsimio_cosmology *)
  Definition swiftsimio_cosmology (snap : meta) : res Cosmo :=
    do units <- swiftsimio_units snap;
    do c <- group snap "Cosmology";
    to_astropy c units.

  (** self.mode == "soap" and self.mode == "swiftsimio", lines 275 and 278 *)
  Definition mode_of (m : string) : mode := if m =? "soap" then Soap else if m =? "swiftsimio" then Swiftsimio else OtherMode.

  (** lines 331-346, SwiftFile.__init__ *)
  Definition swift_file (mode metadata_path : string) (args : list string) (kwargs : list (string * string)) : res (@wobj string Data attached) :=
    do obj <- h5py_File args kwargs;
    do snap <- f_meta obj metadata_path; do reg <- soap_unit_registry_from_snapshot std snap;
    do snap <- f_meta obj metadata_path; do units <- swiftsimio_units snap;
    do snap <- f_meta obj metadata_path; do cosmo <- swiftsimio_cosmology snap;
    do snap <- f_meta obj metadata_path; do c <- group snap "Cosmology"; do v <- dget c "Scale-factor"; do a <- first v;
    Ok (WGroup (f_items obj) (mode_of mode) {| at_soap := reg; at_simio := units; at_cosmology := cosmo; at_a := a |}).

  (** python's binding of the keywords: mode is taken out, and metadata_path among the
      others is given twice *)
  Definition keyword (kwargs : list (string * string)) (n default : string) : string := match dget kwargs n with Ok v => v | Err _ => default end.
  Definition others (kwargs : list (string * string)) (n : string) : list (string * string) := filter (fun kv => negb (fst kv =? n)) kwargs.
  Definition has (kwargs : list (string * string)) (n : string) : bool := existsb (fun kv => fst kv =? n) kwargs.

  (** lines 354-356, SwiftSnapshot.__init__ *)
  Definition swift_snapshot (args : list string) (kwargs : list (string * string)) : res (@wobj string Data attached) :=
    let mode := keyword kwargs "mode" "soap" in
    let kwargs := others kwargs "mode" in
    let metadata_path := "/" in
    if has kwargs "metadata_path" then Err EType else swift_file mode metadata_path args kwargs.
  (** formats/soap.py lines 12-14, SOAPCatalogue.__init__ *)
  Definition soap_catalogue (args : list string) (kwargs : list (string * string)) : res (@wobj string Data attached) :=
    let mode := keyword kwargs "mode" "soap" in
    let kwargs := others kwargs "mode" in
    let metadata_path := "/" in
    if has kwargs "metadata_path" then Err EType else swift_file mode metadata_path args kwargs.

  (** SwiftGroup.get_unit, lines 317-321 *)
  Definition get_unit (w : @wobj string Data attached) (n : string) : res (R * dims) :=
    match w with WGroup _ _ r => named_unit (r_lut (at_soap r)) n | _ => Err EType end.

  (** file[key1][key2]...[...], by the items of the groups and SwiftDataset.__getitem__ *)
  Definition read (simio_cgs : Units -> sym -> R) (w : @wobj string Data attached) (ks : list string) : res (Data * unit_t * option (bool * Q)) :=
    do o <- walk w ks;
    match o with
    | WDataset a d m r => dataset_getitem (fun r => registry_cgs (at_soap r)) (fun r => simio_cgs (at_simio r)) a d m r
    | _ => Err EType
    end.
End Open.
