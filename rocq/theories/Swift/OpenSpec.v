(** What the table of units and a file opened should be. *)
From Coq Require Import QArith Qreals Reals Ascii String.
From Verif Require Import Base.Prelude Swift.SwiftModel Swift.SwiftSpec Swift.OpenModel.
Local Open Scope Z_scope.
Local Open Scope string_scope.

(** the attribute is one number *)
Definition is_number (v : attr) (x : R) : Prop := v = AScalar x \/ v = AArray [x].
(** attribute [n] of group [g] is the number [x] *)
Definition says (f : meta) (g n : string) (x : R) : Prop := exists l v, f g = Some l /\ In (n, v) l /\ is_number v x.
(** names of attributes of a group are different *)
Definition wf_meta (f : meta) : Prop := forall g l, f g = Some l -> NoDup (map fst l).
(** every attribute of group [g] is one number *)
Definition all_numbers (f : meta) (g : string) : Prop := forall l n v, f g = Some l -> In (n, v) l -> exists x, is_number v x.

(** the units of the table: name, value and dimensions *)
Inductive unit_of (f : meta) : string -> R -> dims -> Prop :=
| uo_length x : says f "Units" "Unit length in cgs (U_L)" x -> unit_of f "snap_length" x cm
| uo_mass x : says f "Units" "Unit mass in cgs (U_M)" x -> unit_of f "snap_mass" x g_
| uo_time x : says f "Units" "Unit time in cgs (U_t)" x -> unit_of f "snap_time" x s_
| uo_temperature x : says f "Units" "Unit temperature in cgs (U_T)" x -> unit_of f "snap_temperature" x K_
| uo_angle : f "Units" <> None -> unit_of f "snap_angle" 1 rad
| uo_current x : says f "Units" "Unit current in cgs (U_I)" x -> unit_of f "snap_current" x amp
| uo_clength x : says f "InternalCodeUnits" "Unit length in cgs (U_L)" x -> unit_of f "code_length" x cm
| uo_cmass x : says f "InternalCodeUnits" "Unit mass in cgs (U_M)" x -> unit_of f "code_mass" x g_
| uo_ctime x : says f "InternalCodeUnits" "Unit time in cgs (U_t)" x -> unit_of f "code_time" x s_
| uo_ctemperature x : says f "InternalCodeUnits" "Unit temperature in cgs (U_T)" x -> unit_of f "code_temperature" x K_
| uo_cangle : f "InternalCodeUnits" <> None -> unit_of f "code_angle" 1 rad
| uo_ccurrent x : says f "InternalCodeUnits" "Unit current in cgs (U_I)" x -> unit_of f "code_current" x amp
| uo_a x : says f "Cosmology" "Scale-factor" x -> unit_of f "a" x none
| uo_h x : says f "Cosmology" "h" x -> unit_of f "h" x none
| uo_mpc x : says f "PhysicalConstants/CGS" "parsec" x -> unit_of f "swift_mpc" (1000000 * x) cm
| uo_msun x : says f "PhysicalConstants/CGS" "solar_mass" x -> unit_of f "swift_msun" x g_
| uo_G x : says f "PhysicalConstants/CGS" "newton_G" x -> unit_of f "newton_G" x cm3_g_s2.

(** the names which are defined, none of which unyt has already *)
Definition new_names : list string :=
  ["snap_length"; "snap_mass"; "snap_time"; "snap_temperature"; "snap_angle"; "snap_current";
   "code_length"; "code_mass"; "code_time"; "code_temperature"; "code_angle"; "code_current";
   "a"; "h"; "swift_mpc"; "swift_msun"; "newton_G"].
Definition fresh (std : lut) : Prop := forall n, In n new_names -> std n = None.

(** the attributes that must be there *)
Definition unit_attrs : list string :=
  ["Unit length in cgs (U_L)"; "Unit mass in cgs (U_M)"; "Unit time in cgs (U_t)"; "Unit temperature in cgs (U_T)"; "Unit current in cgs (U_I)"].
Definition complete (f : meta) : Prop :=
  (forall n, In n unit_attrs -> exists x, says f "Units" n x) /\
  (f "InternalCodeUnits" <> None -> forall n, In n unit_attrs -> exists x, says f "InternalCodeUnits" n x) /\
  (forall n, In n ["Scale-factor"; "h"] -> exists x, says f "Cosmology" n x) /\
  (forall n, In n ["parsec"; "solar_mass"; "newton_G"] -> exists x, says f "PhysicalConstants/CGS" n x).
Definition metadata_groups : list string := ["PhysicalConstants/CGS"; "Cosmology"; "Units"; "InternalCodeUnits"].
Definition numeric (f : meta) : Prop := forall g, In g metadata_groups -> all_numbers f g.

(** the values of the symbols according to the file *)
Definition declared (f : meta) (c : sym -> R) : Prop :=
  says f "Units" "Unit current in cgs (U_I)" (c SI) /\ says f "Units" "Unit length in cgs (U_L)" (c SL) /\
  says f "Units" "Unit mass in cgs (U_M)" (c SM) /\ says f "Units" "Unit temperature in cgs (U_T)" (c ST) /\
  says f "Units" "Unit time in cgs (U_t)" (c St) /\ says f "Cosmology" "Scale-factor" (c Sa) /\ says f "Cosmology" "h" (c Sh).

(** the product of the powers which the attributes of a dataset declare *)
Definition product (c : sym -> R) (e : sym -> Q) : R :=
  (Rpower (c SI) (Q2R (e SI)) * Rpower (c SL) (Q2R (e SL)) * Rpower (c SM) (Q2R (e SM)) * Rpower (c ST) (Q2R (e ST))
   * Rpower (c St) (Q2R (e St)) * Rpower (c Sa) (Q2R (e Sa)) * Rpower (c Sh) (Q2R (e Sh)))%R.
