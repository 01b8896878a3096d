(** Gadget binary snapshots ("type 1"). Specification, independent of how files are read. *)
From Coq Require Import Ascii String.
From Verif.Base Require Import Prelude.
From Verif.Binary Require Import BinModel.
From Verif.Formats Require Import ReaderModel FileSpec CatSpec.
Local Open Scope Z_scope.

Definition G_header : list field :=
  [six "Header/NumPart_ThisFile" 4; six "Header/MassTable" 8; one "Header/Time" 8; one "Header/Redshift" 8; one "Header/Flag_Sfr" 4; one "Header/Flag_Feedback" 4;
   six "Header/NumPart_Total" 4; one "Header/Flag_Cooling" 4; one "Header/NumFilesPerSnapshot" 4; one "Header/BoxSize" 8; one "Header/Omega0" 8; one "Header/OmegaLambda" 8;
   one "Header/HubbleParam" 8; one "Header/Flag_StellarAge" 4; one "Header/Flag_Metals" 4; six "Header/NumPart_Total_HighWord" 4].
(** 256 bytes, of which the last 64 are not used *)
Definition header_pieces (cat : catalogue) (fill : list Z) : list piece := Mark 256 :: map (attr_of cat) G_header ++ [Raw fill; Mark 256].

(** a quantity which some types of particles have: its name, the shape of the value for one
    particle, the types *)
Record quantity := { q_name : str; q_shape : list Z; q_types : list bool }.
Section Blocks.
  Variable npart : list Z. (* number of particles of the six types *)
  Variable size : str -> Z. (* bytes per number *)
  Variable vals : str -> nat -> list Z. (* the numbers for each type *)
  Definition has_type (q : quantity) (i : nat) : bool := nth i (q_types q) false.
  Definition number (q : quantity) : Z := sumZ (map (fun i => if has_type q i then nth i npart 0 else 0) (seq 0 6)).
  Definition group_name (i : nat) : string := nth i ["PartType0"; "PartType1"; "PartType2"; "PartType3"; "PartType4"; "PartType5"]%string ""%string.
  Definition full_name (i : nat) (q : quantity) : str := list_ascii_of_string (group_name i) ++ "/"%char :: q_name q.
  Definition array (q : quantity) (i : nat) : piece := Data (full_name i q) false (size (q_name q)) (nth i npart 0 :: q_shape q) (vals (q_name q) i).
  Definition arrays (q : quantity) : list piece := map (array q) (filter (fun i => has_type q i && (0 <? nth i npart 0)) (seq 0 6)).
  (** the record of a quantity: one array after another *)
  Definition block (q : quantity) : list piece := record (arrays q).
  (** the quantities for which there are particles *)
  Definition present (l : list quantity) : list quantity := filter (fun q => 0 <? number q) l.
End Blocks.

(** -0.0 is zero *)
Definition zero64 (v : Z) : Prop := v = 0 \/ v = 2 ^ 63.
Definition gas : list bool := [true; false; false; false; false; false].
Definition everything : list bool := [true; true; true; true; true; true].
(** what is in a snapshot: positions, velocities, ids, masses of the particles of the types
    with mass zero in the mass table, and properties of the gas *)
Definition standard_quantities (variable_mass : list bool) : list quantity :=
  [{| q_name := list_ascii_of_string "Coordinates"; q_shape := [3]; q_types := everything |};
   {| q_name := list_ascii_of_string "Velocities"; q_shape := [3]; q_types := everything |};
   {| q_name := list_ascii_of_string "ParticleIDs"; q_shape := []; q_types := everything |};
   {| q_name := list_ascii_of_string "Masses"; q_shape := []; q_types := variable_mass |};
   {| q_name := list_ascii_of_string "InternalEnergy"; q_shape := []; q_types := gas |};
   {| q_name := list_ascii_of_string "Density"; q_shape := []; q_types := gas |};
   {| q_name := list_ascii_of_string "SmoothingLength"; q_shape := []; q_types := gas |}].
Definition mass_types (cat : catalogue) (variable_mass : list bool) : Prop :=
  Forall2 (fun v b => b = true <-> zero64 v) (cat "Header/MassTable"%string) variable_mass.
(** the [extra] parameter: (name, type, shape, ptypes) *)
Definition given (d : dataset) : quantity := let '(name, ty, shape, types) := d in {| q_name := name; q_shape := shape; q_types := types |}.
Definition number_type (d : dataset) : Prop := let '(name, ty, shape, types) := d in ty <> TOther.

(** a well-formed snapshot *)
Record snapshot_ok (cat : catalogue) (fill : list Z) (l : list quantity) (size : str -> Z) (vals : str -> nat -> list Z) : Prop := {
  s_header : Forall piece_ok (map (attr_of cat) G_header);
  s_fill : zlen fill = 64;
  s_npart : Forall (fun n => n < 2 ^ 31) (cat "Header/NumPart_ThisFile"%string);
  s_names : NoDup (map q_name l) /\ Forall (fun q => q_name q <> [] /\ ~ In "/"%char (q_name q)) l;
  s_types : Forall (fun q => length (q_types q) = 6%nat) l;
  s_shape : Forall (fun q => Forall (fun s => 0 < s) (q_shape q)) l;
  s_size : Forall (fun q => size (q_name q) = 4 \/ size (q_name q) = 8) l }.

(** a whole snapshot with the first [n] of the blocks which can be in it *)
Section Snapshot.
  Variables (cat : catalogue) (fill : list Z) (variable_mass : list bool) (extra : list dataset) (size : str -> Z) (vals : str -> nat -> list Z).
  Definition npart_of : list Z := cat "Header/NumPart_ThisFile"%string.
  Definition the_quantities : list quantity := standard_quantities variable_mass ++ map given extra.
  Definition well_formed : Prop := snapshot_ok cat fill the_quantities size vals /\ mass_types cat variable_mass /\ Forall number_type extra.
  Definition stored_blocks (n : nat) : list piece := flat_map (block npart_of size vals) (firstn n (present npart_of the_quantities)).
  Definition snapshot_pieces (n : nat) : list piece := header_pieces cat fill ++ stored_blocks n.
End Snapshot.
(** the length of the record of a quantity *)
Definition full_size (npart : list Z) (size : str -> Z) (q : quantity) : Z := size (q_name q) * fold_left Z.mul (q_shape q) 1 * number npart q.
