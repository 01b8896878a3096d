(** Names and contents of files of the Millennium simulation, and what is in them, stated without
    the IDL programs. *)
From Coq Require Import Ascii String.
From Verif Require Import Base.Prelude Text.StrModel Formats.FileSpec Formats.CatSpec Formats.StructModel Formats.StructSpec Fortran.RegionSpec Fortran.GroupTabSpec.
Local Open Scope Z_scope. Local Open Scope list_scope.

Definition no_blanks (s : str) : Prop := Forall (fun c => c <> " "%char /\ c <> "009"%char) s.
(** three digits *)
Definition three_digits (num : Z) : Prop := 0 <= num <= 999.
Definition numbered (dir dirname file : string) (base : str) (num k : Z) : str :=
  base ++ lit "/" ++ lit dirname ++ lit dir ++ fmt_0d 3 num ++ lit "/" ++ lit file ++ fmt_0d 3 num ++ lit "." ++ fmt_d k.
Definition group_tab_file : str -> Z -> Z -> str := numbered "_" "snapdir" "group_tab_".
Definition sub_tab_file : str -> Z -> Z -> str := numbered "_" "postproc" "sub_tab_".
Definition potential_file : str -> Z -> Z -> str := numbered "_" "snapdir" "potential_".
Definition snapshot_path (base snapbase : str) (num k : Z) : str :=
  base ++ lit "/snapdir_" ++ fmt_0d 3 num ++ lit "/" ++ snapbase ++ lit "_" ++ fmt_0d 3 num ++ lit "." ++ fmt_d k.
Definition tree_path (file : string) (base : str) (num k : Z) : str :=
  base ++ lit "/treedata/" ++ lit file ++ lit "_" ++ fmt_0d 3 num ++ lit "." ++ fmt_d k.

(** the length of a file with the given arrays *)
Definition size_of (cat : catalogue) (l : list field) : Z := sumZ (map (fun fd => fd_size fd * zlen (cat (fd_name fd))) l).
(** the numbers in the arrays with these names *)
Definition arrays_of (cat : catalogue) (names : list string) : list (list Z) := map cat names.
Definition sub_tab_counts : list string := ["NsubPerHalo"; "FirstSubOfHalo"; "SubLen"; "SubOffset"; "SubParentHalo"]%string.
Definition halo_properties : list string := ["Halo_M_Mean200"; "Halo_R_Mean200"; "Halo_M_Crit200"; "Halo_R_Crit200"; "Halo_M_TopHat200"; "Halo_R_TopHat200"]%string.
Definition subhalo_properties : list string := ["SubPos"; "SubVel"; "SubVelDisp"; "SubVmax"; "SubSpin"; "SubMostBoundID"; "SubHalfMass"]%string.
Definition aux_counts : list string := ["CountID_Snap"; "OffsetID_Snap"; "CountID_SnapTree"; "OffsetID_SnapTree"; "Nunique"; "OffsetID_Halo"]%string.

(** *** merger trees *)
(** the members of a halo, in order; they fit their types *)
Definition halo_numbers (s : structure) : list (list Z) := map (fun m => s (m_name m)) (tree_halo 8 false).
Definition halo_ok (s : structure) : Prop := Forall (fun m => zlen (s (m_name m)) = m_count m /\ Forall (fun v => 0 <= v < 256 ^ m_size m) (s (m_name m))) (tree_halo 8 false).
Definition halo_bytes (lf : bool) (s : structure) : list Z := concat (map (fun m => concat (map (number_bytes lf (m_size m)) (s (m_name m)))) (tree_halo 8 false)).
(** a file with trees of one or more halos, and anything after them *)
Definition trees_file (lf : bool) (trees : list (list structure)) (extra content : list Z) : Prop :=
  Forall (Forall halo_ok) trees /\ Forall (fun t => 0 < zlen t < 2 ^ 31) trees /\ zlen trees < 2 ^ 31 /\
  content = tree_file lf (map zlen trees) (map (halo_bytes lf) (concat trees)) extra.
Definition trees_size (trees : list (list structure)) : Z := 8 + 4 * zlen trees + 104 * zlen (concat trees).
Definition tree_numbers (trees : list (list structure)) : list (list (list Z)) := map (fun t => concat (map halo_numbers t)) trees.
