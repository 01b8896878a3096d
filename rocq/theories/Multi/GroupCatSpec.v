(** What a GroupCatalogue should contain: the arrays of all the files, one after another. *)
From Coq Require Import Ascii String.
From Verif Require Import Base.Prelude Base.NdArray Binary.BinModel Formats.ReaderModel Formats.FileSpec Formats.CatSpec.
Local Open Scope Z_scope.

(** the files numbered from 0 hold these catalogues, in any byte order, perhaps with more
    bytes after them *)
Definition stored (files : Z -> option (list Z)) (pieces : catalogue -> list piece) (cs : list catalogue) : Prop :=
  forall i c, nth_error cs i = Some c -> exists lf rest, files (Z.of_nat i) = Some (file_bytes lf (pieces c) ++ rest)%list.
(** an array with one row for each group or for each subhalo *)
Definition is_column (fd : field) : Prop := exists count dims, fd_dims fd = Of count :: map Fixed dims.
(** its number of rows in one file, and the number of numbers in each dimension of a row *)
Definition rows_in (fd : field) (c : catalogue) : Z := match fd_dims fd with Of count :: _ => scalar c count | _ => 0 end.
Definition row_shape (fd : field) : list nat := map (fun d => match d with Fixed n => Z.to_nat n | Of _ => 0%nat end) (tl (fd_dims fd)).
(** the array of the whole catalogue *)
Definition whole_array (cs : list catalogue) (fd : field) : nd Z :=
  {| shape := Z.to_nat (sumZ (map (rows_in fd) cs)) :: row_shape fd; data := concat (map (fun c => c (fd_name fd)) cs) |}.
(** the description of the array with this name *)
Definition named (l : list field) (name : string) : field :=
  match List.find (fun fd => String.eqb (fd_name fd) name) l with Some fd => fd | None => F name 0 [] end.
(** the size of floating point numbers in a Gadget-4 catalogue *)
Definition g4_float (c : catalogue) : Z := if scalar c "flag_dp" =? 0 then 4 else 8.
(** a Gadget-4 catalogue file that can be written: the arrays fit the header, and records are shorter than 2 GB *)
Definition g4_ok (id fl : Z) (c : catalogue) : Prop :=
  g4_float c = fl /\ consistent c (G4_header ++ G4_groups fl ++ G4_subs id fl) /\ records_ok (G4_sub_tab id c).
