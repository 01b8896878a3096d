(** The catalogue of the Milli-Millennium simulation in several files. *)
From Verif Require Import Base.Prelude Util.RangesSpec Script.MillUnitsModel.
Local Open Scope Z_scope.
Local Open Scope list_scope.

(** the subhalos of a file are ranges of the ids in the file, in order and without overlap *)
Definition good_file (f : catfile) : Prop :=
  length (c_suboff f) = length (c_sublen f) /\ ordered 0 (combine (c_suboff f) (c_sublen f)) (zlen (c_gids f)).
(** number of subhalo [i] of file [j] among those of all files *)
Definition number_of (files : list catfile) (j i : nat) : nat := (length (concat (map c_sublen (firstn j files))) + i)%nat.
(** lengths of all subhalos and ids of all files *)
Definition all_lengths (files : list catfile) : list Z := concat (map c_sublen files).
Definition all_ids (files : list catfile) : list Z := concat (map c_gids files).
