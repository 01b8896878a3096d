(** The particles of a FoF group of the Millennium simulation, for C97. *)
From Coq Require Import Ascii String.
From Verif Require Import Base.Prelude Formats.FileSpec Formats.CatSpec.
Local Open Scope Z_scope.

(** the bytes of a file with the given columns; [nf] is the name of the number of files *)
Definition is_file (f : option (list Z)) (nf : string) (l : list field) (cat : catalogue) : Prop :=
  exists lf extra, f = Some (file_bytes lf (pieces_of cat l) ++ extra)%list /\ consistent cat l /\ 1 <= scalar cat nf <= 65535.
(** the ids of group number [ifof]: a range of those in the sub_ids file *)
Definition group_ids (tab ids : catalogue) (ifof : Z) (gids : list Z) : Prop :=
  exists o l, 0 <= ifof /\ nth_error (tab "GroupOffset"%string) (Z.to_nat ifof) = Some o /\ nth_error (tab "GroupLen"%string) (Z.to_nat ifof) = Some l /\
    o + l <= zlen (ids "GroupIDs"%string) /\ gids = zslice (ids "GroupIDs"%string) o (o + l).
