(** What MultiFile should do, independent of how files and ranks are assigned to
    each other. *)
From Verif.Base Require Import Prelude.
From Verif.Phdf5 Require Import CollModel.
Local Open Scope Z_scope.

Definition rows_of {A} (o : option (dset A)) : list A := match o with Some d => d_rows d | None => [] end.
Definition tags_of (o : option (list Z)) : list Z := match o with Some l => l | None => [] end.
(** all files' rows in file order *)
Definition all_rows {A} (files : list (option (dset A))) : list A := flat_map rows_of files.
(** the index of the file each of these rows is in *)
Definition all_tags {A} (idx : list Z) (files : list (option (dset A))) : list Z :=
  flat_map (fun fi => repeat (fst fi) (length (rows_of (snd fi)))) (combine idx files).
(** the dataset has one type and one shape wherever it is present *)
Definition uniform {A} (dt : Z) (dims : list Z) (files : list (option (dset A))) : Prop :=
  forall d, In (Some d) files -> d_dtype d = dt /\ d_dims d = dims.
