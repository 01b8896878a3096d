(** What it means for an HDF5 file to have what a binary file has. *)
From Coq Require Import Ascii.
From Verif.Base Require Import Prelude.
From Verif.Binary Require Import BinModel Hdf5Model.
Local Open Scope Z_scope.

(** the object at a path in the members of a group *)
Fixpoint h5_at (members : list (str * h5)) (path : list str) : option h5 :=
  match path with
  | [] => None
  | [c] => get c members
  | c :: path' => match get c members with Some (HGroup _ m) => h5_at m path' | _ => None end
  end.
(** [a] is what is read from block [id] *)
Definition holds (little : bool) (content : list Z) (f : file) (id : nat) (a : arr) : Prop :=
  exists b, nth_error (f_blocks f) id = Some b /\ a_dtype a = b_dtype b /\ a_shape a = b_shape b /\ getitem little content b None = Ok (a_items a).
(** the same names, with the same data *)
Definition same_attrs (little : bool) (content : list Z) (f : file) (src : list (str * nat)) (dst : list (str * arr)) : Prop :=
  forall n, match get n src, get n dst with
  | Some id, Some a => holds little content f id a
  | None, None => True
  | _, _ => False
  end.
(** the groups in a group, itself included *)
Inductive inside : group -> group -> Prop :=
  | inside_self g : inside g g
  | inside_sub a d groups n g g' : In (n, g) groups -> inside g g' -> inside (Group a d groups) g'.
(** a dataset can be stored: no compression, or chunks of at most 81920 in each direction
    which are not empty and are smaller than 4 GiB *)
Definition compressible (gzip : Z) (d : dtype) (shape : list Z) : Prop :=
  gzip <= 0 \/ shape = [] \/ (gzip <= 9 /\ Forall (fun s => 0 < s) shape /\ itemsize d * fold_left Z.mul (map (Z.min 81920) shape) 1 < 2 ^ 32).
(** everything in the file can be read, and HDF5 can store it *)
Definition attrs_writable (little : bool) (content : list Z) (f : file) (fits : arr -> bool) (src : list (str * nat)) : Prop :=
  forall k id, In (k, id) src -> k <> [] /\ exists v, holds little content f id v /\ fits v = true.
Definition name_ok (n : str) : Prop := n <> [] /\ n <> ["."%char].
Definition writable (little : bool) (content : list Z) (f : file) (fits : arr -> bool) (gzip : Z) (tree : group) : Prop :=
  forall a d groups, inside tree (Group a d groups) ->
  (forall n id at_, In (n, (id, at_)) d -> name_ok n /\ attrs_writable little content f fits at_ /\ exists v, holds little content f id v /\ compressible gzip (a_dtype v) (a_shape v)) /\
  (forall n a' d' groups', In (n, Group a' d' groups') groups -> name_ok n /\ attrs_writable little content f fits a').
