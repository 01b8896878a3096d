(** C73: writing a binary file as HDF5 (BinaryGroup.write_hdf5). *)
From Coq Require Import Ascii String.
From Verif.Base Require Import Prelude ListLemmas Order.
From Verif.Binary Require Import BinModel NameProofs Hdf5Model Hdf5Spec Hdf5Proofs.
Local Open Scope Z_scope.
Local Open Scope list_scope.

(** after success every dataset, group and attribute which the binary file has below its
    first level is in the HDF5 file, with the same type, shape and data, and there is nothing
    else in it except what was there before ([mem0]; nothing in modes "w" and "w-") *)
Theorem C73_tree : forall little content fits gzip m existing ops attrs mem, let f := run little content ops new_file in
  write_hdf5 little content fits gzip m existing f = Ok (attrs, mem) ->
  exists mem0, open_h5 m existing = Ok (attrs, mem0) /\ forall key,
    match g_getitem (f_tree f) key with
    | Ok (EDset id at_) => h5_at mem0 (keys key) = None /\
        exists data attrs' chunks, h5_at mem (keys key) = Some (HDset data attrs' chunks) /\ holds little content f id data /\ same_attrs little content f at_ attrs'
    | Ok (EGroup (Group at_ _ _)) => h5_at mem0 (keys key) = None /\
        exists attrs' inner, h5_at mem (keys key) = Some (HGroup attrs' inner) /\ same_attrs little content f at_ attrs'
    | Err _ => h5_at mem (keys key) = h5_at mem0 (keys key)
    end.
Proof. exact write_tree. Qed.
Print Assumptions C73_tree.
(** a new file is written if and only if everything can be read and stored *)
Theorem C73_written : forall little content fits gzip ops, let f := run little content ops new_file in
  (exists out, write_hdf5 little content fits gzip MNew None f = Ok out) <-> writable little content f fits gzip (f_tree f).
Proof. exact write_iff. Qed.
Print Assumptions C73_written.
(** the default mode does not touch an existing file *)
Theorem C73_exists : forall little content fits gzip existing ops, write_hdf5 little content fits gzip MNew (Some existing) (run little content ops new_file) = Err EIO.
Proof. exact write_exists. Qed.
Print Assumptions C73_exists.
(** a dataset with no elements, as in a catalogue file without groups, cannot be written with
    compression *)
Theorem C73_empty_refuted : forall little content fits gzip ops key id at_ b m existing, let f := run little content ops new_file in
  0 < gzip -> g_getitem (f_tree f) key = Ok (EDset id at_) -> nth_error (f_blocks f) id = Some b -> In 0 (b_shape b) -> exists e, write_hdf5 little content fits gzip m existing f = Err e.
Proof. exact write_empty. Qed.
Print Assumptions C73_empty_refuted.

(** a file with attributes of the file, of a group and of a dataset, big endian *)
Definition i16 : dtype := {| dt_order := NAT; dt_fields := [2] |}.
Definition i8 : dtype := {| dt_order := NA; dt_fields := [1] |}.
Definition nm (s : string) : str := list_ascii_of_string s.
Definition ex_ops : list op :=
  [OSet BE; OAdd (nm "v") i16 [] true; OAdd (nm "h/n") i16 [] true; OAdd (nm "x") i16 [2] false; OAdd (nm "x/u") i8 [] true; OAdd (nm "h/k/y") i16 [2; 1] false; OAdd (nm "s") i8 [] false].
Definition ex_content : list Z := [0; 1; 0; 2; 0; 3; 0; 4; 9; 0; 5; 0; 6; 7].
Definition ex_arr (d : dtype) (shape : list Z) (items : list (list Z)) : arr := {| a_dtype := d; a_shape := shape; a_items := items |}.
Example C73_ex : let f := run true ex_content ex_ops new_file in
  writable true ex_content f (fun _ => true) 6 (f_tree f) /\
  write_hdf5 true ex_content (fun _ => true) 6 MNew None f =
  Ok ([], [(nm "x", HDset (ex_arr i16 [2] [[3; 0]; [4; 0]]) [(nm "u", ex_arr i8 [] [[9]])] (Some [2]));
           (nm "s", HDset (ex_arr i8 [] [[7]]) [] None);
           (nm "h", HGroup [(nm "n", ex_arr i16 [] [[2; 0]])] [(nm "k", HGroup [] [(nm "y", HDset (ex_arr i16 [2; 1] [[5; 0]; [6; 0]]) [] (Some [2; 1]))])])]).
Proof.
  cbv zeta. assert (forall P Q : Prop, Q -> (Q -> P) -> P /\ Q) as split2 by tauto. apply split2; [vm_compute; reflexivity|]. intro E. apply C73_written. eexists. exact E.
Qed.
(** appending: what is there stays, unless a name is used twice *)
Example C73_append_ex : let f := run true [1; 2] [OAdd (nm "a") i16 [1] false] new_file in
  let old (n : string) := ([(nm "v", ex_arr i8 [] [[1]])], [(nm n, HDset (ex_arr i8 [] [[3]]) [] None)]) in
  write_hdf5 true [1; 2] (fun _ => true) 0 MAppend (Some (old "b"%string)) f = Ok ([(nm "v", ex_arr i8 [] [[1]])], [(nm "b", HDset (ex_arr i8 [] [[3]]) [] None); (nm "a", HDset (ex_arr i16 [1] [[1; 2]]) [] None)]) /\
  write_hdf5 true [1; 2] (fun _ => true) 0 MAppend (Some (old "a"%string)) f = Err EValue.
Proof. vm_compute. split; reflexivity. Qed.
(** the attributes of the file itself are not written *)
Theorem C73_root_refuted : exists ops content, let f := run true content ops new_file in
  (exists id, match f_tree f with Group at_ _ _ => get (nm "v") at_ = Some id /\ holds true content f id (ex_arr i16 [] [[7; 8]]) end) /\
  write_hdf5 true content (fun _ => true) 6 MNew None f = Ok ([], []).
Proof. exists [OAdd (nm "v") i16 [] true], [7; 8]. split; [|vm_compute; reflexivity]. exists 0%nat. split; [reflexivity|]. eexists. vm_compute. repeat split; reflexivity. Qed.
Print Assumptions C73_root_refuted.
Example C73_empty_ex : write_hdf5 true [1] (fun _ => true) 6 MNew None (run true [1] [OAdd (nm "a") i16 [0; 3] false] new_file) = Err EValue /\
  write_hdf5 true [1] (fun _ => true) 0 MNew None (run true [1] [OAdd (nm "a") i16 [0; 3] false] new_file) = Ok ([], [(nm "a", HDset (ex_arr i16 [0; 3] []) [] None)]).
Proof. vm_compute. split; reflexivity. Qed.
