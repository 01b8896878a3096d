(** C93 and C94: attributes with the HDF5 wrapper for Fortran. *)
From Coq Require Import Ascii String.
From Verif Require Import Base.Prelude Text.StrModel H5w.H5wModel H5w.H5wSpec H5w.H5wAttrSpec H5w.H5wTable H5w.H5wFiles H5w.H5wCases H5w.H5wRead H5w.H5wView H5w.H5wGroup H5w.H5wWrite H5w.H5wAttr.
Local Open Scope Z_scope.
Local Open Scope list_scope.

(** Whatever a program has done before, hdf5_write_attribute gives the object at the place named before
    the last slash an attribute with the type, the dimensions and the elements of the array. The other
    attributes, everything else in the file and all other files stay as they are. The program is ended
    exactly if there is no such object, or if it has the attribute and overwrite is not .true., and
    then everything stays as it is. *)
Theorem C93_write_attribute : forall cv s0 t s h f fl n p c arr o, fresh s0 -> sound_files s0 -> tree_files s0 -> history cv s0 t s -> (forall c r, In (c, r) t -> sound_call c) -> current t h = Some (f, false) ->
  assoc f (disk s) = Some fl -> attr_name n p c -> (List.length (spell p) <= 255)%nat -> (List.length c <= 256)%nat -> sound_arr arr ->
  match run cv (CWriteAttr h n arr o) s with
  | Go v s' => v = RNone /\ others_same f s s' /\ exists fl' x l m, assoc f (disk s') = Some fl' /\ writable fl' = writable fl /\ holds (heap fl) p x l /\ (o = Some true \/ assoc c l = None) /\
      attrs_changed p x m (heap fl) (heap fl') /\ NoDup (map fst m) /\ assoc c m = Some {| a_ty := m_ty arr; a_dims := m_dims arr; a_data := m_buf arr |} /\ forall e, e <> c -> assoc e m = assoc e l
  | Stop s' => (nothing_at (heap fl) p \/ (o <> Some true /\ exists a, attribute_at (heap fl) p c a)) /\ others_same f s s' /\
      exists fl', assoc f (disk s') = Some fl' /\ writable fl' = writable fl /\ same_objects (heap fl) (heap fl')
  | Wild => False
  end.
Proof. exact c93_write_attribute. Qed.
Print Assumptions C93_write_attribute.
Definition attrs_of (s : wst) (p : list str) : option (list (string * (list Z * list Z))) :=
  match assoc (lit "old.h5") (disk s) with
  | Some fl => match see (heap fl) p with Some (_, l) => Some (map (fun e => (string_of_list_ascii (fst e), (a_dims (snd e), map (fun e => hd 0 e) (a_data (snd e))))) l) | _ => None end
  | None => None
  end.
Definition a_calls : list call := [COpen (lit "old.h5") None; CWriteAttr 1 (lit "x/unit") (vec [1; 2]) (Some true); CWriteAttr 1 (lit "/x/box  ") {| m_ty := i4; m_dims := []; m_buf := [n4 6] |} None;
  CWriteAttr 1 (lit "//n") (vec [3]) (Some false)].
(** An attribute of a dataset is replaced, another one is added, and the root gets one. Without
    overwrite the attribute is not replaced, and what is not there gets none. *)
Example C93_write_attribute_case : works a_calls = true /\ current (trace a_calls) 1 = Some (lit "old.h5", false) /\ attrs_of ex_start [lit "x"] = Some [("unit"%string, ([], [5]))] /\
  attrs_of (after a_calls) [lit "x"] = Some [("unit"%string, ([2], [1; 2])); ("box"%string, ([], [6]))] /\ attrs_of (after a_calls) [] = Some [("n"%string, ([1], [3]))] /\
  ends (run no_cv (CWriteAttr 1 (lit "x/unit") (vec [8]) None) (after a_calls)) = 1 /\ ends (run no_cv (CWriteAttr 1 (lit "y/unit") (vec [8]) None) (after a_calls)) = 1.
Proof. vm_compute. repeat split. Qed.
Example C93_write_attribute_names : attr_name (lit "/x/box  ") [lit "x"] (lit "box") /\ attr_name (lit "//n") [] (lit "n") /\ sound_arr (vec [1; 2]).
Proof.
  split; [|split].
  - split; [vm_compute; repeat split; intuition discriminate|]. split; [repeat constructor; vm_compute; intuition discriminate|]. exists 2%nat, (lit "/x"). split; [reflexivity|]. right. reflexivity.
  - split; [vm_compute; repeat split; intuition discriminate|]. split; [constructor|]. exists 0%nat, (lit "/"). split; reflexivity.
  - split; [repeat constructor; discriminate|reflexivity].
Qed.
(** The attribute of the root cannot be named with one slash. *)
Theorem C93_root_refuted : exists cs, works cs = true /\ current (trace cs) 1 = Some (lit "old.h5", false) /\ attrs_of (after cs) [] = Some [("n"%string, ([1], [3]))] /\
  ends (run no_cv (CWriteAttr 1 (lit "/m") (vec [3]) None) (after cs)) = 1 /\ ends (run no_cv (CReadAttr 1 (lit "/n") (vec [0])) (after cs)) = 1 /\
  match run no_cv (CReadAttr 1 (lit "//n") (vec [0])) (after cs) with Go v _ => v = RArr [n4 3] | _ => False end.
Proof. exists a_calls. vm_compute. repeat split. Qed.
Print Assumptions C93_root_refuted.

(** Whatever a program has done before, hdf5_read_attribute gives the elements of the attribute in the
    type of the array, the rest of the array and the state stay as they are, and the program is ended
    exactly if there is no such attribute or its type cannot be converted, as long as the array has room
    for the elements. *)
Theorem C94_read_attribute : forall cv s0 t s h f ro fl n p c arr, fresh s0 -> sound_files s0 -> history cv s0 t s -> (forall c r, In (c, r) t -> sound_call c) -> current t h = Some (f, ro) ->
  assoc f (disk s) = Some fl -> attr_name n p c -> (List.length (spell p) <= 255)%nat -> (List.length c <= 256)%nat -> (forall a, attribute_at (heap fl) p c a -> zlen (a_data a) <= zlen (m_buf arr)) ->
  match run cv (CReadAttr h n arr) s with
  | Go v s' => s' = s /\ exists a g b, v = RArr b /\ attribute_at (heap fl) p c a /\ attr_as cv (a_ty a) (m_ty arr) g /\ attr_filled g (a_data a) (m_buf arr) b
  | Stop s' => s' = s /\ forall a g, attribute_at (heap fl) p c a -> ~ attr_as cv (a_ty a) (m_ty arr) g
  | Wild => False
  end.
Proof. exact c94_read_attribute. Qed.
Print Assumptions C94_read_attribute.
(** Two numbers go to the first two of three elements; an attribute which is not there and one of a
    type which cannot be converted are refused. *)
Example C94_read_attribute_case : match run no_cv (CReadAttr 1 (lit "x/unit") (vec [7; 8; 9])) (after a_calls) with Go v _ => v = RArr (map n4 [1; 2; 9]) | _ => False end /\
  ends (run no_cv (CReadAttr 1 (lit "x/nothing") (vec [7])) (after a_calls)) = 1 /\ ends (run no_cv (CReadAttr 1 (lit "x/box") {| m_ty := r8; m_dims := [1]; m_buf := [[0]] |}) (after a_calls)) = 1.
Proof. vm_compute. repeat split. Qed.

(** What hdf5_write_attribute has written, hdf5_read_attribute gives back, with strings cut or filled
    with blanks to the length their type says. *)
Theorem C94_round_trip : forall cv s0 t s h f n p c arr o s' room, fresh s0 -> sound_files s0 -> tree_files s0 -> history cv s0 t s -> (forall c r, In (c, r) t -> sound_call c) -> current t h = Some (f, false) ->
  attr_name n p c -> (List.length (spell p) <= 255)%nat -> (List.length c <= 256)%nat -> sound_arr arr -> run cv (CWriteAttr h n arr o) s = Go RNone s' ->
  m_ty room = m_ty arr -> zlen (m_buf arr) <= zlen (m_buf room) ->
  exists b, run cv (CReadAttr h n room) s' = Go (RArr b) s' /\ attr_filled (as_type (m_ty arr)) (m_buf arr) (m_buf room) b.
Proof. exact c94_round_trip. Qed.
Print Assumptions C94_round_trip.
Example C94_round_trip_case (cs := [COpen (lit "old.h5") None; CWriteAttr 1 (lit "x/name") {| m_ty := {| t_class := CString; t_size := 3 |}; m_dims := []; m_buf := [[65; 66; 67]] |} None]) :
  works cs = true /\ match run no_cv (CReadAttr 1 (lit "x/name ") {| m_ty := {| t_class := CString; t_size := 3 |}; m_dims := []; m_buf := [[0; 0; 0]] |}) (after cs) with Go v _ => v = RArr [[65; 66; 67]] | _ => False end.
Proof. vm_compute. repeat split. Qed.

(** Nothing checks that the attribute fits: one with more elements than the array has is written behind
    its end, *)
Theorem C94_overrun_refuted : exists cs, works cs = true /\ current (trace cs) 1 = Some (lit "old.h5", false) /\ attrs_of (after cs) [lit "x"] = Some [("unit"%string, ([3], [1; 2; 3]))] /\
  run no_cv (CReadAttr 1 (lit "x/unit") (vec [0])) (after cs) = Wild.
Proof. exists [COpen (lit "old.h5") None; CWriteAttr 1 (lit "x/unit") (vec [1; 2; 3]) (Some true)]. vm_compute. repeat split. Qed.
Print Assumptions C94_overrun_refuted.
(** and one of other dimensions fills the array in storage order: here element (1,2) of the attribute
    is 3 and that of the array 0. *)
Theorem C94_dims_refuted : exists cs, works cs = true /\ current (trace cs) 1 = Some (lit "old.h5", false) /\ attrs_of (after cs) [lit "x"] = Some [("unit"%string, ([2; 2], [1; 2; 3; 4]))] /\
  elem [2; 2] (map n4 [1; 2; 3; 4]) [0; 1] = Some (n4 3) /\
  match run no_cv (CReadAttr 1 (lit "x/unit") {| m_ty := i4; m_dims := [4; 2]; m_buf := map n4 [0; 0; 0; 0; 0; 0; 0; 0] |}) (after cs) with
  | Go (RArr b) _ => b = map n4 [1; 2; 3; 4; 0; 0; 0; 0] /\ elem [4; 2] b [0; 1] = Some (n4 0)
  | _ => False
  end.
Proof. exists [COpen (lit "old.h5") None; CWriteAttr 1 (lit "x/unit") {| m_ty := i4; m_dims := [2; 2]; m_buf := map n4 [1; 2; 3; 4] |} (Some true)]. vm_compute. repeat split. Qed.
Print Assumptions C94_dims_refuted.
