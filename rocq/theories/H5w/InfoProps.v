(** C95 and C96: finding out what is in a file with the HDF5 wrapper for Fortran. *)
From Coq Require Import Ascii String.
From Verif Require Import Base.Prelude Text.StrModel H5w.H5wModel H5w.H5wSpec H5w.H5wAttrSpec H5w.H5wTable H5w.H5wFiles H5w.H5wCases H5w.H5wRead H5w.H5wView H5w.H5wGroup H5w.H5wWrite H5w.H5wAttr H5w.H5wInfo.
Local Open Scope Z_scope.
Local Open Scope list_scope.

(** Whatever a program has done before, hdf5_get_dimensions gives the rank and the dimensions of a
    dataset which has no more than ten dimensions, all below 2^31, and hdf5_get_type gives its class
    and size; nothing changes. *)
Theorem C95_dataset : forall cv s0 s t h f ro fl, fresh s0 -> sound_files s0 -> history cv s0 t s -> (forall c r, In (c, r) t -> sound_call c) -> current t h = Some (f, ro) -> assoc f (disk s) = Some fl ->
  forall n q d l, names n q -> holds (heap fl) q (ADset d) l ->
  ((List.length (d_dims d) <= 10)%nat -> Forall small (d_dims d) -> run cv (CDims h n) s = Go (RDims (d_dims d)) s) /\
  run cv (CType h n) s = Go (RType (class_name (t_class (d_ty d)), t_size (d_ty d))) s.
Proof. exact c95_dataset. Qed.
Print Assumptions C95_dataset.
Definition i_calls : list call := [COpen (lit "old.h5") None; CWrite 1 (lit "g/y") {| m_ty := c8; m_dims := [2; 1]; m_buf := [repeat 65 8; repeat 66 8] |} plain; CGroup 1 (lit "g/h"); CWriteAttr 1 (lit "g/n") (vec [1; 2]) None].
Example C95_dataset_case : works i_calls = true /\ current (trace i_calls) 1 = Some (lit "old.h5", false) /\
  match run no_cv (CDims 1 (lit "/g/y ")) (after i_calls) with Go v _ => v = RDims [2; 1] | _ => False end /\ match run no_cv (CType 1 (lit "g/y")) (after i_calls) with Go v _ => v = RType ("CHARACTER"%string, 8) | _ => False end.
Proof. vm_compute. repeat split. Qed.

(** Where there is no dataset of the name, they give those of the attribute which has the name; without
    the attribute the program is ended. *)
Theorem C95_attribute : forall cv s0 s t h f ro fl, fresh s0 -> sound_files s0 -> history cv s0 t s -> (forall c r, In (c, r) t -> sound_call c) -> current t h = Some (f, ro) -> assoc f (disk s) = Some fl ->
  forall n p c, attr_name n p c -> good_part c -> (List.length (spell p) <= 199)%nat -> (List.length c <= 200)%nat -> (forall d l, ~ holds (heap fl) (p ++ [c]) (ADset d) l) ->
  (forall a, attribute_at (heap fl) p c a -> ((List.length (a_dims a) <= 10)%nat -> Forall small (a_dims a) -> run cv (CDims h n) s = Go (RDims (a_dims a)) s) /\
    run cv (CType h n) s = Go (RType (class_name (t_class (a_ty a)), t_size (a_ty a))) s) /\
  ((forall a, ~ attribute_at (heap fl) p c a) -> run cv (CDims h n) s = Stop s /\ run cv (CType h n) s = Stop s).
Proof. exact c95_attribute. Qed.
Print Assumptions C95_attribute.
Example C95_attribute_case : match run no_cv (CDims 1 (lit "g/n")) (after i_calls) with Go v _ => v = RDims [2] | _ => False end /\ match run no_cv (CType 1 (lit "x/unit")) (after i_calls) with Go v _ => v = RType ("INTEGER"%string, 4) | _ => False end /\
  ends (run no_cv (CDims 1 (lit "g/m")) (after i_calls)) = 1 /\ ends (run no_cv (CType 1 (lit "m/m")) (after i_calls)) = 1.
Proof. vm_compute. repeat split. Qed.
(** A name with no group in it and no dataset ends the program. *)
Theorem C95_missing : forall cv s0 s t h f ro fl, fresh s0 -> sound_files s0 -> history cv s0 t s -> (forall c r, In (c, r) t -> sound_call c) -> current t h = Some (f, ro) -> assoc f (disk s) = Some fl ->
  forall n c, names n [c] -> (forall d l, ~ holds (heap fl) [c] (ADset d) l) -> run cv (CDims h n) s = Stop s /\ run cv (CType h n) s = Stop s.
Proof. exact c95_missing. Qed.
Print Assumptions C95_missing.
Example C95_missing_case : ends (run no_cv (CDims 1 (lit "/y")) (after i_calls)) = 1 /\ ends (run no_cv (CType 1 (lit "g")) (after i_calls)) = 1 /\ ends (run no_cv (CType 1 (lit "x")) (after i_calls)) = 0.
Proof. vm_compute. repeat split. Qed.

(** A dimension of 2^31 is given as a negative number, *)
Theorem C95_narrow_refuted : fresh (start_with [2 ^ 31; 0]) /\ sound_files (start_with [2 ^ 31; 0]) /\ exists s, open_with [2 ^ 31; 0] = Some s /\ match run no_cv (CDims 1 (lit "x")) s with Go v _ => v = RDims [- 2 ^ 31; 0] | _ => False end.
Proof. split; [repeat split; try reflexivity; discriminate|]. split; [apply start_sound; [repeat constructor; discriminate|reflexivity]|]. eexists. split; [vm_compute; reflexivity|]. vm_compute. reflexivity. Qed.
Print Assumptions C95_narrow_refuted.
(** and more than ten dimensions are written behind the end of a variable. *)
Theorem C95_rank_refuted : fresh (start_with (repeat 0 11)) /\ sound_files (start_with (repeat 0 11)) /\ exists s, open_with (repeat 0 11) = Some s /\ run no_cv (CDims 1 (lit "x")) s = Wild.
Proof. split; [repeat split; try reflexivity; discriminate|]. split; [apply start_sound; [repeat constructor; discriminate|reflexivity]|]. eexists. split; [vm_compute; reflexivity|]. vm_compute. reflexivity. Qed.
Print Assumptions C95_rank_refuted.
(** The README file says that the class of strings is given as STRING. *)
Theorem C95_string_refuted : exists cs, works cs = true /\ exists s, run no_cv (CType 1 (lit "g/y")) (after cs) = Go (RType ("CHARACTER"%string, 8)) s.
Proof. exists i_calls. split; [vm_compute; reflexivity|]. eexists. vm_compute. reflexivity. Qed.
Print Assumptions C95_string_refuted.
(** The attribute cannot be asked for if there is a dataset of its name. *)
Theorem C95_shadow_refuted : exists cs, works cs = true /\ (exists s, run no_cv (CReadAttr 1 (lit "g/y") (vec [0; 0])) (after cs) = Go (RArr (map n4 [3; 4])) s) /\
  exists s, run no_cv (CDims 1 (lit "g/y")) (after cs) = Go (RDims [2; 1]) s.
Proof. exists (i_calls ++ [CWriteAttr 1 (lit "g/y") (vec [3; 4]) None]). split; [vm_compute; reflexivity|]. split; eexists; vm_compute; reflexivity. Qed.
Print Assumptions C95_shadow_refuted.
(** The name of an attribute which can be written and read may be too long to ask for it. *)
Theorem C95_long_refuted : exists n cs, works cs = true /\ (exists s, run no_cv (CReadAttr 1 n (vec [0; 0])) (after cs) = Go (RArr (map n4 [3; 4])) s) /\ exists s, run no_cv (CDims 1 n) (after cs) = Stop s.
Proof.
  exists (lit "x/" ++ repeat "a"%char 201), [COpen (lit "old.h5") None; CWriteAttr 1 (lit "x/" ++ repeat "a"%char 201) (vec [3; 4]) None]. split; [vm_compute; reflexivity|]. split; eexists; vm_compute; reflexivity.
Qed.
Print Assumptions C95_long_refuted.

(** Whatever a program has done before, hdf5_list_datasets gives the number of datasets in a group and
    the name of each once, cut at the length of the caller's variables and at 500 characters; the rest
    of the caller's array and the state stay as they are. The program is ended exactly if there is no
    such group, as long as the array has room for the names. *)
Theorem C96_datasets : forall cv s0 s t h f ro fl, fresh s0 -> sound_files s0 -> history cv s0 t s -> (forall c r, In (c, r) t -> sound_call c) -> current t h = Some (f, ro) -> assoc f (disk s) = Some fl ->
  forall n p len old, group_name n p -> enough (fun c => exists d l, holds (heap fl) (p ++ [c]) (ADset d) l) old ->
  match run cv (CListDatasets h n len old) s with
  | Go v s' => s' = s /\ (exists l, holds (heap fl) p AGroup l) /\ exists r, v = RList r /\ listing true len (fun c => exists d l, holds (heap fl) (p ++ [c]) (ADset d) l) r old
  | Stop s' => s' = s /\ forall l, ~ holds (heap fl) p AGroup l
  | Wild => False
  end.
Proof. exact c96_datasets. Qed.
Print Assumptions C96_datasets.
(** and hdf5_list_groups does the same for the groups in a group. *)
Theorem C96_groups : forall cv s0 s t h f ro fl, fresh s0 -> sound_files s0 -> history cv s0 t s -> (forall c r, In (c, r) t -> sound_call c) -> current t h = Some (f, ro) -> assoc f (disk s) = Some fl ->
  forall n p len old, group_name n p -> enough (fun c => exists l, holds (heap fl) (p ++ [c]) AGroup l) old ->
  match run cv (CListGroups h n len old) s with
  | Go v s' => s' = s /\ (exists l, holds (heap fl) p AGroup l) /\ exists r, v = RList r /\ listing true len (fun c => exists l, holds (heap fl) (p ++ [c]) AGroup l) r old
  | Stop s' => s' = s /\ forall l, ~ holds (heap fl) p AGroup l
  | Wild => False
  end.
Proof. exact c96_groups. Qed.
Print Assumptions C96_groups.
(** hdf5_list_attributes gives the attributes of a group or a dataset. *)
Theorem C96_attributes : forall cv s0 s t h f ro fl, fresh s0 -> sound_files s0 -> history cv s0 t s -> (forall c r, In (c, r) t -> sound_call c) -> current t h = Some (f, ro) -> assoc f (disk s) = Some fl ->
  forall n p len old, group_name n p -> enough (fun c => exists a, attribute_at (heap fl) p c a) old ->
  match run cv (CListAttributes h n len old) s with
  | Go v s' => s' = s /\ (exists x l, holds (heap fl) p x l) /\ exists r, v = RList r /\ listing false len (fun c => exists a, attribute_at (heap fl) p c a) r old
  | Stop s' => s' = s /\ nothing_at (heap fl) p
  | Wild => False
  end.
Proof. exact c96_attributes. Qed.
Print Assumptions C96_attributes.
Definition two : option (list str) := Some [lit "u"; lit "v"].
Example C96_case : match run no_cv (CListDatasets 1 (lit "/") 20 two) (after i_calls) with Go v _ => v = RList (1, Some [lit "x"; lit "v"]) | _ => False end /\
  match run no_cv (CListGroups 1 (lit "g ") 20 two) (after i_calls) with Go v _ => v = RList (1, Some [lit "h"; lit "v"]) | _ => False end /\
  match run no_cv (CListGroups 1 (lit "/g/h") 20 None) (after i_calls) with Go v _ => v = RList (0, None) | _ => False end /\
  match run no_cv (CListAttributes 1 (lit "x") 3 two) (after i_calls) with Go v _ => v = RList (1, Some [lit "uni"; lit "v"]) | _ => False end /\
  ends (run no_cv (CListGroups 1 (lit "x") 20 two) (after i_calls)) = 1 /\ ends (run no_cv (CListAttributes 1 (lit "z") 20 two) (after i_calls)) = 1.
Proof. vm_compute. repeat split. Qed.
(** Nothing checks that the names fit: with too short an array they are written behind its end. *)
Theorem C96_short_refuted : exists cs, works cs = true /\ run no_cv (CListDatasets 1 (lit "/") 20 (Some [])) (after cs) = Wild.
Proof. exists i_calls. vm_compute. repeat split. Qed.
Print Assumptions C96_short_refuted.
