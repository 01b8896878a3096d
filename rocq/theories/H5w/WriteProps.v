(** C91 and C92: writing datasets with the HDF5 wrapper for Fortran. *)
From Coq Require Import Ascii String.
From Verif Require Import Base.Prelude Text.StrModel H5w.H5wModel H5w.H5wSpec H5w.H5wTable H5w.H5wFiles H5w.H5wCases H5w.H5wRead H5w.H5wView H5w.H5wGroup H5w.H5wWrite H5w.H5wPart H5w.H5wTrip.
Local Open Scope Z_scope.
Local Open Scope list_scope.

(** Whatever a program has done before, hdf5_write_data without a dataset of that name, or with
    overwrite=.true., makes a dataset which has the type of the array, the dimensions asked for, the
    elements of the array in the part asked for and zeros elsewhere. It adds the groups on the way,
    and everything else in the file and all other files stay as they are. The program is ended
    exactly if the arguments do not allow this or a dataset is on the way or a group has the name,
    and then too everything else stays as it is. *)
Theorem C91_write : forall cv s0 t s h f fl n p arr o, fresh s0 -> sound_files s0 -> tree_files s0 -> history cv s0 t s -> (forall c r, In (c, r) t -> sound_call c) -> current t h = Some (f, false) ->
  assoc f (disk s) = Some fl -> names n p -> (List.length (spell p) <= 255)%nat -> (List.length p <= 11)%nat -> sound_arr arr -> positive (m_dims arr) ->
  (List.length (m_dims arr) <= 7)%nat -> (t_class (m_ty arr) = CInt -> List.length (m_dims arr) <> 7%nat) -> (forall l, w_chunk o = Some l -> (List.length l <= 7)%nat) ->
  (w_initial o <> None -> forall st ct, w_start o = Some st -> w_count o = Some ct -> (List.length (m_dims arr) <= List.length st)%nat /\ (List.length (m_dims arr) <= List.length ct)%nat) ->
  positive (snd (part (new_dims arr o) (w_start o) (w_count o))) -> (w_overwrite o = Some true \/ forall d l, ~ holds (heap fl) p (ADset d) l) ->
  match run cv (CWrite h n arr o) s with
  | Go v s' => v = RNone /\ can_write_new arr o /\ free_way (heap fl) p /\ others_same f s s' /\
      exists fl' r, assoc f (disk s') = Some fl' /\ writable fl' = writable fl /\ put_dataset p r (heap fl) (heap fl') /\ new_written arr o r
  | Stop s' => ~ (can_write_new arr o /\ free_way (heap fl) p) /\ others_same f s s' /\
      exists fl', assoc f (disk s') = Some fl' /\ writable fl' = writable fl /\ rest_same p (heap fl) (heap fl') /\ forall l, holds (heap fl) p AGroup l -> holds (heap fl') p AGroup l
  | Wild => False
  end.
Proof. exact c91_write. Qed.
Print Assumptions C91_write.
Definition with_part (st ct : list Z) (ext : option bool) : wopts :=
  {| w_gzip := None; w_overwrite := None; w_szip := None; w_extensible := ext; w_start := Some st; w_count := Some ct; w_initial := None; w_chunk := None |}.
Definition over (ini : option (list Z)) (gz : option Z) : wopts :=
  {| w_gzip := gz; w_overwrite := Some true; w_szip := None; w_extensible := None; w_start := None; w_count := None; w_initial := ini; w_chunk := None |}.
Definition shown (s : wst) (p : list str) : option (list Z * list Z * list string) :=
  match assoc (lit "old.h5") (disk s) with
  | Some fl => match see (heap fl) p with Some (ADset d, l) => Some (d_dims d, map (fun e => hd 0 e) (d_data d), map (fun e => string_of_list_ascii (fst e)) l) | _ => None end
  | None => None
  end.
Definition w_calls : list call := [COpen (lit "old.h5") None; CWrite 1 (lit "/g/h/y ") (vec [1; 2]) (with_part [2; 2] [2; 1] (Some true)); CWrite 1 (lit "x") (vec [4]) (over None (Some 16))].
(** Two numbers are written to elements 2 and 3 of a new dataset in new groups, and "x" is
    overwritten with a dataset of one number, which has no attribute. A name below a dataset, the
    name of a group and a part which the array is too small for are refused. *)
Example C91_write_case : works w_calls = true /\ current (trace w_calls) 1 = Some (lit "old.h5", false) /\
  shown (after w_calls) [lit "g"; lit "h"; lit "y"] = Some ([3], [0; 1; 2], []) /\ shown (after w_calls) [lit "x"] = Some ([1], [4], []) /\
  shown ex_start [lit "x"] = Some ([3], [7; 8; 9], ["unit"%string]) /\
  ends (run no_cv (CWrite 1 (lit "x/z") (vec [1]) plain) (after w_calls)) = 1 /\ ends (run no_cv (CWrite 1 (lit "g/h") (vec [1]) plain) (after w_calls)) = 1 /\
  ends (run no_cv (CWrite 1 (lit "z") (vec [1; 2]) (with_part [1] [3] None)) (after w_calls)) = 1 /\ ends (run no_cv (CWrite 1 (lit "z") (vec [1; 2; 3]) (with_part [1] [3] None)) (after w_calls)) = 0.
Proof. vm_compute. repeat split. Qed.
(** the arguments of the first of these calls meet the conditions *)
Example C91_write_can : can_write_new (vec [1; 2]) (with_part [2; 2] [2; 1] (Some true)) /\ positive (snd (part (new_dims (vec [1; 2]) (with_part [2; 2] [2; 1] (Some true))) (Some [2; 2]) (Some [2; 1]))) /\
  sound_arr (vec [1; 2]) /\ names (lit "/g/h/y ") [lit "g"; lit "h"; lit "y"].
Proof.
  split; [|split; [|split]].
  - split; [discriminate|]. split; [cbn; auto|]. split; [discriminate|]. split; [split; [intros (g & C & _); discriminate C|intros _ _ l C; discriminate C]|]. split; repeat constructor; cbn; discriminate.
  - repeat constructor; discriminate.
  - split; [repeat constructor; discriminate|reflexivity].
  - split; [discriminate|]. split; [|exists 1%nat; right; reflexivity]. repeat constructor; vm_compute; try discriminate; intuition discriminate.
Qed.

(** What hdf5_write_data has written to a new dataset, hdf5_read_data gives back, with strings cut or
    filled with blanks to the length their type says. *)
Theorem C91_round_trip : forall cv s0 t s h f n p arr s' room, fresh s0 -> sound_files s0 -> tree_files s0 -> history cv s0 t s -> calm ((CWrite h n arr plain, RNone) :: t) -> current t h = Some (f, false) ->
  names n p -> (List.length (spell p) <= 255)%nat -> (List.length p <= 11)%nat -> (List.length (trim n) <= 1000)%nat -> positive (m_dims arr) ->
  (List.length (m_dims arr) <= 7)%nat -> (t_class (m_ty arr) = CInt -> List.length (m_dims arr) <> 7%nat) ->
  run cv (CWrite h n arr plain) s = Go RNone s' -> (forall fl d l, assoc f (disk s) = Some fl -> ~ holds (heap fl) p (ADset d) l) ->
  m_ty room = m_ty arr -> m_dims room = m_dims arr -> sound_arr room ->
  exists b s2, run cv (CRead h n room None None) s' = Go (RArr b) s2 /\ zlen b = zlen (m_buf arr) /\
    forall j e, index_in (m_dims arr) j -> elem (m_dims arr) (m_buf arr) j = Some e -> elem (m_dims arr) b j = Some (as_type (m_ty arr) e).
Proof. exact c91_round_trip. Qed.
Print Assumptions C91_round_trip.
Example C91_round_trip_case (cs := [COpen (lit "old.h5") None; CRead 1 (lit "x") (vec [0; 0; 0]) None None; CWrite 1 (lit "g/y") {| m_ty := i4; m_dims := [2; 2]; m_buf := map n4 [1; 2; 3; 4] |} plain]) :
  works cs = true /\ match run no_cv (CRead 1 (lit "g/y") {| m_ty := i4; m_dims := [2; 2]; m_buf := map n4 [0; 0; 0; 0] |} None None) (after cs) with Go v _ => v = RArr (map n4 [1; 2; 3; 4]) | _ => False end.
Proof. vm_compute. repeat split. Qed.

(** A write with overwrite=.true. which is refused has deleted the dataset. *)
Theorem C91_lost_refuted : exists cs, works cs = true /\ current (trace cs) 1 = Some (lit "old.h5", false) /\ shown (after cs) [lit "x"] = Some ([3], [7; 8; 9], ["unit"%string]) /\
  match run no_cv (CWrite 1 (lit "x") (vec [1; 2]) (over (Some []) None)) (after cs) with Stop s' => shown s' [lit "x"] = None | _ => False end.
Proof. exists [COpen (lit "old.h5") None]. vm_compute. repeat split. Qed.
Print Assumptions C91_lost_refuted.
(** The README file says that initial_size allows to make a dataset which is larger than the array
    and to fill in the rest later. Without start and count the program is ended, and the dataset is
    left without the elements of the array. *)
Theorem C91_initial_refuted : exists cs, works cs = true /\ current (trace cs) 1 = Some (lit "old.h5", false) /\
  match run no_cv (CWrite 1 (lit "y") (vec [1; 2]) {| w_gzip := None; w_overwrite := None; w_szip := None; w_extensible := None; w_start := None; w_count := None; w_initial := Some [4]; w_chunk := None |}) (after cs) with
  | Stop s' => shown s' [lit "y"] = Some ([4], [0; 0; 0; 0], []) | _ => False end.
Proof. exists [COpen (lit "old.h5") None]. vm_compute. repeat split. Qed.
Print Assumptions C91_initial_refuted.
(** An integer array of 7 dimensions becomes a dataset of 2 dimensions. *)
Theorem C91_seven_refuted : exists cs arr, works cs = true /\ current (trace cs) 1 = Some (lit "old.h5", false) /\ m_dims arr = [1; 2; 1; 1; 1; 1; 3] /\ sound_arr arr /\
  match run no_cv (CWrite 1 (lit "y") arr plain) (after cs) with
  | Go _ s' => shown s' [lit "y"] = Some ([1; 2], [1; 2], []) | _ => False end.
Proof.
  exists [COpen (lit "old.h5") None], {| m_ty := i4; m_dims := [1; 2; 1; 1; 1; 1; 3]; m_buf := map n4 [1; 2; 3; 4; 5; 6] |}. split; [vm_compute; reflexivity|]. split; [vm_compute; reflexivity|]. split; [reflexivity|].
  split; [split; [repeat constructor; discriminate|reflexivity]|]. vm_compute. reflexivity.
Qed.
Print Assumptions C91_seven_refuted.
(** The dataset can be extended whenever the argument extensible is present, also if it is .false. *)
Theorem C91_extensible_refuted : exists cs, works cs = true /\ shown (after cs) [lit "y"] = Some ([4], [1; 2; 3; 4], []) /\
  cs = [COpen (lit "old.h5") None; CWrite 1 (lit "y") (vec [1; 2]) (with_part [1] [2] (Some false)); CWrite 1 (lit "y") (vec [3; 4]) (with_part [3] [2] None)].
Proof. eexists. split; [|split; [|reflexivity]]; vm_compute; reflexivity. Qed.
Print Assumptions C91_extensible_refuted.

(** Whatever a program has done before, hdf5_write_data on a dataset which is there already, without
    overwrite=.true., writes the elements of the array to the part of the dataset which start and
    count give, and extends the dataset with zeros if the part goes beyond it. The other elements,
    the attributes, everything else in the file and all other files stay as they are. The program is
    ended exactly if start and count are missing or the type, the array or the dataset does not allow
    this, and then no element of the dataset is lost. *)
Theorem C92_part : forall cv s0 t s h f fl n p arr o d l, fresh s0 -> sound_files s0 -> tree_files s0 -> history cv s0 t s -> (forall c r, In (c, r) t -> sound_call c) -> current t h = Some (f, false) ->
  assoc f (disk s) = Some fl -> names n p -> sound_arr arr -> positive (m_dims arr) -> (t_class (m_ty arr) = CInt -> List.length (m_dims arr) <> 7%nat) -> (forall l, w_chunk o = Some l -> (List.length l <= 7)%nat) ->
  holds (heap fl) p (ADset d) l -> w_overwrite o <> Some true -> (forall ct, w_count o = Some ct -> positive (firstn (List.length (d_dims d)) ct)) ->
  match run cv (CWrite h n arr o) s with
  | Go v s' => v = RNone /\ others_same f s s' /\
      exists fl' r st ct, assoc f (disk s') = Some fl' /\ writable fl' = writable fl /\ can_write_part d arr o st ct /\ part_written d arr st ct r /\ dataset_changed p r l (heap fl) (heap fl')
  | Stop s' => (forall st ct, ~ can_write_part d arr o st ct) /\ others_same f s s' /\
      exists fl' r, assoc f (disk s') = Some fl' /\ writable fl' = writable fl /\ still_there d r /\ dataset_changed p r l (heap fl) (heap fl')
  | Wild => False
  end.
Proof. exact c92_part. Qed.
Print Assumptions C92_part.
(** Two elements of "x" are changed and its attribute stays. A dataset of 2 by 2 numbers which can be
    extended is given a third column with its upper element. "x" cannot be extended and cannot be
    written without start and count. *)
Definition p_calls : list call :=
  [COpen (lit "old.h5") None; CWrite 1 (lit "x") (vec [1; 2; 3]) (with_part [2] [2] None);
   CWrite 1 (lit "y") {| m_ty := i4; m_dims := [2; 2]; m_buf := map n4 [1; 2; 3; 4] |} (with_part [1; 1] [2; 2] (Some true)); CWrite 1 (lit "y") (vec [5]) (with_part [1; 3] [1; 1] None)].
Example C92_part_case : works p_calls = true /\ current (trace p_calls) 1 = Some (lit "old.h5", false) /\
  shown (after p_calls) [lit "x"] = Some ([3], [7; 1; 2], ["unit"%string]) /\ shown (after p_calls) [lit "y"] = Some ([2; 3], [1; 2; 3; 4; 5; 0], []) /\
  ends (run no_cv (CWrite 1 (lit "x") (vec [1; 2]) (with_part [3] [2] None)) (after p_calls)) = 1 /\ ends (run no_cv (CWrite 1 (lit "x") (vec [1; 2; 3]) plain) (after p_calls)) = 1.
Proof. vm_compute. repeat split. Qed.
(** A refused write can leave the dataset larger than it was. *)
Theorem C92_larger_refuted : exists cs, works cs = true /\ current (trace cs) 1 = Some (lit "old.h5", false) /\ shown (after cs) [lit "y"] = Some ([2; 3], [1; 2; 3; 4; 5; 0], []) /\
  match run no_cv (CWrite 1 (lit "y") (vec [5]) (with_part [1; 4] [2; 1] None)) (after cs) with Stop s' => shown s' [lit "y"] = Some ([2; 4], [1; 2; 3; 4; 5; 0; 0; 0], []) | _ => False end.
Proof. exists p_calls. vm_compute. repeat split. Qed.
Print Assumptions C92_larger_refuted.
