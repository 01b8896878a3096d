(** C89: reading datasets with the HDF5 wrapper for Fortran. *)
From Coq Require Import Ascii String.
From Verif Require Import Base.Prelude Text.StrModel H5w.H5wModel H5w.H5wSpec H5w.H5wTable H5w.H5wFiles H5w.H5wCases H5w.H5wRead.
Local Open Scope Z_scope.
Local Open Scope list_scope.

(** Whatever a program has done before, so long as it has not overwritten a dataset of the file it
    was reading from, hdf5_read_data puts the part of the dataset asked for into the array, each
    element where its coordinates along the dimensions above 1 say, and leaves the rest of the array
    as it was. What is read is what the file holds at the time. The program is ended exactly if the
    dataset does not exist, has another type, has a part which does not fit the array or has no such
    part. Reading changes no file and nothing outside the array. *)
Theorem C89_read : forall cv s0 t s h f ro fl n p arr start count, fresh s0 -> sound_files s0 -> history cv s0 t s -> calm t -> current t h = Some (f, ro) ->
  assoc f (disk s) = Some fl -> names n p -> (List.length (trim n) <= 1000)%nat -> sound_arr arr -> positive (m_dims arr) ->
  (forall d, dataset_at (heap fl) p d -> positive (snd (part (d_dims d) start count))) ->
  match run cv (CRead h n arr start count) s with
  | Go v s' => exists d b, v = RArr b /\ dataset_at (heap fl) p d /\ can_read d arr start count /\ filled d arr start count b /\ disk s' = disk s
  | Stop s' => (forall d, dataset_at (heap fl) p d -> ~ can_read d arr start count) /\ disk s' = disk s
  | Wild => False
  end.
Proof. exact c89_read. Qed.
Print Assumptions C89_read.
(** A program which writes an array of 3 by 2 numbers into a group, reads "x" from another file and
    then reads rows 2 and 3 of the second column into an array of 1 by 3 numbers. *)
Definition ex_calls : list call :=
  [COpen (lit "old.h5") (Some true); CCreate (lit "new.h5"); CWrite 2 (lit "g/y") {| m_ty := i4; m_dims := [3; 2]; m_buf := map n4 [1; 2; 3; 4; 5; 6] |} plain;
   CRead 1 (lit "/x ") (vec [0; 0; 0]) None None].
Example C89_read_case : works ex_calls = true /\ calm (trace ex_calls) /\ current (trace ex_calls) 2 = Some (lit "new.h5", false) /\ names (lit "g/y") [lit "g"; lit "y"] /\
  results (play no_cv ex_calls [] ex_start) = Some [RHandle 1; RHandle 2; RNone; RArr (map n4 [7; 8; 9])] /\
  match run no_cv (CRead 2 (lit "g/y") {| m_ty := i4; m_dims := [1; 3]; m_buf := map n4 [91; 92; 93] |} (Some [2; 2]) (Some [2; 1])) (after ex_calls) with
  | Go v _ => v = RArr (map n4 [5; 6; 93]) | _ => False end /\
  ends (run no_cv (CRead 2 (lit "g/y") {| m_ty := i4; m_dims := [1; 3]; m_buf := map n4 [91; 92; 93] |} (Some [3; 2]) (Some [2; 1])) (after ex_calls)) = 1 /\
  ends (run no_cv (CRead 2 (lit "g/y") {| m_ty := r8; m_dims := [1; 3]; m_buf := map n4 [91; 92; 93] |} (Some [2; 2]) (Some [2; 1])) (after ex_calls)) = 1 /\
  ends (run no_cv (CRead 2 (lit "g") (vec [0; 0]) None None) (after ex_calls)) = 1.
Proof.
  split; [vm_compute; reflexivity|]. split; [|split; [vm_compute; reflexivity|split]].
  - assert (trace ex_calls = combine (rev ex_calls) [RArr (map n4 [7; 8; 9]); RNone; RHandle 2; RHandle 1]) as -> by (vm_compute; reflexivity).
    cbn [ex_calls rev app combine calm]. unfold calm_call, short. cbn [sound_call]. unfold sound_arr, full.
    split; [|split; [|split; [|split; [|exact Logic.I]]]].
    + split; [split; [repeat constructor; discriminate|reflexivity]|]. split; [|apply PeanoNat.Nat.leb_le; vm_compute; reflexivity].
      exists [lit "x"]. split; [discriminate|]. split; [|exists 1%nat; right; reflexivity]. repeat constructor; vm_compute; try discriminate; intuition discriminate.
    + split; [split; [repeat constructor; discriminate|reflexivity]|]. discriminate.
    + split; [exact Logic.I|]. split; [apply PeanoNat.Nat.leb_le; vm_compute; reflexivity|discriminate].
    + split; [exact Logic.I|]. split; [apply PeanoNat.Nat.leb_le; vm_compute; reflexivity|discriminate].
  - split; [discriminate|]. split; [|exists 0%nat; left; reflexivity]. repeat constructor; vm_compute; try discriminate; intuition discriminate.
  - vm_compute. repeat split.
Qed.
(** A program which overwrites a dataset of the file it was reading from and reads it again gets
    what was there before. *)
Theorem C89_overwrite_refuted : exists cs arr s' b, works cs = true /\
  run no_cv (CRead 1 (lit "x") arr None None) (after cs) = Go (RArr b) s' /\
  (exists fl d, assoc (lit "old.h5") (disk (after cs)) = Some fl /\ dataset_at (heap fl) [lit "x"] d /\ d_data d = map n4 [1; 2; 3]) /\ b = map n4 [7; 8; 9].
Proof.
  set (cs := [COpen (lit "old.h5") None; CRead 1 (lit "x") (vec [0; 0; 0]) None None;
              CWrite 1 (lit "x") (vec [1; 2; 3]) {| w_gzip := None; w_overwrite := Some true; w_szip := None; w_extensible := None; w_start := None; w_count := None; w_initial := None; w_chunk := None |}]).
  exists cs, (vec [0; 0; 0]). do 2 eexists. split; [vm_compute; reflexivity|]. split; [vm_compute; reflexivity|]. split; [|reflexivity].
  do 2 eexists. split; [vm_compute; reflexivity|]. split.
  - apply look_dataset. vm_compute. reflexivity.
  - vm_compute. reflexivity.
Qed.
Print Assumptions C89_overwrite_refuted.
Definition e_calls : list call := [CCreate (lit "new.h5"); CWrite 1 (lit "e") (vec []) plain; CWrite 1 (lit "one") (vec [4]) plain].
(** A dataset of one dimension without elements can be written but not read, though it fits the
    array. *)
Theorem C89_empty_refuted : exists cs fl d, works cs = true /\ current (trace cs) 1 = Some (lit "new.h5", false) /\ assoc (lit "new.h5") (disk (after cs)) = Some fl /\
  dataset_at (heap fl) [lit "e"] d /\ can_read d (vec []) None None /\ ends (run no_cv (CRead 1 (lit "e") (vec []) None None) (after cs)) = 1.
Proof.
  exists e_calls. do 2 eexists. split; [vm_compute; reflexivity|]. split; [vm_compute; reflexivity|]. split; [vm_compute; reflexivity|].
  split; [apply look_dataset; vm_compute; reflexivity|]. split; [|vm_compute; reflexivity].
  split; [exact Logic.I|]. split; [repeat split; discriminate|]. split; [constructor|]. repeat constructor; discriminate.
Qed.
Print Assumptions C89_empty_refuted.
(** Reading a dataset of one element into an array without elements writes outside the array. *)
Theorem C89_no_room_refuted : exists cs, works cs = true /\ current (trace cs) 1 = Some (lit "new.h5", false) /\ run no_cv (CRead 1 (lit "one") (vec []) None None) (after cs) = Wild.
Proof. exists e_calls. split; [vm_compute; reflexivity|]. split; vm_compute; reflexivity. Qed.
Print Assumptions C89_no_room_refuted.
(** The README file says that the array may be larger than the dataset; not if the dataset has one
    element. *)
Theorem C89_larger_refuted : exists cs fl d, works cs = true /\ current (trace cs) 1 = Some (lit "new.h5", false) /\ assoc (lit "new.h5") (disk (after cs)) = Some fl /\
  dataset_at (heap fl) [lit "one"] d /\ type_fits (d_ty d) i4 /\ Forall2 Z.le (d_dims d) [2] /\ ends (run no_cv (CRead 1 (lit "one") (vec [1; 2]) None None) (after cs)) = 1.
Proof.
  exists e_calls. do 2 eexists. split; [vm_compute; reflexivity|]. split; [vm_compute; reflexivity|]. split; [vm_compute; reflexivity|].
  split; [apply look_dataset; vm_compute; reflexivity|]. split; [repeat split; discriminate|]. split; [|vm_compute; reflexivity]. repeat constructor; discriminate.
Qed.
Print Assumptions C89_larger_refuted.
