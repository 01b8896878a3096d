(** C88: the table of open files of the HDF5 wrapper for Fortran. *)
From Coq Require Import Ascii String.
From Verif Require Import Base.Prelude Text.StrModel H5w.H5wModel H5w.H5wSpec H5w.H5wTable H5w.H5wFiles H5w.H5wCases.
Local Open Scope Z_scope.
Local Open Scope list_scope.

(** Whatever calls a program has made, hdf5_open_file gives out the lowest of the handles 1 to 1000
    which is not in use. It ends the program exactly if no handle is free or the file cannot be
    opened: it must exist, and to be opened for writing it must be writable and not be open for
    reading only. The files are left as they are. *)
Theorem C88_open : forall cv s0 t s f r, fresh s0 -> history cv s0 t s ->
  match run cv (COpen f r) s with
  | Go v s' => exists h, v = RHandle h /\ lowest_free t h /\ can_open t s (trim f) (ro_of r) /\ disk s' = disk s
  | Stop s' => ~ (can_open t s (trim f) (ro_of r) /\ some_free t) /\ disk s' = disk s
  | Wild => False
  end.
Proof. exact c88_open. Qed.
Print Assumptions C88_open.
(** Three files are opened, the second is closed, and the next one gets its handle. A file which is
    open for reading only cannot be opened for writing, nor can one without permission. *)
Example C88_open_case (cs := [COpen (lit "old.h5") (Some true); CCreate (lit "new.h5"); COpen (lit "locked.h5  ") (Some true); CClose 2; COpen (lit "new.h5") None]) :
  works cs = true /\ results (play no_cv cs [] ex_start) = Some [RHandle 1; RHandle 2; RHandle 3; RNone; RHandle 2] /\
  current (trace cs) 3 = Some (lit "locked.h5", true) /\ current (trace cs) 2 = Some (lit "new.h5", false) /\
  ends (run no_cv (COpen (lit "old.h5") None) (after cs)) = 1 /\ ends (run no_cv (COpen (lit "new.h5") None) (after cs)) = 0 /\
  ends (run no_cv (COpen (lit "locked.h5") None) ex_start) = 1 /\ ends (run no_cv (COpen (lit "none.h5") None) (after cs)) = 1.
Proof. vm_compute. repeat split. Qed.

(** hdf5_create_file also gives out the lowest free handle. It ends the program exactly if no
    handle is free, if the file is already open or if there is one which cannot be written.
    Afterwards the file holds an empty root group, and no other file has changed. A program which
    has a handle left and is ended has changed nothing. *)
Theorem C88_create : forall cv s0 t s f, fresh s0 -> history cv s0 t s ->
  match run cv (CCreate f) s with
  | Go v s' => exists h, v = RHandle h /\ lowest_free t h /\ can_create t s (trim f) /\ assoc (trim f) (disk s') = Some empty_file /\ others_same (trim f) s s'
  | Stop s' => ~ (can_create t s (trim f) /\ some_free t) /\ others_same (trim f) s s' /\ (some_free t -> disk s' = disk s)
  | Wild => False
  end.
Proof. exact c88_create. Qed.
Print Assumptions C88_create.
Example C88_create_case (cs := [COpen (lit "old.h5") None; CClose 1; CCreate (lit "old.h5"); CCreate (lit "a")]) :
  works cs = true /\ results (play no_cv cs [] ex_start) = Some [RHandle 1; RNone; RHandle 1; RHandle 2] /\
  assoc (lit "old.h5") (disk (after cs)) = Some empty_file /\ ends (run no_cv (CCreate (lit "a")) (after cs)) = 1 /\ ends (run no_cv (CCreate (lit "locked.h5")) (after cs)) = 1.
Proof. vm_compute. repeat split. Qed.

(** With 1000 files open a further hdf5_create_file empties the file before it ends the program. *)
Theorem C88_full : forall cv s0 t s f, fresh s0 -> history cv s0 t s -> ~ some_free t -> can_create t s (trim f) ->
  exists s', run cv (CCreate f) s = Stop s' /\ assoc (trim f) (disk s') = Some empty_file.
Proof. exact c88_full. Qed.
Print Assumptions C88_full.
(** 1000 times the same file for reading. *)
Example C88_full_case (cs := repeat (COpen (lit "z") (Some true)) 1000) :
  match play no_cv cs [] ex_start with
  | Some (t, s) =>
      forallb (fun h => match current t h with Some _ => true | None => false end) (zseq 1 1000) = true /\
      match run no_cv (CCreate (lit "old.h5")) s with Stop s' => assoc (lit "old.h5") (disk s') = Some empty_file | _ => False end
  | None => False
  end.
Proof. vm_compute. split; reflexivity. Qed.

(** hdf5_close_file never fails on a handle which is in use, always ends the program on one which
    is not, and leaves the files as they are. *)
Theorem C88_close : forall cv s0 t s h, fresh s0 -> history cv s0 t s ->
  (current t h <> None -> exists s', run cv (CClose h) s = Go RNone s' /\ disk s' = disk s) /\
  (current t h = None -> exists s', run cv (CClose h) s = Stop s' /\ disk s' = disk s).
Proof. exact c88_close. Qed.
Print Assumptions C88_close.
(** The identifier given by hdf5_get_file_id is the one HDF5 knows the file by, open for writing
    unless the file was opened for reading only. *)
Theorem C88_file_id : forall cv s0 t s h f ro, fresh s0 -> history cv s0 t s -> current t h = Some (f, ro) ->
  exists id, run cv (CFileId h) s = Go (RHandle id) s /\ zassoc id (lib s) = Some (f, negb ro).
Proof. exact file_id_spec. Qed.
Print Assumptions C88_file_id.
Example C88_file_id_case (cs := [COpen (lit "old.h5") None; CCreate (lit "a"); CRead 1 (lit "x") (vec [0; 0; 0]) None None; CClose 1; COpen (lit "old.h5") (Some true)]) :
  works cs = true /\ current (trace cs) 1 = Some (lit "old.h5", true) /\ current (trace cs) 2 = Some (lit "a", false) /\
  ends (run no_cv (CClose 1) (after cs)) = 0 /\ ends (run no_cv (CClose 3) (after cs)) = 1 /\ ends (run no_cv (CClose 1001) (after cs)) = 1 /\
  match run no_cv (CFileId 1) (after cs) with Go v _ => v = RHandle 102 | _ => False end.
Proof. vm_compute. repeat split. Qed.

(** A call through a handle which is not in use changes no file. All routines but two end the
    program: hdf5_create_group does not look whether the file is open, and hdf5_get_file_id returns
    a number if no file has been opened before. *)
Theorem C88_closed : forall cv s0 t s c h, fresh s0 -> history cv s0 t s -> handle_of c = Some h -> current t h = None ->
  match run cv c s with
  | Go _ s' => s' = s /\ match c with CGroup _ _ => True | CFileId _ => opened t = false | _ => False end
  | Stop s' => disk s' = disk s
  | Wild => match c with CGroup _ _ => True | CWrite _ _ _ _ => opened t = false | _ => False end
  end.
Proof. exact c88_closed. Qed.
Print Assumptions C88_closed.
Example C88_closed_case (cs := [COpen (lit "old.h5") None; CRead 1 (lit "x") (vec [0; 0; 0]) None None; CClose 1]) :
  works cs = true /\ current (trace cs) 1 = None /\ ends (run no_cv (CRead 1 (lit "x") (vec [0; 0; 0]) None None) (after cs)) = 1 /\
  ends (run no_cv (CGroup 1 (lit "/")) (after cs)) = 0 /\ ends (run no_cv (CGroup 1 (lit "g")) (after cs)) = 1 /\
  ends (run no_cv (CFileId 1) ex_start) = 0 /\ ends (run no_cv (CFileId 1) (after cs)) = 1.
Proof. vm_compute. repeat split. Qed.

(** Through a handle opened for reading only, the routines which write end the program and change
    nothing at all. *)
Theorem C88_read_only : forall cv s0 t s c h f, fresh s0 -> history cv s0 t s -> handle_of c = Some h -> current t h = Some (f, true) -> writes c = true ->
  run cv c s = Stop s.
Proof. exact c88_read_only. Qed.
Print Assumptions C88_read_only.
(** A call through a handle changes no file but the one the handle stands for, which stays in
    place, and only the routines which write change that one. *)
Theorem C88_one_file : forall cv s0 t s c h f ro, fresh s0 -> history cv s0 t s -> handle_of c = Some h -> current t h = Some (f, ro) ->
  match run cv c s with Go _ s' | Stop s' => others_same f s s' /\ assoc f (disk s') <> None /\ (writes c = false -> disk s' = disk s) | Wild => True end.
Proof. exact c88_one_file. Qed.
Print Assumptions C88_one_file.
Example C88_one_file_case (cs := [COpen (lit "old.h5") (Some true); CCreate (lit "new.h5"); CWrite 2 (lit "g/y") (vec [1; 2]) plain]) :
  works cs = true /\ current (trace cs) 1 = Some (lit "old.h5", true) /\ current (trace cs) 2 = Some (lit "new.h5", false) /\
  ends (run no_cv (CGroup 1 (lit "/")) (after cs)) = 1 /\ assoc (lit "new.h5") (disk (after cs)) <> Some empty_file.
Proof. vm_compute. repeat split. discriminate. Qed.
