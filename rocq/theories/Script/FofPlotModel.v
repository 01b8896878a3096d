(** Model of examples/millennium/python/plot_fof_group.py (lines 12-61) from the bytes of the
    files, and of the line of examples/millennium/python/check_units.py (line 64) which removes the
    hash keys from ids.

    Simplified: the file names are not modelled; a missing file is None. A file is read when
    the arrays are used, and [ifof] is an argument; the plot itself is left out. The exceptions
    of class Exception are ERuntime. [d[a:b]] is [d[...][a:b]]. *)
From Coq Require Import Ascii String.
From Verif Require Import Base.Prelude Base.Order Base.NdArray Binary.BinModel Formats.ReaderModel Multi.GroupCatModel Psort.UniqueModel Util.UMatchModel Snap.MillModel.
Local Open Scope Z_scope.

(** addition of two numpy scalars of type int32 *)
Definition add32 (a b : Z) : Z := (a + b + 2 ^ 31) mod 2 ^ 32 - 2 ^ 31.
(** np.left_shift of a uint64; np.right_shift is Z.shiftr *)
Definition left64 (v n : Z) : Z := Z.shiftl v n mod 2 ^ 64.

Section Plot.
  Variable little : bool.
  (** the files of the snapshot, the group_tab file, the sub_ids file *)
  Variable files : Z -> option (list Z).
  Variable group_tab sub_ids : option (list Z).
  (** np.argsort, used by match *)
  Variable np_argsort : list Z -> list Z.

  (** mill.GroupTabFile(fname) and mill.SubIDsFile(fname), sims/millennium.py lines 14-42 *)
  Definition open_as (f : option (list Z)) (p : prog) : res (list Z * file) :=
    match f with
    | None => Err EIO
    | Some content => match open_file little content p with (o, Ok _) => Ok (content, o) | (_, Err e) => Err e end
    end.
  (** lines 34-35: hash key and particle id *)
  Definition key_part (v : Z) : Z := Z.shiftr v 34.
  Definition id_part (v : Z) : Z := Z.shiftr (left64 v 30) 30.

  (** positions and velocities of the particles in the group *)
  Definition plot_fof_group (ifof : Z) : res (list (list Z) * list (list Z)) :=
    (* lines 18-21 *)
    do (c1, grouptab) <- open_as group_tab lgadget2_group_tab;
    do len <- array_of little c1 grouptab "GroupLen";
    do offset <- array_of little c1 grouptab "GroupOffset";
    let fof_len := map signed32 (data len) in
    let fof_offset := map signed32 (data offset) in
    (* lines 26-28 *)
    do (c2, subids) <- open_as sub_ids (lgadget2_sub_ids 8);
    do o <- py_nth fof_offset ifof;
    do l <- py_nth fof_len ifof;
    do all <- array_of little c2 subids "GroupIDs";
    let ids := pyslice (data all) o (add32 o l) in
    (* lines 33-38 *)
    let hash_key := map key_part ids in
    let ids := map id_part ids in
    let keys_to_read := map fst (np_unique ZOrd hash_key) in
    (* lines 41-42 *)
    do snap <- snapshot_init little files;
    do (snap_pos, snap_vel, snap_ids) <- snd (snap_read_cells little files snap (new_table snap) keys_to_read);
    let snap_ids := map (fun r => nth 0 r 0) snap_ids in
    (* line 48 *)
    do ptr <- match_ ZOrd (np_argsort snap_ids) false None ids snap_ids;
    (* lines 52-53 *)
    do _ <- check (negb (existsb (fun p => p <? 0) ptr)) ERuntime;
    (* lines 56-57 *)
    do found <- np_take snap_ids ptr;
    do _ <- check (forallb (fun x => fst x =? snd x) (combine ids found)) ERuntime;
    (* lines 60-61 *)
    do pos <- np_take snap_pos ptr;
    do vel <- np_take snap_vel ptr;
    Ok (pos, vel).
End Plot.

(** check_units.py line 64: groupids = (groupids << 34) >> 34 *)
Definition check_units_id (v : Z) : Z := Z.shiftr (left64 v 34) 34.
