(** Model of the cache of memory mapped files, python/virgo/util/read_binary.py lines
    66-87 (MemoryMappedFile), 279-329 (BinaryDataset._mmap_file) and 390-392 (close).
    File names are numbers. A mapping is a file name and whether it is open; mappings
    are referred to by their position in the list of all mappings ever made. A mapping
    which has been deallocated counts as closed (__del__, lines 77-78), and a weak
    reference to it gives None: in both cases _mmap_file does the same. [openable] says
    if a file can be opened and mapped. Not modelled: BufferError from closing a map
    while arrays made by another thread still refer to it. *)
From Verif.Base Require Import Prelude.
Local Open Scope Z_scope.

Record cstate := {
  c_maps : list (Z * bool);               (** mappings: file, open *)
  c_dsets : list (Z * option nat);        (** BinaryDataset: fname, file *)
  c_cache : list (Z * nat) }.             (** BinaryDataset.file_cache, oldest first *)

Definition is_open (maps : list (Z * bool)) (m : nat) : bool := match nth_error maps m with Some (_, o) => o | None => false end.
(** lines 79-88 *)
Definition close_map (m : nat) (maps : list (Z * bool)) : list (Z * bool) :=
  match nth_error maps m with Some (f, _) => set_nth maps m (f, false) | None => maps end.
Fixpoint find_key (f : Z) (c : list (Z * nat)) : option nat := match c with [] => None | (f', m) :: c' => if f =? f' then Some m else find_key f c' end.
Definition del_key (f : Z) (c : list (Z * nat)) : list (Z * nat) := filter (fun e => negb (f =? fst e)) c.

(** lines 321-324: popitem(last=False) on an empty dictionary is a KeyError *)
Fixpoint evict (max_files : Z) (cache : list (Z * nat)) (maps : list (Z * bool)) : list (Z * nat) * list (Z * bool) * res unit :=
  if max_files <=? zlen cache then
    match cache with
    | [] => (cache, maps, Err EKey)
    | (_, m) :: cache' => evict max_files cache' (close_map m maps)
    end
  else (cache, maps, Ok tt).

(** lines 320-329: open [fname] for dataset [d] *)
Definition open_new (openable : Z -> bool) (max_files : Z) (d : nat) (fname : Z) (s : cstate) (cache : list (Z * nat)) : cstate * res nat :=
  match evict max_files cache (c_maps s) with
  | (cache, maps, Err e) => ({| c_maps := maps; c_dsets := c_dsets s; c_cache := cache |}, Err e)
  | (cache, maps, Ok _) =>
    if openable fname then
      let m := length maps in
      ({| c_maps := maps ++ [(fname, true)]; c_dsets := set_nth (c_dsets s) d (fname, Some m); c_cache := cache ++ [(fname, m)] |}, Ok m)
    else ({| c_maps := maps; c_dsets := c_dsets s; c_cache := cache |}, Err EIO)
  end.
(** lines 295-329, for dataset [d]: the mapping used by the read which follows *)
Definition mmap_file (openable : Z -> bool) (max_files : Z) (d : nat) (s : cstate) : cstate * res nat :=
  match nth_error (c_dsets s) d with
  | None => (s, Err EIndex)
  | Some (fname, file) =>
    match (match file with Some m => if is_open (c_maps s) m then Some m else None | None => None end) with
    | Some m => (s, Ok m)
    | None =>
      match find_key fname (c_cache s) with
      | Some m =>
        if is_open (c_maps s) m then ({| c_maps := c_maps s; c_dsets := set_nth (c_dsets s) d (fname, Some m); c_cache := c_cache s |}, Ok m)
        else open_new openable max_files d fname s (del_key fname (c_cache s))
      | None => open_new openable max_files d fname s (c_cache s)
      end
    end
  end.

Inductive cop :=
  | CRead (d : nat)                       (** any indexing of dataset [d] *)
  | CClose (d : nat)                      (** close() of dataset [d] *)
  | CNew (fname : Z)                      (** a new dataset *)
  | CDrop (d : nat)                       (** dataset [d] is deallocated *)
  | CCollect (m : nat).                   (** mapping [m] is deallocated, if nothing refers to it *)
Definition run_cop (openable : Z -> bool) (max_files : Z) (s : cstate) (o : cop) : cstate :=
  match o with
  | CRead d => fst (mmap_file openable max_files d s)
  | CClose d => match nth_error (c_dsets s) d with Some (_, Some m) => {| c_maps := close_map m (c_maps s); c_dsets := c_dsets s; c_cache := c_cache s |} | _ => s end
  | CNew f => {| c_maps := c_maps s; c_dsets := c_dsets s ++ [(f, None)]; c_cache := c_cache s |}
  | CDrop d => match nth_error (c_dsets s) d with Some (f, _) => {| c_maps := c_maps s; c_dsets := set_nth (c_dsets s) d (f, None); c_cache := c_cache s |} | None => s end
  | CCollect m => if existsb (fun e : Z * option nat => match snd e with Some m' => Nat.eqb m m' | None => false end) (c_dsets s) then s
    else {| c_maps := close_map m (c_maps s); c_dsets := c_dsets s; c_cache := c_cache s |}
  end.
Definition run_cops openable max_files (ops : list cop) (s : cstate) : cstate := fold_left (run_cop openable max_files) ops s.
Definition no_files : cstate := {| c_maps := []; c_dsets := []; c_cache := [] |}.
(** lines 273 *)
Definition MAX_FILES : Z := 32.
