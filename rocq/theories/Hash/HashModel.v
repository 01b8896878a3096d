(** Model of consistency_check/hash/hash_dirs_mpi.py: the program that hashes all
    files of a directory tree, directories being handed out to MPI ranks by rank 0.

    The ranks run independently, so the program is a transition system. A state
    holds rank 0's variables, the point each rank has reached and the messages in
    flight; [act] lets one rank take one step, and every interleaving of steps is
    a list of labels.

    Simplified: a worker blocks on the reply to the one message it has sent, so
    the message in flight is kept with the state of the worker. Rank 0 receives a
    request, stores its hashes, takes the next directory and sends it in one step,
    as no other rank can see the difference. Iprobe may miss a message that has
    been sent (the step is just taken later). The directory tree does not change
    while the program runs, so the os.walk generator is the list of directories
    it yields. The text of the output files (time, host name, layout of lines) is
    reduced to the list of (name, hash) entries. An exception ends the run. *)
From Verif Require Import Base.Prelude Base.Order.
Local Open Scope Z_scope.

(** ** dictionaries: association lists in order of insertion *)
Section Dict.
  Context {K V : Type} (Od : TOrd K).
  Fixpoint dget (d : list (K * V)) (k : K) : option V :=
    match d with [] => None | (k', v) :: d' => if eqb Od k' k then Some v else dget d' k end.
  (** d[k] = v *)
  Fixpoint dset (d : list (K * V)) (k : K) (v : V) : list (K * V) :=
    match d with [] => [(k, v)] | (k', v') :: d' => if eqb Od k' k then (k', v) :: d' else (k', v') :: dset d' k v end.
  (** d.update(e) *)
  Definition dupdate (d e : list (K * V)) : list (K * V) := fold_left (fun d kv => dset d (fst kv) (snd kv)) e d.
  Definition din (d : list (K * V)) (k : K) : bool := match dget d k with Some _ => true | None => false end.
End Dict.

Section Hash.
  (** names of files in a directory, relative paths, hash values, patterns, and
      (basedir, hash type) pairs *)
  Context {Name Path Hsh Pat Base : Type} (NOd : TOrd Name) (POd : TOrd Path) (BOd : TOrd Base).
  (** oracles: fnmatch(path, normpath(pattern)) and hash_file, None for an IOError *)
  Variable fnmatch : Path -> Pat -> bool.
  Variable hash_file : Path -> option Hsh.

  (** one directory yielded by os.walk: for each file its name and the path
      relative to basedir (line 169) *)
  Definition dir : Type := list (Name * Path).

  (** the arguments of recursive_hash *)
  Record args := { a_base : Base; a_include : option (list Pat); a_exclude : option (list Pat);
                   a_per_dir : option Name; a_all_dirs : option Path; a_resume : bool }.

  (** lines 170-175 *)
  Definition is_out_file (a : args) (np : Name * Path) : bool :=
    match a_all_dirs a with Some f => eqb POd (snd np) f | None => false end ||
    match a_per_dir a with Some f => eqb NOd (fst np) f | None => false end.

  (** lines 177-184 *)
  Definition do_file (a : args) (p : Path) : bool :=
    let b := match a_include a with None => true | Some inc => existsb (fnmatch p) inc end in
    match a_exclude a with None => b | Some exc => if existsb (fnmatch p) exc then false else b end.

  (** lines 157-227: the hashes by name (written to per_dir_file) and by path *)
  Definition hash_dir (a : args) (cache : list (Path * Hsh)) (d : dir)
    : list (Name * option Hsh) * list (Path * option Hsh) :=
    fold_left (fun acc np =>
      if is_out_file a np then acc
      else if do_file a (snd np) then
        let this := match dget POd cache (snd np) with Some h => Some h | None => hash_file (snd np) end in
        (dset NOd (fst acc) (fst np) this, dset POd (snd acc) (snd np) this)
      else acc) d ([], []).

  (** what a worker is doing: about to send a request with the hashes [h] of its
      last directory; waiting, its message with rank 0; waiting, the reply on its
      way; hashing a directory; out of the loop *)
  Inductive wstate :=
  | WAsk (h : option (list (Path * option Hsh)))
  | WSent (h : option (list (Path * option Hsh)))
  | WReply (d : option dir)
  | WWork (d : dir)
  | WStop.
  (** rank 0: about to ask itself for a directory; hashing (and serving requests
      between blocks of data); in the last loop (lines 261-263); finished *)
  Inductive r0state :=
  | RAsk (h : option (list (Path * option Hsh)))
  | RWork (d : dir)
  | RDrain
  | RDone.

  (** rows of the table hashes *)
  Definition row : Type := (Base * Path * Hsh)%type.

  Record st := { s_dirs : list dir; s_hashes : list (Path * option Hsh); s_db : option (list row); s_fin : Z;
                 s_r0 : r0state; s_ws : list wstate; s_log : list (nat * dir) }.

  (** lines 79-91 *)
  Definition new_rows (a : args) (cache : list (Path * Hsh)) (h : list (Path * option Hsh)) : list row :=
    flat_map (fun pv => if din POd cache (fst pv) then [] else match snd pv with Some v => [(a_base a, fst pv, v)] | None => [] end) h.
  Definition store_hashes (a : args) (cache : list (Path * Hsh)) (h : option (list (Path * option Hsh)))
      (hashes : list (Path * option Hsh)) (db : option (list row)) : list (Path * option Hsh) * option (list row) :=
    match h with
    | None => (hashes, db)
    | Some h => (dupdate POd hashes h, match db with Some rows => Some (rows ++ new_rows a cache h) | None => None end)
    end.

  Inductive label := LSend (k : nat) | LServe (k : nat) | LTake (k : nat) | LHash (k : nat) | L0Ask | L0Hash | L0Exit.

  (** one step of the program; [s_log] records to which rank each directory went *)
  Definition act (a : args) (cache : list (Path * Hsh)) (l : label) (s : st) : option st :=
    match l with
    (* line 103 *)
    | LSend k => match nth_error (s_ws s) k with
        | Some (WAsk h) => Some {| s_dirs := s_dirs s; s_hashes := s_hashes s; s_db := s_db s; s_fin := s_fin s; s_r0 := s_r0 s;
                                   s_ws := set_nth (s_ws s) k (WSent h); s_log := s_log s |}
        | _ => None end
    (* lines 118-128, called from hash_file (line 144) and from line 262 *)
    | LServe k => match s_r0 s with RWork _ | RDrain =>
        match nth_error (s_ws s) k with
        | Some (WSent h) =>
            let '(hashes, db) := store_hashes a cache h (s_hashes s) (s_db s) in
            match s_dirs s with
            | d :: dirs => Some {| s_dirs := dirs; s_hashes := hashes; s_db := db; s_fin := s_fin s; s_r0 := s_r0 s;
                                   s_ws := set_nth (s_ws s) k (WReply (Some d)); s_log := s_log s ++ [(S k, d)] |}
            | [] => Some {| s_dirs := []; s_hashes := hashes; s_db := db; s_fin := s_fin s + 1; s_r0 := s_r0 s;
                            s_ws := set_nth (s_ws s) k (WReply None); s_log := s_log s |}
            end
        | _ => None end
      | _ => None end
    (* lines 104 and 252-258 *)
    | LTake k => match nth_error (s_ws s) k with
        | Some (WReply d) => Some {| s_dirs := s_dirs s; s_hashes := s_hashes s; s_db := s_db s; s_fin := s_fin s; s_r0 := s_r0 s;
                                     s_ws := set_nth (s_ws s) k (match d with Some d => WWork d | None => WStop end); s_log := s_log s |}
        | _ => None end
    (* line 254 *)
    | LHash k => match nth_error (s_ws s) k with
        | Some (WWork d) => Some {| s_dirs := s_dirs s; s_hashes := s_hashes s; s_db := s_db s; s_fin := s_fin s; s_r0 := s_r0 s;
                                    s_ws := set_nth (s_ws s) k (WAsk (Some (snd (hash_dir a cache d)))); s_log := s_log s |}
        | _ => None end
    (* lines 105-107 *)
    | L0Ask => match s_r0 s with
        | RAsk h =>
            let '(hashes, db) := store_hashes a cache h (s_hashes s) (s_db s) in
            match s_dirs s with
            | d :: dirs => Some {| s_dirs := dirs; s_hashes := hashes; s_db := db; s_fin := s_fin s; s_r0 := RWork d; s_ws := s_ws s; s_log := s_log s ++ [(0%nat, d)] |}
            | [] => Some {| s_dirs := []; s_hashes := hashes; s_db := db; s_fin := s_fin s; s_r0 := RDrain; s_ws := s_ws s; s_log := s_log s |}
            end
        | _ => None end
    | L0Hash => match s_r0 s with
        | RWork d => Some {| s_dirs := s_dirs s; s_hashes := s_hashes s; s_db := s_db s; s_fin := s_fin s; s_r0 := RAsk (Some (snd (hash_dir a cache d)));
                             s_ws := s_ws s; s_log := s_log s |}
        | _ => None end
    (* line 131 returns False; when it returns True the loop of line 262 goes
       round again and nothing changes *)
    | L0Exit => match s_r0 s with
        | RDrain => if s_fin s <? zlen (s_ws s) then None
                    else Some {| s_dirs := s_dirs s; s_hashes := s_hashes s; s_db := s_db s; s_fin := s_fin s; s_r0 := RDone; s_ws := s_ws s; s_log := s_log s |}
        | _ => None end
    end.

  Fixpoint run (a : args) (cache : list (Path * Hsh)) (ls : list label) (s : st) : option st :=
    match ls with [] => Some s | l :: ls' => match act a cache l s with Some s' => run a cache ls' s' | None => None end end.

  (** lines 38-72: the database (None if there is none), the broadcast cache and
      the state in which the ranks enter the loop *)
  Definition start (a : args) (nworkers : nat) (dirs : list dir) (db : option (list row)) : res (list (Path * Hsh) * st) :=
    let cache := match db with
      | Some rows => if a_resume a then dupdate POd [] (map (fun r => (snd (fst r), snd r)) (filter (fun r => eqb BOd (fst (fst r)) (a_base a)) rows)) else []
      | None => [] end in
    let db' := match db with Some rows => Some (if a_resume a then rows else []) | None => None end in
    do _ <- check (negb (a_resume a && (zlen cache =? 0))) ERuntime;
    Ok (cache, {| s_dirs := dirs; s_hashes := []; s_db := db'; s_fin := 0; s_r0 := RAsk None; s_ws := repeat (WAsk None) nworkers; s_log := [] |}).

  (** lines 266-275: the lines of the file with all hashes *)
  Definition all_dirs_lines (s : st) : list (Path * option Hsh) := sort_by POd fst (s_hashes s).
End Hash.
Arguments st : clear implicits.
