(** C49, C63: the parallel directory hasher, for every interleaving of the ranks. *)
From Verif Require Import Base.Prelude Base.Order Hash.HashModel Hash.HashSpec Hash.HashProofs Hash.HashFinal.
Local Open Scope Z_scope.

(** in every state that can be reached, the directories handed out so far and
    those not yet handed out are together the list of directories, in order: each
    goes to exactly one rank *)
Theorem C49_handed_once : forall (Name Path Hsh Pat Base : Type) (NOd : TOrd Name) (POd : TOrd Path) (BOd : TOrd Base)
    (fnmatch : Path -> Pat -> bool) (hash_file : Path -> option Hsh)
    a n dirs db cache s0, tree_ok dirs -> start POd BOd a n dirs db = Ok (cache, s0) ->
  forall ls s, run NOd POd fnmatch hash_file a cache ls s0 = Some s -> map snd (s_log s) ++ s_dirs s = dirs.
Proof. exact @handed_once. Qed.
Print Assumptions C49_handed_once.

(** no deadlock: either all ranks have left their loops or some rank can move *)
Theorem C49_progress : forall (Name Path Hsh Pat Base : Type) (NOd : TOrd Name) (POd : TOrd Path) (BOd : TOrd Base)
    (fnmatch : Path -> Pat -> bool) (hash_file : Path -> option Hsh)
    a n dirs db cache s0, tree_ok dirs -> start POd BOd a n dirs db = Ok (cache, s0) ->
  forall ls s, run NOd POd fnmatch hash_file a cache ls s0 = Some s ->
  finished s \/ exists l s', act NOd POd fnmatch hash_file a cache l s = Some s'.
Proof. exact @progress. Qed.
Print Assumptions C49_progress.

(** ... and no run can go on for ever *)
Theorem C49_bounded : forall (Name Path Hsh Pat Base : Type) (NOd : TOrd Name) (POd : TOrd Path) (BOd : TOrd Base)
    (fnmatch : Path -> Pat -> bool) (hash_file : Path -> option Hsh)
    a n dirs db cache s0, start POd BOd a n dirs db = Ok (cache, s0) ->
  forall ls s, run NOd POd fnmatch hash_file a cache ls s0 = Some s -> zlen ls <= 4 * zlen dirs + 3 * Z.of_nat n + 2.
Proof. exact @bounded. Qed.
Print Assumptions C49_bounded.

(** when rank 0 leaves its loop all directories are done and every worker has
    been told to stop *)
Theorem C49_all_told : forall (Name Path Hsh Pat Base : Type) (NOd : TOrd Name) (POd : TOrd Path) (BOd : TOrd Base)
    (fnmatch : Path -> Pat -> bool) (hash_file : Path -> option Hsh)
    a n dirs db cache s0, tree_ok dirs -> start POd BOd a n dirs db = Ok (cache, s0) ->
  forall ls s, run NOd POd fnmatch hash_file a cache ls s0 = Some s -> s_r0 s = RDone ->
  s_dirs s = [] /\ Forall (fun w => w = WStop \/ w = WReply None) (s_ws s).
Proof.
  exact (fun N P H T B no po bo f h a n d db c s0 t st ls s r e =>
    let r := @done_state N P H T B no po bo f h a n d db c s0 t st ls s r e in conj (proj1 r) (proj1 (proj2 r))).
Qed.
Print Assumptions C49_all_told.

(** the file with all hashes: one line for each file to be hashed, in order of path *)
Theorem C49_output : forall (Name Path Hsh Pat Base : Type) (NOd : TOrd Name) (POd : TOrd Path) (BOd : TOrd Base)
    (fnmatch : Path -> Pat -> bool) (hash_file : Path -> option Hsh)
    a n dirs db cache s0, tree_ok dirs -> start POd BOd a n dirs db = Ok (cache, s0) ->
  forall ls s, cache_ok POd hash_file cache -> run NOd POd fnmatch hash_file a cache ls s0 = Some s -> s_r0 s = RDone ->
  StronglySorted (fun x y => ltb POd (fst x) (fst y) = true) (all_dirs_lines POd s) /\
  forall p v, In (p, v) (all_dirs_lines POd s) <-> (to_hash fnmatch a dirs p /\ v = hash_file p).
Proof. exact @lines_ok. Qed.
Print Assumptions C49_output.

(** it does not depend on the number of ranks or the schedule, or on how much was
    resumed *)
Theorem C49_deterministic : forall (Name Path Hsh Pat Base : Type) (NOd : TOrd Name) (POd : TOrd Path) (BOd : TOrd Base)
    (fnmatch : Path -> Pat -> bool) (hash_file : Path -> option Hsh)
    a b n m dirs db db' c c' s0 t0 ls ms s t,
  tree_ok dirs -> start POd BOd a n dirs db = Ok (c, s0) -> start POd BOd b m dirs db' = Ok (c', t0) ->
  a_include b = a_include a -> a_exclude b = a_exclude a -> a_per_dir b = a_per_dir a -> a_all_dirs b = a_all_dirs a ->
  good_start hash_file BOd a db -> good_start hash_file BOd b db' ->
  run NOd POd fnmatch hash_file a c ls s0 = Some s -> run NOd POd fnmatch hash_file b c' ms t0 = Some t -> s_r0 s = RDone -> s_r0 t = RDone ->
  all_dirs_lines POd s = all_dirs_lines POd t.
Proof. exact @two_runs. Qed.
Print Assumptions C49_deterministic.

(** the file written in each directory lists exactly its files to be hashed *)
Theorem C49_per_dir : forall (Name Path Hsh Pat Base : Type) (NOd : TOrd Name) (POd : TOrd Path)
    (fnmatch : Path -> Pat -> bool) (hash_file : Path -> option Hsh) a cache d,
  NoDup (map fst d) -> cache_ok POd hash_file cache ->
  forall nm v, In (nm, v) (sort_by NOd fst (fst (hash_dir NOd POd fnmatch hash_file a cache d))) <->
    exists p, In (nm, p) d /\ @chosen Name Path Pat Base fnmatch a nm p /\ v = hash_file p.
Proof. exact @per_dir_ok. Qed.
Print Assumptions C49_per_dir.

(** three directories; file 13 is excluded (pattern 13), 22 cannot be read, 9 is
    the output file *)
Definition ex_dirs : list (list (Z * Z)) := [[(1, 11); (9, 9); (3, 13)]; [(1, 21); (2, 22)]; [(5, 35)]].
Definition ex_args (r : bool) : @args Z Z Z Z := {| a_base := 1; a_include := None; a_exclude := Some [13]; a_per_dir := None; a_all_dirs := Some 9; a_resume := r |}.
Definition ex_hash (p : Z) : option Z := if p =? 22 then None else Some (100 + p).
Definition ex_start (r : bool) (db : option (list (Z * Z * Z))) := start ZOrd ZOrd (ex_args r) 2 ex_dirs db.
Definition ex_sched : list label :=
  [LSend 1; L0Ask; LServe 1; LSend 0; LTake 1; LServe 0; LTake 0; LHash 0; LSend 0; L0Hash; L0Ask; LServe 0; LHash 1; LSend 1; LTake 0; LServe 1; L0Exit; LTake 1].
Example C49_ex : tree_ok ex_dirs /\
  exists cache s0 s, ex_start false (Some [(1, 11, 0); (2, 11, 5)]) = Ok (cache, s0) /\
    run ZOrd ZOrd Z.eqb ex_hash (ex_args false) cache ex_sched s0 = Some s /\ finished s /\
    all_dirs_lines ZOrd s = [(11, Some 111); (21, Some 121); (22, None); (35, Some 135)] /\
    map fst (s_log s) = [0; 2; 1]%nat /\ s_db s = Some [(1, 11, 111); (1, 35, 135); (1, 21, 121)].
Proof.
  split; [unfold tree_ok; cbn; repeat constructor; cbn; lia|]. do 3 eexists. split; [vm_compute; reflexivity|]. split; [vm_compute; reflexivity|].
  split; [split; [reflexivity|repeat constructor]|]. split; [vm_compute; reflexivity|]. split; reflexivity.
Qed.

(** C63: the database. After any number of steps it holds only right hashes, once *)
Theorem C63_rows : forall (Name Path Hsh Pat Base : Type) (NOd : TOrd Name) (POd : TOrd Path) (BOd : TOrd Base)
    (fnmatch : Path -> Pat -> bool) (hash_file : Path -> option Hsh)
    a n dirs db cache s0, tree_ok dirs -> start POd BOd a n dirs db = Ok (cache, s0) ->
  forall ls s rows, good_start hash_file BOd a db -> run NOd POd fnmatch hash_file a cache ls s0 = Some s -> s_db s = Some rows ->
  rows_ok hash_file BOd a rows.
Proof. exact @db_rows_ok. Qed.
Print Assumptions C63_rows.

(** ... at the end all of them, and rows of other runs only where resuming: a run
    that does not resume deletes those of all other directory trees too *)
Theorem C63_complete : forall (Name Path Hsh Pat Base : Type) (NOd : TOrd Name) (POd : TOrd Path) (BOd : TOrd Base)
    (fnmatch : Path -> Pat -> bool) (hash_file : Path -> option Hsh)
    a n dirs db cache s0, tree_ok dirs -> start POd BOd a n dirs db = Ok (cache, s0) ->
  forall ls s rows, good_start hash_file BOd a db -> run NOd POd fnmatch hash_file a cache ls s0 = Some s -> s_r0 s = RDone -> s_db s = Some rows ->
  (forall p h, to_hash fnmatch a dirs p -> hash_file p = Some h -> In (a_base a, p, h) rows) /\
  (forall b p h, In (b, p, h) rows -> b <> a_base a -> exists rows1, db = Some rows1 /\ a_resume a = true /\ In (b, p, h) rows1) /\
  (forall rows1 r, db = Some rows1 -> a_resume a = true -> In r rows1 -> In r rows).
Proof. exact @db_complete. Qed.
Print Assumptions C63_complete.

(** resuming a run that was stopped anywhere gives the result of a complete run *)
Theorem C63_resume : forall (Name Path Hsh Pat Base : Type) (NOd : TOrd Name) (POd : TOrd Path) (BOd : TOrd Base)
    (fnmatch : Path -> Pat -> bool) (hash_file : Path -> option Hsh)
    a b n m dirs rows c c' s0 t0 ls ms s t rows1,
  tree_ok dirs -> a_resume a = false ->
  b = {| a_base := a_base a; a_include := a_include a; a_exclude := a_exclude a; a_per_dir := a_per_dir a; a_all_dirs := a_all_dirs a; a_resume := true |} ->
  start POd BOd a n dirs (Some rows) = Ok (c, s0) -> run NOd POd fnmatch hash_file a c ls s0 = Some s -> s_db s = Some rows1 ->
  start POd BOd b m dirs (Some rows1) = Ok (c', t0) -> run NOd POd fnmatch hash_file b c' ms t0 = Some t -> s_r0 t = RDone ->
  (forall p v, In (p, v) (all_dirs_lines POd t) <-> (to_hash fnmatch a dirs p /\ v = hash_file p)) /\
  exists rows2, s_db t = Some rows2 /\ rows_ok hash_file BOd a rows2 /\
    forall p h, to_hash fnmatch a dirs p -> hash_file p = Some h -> In (a_base a, p, h) rows2.
Proof. exact @resumed. Qed.
Print Assumptions C63_resume.
Example C63_ex : exists c s0 s rows1 c' t0 t, ex_start false (Some []) = Ok (c, s0) /\
  run ZOrd ZOrd Z.eqb ex_hash (ex_args false) c (firstn 12 ex_sched) s0 = Some s /\ s_db s = Some rows1 /\ rows1 = [(1, 11, 111); (1, 35, 135)] /\
  ex_start true (Some rows1) = Ok (c', t0) /\ run ZOrd ZOrd Z.eqb ex_hash (ex_args true) c' ex_sched t0 = Some t /\ s_r0 t = RDone /\
  all_dirs_lines ZOrd t = [(11, Some 111); (21, Some 121); (22, None); (35, Some 135)] /\
  s_db t = Some [(1, 11, 111); (1, 35, 135); (1, 21, 121)].
Proof. do 7 eexists. repeat (split; [vm_compute; reflexivity|]). vm_compute. reflexivity. Qed.

(** resuming a run that was stopped before anything was stored fails *)
Theorem C63_nothing_stored_refuted : forall (Name Path Hsh Pat Base : Type) (POd : TOrd Path) (BOd : TOrd Base) (a : @args Name Path Pat Base) n dirs,
  a_resume a = true -> start (Hsh := Hsh) POd BOd a n dirs (Some []) = Err ERuntime.
Proof. intros. unfold start. rewrite H. reflexivity. Qed.
Print Assumptions C63_nothing_stored_refuted.
