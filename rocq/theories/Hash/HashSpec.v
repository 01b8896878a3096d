(** What the parallel hasher should produce, stated without its protocol. *)
From Verif Require Import Base.Prelude Base.Order Hash.HashModel.
Local Open Scope Z_scope.

Section Spec.
  Context {Name Path Hsh Pat Base : Type} (POd : TOrd Path).
  Variable fnmatch : Path -> Pat -> bool.
  Variable hash_file : Path -> option Hsh.
  Notation dir := (list (Name * Path)).

  (** the files to hash: not an output file, included and not excluded *)
  Definition chosen (a : @args Name Path Pat Base) (n : Name) (p : Path) : Prop :=
    a_all_dirs a <> Some p /\ a_per_dir a <> Some n /\
    (forall inc, a_include a = Some inc -> exists pat, In pat inc /\ fnmatch p pat = true) /\
    (forall exc, a_exclude a = Some exc -> forall pat, In pat exc -> fnmatch p pat = false).

  (** path [p] is a file of the tree that is to be hashed *)
  Definition to_hash (a : @args Name Path Pat Base) (dirs : list dir) (p : Path) : Prop :=
    exists n, In (n, p) (concat dirs) /\ chosen a n p.

  (** no two files of the tree have the same path *)
  Definition tree_ok (dirs : list dir) : Prop := NoDup (map snd (concat dirs)).

  (** the rows of the database that belong to this directory tree and hash type *)
  Definition mine (BOd : TOrd Base) (a : @args Name Path Pat Base) (rows : list (Base * Path * Hsh)) : list (Base * Path * Hsh) :=
    filter (fun r => eqb BOd (fst (fst r)) (a_base a)) rows.
  (** ... are right: no path has two, and each has the file's hash *)
  Definition rows_ok (BOd : TOrd Base) (a : @args Name Path Pat Base) (rows : list (Base * Path * Hsh)) : Prop :=
    NoDup (map (fun r => snd (fst r)) (mine BOd a rows)) /\
    forall r, In r (mine BOd a rows) -> hash_file (snd (fst r)) = Some (snd r).

  (** a run that resumes starts from right rows *)
  Definition good_start (BOd : TOrd Base) (a : @args Name Path Pat Base) (db : option (list (Base * Path * Hsh))) : Prop :=
    forall rows, db = Some rows -> a_resume a = true -> rows_ok BOd a rows.

  (** the cached hashes are the files' hashes *)
  Definition cache_ok (cache : list (Path * Hsh)) : Prop := forall p h, dget POd cache p = Some h -> hash_file p = Some h.

  (** all ranks have left their loops *)
  Definition finished (s : st Name Path Hsh Base) : Prop := s_r0 s = RDone /\ Forall (fun w => w = WStop) (s_ws s).
End Spec.
