(** python/virgo/mpi/errchk.py: the decorator mpi_errchk, and how a job of several ranks goes on when one of them fails.

    Simplifications.  What a function does on one rank is a tree: it returns, raises an exception, calls Comm.Abort, or takes part in a collective operation, in which it
    learns what the other ranks contributed.  A collective operation completes when every rank has come to it.  A rank which has returned, or whose exception
    nobody caught, takes part in no further operation.  Abort ends all ranks and does not return.  Messages are not modelled, apart from the call str(e), which may itself fail. *)
From Coq Require Import List.
Import ListNotations.

(** the classes at the top of python's exceptions *)
Inductive kind := Exception_ | KeyboardInterrupt | SystemExit | GeneratorExit.
(** an exception, and whether str(e) works *)
Record exc := { e_kind : kind; e_str : bool }.
Inductive prog (X V : Type) := Ret (v : V) | Raise (e : exc) | Abort | Coll (x : X) (k : list X -> prog X V).
Arguments Ret {X V}. Arguments Raise {X V}. Arguments Abort {X V}. Arguments Coll {X V}.

(** line 16: except (Exception, KeyboardInterrupt) *)
Definition caught (k : kind) : bool := match k with Exception_ | KeyboardInterrupt => true | SystemExit | GeneratorExit => false end.
(** lines 17-22: line 18 calls str(e); if that fails, its exception leaves the function *)
Definition handler {X V} (e : exc) : prog X V := if e_str e then Abort else Raise {| e_kind := Exception_; e_str := true |}.
(** lines 13-22: func_wrapper *)
Fixpoint wrapper {X V} (p : prog X V) : prog X V :=
  match p with
  | Ret v => Ret v
  | Raise e => if caught (e_kind e) then handler e else Raise e
  | Abort => Abort
  | Coll x k => Coll x (fun l => wrapper (k l))
  end.

(** a job: what the ranks have yet to do, or nothing after Abort(1) *)
Inductive job (X V : Type) := Run (ps : list (prog X V)) | Killed.
Arguments Run {X V}. Arguments Killed {X V}.
Fixpoint meet {X V} (xs : list X) (ks : list (list X -> prog X V)) : list (prog X V) :=
  match xs, ks with x :: xs, k :: ks => Coll x k :: meet xs ks | _, _ => [] end.
Inductive step {X V} : job X V -> job X V -> Prop :=
| step_abort ps : In Abort ps -> step (Run ps) Killed
| step_coll xs ks : xs <> [] -> length xs = length ks -> step (Run (meet xs ks)) (Run (map (fun k => k xs) ks)).
Inductive steps {X V} : nat -> job X V -> job X V -> Prop :=
| steps_none j : steps 0 j j
| steps_more n i j k : step i j -> steps n j k -> steps (S n) i k.
