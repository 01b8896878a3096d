(** What becomes of a job, told from what the function does on every rank. *)
From Coq Require Import List.
Import ListNotations.
From Verif Require Import Mpi.ErrchkModel.

(** the ranks go through the same collective operations until all have returned ([Some] of what they return) or, before some operation, one raises an exception ([None]) *)
Inductive outcome {X V} : list (prog X V) -> option (list V) -> Prop :=
| outcome_return vs : outcome (map Ret vs) (Some vs)
| outcome_raise ps e : In (Raise e) ps -> outcome ps None
| outcome_round (ps : list (prog X V)) xs ks r : ps <> [] -> Forall2 (fun p xk => p = Coll (fst xk) (snd xk)) ps (combine xs ks) -> length xs = length ks ->
    outcome (map (fun k => k xs) ks) r -> outcome ps r.
(** every exception the function may raise is an Exception or a KeyboardInterrupt and can be printed *)
Inductive ordinary {X V} : prog X V -> Prop :=
| ordinary_return v : ordinary (Ret v)
| ordinary_raise e : e_kind e = Exception_ \/ e_kind e = KeyboardInterrupt -> e_str e = true -> ordinary (Raise e)
| ordinary_coll x k : (forall l, ordinary (k l)) -> ordinary (Coll x k).
(** a rank waits for ever *)
Definition hangs {X V} (j : job X V) : Prop := exists ps x k, j = Run ps /\ In (Coll x k) ps /\ forall j', ~ step j j'.
Definition over {X V} (j : job X V) : Prop := forall j', ~ step j j'.
