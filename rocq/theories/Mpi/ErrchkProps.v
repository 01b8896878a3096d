(** C104: a job whose function has the decorator mpi_errchk does not hang when a rank fails. *)
From Coq Require Import List.
Import ListNotations.
From Verif Require Import Mpi.ErrchkModel Mpi.ErrchkSpec Mpi.ErrchkFinal.

(** If every rank returns, so do the functions with the decorator, with the same values. If some
    rank raises an exception before the ranks have returned, all ranks are ended by Abort. In either
    case the job ends in every execution, after a limited number of steps, and no rank ever waits
    for one which has failed. *)
Theorem C104_errchk : forall {X V} (ps : list (prog X V)) r, outcome ps r -> Forall ordinary ps ->
  exists n, forall m j, steps m (Run (map wrapper ps)) j ->
    m <= n /\ ~ hangs j /\ (over j <-> j = match r with Some vs => Run (map Ret vs) | None => Killed end) /\
    exists m', steps m' j (match r with Some vs => Run (map Ret vs) | None => Killed end).
Proof. exact @c104_errchk. Qed.
Print Assumptions C104_errchk.
(** Three ranks add up their numbers; one then raises an exception while the others go on to a
    barrier. *)
Definition adds (x : nat) (p : nat -> prog nat nat) : prog nat nat := Coll x (fun l => p (list_sum l)).
Definition fails : list (prog nat nat) := [adds 1 (fun t => Coll 0 (fun _ => Ret t)); adds 2 (fun t => Raise {| e_kind := Exception_; e_str := true |}); adds 4 (fun t => Coll 0 (fun _ => Ret t))].
Definition works : list (prog nat nat) := [adds 1 (fun t => Ret (t + 1)); adds 2 (fun t => Ret t); adds 4 (fun t => Ret t)].
Example C104_errchk_case : outcome fails None /\ Forall ordinary fails /\ outcome works (Some [8; 7; 7]) /\ Forall ordinary works /\
  steps 2 (Run (map wrapper fails)) Killed /\ steps 1 (Run (map wrapper works)) (Run (map Ret [8; 7; 7])).
Proof.
  split; [|split; [|split; [|split; [|split]]]].
  - eapply (outcome_round _ [1; 2; 4] [_; _; _]); [discriminate|repeat constructor|reflexivity|]. eapply outcome_raise. right. left. reflexivity.
  - repeat constructor.
  - eapply (outcome_round _ [1; 2; 4] [_; _; _]); [discriminate|repeat constructor|reflexivity|]. exact (outcome_return [8; 7; 7]).
  - repeat constructor.
  - eapply steps_more; [apply (step_coll [1; 2; 4] [_; _; _]); [discriminate|reflexivity]|]. eapply steps_more; [apply step_abort; right; left; reflexivity|apply steps_none].
  - eapply steps_more; [apply (step_coll [1; 2; 4] [_; _; _]); [discriminate|reflexivity]|]. apply steps_none.
Qed.

(** Without the decorator the other ranks wait for ever. *)
Theorem C104_plain_refuted : exists (ps : list (prog nat nat)), outcome ps None /\ Forall ordinary ps /\ hangs (Run ps).
Proof.
  exists [Raise {| e_kind := Exception_; e_str := true |}; Coll 0 (fun _ => Ret 0)]. split; [eapply outcome_raise; left; reflexivity|]. split; [repeat constructor|]. apply waits. now left.
Qed.
Print Assumptions C104_plain_refuted.
(** The decorator lets SystemExit through: after sys.exit on one rank the others wait for ever. *)
Theorem C104_exit_refuted : exists (ps : list (prog nat nat)), outcome ps None /\ In (Raise {| e_kind := SystemExit; e_str := true |}) ps /\ hangs (Run (map wrapper ps)).
Proof.
  exists [Raise {| e_kind := SystemExit; e_str := true |}; Coll 0 (fun _ => Ret 0)]. split; [eapply outcome_raise; left; reflexivity|]. split; [now left|]. cbn. apply waits. now right.
Qed.
Print Assumptions C104_exit_refuted.
(** So they do after an exception which cannot be turned into a string. *)
Theorem C104_str_refuted : exists (ps : list (prog nat nat)), outcome ps None /\ In (Raise {| e_kind := Exception_; e_str := false |}) ps /\ hangs (Run (map wrapper ps)).
Proof.
  exists [Raise {| e_kind := Exception_; e_str := false |}; Coll 0 (fun _ => Ret 0)]. split; [eapply outcome_raise; left; reflexivity|]. split; [now left|]. cbn. apply waits. now left.
Qed.
Print Assumptions C104_str_refuted.
