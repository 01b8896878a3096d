(** The decorator mpi_errchk: proofs. *)
From Coq Require Import List Lia.
Import ListNotations.
From Verif Require Import Mpi.ErrchkModel Mpi.ErrchkSpec.

Lemma meet_spec {X V} (ps : list (prog X V)) xs ks : Forall2 (fun p xk => p = Coll (fst xk) (snd xk)) ps (combine xs ks) -> ps = meet xs ks.
Proof.
  remember (combine xs ks) as l eqn:E. intro F. revert xs ks E. induction F as [|p [x k] ps l P F IH]; intros xs ks E.
  - destruct xs, ks; try reflexivity. discriminate.
  - destruct xs as [|x' xs], ks as [|k' ks]; try discriminate. injection E as -> -> E. cbn [meet]. cbn in P. rewrite P. f_equal. now apply IH.
Qed.
Lemma meet_inj {X V} (xs : list X) (ks : list (list X -> prog X V)) : forall xs' ks', length xs = length ks -> length xs' = length ks' -> meet xs ks = meet xs' ks' -> xs = xs' /\ ks = ks'.
Proof.
  revert ks. induction xs as [|x xs IH]; intros [|k ks] [|x' xs'] [|k' ks']; cbn; try discriminate; auto. intros L L' E. injection E as -> -> E. destruct (IH ks xs' ks') as [-> ->]; auto.
Qed.
Lemma meet_coll {X V} (xs : list X) (ks : list (list X -> prog X V)) p : In p (meet xs ks) -> exists x k, p = Coll x k.
Proof. revert ks. induction xs as [|x xs IH]; intros [|k ks]; cbn; try tauto. intros [<-|K]; eauto. Qed.
Lemma meet_wrapper {X V} (xs : list X) (ks : list (list X -> prog X V)) : map wrapper (meet xs ks) = meet xs (map (fun k l => wrapper (k l)) ks).
Proof. revert ks. induction xs as [|x xs IH]; intros [|k ks]; cbn; try reflexivity. now rewrite IH. Qed.

Definition final {X V} (r : option (list V)) : job X V := match r with Some vs => Run (map Ret vs) | None => Killed end.
Lemma killed_over {X V} : over (@Killed X V).
Proof. intros j H. inversion H. Qed.
Lemma run_abort {X V} (ps : list (prog X V)) j : step (Run ps) j -> In Abort ps -> j = Killed.
Proof.
  intros H A. inversion H as [|xs ks N L E]; [reflexivity|]. subst ps. apply meet_coll in A as (x & k & A). discriminate.
Qed.
Lemma run_meet {X V} (xs : list X) (ks : list (list X -> prog X V)) j : length xs = length ks -> step (Run (meet xs ks)) j -> j = Run (map (fun k => k xs) ks).
Proof.
  intros L H. inversion H as [ps A E|xs' ks' N L' E]; [apply meet_coll in A as (x & k & A); discriminate|]. destruct (meet_inj xs' ks' xs ks L' L E) as [-> ->]. reflexivity.
Qed.
Lemma returned_over {X V} (vs : list V) : over (@Run X V (map Ret vs)).
Proof.
  intros j H. inversion H as [ps A E|xs ks N L E].
  - apply in_map_iff in A as (v & A & _). discriminate.
  - destruct xs as [|x xs], ks as [|k ks], vs; cbn in *; try discriminate; contradiction.
Qed.
Lemma final_over {X V} (r : option (list V)) : over (@final X V r).
Proof. destruct r; [apply returned_over|apply killed_over]. Qed.

(** from here on there is one way to go, of [n] steps, to [f] *)
Inductive certain {X V} (f : job X V) : nat -> job X V -> Prop :=
| certain_here : over f -> certain f 0 f
| certain_step n i j : step i j -> (forall j', step i j' -> j' = j) -> certain f n j -> certain f (S n) i.
Lemma wrapper_certain {X V} (ps : list (prog X V)) r : outcome ps r -> Forall ordinary ps -> exists n, certain (final r) n (Run (map wrapper ps)).
Proof.
  induction 1 as [vs|ps e K|ps xs ks r N F L O IH]; intro Or.
  - exists 0. cbn [final]. rewrite map_map. cbn [wrapper]. apply certain_here, returned_over.
  - exists 1. assert (In Abort (map wrapper ps)) as A.
    { apply in_map_iff. exists (Raise e). split; [|exact K]. rewrite Forall_forall in Or. specialize (Or _ K). inversion Or as [|e' A B|]. cbn [wrapper]. destruct A as [-> | ->]; cbn [caught]; unfold handler; now rewrite B. }
    eapply certain_step; [apply step_abort; exact A| |apply certain_here, killed_over]. intros j S. now apply (run_abort _ _ S).
  - pose proof (meet_spec ps xs ks F) as E. subst ps. destruct IH as [n Ce].
    { clear -Or L. revert xs ks L Or. assert (forall (xs l : list X) (ks : list (list X -> prog X V)), length xs = length ks -> Forall ordinary (meet xs ks) -> Forall ordinary (map (fun k => k l) ks)) as K.
      { induction xs as [|x xs IH]; intros l [|k ks]; cbn; try discriminate; [constructor|]. intros [= L] Fo. apply Forall_cons_iff in Fo as [A B]. constructor; [inversion A; auto|]. now apply IH. }
      intros xs ks L Or. now apply (K xs). }
    exists (S n). rewrite meet_wrapper. assert (length xs = length (map (fun (k : list X -> prog X V) l => wrapper (k l)) ks)) as L' by now rewrite map_length.
    eapply certain_step; [apply step_coll; [|exact L']|intros j S; apply (run_meet _ _ _ L' S)|].
    + intros ->. destruct ks; [|discriminate]. now apply N.
    + rewrite map_map. rewrite map_map in Ce. exact Ce.
Qed.
Lemma certain_steps {X V} (f : job X V) n i : certain f n i -> forall m j, steps m i j -> m <= n /\ certain f (n - m) j.
Proof.
  induction 1 as [O|n i j S D C IH]; intros m k St.
  - inversion St as [|? ? ? ? A]; subst; [split; [lia|]; apply certain_here; exact O|]. now apply O in A.
  - inversion St as [|m' ? j' ? A B]; subst; [split; [lia|]; rewrite PeanoNat.Nat.sub_0_r; eapply certain_step; eauto|]. rewrite (D _ A) in B. destruct (IH _ _ B) as [L Ce]. split; [lia|exact Ce].
Qed.
Lemma certain_reach {X V} (f : job X V) n i : certain f n i -> steps n i f.
Proof. induction 1; [constructor|]. econstructor; eauto. Qed.
Lemma certain_over {X V} (f : job X V) n i : certain f n i -> over i -> i = f.
Proof. intros [|? ? j S D C] O; [reflexivity|]. exfalso. now apply (O j). Qed.
Lemma final_no_hang {X V} (r : option (list V)) : ~ hangs (@final X V r).
Proof. intros (ps & x & k & E & K & _). destruct r; [|discriminate]. injection E as <-. apply in_map_iff in K as (v & K & _). discriminate. Qed.
Lemma c104_errchk {X V} (ps : list (prog X V)) r : outcome ps r -> Forall ordinary ps ->
  exists n, (forall m j, steps m (Run (map wrapper ps)) j -> m <= n /\ ~ hangs j /\ (over j <-> j = match r with Some vs => Run (map Ret vs) | None => Killed end) /\ exists m', steps m' j (match r with Some vs => Run (map Ret vs) | None => Killed end)).
Proof.
  intros O Or. destruct (wrapper_certain ps r O Or) as [n Ce]. exists n. intros m j St. destruct (certain_steps _ _ _ Ce _ _ St) as [L Cj]. split; [exact L|].
  assert (over j -> j = final r) as U by (intro Ov; now apply (certain_over _ _ _ Cj)). split; [|split; [split; [exact U|intros ->; apply (final_over r)]|exists (n - m); now apply certain_reach]].
  intros (qs & x & k & E & K & N). apply (final_no_hang (X := X) r). rewrite <- (U N). exists qs, x, k. auto.
Qed.
(** nothing happens in a job in which one rank is done and another waits *)
Lemma waits {X V} (p : prog X V) x k : p = Raise {| e_kind := Exception_; e_str := true |} \/ p = Raise {| e_kind := SystemExit; e_str := true |} -> hangs (Run [p; Coll x k]).
Proof.
  intros Hp. exists [p; Coll x k], x, k. split; [reflexivity|]. split; [right; left; reflexivity|]. intros j S. inversion S as [ps A E|xs ks N L E].
  - destruct A as [->|[A|[]]]; [|discriminate]. destruct Hp; discriminate.
  - destruct xs as [|x1 xs], ks as [|k1 ks]; cbn in *; try discriminate. injection E as E1 _. rewrite <- E1 in Hp. destruct Hp; discriminate.
Qed.
