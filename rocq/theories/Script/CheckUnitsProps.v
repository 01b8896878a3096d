(** Property C98: means and angular momenta of subhalos in check_units.py of Millennium-2. *)
From Coq Require Import QArith Qcanon.
From Verif Require Import Base.Prelude Base.ListLemmas Base.Order Util.RangesSpec.
From Verif Require Import Script.CheckUnitsModel Script.CheckUnitsSpec Script.CheckUnitsFinal.
Local Open Scope Z_scope.
Local Open Scope list_scope.

(** For subhalos smaller than half the box the script finds the angular momentum of the particles,
    for any choice of periodic images which keeps a subhalo together, whatever order np.argsort
    gives to the particles of a subhalo. (The mean velocity which is subtracted is scaled twice,
    which does not matter since the positions are relative to their mean.) *)
Theorem C98_spin : forall np_argsort box a s (pos vel : list vec) ids sublen suboffset gids,
  (forall l, is_argsort ZOrd l (np_argsort l)) -> NoDup ids -> length pos = length ids -> length vel = length ids -> incl gids ids ->
  length suboffset = length sublen -> ordered 0 (combine suboffset sublen) (zlen gids) -> (0 < box)%Qc -> (exists l, In l sublen /\ 0 < l) ->
  exists mp mv am n, check_units np_argsort box a s pos vel ids sublen suboffset gids = Ok (mp, mv, am) /\
    last_nonempty sublen n /\ zlen mp = n /\ zlen mv = n /\ zlen am = n /\
    forall i o l ms, Z.of_nat i < n -> nth_error suboffset i = Some o -> nth_error sublen i = Some l -> particles_of box pos vel ids (zslice gids o (o + l)) ms -> compact box ms ->
      nth_error am i = Some (spin a s ms) /\ nth_error mv i = Some (times s (vmean (map snd ms))) /\ exists p, nth_error mp i = Some p /\ image box (vmean (map fst ms)) p.
Proof. exact spin_ok. Qed.
Print Assumptions C98_spin.
(** with no particles in subhalos at all there is an exception *)
Theorem C98_none : forall np_argsort box a s (pos vel : list vec) ids sublen suboffset gids,
  (forall l, is_argsort ZOrd l (np_argsort l)) -> NoDup ids -> length pos = length ids -> length vel = length ids -> incl gids ids ->
  length suboffset = length sublen -> ordered 0 (combine suboffset sublen) (zlen gids) -> (forall l, In l sublen -> l = 0) ->
  check_units np_argsort box a s pos vel ids sublen suboffset gids = Err EValue.
Proof. exact none_fails. Qed.
Print Assumptions C98_none.

Definition q (n : Z) : Qc := Q2Qc (inject_Z n).
Definition ex_pos : list vec := [(q 9, q 5, q 5); (q 1, q 7, q 5); (q 4, q 4, q 4); (q 5, q 9, q 2)].
Definition ex_vel : list vec := [(q 0, q 2, q 0); (q 0, q 6, q 0); (q 1, q 1, q 1); (q 8, q 0, q 3)].
Definition ex_run gids sublen suboffset := check_units (argsort ZOrd) (q 10) (q 4) (q 2) ex_pos ex_vel [7; 3; 8; 5] sublen suboffset gids.
Definition show (r : res (list vec * list vec * list vec)) : res (list (list (Q * Q * Q))) :=
  do x <- r; let '(mp, mv, am) := x in Ok (map (map (fun v : vec => (this (x_of v), this (y_of v), this (z_of v)))) [mp; mv; am]).
(** there is no angular momentum for subhalos without particles at the end of the catalogue *)
Theorem C98_length_refuted : ~ forall gids sublen suboffset mp mv am, ordered 0 (combine suboffset sublen) (zlen gids) -> length suboffset = length sublen ->
  ex_run gids sublen suboffset = Ok (mp, mv, am) -> zlen am = zlen sublen.
Proof.
  intro H. destruct (ex_run [3] [1; 0] [0; 1]) as [[[mp mv] am]|e] eqn:E; [|vm_compute in E; discriminate]. specialize (H [3] [1; 0] [0; 1] mp mv am ltac:(cbn; repeat split; discriminate) eq_refl E).
  apply (f_equal (fun r => match r with Ok (_, _, am) => zlen am | Err _ => 0 end)) in E. cbv beta iota in E. rewrite H in E. vm_compute in E. discriminate.
Qed.
Print Assumptions C98_length_refuted.
(** an id which is not in the snapshot goes unnoticed; the last particle is taken for it *)
Theorem C98_missing_refuted : ~ forall gids sublen suboffset, (exists g, In g gids /\ ~ In g [7; 3; 8; 5]) -> exists e, ex_run gids sublen suboffset = Err e.
Proof.
  intro H. destruct (H [6] [1] [0]) as (e & E); [exists 6; cbn; split; [now left | intros [?|[?|[?|[?|[]]]]]; discriminate]|].
  apply (f_equal show) in E. vm_compute in E. discriminate.
Qed.
Print Assumptions C98_missing_refuted.

(** a subhalo of the particles 3 and 7 across the edge of the box, and an id which is in no subhalo *)
Example C98_ex : show (ex_run [5; 3; 7; 8] [2; 0; 1] [1; 3; 3]) =
    Ok [[(0, 6, 5); (0, 0, 0); (4, 4, 4)]; [(0, 8, 0); (0, 0, 0); (2, 2, 2)]; [(0, 0, 16); (0, 0, 0); (0, 0, 0)]]%Q /\
  ordered 0 (combine [1; 3; 3] [2; 0; 1]) (zlen [5; 3; 7; 8]) /\ incl [5; 3; 7; 8] [7; 3; 8; 5] /\
  let ms := [((q 11, q 7, q 5), (q 0, q 6, q 0)); ((q 9, q 5, q 5), (q 0, q 2, q 0))] in
  particles_of (q 10) ex_pos ex_vel [7; 3; 8; 5] [3; 7] ms /\ compact (q 10) ms /\ x_of (spin (q 4) (q 2) ms) = 0%Qc /\ z_of (spin (q 4) (q 2) ms) = q 16.
Proof.
  split; [vm_compute; reflexivity|]. split; [cbn; repeat split; discriminate|]. split; [intros x [<-|[<-|[<-|[<-|[]]]]]; cbn; tauto|].
  cbv zeta. split; [|split; [|split]].
  - constructor; [|constructor; [|constructor]].
    + exists 1%nat, (q 1, q 7, q 5). repeat (split; [reflexivity|]). exists 1, 0, 0. apply vec_eq; apply Qc_is_canon; vm_compute; reflexivity.
    + exists 0%nat, (q 9, q 5, q 5). repeat (split; [reflexivity|]). exists 0, 0, 0. apply vec_eq; apply Qc_is_canon; vm_compute; reflexivity.
  - intros m m' [<-|[<-|[]]] [<-|[<-|[]]] c [<-|[<-|[<-|[]]]]; split; vm_compute; reflexivity.
  - apply Qc_is_canon. vm_compute. reflexivity.
  - apply Qc_is_canon. vm_compute. reflexivity.
Qed.
