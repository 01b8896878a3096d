(** Property C109: means and angular momenta of subhalos in check_units.py of the Millennium
    simulation, for a catalogue in several files. *)
From Coq Require Import QArith Qcanon.
From Verif Require Import Base.Prelude Base.ListLemmas Base.Order Util.RangesSpec Fortran.FofSpec.
From Verif Require Import Script.CheckUnitsModel Script.CheckUnitsSpec Script.CheckUnitsProps Script.MillUnitsModel Script.MillUnitsSpec Script.MillUnitsFinal.
Local Open Scope Z_scope.
Local Open Scope list_scope.

(** Every subhalo gets the angular momentum of the particles with the ids which its own file has
    for it, at its number among the subhalos of all files; if ids are below 2^30. *)
Theorem C109_spin : forall np_argsort box a s (pos vel : list vec) ids files,
  (forall l, is_argsort ZOrd l (np_argsort l)) -> NoDup ids -> length pos = length ids -> length vel = length ids ->
  files <> [] -> Forall good_file files -> (forall g, In g (all_ids files) -> 0 <= g /\ plain_id g < 2 ^ 30 /\ In (plain_id g) ids) ->
  (0 < box)%Qc -> (exists l, In l (all_lengths files) /\ 0 < l) ->
  exists mp mv am n, mill_check_units np_argsort box a s pos vel ids files = Ok (mp, mv, am) /\
    last_nonempty (all_lengths files) n /\ zlen mp = n /\ zlen mv = n /\ zlen am = n /\
    forall j f i o l ms, nth_error files j = Some f -> nth_error (c_suboff f) i = Some o -> nth_error (c_sublen f) i = Some l -> Z.of_nat (number_of files j i) < n ->
      particles_of box pos vel ids (map plain_id (zslice (c_gids f) o (o + l))) ms -> compact box ms ->
      nth_error am (number_of files j i) = Some (spin a s ms) /\ nth_error mv (number_of files j i) = Some (times s (vmean (map snd ms))) /\
      exists p, nth_error mp (number_of files j i) = Some p /\ image box (vmean (map fst ms)) p.
Proof. exact mill_spin. Qed.
Print Assumptions C109_spin.

(** with no particles in subhalos at all there is an exception *)
Theorem C109_none : forall np_argsort box a s (pos vel : list vec) ids files,
  (forall l, is_argsort ZOrd l (np_argsort l)) -> NoDup ids -> length pos = length ids -> length vel = length ids ->
  files <> [] -> Forall good_file files -> (forall g, In g (all_ids files) -> 0 <= g /\ plain_id g < 2 ^ 30 /\ In (plain_id g) ids) ->
  (forall l, In l (all_lengths files) -> l = 0) -> mill_check_units np_argsort box a s pos vel ids files = Err EValue.
Proof. exact mill_none. Qed.
Print Assumptions C109_none.

(** from 2^30 on another particle is taken, here number 5 for number 2^30 + 5 *)
Theorem C109_large_refuted : ~ forall ids files mp mv am,
  NoDup ids -> length ids = 2%nat -> files <> [] -> Forall good_file files -> (forall g, In g (all_ids files) -> 0 <= g /\ In (plain_id g) ids) ->
  mill_check_units (argsort ZOrd) (q 10) (q 1) (q 1) [(q 1, q 1, q 1); (q 2, q 2, q 2)] [(q 3, q 3, q 3); (q 4, q 4, q 4)] ids files = Ok (mp, mv, am) ->
  forall g, all_ids files = [g] -> plain_id g = nth 1 ids 0 -> map (fun v : vec => this (x_of v)) mv = [4 # 1]%Q.
Proof.
  intro H. set (f := {| c_sublen := [1]; c_suboff := [0]; c_gids := [2 ^ 30 + 5] |}).
  destruct (mill_check_units (argsort ZOrd) (q 10) (q 1) (q 1) [(q 1, q 1, q 1); (q 2, q 2, q 2)] [(q 3, q 3, q 3); (q 4, q 4, q 4)] [5; 2 ^ 30 + 5] [f]) as [[[mp mv] am]|e] eqn:E.
  - specialize (H [5; 2 ^ 30 + 5] [f] mp mv am).
    assert (X : map (fun v : vec => this (x_of v)) mv = [4 # 1]%Q).
    { apply (H ltac:(repeat constructor; cbn [In]; intuition discriminate) eq_refl ltac:(discriminate)) with (g := 2 ^ 30 + 5).
      - constructor; [split; [reflexivity|cbn; intuition discriminate]|constructor].
      - intros g [<-|[]]. split; [discriminate|right; left; reflexivity].
      - exact E.
      - reflexivity.
      - reflexivity. }
    apply (f_equal (fun r => match r with Ok (_, mv, _) => map (fun v : vec => this (x_of v)) mv | Err _ => [] end)) in E. cbv beta iota in E. rewrite X in E. vm_compute in E. discriminate.
  - apply (f_equal (fun r => match r with Ok _ => true | Err _ => false end)) in E. vm_compute in E. discriminate.
Qed.
Print Assumptions C109_large_refuted.

(** two files with three subhalos, the first of particles 3 and 7 across the edge of the box *)
Example C109_ex : show (mill_check_units (argsort ZOrd) (q 10) (q 4) (q 2) ex_pos ex_vel [7; 3; 8; 5] ex_files) =
    Ok [[(0, 6, 5); (0, 0, 0); (4, 4, 4)]; [(0, 8, 0); (0, 0, 0); (2, 2, 2)]; [(0, 0, 16); (0, 0, 0); (0, 0, 0)]]%Q /\
  Forall good_file ex_files /\ (forall g, In g (all_ids ex_files) -> 0 <= g /\ plain_id g < 2 ^ 30 /\ In (plain_id g) [7; 3; 8; 5]) /\
  number_of ex_files 1 0 = 2%nat.
Proof.
  split; [vm_compute; reflexivity|]. split; [|split; [|reflexivity]].
  - repeat apply Forall_cons; [split; [reflexivity|vm_compute; intuition discriminate]|split; [reflexivity|vm_compute; intuition discriminate]|apply Forall_nil].
  - intros g Hg. cbn [all_ids map concat ex_files c_gids app In] in Hg. repeat (destruct Hg as [<-|Hg]; [split; [discriminate|split; [reflexivity|vm_compute; tauto]]|]). destruct Hg.
Qed.
