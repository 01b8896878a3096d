(** C110: densities and the NFW fit in plot_profile_dens.pro. *)
From Coq Require Import Reals QArith Qreals Lra.
From Coq Require Import Sorting.Sorted.
From Verif Require Import Base.Prelude Base.ListLemmas Idl.NfwModel Idl.NfwSpec Idl.NfwFinal.
Local Open Scope R_scope. Local Open Scope list_scope.

(** The 25 bins are shells from 0.001 to 5: the density plotted for shell number k is that of k
    particles more than there are in it. *)
Theorem C110_density : forall m time r2 k n, 0 <= time -> (0 <= k < 25)%Z -> number_with (fun q => in_shell k (radius time q)) r2 n ->
  nth_error (rho_bins m time r2) (Z.to_nat k) = Some (IZR (k + n) * m / volume k).
Proof. exact density_ok. Qed.
Print Assumptions C110_density.
(** It should be that of the particles in it. *)
Theorem C110_density_refuted : ~ forall m time r2 k n, 0 < time -> 0 < m -> (0 <= k < 25)%Z -> number_with (fun q => in_shell k (radius time q)) r2 n ->
  nth_error (rho_bins m time r2) (Z.to_nat k) = Some (IZR n * m / volume k).
Proof.
  intro H. specialize (H 1 1 [] 3%Z 0%Z ltac:(lra) ltac:(lra) ltac:(lia) (none_with _)). rewrite (empty_density 1 1 3 ltac:(lra) ltac:(lia)) in H. injection H as H.
  pose proof (volume_pos 3) as V. apply (f_equal (fun x => x * volume 3)) in H. unfold Rdiv in H. rewrite !Rmult_assoc, Rinv_l in H by lra. lra.
Qed.
Print Assumptions C110_density_refuted.

(** The fit uses the shells, in order and by the middle of the shell in the logarithm, with a density
    over 20 times the critical one and a radius over half the softening length. *)
Theorem C110_bins : forall m time r2, 0 < time -> exists n ks, (forall k, (0 <= k < 25)%Z -> number_with (fun q => in_shell k (radius time q)) r2 (n k)) /\ StronglySorted Z.lt ks /\
  fit_bins time (rho_bins m time r2) = map (fun k => (middle k, IZR (k + n k) * m / volume k)) ks /\
  forall k, In k ks <-> (0 <= k < 25)%Z /\ 20 * critical time < IZR (k + n k) * m / volume k /\ 25 / 10000 * time < middle k.
Proof. exact bins_are. Qed.
Print Assumptions C110_bins.
Theorem C110_positive : forall m time r2, 0 < time -> positive (fit_bins time (rho_bins m time r2)).
Proof. exact bins_positive. Qed.
Print Assumptions C110_positive.

(** The fit ends with a result exactly if 201 repetitions of the best amplitude for the scale radius
    and a search by Newton's method (for a zero of the derivative of the misfit by the scale radius)
    from 0.01 on end; this is then the result. *)
Theorem C110_fit : forall pts l rs, positive pts -> pts <> [] -> (exists N, forall steps, (N <= steps)%nat -> nfw_fit pts steps = Ok (Some l, Some rs)) <-> fitted pts 201 (1 / 100) l rs.
Proof. exact fit_ok. Qed.
Print Assumptions C110_fit.
Theorem C110_fit_only : forall pts steps out, positive pts -> pts <> [] -> nfw_fit pts steps = Ok out -> exists l rs, out = (Some l, Some rs) /\ fitted pts 201 (1 / 100) l rs /\ 0 < rs.
Proof. exact fit_only. Qed.
Print Assumptions C110_fit_only.
(** without bins there is an error *)
Theorem C110_fit_none : forall steps, nfw_fit [] steps = Err EIndex.
Proof. reflexivity. Qed.
Print Assumptions C110_fit_none.
(** the curve which is drawn *)
Theorem C110_drawn : forall l rs r, 0 < rs -> 0 < r -> drawn (Some l) (Some rs) r = Some (nfw l rs r).
Proof. exact drawn_nfw. Qed.
Print Assumptions C110_drawn.

(** Densities of an NFW profile determine its parameters, if there are two of them, and the fit does
    not leave these parameters once the scale radius is right. *)
Theorem C110_identify : forall l rs l' rs' r1 r2, 0 < rs -> 0 < rs' -> 0 < r1 -> 0 < r2 -> r1 <> r2 -> nfw l rs r1 = nfw l' rs' r1 -> nfw l rs r2 = nfw l' rs' r2 -> l = l' /\ rs = rs'.
Proof. exact identify. Qed.
Print Assumptions C110_identify.
Theorem C110_exact : forall l rs radii n, 0 < rs -> radii <> [] -> Forall (fun r => 0 < r) radii -> fitted (map (fun r => (r, nfw l rs r)) radii) (Datatypes.S n) rs l rs.
Proof. exact exact_fits. Qed.
Print Assumptions C110_exact.
(** With a single bin the scale radius is 0.01 whatever its density. *)
Theorem C110_single : forall r d, 0 < r -> 0 < d -> exists l N, nfw l (1 / 100) r = d /\ forall steps, (N <= steps)%nat -> nfw_fit [(r, d)] steps = Ok (Some l, Some (1 / 100)).
Proof.
  exact (fun r d Hr Hd => match single_fits r d 200 (1 / 100) Hr Hd ltac:(lra) with ex_intro _ l (conj F E) =>
    match proj2 (fit_ok [(r, d)] l (1 / 100) (Forall_cons (r, d) (conj Hr Hd) (Forall_nil _)) ltac:(discriminate)) F with ex_intro _ N H => ex_intro _ l (ex_intro _ N (conj E H)) end end).
Qed.
Print Assumptions C110_single.
(** The fit does not always end: here the first step makes the scale radius negative. *)
Theorem C110_ends_refuted : ~ forall pts, positive pts -> pts <> [] -> exists steps out, nfw_fit pts steps = Ok out.
Proof. intro H. destruct (H bad bad_positive ltac:(discriminate)) as (steps & out & E). rewrite bad_ends in E. discriminate. Qed.
Print Assumptions C110_ends_refuted.

(** three densities of a profile with scale radius 0.01 *)
Example C110_ex : positive (map (fun r => (r, nfw 5 (1 / 100) r)) [1 / 50; 1 / 10; 1]) /\ exists N, forall steps, (N <= steps)%nat -> nfw_fit (map (fun r => (r, nfw 5 (1 / 100) r)) [1 / 50; 1 / 10; 1]) steps = Ok (Some 5, Some (1 / 100)).
Proof.
  assert (positive (map (fun r => (r, nfw 5 (1 / 100) r)) [1 / 50; 1 / 10; 1])) as P by (repeat apply Forall_cons; try apply Forall_nil; cbn [fst snd]; (split; [lra|apply nfw_pos; lra])).
  split; [exact P|]. apply fit_ok; [exact P|discriminate|]. apply (exact_fits 5 (1 / 100) [1 / 50; 1 / 10; 1] 200); [lra|discriminate|]. repeat apply Forall_cons; try apply Forall_nil; lra.
Qed.
(** a radius in shell number 0, and one in none of them *)
Example C110_shells_ex : in_shell 0 (1 / 1000) /\ number_with (fun q => in_shell 0 (radius 1 q)) [1 # 1000000; 36]%Q 1.
Proof.
  assert (limit 0 = 1 / 1000) as E0 by (unfold limit; replace (0 / 25) with 0 by field; rewrite Rpower_O by lra; lra).
  assert (limit 1 <= 5) as E1. { unfold limit. apply (Rle_trans _ (1 / 1000 * Rpower 5000 1)); [|rewrite Rpower_1 by lra; lra]. apply Rmult_le_compat_l; [lra|]. apply Rle_Rpower; lra. }
  assert (limit 0 < limit 1) as E01. { unfold limit. apply Rmult_lt_compat_l; [lra|]. apply Rpower_lt; lra. }
  assert (in_shell 0 (1 / 1000)) as H0 by (split; change (0 + 1)%Z with 1%Z; lra). split; [exact H0|]. apply (one_with _ _ _ 0%Z).
  - replace (radius 1 (1 # 1000000)) with (1 / 1000); [exact H0|]. unfold radius. replace (Q2R (1 # 1000000)) with (1 / 1000 * (1 / 1000)) by (unfold Q2R; cbn; lra). rewrite sqrt_square by lra. ring.
  - apply not_with; [|constructor]. intros [_ H]. change (0 + 1)%Z with 1%Z in H. replace (radius 1 36) with 6 in H; [lra|]. unfold radius. replace (Q2R 36) with (6 * 6) by (unfold Q2R; cbn; lra). rewrite sqrt_square by lra. ring.
Qed.
