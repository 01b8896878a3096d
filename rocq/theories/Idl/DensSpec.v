(** R200, and what plot_profile_dens should show of a group. *)
From Coq Require Import Reals QArith Qreals.
From Coq Require Import Ascii String.
From Coq Require Import Sorting.Sorted.
From Verif Require Import Base.Prelude Snap.ReadSpec Idl.ProfSpec Idl.NfwSpec.
Local Open Scope R_scope. Local Open Scope list_scope.

(** the mean density of the particles of mass [m] up to the radius [x] is 200 times the critical one or more *)
Definition over_200 (m a : R) (rs : list R) (x : R) : Prop := exists n, number_with (fun y => y <= x) rs n /\ 200 * critical a * (4 / 3 * PI * x ^ 3) <= m * IZR n.
(** the largest radius of a particle of which this is so *)
Definition is_r200 (m a : R) (rs : list R) (x : R) : Prop := In x rs /\ over_200 m a rs x /\ forall y, In y rs -> over_200 m a rs y -> y <= x.
(** number, length, centre of a group, and the squares of the distances of all particles in its sphere *)
Definition spherical (little : bool) (fs : list ascii -> option (list Z)) (dir : list ascii) (num : Z) (files : list (cellfile (list Z))) (value4 : Z -> Q) (box : Q)
    (table : list (Z * Z * Z)) (n : Z) (r : Z * Z * (Q * Q * Q) * list Q) : Prop :=
  exists len s pts centre rad2 ds, r = (n, len, centre, ds) /\ placed little fs dir num files value4 box table n len s pts /\ sphere_of 25 s pts centre rad2 /\ in_sphere files value4 box centre rad2 ds.

(** densities of the 25 shells: for shell number k of k particles more than there are in it (see C110_density_refuted) *)
Definition shell_densities (m : R) (rs : list R) (rho : list R) : Prop :=
  zlen rho = 25%Z /\ forall k n, (0 <= k < 25)%Z -> number_with (in_shell k) rs n -> nth_error rho (Z.to_nat k) = Some (IZR (k + n) * m / volume k).
(** the points for the fit: the shells, in order, over 20 times the critical density and over half the softening length *)
Definition fit_points (m a : R) (rs : list R) (pts : list (R * R)) : Prop :=
  exists n ks, (forall k, (0 <= k < 25)%Z -> number_with (in_shell k) rs (n k)) /\ StronglySorted Z.lt ks /\
    pts = map (fun k => (middle k, IZR (k + n k) * m / volume k)) ks /\
    forall k, In k ks <-> (0 <= k < 25)%Z /\ 20 * critical a < IZR (k + n k) * m / volume k /\ 25 / 10000 * a < middle k.
(** R200, M200, the densities, and amplitude and scale radius of the fit, for particles of mass [m] at the radii [rs] *)
Definition shown_of (m a : R) (rs : list R) (d : R * R * list R * (option R * option R)) : Prop :=
  exists r200 rho pts l s, d = (r200, 200 * critical a * (4 / 3 * PI * r200 ^ 3), rho, (Some l, Some s)) /\
    is_r200 m a rs r200 /\ shell_densities m rs rho /\ fit_points m a rs pts /\ pts <> [] /\ fitted pts 201 (1 / 100) l s.
(** the radii, from the squares of comoving ones *)
Definition radii (a : R) (ds : list Q) : list R := map (fun d => sqrt (Q2R d) * a) ds.
(** a line of the output for a group *)
Definition group_shown (m a : R) (r : Z * Z * (Q * Q * Q) * list Q) (o : Z * Z * (Q * Q * Q) * (R * R * list R * (option R * option R))) : Prop :=
  let '(n, len, centre, ds) := r in exists d, o = (n, len, centre, d) /\ shown_of m a (radii a ds) d.
