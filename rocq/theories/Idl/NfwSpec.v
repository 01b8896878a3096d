(** NFW profiles and their fit to densities, stated without the code of plot_profile_dens.pro. *)
From Coq Require Import Reals QArith Qreals.
From Verif Require Import Base.Prelude.
Local Open Scope R_scope. Local Open Scope list_scope.

(** the density of a profile with amplitude exp l and scale radius rs *)
Definition nfw (l rs r : R) : R := exp l / (r / rs * (1 + r / rs) ^ 2).
Definition positive (pts : list (R * R)) : Prop := Forall (fun p => 0 < fst p /\ 0 < snd p) pts.
(** sum of the squares of the differences of the logarithms *)
Fixpoint misfit (pts : list (R * R)) (l rs : R) : R :=
  match pts with [] => 0 | (r, d) :: pts => (ln (nfw l rs r) - ln d) ^ 2 + misfit pts l rs end.
(** the best amplitude for a scale radius *)
Definition best (pts : list (R * R)) (rs l : R) : Prop := forall l', misfit pts l rs <= misfit pts l' rs.
(** Newton's step towards a zero of the derivative of the misfit by rs *)
Definition step (pts : list (R * R)) (l rs rs' : R) : Prop :=
  0 < rs /\ exists f d2, (forall x, 0 < x -> derivable_pt_lim (misfit pts l) x (f x)) /\ derivable_pt_lim f rs d2 /\ d2 <> 0 /\ rs' = rs - f rs / d2.
Definition small (rs rs' : R) : Prop := rs' <> 0 /\ Rabs (rs' - rs) <= 1 / 10 ^ 8 * Rabs rs'.
(** steps until one is small *)
Inductive search (pts : list (R * R)) (l : R) : R -> R -> Prop :=
| found rs rs' : step pts l rs rs' -> small rs rs' -> search pts l rs rs'
| further rs rs1 rs' : step pts l rs rs1 -> ~ small rs rs1 -> search pts l rs1 rs' -> search pts l rs rs'.
(** [n] times in turn the best amplitude and a search for the scale radius, starting with [rs] *)
Inductive fitted (pts : list (R * R)) : nat -> R -> R -> R -> Prop :=
| fitted_once rs l rs' : best pts rs l -> search pts l rs rs' -> fitted pts 1 rs l rs'
| fitted_more n rs l0 rs0 l rs' : best pts rs l0 -> search pts l0 rs rs0 -> fitted pts n rs0 l rs' -> fitted pts (Datatypes.S n) rs l rs'.

(** limits of 25 shells from 0.001 to 5, with a constant ratio *)
Definition limit (k : Z) : R := 1 / 1000 * Rpower 5000 (IZR k / 25).
Definition in_shell (k : Z) (r : R) : Prop := limit k <= r < limit (k + 1).
Definition volume (k : Z) : R := 4 / 3 * PI * limit (k + 1) ^ 3 - 4 / 3 * PI * limit k ^ 3.
(** [n] of the elements have a property *)
Inductive number_with {A} (P : A -> Prop) : list A -> Z -> Prop :=
| none_with : number_with P [] 0%Z
| one_with x l n : P x -> number_with P l n -> number_with P (x :: l) (n + 1)%Z
| not_with x l n : ~ P x -> number_with P l n -> number_with P (x :: l) n.
(** the critical density for the expansion factor [a]: 3 H^2 / (8 pi G), with Omega_m = 0.25 *)
Definition critical (a : R) : R := 3 * (100 ^ 2 * (25 / 100 / a ^ 3 + 75 / 100)) / (8 * PI * (430071 / 10000)).
(** the middle of a shell, in the logarithm of the radius *)
Definition middle (k : Z) : R := sqrt (limit k * limit (k + 1)).
