(** The maximum of the circular velocity of a set of particles, stated without the script. *)
From Coq Require Import Reals.
From Verif Require Import Base.Prelude.
Local Open Scope Z_scope.
Local Open Scope list_scope.

Notation vec := (R * R * R)%type.
(** [c] is the difference [d] between two coordinates, taken to the nearest image *)
Definition nearest (box d c : R) : Prop := (- (box / 2) <= c < box / 2)%R /\ exists k : Z, c = (d + box * IZR k)%R.
Definition distance (box : R) (centre p : vec) (r : R) : Prop :=
  exists x y z, nearest box (fst (fst p) - fst (fst centre)) x /\ nearest box (snd (fst p) - snd (fst centre)) y /\ nearest box (snd p - snd centre) z /\ r = sqrt (x * x + y * y + z * z).
(** the particles of a subhalo *)
Definition members (pos : list vec) (subnr : list Z) (isub : Z) : list vec := map fst (filter (fun p => snd p =? isub) (combine pos subnr)).
(** how many of the numbers are at most [r] *)
Definition within (rs : list R) (r : R) : Z := zlen (filter (fun x => if Rle_dec x r then true else false) rs).
(** circular velocity in km/s of [n] particles of mass [m] (in 10^10 solar masses) within physical radius [r] (in Mpc) *)
Definition circular (n : Z) (m r : R) : R := (sqrt (667408 / 10 ^ 16 * (IZR n * (m * (10 ^ 10 * (198855 * 10 ^ 25)))) / (r * (3086 * 10 ^ 19))) / 1000)%R.
(** what the script takes: the last particle within a radius does not count; zero at the centre *)
Definition profile (rs : list R) (m a r : R) : R := if Rlt_dec 0 r then circular (within rs r - 1) m (a * r) else 0%R.
(** with all of them *)
Definition with_itself (rs : list R) (m a r : R) : R := if Rlt_dec 0 r then circular (within rs r) m (a * r) else 0%R.
(** the function [np_argsort] sorts *)
Definition sorts (np_argsort : list R -> list Z) : Prop :=
  forall l, Permutation (np_argsort l) (zseq 0 (length l)) /\ StronglySorted Rle (map (fun i => nth (Z.to_nat i) l 0%R) (np_argsort l)).
