(** The angular momentum of a subhalo in a periodic box, stated without the script. *)
From Coq Require Import QArith Qcanon.
From Verif Require Import Base.Prelude.
Local Open Scope Z_scope.
Local Open Scope list_scope.

Notation vec := (Qc * Qc * Qc)%type.
Definition x_of (u : vec) : Qc := fst (fst u).
Definition y_of (u : vec) : Qc := snd (fst u).
Definition z_of (u : vec) : Qc := snd u.
Definition total (l : list Qc) : Qc := fold_right Qcplus 0%Qc l.
Definition mean (l : list Qc) : Qc := match l with [] => 0%Qc | _ => (total l / Q2Qc (inject_Z (Z.of_nat (length l))))%Qc end.
Definition vmean (l : list vec) : vec := (mean (map x_of l), mean (map y_of l), mean (map z_of l)).
Definition times (s : Qc) (v : vec) : vec := (s * x_of v, s * y_of v, s * z_of v)%Qc.
(** [u] is a periodic image of [p] *)
Definition image (box : Qc) (p u : vec) : Prop :=
  exists i j k : Z, u = (x_of p + box * Q2Qc (inject_Z i), y_of p + box * Q2Qc (inject_Z j), z_of p + box * Q2Qc (inject_Z k))%Qc.
(** all coordinates differ by less than half the box *)
Definition near (box : Qc) (u v : vec) : Prop :=
  forall c, In c [x_of; y_of; z_of] -> (- (box / Q2Qc 2) < c u - c v < box / Q2Qc 2)%Qc.
Definition compact (box : Qc) (ms : list (vec * vec)) : Prop := forall m m', In m ms -> In m' ms -> near box (fst m) (fst m').
(** [ms] has an image of the position and the velocity of the particle of each id *)
Definition particles_of (box : Qc) (pos vel : list vec) (ids gids : list Z) (ms : list (vec * vec)) : Prop :=
  Forall2 (fun g m => exists k p, nth_error ids k = Some g /\ nth_error pos k = Some p /\ nth_error vel k = Some (snd m) /\ image box p (fst m)) gids ms.
(** mean angular momentum about the mean position and with the mean velocity, with positions
    multiplied by [a] and velocities by [s] *)
Definition momentum (a s : Qc) (c w u v : vec) : vec :=
  let x := (a * (x_of u - x_of c))%Qc in let y := (a * (y_of u - y_of c))%Qc in let z := (a * (z_of u - z_of c))%Qc in
  let vx := (s * (x_of v - x_of w))%Qc in let vy := (s * (y_of v - y_of w))%Qc in let vz := (s * (z_of v - z_of w))%Qc in
  (y * vz - z * vy, z * vx - x * vz, x * vy - y * vx)%Qc.
Definition spin (a s : Qc) (ms : list (vec * vec)) : vec :=
  vmean (map (fun m => momentum a s (vmean (map fst ms)) (vmean (map snd ms)) (fst m) (snd m)) ms).
(** [n] is one more than the number of the last subhalo which has particles *)
Definition last_nonempty (sublen : list Z) (n : Z) : Prop :=
  (exists l, 1 <= n /\ nth_error sublen (Z.to_nat (n - 1)) = Some l /\ 0 < l) /\ forall k l, nth_error sublen k = Some l -> n <= Z.of_nat k -> l = 0.
