(** What the program which writes the particles of a volume should write, stated without its
    code. *)
From Verif Require Import Base.Prelude Snap.ReadSpec Peano.PeanoModel Fortran.FofSpec.
Local Open Scope Z_scope.

Definition coord (k : nat) (p : particle) : Z := nth k (fst (fst p)) 0.
(** [le a b]: the real number with the bit pattern [a] is at most that with the bit pattern [b] *)
Definition in_volume (le : Z -> Z -> bool) (lo hi : Z * Z * Z) (p : particle) : bool :=
  let '(x0, y0, z0) := lo in let '(x1, y1, z1) := hi in
  (le x0 (coord 0 p) && le (coord 0 p) x1) && (le y0 (coord 1 p) && le (coord 1 p) y1) && (le z0 (coord 2 p) && le (coord 2 p) z1).
(** all particles of a snapshot, in the order of the files *)
Definition particles (fs : list (cellfile (list Z))) : list particle := concat (concat (map cf_cells fs)).
(** the cell coordinates do not decrease with the position *)
Definition monotone (le : Z -> Z -> bool) (grid : Z -> Z) : Prop := forall a b, le a b = true -> grid a <= grid b.
(** each particle is in the hash cell of its position; there are [side] cells along each side *)
Definition located (grid : Z -> Z) (side : Z) (key : Z * Z * Z -> option Z) (fs : list (cellfile (list Z))) : Prop :=
  forall h p, in_cell fs h p -> 0 <= grid (coord 0 p) < side /\ 0 <= grid (coord 1 p) < side /\ 0 <= grid (coord 2 p) < side /\
    key (grid (coord 0 p), grid (coord 1 p), grid (coord 2 p)) = Some h.
(** the cells between two corners *)
Definition between (grid : Z -> Z) (side : Z) (lo hi : Z * Z * Z) (c : Z * Z * Z) : Prop :=
  let '(x0, y0, z0) := lo in let '(x1, y1, z1) := hi in let '(i, j, k) := c in
  (0 <= i < side /\ grid x0 <= i <= grid x1) /\ (0 <= j < side /\ grid y0 <= j <= grid y1) /\ (0 <= k < side /\ grid z0 <= k <= grid z1).
(** the key of a cell, see C29 *)
Definition key_of (bits : Z) (c : Z * Z * Z) : option Z := match key_scalar bits c with Ok k => Some k | Err _ => None end.
