(** What the functions which read spherical regions should return, stated without their code. *)
From Coq Require Import QArith.
From Verif Require Import Base.Prelude Snap.ReadSpec Fortran.FofSpec Fortran.VolumeSpec Idl.SnapSpec Idl.GroupSpec.
Local Open Scope Z_scope. Local Open Scope list_scope.

(** the box is divided in 2^b cells along each side *)
Definition cell_size (box : Q) (b : Z) : Q := (box / inject_Z (2 ^ b))%Q.
Definition inside (cs : Q) (i : Z) (x : Q) : Prop := (inject_Z i * cs <= x < (inject_Z i + 1) * cs)%Q.
(** each particle is in the hash cell of its position *)
Definition in_its_cell (value4 : Z -> Q) (box : Q) (b : Z) (files : list (cellfile (list Z))) : Prop :=
  forall c p, 0 <= c -> In p (cell_of files c) -> exists ix iy iz, key_of b (ix, iy, iz) = Some c /\
    0 <= ix < 2 ^ b /\ 0 <= iy < 2 ^ b /\ 0 <= iz < 2 ^ b /\
    inside (cell_size box b) ix (coordinate value4 0 p) /\ inside (cell_size box b) iy (coordinate value4 1 p) /\ inside (cell_size box b) iz (coordinate value4 2 p).
(** an image of [x] in the periodic box is at most at the distance [r] from [s] *)
Definition near (box r s x : Q) : Prop := exists k : Z, (- r <= x + inject_Z k * box - s <= r)%Q.
(** the position is near on all three axes; so are all positions in the sphere of this radius *)
Definition near_point (value4 : Z -> Q) (box r : Q) (s : Q * Q * Q) (p : particle) : Prop :=
  let '(sx, sy, sz) := s in near box r sx (coordinate value4 0 p) /\ near box r sy (coordinate value4 1 p) /\ near box r sz (coordinate value4 2 p).
(** the smallest difference between [x] and [s] in the periodic box *)
Definition relative (box s x d : Q) : Prop := (- ((1 # 2) * box) <= d < (1 # 2) * box)%Q /\ exists k : Z, (d == x - s + inject_Z k * box)%Q.
Definition relative_point (value4 : Z -> Q) (box : Q) (s : Q * Q * Q) (p : particle) (d : Q * Q * Q) : Prop :=
  let '(sx, sy, sz) := s in let '(dx, dy, dz) := d in
  relative box sx (coordinate value4 0 p) dx /\ relative box sy (coordinate value4 1 p) dy /\ relative box sz (coordinate value4 2 p) dz.
Definition point_in_box (box : Q) (s : Q * Q * Q) : Prop := let '(sx, sy, sz) := s in (0 <= sx < box /\ 0 <= sy < box /\ 0 <= sz < box)%Q.
(** the particles of some cells, each cell once *)
Definition of_cells (files : list (cellfile (list Z))) (sel : list particle) : Prop :=
  exists keys, NoDup keys /\ Forall (fun c => 0 <= c < zlen (cells files)) keys /\ sel = concat (map (cell_of files) keys).
