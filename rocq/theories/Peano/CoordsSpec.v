(** The cell of a position, with the error allowed to floating point numbers (for C81). *)
From Coq Require Import ZArith Reals.
From Flocq Require Import Core.
From Verif Require Import Base.Prelude.
Local Open Scope R_scope.

(** a number of the type with [prec] bits and least exponent [emin] *)
Definition floating (emin prec : Z) (x : R) : Prop := exists m e : Z, x = IZR m * bpow radix2 e /\ (Z.abs m < 2 ^ prec)%Z /\ (emin <= e)%Z.
(** [c] is the cell of coordinate [x] in a periodic box cut into 2^bits cells: the
    [i]-th from the origin, the lower end up to the relative precision of the type *)
Definition cell_of (prec bits : Z) (boxsize x : R) (c : Z) : Prop :=
  exists i : Z, IZR i * (boxsize / IZR (2 ^ bits)) * (1 - bpow radix2 (- prec)) <= x < IZR (i + 1) * (boxsize / IZR (2 ^ bits)) /\
    (0 <= i <= 2 ^ bits)%Z /\ (x < boxsize -> (i < 2 ^ bits)%Z) /\ c = (i mod 2 ^ bits)%Z.
Definition cells_of (prec bits : Z) (boxsize : R) (p : R * R * R) (c : Z * Z * Z) : Prop :=
  let '(x, y, z) := p in let '(cx, cy, cz) := c in cell_of prec bits boxsize x cx /\ cell_of prec bits boxsize y cy /\ cell_of prec bits boxsize z cz.
