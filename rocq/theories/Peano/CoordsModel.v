(** Model of peano_hilbert_keys_from_coords() of util/peano.py (lines 143-170).
    Coordinates are finite floating point numbers, given by their real values, of a
    type with [prec] bits and least exponent [emin]: float32 (24, -149) or float64
    (53, -1074). Dividing such an array by a python float is done in the array's
    type, after converting the divisor to it. Overflow is not modelled: the results
    here are at most 2^21. *)
From Coq Require Import ZArith Reals.
From Flocq Require Import Core.
From Verif Require Import Base.Prelude Peano.PeanoModel.
Local Open Scope R_scope.

Definition fl (emin prec : Z) (x : R) : R := round radix2 (FLT_exp emin prec) ZnearestE x.
(** line 153: float(boxsize) / float(2**bits), in float64 *)
Definition cellsize (boxsize : R) (bits : Z) : R := fl (-1074) 53 (boxsize / IZR (2 ^ bits)).
(** lines 163-165: floor(pos/cellsize).astype(int32) *)
Definition coord_cell (emin prec : Z) (boxsize : R) (bits : Z) (x : R) : Z :=
  wrap32 (Zfloor (fl emin prec (x / fl emin prec (cellsize boxsize bits)))).
Definition pos_cell (emin prec : Z) (boxsize : R) (bits : Z) (p : R * R * R) : Z * Z * Z :=
  let '(x, y, z) := p in (coord_cell emin prec boxsize bits x, coord_cell emin prec boxsize bits y, coord_cell emin prec boxsize bits z).
(** lines 154-170 *)
Definition keys_from_coords (emin prec : Z) (junk : Z) (boxsize : R) (bits : Z) (pos : list (R * R * R)) : res (list Z) :=
  by_blocks blocksize junk (fun l => key_block bits (map (pos_cell emin prec boxsize bits) l)) pos.
