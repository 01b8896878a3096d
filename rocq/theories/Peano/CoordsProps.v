(** Theorems about the keys of coordinates (C81). *)
From Coq Require Import ZArith Reals Lra Lia.
From Flocq Require Import Core.
From Verif Require Import Base.Prelude Peano.PeanoModel Peano.CoordsModel Peano.CoordsSpec Peano.CoordsFinal.
Local Open Scope R_scope.

(** *** C81; [inside]: a number of the type in [0, boxsize], [cells_of prec bits boxsize p c]: c is the cell of p *)
Theorem C81_float64 : forall boxsize bits junk pos, (1 <= bits <= 21)%Z -> floating (-1074) 53 boxsize -> bpow radix2 (-1000) <= boxsize ->
  Forall (fun p => let '(x, y, z) := p in inside (-1074) 53 boxsize x /\ inside (-1074) 53 boxsize y /\ inside (-1074) 53 boxsize z) pos ->
  exists keys, keys_from_coords (-1074) 53 junk boxsize bits pos = Ok keys /\
    Forall2 (fun p k => (0 <= k < 8 ^ bits)%Z /\ exists c, cells_of 53 bits boxsize p c /\ forall junk', inv_scalar junk' bits k = Ok c) pos keys.
Proof. exact coords64. Qed.
Print Assumptions C81_float64.
Theorem C81_float32 : forall boxsize bits junk pos, (1 <= bits <= 21)%Z -> floating (-149) 24 boxsize -> bpow radix2 (-104) <= boxsize ->
  Forall (fun p => let '(x, y, z) := p in inside (-149) 24 boxsize x /\ inside (-149) 24 boxsize y /\ inside (-149) 24 boxsize z) pos ->
  exists keys, keys_from_coords (-149) 24 junk boxsize bits pos = Ok keys /\
    Forall2 (fun p k => (0 <= k < 8 ^ bits)%Z /\ exists c, cells_of 24 bits boxsize p c /\ forall junk', inv_scalar junk' bits k = Ok c) pos keys.
Proof. exact coords32. Qed.
Print Assumptions C81_float32.
(** without the box size being a float32 number a particle in the last cell is given to the first *)
Theorem C81_float32_refuted : ~ forall boxsize x, floating (-1074) 53 boxsize -> floating (-149) 24 x -> 1 <= boxsize -> 0 <= x < boxsize ->
  exists k c, keys_from_coords (-149) 24 0 boxsize 1 [(x, 0, 0)] = Ok [k] /\ cells_of 24 1 boxsize (x, 0, 0) c /\ inv_scalar 0 1 k = Ok c.
Proof. exact odd_refuted. Qed.
Print Assumptions C81_float32_refuted.

Example C81_case : floating (-149) 24 2 /\ bpow radix2 (-104) <= 2 /\
  Forall (fun p => let '(x, y, z) := p in inside (-149) 24 2 x /\ inside (-149) 24 2 y /\ inside (-149) 24 2 z) [(0, 0, 0); (1, 0, 1)] /\
  keys_from_coords (-149) 24 0 2 1 [(0, 0, 0); (1, 0, 1)] = Ok [0; 4]%Z /\ inv_scalar 0 1 4 = Ok (1, 0, 1)%Z.
Proof.
  split; [apply two32|]. split; [change 2 with (bpow radix2 1); apply bpow_le; lia|].
  assert (inside (-149) 24 2 0) by (split; [apply zero32 | lra]). assert (inside (-149) 24 2 1) by (split; [apply one32 | lra]).
  split; [constructor; [auto | constructor; [auto | constructor]]|]. split; [apply case_keys | vm_compute; reflexivity].
Qed.
