(** Model of the C functions for Peano-Hilbert keys used by the Millennium example programs
    (/repo/examples/millennium/fortran/peano_keys.c). [int] and [peanokey] have 32 bits. What C
    leaves undefined is an error value: a shift or sum which does not fit ([EAbort]), an index
    outside an array ([EIndex]). Arguments are passed by pointer and do not overlap. *)
From Verif.Base Require Import Prelude.
Local Open Scope Z_scope.

(** lines 14-45; indexed by rotation, bitx, bity and bitz *)
Definition c_quadrants : list (list (list (list Z))) := [
  [[[0; 7]; [1; 6]]; [[3; 4]; [2; 5]]];
  [[[7; 4]; [6; 5]]; [[0; 3]; [1; 2]]];
  [[[4; 3]; [5; 2]]; [[7; 0]; [6; 1]]];
  [[[3; 0]; [2; 1]]; [[4; 7]; [5; 6]]];
  [[[1; 0]; [6; 7]]; [[2; 3]; [5; 4]]];
  [[[0; 3]; [7; 4]]; [[1; 2]; [6; 5]]];
  [[[3; 2]; [4; 5]]; [[0; 1]; [7; 6]]];
  [[[2; 1]; [5; 6]]; [[3; 0]; [4; 7]]];
  [[[6; 1]; [7; 0]]; [[5; 2]; [4; 3]]];
  [[[1; 2]; [0; 3]]; [[6; 5]; [7; 4]]];
  [[[2; 5]; [3; 4]]; [[1; 6]; [0; 7]]];
  [[[5; 6]; [4; 7]]; [[2; 1]; [3; 0]]];
  [[[7; 6]; [0; 1]]; [[4; 5]; [3; 2]]];
  [[[6; 5]; [1; 2]]; [[7; 4]; [0; 3]]];
  [[[5; 4]; [2; 3]]; [[6; 7]; [1; 0]]];
  [[[4; 7]; [3; 0]]; [[5; 6]; [2; 1]]];
  [[[6; 7]; [5; 4]]; [[1; 0]; [2; 3]]];
  [[[7; 0]; [4; 3]]; [[6; 1]; [5; 2]]];
  [[[0; 1]; [3; 2]]; [[7; 6]; [4; 5]]];
  [[[1; 6]; [2; 5]]; [[0; 7]; [3; 4]]];
  [[[2; 3]; [1; 0]]; [[5; 4]; [6; 7]]];
  [[[3; 4]; [0; 7]]; [[2; 5]; [1; 6]]];
  [[[4; 5]; [7; 6]]; [[3; 2]; [0; 1]]];
  [[[5; 2]; [6; 1]]; [[4; 3]; [7; 0]]]].
(** lines 49-60 *)
Definition c_rotxmap : list Z := [4; 5; 6; 7; 8; 9; 10; 11; 12; 13; 14; 15; 0; 1; 2; 3; 17; 18; 19; 16; 23; 20; 21; 22].
Definition c_rotymap : list Z := [1; 2; 3; 0; 16; 17; 18; 19; 11; 8; 9; 10; 22; 23; 20; 21; 14; 15; 12; 13; 4; 5; 6; 7].
Definition c_rotx : list Z := [3; 0; 0; 2; 2; 0; 0; 1].
Definition c_roty : list Z := [0; 1; 1; 2; 2; 3; 3; 0].
Definition c_sense : list Z := [-1; -1; -1; 1; 1; -1; -1; -1].

(** *** C expressions *)
Definition c_int (z : Z) : res Z := if (- 2 ^ 31 <=? z) && (z <? 2 ^ 31) then Ok z else Err EAbort.
Definition c_shl (a n : Z) : res Z := if (0 <=? n) && (n <? 32) && (0 <=? a) then c_int (a * 2 ^ n) else Err EAbort.
Definition c_at {A} (l : list A) (i : Z) : res A :=
  if 0 <=? i then match nth_error l (Z.to_nat i) with Some v => Ok v | None => Err EIndex end else Err EIndex.
Definition c_bit (x mask : Z) : Z := if Z.land x mask =? 0 then 0 else 1.
Definition c_quad (rotation bitx bity bitz : Z) : res Z :=
  do a <- c_at c_quadrants rotation;
  do b <- c_at a bitx;
  do c <- c_at b bity;
  c_at c bitz.
(** lines 94-104 and 154-164: [while(rot > 0) { rotation = map[rotation]; rot--; }] *)
Fixpoint c_turn (fuel : nat) (map : list Z) (rotation rot : Z) : res Z :=
  match fuel with
  | O => Err EFuel
  | S fuel' => if 0 <? rot then do r <- c_at map rotation; c_turn fuel' map r (rot - 1) else Ok rotation
  end.
Definition C_FUEL : nat := 10.

(** *** peano_hilbert_key_, lines 68-108 *)
Fixpoint c_key_loop (n : nat) (x y z mask key rotation sense : Z) : res Z :=
  match n with
  | O => Ok key
  | S n' =>
    do quad <- c_quad rotation (c_bit x mask) (c_bit y mask) (c_bit z mask);
    do key <- c_shl key 3;
    do key <- c_int (key + (if sense =? 1 then quad else 7 - quad));
    do rotx <- c_at c_rotx quad;
    do roty <- c_at c_roty quad;
    do s <- c_at c_sense quad;
    do rotation <- c_turn C_FUEL c_rotxmap rotation rotx;
    do rotation <- c_turn C_FUEL c_rotymap rotation roty;
    c_key_loop n' x y z (Z.shiftr mask 1) key rotation (sense * s)
  end.
Definition peano_hilbert_key_ (x y z bits : Z) : res Z :=
  do mask <- c_shl 1 (bits - 1);
  c_key_loop (Z.to_nat bits) x y z mask 0 0 1.

(** *** peano_hilbert_key_inverse_, lines 112-166 *)
(** static variables, lines 62-65; static arrays are zero when the program starts *)
Record statics := { flag : Z; qix : list (list Z); qiy : list (list Z); qiz : list (list Z) }.
Definition start_of_program : statics :=
  let zero := repeat (repeat 0 8) 24 in {| flag := 1; qix := zero; qiy := zero; qiz := zero |}.
Definition set2 (t : list (list Z)) (i j v : Z) : list (list Z) :=
  set_nth t (Z.to_nat i) (set_nth (nth (Z.to_nat i) t []) (Z.to_nat j) v).
(** lines 117-130 *)
Definition fill1 (s : statics) (i : Z * Z * Z * Z) : statics :=
  let '(r, bx, by_, bz) := i in
  match c_quad r bx by_ bz with
  | Ok quad => {| flag := flag s; qix := set2 (qix s) r quad bx; qiy := set2 (qiy s) r quad by_; qiz := set2 (qiz s) r quad bz |}
  | Err _ => s
  end.
Definition c_loops : list (Z * Z * Z * Z) :=
  flat_map (fun r => flat_map (fun bx => flat_map (fun by_ => map (fun bz => (r, bx, by_, bz)) (zseq 0 2)) (zseq 0 2)) (zseq 0 2)) (zseq 0 24).
Definition fill (s : statics) : statics :=
  if flag s =? 0 then s
  else fold_left fill1 c_loops {| flag := 0; qix := qix s; qiy := qiy s; qiz := qiz s |}.
(** lines 140-165 *)
Fixpoint c_inv_loop (s : statics) (n : nat) (key x y z mask shift rotation sense : Z) : res (Z * Z * Z) :=
  match n with
  | O => Ok (x, y, z)
  | S n' =>
    let keypart := Z.shiftr (Z.land key mask) shift in
    let quad := if sense =? 1 then keypart else 7 - keypart in
    do rx <- c_at (qix s) rotation; do bx <- c_at rx quad;
    do x <- c_shl x 1; do x <- c_int (x + bx);
    do ry <- c_at (qiy s) rotation; do by_ <- c_at ry quad;
    do y <- c_shl y 1; do y <- c_int (y + by_);
    do rz <- c_at (qiz s) rotation; do bz <- c_at rz quad;
    do z <- c_shl z 1; do z <- c_int (z + bz);
    do rotx <- c_at c_rotx quad;
    do roty <- c_at c_roty quad;
    do g <- c_at c_sense quad;
    do rotation <- c_turn C_FUEL c_rotxmap rotation rotx;
    do rotation <- c_turn C_FUEL c_rotymap rotation roty;
    c_inv_loop s n' key x y z (Z.shiftr mask 3) (shift - 3) rotation (sense * g)
  end.
Definition peano_hilbert_key_inverse_ (s : statics) (key bits : Z) : res (statics * (Z * Z * Z)) :=
  let s := fill s in
  let shift := 3 * (bits - 1) in
  do mask <- c_shl 7 shift;
  do p <- c_inv_loop s (Z.to_nat bits) key 0 0 0 mask shift 0 1;
  Ok (s, p).
(** a program which makes these calls one after the other *)
Fixpoint c_inverses (s : statics) (calls : list (Z * Z)) : res (list (Z * Z * Z)) :=
  match calls with
  | [] => Ok []
  | (key, bits) :: rest =>
    do (s, p) <- peano_hilbert_key_inverse_ s key bits;
    do ps <- c_inverses s rest;
    Ok (p :: ps)
  end.
