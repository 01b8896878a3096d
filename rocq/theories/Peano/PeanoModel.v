(** Model of the Peano-Hilbert key functions (/repo/python/virgo/util/peano.py).
    numpy int32 and int64 arithmetic wraps around; arrays ix, iy, iz of the same length
    are one list of triples, element-by-element array operations are maps over it. *)
From Verif.Base Require Import Prelude.
Local Open Scope Z_scope.

Definition wrap32 (z : Z) : Z := (z + 2 ^ 31) mod 2 ^ 32 - 2 ^ 31.
Definition wrap64 (z : Z) : Z := (z + 2 ^ 63) mod 2 ^ 64 - 2 ^ 63.

(** lines 9-35; entry (rotation, bitx, bity, bitz) is at 8 * rotation + 4 * bitx + 2 * bity + bitz *)
Definition blocksize : Z := 10000.
Definition quadrants : list Z := [
  0; 7; 1; 6; 3; 4; 2; 5;
  7; 4; 6; 5; 0; 3; 1; 2;
  4; 3; 5; 2; 7; 0; 6; 1;
  3; 0; 2; 1; 4; 7; 5; 6;
  1; 0; 6; 7; 2; 3; 5; 4;
  0; 3; 7; 4; 1; 2; 6; 5;
  3; 2; 4; 5; 0; 1; 7; 6;
  2; 1; 5; 6; 3; 0; 4; 7;
  6; 1; 7; 0; 5; 2; 4; 3;
  1; 2; 0; 3; 6; 5; 7; 4;
  2; 5; 3; 4; 1; 6; 0; 7;
  5; 6; 4; 7; 2; 1; 3; 0;
  7; 6; 0; 1; 4; 5; 3; 2;
  6; 5; 1; 2; 7; 4; 0; 3;
  5; 4; 2; 3; 6; 7; 1; 0;
  4; 7; 3; 0; 5; 6; 2; 1;
  6; 7; 5; 4; 1; 0; 2; 3;
  7; 0; 4; 3; 6; 1; 5; 2;
  0; 1; 3; 2; 7; 6; 4; 5;
  1; 6; 2; 5; 0; 7; 3; 4;
  2; 3; 1; 0; 5; 4; 6; 7;
  3; 4; 0; 7; 2; 5; 1; 6;
  4; 5; 7; 6; 3; 2; 0; 1;
  5; 2; 6; 1; 4; 3; 7; 0].
(** lines 37-49 *)
Definition rotxmap_table : list Z := [4; 5; 6; 7; 8; 9; 10; 11; 12; 13; 14; 15; 0; 1; 2; 3; 17; 18; 19; 16; 23; 20; 21; 22].
Definition rotymap_table : list Z := [1; 2; 3; 0; 16; 17; 18; 19; 11; 8; 9; 10; 22; 23; 20; 21; 14; 15; 12; 13; 4; 5; 6; 7].
Definition rotx_table : list Z := [3; 0; 0; 2; 2; 0; 0; 1].
Definition roty_table : list Z := [0; 1; 1; 2; 2; 3; 3; 0].
Definition sense_table : list Z := [-1; -1; -1; 1; 1; -1; -1; -1].

(** lines 51-62: a (24, 8) array, [junk] before the loops, entry (rotation, quad) at 8 * rotation + quad *)
Definition bit_loops : list (Z * Z * Z * Z) :=
  flat_map (fun r => flat_map (fun bx => flat_map (fun by_ => map (fun bz => (r, bx, by_, bz)) (zseq 0 2)) (zseq 0 2)) (zseq 0 2)) (zseq 0 24).
Definition quadrants_inverse (junk : Z) (pick : Z * Z * Z -> Z) : list Z :=
  fold_left (fun t (i : Z * Z * Z * Z) =>
    let '(r, bx, by_, bz) := i in
    let quad := nth (Z.to_nat (8 * r + 4 * bx + 2 * by_ + bz)) quadrants 0 in
    set_nth t (Z.to_nat (8 * r + quad)) (pick (bx, by_, bz))) bit_loops (repeat junk 192).
Definition quadrants_inverse_x junk := quadrants_inverse junk (fun b => fst (fst b)).
Definition quadrants_inverse_y junk := quadrants_inverse junk (fun b => snd (fst b)).
Definition quadrants_inverse_z junk := quadrants_inverse junk snd.

(** lines 110-115 (and 222-227): the loop [while rot > 0] for a single element *)
Fixpoint rotate (fuel : nat) (table : list Z) (rotation rot : Z) : res Z :=
  match fuel with
  | O => Err EFuel
  | S fuel' =>
    if 0 <? rot then do r <- py_nth table rotation; rotate fuel' table r (rot - 1)
    else Ok rotation
  end.
(** lines 100-108 (and 213-220): the loop [while any(rot > 0)]; pairs are (rotation, rot) *)
Fixpoint rotate_any (fuel : nat) (table : list Z) (l : list (Z * Z)) : res (list Z) :=
  match fuel with
  | O => Err EFuel
  | S fuel' =>
    if existsb (fun e => 0 <? snd e) l then
      do l' <- mapM (fun e : Z * Z => if 0 <? snd e then do r <- py_nth table (fst e); Ok (r, snd e - 1) else Ok e) l;
      rotate_any fuel' table l'
    else Ok (map fst l)
  end.
Definition FUEL : nat := 10.

(** *** keys, lines 65-119 *)
Record kst := { k_pos : Z * Z * Z; k_key : Z; k_rot : Z; k_sense : Z }.
Definition where_bit (x mask : Z) : Z := if Z.land x mask =? 0 then 0 else 1.
(** lines 87-97: (state with the new key and sense, rotx, roty) *)
Definition key_digit (mask : Z) (s : kst) : res (kst * (Z * Z)) :=
  let '(x, y, z) := k_pos s in
  let bitx := where_bit x mask in
  let bity := where_bit y mask in
  let bitz := where_bit z mask in
  do quad <- py_nth quadrants (8 * k_rot s + 4 * bitx + 2 * bity + bitz);
  let key := wrap64 (k_key s * 8) in
  let key := wrap64 (key + (if k_sense s =? 1 then quad else 7 - quad)) in
  do rotx <- py_nth rotx_table quad;
  do roty <- py_nth roty_table quad;
  do sg <- py_nth sense_table quad;
  Ok ({| k_pos := k_pos s; k_key := key; k_rot := k_rot s; k_sense := k_sense s * sg |}, (rotx, roty)).
Definition set_rot (s : kst) (r : Z) : kst := {| k_pos := k_pos s; k_key := k_key s; k_rot := r; k_sense := k_sense s |}.
Fixpoint key_loop (n : nat) (mask : Z) (s : kst) : res kst :=
  match n with
  | O => Ok s
  | S n' =>
    do (s, r) <- key_digit mask s;
    do rot <- rotate FUEL rotxmap_table (k_rot s) (fst r);
    do rot <- rotate FUEL rotymap_table rot (snd r);
    key_loop n' (Z.shiftr mask 1) (set_rot s rot)
  end.
Fixpoint key_loop_array (n : nat) (mask : Z) (l : list kst) : res (list kst) :=
  match n with
  | O => Ok l
  | S n' =>
    do lr <- mapM (key_digit mask) l;
    do rots <- rotate_any FUEL rotxmap_table (map (fun sr => (k_rot (fst sr), fst (snd sr))) lr);
    do rots <- rotate_any FUEL rotymap_table (combine rots (map (fun sr => snd (snd sr)) lr));
    key_loop_array n' (Z.shiftr mask 1) (zipwith set_rot (map fst lr) rots)
  end.
(** lines 76-83 *)
Definition key_init (p : Z * Z * Z) : kst :=
  let '(x, y, z) := p in {| k_pos := (wrap32 x, wrap32 y, wrap32 z); k_key := 0; k_rot := 0; k_sense := 1 |}.
(** line 80: a negative shift is a ValueError; line 87: a mask which is not an int32 an OverflowError *)
Definition bits_ok (max bits : Z) : res unit := check ((1 <=? bits) && (bits <=? max)) EValue.
(** scalar coordinates *)
Definition key_scalar (bits : Z) (p : Z * Z * Z) : res Z :=
  do _ <- bits_ok 31 bits;
  do s <- key_loop (Z.to_nat bits) (Z.shiftl 1 (bits - 1)) (key_init p);
  Ok (k_key s).
(** arrays of coordinates *)
Definition key_block (bits : Z) (ps : list (Z * Z * Z)) : res (list Z) :=
  do _ <- bits_ok 31 bits;
  do l <- key_loop_array (Z.to_nat bits) (Z.shiftl 1 (bits - 1)) (map key_init ps);
  Ok (map k_key l).

(** range(0, n, step) *)
Definition range_step (n step : Z) : list Z := map (Z.mul step) (zseq 0 (Z.to_nat ((n + step - 1) / step))).
(** lines 128-140 (and 240-256): an output array filled block by block *)
Definition by_blocks {A B} (block : Z) (junk : B) (f : list A -> res (list B)) (l : list A) : res (list B) :=
  let n := zlen l in
  fold_left (fun acc i1 =>
    do out <- acc;
    let i2 := if n <? i1 + block then n else i1 + block in
    do part <- f (zslice l i1 i2);
    Ok (write_at out i1 part)) (range_step n block) (Ok (repeat junk (length l))).
Definition peano_hilbert_keys (junk bits : Z) (ps : list (Z * Z * Z)) : res (list Z) :=
  by_blocks blocksize junk (key_block bits) ps.

(** *** inverses, lines 174-232 *)
Record ist := { i_key : Z; i_pos : Z * Z * Z; i_rot : Z; i_sense : Z }.
Section Inverse.
  Variable junk : Z.
  (** lines 200-210 *)
  Definition inv_digit (mask shift : Z) (s : ist) : res (ist * (Z * Z)) :=
    let keypart := Z.shiftr (Z.land (i_key s) mask) shift in
    let quad := if i_sense s =? 1 then keypart else 7 - keypart in
    let '(x, y, z) := i_pos s in
    do bx <- py_nth (quadrants_inverse_x junk) (8 * i_rot s + quad);
    do by_ <- py_nth (quadrants_inverse_y junk) (8 * i_rot s + quad);
    do bz <- py_nth (quadrants_inverse_z junk) (8 * i_rot s + quad);
    let pos := (wrap32 (wrap32 (x * 2) + bx), wrap32 (wrap32 (y * 2) + by_), wrap32 (wrap32 (z * 2) + bz)) in
    do rotx <- py_nth rotx_table quad;
    do roty <- py_nth roty_table quad;
    do sg <- py_nth sense_table quad;
    Ok ({| i_key := i_key s; i_pos := pos; i_rot := i_rot s; i_sense := i_sense s * sg |}, (rotx, roty)).
  Definition set_irot (s : ist) (r : Z) : ist := {| i_key := i_key s; i_pos := i_pos s; i_rot := r; i_sense := i_sense s |}.
  Fixpoint inv_loop (n : nat) (mask shift : Z) (s : ist) : res ist :=
    match n with
    | O => Ok s
    | S n' =>
      do (s, r) <- inv_digit mask shift s;
      do rot <- rotate FUEL rotxmap_table (i_rot s) (fst r);
      do rot <- rotate FUEL rotymap_table rot (snd r);
      inv_loop n' (Z.shiftr mask 3) (shift - 3) (set_irot s rot)
    end.
  Fixpoint inv_loop_array (n : nat) (mask shift : Z) (l : list ist) : res (list ist) :=
    match n with
    | O => Ok l
    | S n' =>
      do lr <- mapM (inv_digit mask shift) l;
      do rots <- rotate_any FUEL rotxmap_table (map (fun sr => (i_rot (fst sr), fst (snd sr))) lr);
      do rots <- rotate_any FUEL rotymap_table (combine rots (map (fun sr => snd (snd sr)) lr));
      inv_loop_array n' (Z.shiftr mask 3) (shift - 3) (zipwith set_irot (map fst lr) rots)
    end.
  Definition inv_init (key : Z) : ist := {| i_key := key; i_pos := (0, 0, 0); i_rot := 0; i_sense := 1 |}.
  (** line 189: a negative shift is a ValueError; line 200: a mask which is not an int64 an OverflowError *)
  Definition inv_scalar (bits key : Z) : res (Z * Z * Z) :=
    do _ <- bits_ok 21 bits;
    let shift := 3 * (bits - 1) in
    do s <- inv_loop (Z.to_nat bits) (Z.shiftl 7 shift) shift (inv_init key);
    Ok (i_pos s).
  Definition inv_block (bits : Z) (keys : list Z) : res (list (Z * Z * Z)) :=
    do _ <- bits_ok 21 bits;
    let shift := 3 * (bits - 1) in
    do l <- inv_loop_array (Z.to_nat bits) (Z.shiftl 7 shift) shift (map inv_init keys);
    Ok (map i_pos l).
  (** lines 235-256; the output arrays are zero before the loop *)
  Definition peano_hilbert_key_inverses (bits : Z) (keys : list Z) : res (list (Z * Z * Z)) :=
    by_blocks blocksize (0, 0, 0) (inv_block bits) keys.
End Inverse.
