(** Model of SnapshotFile.sanity_check() of formats/subfind_lgadget2.py (lines 341-409)
    under python 3. The outcomes of the tests on floating point arrays are arguments. *)
From Coq Require Import QArith.
From Verif Require Import Base.Prelude Base.Order Peano.PeanoModel Snap.SanityModel.
Local Open Scope Z_scope.

(** a python number: [PyInt] or [PyFloat] with its value *)
Inductive pynum := PyInt (z : Z) | PyFloat (q : Q).

(** line 347; [np2]: numpy 2 keeps the type uint32 of the element, and shifting that by
    32 gives 0. numpy 1 converts to int64. *)
Definition np_total (np2 : bool) (nptot : list Z) : res Z :=
  do lo <- py_nth nptot 1;
  do hi <- py_nth nptot 2;
  Ok (if np2 then (lo + 0) mod 2 ^ 32 else wrap64 (lo + wrap64 (hi * 2 ^ 32))).

(** lines 350-354: hashtabsize /= 2 is a true division; returns the bits after
    hashbits /= 3, a float *)
Fixpoint hash_bits (fuel : nat) (hashtabsize : Q) (hashbits : Z) : res pynum :=
  match fuel with
  | O => Err EFuel
  | S f => if Qle_bool hashtabsize 2 then Ok (PyFloat (inject_Z hashbits / 3)) else hash_bits f (hashtabsize / 2)%Q (hashbits + 1)
  end.

(** lines 386-389: key[blockid[i]:blockid[i+1]] = i + first, then key[blockid[-1]:] = last *)
Definition fill_slice (key : list Z) (a b v : Z) : list Z :=
  let n := zlen key in
  let clip i := Z.max 0 (Z.min n (if i <? 0 then i + n else i)) in
  map (fun p => if (clip a <=? fst p) && (fst p <? clip b) then v else snd p) (combine (zseq 0 (length key)) key).
Definition hash_keys (n first last : Z) (blockid : list Z) : res (list Z) :=
  do key <- fold_left (fun acc i => do key <- acc; do a <- py_nth blockid i; do b <- py_nth blockid (i + 1); Ok (fill_slice key a b (wrap32 (i + first))))
              (zseq 0 (Z.to_nat (wrap32 (last - first)))) (Ok (repeat (-1) (Z.to_nat n)));
  do a <- py_nth blockid (-1);
  Ok (fill_slice key a (zlen key) last).

(** util/peano.py lines 235-256 with a python number for [bits]: for every block
    peano_hilbert_key_inverses_block() begins with shift = 3 * (bits - 1) and
    mask = 7 << shift (lines 188-189), a TypeError for a float *)
Definition key_inverses (junk : Z) (bits : pynum) (keys : list Z) : res (list (Z * Z * Z)) :=
  match bits with
  | PyInt b => peano_hilbert_key_inverses junk b keys
  | PyFloat _ => by_blocks blocksize (0, 0, 0) (fun _ => Err EType) keys
  end.

(** [in_cells] is the outcome of lines 394-406 given the cells of the particles *)
Definition snapshot_check (np2 : bool) (fuel : nat) (junk : Z) (n : Z) (nptot : list Z) (hashtabsize : Z) (pos_finite pos_inside vel_finite vel_small : bool)
    (ids : list Z) (first last : Z) (blockid : list Z) (in_cells : list (Z * Z * Z) -> bool) : res unit :=
  do total <- np_total np2 nptot;
  do bits <- hash_bits fuel (inject_Z hashtabsize) 1;
  do _ <- refuse (negb pos_finite);
  do _ <- refuse (negb pos_inside);
  do _ <- refuse (negb vel_finite);
  do _ <- refuse (negb vel_small);
  do _ <- refuse (any (fun i => i <? 0) ids || any (fun i => i >? total) ids);
  do keys <- hash_keys n first last blockid;
  do cells <- key_inverses junk bits keys;
  refuse (negb (in_cells cells)).
