(** Model of the example program /repo/examples/millennium/fortran/readregionexample.f90, from
    the numbers it is given to the lines of the output file.

    REALs are bit patterns; how they are compared ([le]: .LE. and, the other way round, .GE.)
    and the expression INT((x/lbox)*float(ncellbox)) ([cell ncellbox x]) are arguments. Integers
    which do not fit 32 bits are the error [EAbort]. The names of files, messages and the format
    of the output are not modelled. *)
From Verif.Base Require Import Prelude.
From Verif.Peano Require Import CPeanoModel.
From Verif.Fortran Require Import SortModel RegionModel.
Local Open Scope Z_scope.

(** lines 53-58: ncellbox, hashbits *)
Fixpoint hash_bits (fuel : nat) (nhash ncellbox hashbits : Z) : res (Z * Z) :=
  match fuel with
  | O => Err EFuel
  | S fuel' =>
    do a <- c_int (ncellbox * ncellbox);
    do b <- c_int (a * ncellbox);
    if b <? nhash then
      do n <- c_int (ncellbox * 2);
      do h <- c_int (hashbits + 1);
      hash_bits fuel' nhash n h
    else Ok (ncellbox, hashbits)
  end.
(** a DO loop from [a] to [b] *)
Definition do_range (a b : Z) : list Z := zseq a (Z.to_nat (b - a + 1)).

Section Program.
  Variables little byteswap : bool.
  Variable le : Z -> Z -> bool.
  Variable cell : Z -> Z -> Z.
  Variables nhash : Z.
  Variable files : list (list Z).
  Variable junk : Z.
  Variables xmin xmax ymin ymax zmin zmax : Z.

  (** lines 61-66 *)
  Definition low (ncellbox x : Z) : Z := Z.max (cell ncellbox x) 0.
  Definition high (ncellbox x : Z) : Z := Z.min (cell ncellbox x) (ncellbox - 1).
  (** lines 51, 52 and 73-80 *)
  Definition flag_volume (ncellbox hashbits : Z) : res (list bool) :=
    foldR (fun h i => foldR (fun h j => foldR (fun h k =>
        do ihash <- peano_hilbert_key_ i j k hashbits;
        fset h ihash true)
      (do_range (low ncellbox zmin) (high ncellbox zmax)) h)
      (do_range (low ncellbox ymin) (high ncellbox ymax)) h)
      (do_range (low ncellbox xmin) (high ncellbox xmax)) (repeat false (Z.to_nat nhash)).
  (** lines 92-102; .AND. need not be evaluated from left to right *)
  Definition keep_one (s : Z * region) (i : Z) : res (Z * region) :=
    let '(j, r) := s in
    do x <- fget (r_x r) (i - 1);
    do y <- fget (r_y r) (i - 1);
    do z <- fget (r_z r) (i - 1);
    if le xmin x && le x xmax && le ymin y && le y ymax && le zmin z && le z zmax then
      let j := j + 1 in
      do x <- fget (r_x r) (i - 1); do rx <- fset (r_x r) (j - 1) x;
      do y <- fget (r_y r) (i - 1); do ry <- fset (r_y r) (j - 1) y;
      do z <- fget (r_z r) (i - 1); do rz <- fset (r_z r) (j - 1) z;
      do vx <- fget (r_vx r) (i - 1); do rvx <- fset (r_vx r) (j - 1) vx;
      do vy <- fget (r_vy r) (i - 1); do rvy <- fset (r_vy r) (j - 1) vy;
      do vz <- fget (r_vz r) (i - 1); do rvz <- fset (r_vz r) (j - 1) vz;
      do id <- fget (r_ids r) (i - 1); do rid <- fset (r_ids r) (j - 1) id;
      Ok (j, {| r_x := rx; r_y := ry; r_z := rz; r_vx := rvx; r_vy := rvy; r_vz := rvz; r_ids := rid |})
    else Ok (j, r).
  (** lines 90-104: the number of particles in the volume and the arrays *)
  Definition discard (npart : Z) (r : region) : res (Z * region) := foldR keep_one (do_range 1 npart) (0, r).
  (** lines 50-104 *)
  Definition volume : res (Z * region) :=
    do (ncellbox, hashbits) <- hash_bits 32 nhash 1 0;
    do hashmap <- flag_volume ncellbox hashbits;
    do (npart, r) <- readregion little byteswap nhash files hashmap junk;
    discard npart r.
  (** lines 50-111: one line for each particle *)
  Definition volume_program : res (list (Z * Z * Z)) :=
    do (npart, r) <- volume;
    mapM (fun i => do x <- fget (r_x r) (i - 1); do y <- fget (r_y r) (i - 1); do z <- fget (r_z r) (i - 1); Ok (x, y, z)) (do_range 1 npart).
End Program.
