(** Model of the programs which read a snapshot file of the Millennium-2 simulation:
    /repo/examples/millennium2/c/read_mill2_snapshot_file.c, lines 55-103,
    /repo/examples/millennium2/fortran/read_m2_snapshot_file.f90, lines 47-80, and
    /repo/examples/millennium2/idl/read_mill2_snapshot.pro, lines 12-28.

    A file is its bytes, [little] the byte order of the machine. Floating point numbers are bit
    patterns. What is written are numbers, not their format (the Fortran program has 16 columns for
    an id). Command line arguments, and files which do not exist, are not modelled. *)
From Verif.Base Require Import Prelude.
From Verif.Binary Require Import BinModel.
From Verif.Peano Require Import CPeanoModel.
From Verif.Fortran Require Import SortModel RegionModel GroupTabModel.
Local Open Scope Z_scope.

(** a line of the output: positions and velocities, and the id *)
Notation line := (list Z * Z)%type.

Section Read.
  Variable little : bool.
  (** numbers of [size] bytes in memory *)
  Definition decode (size count : Z) (bytes : list Z) : list Z := map (fun i => in_memory little (elem size bytes i)) (zseq 0 (Z.to_nat count)).

  (** *** C *)
  (** an open file: its bytes and the position in it. fread copies the bytes which are there, and
      leaves the rest of the memory [buf] as it was. *)
  Definition fread (buf : list Z) (fd : list Z * Z) : list Z * (list Z * Z) :=
    let (bytes, pos) := fd in
    let got := zslice bytes pos (pos + zlen buf) in
    (got ++ skipn (length got) buf, (bytes, pos + zlen got)).
  Section C.
    (** what is in the variables irec and header, and in the memory which malloc returns *)
    Variables (irec0 header0 : list Z) (malloc : Z -> list Z).
    Definition to_int (bytes : list Z) : Z := signed32 (in_memory little bytes).
    (** lines 55-103; exit(2) is [ERuntime]; a negative size and an overflow of 3*np are [EAbort] *)
    Definition c_program (content : list Z) : res (list line) :=
      let fd := (content, 0) in
      (* lines 55-67 *)
      let (irec, fd) := fread irec0 fd in
      do _ <- check (to_int irec =? 256) ERuntime;
      let (header, fd) := fread header0 fd in
      let (irec, fd) := fread irec fd in
      do _ <- check (to_int irec =? 256) ERuntime;
      (* line 70 *)
      let np := to_int (zslice header 4 8) in
      do _ <- check (0 <=? np) EAbort;
      do n3 <- c_int (3 * np);
      (* lines 74-77 *)
      let (irec, fd) := fread irec fd in
      let (pos, fd) := fread (malloc (4 * 3 * np)) fd in
      let (irec, fd) := fread irec fd in
      (* lines 80-83 *)
      let (irec, fd) := fread irec fd in
      let (vel, fd) := fread (malloc (4 * 3 * np)) fd in
      let (irec, fd) := fread irec fd in
      (* lines 86-89 *)
      let (irec, fd) := fread irec fd in
      let (ids, fd) := fread (malloc (8 * np)) fd in
      let (irec, fd) := fread irec fd in
      (* lines 97-103: ids are written as unsigned numbers *)
      let p := decode 4 n3 pos in
      let v := decode 4 n3 vel in
      let d := decode 8 np ids in
      let at_ l k := nth (Z.to_nat k) l 0 in
      Ok (map (fun i => ([at_ p (3 * i); at_ p (3 * i + 1); at_ p (3 * i + 2); at_ v (3 * i); at_ v (3 * i + 1); at_ v (3 * i + 2)], at_ d i)) (zseq 0 (Z.to_nat np))).
  End C.

  (** *** Fortran *)
  (** lines 19-37: npart, mass, time, redshift, flag_sfr, flag_feedback, nparttotal, flag_cooling,
      numfiles, boxsize, omega0, omegalambda, hubbleparam, flag_stellarage, flag_metals,
      nparttotal_hw, unused *)
  Definition m2_header_items (unused : Z) : list (Z * Z) :=
    [(4, 6); (8, 6); (8, 1); (8, 1); (4, 1); (4, 1); (4, 6); (4, 1); (4, 1); (8, 1); (8, 1); (8, 1); (8, 1); (4, 1); (4, 1); (4, 6); (1, unused)].
  (** lines 54-61 for one type of particles; integer*8 arithmetic wraps around *)
  Definition total_number (low high : Z) : Z :=
    let nptot := signed32 low in
    let nptot_hw := signed32 high in
    let nptot := if nptot <? 0 then nptot + 2 ^ 32 else nptot in
    let nptot_hw := if nptot_hw <? 0 then nptot_hw + 2 ^ 32 else nptot_hw in
    to_signed64 ((nptot + Z.shiftl nptot_hw 32) mod 2 ^ 64).
  (** lines 47-80: the total number of particles, the box size and the lines *)
  Definition fortran_program (content : list Z) : res (Z * Z * list line) :=
    do (h, p) <- read_record little content 0 (m2_header_items 64);
    let nptot := total_number (nth 1 (item h 6) 0) (nth 1 (item h 15) 0) in
    let np := h_npart h in
    (* lines 66-71: an array with a negative extent is empty *)
    do (pos, p) <- read_record little content p [(4, 3 * Z.max 0 np)];
    do (vel, p) <- read_record little content p [(4, 3 * Z.max 0 np)];
    do (id, p) <- read_record little content p [(8, Z.max 0 np)];
    (* lines 78-80 *)
    Ok (nptot, nth 0 (item h 9) 0, map (fun i => (col3 (item pos 0) i ++ col3 (item vel 0) i, nth (Z.to_nat i) (longs (item id 0)) 0)) (zseq 0 (Z.to_nat np))).

  (** *** IDL *)
  (** lines 12-28: npart, pos, vel and ids; an array without elements is an error. READU from a
      file opened with F77_UNFORMATTED reads one record, which may have more bytes. *)
  Definition idl_program (content : list Z) : res (list Z * (list Z * list Z * list Z)) :=
    do (h, p) <- read_record little content 0 (m2_header_items 6);
    let np := h_npart h in
    do _ <- check (0 <? np) EValue;
    do (pos, p) <- read_record little content p [(4, 3 * np)];
    do (vel, p) <- read_record little content p [(4, 3 * np)];
    do (id, p) <- read_record little content p [(8, np)];
    Ok (ints (item h 0), (item pos 0, item vel 0, longs (item id 0))).
End Read.
