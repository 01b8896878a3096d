(** Model of the routines which read the particles of a region of the Millennium simulation:
    the C functions of /repo/examples/millennium/fortran/readparticles.c, which read parts of
    an L-Gadget2 snapshot file at computed byte offsets, and the subroutine readregion of
    /repo/examples/millennium/fortran/readregion.f90.

    A file is its bytes. The C type int has 32 bits; what C leaves undefined (an int sum or
    product which does not fit, closing a file which is not open, an access outside an array) is
    the error [EAbort]. A call of abortmessagepart is the error [EIO]. Fortran integers are
    unbounded. The names of the files (lines 59-75 and 161-180 of readregion.f90) are not
    modelled: file number ifile is element ifile of a list, and can be opened. *)
From Verif.Base Require Import Prelude.
From Verif.Binary Require Import BinModel.
From Verif.Peano Require Import CPeanoModel.
From Verif.Fortran Require Import SortModel.
Local Open Scope Z_scope.

(** *** readparticles.c *)
(** lines 251-284 *)
Definition exch (v : list Z) (i j : nat) : list Z := set_nth (set_nth v i (nth j v 0)) j (nth i v 0).
Definition byte_swap4 (v : list Z) : list Z := exch (exch v 0 3) 1 2.
Definition byte_swap8 (v : list Z) : list Z := exch (exch (exch (exch v 0 7) 1 6) 2 5) 3 4.

Section Read.
  Variable little : bool. (* the byte order of the machine *)
  Variable byteswap : bool. (* compiled with -DBYTESWAP *)

  (** the value of an unsigned number in memory *)
  Definition in_memory (bytes : list Z) : Z := le_value (if little then bytes else rev bytes).
  Definition word4 (bytes : list Z) : Z := in_memory (if byteswap then byte_swap4 bytes else bytes).
  Definition int4 (bytes : list Z) : Z := signed32 (word4 bytes).
  Definition int8 (bytes : list Z) : Z :=
    let v := in_memory (if byteswap then byte_swap8 bytes else bytes) in if 2 ^ 63 <=? v then v - 2 ^ 64 else v.
  (** element number i of an array of elements of the given size *)
  Definition elem (size : Z) (block : list Z) (i : Z) : list Z := zslice block (size * i) (size * i + size).

  (** fseek to the offset, then fread: the number of items must be the one asked for *)
  Definition seek_read (content : list Z) (offset size count : Z) : res (list Z) :=
    do _ <- check (0 <=? count) EAbort;
    do _ <- check (0 <=? offset) EIO;
    let block := zslice content offset (offset + size * count) in
    do _ <- check (zlen block =? size * count) EIO;
    Ok block.

  (** lines 140-147, also in readpartids_ and readhash_: the number of particles in the file *)
  Definition read_npfile (content : list Z) : res Z :=
    do b <- seek_read content 8 4 1;
    Ok (int4 (elem 4 b 0)).
  (** lines 107-118 and 156-167: three arrays of bit patterns of floats *)
  Definition triples (nread : Z) (block : list Z) : list Z * list Z * list Z :=
    let f k := map (fun ipart => word4 (elem 4 block (ipart * 3 + k))) (zseq 0 (Z.to_nat nread)) in (f 0, f 1, f 2).
  (** lines 85-120 *)
  Definition readpartcoords (content : list Z) (ifirst ilast : Z) : res (list Z * list Z * list Z) :=
    do _ <- c_int ((ilast - ifirst + 1) * 12);
    let nread := ilast - ifirst + 1 in
    do a <- c_int (ifirst * 12);
    do offset <- c_int (256 + a);
    do block <- seek_read content offset 12 nread;
    Ok (triples nread block).
  (** lines 125-169 *)
  Definition readpartvel (content : list Z) (ifirst ilast : Z) : res (list Z * list Z * list Z) :=
    do _ <- c_int ((ilast - ifirst + 1) * 12);
    let nread := ilast - ifirst + 1 in
    do npfile <- read_npfile content;
    do a <- c_int (npfile * 12);
    do b <- c_int (264 + a);
    do c <- c_int (ifirst * 12);
    do offset <- c_int (b + c);
    do block <- seek_read content offset 12 nread;
    Ok (triples nread block).
  (** lines 172-202 *)
  Definition readpartids (content : list Z) (ifirst ilast : Z) : res (list Z) :=
    do nread <- c_int (ilast - ifirst + 1);
    do npfile <- read_npfile content;
    do a <- c_int (npfile * 24);
    do b <- c_int (276 + a);
    do c <- c_int (ifirst * 8);
    do offset <- c_int (b + c);
    do block <- seek_read content offset 8 nread;
    Ok (map (fun i => int8 (elem 8 block i)) (zseq 0 (Z.to_nat nread))).
  (** lines 209-249: (firstcell, lastcell, hash table, npfile) *)
  Definition readhash (content : list Z) : res (Z * Z * list Z * Z) :=
    do npfile <- read_npfile content;
    do a <- c_int (npfile * 32);
    do offset <- c_int (292 + a);
    do h <- seek_read content offset 4 2;
    let firstcell := int4 (elem 4 h 0) in
    let lastcell := int4 (elem 4 h 1) in
    do d <- c_int (lastcell - firstcell);
    do nhash <- c_int (d + 1);
    do t <- seek_read content (offset + 16) 4 nhash;
    Ok (firstcell, lastcell, map (fun i => int4 (elem 4 t i)) (zseq 0 (Z.to_nat nhash)), npfile).

  (** *** readregion.f90 *)
  Variable nhash : Z.
  Variable files : list (list Z).

  (** an array section: the elements must exist unless the section is empty *)
  Definition write_section (l : list Z) (first : Z) (vals : list Z) : res (list Z) :=
    if zlen vals =? 0 then Ok l
    else do _ <- check ((0 <=? first) && (first + zlen vals <=? zlen l)) EAbort; Ok (write_at l first vals).
  (** lines 57-82: (offset, hashtable, filetable, lastcell, ninfile) *)
  Record tables := { t_offset : Z; t_hash : list Z; t_file : list Z; t_last : list Z; t_nin : list Z }.
  Definition read_table (t : tables) (ifile : Z) : res tables :=
    do content <- fget files ifile;
    do (fl, np) <- readhash content;
    let '(firstcell, lastcell, table) := fl in
    do h <- write_section (t_hash t) (t_offset t) table;
    do last <- fset (t_last t) ifile lastcell;
    do nin <- fset (t_nin t) ifile np;
    do f <- write_section (t_file t) firstcell (repeat ifile (Z.to_nat (lastcell - firstcell + 1)));
    Ok {| t_offset := lastcell + 1; t_hash := h; t_file := f; t_last := last; t_nin := nin |}.
  Fixpoint foldR {S B} (f : S -> B -> res S) (l : list B) (s : S) : res S :=
    match l with [] => Ok s | b :: l' => do s' <- f s b; foldR f l' s' end.
  (** arrays are not initialised: their first contents are [junk] *)
  Definition read_tables (junk : Z) : res tables :=
    let n := Z.to_nat nhash in
    foldR read_table (zseq 0 (length files)) {| t_offset := 0; t_hash := repeat junk n; t_file := repeat junk n; t_last := repeat junk (length files); t_nin := repeat junk (length files) |}.
  (** lines 84-91 *)
  Definition count_cell (t : tables) (ihash : Z) : res Z :=
    do ifile <- fget (t_file t) ihash;
    do last <- fget (t_last t) ifile;
    if ihash <? last then
      do b <- fget (t_hash t) (ihash + 1); do a <- fget (t_hash t) ihash; Ok (b - a)
    else
      do n <- fget (t_nin t) ifile; do a <- fget (t_hash t) ihash; Ok (n - a).
  Definition npercell (t : tables) : res (list Z) := mapM (count_cell t) (zseq 0 (Z.to_nat nhash)).
  (** lines 93-104 *)
  Variable hashmap : list bool.
  Definition count_part (per : list Z) : res Z :=
    foldR (fun npart ihash => do flag <- fget hashmap ihash; do n <- fget per ihash; Ok (if flag : bool then npart + n else npart)) (zseq 0 (Z.to_nat nhash)) 0.

  (** lines 132-135 *)
  Fixpoint scan (fuel : nat) (t : tables) (ifile ihash : Z) : res Z :=
    match fuel with
    | O => Err EFuel
    | S fuel' =>
      do flag <- fget hashmap ihash;
      do f <- fget (t_file t) ihash;
      if flag && (f =? ifile) && (ihash <? nhash - 1) then scan fuel' t ifile (ihash + 1) else Ok ihash
    end.
  Record region := { r_x : list Z; r_y : list Z; r_z : list Z; r_vx : list Z; r_vy : list Z; r_vz : list Z; r_ids : list Z }.
  (** lines 189-193 *)
  Definition read_chunk (content : list Z) (ifirst ilast ipart nread : Z) (r : region) : res region :=
    do (xy, z) <- readpartcoords content ifirst ilast;
    do i <- readpartids content ifirst ilast;
    do (vxy, vz) <- readpartvel content ifirst ilast;
    (* array sections ipart : ipart + nread - 1 *)
    do _ <- check ((1 <=? ipart) && (ipart + nread - 1 <=? zlen (r_x r))) EAbort;
    let w l v := write_at l (ipart - 1) v in
    Ok {| r_x := w (r_x r) (fst xy); r_y := w (r_y r) (snd xy); r_z := w (r_z r) z;
          r_vx := w (r_vx r) (fst vxy); r_vy := w (r_vy r) (snd vxy); r_vz := w (r_vz r) vz; r_ids := w (r_ids r) i |}.
  (** lines 121-203; [cur] is the number of the file which is open *)
  Fixpoint region_loop (fuel : nat) (t : tables) (per : list Z) (ihash ipart iopen : Z) (cur : option Z) (r : region) : res (option Z * region) :=
    match fuel with
    | O => Err EFuel
    | S fuel' =>
      if ihash <? nhash then
        do flag <- fget hashmap ihash;
        if flag : bool then
          let ifcell := ihash in
          do ifile <- fget (t_file t) ihash;
          do ihash <- scan (S (Z.to_nat nhash)) t ifile ihash;
          do flag <- fget hashmap ihash;
          do f <- fget (t_file t) ihash;
          let ihash := if negb flag || negb (f =? ifile) then ihash - 1 else ihash in
          do a <- fget (t_hash t) ifcell;
          let ifirst := a + 1 in
          do b <- fget (t_hash t) ihash;
          do n <- fget per ihash;
          let ilast := b + n in
          let nread := ilast - ifirst + 1 in
          if 0 <? nread then
            do cur <- (if iopen =? ifile then Ok cur
                       else do _ <- (if 0 <=? iopen then (match cur with Some _ => Ok tt | None => Err EAbort end) else Ok tt);
                            do _ <- fget files ifile; Ok (Some ifile));
            do open <- (match cur with Some i => fget files i | None => Err EAbort end);
            do r <- read_chunk open ifirst ilast ipart nread r;
            region_loop fuel' t per (ihash + 1) (ipart + nread) ifile cur r
          else region_loop fuel' t per (ihash + 1) ipart iopen cur r
        else region_loop fuel' t per (ihash + 1) ipart iopen cur r
      else Ok (cur, r)
    end.
  Definition readregion (junk : Z) : res (Z * region) :=
    do t <- read_tables junk; (* each file is closed again *)
    do per <- npercell t;
    do npart <- count_part per;
    let a := repeat junk (Z.to_nat npart) in
    do (cur, r) <- region_loop (S (Z.to_nat nhash)) t per 0 1 (-1) None {| r_x := a; r_y := a; r_z := a; r_vx := a; r_vy := a; r_vz := a; r_ids := a |};
    match cur with
    | Some _ => Ok (npart, r) (* close_gadget, line 204 *)
    | None => Err EAbort
    end.
End Read.
