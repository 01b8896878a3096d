(** Model of the Fortran readers of whole files of the Millennium simulation:
    /repo/examples/millennium/fortran/readgroups.f90 (group catalogues, direct access) and
    /repo/examples/millennium/fortran/readfile.f90 (snapshots, sequential access), and of the
    programs readfileexample.f90 and readsubhalosexample.f90.

    A file is its bytes. [little] is the byte order in which the compiled program reads
    numbers. The names of the files, the ASSOCIATED tests and messages are not modelled. A READ
    which fails is the error [EIO]; an integer which does not fit 32 bits, or an access outside
    of an array, is [EAbort]. REALs are bit patterns. *)
From Verif.Base Require Import Prelude.
From Verif.Binary Require Import BinModel.
From Verif.Peano Require Import CPeanoModel.
From Verif.Fortran Require Import SortModel RegionModel.
Local Open Scope Z_scope.

Section Read.
  Variable little : bool.

  (** the items of an input list: arrays of [count] numbers of [size] bytes, one after the
      other in the record; a record may have more bytes but not less *)
  Fixpoint transfer (items : list (Z * Z)) (bytes : list Z) : res (list (list Z)) :=
    match items with
    | [] => Ok []
    | (size, count) :: items' =>
      let n := Z.max 0 count in
      do _ <- check (size * n <=? zlen bytes) EIO;
      let vals := map (fun i => in_memory little (elem size bytes i)) (zseq 0 (Z.to_nat n)) in
      do rest <- transfer items' (skipn (Z.to_nat (size * n)) bytes);
      Ok (vals :: rest)
    end.
  (** OPEN with ACCESS='direct', READ with REC=1, CLOSE *)
  Definition read_direct (content : list Z) (recl : Z) (items : list (Z * Z)) : res (list (list Z)) :=
    do _ <- check (0 <? recl) EIO;
    do _ <- check (recl <=? zlen content) EIO;
    transfer items (zslice content 0 recl).

  Definition ints (l : list Z) : list Z := map signed32 l.
  Definition item (l : list (list Z)) (i : nat) : list Z := nth i l [].
  Definition to_signed64 (v : Z) : Z := if 2 ^ 63 <=? v then v - 2 ^ 64 else v.
  Definition longs (l : list Z) : list Z := map to_signed64 l.

  (** readgroups.f90, lines 69-135: (nfoffile, nidfile, nfoftot, nfiles), foflen, foffset *)
  Definition readgrouptab (content : list Z) : res (list Z * list Z * list Z) :=
    do h <- read_direct content 20 [(4, 4)];
    let header := ints (item h 0) in
    let nfoffile := nth 0 header 0 in
    do a <- c_int (nfoffile * 2);
    do nint <- c_int (4 + a);
    do nbytes <- c_int (nint * 4);
    do r <- read_direct content nbytes [(4, 4); (4, nfoffile); (4, nfoffile)];
    Ok (header, ints (item r 1), ints (item r 2)).
  (** lines 139-201 and 276-337: (nfoffile, nidfile, nfoftot, nfiles), groupids *)
  Definition readgroupids (content : list Z) : res (list Z * list Z) :=
    do h <- read_direct content 16 [(4, 4)];
    let header := ints (item h 0) in
    let nidfile := nth 1 header 0 in
    do nint8 <- c_int (2 + nidfile);
    do nbytes <- c_int (nint8 * 8);
    do r <- read_direct content nbytes [(4, 4); (8, nidfile)];
    Ok (header, longs (item r 1)).
  (** lines 206-272: (nfoffile, nidfile, nfoftot, nfiles, nsubfile), nsphalo, firstsub, sublen, suboffset, subpar *)
  Definition readsubtab (content : list Z) : res (list Z * (list Z * list Z) * (list Z * list Z * list Z)) :=
    do h <- read_direct content 20 [(4, 5)];
    let header := ints (item h 0) in
    let nfoffile := nth 0 header 0 in
    let nsubfile := nth 4 header 0 in
    do a <- c_int (nfoffile * 2);
    do b <- c_int (5 + a);
    do c <- c_int (nsubfile * 3);
    do nint <- c_int (b + c);
    do nbytes <- c_int (nint * 4);
    do r <- read_direct content nbytes [(4, 5); (4, nfoffile); (4, nfoffile); (4, nsubfile); (4, nsubfile); (4, nsubfile)];
    Ok (header, (ints (item r 1), ints (item r 2)), (ints (item r 3), ints (item r 4), ints (item r 5))).
  (** lines 43-63 *)
  Record subhalo := { s_pos : list Z; s_vel : list Z; s_spin : list Z; s_veldisp : Z; s_vmax : Z; s_mostboundid : Z; s_halfmass : Z; s_len : Z; s_offset : Z; s_parent : Z }.
  Record halo := { h_mmean200 : Z; h_rmean200 : Z; h_mcrit200 : Z; h_rcrit200 : Z; h_mtophat200 : Z; h_rtophat200 : Z; h_nsubgroups : Z; h_firstsubgroup : Z }.
  (** element (k, i) of an array with 3 rows in column major order *)
  Definition col3 (l : list Z) (i : Z) : list Z := map (fun k => nth (Z.to_nat (3 * i + k)) l 0) [0; 1; 2].
  (** lines 341-448 *)
  Definition readsubhalos (content : list Z) : res (list Z * list halo * list subhalo) :=
    do h <- read_direct content 20 [(4, 5)];
    let header := ints (item h 0) in
    let nfoffile := nth 0 header 0 in
    let nsubfile := nth 4 header 0 in
    do a <- c_int (nfoffile * 8);
    do b <- c_int (5 + a);
    do c <- c_int (nsubfile * 17);
    do nint <- c_int (b + c);
    do nbytes <- c_int (nint * 4);
    do r <- read_direct content nbytes
      [(4, 5); (4, nfoffile); (4, nfoffile); (4, nsubfile); (4, nsubfile); (4, nsubfile);
       (4, nfoffile); (4, nfoffile); (4, nfoffile); (4, nfoffile); (4, nfoffile); (4, nfoffile);
       (4, 3 * nsubfile); (4, 3 * nsubfile); (4, nsubfile); (4, nsubfile); (4, 3 * nsubfile); (8, nsubfile); (4, nsubfile)];
    let at_ k i := nth (Z.to_nat i) (item r k) 0 in
    Ok (header,
        map (fun i => {| h_nsubgroups := signed32 (at_ 1%nat i); h_firstsubgroup := signed32 (at_ 2%nat i); h_mmean200 := at_ 6%nat i; h_rmean200 := at_ 7%nat i;
                         h_mcrit200 := at_ 8%nat i; h_rcrit200 := at_ 9%nat i; h_mtophat200 := at_ 10%nat i; h_rtophat200 := at_ 11%nat i |}) (zseq 0 (Z.to_nat nfoffile)),
        map (fun i => {| s_len := signed32 (at_ 3%nat i); s_offset := signed32 (at_ 4%nat i); s_parent := signed32 (at_ 5%nat i);
                         s_pos := col3 (item r 12) i; s_vel := col3 (item r 13) i; s_veldisp := at_ 14%nat i; s_vmax := at_ 15%nat i; s_spin := col3 (item r 16) i;
                         s_mostboundid := to_signed64 (at_ 17%nat i); s_halfmass := at_ 18%nat i |}) (zseq 0 (Z.to_nat nsubfile))).

  (** readsubhalosexample.f90, lines 46-54: one line per subhalo: len, halfmass, pos *)
  Definition sub_lines (subs : list subhalo) : list (Z * Z * list Z) := map (fun s => (s_len s, s_halfmass s, s_pos s)) subs.
  (** lines 62-71: one line per halo which has subhalos: mmean200 (before it is multiplied by
      1e10), rmean200, position of the first subhalo *)
  Fixpoint halo_lines (halos : list halo) (subs : list subhalo) : res (list (Z * Z * list Z)) :=
    match halos with
    | [] => Ok []
    | h :: halos' =>
      do l <- (if 0 <? h_nsubgroups h then do s <- fget (map s_pos subs) (h_firstsubgroup h); Ok [(h_mmean200 h, h_rmean200 h, s)] else Ok []);
      do rest <- halo_lines halos' subs;
      Ok (l ++ rest)
    end.
  Definition subhalos_program (content : list Z) : res (list (Z * Z * list Z) * list (Z * Z * list Z)) :=
    do (hh, subs) <- readsubhalos content;
    do l <- halo_lines (snd hh) subs;
    Ok (sub_lines subs, l).

  (** *** readfile.f90 *)
  (** READ from a file opened for sequential access, at byte [pos]: the items and the position
      after the record *)
  Definition read_record (content : list Z) (pos : Z) (items : list (Z * Z)) : res (list (list Z) * Z) :=
    let marker at_ := signed32 (in_memory little (zslice content at_ (at_ + 4))) in
    do _ <- check (pos + 4 <=? zlen content) EIO;
    let n := marker pos in
    do _ <- check (0 <=? n) EIO;
    do _ <- check (pos + 8 + n <=? zlen content) EIO;
    do _ <- check (marker (pos + 4 + n) =? n) EIO;
    do r <- transfer items (zslice content (pos + 4) (pos + 4 + n));
    Ok (r, pos + 8 + n).
  (** lines 85-92 and 140-146: npart, mass, time, redshift, flag_sfr, flag_feedback,
      nparttotal, flag_cooling, numfiles, boxsize, omega0, omegalambda, hubbleparam,
      flag_stellarage, flag_metals, hashtabsize *)
  Definition header_items : list (Z * Z) :=
    [(4, 6); (8, 6); (8, 1); (8, 1); (4, 1); (4, 1); (4, 6); (4, 1); (4, 1); (8, 1); (8, 1); (8, 1); (8, 1); (4, 1); (4, 1); (4, 1)].
  Definition readheader (content : list Z) : res (list (list Z)) :=
    do (h, _) <- read_record content 0 header_items;
    Ok h.
  Definition h_npart (h : list (list Z)) : Z := signed32 (nth 1 (item h 0) 0).
  Definition h_numfiles (h : list (list Z)) : Z := signed32 (nth 0 (item h 8) 0).
  Definition h_hashtabsize (h : list (list Z)) : Z := signed32 (nth 0 (item h 15) 0).
  (** lines 98-158; the arrays given have room for [room] particles and [hroom] hash cells:
      header, (firstcell, lastcell, hashtable), pos, vel, id *)
  Definition readfile (content : list Z) (room hroom : Z) : res (list (list Z) * (Z * Z * list Z) * (list (list Z) * list (list Z) * list Z)) :=
    do (h, p) <- read_record content 0 header_items;
    let np := h_npart h in
    do _ <- check (np <=? room) EAbort;
    do (pos, p) <- read_record content p [(4, 3 * np)];
    do (vel, p) <- read_record content p [(4, 3 * np)];
    do (id, p) <- read_record content p [(8, np)];
    do (c, p) <- read_record content p [(4, 2)];
    let firstcell := nth 0 (ints (item c 0)) 0 in
    let lastcell := nth 1 (ints (item c 0)) 0 in
    do d <- c_int (lastcell - firstcell);
    do nhash <- c_int (d + 1);
    do _ <- check (nhash <=? hroom) EAbort;
    do (t, p) <- read_record content p [(4, nhash)];
    let part := zseq 0 (Z.to_nat np) in
    Ok (h, (firstcell, lastcell, ints (item t 0)), (map (col3 (item pos 0)) part, map (col3 (item vel 0)) part, longs (item id 0))).
  (** readfileexample.f90, lines 29-46: one line for every tenth particle; allocating with a
      negative size gives an empty array *)
  Fixpoint every_tenth (fuel : nat) (np i : Z) : list Z :=
    match fuel with
    | O => []
    | S fuel' => if i <=? np then i :: every_tenth fuel' np (i + 10) else []
    end.
  Definition file_program (content : list Z) : res (list (Z * list Z)) :=
    do h <- readheader content;
    do (hc, pvi) <- readfile content (Z.max 0 (h_npart h)) (Z.max 0 (h_hashtabsize h));
    let '(pos, _, ids) := pvi in
    mapM (fun i => do id <- fget ids (i - 1); do x <- fget pos (i - 1); Ok (id, x)) (every_tenth (Z.to_nat (h_npart (fst hc))) (h_npart (fst hc)) 1).
End Read.
