(** Model of the C library which the IDL programs call to read Millennium groups and regions
    (/repo/examples/millennium/idl/IdlGroupLib/groupstuff.c). Line numbers refer to that file.

    The file system is a function from names to contents. The length of a name (buf has 1000
    characters) is not modelled. int has 32 bits, long and long long have 64. What C leaves
    undefined (an int result which does not fit, an access outside an array, a negative number
    of items) is the error [EAbort] or, for the functions taken from other models, [EIndex].
    The code does not look at the result of fread; here fewer items than asked for are the error
    [EIO] (the variables then keep values which are not defined). What the functions print is not
    modelled. Output arrays are arguments and results; arrays are given with their old contents.
    Arithmetic on float and double is exact arithmetic on rational numbers. *)
From Coq Require Import QArith Qround.
From Coq Require Import Ascii String.
From Verif.Base Require Import Prelude.
From Verif.Binary Require Import BinModel.
From Verif.Text Require Import StrModel.
From Verif.Peano Require Import CPeanoModel.
From Verif.Fortran Require Import SortModel RegionModel.
From Verif.Index Require Import IndexModel.
Local Open Scope Z_scope. Local Open Scope list_scope.

(** *** stdio *)
(** an open file: its bytes and the position in it *)
Definition stream : Type := (list Z * Z)%type.
(** C array elements *)
Definition rd {B} (l : list B) (i : Z) : res B :=
  if 0 <=? i then match nth_error l (Z.to_nat i) with Some v => Ok v | None => Err EAbort end else Err EAbort.
Definition wr {B} (l : list B) (i : Z) (v : B) : res (list B) :=
  if (0 <=? i) && (i <? zlen l) then Ok (set_nth l (Z.to_nat i) v) else Err EAbort.
(** a range of elements of an array *)
Definition rd_range {B} (l : list B) (i n : Z) : res (list B) :=
  do _ <- check ((0 <=? i) && (0 <=? n) && (i + n <=? zlen l)) EAbort; Ok (zslice l i (i + n)).
Definition wr_range {B} (l : list B) (i : Z) (v : list B) : res (list B) :=
  do _ <- check ((0 <=? i) && (i + zlen v <=? zlen l)) EAbort; Ok (write_at l i v).

Section Lib.
  Variable little : bool. (* the byte order of the machine *)
  Variable fs : str -> option (list Z).
  (** the C library function; its results for equal elements are in any order *)
  Variable qsort : forall A : Type, (A -> A -> Z) -> list A -> list A.

  Definition fopen (name : str) : option stream := match fs name with Some b => Some (b, 0) | None => None end.
  (** unsigned numbers *)
  Definition fread (size count : Z) (fd : stream) : res (list Z * stream) :=
    let (bytes, pos) := fd in
    do _ <- check (0 <=? count) EAbort;
    let block := zslice bytes pos (pos + size * count) in
    do _ <- check (zlen block =? size * count) EIO;
    Ok (map (fun i => in_memory little (elem size block i)) (zseq 0 (Z.to_nat count)), (bytes, pos + size * count)).
  Definition fread_int (fd : stream) : res (Z * stream) := do (l, fd) <- fread 4 1 fd; Ok (signed32 (nth 0 l 0), fd).
  Definition fread_ints (count : Z) (fd : stream) : res (list Z * stream) := do (l, fd) <- fread 4 count fd; Ok (map signed32 l, fd).
  (** fseek(fd, offset, SEEK_CUR); the position does not change if it would be negative *)
  Definition fseek_cur (offset : Z) (fd : stream) : stream :=
    let (bytes, pos) := fd in if 0 <=? pos + offset then (bytes, pos + offset) else fd.

  Variable dir : str.
  Variable num : Z.
  (** "%s/group_tab_%03d.%d" and so on *)
  Definition tab_name (filenr : Z) : str := dir ++ lit "/group_tab_" ++ fmt_0d 3 num ++ lit "." ++ fmt_d filenr.
  Definition ids_name (filenr : Z) : str := dir ++ lit "/group_ids_" ++ fmt_0d 3 num ++ lit "." ++ fmt_d filenr.
  Definition snap_name (base : str) (filenr : Z) : str := dir ++ lit "/" ++ base ++ lit "_" ++ fmt_0d 3 num ++ lit "." ++ fmt_d filenr.

  (** Ngroups, Nids, TotNgroups, NTask *)
  Record tab_header := { Ngroups : Z; Nids : Z; TotNgroups : Z; NTask : Z }.
  Definition read_tab_header (fd : stream) : res (tab_header * stream) :=
    do (a, fd) <- fread_int fd;
    do (b, fd) <- fread_int fd;
    do (c, fd) <- fread_int fd;
    do (d, fd) <- fread_int fd;
    Ok ({| Ngroups := a; Nids := b; TotNgroups := c; NTask := d |}, fd).

  (** lines 70-97 *)
  Definition get_total_number_of_groups : res Z :=
    match fopen (tab_name 0) with
    | None => Ok (-1)
    | Some fd => do (h, _) <- read_tab_header fd; Ok (TotNgroups h)
    end.

  (** lines 121-128, also 158-165 and 186-192: the header and GroupMinLen *)
  Definition read_min_len (fd : stream) : res (tab_header * Z * stream) :=
    do (h, fd) <- read_tab_header fd;
    let fd := fseek_cur (4 * Ngroups h) fd in
    let fd := fseek_cur (4 * Ngroups h) fd in
    do (m, fd) <- fread_int fd;
    Ok (h, m, fd).
  (** lines 100-131 *)
  Definition get_minimum_group_len : res Z :=
    match fopen (tab_name 0) with
    | None => Ok (-1)
    | Some fd => do (hm, _) <- read_min_len fd; Ok (snd hm)
    end.

  (** lines 177-202; the doubles are whole numbers *)
  Record below := { b_ret : Z; b_count : list Z; b_ids : Z }.
  Fixpoint below_loop (fuel : nat) (filenr ntask minlen totids : Z) (buffer counts : list Z) (ids0 : Z) : res below :=
    match fuel with
    | O => Err EFuel
    | S fuel' =>
      if filenr <? ntask then
        match fopen (tab_name filenr) with
        | None => Ok {| b_ret := -1; b_count := counts; b_ids := ids0 |}
        | Some fd =>
          do (hm, fd) <- read_min_len fd;
          let (h, m) := hm in
          do (l, fd) <- fread_ints m fd;
          do buffer <- wr_range buffer 0 l;
          do old <- rd_range counts 0 m;
          do new <- rd_range buffer 0 m;
          do counts <- wr_range counts 0 (map (fun '(a, b) => a + b) (combine old new));
          below_loop fuel' (filenr + 1) (NTask h) m (totids + Nids h) buffer counts ids0
        end
      else Ok {| b_ret := minlen; b_count := counts; b_ids := totids |}
    end.
  (** lines 135-209; [junk] is what is in the memory which malloc returns *)
  Definition get_groupcount_below_minimum_len (fuel : nat) (junk : Z) (counts : list Z) (ids0 : Z) : res below :=
    match fopen (tab_name 0) with
    | None => Ok {| b_ret := -1; b_count := counts; b_ids := ids0 |}
    | Some fd =>
      do (hm, _) <- read_min_len fd;
      let (h, m) := hm in
      do _ <- check (0 <=? m) EAbort;
      do counts <- wr_range counts 0 (repeat 0 (Z.to_nat m));
      below_loop fuel 0 (NTask h) m 0 (repeat junk (Z.to_nat m)) counts ids0
    end.

  (** GroupLen, GroupFileNr, GroupNr *)
  Record groups := { g_len : list Z; g_file : list Z; g_nr : list Z }.
  (** lines 250-275: None if a file is missing, or the total number of groups from the last header *)
  Fixpoint catalogue_loop (fuel : nat) (filenr ntask tot count : Z) (g : groups) : res (option Z * groups) :=
    match fuel with
    | O => Err EFuel
    | S fuel' =>
      if filenr <? ntask then
        match fopen (tab_name filenr) with
        | None => Ok (None, g)
        | Some fd =>
          do (h, fd) <- read_tab_header fd;
          do (l, fd) <- fread_ints (Ngroups h) fd;
          do len <- wr_range (g_len g) count l;
          do file <- wr_range (g_file g) count (repeat filenr (Z.to_nat (Ngroups h)));
          do nr <- wr_range (g_nr g) count (zseq 0 (Z.to_nat (Ngroups h)));
          do count <- c_int (count + Ngroups h);
          catalogue_loop fuel' (filenr + 1) (NTask h) (TotNgroups h) count {| g_len := len; g_file := file; g_nr := nr |}
        end
      else Ok (Some tot, g)
    end.
  (** lines 301-310 *)
  Definition id_sort_groups (a b : Z * Z * Z) : Z :=
    if fst (fst b) <? fst (fst a) then -1 else if fst (fst a) <? fst (fst b) then 1 else 0.
  (** lines 218-299 *)
  Definition get_group_catalogue (fuel : nat) (g : groups) : res (Z * groups) :=
    match fopen (tab_name 0) with
    | None => Ok (-1, g)
    | Some fd =>
      do (h, _) <- read_tab_header fd;
      do (r, g) <- catalogue_loop fuel 0 (NTask h) (TotNgroups h) 0 g;
      match r with
      | None => Ok (-1, g)
      | Some tot =>
        do a <- rd_range (g_len g) 0 tot;
        do b <- rd_range (g_file g) 0 tot;
        do c <- rd_range (g_nr g) 0 tot;
        let temp := qsort _ id_sort_groups (combine (combine a b) c) in
        do len <- wr_range (g_len g) 0 (map (fun t => fst (fst t)) temp);
        do file <- wr_range (g_file g) 0 (map (fun t => snd (fst t)) temp);
        do nr <- wr_range (g_nr g) 0 (map snd temp);
        Ok (tot, {| g_len := len; g_file := file; g_nr := nr |})
      end
    end.

  (** *** snapshot files *)
  (** the struct io_header, lines 28-47: 256 bytes, without padding *)
  Record header := { npart1 : Z; num_files : Z; box_bits : Z; hashtabsize : Z }.
  (** a record of length sizeof(io_header) with its marks, for example lines 340-346 *)
  Definition read_header (fd : stream) : res (header * stream) :=
    do (_, fd) <- fread_int fd;
    do (b, fd) <- fread 1 256 fd;
    do (_, fd) <- fread_int fd;
    let int_at off := signed32 (in_memory little (zslice b off (off + 4))) in
    Ok ({| npart1 := int_at 4; num_files := int_at 124; box_bits := in_memory little (zslice b 128 136); hashtabsize := int_at 168 |}, fd).
  (** for example lines 395-397 *)
  Definition skip_record (fd : stream) : res stream :=
    do (dummy, fd) <- fread_int fd;
    let fd := fseek_cur dummy fd in
    do (_, fd) <- fread_int fd;
    Ok fd.
  Variable base : str.

  (** lines 313-354: (NFiles, result) *)
  Definition get_hash_table_size (nfiles : Z) : res (Z * Z) :=
    match fopen (snap_name base 0) with
    | None => Ok (nfiles, -1)
    | Some fd => do (h, _) <- read_header fd; Ok (num_files h, hashtabsize h)
    end.

  Record hash := { Hashtable : list Z; Filetable : list Z; LastHashCell : list Z; NInFiles : list Z }.
  (** lines 384-424 *)
  Fixpoint hash_loop (fuel : nat) (filenr ntask : Z) (t : hash) : res (Z * hash) :=
    match fuel with
    | O => Err EFuel
    | S fuel' =>
      if filenr <? ntask then
        match fopen (snap_name base filenr) with
        | None => Ok (-1, t)
        | Some fd =>
          do (h, fd) <- read_header fd;
          do fd <- skip_record fd; (* positions *)
          do fd <- skip_record fd; (* velocities *)
          do fd <- skip_record fd; (* IDs *)
          do (_, fd) <- fread_int fd;
          do (firstcell, fd) <- fread_int fd;
          do (lastcell, fd) <- fread_int fd;
          do (_, fd) <- fread_int fd;
          do last <- wr (LastHashCell t) filenr lastcell;
          do nin <- wr (NInFiles t) filenr (npart1 h);
          let t := {| Hashtable := Hashtable t; Filetable := Filetable t; LastHashCell := last; NInFiles := nin |} in
          if (firstcell <? 0) || (hashtabsize h <=? firstcell) || (lastcell <? 0) || (hashtabsize h <=? lastcell) then Ok (-1, t)
          else
            do (_, fd) <- fread_int fd;
            do (l, fd) <- fread_ints (lastcell - firstcell + 1) fd;
            do (_, fd) <- fread_int fd;
            do ht <- wr_range (Hashtable t) firstcell l;
            do ft <- wr_range (Filetable t) firstcell (repeat filenr (Z.to_nat (lastcell - firstcell + 1)));
            hash_loop fuel' (filenr + 1) (num_files h) {| Hashtable := ht; Filetable := ft; LastHashCell := last; NInFiles := nin |}
        end
      else Ok (0, t)
    end.
  (** lines 357-427 *)
  Definition get_hash_table (fuel : nat) (t : hash) : res (Z * hash) := hash_loop fuel 0 1 t.

  (** for example lines 470-473: the number of particles in a cell; [file] is its file *)
  Definition cell_len (t : hash) (file cell : Z) : res Z :=
    do last <- rd (LastHashCell t) file;
    if negb (cell =? last) then
      do b <- rd (Hashtable t) (cell + 1); do a <- rd (Hashtable t) cell; c_int (b - a)
    else
      do n <- rd (NInFiles t) file; do a <- rd (Hashtable t) cell; c_int (n - a).
  (** lines 435-482: TabCount *)
  Definition get_particles_in_cubes (t : hash) (size nfiles : Z) (tabcount : list Z) : res (list Z) :=
    foldM (fun tab proc =>
      let per := Z.quot size nfiles in
      do countsum <- foldM (fun sum hash_key =>
        do file <- rd (Filetable t) hash_key;
        do count <- cell_len t file hash_key;
        c_int (sum + count)) (zseq (proc * per) (Z.to_nat per)) 0;
      wr tab proc countsum) (zseq 0 (Z.to_nat nfiles)) tabcount.

  (** *** positions *)
  (** the numbers which the bit patterns of a float and a double stand for *)
  Variable value4 value8 : Z -> Q.
  (** lines 761-770 *)
  Definition fof_periodic (box x : Q) : Q :=
    let x := if Qle_bool ((1 # 2) * box) x then (x - box)%Q else x in
    if negb (Qle_bool (- (1 # 2) * box) x) then (x + box)%Q else x.
  (** lines 749-758 *)
  Fixpoint wrap_down (fuel : nat) (box x : Q) : res Q :=
    match fuel with O => Err EFuel | S f => if Qle_bool box x then wrap_down f box (x - box)%Q else Ok x end.
  Fixpoint wrap_up (fuel : nat) (box x : Q) : res Q :=
    match fuel with O => Err EFuel | S f => if negb (Qle_bool 0 x) then wrap_up f box (x + box)%Q else Ok x end.
  Definition fof_periodic_wrap (fuel : nat) (box x : Q) : res Q := do x <- wrap_down fuel box x; wrap_up fuel box x.

  (** lines 599-614, also 980-997: BoxSize and the positions in a cell *)
  Definition read_cell_pos (t : hash) (file cell : Z) : res (option (Q * list Q)) :=
    match fopen (snap_name base file) with
    | None => Ok None
    | Some fd =>
      do (h, fd) <- read_header fd;
      do (_, fd) <- fread_int fd;
      do a <- rd (Hashtable t) cell;
      do a3 <- c_int (3 * a);
      let fd := fseek_cur (4 * a3) fd in
      do len <- cell_len t file cell;
      do n <- c_int (3 * len);
      do (l, _) <- fread 4 n fd;
      Ok (Some (value8 (box_bits h), map value4 l))
    end.
  (** lines 630-662 *)
  Definition read_cell_ids (t : hash) (file cell : Z) : res (option (list Z)) :=
    match fopen (snap_name base file) with
    | None => Ok None
    | Some fd =>
      do (_, fd) <- read_header fd;
      do fd <- skip_record fd;
      do fd <- skip_record fd;
      do (_, fd) <- fread_int fd;
      do a <- rd (Hashtable t) cell;
      let fd := fseek_cur (8 * a) fd in
      do len <- cell_len t file cell;
      do (l, _) <- fread 8 len fd;
      Ok (Some l)
    end.

  (** what get_group_coordinates leaves behind; g_box is the static variable BoxSize *)
  Record coords := { c_ret : Z; c_file : list Z; c_pos : list Q; c_centre : list Q; c_box : Q }.

  (** lines 567-587: the flagged cells and the number of particles in them; None: a bad key *)
  Fixpoint mark_cells (t : hash) (size : Z) (ids : list Z) (ft : list Z) (count : Z) : res (option Z * list Z) :=
    match ids with
    | [] => Ok (Some count, ft)
    | id :: ids' =>
      let key := signed32 (Z.shiftr id 34 mod 2 ^ 32) in
      if size <=? key then Ok (None, ft)
      else
        do f <- rd ft key;
        if Z.land f 1 =? 0 then
          let f := Z.lor f 1 in
          do ft <- wr ft key f;
          do n <- cell_len t (Z.shiftr f 1) key;
          do count <- c_int (count + n);
          mark_cells t size ids' ft count
        else mark_cells t size ids' ft count
    end.
  (** lines 592-617: None: a file is missing *)
  Fixpoint read_pos (t : hash) (ft : list Z) (cells : list Z) (box : Q) (acc : list Q) (size : Z) : res (Q * option (list Q)) :=
    match cells with
    | [] => Ok (box, Some acc)
    | i :: cells' =>
      do f <- rd ft i;
      if Z.land f 1 =? 0 then read_pos t ft cells' box acc size
      else
        do r <- read_cell_pos t (Z.shiftr f 1) i;
        match r with
        | None => Ok (box, None)
        | Some (box, l) =>
          do _ <- check (zlen (acc ++ l) <=? size) EAbort; (* the size of pos_read *)
          read_pos t ft cells' box (acc ++ l) size
        end
    end.
  (** lines 620-665 *)
  Fixpoint read_ids (t : hash) (ft : list Z) (cells : list Z) (acc : list Z) (size : Z) : res (option (list Z)) :=
    match cells with
    | [] => Ok (Some acc)
    | i :: cells' =>
      do f <- rd ft i;
      if Z.land f 1 =? 0 then read_ids t ft cells' acc size
      else
        do r <- read_cell_ids t (Z.shiftr f 1) i;
        match r with
        | None => Ok None
        | Some l =>
          do _ <- check (zlen (acc ++ l) <=? size) EAbort;
          read_ids t ft cells' (acc ++ l) size
        end
    end.
  Definition mask34 (id : Z) : Z := Z.land id (2 ^ 34 - 1).
  (** lines 773-782; the numbers are compared as long long *)
  Definition as_signed (v : Z) : Z := if v <? 2 ^ 63 then v else v - 2 ^ 64.
  Definition id_sort_compare_key (a b : Z) : Z := if as_signed a <? as_signed b then -1 else if as_signed b <? as_signed a then 1 else 0.
  (** lines 686-690 *)
  Fixpoint advance (fuel : nat) (id_read : list Z) (count target n id : Z) : res (Z * Z) :=
    match fuel with
    | O => Err EFuel
    | S fuel' =>
      if (n <? count) && (id <? target) then
        do v <- rd id_read (n + 1);
        advance fuel' id_read count target (n + 1) (Z.shiftr v 29)
      else Ok (n, id)
    end.
  (** lines 682-701 *)
  Fixpoint match_loop (id_read : list Z) (pos_read : list Q) (count : Z) (ids : list Z) (i n : Z) (pos : list Q) : res (list Q) :=
    match ids with
    | [] => Ok pos
    | target :: ids' =>
      if n <? count then
        do v <- rd id_read n;
        do (n, _) <- advance (S (Z.to_nat count)) id_read count target n (Z.shiftr v 29);
        (* a mismatch is only printed *)
        do v <- rd id_read n;
        let ind := Z.land v (2 ^ 29 - 1) in
        do _ <- c_int (i * 3 + 2); do _ <- c_int (ind * 3 + 2);                         (* the indices *)
        do p <- rd_range pos_read (ind * 3) 3;
        do pos <- wr_range pos (i * 3) p;
        match_loop id_read pos_read count ids' (i + 1) n pos
      else Ok pos
    end.
  (** lines 703-745 for one of the three components; (new positions, centre) *)
  Definition sumQ (l : list Q) : Q := fold_left Qplus l 0%Q.
  Definition recentre (fuel : nat) (box : Q) (x : list Q) : res (list Q * Q) :=
    do ref <- rd x 0;
    let y := map (fun v => fof_periodic box (v - ref)%Q) x in
    let s := (sumQ y / inject_Z (zlen x))%Q in
    let z := map (fun v => (v - s)%Q) y in
    do c <- fof_periodic_wrap fuel box (s + ref)%Q;
    Ok (z, c).
  (** component k of n positions *)
  Definition component (pos : list Q) (k n : Z) : list Q := map (fun i => nth (Z.to_nat (3 * i + k)) pos 0%Q) (zseq 0 (Z.to_nat n)).
  Fixpoint interleave (x y z : list Q) : list Q :=
    match x, y, z with a :: x', b :: y', c :: z' => a :: b :: c :: interleave x' y' z' | _, _, _ => [] end.

  (** lines 487-746 *)
  Definition get_group_coordinates (fuel : nat) (t : hash) (size groupnr filenr grouplen : Z) (pos centre : list Q) (box : Q) : res coords :=
    let failed ft pos box := Ok {| c_ret := -1; c_file := ft; c_pos := pos; c_centre := centre; c_box := box |} in
    match fopen (tab_name filenr) with
    | None => failed (Filetable t) pos box
    | Some fd =>
      do (h, fd) <- read_tab_header fd;
      let fd := fseek_cur (4 * Ngroups h) fd in
      let fd := fseek_cur (4 * groupnr) fd in
      do (offset, _) <- fread_int fd;
      match fopen (ids_name filenr) with
      | None => failed (Filetable t) pos box
      | Some fd =>
        do (_, fd) <- read_tab_header fd;
        let fd := fseek_cur (8 * offset) fd in
        do (ids, _) <- fread 8 grouplen fd;
        do ft <- rd_range (Filetable t) 0 size;
        let rest := skipn (Z.to_nat size) (Filetable t) in
        do ft <- mapM (fun f => c_shl f 1) ft;                                        (* lines 563-564 *)
        do (count, ft) <- mark_cells t size ids (ft ++ rest) 0;
        match count with
        | None => failed ft pos box
        | Some count =>
          do n3 <- c_int (3 * count);
          do _ <- check (0 <=? count) EAbort;                                         (* malloc *)
          let cells := zseq 0 (Z.to_nat size) in
          do (box, pos_read) <- read_pos t ft cells box [] n3;
          match pos_read with
          | None => failed ft pos box
          | Some pos_read =>
            do id_read <- read_ids t ft cells [] count;
            match id_read with
            | None => failed ft pos box
            | Some id_read =>
              let count := zlen id_read in                                            (* the last value of count *)
              let ids := map mask34 ids in
              let id_read := map (fun '(v, i) => (mask34 v * 2 ^ 29 + i) mod 2 ^ 64) (combine id_read (zseq 0 (length id_read))) in
              let ids := qsort _ id_sort_compare_key ids in
              let id_read := qsort _ id_sort_compare_key id_read in
              do pos <- match_loop id_read pos_read count ids 0 0 pos;
              do _ <- c_int (Z.max 0 (3 * grouplen - 1));                             (* the last index *)
              do _ <- check (3 * grouplen <=? zlen pos) EAbort;
              do (x, sx) <- recentre fuel box (component pos 0 grouplen);
              do (y, sy) <- recentre fuel box (component pos 1 grouplen);
              do (z, sz) <- recentre fuel box (component pos 2 grouplen);
              do pos <- wr_range pos 0 (interleave x y z);
              do front <- rd_range ft 0 size;
              Ok {| c_ret := 0; c_file := map (fun f => Z.shiftr f 1) front ++ skipn (Z.to_nat size) ft; c_pos := pos; c_centre := [sx; sy; sz]; c_box := box |}
            end
          end
        end
      end
    end.

  (** *** spherical regions *)
  (** lines 833-835 and 944-946 *)
  Fixpoint find_base (fuel : nat) (b size : Z) : res Z :=
    match fuel with
    | O => Err EFuel
    | S f => do q <- c_int (b * b); do q <- c_int (q * b); if q <? size then do b <- c_int (b * 2); find_base f b size else Ok b
    end.
  (** lines 837-839 *)
  Fixpoint find_bits (fuel : nat) (bits b : Z) : res Z :=
    match fuel with
    | O => Err EFuel
    | S f => do q <- c_shl 1 bits; if q <? b then find_bits f (bits + 1) b else Ok bits
    end.
  Definition WORD : nat := 33.
  (** conversion of a double to an int *)
  Definition c_trunc (q : Q) : res Z := c_int (if Qle_bool 0 q then Qfloor q else Qceiling q).
  (** lines 857-876 *)
  Definition wrap_cell (base i : Z) : Z :=
    let i := if i <? 0 then i + base else i in if base <=? i then i - base else i.
  (** lines 851-878: the keys of the cells, in the order of the loops *)
  Definition region_keys (size : Z) (box sx sy sz rad : Q) : res (list Z) :=
    do b <- find_base WORD 1 size;
    do bits <- find_bits WORD 1 b;
    let cellsize := (box / inject_Z b)%Q in
    do cells <- c_trunc (rad / cellsize + 1)%Q;
    do cx <- c_trunc (sx / cellsize)%Q;
    do cy <- c_trunc (sy / cellsize)%Q;
    do cz <- c_trunc (sz / cellsize)%Q;
    let range c := zseq (c - cells) (Z.to_nat (2 * cells + 1)) in
    mapM (fun '(ix, iy, iz) => peano_hilbert_key_ (wrap_cell b ix) (wrap_cell b iy) (wrap_cell b iz) bits)
         (flat_map (fun ix => flat_map (fun iy => map (fun iz => (ix, iy, iz)) (range cz)) (range cy)) (range cx)).
  (** lines 786-888: (result, BoxSize) *)
  Definition get_spherical_region_count (t : hash) (size : Z) (sx sy sz rad box : Q) : res (Z * Q) :=
    match fopen (snap_name base 0) with
    | None => Ok (-1, box)
    | Some fd =>
      do (h, _) <- read_header fd;
      let box := value8 (box_bits h) in
      do keys <- region_keys size box sx sy sz rad;
      do count <- foldM (fun count key => do f <- rd (Filetable t) key; do n <- cell_len t f key; c_int (count + n)) keys 0;
      Ok (count, box)
    end.
  (** lines 955-1003: (positions, count); None: a file is missing *)
  Fixpoint region_loop (t : hash) (keys : list Z) (pos : list Q) (count : Z) (box : Q) : res (list Q * option Z * Q) :=
    match keys with
    | [] => Ok (pos, Some count, box)
    | key :: keys' =>
      do f <- rd (Filetable t) key;
      do r <- read_cell_pos t f key;
      match r with
      | None => Ok (pos, None, box)
      | Some (box, l) =>
        do c3 <- c_int (3 * count);
        do pos <- wr_range pos c3 l;
        do len <- cell_len t f key;
        do count <- c_int (count + len);
        region_loop t keys' pos count box
      end
    end.
  (** lines 892-1014: (result, positions, BoxSize) *)
  Definition get_spherical_region_coordinates (t : hash) (size : Z) (sx sy sz rad : Q) (pos : list Q) (box : Q) : res (Z * list Q * Q) :=
    match fopen (snap_name base 0) with
    | None => Ok (-1, pos, box)
    | Some fd =>
      do (h, _) <- read_header fd;
      let box := value8 (box_bits h) in
      do keys <- region_keys size box sx sy sz rad;
      do (pc, box) <- region_loop t keys pos 0 box;
      let (pos, count) := pc in
      match count with
      | None => Ok (-1, pos, box)
      | Some count =>
        do _ <- c_int (Z.max 0 (3 * count - 1));                                      (* the last index *)
        let shift k s := map (fun v => fof_periodic box (v - s)%Q) (component pos k count) in
        do pos <- wr_range pos 0 (interleave (shift 0 sx) (shift 1 sy) (shift 2 sz));
        Ok (0, pos, box)
      end
    end.
End Lib.
