(** The HDF5 wrapper library for Fortran, fortran/hdf5_wrapper/src: hdf5_wrapper.F90 and the files it includes.

    Two layers are modelled.  The first is the part of the HDF5 library the wrapper calls: files holding a tree of groups, datasets and
    attributes, identifiers of open files, and transfers between a selection of a dataset and a selection of a buffer.  It is part of the trusted base.
    The second is the wrapper, routine by routine.

    Simplifications.  Identifiers which a routine opens and closes again are not modelled; identifiers of files and of the dataset which is kept open
    between calls to hdf5_read_data are.  Writes reach the file at once.  Messages (HDF_VERBOSITY, HDF_ERROR_SUPPRESS) are not modelled.
    Initialising the HDF5 library (h5open_f) is taken to succeed.  Elements are lists of bytes in the order of the machine.  A dimension, offset or count below
    zero is taken to be refused by HDF5 (it is passed on as a huge unsigned number).  Limits of HDF5 on the size of chunks are not modelled.  The sum of a start and a count is taken
    not to overflow a default integer. *)
From Coq Require Import Ascii String.
From Verif Require Import Base.Prelude Text.StrModel.
Local Open Scope char_scope.
Local Open Scope Z_scope.
Local Open Scope list_scope.

(** * Fortran character variables *)
Fixpoint skip_blanks (s : str) : str := match s with c :: t => if Ascii.eqb c " " then skip_blanks t else s | [] => [] end.
(** trim(s): a character variable is handled without the blanks at its end, which no comparison or library call sees *)
Definition trim (s : str) : str := rev (skip_blanks (rev s)).
(** trim(adjustl(s)) *)
Definition strip (s : str) : str := trim (skip_blanks s).
(** v = s where v is character(len=n) *)
Definition fit (n : nat) (s : str) : str := trim (firstn n s).
Definition slash : ascii := "/".
(** the position counted from 1 of the last slash: index(s, "/", .true.); 0 if there is none *)
Fixpoint last_slash_from (i : Z) (s : str) (r : Z) : Z :=
  match s with [] => r | c :: t => last_slash_from (i + 1) t (if Ascii.eqb c slash then i else r) end.
Definition last_slash (s : str) : Z := last_slash_from 1 s 0.
(** s(1:i) and s(i:) *)
Definition upto (s : str) (i : Z) : str := firstn (Z.to_nat i) s.
Definition from (s : str) (i : Z) : str := skipn (Z.to_nat (i - 1)) s.

(** * Arrays in memory and in files: the first dimension varies fastest *)
Definition elt : Type := list Z.
Fixpoint prod (dims : list Z) : Z := match dims with [] => 1 | d :: r => d * prod r end.
(** the position of an element *)
Fixpoint offset (dims idx : list Z) : Z :=
  match dims, idx with d :: ds, i :: is => i + d * offset ds is | _, _ => 0 end.
(** all the indexes below [count], in storage order *)
Fixpoint box (count : list Z) : list (list Z) :=
  match count with
  | [] => [[]]
  | c :: r => flat_map (fun t => map (fun i => i :: t) (zseq 0 (Z.to_nat c))) (box r)
  end.

(** * The HDF5 library *)
Inductive cls := CInt | CFloat | CString | COther.
Definition cls_eqb (a b : cls) : bool :=
  match a, b with CInt, CInt | CFloat, CFloat | CString, CString | COther, COther => true | _, _ => false end.
Record ty := { t_class : cls; t_size : Z }.
Record dset := { d_ty : ty; d_dims : list Z; d_max : list (option Z); d_chunked : bool; d_data : list elt }.
Record attr := { a_ty : ty; a_dims : list Z; a_data : list elt }.
Inductive node := Group (links : list (str * nat)) | Dset (d : dset).
Record obj := { o_node : node; o_attrs : list (str * attr) }.
(** a file: its objects, of which number 0 is the root group, and whether the file system lets us write to it *)
Record dfile := { heap : list obj; writable : bool }.

Fixpoint assoc {A} (k : str) (l : list (str * A)) : option A :=
  match l with [] => None | (k', v) :: r => if str_eqb k k' then Some v else assoc k r end.
Fixpoint del {A} (k : str) (l : list (str * A)) : list (str * A) :=
  match l with [] => [] | (k', v) :: r => if str_eqb k k' then r else (k', v) :: del k r end.
Fixpoint put {A} (k : str) (v : A) (l : list (str * A)) : list (str * A) :=
  match l with [] => [(k, v)] | (k', v') :: r => if str_eqb k k' then (k', v) :: r else (k', v') :: put k v r end.

(** the names between the slashes *)
Fixpoint pieces_from (acc s : str) : list str :=
  match s with [] => [rev acc] | c :: t => if Ascii.eqb c slash then rev acc :: pieces_from [] t else pieces_from (c :: acc) t end.
Definition pieces (s : str) : list str := pieces_from [] s.
(** the steps of a path: empty names and "." are skipped *)
Definition steps (s : str) : list str :=
  filter (fun c => negb (match c with [] => true | _ => str_eqb c (lit ".") end)) (pieces s).

Definition links_of (h : list obj) (a : nat) : option (list (str * nat)) :=
  match nth_error h a with Some o => match o_node o with Group l => Some l | Dset _ => None end | None => None end.
Fixpoint walk (h : list obj) (a : nat) (p : list str) : option nat :=
  match p with
  | [] => Some a
  | c :: r => match links_of h a with Some l => match assoc c l with Some b => walk h b r | None => None end | None => None end
  end.
(** the object a name leads to from the object [a]; an empty name is refused *)
Definition resolve (h : list obj) (a : nat) (name : str) : option nat :=
  match trim name with [] => None | n => walk h a (steps n) end.
(** h5dopen_f *)
Definition dset_at (h : list obj) (a : nat) : option dset :=
  match nth_error h a with Some o => match o_node o with Dset d => Some d | Group _ => None end | None => None end.
Definition dopen (h : list obj) (name : str) : option nat :=
  match resolve h 0 name with Some a => match dset_at h a with Some _ => Some a | None => None end | None => None end.
(** h5gopen_f *)
Definition gopen (h : list obj) (a : nat) (name : str) : option nat :=
  match resolve h a name with Some b => match links_of h b with Some _ => Some b | None => None end | None => None end.
(** adding an object below a group; the name must be new *)
Definition add_link (h : list obj) (a : nat) (c : str) (n : node) : option (list obj) :=
  match nth_error h a with
  | Some o =>
      match o_node o with
      | Group l =>
          match assoc c l with
          | None => Some (set_nth h a {| o_node := Group (l ++ [(c, length h)]); o_attrs := o_attrs o |} ++ [{| o_node := n; o_attrs := [] |}])
          | Some _ => None
          end
      | Dset _ => None
      end
  | None => None
  end.
(** h5gcreate_f and h5dcreate_f: the groups on the way must exist *)
Definition create_at (h : list obj) (a : nat) (name : str) (n : node) : option (list obj) :=
  match trim name with
  | [] => None
  | nm => match rev (steps nm) with
          | [] => None
          | c :: r => match walk h a (rev r) with Some b => add_link h b c n | None => None end
          end
  end.
(** h5gunlink_f: the object stays in the file for as long as it is open *)
Definition unlink (h : list obj) (name : str) : list obj :=
  match rev (steps (trim name)) with
  | [] => h
  | c :: r =>
      match walk h 0 (rev r) with
      | Some b => match nth_error h b with
                  | Some o => match o_node o with
                              | Group l => set_nth h b {| o_node := Group (del c l); o_attrs := o_attrs o |}
                              | Dset _ => h
                              end
                  | None => h
                  end
      | None => h
      end
  end.
Definition set_dset (h : list obj) (a : nat) (d : dset) : list obj :=
  match nth_error h a with Some o => set_nth h a {| o_node := Dset d; o_attrs := o_attrs o |} | None => h end.
Definition set_attrs (h : list obj) (a : nat) (l : list (str * attr)) : list obj :=
  match nth_error h a with Some o => set_nth h a {| o_node := o_node o; o_attrs := l |} | None => h end.

(** a hyperslab selection (or all of a dataspace) as the positions of its elements; None if HDF5 refuses it *)
Definition sel_all (dims : list Z) : option (list Z) := Some (map (offset dims) (box dims)).
Definition sel_slab (dims start count : list Z) : option (list Z) :=
  match dims with
  | [] => None
  | _ =>
      if negb (forallb (Z.leb 0) count) then None
      else if existsb (Z.eqb 0) count then Some []
      else if forallb (fun x => x) (zipwith (fun d sc => (0 <=? fst sc) && (fst sc + snd sc <=? d)) dims (combine start count))
           then Some (map (fun i => offset dims (zipwith Z.add start i)) (box count))
           else None
  end.
(** conversion of a string to the length of the other side: padded with blanks or cut *)
Definition conv_string (n : Z) (e : elt) : elt := firstn (Z.to_nat n) (e ++ repeat 32 (Z.to_nat n - List.length e)).
(** conversion of an element between types of the same class (and size, if numbers) *)
Definition conv (to : ty) (e : elt) : elt := match t_class to with CString => conv_string (t_size to) e | _ => e end.

(** H5Dread and H5Dwrite: elements [src] of one side go to elements [dst] of the other.  None if the numbers of elements differ, Some None if memory outside
    the buffer would be touched *)
Definition scatter {A} (f : A -> A) (src dst : list Z) (from_buf to_buf : list A) : list A :=
  fold_left (fun b st => match nth_error from_buf (Z.to_nat (fst st)) with Some x => set_nth b (Z.to_nat (snd st)) (f x) | None => b end) (combine src dst) to_buf.
Definition transfer {A} (f : A -> A) (src dst : list Z) (from_buf to_buf : list A) : option (option (list A)) :=
  if negb (zlen src =? zlen dst) then None
  else if forallb (fun i => i <? zlen from_buf) src && forallb (fun i => i <? zlen to_buf) dst
       then Some (Some (scatter f src dst from_buf to_buf)) else Some None.

(** h5dextend_f: elements are kept, new ones have the fill value *)
Definition fill (t : ty) : elt := repeat 0 (Z.to_nat (t_size t)).
Definition in_dims (dims idx : list Z) : bool := forallb (fun x => x) (zipwith (fun d i => (0 <=? i) && (i <? d)) dims idx).
Definition extend (d : dset) (dims : list Z) : option dset :=
  if d_chunked d && forallb (fun x => x) (zipwith (fun m n => match m with Some m => n <=? m | None => true end) (d_max d) dims)
  then Some {| d_ty := d_ty d; d_dims := dims; d_max := d_max d; d_chunked := d_chunked d;
               d_data := map (fun i => if in_dims (d_dims d) i then nth (Z.to_nat (offset (d_dims d) i)) (d_data d) (fill (d_ty d)) else fill (d_ty d)) (box dims) |}
  else None.

(** * The state of the wrapper *)
(** hdf5_wrapper.F90 line 39 *)
Definition nfilemax : Z := 1000.
(** lines 43-45: an entry of file_id, read_only and fname_table *)
Record slot := { s_id : Z; s_ro : bool; s_name : str }.
Record wst := {
  disk : list (str * dfile);            (* the files *)
  lib : list (Z * (str * bool));        (* HDF5: open files with their names and whether they are open for writing *)
  next : Z;                             (* HDF5: the next identifier *)
  slots : list slot;                    (* file_id, read_only, fname_table (lines 43-45) *)
  nopen : Z;                            (* line 42 *)
  need_init : bool;                     (* line 48 *)
  cached : bool;                        (* open_dset, line 60; static storage without initial value, taken to start as .false. *)
  c_id : str * nat;                     (* open_dset_id, line 61: the dataset it belongs to *)
  c_file : str; c_dset : str            (* open_file_name, open_dset_name, line 62 *)
}.
(** how a call ends: normally, by hdf5_abort, or by touching memory it must not touch *)
Inductive out (A : Type) := Go (a : A) (s : wst) | Stop (s : wst) | Wild.
Arguments Go {A}. Arguments Stop {A}. Arguments Wild {A}.
Definition M (A : Type) := wst -> out A.
Definition ret {A} (a : A) : M A := fun s => Go a s.
Definition abort {A} : M A := fun s => Stop s.
Definition wild {A} : M A := fun _ => Wild.
Definition mbind {A B} (m : M A) (k : A -> M B) : M B :=
  fun s => match m s with Go a s' => k a s' | Stop s' => Stop s' | Wild => Wild end.
Notation "'let!' x ':=' m 'in' k" := (mbind m (fun x => k)) (at level 200, x pattern, m at level 100, k at level 200).
Notation "m ';;' k" := (mbind m (fun _ => k)) (at level 190, right associativity).
Definition require (b : bool) : M unit := if b then ret tt else abort.
Definition get : M wst := fun s => Go s s.
Definition of_option {A} (o : option A) : M A := match o with Some a => ret a | None => abort end.

Definition with_slots (s : wst) sl n ni : wst :=
  {| disk := disk s; lib := lib s; next := next s; slots := sl; nopen := n; need_init := ni; cached := cached s; c_id := c_id s; c_file := c_file s; c_dset := c_dset s |}.
Definition with_lib (s : wst) d l n : wst :=
  {| disk := d; lib := l; next := n; slots := slots s; nopen := nopen s; need_init := need_init s; cached := cached s; c_id := c_id s; c_file := c_file s; c_dset := c_dset s |}.
Definition with_cache (s : wst) c i f d : wst :=
  {| disk := disk s; lib := lib s; next := next s; slots := slots s; nopen := nopen s; need_init := need_init s; cached := c; c_id := i; c_file := f; c_dset := d |}.

Fixpoint zassoc {A} (k : Z) (l : list (Z * A)) : option A :=
  match l with [] => None | (k', v) :: r => if k =? k' then Some v else zassoc k r end.

(** ** HDF5 calls on files *)
(** h5fopen_f: None if refused.  A file which is open only for reading cannot also be opened for writing *)
Definition fopen (name : str) (rw : bool) (s : wst) : option (Z * wst) :=
  match assoc name (disk s) with
  | None => None
  | Some f =>
      if rw && (negb (writable f) || existsb (fun e => str_eqb (fst (snd e)) name && negb (snd (snd e))) (lib s)) then None
      else Some (next s, with_lib s (disk s) ((next s, (name, rw)) :: lib s) (next s + 1))
  end.
Definition empty_file : dfile := {| heap := [{| o_node := Group []; o_attrs := [] |}]; writable := true |}.
(** h5fcreate_f with H5F_ACC_TRUNC_F: refused if the file is open or cannot be written *)
Definition fcreate (name : str) (s : wst) : option (Z * wst) :=
  if existsb (fun e => str_eqb (fst (snd e)) name) (lib s) then None
  else if match assoc name (disk s) with Some f => negb (writable f) | None => false end then None
  else Some (next s, with_lib s (put name empty_file (disk s)) ((next s, (name, true)) :: lib s) (next s + 1)).
(** h5fclose_f *)
Definition fclose (id : Z) (s : wst) : option wst :=
  match zassoc id (lib s) with
  | None => None
  | Some _ => Some (with_lib s (disk s) (filter (fun e => negb (fst e =? id)) (lib s)) (next s))
  end.

(** ** The routines of the wrapper *)
(** lines 304-318 and 395-409 *)
Definition init_tables (s : wst) : wst :=
  if need_init s
  then with_slots s (map (fun x => {| s_id := -1; s_ro := s_ro x; s_name := lit "*" |}) (slots s)) (nopen s) false
  else s.
(** lines 348-353 and 419-424 *)
Fixpoint free_slot (l : list slot) (i : Z) : option Z :=
  match l with [] => None | x :: r => if 0 <=? s_id x then free_slot r (i + 1) else Some i end.
(** lines 348-366 and 419-430 *)
Definition take_slot (id : Z) (ro : bool) (fname : str) : M Z :=
  let! s := get in
  let! i := of_option (free_slot (slots s) 1) in
  fun s => Go i (with_slots s (set_nth (slots s) (Z.to_nat (i - 1)) {| s_id := id; s_ro := ro; s_name := fit 1000 fname |}) (nopen s + 1) (need_init s)).

(** hdf5_open_file, lines 290-379 *)
Definition open_file (fname : str) (readonly : option bool) : M Z :=
  fun s0 =>
    let s := init_tables s0 in
    let ro := match readonly with Some b => b | None => false end in
    match fopen (trim fname) (negb ro) s with
    | Some (id, s1) => take_slot id ro fname s1
    | None => Stop s          (* lines 333-346: both messages end the program *)
    end.
(** hdf5_create_file, lines 383-433 *)
Definition create_file (fname : str) : M Z :=
  fun s0 =>
    let s := init_tables s0 in
    match fcreate (trim fname) s with
    | Some (id, s1) => take_slot id false fname s1
    | None => Stop s
    end.

(** the tests of the file handle which start most routines *)
Definition slot_of (ifile : Z) : M slot :=
  let! s := get in
  require ((1 <=? ifile) && (ifile <=? nfilemax)) ;;
  of_option (nth_error (slots s) (Z.to_nat (ifile - 1))).
Definition open_slot (ifile : Z) : M slot := let! x := slot_of ifile in require (0 <=? s_id x) ;; ret x.

(** hdf5_close_file, lines 436-494 *)
Definition close_file (ifile : Z) : M unit :=
  let! x := open_slot ifile in
  fun s =>
    let s := if cached s && str_eqb (s_name x) (c_file s) then with_cache s false (c_id s) (c_file s) (c_dset s) else s in
    match fclose (s_id x) s with
    | None => Stop s
    | Some s1 =>
        let n := nopen s1 - 1 in
        let x' := {| s_id := -1; s_ro := s_ro x; s_name := lit "*" |} in
        Go tt (with_slots s1 (set_nth (slots s1) (Z.to_nat (ifile - 1)) x') n (if n =? 0 then true else need_init s1))
    end.

(** hdf5_get_file_id, lines 996-1011 *)
Definition get_file_id (ifile : Z) : M Z := let! x := open_slot ifile in ret (s_id x).

(** the objects of the file an identifier stands for; HDF5 refuses identifiers which are not open *)
Definition file_of (id : Z) : M (str * dfile) :=
  let! s := get in
  let! e := of_option (zassoc id (lib s)) in
  let! f := of_option (assoc (fst e) (disk s)) in
  ret (fst e, f).
Definition update (name : str) (f : dfile) (h : list obj) : M unit :=
  fun s => Go tt (with_lib s (put name {| heap := h; writable := writable f |} (disk s)) (lib s) (next s)).

(** hdf5_create_group, lines 724-804.  [group_loop] is the loop of lines 765-794: [acc] is the part of thestring before the next slash, reversed *)
Definition MAX_NEST : Z := 10.
Fixpoint group_loop (id : Z) (rest acc : str) (loc : nat) (n : Z) : M unit :=
  match rest with
  | [] => ret tt
  | c :: r =>
      if Ascii.eqb c slash then
        let! nf := file_of id in
        let name := rev acc in
        let h := heap (snd nf) in
        (* lines 776-778: an error of h5gcreate_f is ignored *)
        let h' := match create_at h loc name (Group []) with Some h' => h' | None => h end in
        update (fst nf) (snd nf) h' ;;
        let! g := of_option (gopen h' loc name) in
        if MAX_NEST <? n + 1 then wild            (* lines 791-792: id_chain has 10 elements *)
        else group_loop id r [] g (n + 1)
      else group_loop id r (c :: acc) loc n
  end.
Definition create_group (ifile : Z) (name : str) : M unit :=
  let! x := slot_of ifile in
  require (negb (s_ro x)) ;;
  let s := fit 256 name in
  let s := match s with c :: r => if Ascii.eqb c slash then r else s | [] => s end in
  (* lines 752-756: a slash is added at the end if there is none *)
  if last_slash s <? zlen s
  then if 256 <=? zlen s then wild else group_loop (s_id x) (s ++ [slash]) [] 0 0
  else group_loop (s_id x) s [] 0 0.

(** ** Reading a dataset *)
(** an array in memory *)
Record marr := { m_ty : ty; m_dims : list Z; m_buf : list elt }.
(** the dimensions above 1, as in lines 137-147 and 158-167 of read_dataset.inc *)
Definition eff (dims : list Z) : list Z := filter (fun d => 1 <? d) dims.
(** lines 192-196: the dimensions of the array put at the places of the dimensions above 1 of the selection *)
Fixpoint spread (sel eff_dims : list Z) : list Z :=
  match sel with
  | [] => []
  | d :: r => if 1 <? d then match eff_dims with e :: er => e :: spread r er | [] => 1 :: spread r [] end else 1 :: spread r eff_dims
  end.
Definition fits (eff_array eff_sel : list Z) : bool := forallb (fun x => x) (zipwith (fun a s => negb (a <? s)) eff_array eff_sel).

(** read_dataset.inc lines 71-91: the dataset may still be open from the last call *)
Definition open_cached (x : slot) (name : str) : M (str * nat) :=
  fun s =>
    let same := str_eqb (strip (s_name x)) (strip (c_file s)) && str_eqb (strip name) (strip (c_dset s)) in
    let s := if negb same && cached s then with_cache s false (c_id s) (c_file s) (c_dset s) else s in
    if cached s then Go (c_id s) s
    else (let! nf := file_of (s_id x) in
          let! a := of_option (dopen (heap (snd nf)) name) in
          fun s => Go (fst nf, a) (with_cache s true (fst nf, a) (s_name x) (fit 1000 (trim name)))) s.

(** read_dataset.inc; the value is the contents of the array afterwards *)
Definition read_data (ifile : Z) (name : str) (arr : marr) (start count : option (list Z)) : M (list elt) :=
  require (match start, count with Some _, None | None, Some _ => false | _, _ => true end) ;;
  let! x := open_slot ifile in
  let! id := open_cached x name in
  let! s := get in
  let! f := of_option (assoc (fst id) (disk s)) in
  let! d := of_option (dset_at (heap f) (snd id)) in
  let rank := List.length (d_dims d) in
  (* lines 100-117 *)
  require (cls_eqb (t_class (d_ty d)) (t_class (m_ty arr))) ;;
  require (match t_class (m_ty arr) with CString => t_size (d_ty d) <=? t_size (m_ty arr) | _ => t_size (d_ty d) =? t_size (m_ty arr) end) ;;
  (* lines 119-127 *)
  require (match start with Some l => zlen (d_dims d) <=? zlen l | None => true end) ;;
  require (match count with Some l => zlen (d_dims d) <=? zlen l | None => true end) ;;
  let read_dims := match count with Some l => firstn rank l | None => d_dims d end in
  let eff_read := eff read_dims in
  let eff_array := eff (m_dims arr) in
  require (zlen eff_array =? zlen eff_read) ;;
  require (fits eff_array eff_read) ;;
  let memdims := spread read_dims eff_array in
  (* lines 205-214 *)
  let! msel := of_option (if 0 <? zlen eff_array then sel_slab memdims (map (fun _ => 0) memdims) read_dims else sel_all memdims) in
  (* lines 216-225 *)
  let! fsel := of_option (match start, count with
                          | Some st, Some ct => sel_slab (d_dims d) (map (fun z => z - 1) (firstn rank st)) (firstn rank ct)
                          | _, _ => sel_all (d_dims d)
                          end) in
  match transfer (conv (m_ty arr)) fsel msel (d_data d) (m_buf arr) with
  | None => abort
  | Some None => wild
  | Some (Some b) => ret b
  end.

(** ** Writing a dataset *)
(** write_dataset_preprocessor.inc: NDIMS of the routine which takes arrays of this class and rank; lines 56-57 and 132-133 say 2 for rank 7 *)
Definition write_ndims (c : cls) (rank : nat) : nat :=
  match c with CInt => if (rank =? 7)%nat then 2%nat else rank | _ => rank end.
Record wopts := { w_gzip : option Z; w_overwrite : option bool; w_szip : option bool; w_extensible : option bool;
                  w_start : option (list Z); w_count : option (list Z); w_initial : option (list Z); w_chunk : option (list Z) }.
Definition plain : wopts := {| w_gzip := None; w_overwrite := None; w_szip := None; w_extensible := None; w_start := None; w_count := None; w_initial := None; w_chunk := None |}.

(** write_dataset.inc lines 67-78 *)
Definition gzip_level (o : wopts) : Z := match w_gzip o with Some g => if 9 <? g then g - 10 else g | None => 0 end.
Definition gzip_shuffle (o : wopts) : bool := match w_gzip o with Some g => 9 <? g | None => false end.
Definition szip_on (o : wopts) : bool := match w_szip o with Some b => b | None => false end.
(** lines 79-80: only whether the argument is there counts *)
Definition extensible_on (o : wopts) : bool := match w_extensible o with Some _ => true | None => false end.
(** lines 98-104 *)
Definition nchunk_max (o : wopts) : list Z := match w_chunk o with Some l => l ++ repeat 8192 (7 - List.length l) | None => repeat 8192 7 end.

(** lines 187-244: the new dataset *)
Definition new_dset (o : wopts) (t : ty) (file_dims : list Z) (ndims : nat) : option dset :=
  let nchunk := zipwith Z.min file_dims (nchunk_max o) in
  let chunked := ((0 <? gzip_level o) || szip_on o || extensible_on o) && negb (ndims =? 0)%nat && forallb (Z.ltb 0) nchunk in
  let filters := (0 <? gzip_level o) && (gzip_shuffle o || (gzip_level o <=? 9)) in
  if negb (forallb (Z.leb 0) file_dims) then None
  else if negb chunked && (filters || (extensible_on o && negb (ndims =? 0)%nat)) then None
  else Some {| d_ty := t; d_dims := file_dims; d_max := map (fun d => if extensible_on o then None else Some d) file_dims; d_chunked := chunked;
               d_data := repeat (fill t) (Z.to_nat (prod file_dims)) |}.

(** write_dataset.inc for arrays in memory of any rank *)
Definition write_data (ifile : Z) (name : str) (arr : marr) (o : wopts) : M unit :=
  let ndims := write_ndims (t_class (m_ty arr)) (List.length (m_dims arr)) in
  (* lines 60-65 *)
  require (match w_gzip o, w_szip o with Some g, Some true => negb (0 <? g) | _, _ => true end) ;;
  (* lines 82-96 *)
  let! x := open_slot ifile in
  require (negb (s_ro x)) ;;
  require (match w_start o, w_count o with Some _, None | None, Some _ => false | _, _ => true end) ;;
  (match w_chunk o with Some l => if 7 <? zlen l then wild else ret tt | None => ret tt end) ;;
  let! nf := file_of (s_id x) in
  (* lines 120-133 *)
  let opened := dopen (heap (snd nf)) name in
  let! opened :=
    (match opened, w_overwrite o with
     | Some _, Some true => update (fst nf) (snd nf) (unlink (heap (snd nf)) name) ;; ret None
     | _, _ => ret opened
     end) in
  let array_dims := firstn ndims (m_dims arr) in
  let! a :=
    (match opened with
     | None =>
         (* lines 151-162 *)
         let i := last_slash name in
         (if 1 <? i then
            let! nf := file_of (s_id x) in
            match gopen (heap (snd nf)) 0 (upto name (i - 1)) with
            | None => create_group ifile (trim (upto name (i - 1)))
            | Some _ => ret tt
            end
          else ret tt) ;;
         (* lines 166-185 *)
         let! file_dims :=
           (match w_initial o, w_start o, w_count o with
            | Some l, _, _ => require (zlen array_dims <=? zlen l) ;; ret (firstn ndims l)
            | None, Some st, Some ct =>
                require ((zlen array_dims <=? zlen ct) && (zlen array_dims <=? zlen st)) ;;
                ret (zipwith (fun a b => a + b - 1) (firstn ndims st) (firstn ndims ct))
            | None, _, _ => ret array_dims
            end) in
         (* lines 187-244 *)
         let! d := of_option (new_dset o (m_ty arr) file_dims ndims) in
         let! nf := file_of (s_id x) in
         let! h := of_option (create_at (heap (snd nf)) 0 name (Dset d)) in
         update (fst nf) (snd nf) h ;;
         of_option (dopen h name)
     | Some a =>
         let! nf := file_of (s_id x) in
         let! d := of_option (dset_at (heap (snd nf)) a) in
         (* lines 248-271 *)
         require (cls_eqb (t_class (m_ty arr)) (t_class (d_ty d))) ;;
         require (match t_class (m_ty arr) with CString => t_size (m_ty arr) <=? t_size (d_ty d) | _ => t_size (m_ty arr) =? t_size (d_ty d) end) ;;
         (* lines 273-283 *)
         match w_start o, w_count o with
         | Some st, Some ct =>
             require ((zlen (d_dims d) <=? zlen st) && (zlen (d_dims d) <=? zlen ct)) ;;
             (* lines 285-301 *)
             let rank := List.length (d_dims d) in
             let need := zipwith Z.max (d_dims d) (zipwith (fun a b => a + b - 1) (firstn rank st) (firstn rank ct)) in
             (if existsb (fun x => x) (zipwith Z.ltb (d_dims d) need) then
                let! d' := of_option (extend d need) in
                update (fst nf) (snd nf) (set_dset (heap (snd nf)) a d')
              else ret tt) ;;
             ret a
         | _, _ => abort
         end
     end) in
  let! nf := file_of (s_id x) in
  let! d := of_option (dset_at (heap (snd nf)) a) in
  let rank := List.length (d_dims d) in
  (* lines 316-403 *)
  let select_dims := match w_start o, w_count o with Some _, Some ct => firstn rank ct | _, _ => d_dims d end in
  let eff_select := eff select_dims in
  let eff_array := eff array_dims in
  require (zlen eff_array =? zlen eff_select) ;;
  require (fits eff_array eff_select) ;;
  let pad_dims := spread select_dims eff_array in
  let start := match w_start o, w_count o with Some st, Some _ => map (fun z => z - 1) (firstn rank st) | _, _ => map (fun _ => 0) (d_dims d) end in
  let! msel := of_option (if 0 <? zlen (d_dims d) then sel_slab pad_dims (map (fun _ => 0) pad_dims) select_dims else sel_all pad_dims) in
  let! fsel := of_option (if 0 <? zlen (d_dims d) then sel_slab (d_dims d) start select_dims else sel_all (d_dims d)) in
  match transfer (conv (d_ty d)) msel fsel (m_buf arr) (d_data d) with
  | None => abort
  | Some None => wild
  | Some (Some b) =>
      update (fst nf) (snd nf) (set_dset (heap (snd nf)) a {| d_ty := d_ty d; d_dims := d_dims d; d_max := d_max d; d_chunked := d_chunked d; d_data := b |})
  end.

(** ** Attributes *)
(** the object which carries the attribute, and the attribute's name: read_attribute.inc lines 54-75, write_attribute.inc lines 49-72;
    lines 527-552 and 622-648 of hdf5_wrapper.F90 do the same with shorter variables *)
Definition attr_place (len : nat) (h : list obj) (name : str) : option (nat * str) :=
  let i := last_slash name in
  if i =? 0 then None
  else
    let loc := fit len (upto name (i - 1)) in
    let an := fit len (from (trim name) (i + 1)) in
    match dopen h loc with
    | Some a => Some (a, an)
    | None => match gopen h 0 loc with Some a => Some (a, an) | None => None end
    end.
Definition attrs_at (h : list obj) (a : nat) : list (str * attr) := match nth_error h a with Some o => o_attrs o | None => [] end.

(** read_attribute.inc.  [cv] is what HDF5 does with an element of another numeric type; None where it cannot convert *)
Definition read_attribute (cv : ty -> ty -> option (elt -> elt)) (ifile : Z) (name : str) (arr : marr) : M (list elt) :=
  let! x := open_slot ifile in
  let! nf := file_of (s_id x) in
  let! p := of_option (attr_place 256 (heap (snd nf)) name) in
  let! a := of_option (assoc (snd p) (attrs_at (heap (snd nf)) (fst p))) in
  let! f := of_option (match t_class (a_ty a), t_class (m_ty arr) with
                       | CString, CString => Some (conv (m_ty arr))
                       | _, _ => if cls_eqb (t_class (a_ty a)) (t_class (m_ty arr)) && (t_size (a_ty a) =? t_size (m_ty arr)) then Some (fun e => e) else cv (a_ty a) (m_ty arr)
                       end) in
  (* H5Aread fills the buffer from its start, whatever the dimensions of the array *)
  if zlen (m_buf arr) <? zlen (a_data a) then wild
  else ret (write_at (m_buf arr) 0 (map f (a_data a))).

(** write_attribute.inc *)
Definition write_attribute (ifile : Z) (name : str) (arr : marr) (overwrite : option bool) : M unit :=
  let! x := open_slot ifile in
  require (negb (s_ro x)) ;;
  let! nf := file_of (s_id x) in
  let! p := of_option (attr_place 256 (heap (snd nf)) name) in
  require (forallb (Z.leb 0) (m_dims arr)) ;;
  let l := attrs_at (heap (snd nf)) (fst p) in
  let l := match overwrite with Some true => del (snd p) l | _ => l end in
  update (fst nf) (snd nf) (set_attrs (heap (snd nf)) (fst p) l) ;;
  require (match snd p with [] => false | _ => true end) ;;
  require (match assoc (snd p) l with Some _ => false | None => true end) ;;
  let a := {| a_ty := m_ty arr; a_dims := m_dims arr; a_data := firstn (Z.to_nat (prod (m_dims arr))) (m_buf arr) |} in
  update (fst nf) (snd nf) (set_attrs (heap (snd nf)) (fst p) (l ++ [(snd p, a)])).

(** ** Finding out about datasets and attributes *)
(** hdf5_get_dimensions, lines 497-589: the rank (the length of the list) and the dimensions, which line 586 converts to default integers (as compilers do, without a check);
    the variables of line 510, which HDF5 writes the dimensions to, have ten elements *)
Definition int4 (z : Z) : Z := (z + 2 ^ 31) mod 2 ^ 32 - 2 ^ 31.
Definition give_dims (dims : list Z) : M (list Z) := if 10 <? zlen dims then wild else ret (map int4 dims).
Definition get_dimensions (ifile : Z) (name : str) : M (list Z) :=
  let! x := open_slot ifile in
  let! nf := file_of (s_id x) in
  match dopen (heap (snd nf)) name with
  | Some a => let! d := of_option (dset_at (heap (snd nf)) a) in give_dims (d_dims d)
  | None =>
      let! p := of_option (attr_place 200 (heap (snd nf)) name) in
      let! a := of_option (assoc (snd p) (attrs_at (heap (snd nf)) (fst p))) in
      give_dims (a_dims a)
  end.
(** hdf5_get_type, lines 592-690: the class and the size *)
Definition get_type (ifile : Z) (name : str) : M (string * Z) :=
  let! x := open_slot ifile in
  let! nf := file_of (s_id x) in
  let! t :=
    (match dopen (heap (snd nf)) name with
     | Some a => let! d := of_option (dset_at (heap (snd nf)) a) in ret (d_ty d)
     | None =>
         let! p := of_option (attr_place 200 (heap (snd nf)) name) in
         let! a := of_option (assoc (snd p) (attrs_at (heap (snd nf)) (fst p))) in
         ret (a_ty a)
     end) in
  ret (match t_class t with CInt => "INTEGER"%string | CFloat => "REAL"%string | CString => "CHARACTER"%string | COther => "OTHER"%string end, t_size t).

(** hdf5_list_datasets and hdf5_list_groups, lines 809-922: [want] tells which objects are listed and [names] is the caller's array of names of length [len],
    whose first elements are replaced.  The order in which HDF5 numbers the members is not modelled: it is that of the list of links *)
Definition is_dset (n : node) : bool := match n with Dset _ => true | Group _ => false end.
Definition is_group (n : node) : bool := match n with Group _ => true | Dset _ => false end.
Definition members (want : node -> bool) (h : list obj) (l : list (str * nat)) : list str :=
  map fst (filter (fun e => match nth_error h (snd e) with Some o => want (o_node o) | None => false end) l).
Definition list_members (want : node -> bool) (ifile : Z) (name : str) (len : nat) (names : option (list str)) : M (Z * option (list str)) :=
  let! x := open_slot ifile in
  let! nf := file_of (s_id x) in
  let! g := of_option (gopen (heap (snd nf)) 0 name) in
  let! l := of_option (links_of (heap (snd nf)) g) in
  let found := map (fun n => fit len (fit 500 n)) (members want (heap (snd nf)) l) in
  match names with
  | None => ret (zlen found, None)
  | Some old => if zlen old <? zlen found then wild else ret (zlen found, Some (write_at old 0 found))
  end.
Definition list_datasets := list_members is_dset.
Definition list_groups := list_members is_group.
(** hdf5_list_attributes, lines 927-989 *)
Definition list_attributes (ifile : Z) (name : str) (len : nat) (names : option (list str)) : M (Z * option (list str)) :=
  let! x := open_slot ifile in
  let! nf := file_of (s_id x) in
  let! a := of_option (match gopen (heap (snd nf)) 0 name with Some a => Some a | None => dopen (heap (snd nf)) name end) in
  let found := map (fun e => fit len (fst e)) (attrs_at (heap (snd nf)) a) in
  match names with
  | None => ret (zlen found, None)
  | Some old => if zlen old <? zlen found then wild else ret (zlen found, Some (write_at old 0 found))
  end.

(** * Programs: any sequence of calls *)
Inductive call :=
| COpen (fname : str) (readonly : option bool)
| CCreate (fname : str)
| CClose (ifile : Z)
| CFileId (ifile : Z)
| CGroup (ifile : Z) (name : str)
| CRead (ifile : Z) (name : str) (arr : marr) (start count : option (list Z))
| CWrite (ifile : Z) (name : str) (arr : marr) (o : wopts)
| CReadAttr (ifile : Z) (name : str) (arr : marr)
| CWriteAttr (ifile : Z) (name : str) (arr : marr) (overwrite : option bool)
| CDims (ifile : Z) (name : str)
| CType (ifile : Z) (name : str)
| CListDatasets (ifile : Z) (name : str) (len : nat) (names : option (list str))
| CListGroups (ifile : Z) (name : str) (len : nat) (names : option (list str))
| CListAttributes (ifile : Z) (name : str) (len : nat) (names : option (list str)).
Inductive result := RHandle (h : Z) | RNone | RArr (b : list elt) | RDims (l : list Z) | RType (t : string * Z) | RList (l : Z * option (list str)).
Definition fmap {A B} (f : A -> B) (m : M A) : M B := let! a := m in ret (f a).
Definition run (cv : ty -> ty -> option (elt -> elt)) (c : call) : M result :=
  match c with
  | COpen f r => fmap RHandle (open_file f r)
  | CCreate f => fmap RHandle (create_file f)
  | CClose h => fmap (fun _ => RNone) (close_file h)
  | CFileId h => fmap RHandle (get_file_id h)
  | CGroup h n => fmap (fun _ => RNone) (create_group h n)
  | CRead h n a s c => fmap RArr (read_data h n a s c)
  | CWrite h n a o => fmap (fun _ => RNone) (write_data h n a o)
  | CReadAttr h n a => fmap RArr (read_attribute cv h n a)
  | CWriteAttr h n a o => fmap (fun _ => RNone) (write_attribute h n a o)
  | CDims h n => fmap RDims (get_dimensions h n)
  | CType h n => fmap RType (get_type h n)
  | CListDatasets h n l ns => fmap RList (list_datasets h n l ns)
  | CListGroups h n l ns => fmap RList (list_groups h n l ns)
  | CListAttributes h n l ns => fmap RList (list_attributes h n l ns)
  end.
(** a program which has not called the wrapper yet *)
Definition fresh (s : wst) : Prop :=
  need_init s = true /\ nopen s = 0 /\ lib s = [] /\ cached s = false /\ zlen (slots s) = nfilemax /\ 0 <= next s.
(** the calls made so far with their results, the last one first, and the state they led to *)
Inductive history (cv : ty -> ty -> option (elt -> elt)) (s0 : wst) : list (call * result) -> wst -> Prop :=
| h_start : history cv s0 [] s0
| h_call t s c r s' : history cv s0 t s -> run cv c s = Go r s' -> history cv s0 ((c, r) :: t) s'.
