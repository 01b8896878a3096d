(** Model of the IDL programs which use the library of groupstuff.c, in
    /repo/examples/millennium/idl/IdlGroupLib: show_massfunc.pro,
    get_groupcount_below_minlength.pro, getcubes.pro and show_group.pro.

    A program is a function of the variables set in its first lines, its result what it plots and
    prints at its end; what was plotted before an error is not modelled. CALL_EXTERNAL passes
    arrays and numbers by reference, so that the library changes them. double and float numbers
    are exact. [fuel] bounds the number of files. *)
From Coq Require Import QArith.
From Coq Require Import Ascii String.
From Verif.Base Require Import Prelude.
From Verif.Binary Require Import BinModel.
From Verif.Text Require Import StrModel.
From Verif.Pro Require Import ProModel.
From Verif.Idl Require Import LibModel.
Local Open Scope Z_scope. Local Open Scope list_scope.

(** numbers of type ULONG and LONG, 32 bits *)
Definition ulong (v : Z) : Z := v mod 2 ^ 32.
Definition long (v : Z) : Z := (v + 2 ^ 31) mod 2 ^ 32 - 2 ^ 31.
(** an element of an array, for a subscript which is one number *)
Definition subscript {B} (l : list B) (i : Z) : res B :=
  if (0 <=? i) && (i <? zlen l) then match nth_error l (Z.to_nat i) with Some v => Ok v | None => Err EIndex end else Err EIndex.
Definition assign {B} (l : list B) (i : Z) (v : B) : res (list B) :=
  if (0 <=? i) && (i <? zlen l) then Ok (set_nth l (Z.to_nat i) v) else Err EIndex.

Section Prog.
  Variable little : bool.
  Variable fs : str -> option (list Z).
  Variable qsort : forall A : Type, (A -> A -> Z) -> list A -> list A.
  (** the largest number of elements of an array for which there is memory *)
  Variable limit : Z.
  Variables basedir snapbase : str.
  Variable num : Z.
  Variable fuel : nat.

  (** lonarr, dblarr, lindgen, fltarr: there are no arrays without elements *)
  Definition new (n : Z) : res unit := do _ <- check (0 <? n) EValue; check (n <=? limit) ERuntime.
  Definition lonarr (n : Z) : res (list Z) := do _ <- new n; Ok (repeat 0 (Z.to_nat n)).
  Definition lindgen (n : Z) : res (list Z) := do _ <- new n; Ok (map long (zseq 0 (Z.to_nat n))).

  (** show_massfunc.pro lines 10-14, and the same lines of the others; string of a LONG has 12 characters *)
  Definition outputdir : str :=
    let e := lit "000" ++ strcompress (idl_string 12 num) in
    basedir ++ lit "/snapdir_" ++ strmid e (zlen e - 3) 3 ++ lit "/".

  (** show_massfunc.pro lines 20-41: Ngroups and the catalogue; with /UL_VALUE the int which the
      function returns is taken for a ULONG *)
  Definition load_groups : res (Z * groups) :=
    do n <- get_total_number_of_groups little fs outputdir num;
    do a <- lonarr (ulong n);
    do b <- lonarr (ulong n);
    do c <- lonarr (ulong n);
    do (n, g) <- get_group_catalogue little fs qsort outputdir num fuel {| g_len := a; g_file := b; g_nr := c |};
    Ok (ulong n, g).
  (** lines 46-48: the points *)
  Definition mass_points (ngroups : Z) (g : groups) : res (list (Z * Z)) :=
    do l <- lindgen ngroups;
    Ok (combine (g_len g) (map (fun i => long (i + 1)) l)).
  Definition show_massfunc : res (list (Z * Z)) := do (ngroups, g) <- load_groups; mass_points ngroups g.

  (** get_groupcount_below_minlength.pro lines 79-83 *)
  Fixpoint below_sums (steps : nat) (counts cumulative : list Z) (i : Z) : res (list Z) :=
    match steps with
    | O => Err EFuel
    | Datatypes.S steps =>
      do a <- subscript cumulative (ulong (i + 1));
      do b <- subscript counts i;
      do cumulative <- assign cumulative i (a + b);
      let i := ulong (i - 1) in
      if i =? 0 then Ok cumulative else below_sums steps counts cumulative i
    end.
  (** the elements of an array from number 1 on *)
  Definition from_one (l : list Z) : res (list Z) := do _ <- check (1 <? zlen l) EIndex; Ok (tl l).
  (** lines 20-90: the points of the two curves and the number which is printed; [junk] as in the
      library *)
  Definition show_below (junk : Z) : res (list (Z * Z) * list (Z * Z) * Z) :=
    do m <- get_minimum_group_len little fs outputdir num;
    do counts <- lonarr (ulong m);
    do b <- get_groupcount_below_minimum_len little fs outputdir num fuel junk counts 0;
    let minsize := ulong (b_ret b) in
    let counts := b_count b in
    do (ngroups, g) <- load_groups;
    do points <- mass_points ngroups g;
    do cumulative <- lonarr minsize;
    do v <- subscript counts (ulong (minsize - 1));
    do cumulative <- assign cumulative (ulong (minsize - 1)) (v + ngroups);
    do cumulative <- below_sums (Datatypes.S (length cumulative)) counts cumulative (ulong (minsize - 2));
    do size <- lindgen minsize;
    do x <- from_one size;
    do y <- from_one cumulative;
    Ok (points, combine x y, sumZ (g_len g) + sumZ (zipwith Z.mul counts size)).

  (** getcubes.pro lines 21-53: HashTabSize, NFiles and the tables; the result of get_hash_table is
      not looked at *)
  Definition load_hash : res (Z * Z * hash) :=
    do (nfiles, size) <- get_hash_table_size little fs outputdir num snapbase 0;
    let size := ulong size in
    do a <- lonarr size;
    do b <- lonarr size;
    do c <- lonarr nfiles;
    do d <- lonarr nfiles;
    do (_, t) <- get_hash_table little fs outputdir num snapbase fuel {| Hashtable := a; Filetable := b; LastHashCell := c; NInFiles := d |};
    Ok (size, nfiles, t).
  (** lines 55-70; an int of the library is a ULONG of IDL with the same bits *)
  Definition getcubes : res (list Z) :=
    do (sn, t) <- load_hash;
    do tablen <- lonarr 512;
    get_particles_in_cubes t (long (fst sn)) (snd sn) tablen.

  (** show_group.pro lines 76-115: number, length, centre and positions of each group which is
      shown; the result of get_group_coordinates is not looked at. [box] is a variable of the library. *)
  Variables value4 value8 : Z -> Q.
  Fixpoint show_groups (g : groups) (size : Z) (t : hash) (box : Q) (ns : list Z) : res (list (Z * Z * list Q * list Q)) :=
    match ns with
    | [] => Ok []
    | n :: ns =>
      do finr <- subscript (g_file g) n;
      do grnr <- subscript (g_nr g) n;
      do len <- subscript (g_len g) n;
      do _ <- new (3 * len);
      do c <- get_group_coordinates little fs qsort outputdir num snapbase value4 value8 fuel t (long size) grnr finr len (repeat 0%Q (Z.to_nat (3 * len))) [0%Q; 0%Q; 0%Q] box;
      let t := {| Hashtable := Hashtable t; Filetable := c_file c; LastHashCell := LastHashCell t; NInFiles := NInFiles t |} in
      do rest <- show_groups g size t (c_box c) ns;
      Ok ((n, len, c_centre c, c_pos c) :: rest)
    end.
  Definition show_group : res (list (Z * Z * list Q * list Q)) :=
    do (_, g) <- load_groups;
    do (sn, t) <- load_hash;
    show_groups g (fst sn) t 0%Q [2; 3; 4; 5].
End Prog.
