(** Model of /repo/examples/millennium/python/read_subhalo_catalogue.py (python 2), which prints the
    subhalos of a snapshot as text. A file system gives the bytes of the files which exist. How
    %14.6f shows a floating point number is an oracle, a function of its bit pattern. *)
From Coq Require Import Ascii String.
From Verif.Base Require Import Prelude.
From Verif.Binary Require Import BinModel.
From Verif.Formats Require Import ReaderModel.
From Verif.Text Require Import StrModel.
Local Open Scope Z_scope.
Local Open Scope list_scope.

(** sims/millennium.py, lines 31-36: SubTabFile(fname), with ids of 8 bytes *)
Definition mill_sub_tab : prog := lgadget2_sub_tab 8.

Section Script.
  Variable little : bool.
  Variable fs : str -> option (list Z).
  Variable fmt_f : Z -> str.
  (** line 19 *)
  Definition sub_tab_name (isnap ifile : Z) : str :=
    lit "/virgo/data/Millennium/postproc_" ++ fmt_0d 3 isnap ++ lit "/sub_tab_" ++ fmt_0d 3 isnap ++ lit "." ++ fmt_d ifile.
  (** elements a[i] and a[i,j], where the second dimension of a is [n] *)
  Definition item (a : list Z) (i : Z) : res Z := match nth_error a (Z.to_nat i) with Some v => Ok v | None => Err EIndex end.
  Definition item2 (n : Z) (a : list Z) (i j : Z) : res Z := item a (n * i + j).
  (** lines 33-35, the text which is printed *)
  Definition show_subhalo (parenthalo len pos vel : list Z) (i : Z) : res str :=
    do p <- item parenthalo i; do l <- item len i;
    do x <- item2 3 pos i 0; do y <- item2 3 pos i 1; do z <- item2 3 pos i 2;
    do vx <- item2 3 vel i 0; do vy <- item2 3 vel i 1; do vz <- item2 3 vel i 2;
    Ok (fmt_d (signed32 p) ++ lit ", " ++ fmt_d (signed32 l) ++ lit ", " ++
        fmt_f x ++ lit ", " ++ fmt_f y ++ lit ", " ++ fmt_f z ++ lit ", " ++
        fmt_f vx ++ lit ", " ++ fmt_f vy ++ lit ", " ++ fmt_f vz).
  (** a loop which prints: the lines printed, and how it ends *)
  Fixpoint print_each (body : Z -> list str * res unit) (l : list Z) : list str * res unit :=
    match l with
    | [] => ([], Ok tt)
    | i :: l' =>
      match body i with
      | (out, Ok _) => let '(out', r) := print_each body l' in (out ++ out', r)
      | (out, Err e) => (out, Err e)
      end
    end.
  (** line 20 (IOError if there is no such file) and lines 26-30 *)
  Definition read_sub_tab (fname : str) : res (Z * list Z * list Z * list Z * list Z) :=
    match fs fname with
    | None => Err EIO
    | Some content =>
      match open_file little content mill_sub_tab with
      | (_, Err e) => Err e
      | (subtab, Ok _) =>
        do nsub <- read_dataset little content subtab (lit "Nsubhalos");
        do parenthalo <- read_dataset little content subtab (lit "SubParentHalo");
        do len <- read_dataset little content subtab (lit "SubLen");
        do pos <- read_dataset little content subtab (lit "SubPos");
        do vel <- read_dataset little content subtab (lit "SubVel");
        Ok (i32 nsub, parenthalo, len, pos, vel)
      end
    end.
  (** lines 18-35, one file *)
  Definition show_file (isnap ifile : Z) : list str * res unit :=
    match read_sub_tab (sub_tab_name isnap ifile) with
    | Err e => ([], Err e)
    | Ok (nsub, parenthalo, len, pos, vel) =>
      print_each (fun i => match show_subhalo parenthalo len pos vel i with Ok line => ([line], Ok tt) | Err e => ([], Err e) end)
        (zseq 0 (Z.to_nat nsub))
    end.
  (** lines 12-35 for any snapshot and number of files; the script has 63 and 512 *)
  Definition read_subhalo_catalogue (isnap nfiles : Z) : list str * res unit :=
    let '(out, r) := print_each (show_file isnap) (zseq 0 (Z.to_nat nfiles)) in
    (lit "Parent halo, Number of particles, x, y, z, vx, vy, vz" :: out, r).
  Definition read_subhalo_catalogue_py : list str * res unit := read_subhalo_catalogue 63 512.
End Script.
