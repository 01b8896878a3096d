(** Model of the IDL programs which read single files of the Millennium simulation, in
    /repo/examples/millennium/idl: ReadGroups.pro, ReadSubHalos.pro, ReadTree.pro,
    Read_TreeAux.pro and ReadSingle.pro.

    Strings are lists of characters, a file its bytes; [little] is the byte order of the machine,
    [fs] says which files there are. What a program prints and plots is not modelled; its result
    are the variables it leaves behind. Floating point numbers are bit patterns. *)
From Coq Require Import Ascii String.
From Verif.Base Require Import Prelude.
From Verif.Binary Require Import BinModel.
From Verif.Text Require Import StrModel.
From Verif.Peano Require Import CPeanoModel.
From Verif.Fortran Require Import SortModel RegionModel GroupTabModel.
Local Open Scope Z_scope. Local Open Scope list_scope.

(** *** names of files *)
(** strcompress(s, /remove_all): blanks and tabs *)
Definition strcompress (s : str) : str := filter (fun c => negb (Ascii.eqb c " " || Ascii.eqb c "009")%char) s.
(** string(n): 8 characters for a 16 bit integer, 12 for one with 32 bits *)
Definition idl_string (width : nat) (n : Z) : str := fmt_wd width n.
(** strmid(s, first, length) *)
Definition strmid (s : str) (first len : Z) : str := zslice s first (first + len).
(** ReadGroups.pro lines 8-10, and the same in the other programs *)
Definition exts (num : Z) : str :=
  let e := lit "000" ++ strcompress (idl_string 8 num) in
  strmid e (zlen e - 3) 3.
(** ReadGroups.pro lines 13-14, ReadSubHalos.pro lines 15-16 *)
Definition group_tab_name (base : str) (num subfile : Z) : str :=
  strcompress (base ++ lit "/snapdir_" ++ exts num ++ lit "/group_tab_" ++ exts num ++ lit "." ++ idl_string 8 subfile).
(** ReadSubHalos.pro lines 12-13 *)
Definition sub_tab_name (base : str) (num subfile : Z) : str :=
  strcompress (base ++ lit "/postproc_" ++ exts num ++ lit "/sub_tab_" ++ exts num ++ lit "." ++ idl_string 8 subfile).
(** ReadSingle.pro lines 16-17, ReadMulti_xyz.pro lines 40-41 *)
Definition snapshot_name (base snapbase : str) (num subfile : Z) : str :=
  strcompress (base ++ lit "/snapdir_" ++ exts num ++ lit "/" ++ snapbase ++ lit "_" ++ exts num ++ lit "." ++ idl_string 8 subfile).
(** ReadPotential.pro lines 16-17 *)
Definition potential_name (base : str) (num subfile : Z) : str :=
  strcompress (base ++ lit "/snapdir_" ++ exts num ++ lit "/potential_" ++ exts num ++ lit "." ++ idl_string 8 subfile).
(** ReadTree.pro lines 38-39, Read_TreeAux.pro lines 14-15 *)
Definition tree_name (base : str) (num filenr : Z) : str :=
  strcompress (base ++ lit "/treedata/trees_" ++ exts num ++ lit ". " ++ idl_string 8 filenr).
Definition treeaux_name (base : str) (num filenr : Z) : str :=
  strcompress (base ++ lit "/treedata/treeaux_" ++ exts num ++ lit ". " ++ idl_string 8 filenr).

Section Read.
  Variable little : bool.
  Variable fs : str -> option (list Z).
  Definition openr (name : str) : res (list Z) := match fs name with Some b => Ok b | None => Err EIO end.
  (** lonarr(n), fltarr(3, n), replicate(s, n): there are no arrays without elements *)
  Definition new_array (n : Z) : res unit := check (0 <? n) EValue.
  (** READU from a file opened without F77_UNFORMATTED: the bytes follow each other *)
  Definition readu (content : list Z) (pos : Z) (items : list (Z * Z)) : res (list (list Z) * Z) :=
    do vals <- transfer little items (skipn (Z.to_nat pos) content);
    Ok (vals, pos + sumZ (map (fun '(size, count) => size * count) items)).
  Definition long_of (l : list (list Z)) (i : nat) : Z := signed32 (nth 0 (item l i) 0).
  Definition one_long : Z * Z := (4, 1).

  (** ReadGroups.pro lines 16-37: NumLocal, the argument of lonarr in line 25, is not defined *)
  Definition read_groups (base : str) (num subfile : Z) : res (list Z * list Z) :=
    do content <- openr (group_tab_name base num subfile);
    do (h, p) <- readu content 0 [one_long; one_long; one_long; one_long];
    Err EName.

  (** ReadSubHalos.pro lines 19-81: GroupLen, Nsubs with the integer arrays of the sub_tab file,
      the properties of halos and of subhalos *)
  Definition read_sub_halos (base : str) (num subfile : Z) : res (list Z * list (list Z) * list (list Z) * list (list Z)) :=
    (* lines 19-32 *)
    do content <- openr (group_tab_name base num subfile);
    do (h, p) <- readu content 0 [one_long; one_long; one_long; one_long];
    let ngroups := long_of h 0 in
    do _ <- new_array ngroups;
    do (grouplen, p) <- readu content p [(4, ngroups)];
    (* lines 35-57 *)
    do content <- openr (sub_tab_name base num subfile);
    do (h, p) <- readu content 0 [one_long; one_long; one_long; one_long; one_long];
    let ngroups := long_of h 0 in
    let nsubs := long_of h 4 in
    do _ <- new_array ngroups;
    do _ <- new_array nsubs;
    do (tab, p) <- readu content p [(4, ngroups); (4, ngroups); (4, nsubs); (4, nsubs); (4, nsubs)];
    (* lines 60-69 *)
    do (halo1, p) <- readu content p [(4, ngroups); (4, ngroups)];
    do (halo2, p) <- readu content p [(4, ngroups); (4, ngroups)];
    do (halo3, p) <- readu content p [(4, ngroups); (4, ngroups)];
    (* lines 71-79 *)
    do (sub, p) <- readu content p [(4, 3 * nsubs); (4, 3 * nsubs); (4, nsubs); (4, nsubs); (4, 3 * nsubs); (8, nsubs); (4, nsubs)];
    Ok (ints (item grouplen 0), map ints tab, halo1 ++ halo2 ++ halo3, sub).

  (** *** ReadTree.pro *)
  (** lines 5-25: the structure has no gaps *)
  Definition halo_struct : list (Z * Z) :=
    repeat one_long 6 ++ [(4, 1); (4, 1); (4, 1); (4, 3); (4, 3); (4, 1); (4, 1); (4, 3); (8, 1)] ++ repeat one_long 3 ++ [(4, 1)].
  (** lines 50-55; the variable Tree has each of the trees in turn *)
  Fixpoint read_trees (content : list Z) (p : Z) (treenhalos : list Z) : res (list (list (list Z))) :=
    match treenhalos with
    | [] => Ok []
    | n :: rest =>
      do _ <- new_array n;
      do (tree, p) <- readu content p (concat (repeat halo_struct (Z.to_nat n)));
      do trees <- read_trees content p rest;
      Ok (tree :: trees)
    end.
  (** lines 38-56; all the members of all the halos of a tree are one list *)
  Definition read_tree_file (base : str) (num filenr : Z) : res (list (list (list Z))) :=
    do content <- openr (tree_name base num filenr);
    do (h, p) <- readu content 0 [one_long; one_long];
    let ntrees := long_of h 0 in
    do _ <- new_array ntrees;
    do (n, p) <- readu content p [(4, ntrees)];
    read_trees content p (ints (item n 0)).
  (** lines 29-58 *)
  Definition read_tree (base : str) (num : Z) : res (list (list (list (list Z)))) := mapM (read_tree_file base num) (zseq 0 512).

  (** Read_TreeAux.pro lines 17-56 *)
  Definition read_tree_aux (base : str) (num filenr : Z) : res (list (list Z)) :=
    do content <- openr (treeaux_name base num filenr);
    do (h, p) <- readu content 0 [one_long; one_long; one_long; one_long];
    let totnhalos := long_of h 0 in
    let totuniqueids := long_of h 1 in
    let tottrees := long_of h 2 in
    let totsnaps := long_of h 3 in
    do _ <- new_array totsnaps;
    do _ <- new_array tottrees;
    do _ <- new_array totnhalos;
    do (snap, p) <- readu content p [(4, totsnaps); (4, totsnaps)];
    do (snaptree, p) <- readu content p [(4, tottrees * totsnaps); (4, tottrees * totsnaps)];
    do (halo, p) <- readu content p [(4, totnhalos); (4, totnhalos)];
    do _ <- new_array totuniqueids;
    do (ids, p) <- readu content p [(8, totuniqueids)];
    do (pos, p) <- readu content p [(4, 3 * totuniqueids)];
    Ok (map ints (snap ++ snaptree ++ halo) ++ map longs ids ++ pos).

  (** ReadSingle.pro lines 19-40: npart, massarr, time, redshift, flag_sfr, flag_feedback, npartall,
      flag_cooling, Nsubfiles, BoxSize; with F77_UNFORMATTED, the rest of a record is skipped *)
  Definition single_items : list (Z * Z) := [(4, 6); (8, 6); (8, 1); (8, 1); (4, 1); (4, 1); (4, 6); (4, 1); (4, 1); (8, 1)].
  Definition read_single (base snapbase : str) (num subfile : Z) : res (list Z * (list Z * list Z * list Z)) :=
    do content <- openr (snapshot_name base snapbase num subfile);
    do (h, p) <- read_record little content 0 single_items;
    let n := h_npart h in
    do _ <- new_array n;
    do (pos, p) <- read_record little content p [(4, 3 * n)];
    do (vel, p) <- read_record little content p [(4, 3 * n)];
    do (id, p) <- read_record little content p [(8, n)];
    Ok (ints (item h 0), (item pos 0, item vel 0, longs (item id 0))).
End Read.
