(** Model of the IDL programs which read several files of the Millennium simulation, in
    /repo/examples/millennium/idl: ReadMulti_xyz.pro and ReadPotential.pro. Conventions are those of
    Pro/ProModel.v. *)
From Coq Require Import Ascii String.
From Verif.Base Require Import Prelude.
From Verif.Text Require Import StrModel.
From Verif.Binary Require Import BinModel.
From Verif.Peano Require Import CPeanoModel.
From Verif.Fortran Require Import SortModel RegionModel GroupTabModel.
From Verif.Pro Require Import ProModel.
Local Open Scope Z_scope. Local Open Scope list_scope.

Section Read.
  Variable little : bool.
  Variable fs : str -> option (list Z).

  (** *** ReadMulti_xyz.pro *)
  (** lines 44-51: N, npartall(1) and pos1 *)
  Definition multi_file (base snapbase : str) (num subfile : Z) : res (Z * Z * list Z) :=
    do content <- openr fs (snapshot_name base snapbase num subfile);
    do (h, p) <- read_record little content 0 (firstn 7 single_items);
    let n := h_npart h in
    do _ <- new_array n;
    do (pos, p) <- read_record little content p [(4, 3 * n)];
    Ok (n, signed32 (nth 1 (item h 6) 0), item pos 0).
  (** lines 53-58; Pos is undefined before the first file *)
  Definition multi_step (base snapbase : str) (num : Z) (pos : option (list Z)) (count subfile : Z) : res (option (list Z) * Z) :=
    do (np, pos1) <- multi_file base snapbase num subfile;
    let (n, npartall) := np : Z * Z in
    do pos <- (if subfile =? 0 then do _ <- new_array npartall; Ok (repeat 0 (Z.to_nat (3 * npartall))) else match pos with Some p => Ok p | None => Err EName end);
    do _ <- check ((0 <=? count) && (3 * (count + n) <=? zlen pos)) EIndex;
    Ok (Some (write_at pos (3 * count) pos1), count + n).
  Fixpoint multi_loop (base snapbase : str) (num : Z) (subfiles : list Z) (pos : option (list Z)) (count : Z) : res (option (list Z)) :=
    match subfiles with
    | [] => Ok pos
    | subfile :: rest => do (pos, count) <- multi_step base snapbase num pos count subfile; multi_loop base snapbase num rest pos count
    end.
  (** lines 13-60: Pos and BoxSize. The variable of the loop is a 16 bit integer; without files Pos is
      undefined in line 60 *)
  Definition read_multi (base snapbase : str) (num : Z) : res (list Z * list Z) :=
    do content <- openr fs (strcompress (base ++ lit "/snapdir_" ++ exts num ++ lit "/" ++ snapbase ++ lit "_" ++ exts num ++ lit ".0"));
    do (h, _) <- read_record little content 0 single_items;
    let nsubfiles := h_numfiles h in
    do _ <- check (nsubfiles - 1 <=? 32767) EValue;
    do pos <- multi_loop base snapbase num (zseq 0 (Z.to_nat nsubfiles)) None 0;
    match pos with Some p => Ok (p, item h 9) | None => Err EName end.

  (** *** ReadPotential.pro *)
  (** lines 26-29: grid, slabspertask, firstslab and pot *)
  Definition potential_items : list (Z * Z) := [one_long; one_long; one_long; one_long; (8, 1); (8, 1)].
  Definition slab_file (base : str) (num subfile : Z) : res (Z * Z * Z * list Z) :=
    do content <- openr fs (potential_name base num subfile);
    do (h, p) <- readu little content 0 potential_items;
    let grid := long_of h 0 in
    let slabs := long_of h 2 in
    do _ <- new_array grid;
    do _ <- new_array slabs;
    do (pot, p) <- readu little content p [(4, grid * grid * slabs)];
    Ok (grid, slabs, long_of h 3, item pot 0).
  (** element (x, y, z) of an array with [n] rows and columns *)
  Definition elt (n x y z : Z) : nat := Z.to_nat (x + n * (y + n * z)).
  (** all of the elements of an array with [n] rows, columns and planes *)
  Definition cube (n : Z) (f : Z -> Z -> Z -> Z) : list Z :=
    concat (map (fun z => concat (map (fun y => map (fun x => f x y z) (zseq 0 (Z.to_nat n))) (zseq 0 (Z.to_nat n)))) (zseq 0 (Z.to_nat n))).
  (** line 36: the array [old] with the planes of a file *)
  Definition put_slabs (n : Z) (old : list Z) (grid slabs first : Z) (pot : list Z) : res (list Z) :=
    do _ <- check ((grid <=? n) && (0 <=? first) && (first + slabs <=? n)) EIndex;
    Ok (cube n (fun x y z => if (x <? grid) && (y <? grid) && (first <=? z) && (z <? first + slabs) then nth (elt grid x y (z - first)) pot 0 else nth (elt n x y z) old 0)).
  Definition wrap16 (i : Z) : Z := (i + 2 ^ 15) mod 2 ^ 16 - 2 ^ 15.
  (** lines 14-40; [n] is the size of the array potential, which is not defined before the first file;
      [subfile] is a 16 bit integer. [fuel]: at most
      so many files are read *)
  Fixpoint potential_loop (fuel : nat) (base : str) (num subfile slabscount : Z) (potential : option (Z * list Z)) : res (Z * list Z) :=
    match fuel with
    | O => Err EFuel
    | Datatypes.S fuel =>
      do (hdr, pot) <- slab_file base num subfile;
      let '(grid, slabs, first) := hdr : Z * Z * Z in
      do p <- (if subfile =? 0 then Ok (grid, repeat 0 (Z.to_nat (grid * grid * grid))) else match potential with Some p => Ok p | None => Err EName end);
      let '(n, old) := p : Z * list Z in
      do new <- put_slabs n old grid slabs first pot;
      let slabscount := slabscount + slabs in
      if grid <=? slabscount then Ok (n, new) else potential_loop fuel base num (wrap16 (subfile + 1)) slabscount (Some (n, new))
    end.
  (** lines 8-42 *)
  Definition read_potential (fuel : nat) (base : str) (num : Z) : res (list Z) :=
    do (n, potential) <- potential_loop fuel base num 0 0 None;
    Ok (cube n (fun x y z => nth (elt n z y x) potential 0)).
End Read.
