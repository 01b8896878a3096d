(** Model of the example programs /repo/examples/millennium/fortran/readfofgroupsexample.f90
    and readgroupsexample.f90, from the arrays of the group files to the lines of the output
    file. The group files have been read before (readgroups.f90): [groupids] are the nidfile
    ids with hash keys, [foflen] and [foffset] the nfoffile lengths and offsets. STOP is the
    error [ERuntime]. Integers are unbounded except for the bits of the ids. *)
From Verif.Base Require Import Prelude Order.
From Verif.Fortran Require Import SortModel RegionModel.
Local Open Scope Z_scope.

(** ISHFT of an INTEGER*8: a logical shift of 64 bits, to the left for a positive number *)
Definition to_signed (v : Z) : Z := if 2 ^ 63 <=? v then v - 2 ^ 64 else v.
Definition ishft (v shift : Z) : Z :=
  let u := v mod 2 ^ 64 in to_signed (if 0 <=? shift then Z.shiftl u shift mod 2 ^ 64 else Z.shiftr u (- shift)).
(** lines 83-87 *)
Definition flag_cells (nhash : Z) (groupids : list Z) : res (list bool) :=
  foldR (fun hashmap gid => fset hashmap (ishft gid (-34)) true) groupids (repeat false (Z.to_nat nhash)).
(** line 96 *)
Definition strip_key (gid : Z) : Z := ishft (ishft gid 30) (-30).

Section Match.
  Variables ids x y z : list Z. (* of the particles *)
  Variables pidx : list Z.
  Let npart := zlen ids.
  (** lines 109-111; .AND. need not be evaluated from left to right *)
  Fixpoint advance (fuel : nat) (id j : Z) : res Z :=
    match fuel with
    | O => Err EFuel
    | S fuel' =>
      do p <- fget pidx (j - 1);
      do v <- fget ids (p - 1);
      if (v <? id) && (j <? npart) then advance fuel' id (j + 1) else Ok j
    end.
  Record matching := { m_j : Z; m_n : Z; m_x : list Z; m_y : list Z; m_z : list Z }.
  (** lines 107-115 *)
  Definition match_one (groupids gidx : list Z) (m : matching) (i : Z) : res matching :=
    do g <- fget gidx (i - 1);
    do id <- fget groupids (g - 1);
    do j <- advance (S (length pidx)) id (m_j m);
    do p <- fget pidx (j - 1);
    do v <- fget ids (p - 1);
    do xv <- fget x (p - 1); do xg <- fset (m_x m) (g - 1) xv;
    do yv <- fget y (p - 1); do yg <- fset (m_y m) (g - 1) yv;
    do zv <- fget z (p - 1); do zg <- fset (m_z m) (g - 1) zv;
    Ok {| m_j := j; m_n := (if id =? v then m_n m + 1 else m_n m); m_x := xg; m_y := yg; m_z := zg |}.
End Match.

Section Program.
  Variables little byteswap : bool.
  Variable shrink : Z -> Z. (* see SortModel *)
  Variable nhash : Z.
  Variable files : list (list Z).
  Variable junk : Z. (* arrays are not initialised *)
  (** lines 82-118: xgroup, ygroup, zgroup *)
  Definition find_positions (groupids : list Z) : res (list Z * list Z * list Z) :=
    do hashmap <- flag_cells nhash groupids;
    do (npart, r) <- readregion little byteswap nhash files hashmap junk;
    let nid := zlen groupids in
    let groupids := map strip_key groupids in
    let a := repeat junk (length groupids) in
    do gidx <- sort_index ZOrd shrink groupids a;
    do pidx <- sort_index ZOrd shrink (r_ids r) (repeat junk (Z.to_nat npart));
    do m <- foldR (match_one (r_ids r) (r_x r) (r_y r) (r_z r) pidx groupids gidx) (zseq 1 (length groupids)) {| m_j := 1; m_n := 0; m_x := a; m_y := a; m_z := a |};
    do _ <- check (nid <=? m_n m) ERuntime;
    Ok (m_x m, m_y m, m_z m).
  (** lines 124-129: one line (label, x, y, z) for each particle of each group *)
  Definition member (xg yg zg : list Z) (label : list Z) (i : Z) : res (list Z * Z * Z * Z) :=
    do x <- fget xg (i - 1); do y <- fget yg (i - 1); do z <- fget zg (i - 1); Ok (label, x, y, z).
  Definition fof_group (foflen foffset : list Z) (pos : list Z * list Z * list Z) (ifof : Z) : res (list (list Z * Z * Z * Z)) :=
    let '(xg, yg, zg) := pos in
    do off <- fget foffset (ifof - 1);
    do len <- fget foflen (ifof - 1);
    mapM (member xg yg zg [ifof - 1]) (zseq (off + 1) (Z.to_nat len)).
  Definition fof_program (groupids foflen foffset : list Z) : res (list (list Z * Z * Z * Z)) :=
    do pos <- find_positions groupids;
    do rows <- mapM (fof_group foflen foffset pos) (zseq 1 (length foflen));
    Ok (concat rows).
  (** readgroupsexample.f90, lines 120-125: the label has the number of the group too *)
  Definition sub_group (sublen suboffset subpar : list Z) (pos : list Z * list Z * list Z) (isub : Z) : res (list (list Z * Z * Z * Z)) :=
    let '(xg, yg, zg) := pos in
    do off <- fget suboffset (isub - 1);
    do len <- fget sublen (isub - 1);
    mapM (fun i => do par <- fget subpar (isub - 1); member xg yg zg [isub - 1; par] i) (zseq (off + 1) (Z.to_nat len)).
  Definition sub_program (groupids sublen suboffset subpar : list Z) : res (list (list Z * Z * Z * Z)) :=
    do pos <- find_positions groupids;
    do rows <- mapM (sub_group sublen suboffset subpar pos) (zseq 1 (length sublen));
    Ok (concat rows).
End Program.
