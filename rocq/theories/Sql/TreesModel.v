(** Model of database/make_dtrees_table.py: read_dhalo_trees.

    Simplified: a tree file is its attribute numberOfFiles, the names in its group
    haloTrees and the arrays they stand for; arrays have one element type. The loop
    [while ifile < nfiles], where nfiles is 1 until the first file has been read, is
    the first file followed by the files 1 .. nfiles-1. *)
From Verif Require Import Base.Prelude Base.Order Base.NdArray Index.IndexModel Hash.HashModel Multi.MultiModel.
Local Open Scope Z_scope.

Section Trees.
  Context {A Name : Type} (Od : TOrd Name).
  Record treefile := { number_of_files : res Z; keys : list Name; getitem : Name -> res (nd A) }.
  (** h5py.File("%s.%d.hdf5" % (basename, ifile), "r") *)
  Variable open : Z -> res treefile.

  (** lines 76-80, [first] being [ifile == 0] *)
  Definition read_array (first : bool) (f : treefile) (d : list (Name * @cell A)) (n : Name) : res (list (Name * @cell A)) :=
    let d := if first then dset Od d n (CList []) else d in
    match dget Od d n with
    | None => Err EKey
    | Some c =>
        do a <- getitem f n;
        match c with
        | CList l => Ok (dset Od d n (CList (l ++ [a])))
        | CArr _ => Err EType
        end
    end.
  (** lines 72-82 for one file after the first *)
  Definition read_tree_file (d : list (Name * @cell A)) (i : Z) : res (list (Name * @cell A)) :=
    do f <- open i; foldM (read_array false f) (keys f) d.
  (** lines 58-87 *)
  Definition read_dhalo_trees : res (list (Name * @cell A)) :=
    do f <- open 0;
    do nfiles <- number_of_files f;
    do d <- foldM (read_array true f) (keys f) [];
    do d <- foldM read_tree_file (zseq 1 (Z.to_nat (nfiles - 1))) d;
    foldM (concat_name Od (Some 0)) (map fst d) d.
End Trees.
Arguments treefile : clear implicits.
