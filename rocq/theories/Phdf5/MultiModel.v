(** Model of class MultiFile (/repo/python/virgo/mpi/parallel_hdf5.py:297-790) for one
    dataset name in one group; several names are handled one after the other by the
    same code. [files] holds that dataset in every file, None if the file lacks it (or
    lacks the group). Attributes are not modelled. *)
From Verif.Base Require Import Prelude.
From Verif.Mpi Require Import UtilModel.
From Verif.Phdf5 Require Import AssignModel CollModel.
Local Open Scope Z_scope.

(** lines 361-381: how files and ranks are assigned to each other *)
Inductive scheme :=
| Independent (first num : list Z)      (* files of each rank *)
| Collective (first num : list Z).      (* ranks of each file *)
Definition setup (P F : nat) : res scheme :=
  if (P <=? F)%nat then
    do num <- assign_files (Z.of_nat F) (Z.of_nat P); Ok (Independent (excl_cumsum num) num)
  else
    do num <- assign_files (Z.of_nat P) (Z.of_nat F); Ok (Collective (excl_cumsum num) num).
(** lines 373-381: the file of rank [r], its rank in the file's group and the group's size *)
Fixpoint find_file (r : Z) (i : nat) (l : list (Z * Z)) : res (nat * nat * nat) :=
  match l with
  | [] => Err EAssert
  | (first, num) :: l' =>
    if (first <=? r) && (r <? first + num) then Ok (i, Z.to_nat (r - first), Z.to_nat num) else find_file r (S i) l'
  end.

Section MultiFile.
  Context {A : Type} (junk : A) (itemsize native : Z -> Z) (buffer_size : Z) (P : nat) (files : list (option (dset A))) (idx : list Z).
  Let F := length files.

  (** np.concatenate of a list of arrays, lines 444-451: dimensions must agree *)
  Definition concat_dsets (l : list (dset A)) : res (option (dset A)) :=
    match l with
    | [] => Ok None
    | d0 :: _ => do _ <- check (forallb (fun d => list_eqb (d_dims d) (d_dims d0)) l) EValue;
                 Ok (Some {| d_dtype := d_dtype d0; d_dims := d_dims d0; d_rows := concat (map d_rows l) |})
    end.
  Definition dtypes_differ (l : list (dset A)) : bool :=
    match l with [] => false | d0 :: l' => existsb (fun d => negb (d_dtype d =? d_dtype d0)) l' end.

  (** lines 383-471 on all ranks: the local array and the local file_nr array *)
  Definition my_files (first num : list Z) (r : nat) : list nat := seq (Z.to_nat (nth r first 0)) (Z.to_nat (nth r num 0)).
  Definition present (l : list nat) : list (nat * dset A) :=
    flat_map (fun i => match nth i files None with Some d => [(i, d)] | None => [] end) l.
  Definition read_independent (first num : list Z) : res (list (option (dset A) * option (list Z))) :=
    do out <- mapM (fun r =>
      let got := present (my_files first num r) in
      do arr <- concat_dsets (map snd got);
      let file_nr := match got with [] => None
        | _ => Some (concat (map (fun id => repeat (nth (fst id) idx 0) (length (d_rows (snd id)))) got)) end in
      Ok (arr, file_nr)) (seq 0 P);
    do _ <- check (negb (existsb (fun r => dtypes_differ (map snd (present (my_files first num r)))) (seq 0 P))) ERuntime;
    Ok out.

  (** lines 473-541 on all ranks *)
  Definition read_collective (first num : list Z) : res (list (option (dset A) * option (list Z))) :=
    mapM (fun r =>
      do (fr, nranks) <- find_file (Z.of_nat r) 0 (combine first num);
      let (f, rank_in_file) := (fr : nat * nat) in
      match nth f files None with
      | None => Ok (None, None)
      | Some d =>
        do parts <- collective_read junk itemsize nranks buffer_size d;
        let rows := fst (nth rank_in_file parts ([], [])) in
        Ok (Some {| d_dtype := d_dtype d; d_dims := d_dims d; d_rows := rows |}, Some (repeat (nth f idx 0) (length rows)))
      end) (seq 0 P).

  (** replace_none_with_zero_size for these arrays (virgo/mpi/util.py:77-104) *)
  Definition replace_none (all : list (option (dset A))) (mine : option (dset A)) : res (option (dset A)) :=
    match mine, fill (option_map d_dtype mine) (map (option_map d_dtype) all), fill (option_map d_dims mine) (map (option_map d_dims) all) with
    | _, None, _ => Ok None
    | Some d, Some _, _ => Ok (Some d)
    | None, Some dt, Some s => Ok (Some {| d_dtype := dt; d_dims := s; d_rows := [] |})
    | None, Some _, None => Err EType
    end.
  Definition replace_none_nr (all : list (option (list Z))) (mine : option (list Z)) : option (list Z) :=
    match mine with
    | Some l => Some l
    | None => match fill None (map (option_map (fun _ => tt)) all) with Some _ => Some [] | None => None end
    end.

  (** lines 543-633: read with return_file_nr *)
  Definition read : res (list (option (dset A) * option (list Z))) :=
    do sch <- setup P F;
    do raw <- match sch with
              | Independent first num => read_independent first num
              | Collective first num => read_collective first num
              end;
    let data := map (fun x => option_map (fun d => {| d_dtype := native (d_dtype d); d_dims := d_dims d; d_rows := d_rows d |}) (fst x)) raw in
    do data' <- mapM (replace_none data) data;
    let nrs := map (replace_none_nr (map snd raw)) (map snd raw) in
    (* lines 592-601: all ranks have the same dtype; skipped where the data is None *)
    do _ <- check (match data' with
                   | Some d0 :: rest => forallb (fun o => match o with Some d => d_dtype d =? d_dtype d0 | None => true end) rest
                   | _ => true
                   end) ERuntime;
    Ok (combine data' nrs).

  (** lines 635-689: elements_per_file as a dict on every rank, here the list of
      assignments to it in program order *)
  Definition rows_in (f : nat) : Z := match nth f files None with Some d => zlen (d_rows d) | None => 0 end.
  Definition get_elements_per_file : res (list (list (Z * Z))) :=
    do sch <- setup P F;
    match sch with
    | Independent first num => Ok (spmd P (fun r => map (fun f => (nth f idx 0, rows_in f)) (my_files first num r)))
    | Collective first num =>
      mapM (fun r =>
        do (fr, nranks) <- find_file (Z.of_nat r) 0 (combine first num);
        let (f, rank_in_file) := (fr : nat * nat) in
        match nth f files None with
        | None => Ok [(nth f idx 0, 0)]
        | Some d =>
          let n := num_on_task nranks (zlen (d_rows d)) in
          do _ <- check (sumZ n =? zlen (d_rows d)) EAssert;
          Ok [(nth f idx 0, nth rank_in_file n 0)]
        end) (seq 0 P)
    end.
  (** looking up a key: the last assignment counts *)
  Fixpoint dict_get (k : Z) (l : list (Z * Z)) : res Z :=
    match l with
    | [] => Err EKey
    | (k', v) :: l' => match dict_get k l' with Ok v' => Ok v' | Err _ => if k' =? k then Ok v else Err EKey end
    end.
End MultiFile.

(** [dataset[...] = value] for a new dataset of [n] rows: equal length, or one row
    which is broadcast *)
Definition h5_assign {A} (n : Z) (value : list A) : res (list A) :=
  if zlen value =? n then Ok value
  else match value with [x] => Ok (repeat x (Z.to_nat n)) | _ => Err EType end.

(** lines 691-791: write of one dataset to new files. [data] is the array on every rank,
    [epf] the elements_per_file dict on every rank. The result is the dataset in each file. *)
Section Write.
  Context {A : Type} (junk : A) (itemsize : Z -> Z) (buffer_size : Z) (fuel P : nat) (idx : list Z).
  Let F := length idx.
  Fixpoint write_files (d : dset A) (epf : list (Z * Z)) (offset : Z) (fs : list nat) : res (list (dset A)) :=
    match fs with
    | [] => Ok []
    | f :: fs' =>
      do length <- dict_get (nth f idx 0) epf;
      do rows <- h5_assign length (pyslice (d_rows d) offset (offset + length));
      do rest <- write_files d epf (offset + length) fs';
      Ok ({| d_dtype := d_dtype d; d_dims := d_dims d; d_rows := rows |} :: rest)
    end.
  Definition write_independent (data : list (dset A)) (epf : list (list (Z * Z))) (first num : list Z) : res (list (dset A)) :=
    do per_rank <- mapM (fun rd => let '(r, d) := rd in
      write_files d (nth r epf []) 0 (my_files first num r)) (combine (seq 0 P) data);
    Ok (concat per_rank).
  Definition write_collective (data : list (dset A)) (epf : list (list (Z * Z))) (first num : list Z) : res (list (dset A)) :=
    do _ <- mapM (fun rd => let '(r, d) := rd in
      do (fr, nranks) <- find_file (Z.of_nat r) 0 (combine first num);
      do length <- dict_get (nth (fst fr) idx 0) (nth r epf []);
      check (length =? zlen (d_rows d)) EAssert) (combine (seq 0 P) data);
    (* one communicator per file: the ranks of file f in order *)
    mapM (fun f =>
      let group := zslice data (nth f first 0) (nth f first 0 + nth f num 0) in
      do (rows, _) <- collective_write fuel junk itemsize buffer_size None group;
      match group with
      | [] => Err EMpi
      | d :: _ => Ok {| d_dtype := d_dtype d; d_dims := d_dims d; d_rows := rows |}
      end) (seq 0 F).
  (** data[name] None on a rank: None has no attribute shape *)
  Definition write (data : list (option (dset A))) (epf : list (list (Z * Z))) : res (list (dset A)) :=
    do data <- mapM (fun o => match o with Some d => Ok d | None => Err EType end) data;
    do sch <- setup P F;
    match sch with
    | Independent first num => write_independent data epf first num
    | Collective first num => write_collective data epf first num
    end.
End Write.
