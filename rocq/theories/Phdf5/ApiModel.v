(** Model of the whole interface of class MultiFile
    (/repo/python/virgo/mpi/parallel_hdf5.py:83-94, 297-790): the set of files, several
    datasets at once, groups, attributes and the form of the results. What happens to
    one dataset is in MultiModel.v.

    Simplified: the phases of read and write, which the code runs over all the names one
    after the other, are run name by name, which makes a difference only to which error
    comes first. All ranks pass the same arguments. Files are written one after the
    other. Compression and chunking (dcpl, gzip, shuffle, chunk) do not change what is
    stored. *)
From Coq Require Import Ascii String.
From Verif.Base Require Import Prelude.
From Verif.Mpi Require Import UtilModel.
From Verif.Index Require Import IndexModel.
From Verif.Phdf5 Require Import AssignModel CollModel MultiModel.
Local Open Scope Z_scope.
Local Open Scope list_scope.

(** ** h5py: the objects of a file by their path *)
Fixpoint parts_aux (cur : string) (s : string) : list string :=
  match s with
  | EmptyString => [cur]
  | String c s' => if Ascii.eqb c "/" then cur :: parts_aux EmptyString s' else parts_aux (cur ++ String c EmptyString)%string s'
  end.
(** the components of a path: the empty ones and "." mean nothing *)
Definition parts (s : string) : list string :=
  filter (fun c => negb (String.eqb c "" || String.eqb c ".")) (parts_aux EmptyString s).
Definition absolute (s : string) : bool := match s with String c _ => Ascii.eqb c "/" | EmptyString => false end.
(** the path meant by [name] in the group at [loc] *)
Definition resolve (loc : list string) (name : string) : list string := if absolute name then parts name else loc ++ parts name.
Definition path_eqb (p q : list string) : bool := if list_eq_dec string_dec p q then true else false.
Definition mem (s : string) (l : list string) : bool := existsb (String.eqb s) l.
(** the keys of the dict {name : ... for name in l}, in insertion order *)
Fixpoint keys (l : list string) : list string :=
  match l with [] => [] | x :: l' => x :: filter (fun y => negb (String.eqb y x)) (keys l') end.
Fixpoint look {X} (k : string) (l : list (string * X)) : res X :=
  match l with [] => Err EKey | (k', x) :: l' => if String.eqb k' k then Ok x else look k l' end.

Inductive mode := W | Append | RPlus | Excl.   (* "w", "a", "r+" and "w-" or "x" *)
Inductive filenames := Format (s : string) | Names (l : list string).
Inductive names := One (n : string) | Many (l : list string).
Inductive value (X : Type) := VDict (l : list (string * X)) | VList (l : list X) | VOne (x : X).
Arguments VDict {X}. Arguments VList {X}. Arguments VOne {X}.

Section Api.
  (** [A] is the type of a row and [V] that of the value of an attribute; int() of a
      dataset and of an attribute; substitute_file_nr is FileNrModel.v *)
  Context {A V : Type} (junk : A) (itemsize native : Z -> Z) (buffer_size : Z).
  Context (int_of_data : dset A -> res Z) (int_of_attr : V -> res Z) (substitute_file_nr : string -> Z -> res string).

  Definition attrs : Type := list (string * V).
  Inductive node := NGroup (at_ : attrs) | NData (d : dset A) (at_ : attrs).
  Definition h5file : Type := list string -> option node.
  Definition store : Type := string -> option h5file.
  Definition empty_file : h5file := fun p => match p with [] => Some (NGroup []) | _ => None end.
  Definition put (f : h5file) (p : list string) (n : node) : h5file := fun q => if path_eqb q p then Some n else f q.
  (** an array as read returns it: line 83-94, [a_attrs] is None for a plain array *)
  Record array := { a_data : dset A; a_attrs : option attrs }.
  Definition open_read (fs : store) (name : string) : res h5file := match fs name with Some f => Ok f | None => Err EIO end.

  (** ** __init__, lines 326-381: the names and indexes of the files *)
  Definition init (fs : store) (P : nat) (fn : filenames) (file_nr_attr : option (string * string)) (file_nr_dataset : option string)
      (file_idx : option (list Z)) : res (list string * list Z) :=
    do (fnames, idx) <- match fn with
      | Format s =>
        do idx <- match file_idx with
          | Some l => Ok l
          | None =>
            do n0 <- substitute_file_nr s 0;
            do f <- open_read fs n0;
            match file_nr_attr, file_nr_dataset with
            | Some (obj, a), _ =>
              match f (resolve [] obj) with
              | Some (NGroup at_) | Some (NData _ at_) => do v <- look a at_; do n <- int_of_attr v; Ok (zseq 0 (Z.to_nat n))
              | None => Err EKey
              end
            | None, Some ds =>
              match f (resolve [] ds) with
              | Some (NData d _) => do n <- int_of_data d; Ok (zseq 0 (Z.to_nat n))
              | Some (NGroup _) => Err EType
              | None => Err EKey
              end
            | None, None => Err ERuntime
            end
          end;
        do l <- mapM (substitute_file_nr s) idx;
        Ok (l, idx)
      | Names l => Ok (l, zseq 0 (length l))
      end;
    do _ <- setup P (length fnames);
    Ok (fnames, idx).

  (** lines 411-420 and 499-508: the group to read from; None if the file does not have it.
      The name of a dataset given as group is an error. *)
  Definition locate (f : h5file) (group : option string) : res (option (list string)) :=
    match group with
    | None => Ok (Some [])
    | Some g => match f (resolve [] g) with
                | None => Ok None
                | Some (NGroup _) => Ok (Some (resolve [] g))
                | Some (NData _ _) => Err EType
                end
    end.
  (** lines 425-436 and 514-528: the dataset and its attributes, None if there is none *)
  Definition get (f : h5file) (loc : option (list string)) (name : string) : res (option (dset A * attrs)) :=
    match loc with
    | None => Ok None
    | Some p => match f (resolve p name) with
                | None => Ok None
                | Some (NData d at_) => Ok (Some (d, at_))
                | Some (NGroup _) => Err EType
                end
    end.
  Definition view (files : list h5file) (group : option string) (name : string) : res (list (option (dset A * attrs))) :=
    mapM (fun f => do loc <- locate f group; get f loc name) files.

  (** the attributes of the array each rank has read: lines 432-436 and 446-451 (of the first of
      its arrays), 524-528 *)
  Definition first_attrs (v : list (option (dset A * attrs))) (fs : list nat) : option attrs :=
    match flat_map (fun i => match nth i v None with Some da => [snd da] | None => [] end) fs with [] => None | a :: _ => Some a end.
  Definition own_attrs (P : nat) (v : list (option (dset A * attrs))) : res (list (option attrs)) :=
    do sch <- setup P (length v);
    match sch with
    | Independent first num => Ok (spmd P (fun r => first_attrs v (my_files first num r)))
    | Collective first num => mapM (fun r =>
        do (fr, _) <- find_file (Z.of_nat r) 0 (combine first num);
        Ok (option_map snd (nth (fst fr) v None))) (seq 0 P)
    end.

  (** one dataset on all ranks: MultiModel.read and lines 603-615 *)
  Definition read1 (P : nat) (idx : list Z) (v : list (option (dset A * attrs))) (read_attributes : bool) : res (list (option array * option (list Z))) :=
    do out <- MultiModel.read junk itemsize native buffer_size P (map (option_map fst) v) idx;
    do own <- if read_attributes then own_attrs P v else Ok (repeat None P);
    Ok (map (fun x => let '((d, nr), mine) := x in
               (option_map (fun d => {| a_data := d; a_attrs := fill mine own |}) d, nr)) (combine out own)).

  (** lines 617-633: what a rank returns *)
  Definition pack {X} (datasets : names) (unpack : bool) (m : list (string * X)) : res (value X) :=
    match datasets with
    | One n => do x <- look n m; Ok (VOne x)
    | Many l => if unpack then do xs <- mapM (fun n => look n m) l; Ok (VList xs) else Ok (VDict m)
    end.
  Definition name_list (datasets : names) : list string := match datasets with One n => [n] | Many l => l end.

  (** lines 543-633 for the files with the given names; the keys of file_nr differ between
      independent (lines 395-398) and collective reading (lines 517-518, 530-533) *)
  Definition read (fs : store) (P : nat) (fnames : list string) (idx : list Z) (datasets : names) (group : option string)
      (return_file_nr : option (list string)) (read_attributes unpack : bool) : res (list (value (option array) * option (value (option (list Z))))) :=
    do files <- mapM (open_read fs) fnames;
    do per <- mapM (fun n => do v <- view files group n; do o <- read1 P idx v read_attributes; Ok (n, o)) (keys (name_list datasets));
    mapM (fun r =>
      let at_rank (o : list (option array * option (list Z))) := nth r o (None, None) in
      do data <- pack datasets unpack (map (fun no => (fst no, fst (at_rank (snd no)))) per);
      do nr <- match return_file_nr with
        | None => Ok None
        | Some rn =>
          let m := if (P <=? length fnames)%nat
                   then map (fun n => (n, match look n per with Ok o => snd (at_rank o) | Err _ => None end)) (keys rn)
                   else flat_map (fun no => if mem (fst no) rn then [(fst no, snd (at_rank (snd no)))] else []) per in
          do x <- pack datasets unpack m; Ok (Some x)
        end;
      Ok (data, nr)) (seq 0 P).

  (** lines 635-689 *)
  Definition get_elements_per_file (fs : store) (P : nat) (fnames : list string) (idx : list Z) (name : string) (group : option string) : res (list (list (Z * Z))) :=
    do files <- mapM (open_read fs) fnames;
    do v <- view files group name;
    MultiModel.get_elements_per_file P (map (option_map fst) v) idx.

  (** ** writing *)
  (** h5py.File(filename, mode) *)
  Definition open_write (fs : store) (name : string) (m : mode) : res h5file :=
    match m, fs name with
    | W, _ | Append, None | Excl, None => Ok empty_file
    | Append, Some f | RPlus, Some f => Ok f
    | RPlus, None | Excl, Some _ => Err EIO
    end.
  (** require_group: missing groups on the way are made *)
  Fixpoint require (f : h5file) (at_path rest : list string) : res h5file :=
    match rest with
    | [] => Ok f
    | c :: rest' =>
      let p := at_path ++ [c] in
      match f p with
      | Some (NGroup _) => require f p rest'
      | Some (NData _ _) => Err EType
      | None => require (put f p (NGroup [])) p rest'
      end
    end.
  (** lines 727-735, or collective_write, and 736-738: a new dataset with its attributes. The name
      must be free and the group it is in must exist. *)
  Definition create (f : h5file) (loc : list string) (name : string) (d : dset A) (at_ : attrs) : res h5file :=
    let p := resolve loc name in
    match f p with
    | Some _ => Err EValue
    | None => match f (removelast p) with
              | Some (NGroup _) => Ok (put f p (NData d at_))
              | _ => Err EKey
              end
    end.
  Definition attrs_for (at_ : option (list (string * attrs))) (name : string) : attrs :=
    match at_ with None => [] | Some l => match look name l with Ok a => a | Err _ => [] end end.

  (** lines 691-790. [data] holds for every name the array of every rank *)
  Definition write (fuel : nat) (fs : store) (P : nat) (idx : list Z) (data : list (string * list (option (dset A)))) (epf : list (list (Z * Z)))
      (fn : filenames) (m : mode) (group : option string) (at_ : option (list (string * attrs))) : res store :=
    do all_filenames <- match fn with
      | Format s => mapM (substitute_file_nr s) idx
      | Names l => do _ <- check (length l =? length idx)%nat EValue; Ok l
      end;
    do dsets <- mapM (fun nd => do l <- MultiModel.write junk itemsize buffer_size fuel P idx (snd nd) epf; Ok (fst nd, l)) data;
    foldM (fun (fs : store) (i_name : nat * string) =>
      let (i, fname) := i_name in
      do f <- open_write fs fname m;
      let loc := match group with None => [] | Some g => resolve [] g end in
      do f <- require f [] loc;
      do f <- foldM (fun f nl => match nth_error (snd nl) i with
                                 | Some d => create f loc (fst nl) d (attrs_for at_ (fst nl))
                                 | None => Err EMpi (* every file is written by some rank *)
                                 end) dsets f;
      Ok (fun n => if String.eqb n fname then Some f else fs n)) (combine (seq 0 (length all_filenames)) all_filenames) fs.
End Api.
Arguments node : clear implicits. Arguments h5file : clear implicits. Arguments store : clear implicits. Arguments array : clear implicits. Arguments attrs : clear implicits.
Arguments NGroup {A V}. Arguments NData {A V}.
