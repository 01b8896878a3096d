(** Model of collective_read and collective_write
    (/repo/python/virgo/mpi/parallel_hdf5.py:97-279).

    A HDF5 dataset or numpy array is its dtype (a code), the dimensions after the
    first, and the list of its rows (elements along the first axis). HDF5 hyperslab
    reads and writes transfer exactly the selected rows. *)
From Verif.Base Require Import Prelude.
Local Open Scope Z_scope.

Record dset (A : Type) := { d_dtype : Z; d_dims : list Z; d_rows : list A }.
Arguments d_dtype {A} _. Arguments d_dims {A} _. Arguments d_rows {A} _.

Definition prodZ (l : list Z) : Z := fold_right Z.mul 1 l.
(** bytes per row, lines 131-133 and 234-236 *)
Definition element_size {A} (itemsize : Z -> Z) (d : dset A) : Z := itemsize (d_dtype d) * prodZ (d_dims d).

(** lines 116-119: num_on_task *)
Definition num_on_task (P : nat) (ntot : Z) : list Z :=
  spmd P (fun r => ntot / Z.of_nat P + if Z.of_nat r <? ntot mod Z.of_nat P then 1 else 0).

(** lines 148-158: [n] more iterations of the read loop on one rank; the second
    component of the result is the number of rows of each read *)
Fixpoint read_loop {A} (n : nat) (nbuf : Z) (ds data : list A) (offset_in_mem offset_in_file nr_left : Z) : list A * list Z :=
  match n with
  | O => (data, [])
  | S n' =>
    let length := Z.min nr_left nbuf in
    let data := write_at data offset_in_mem (zslice ds offset_in_file (offset_in_file + length)) in
    let (data, reads) := read_loop n' nbuf ds data (offset_in_mem + length) (offset_in_file + length) (nr_left - length) in
    (data, length :: reads)
  end.
(** lines 137-139; numpy's x // 0 and x % 0 are 0 *)
Definition local_nr_iterations (num nbuf : Z) : Z :=
  if nbuf =? 0 then 0 else num / nbuf + if 0 <? num mod nbuf then 1 else 0.

(** lines 97-160 on all ranks: the rows read by each rank and the sizes of its
    collective reads *)
Definition collective_read {A} (junk : A) (itemsize : Z -> Z) (P : nat) (buffer_size : Z) (d : dset A) : res (list (list A * list Z)) :=
  let ds := d_rows d in
  let ntot := zlen ds in
  let num := num_on_task P ntot in
  do _ <- check (sumZ num =? ntot) EAssert;
  let off := excl_cumsum num in
  if ntot <? 10 * Z.of_nat P then
    Ok (spmd P (fun r => (zslice ds (nth r off 0) (nth r off 0 + nth r num 0), [])))
  else
    do _ <- check (negb (element_size itemsize d =? 0)) EZeroDiv;
    let nbuf := buffer_size / element_size itemsize d in
    let iterations := fold_right Z.max 0 (map (fun n => local_nr_iterations n nbuf) num) in
    Ok (spmd P (fun r =>
      read_loop (Z.to_nat iterations) nbuf ds (repeat junk (Z.to_nat (nth r num 0))) 0 (nth r off 0) (nth r num 0))).

(** lines 246-277: one iteration of the write loop. [st] is (file_offset,
    memory_offset, nr_left) on every rank. *)
Definition wstate : Type := Z * Z * Z.
Definition write_step {A} (max_elements : Z) (data : list (list A)) (file : list A) (st : list wstate) : res (list A * list wstate * list Z) :=
  let n := map (fun s => Z.min (snd s) max_elements) st in
  do file <- fold_left (fun acc r =>
    do file <- acc;
    let '(fo, mo, _) := nth r st (0, 0, 0) in
    let k := nth r n 0 in
    if 0 <? k then
      if fo + k <=? zlen file then Ok (write_at file fo (zslice (nth r data []) mo (mo + k))) else Err EValue
    else Ok file) (seq 0 (length st)) (Ok file);
  Ok (file, zipwith (fun s k => let '(fo, mo, nl) := s in (fo + k, mo + k, nl - k)) st n, n).
Fixpoint write_loop {A} (fuel : nat) (max_elements : Z) (data : list (list A)) (file : list A) (st : list wstate) : res (list A * list (list Z)) :=
  if sumZ (map snd st) <=? 0 then Ok (file, [])
  else match fuel with
       | O => Err EFuel
       | S fuel' =>
         do (fs, n) <- write_step max_elements data file st;
         let (file, st) := (fs : list A * list wstate) in
         do (file, trace) <- write_loop fuel' max_elements data file st;
         Ok (file, n :: trace)
       end.

Definition list_eqb (a b : list Z) : bool := if list_eq_dec Z.eq_dec a b then true else false.

(** lines 167-279. [old] is the existing dataset if create_dataset is False; a newly
    created dataset holds [junk]. The result is the dataset's new contents and, for each
    iteration, the number of rows written by each rank. *)
Definition collective_write {A} (fuel : nat) (junk : A) (itemsize : Z -> Z) (buffer_size : Z) (old : option (list A)) (data : list (dset A)) : res (list A * list (list Z)) :=
  match data with
  | [] => Err EMpi
  | d0 :: _ =>
    let num := map (fun d => zlen (d_rows d)) data in
    let ntot := sumZ num in
    let off := excl_cumsum num in
    do _ <- check (forallb (fun d => list_eqb (d_dims d) (d_dims d0)) data) EValue;
    do _ <- check (forallb (fun d => d_dtype d =? d_dtype d0) data) EValue;
    let file := match old with None => repeat junk (Z.to_nat ntot) | Some o => o end in
    do _ <- check (negb (element_size itemsize d0 =? 0)) EZeroDiv;
    let max_elements := buffer_size / element_size itemsize d0 in
    write_loop fuel max_elements (map d_rows data) file (zipwith (fun o n => (o, 0, n)) off num)
  end.
