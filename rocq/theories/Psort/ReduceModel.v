(** Model of reduce_elements and parallel_bincount
    (/repo/python/virgo/mpi/parallel_sort.py:990-1161). *)
From Verif.Base Require Import Prelude Order.
From Verif.Mpi Require Import CommModel.
From Verif.Psort Require Import MoveModel UniqueModel.
Local Open Scope Z_scope.

(** lines 1047-1050: number of (sorted) indexes to send to each rank *)
Definition reduce_counts (all_local_offsets : list Z) (index : list Z) : list Z :=
  let send_offset := map (searchsorted_left ZOrd index) all_local_offsets in
  zipwith Z.sub (tl send_offset ++ [zlen index]) send_offset.

Section Reduce.
  Context {A B : Type}.
  (** [op old update]: the ufunc, or the MPI operator applied by Reduce_local
      (which computes op(update, old); the operation is a parameter, so the order
      of its arguments is not represented) *)
  Variable op : A -> B -> A.

  (** lines 1080-1086: [op.at(arr, index, updates)], or the equivalent loop over
      Reduce_local; an index outside the array is an IndexError *)
  Fixpoint ufunc_at (arr : list A) (upd : list (Z * B)) : res (list A) :=
    match upd with
    | [] => Ok arr
    | (j, u) :: upd' =>
        do a <- py_nth arr j;
        ufunc_at (set_nth arr (Z.to_nat (if j <? 0 then j + zlen arr else j)) (op a u)) upd'
    end.

  (** lines 1074-1086 on one rank *)
  Definition reduce_local (arr : list A) (local_offset : Z) (index_recv : list Z) (updates_recv : list B) : res (list A) :=
    let index_recv := map (fun i => i - local_offset) index_recv in
    do _ <- check (forallb (fun i => 0 <=? i) index_recv) EAssert;
    do _ <- check (forallb (fun i => i <=? zlen arr) index_recv) EAssert;
    ufunc_at arr (combine index_recv updates_recv).

  (** lines 990-1086. [orders] is what np.argsort(index) (not a stable sort)
      returned on each rank; [junk] is the content of np.empty_like. *)
  Definition reduce_elements (junk : B) (orders : list (list Z)) (arr : list (list A))
      (updates : list (list B)) (index : list (list Z)) : res (list (list A)) :=
    let P := length arr in
    do _ <- check (forallb (fun r => length (nth r index []) =? length (nth r updates []))%nat (seq 0 P)) EAbort;
    let all_local_offsets := excl_cumsum (nperproc arr) in
    do index <- mapM (fun r => np_take (nth r index []) (nth r orders [])) (seq 0 P);
    do updates <- mapM (fun r => np_take (nth r updates []) (nth r orders [])) (seq 0 P);
    let send_count := map (reduce_counts all_local_offsets) index in
    do _ <- check (forallb (fun r => sumZ (nth r send_count []) =? zlen (nth r index [])) (seq 0 P)) EAssert;
    let send_displ := map excl_cumsum send_count in
    do index_recv <- exchange 0 P index send_count send_displ;
    do updates_recv <- exchange junk P updates send_count send_displ;
    mapM (fun r => reduce_local (nth r arr []) (nth r all_local_offsets 0) (nth r index_recv []) (nth r updates_recv [])) (seq 0 P).
End Reduce.

(** the same with the updates flattened for the communication, lines 1062-1072:
    an update is a row of [nv] values *)
Definition reduce_elements_nd {A B} (op : A -> list B -> A) (junk : B) (nv : Z) (orders : list (list Z)) (arr : list (list A))
    (updates : list (list (list B))) (index : list (list Z)) : res (list (list A)) :=
  let P := length arr in
  do _ <- check (forallb (fun r => length (nth r index []) =? length (nth r updates []))%nat (seq 0 P)) EAbort;
  let all_local_offsets := excl_cumsum (nperproc arr) in
  do index <- mapM (fun r => np_take (nth r index []) (nth r orders [])) (seq 0 P);
  do updates <- mapM (fun r => np_take (nth r updates []) (nth r orders [])) (seq 0 P);
  let send_count := map (reduce_counts all_local_offsets) index in
  do _ <- check (forallb (fun r => sumZ (nth r send_count []) =? zlen (nth r index [])) (seq 0 P)) EAssert;
  let send_displ := map excl_cumsum send_count in
  let recv_count := alltoall P send_count in
  let recv_displ := map excl_cumsum recv_count in
  do index_recv <- exchange 0 P index send_count send_displ;
  do flat <- alltoallv P (map (@concat B) updates) (map (scale nv) send_count) (map (scale nv) send_displ)
               (map (fun c => repeat junk (Z.to_nat (nv * sumZ c))) recv_count) (map (scale nv) recv_count) (map (scale nv) recv_displ);
  let updates_recv := spmd P (fun r => rows_of nv (sumZ (nth r recv_count [])) (nth r flat [])) in
  mapM (fun r => reduce_local op (nth r arr []) (nth r all_local_offsets 0) (nth r index_recv []) (nth r updates_recv [])) (seq 0 P).

(** *** parallel_bincount *)

(** position of the first element equal to [v]; only used for values of [l] *)
Fixpoint first_index (l : list Z) (v : Z) : Z :=
  match l with [] => 0 | x :: l' => if x =? v then 0 else 1 + first_index l' v end.

(** np.unique(x, return_index=True, return_counts=True) as a list of
    (value, (first index, count)) *)
Definition np_unique_index (x : list Z) : list (Z * (Z * Z)) :=
  map (fun vc => (fst vc, (first_index x (fst vc), snd vc))) (np_unique ZOrd x).

Section Bincount.
  (** the type of the weights with its addition; numpy's floating point addition
      is not associative, so the theorems apply to exact arithmetic *)
  Context {W : Type}.
  Variables (add : W -> W -> W) (zero one : W).

  (** np.sum *)
  Definition wsum (l : list W) : W := fold_left add l zero.

  (** lines 1145-1156 on one rank; [order] is the result of np.argsort(x) *)
  Definition local_bins (x : list Z) (weights : list W) (order : list Z) : res (list Z * list W) :=
    do x <- np_take x order;
    do weights <- np_take weights order;
    let u := np_unique_index x in
    Ok (map fst u, map (fun v => let '(offset, length) := snd v in wsum (zslice weights offset (offset + length))) u).

  Definition amaxZ (l : list Z) : Z := match l with [] => 0 | x :: l' => fold_left Z.max l' x end.

  (** lines 1092-1161. [sort1 r] and [sort2 r] are what np.argsort returns on rank
      [r] in parallel_bincount and in reduce_elements *)
  Definition parallel_bincount (junk : W) (sort1 sort2 : nat -> list Z -> list Z) (x : list (list Z)) (weights : option (list (list W)))
      (minlength : option Z) (result : option (list (list W))) : res (list (list W)) :=
    let P := length x in
    (* lines 1120-1126 *)
    let x_max := amaxZ (map amaxZ x) in
    let total_nr_bins := x_max + 1 in
    let total_nr_bins := match minlength with Some m => Z.max total_nr_bins m | None => total_nr_bins end in
    (* lines 1129-1139; np.zeros with a negative size is a ValueError *)
    do result <- match result with
                 | None =>
                     do _ <- check (forallb (fun n => 0 <=? n) (even_sizes total_nr_bins P)) EValue;
                     Ok (map (fun n => repeat zero (Z.to_nat n)) (even_sizes total_nr_bins P))
                 | Some res => if sumZ (nperproc res) <? total_nr_bins then Err EValue else Ok res
                 end;
    let weights := match weights with Some w => w | None => map (fun l => repeat one (length l)) x end in
    do bins <- mapM (fun r => local_bins (nth r x []) (nth r weights []) (sort1 r (nth r x []))) (seq 0 P);
    let unique_x := map fst bins in
    reduce_elements add junk (spmd P (fun r => sort2 r (nth r unique_x []))) result (map snd bins) unique_x.
End Bincount.
