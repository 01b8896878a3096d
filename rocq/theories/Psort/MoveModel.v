(** Model of repartition and fetch_elements
    (/repo/python/virgo/mpi/parallel_sort.py:194-347).

    [d] is the distributed array: the list, by rank, of the local arrays. The
    element type is arbitrary; for arrays with trailing dimensions an element is
    a row, and the variants ending in [_nd] model how the code flattens the rows
    ([reshape((-1,))], counts multiplied by [nvalues]) for the communication. *)
From Verif.Base Require Import Prelude Order.
From Verif.Mpi Require Import CommModel.

(** parallel_sort.py:226-236: number of elements rank [r] sends to each rank *)
Definition repartition_counts (nperproc ndesired : list Z) (P r : nat) : list Z :=
  let first_on_proc_in := excl_cumsum nperproc in
  let first_on_proc_out := excl_cumsum ndesired in
  spmd P (fun rank =>
    let ifirst := nth rank first_on_proc_out 0 in
    let ilast := ifirst + nth rank ndesired 0 - 1 in
    let ifirst' := Z.max ifirst (nth r first_on_proc_in 0) in
    let ilast' := Z.min ilast (nth r first_on_proc_in 0 + nth r nperproc 0 - 1) in
    Z.max 0 (ilast' - ifirst' + 1)).

(** parallel_sort.py:194-253 for 1-d arrays. [junk] is the content of
    np.empty_like. Every rank passes the same [ndesired]; an [ndesired] with
    fewer entries than ranks is an IndexError at line 230. *)
Definition repartition {A} (junk : A) (d : list (list A)) (ndesired : list Z) : res (list (list A)) :=
  let P := length d in
  if negb (sumZ (nperproc d) =? sumZ ndesired) then Err EAbort
  else if (length ndesired <? P)%nat then Err EIndex
  else
    let sc := spmd P (repartition_counts (nperproc d) ndesired P) in
    exchange junk P d sc (map excl_cumsum sc).

(** ndarray.reshape from 1-d to [n] rows of [nv] values *)
Definition rows_of {A} (nv : Z) (n : Z) (flat : list A) : list (list A) :=
  map (fun k => zslice flat (nv * k) (nv * (k + 1))) (zseq 0 (Z.to_nat n)).

(** parallel_sort.py:194-253 for rows of [nv] values *)
Definition repartition_nd {A} (junk : A) (nv : Z) (d : list (list (list A))) (ndesired : list Z)
    : res (list (list (list A))) :=
  let P := length d in
  if negb (sumZ (nperproc d) =? sumZ ndesired) then Err EAbort
  else if (length ndesired <? P)%nat then Err EIndex
  else
    let sc := spmd P (repartition_counts (nperproc d) ndesired P) in
    let sd := map excl_cumsum sc in
    let rc := alltoall P sc in
    let rd := map excl_cumsum rc in
    do out <- alltoallv P (map (@concat A) d) (map (scale nv) sc) (map (scale nv) sd)
                (map (fun c => repeat junk (Z.to_nat (nv * sumZ c))) rc) (map (scale nv) rc) (map (scale nv) rd);
    Ok (spmd P (fun r => rows_of nv (sumZ (nth r rc [])) (nth r out []))).

(** parallel_sort.py:303-309: number of (sorted) indexes to send to each rank *)
Definition fetch_counts (first_index_on_proc : list Z) (index : list Z) : list Z :=
  let ifirst := map (searchsorted_left ZOrd index) first_index_on_proc in
  let ilast := map (fun x => x - 1) (tl ifirst) ++ [zlen index - 1] in
  zipwith (fun l f => l - f + 1) ilast ifirst.

(** what the first half of fetch_elements (lines 291-325) leaves on each rank *)
Record fetched (A : Type) : Type := {
  f_idx : list (list Z);      (** idx: sorting index of the requests *)
  f_sc : list (list Z);       (** send_count *)
  f_values : list (list A)    (** values: the elements requested from this rank *)
}.
Arguments f_idx {A} f. Arguments f_sc {A} f. Arguments f_values {A} f.

(** parallel_sort.py:291-325 *)
Definition fetch_request {A} (d : list (list A)) (index : list (list Z)) : res (fetched A) :=
  let P := length d in
  let idx := map (argsort ZOrd) index in
  do index' <- mapM (fun r => np_take (nth r index []) (nth r idx [])) (seq 0 P);
  let first_index_on_proc := excl_cumsum (nperproc d) in
  let sc := map (fetch_counts first_index_on_proc) index' in
  do index_find <- exchange 0 P index' sc (map excl_cumsum sc);
  do values <- mapM (fun r => np_take (nth r d [])
                  (map (fun i => i - nth r first_index_on_proc 0) (nth r index_find []))) (seq 0 P);
  Ok {| f_idx := idx; f_sc := sc; f_values := values |}.

(** parallel_sort.py:344: [values_recv[idx,...] = values_recv.copy()] *)
Definition unsort {A} (values_recv : list A) (idx : list Z) : res (list A) :=
  if (length values_recv =? length idx)%nat then Ok (np_put values_recv idx values_recv) else Err EValue.

(** parallel_sort.py:257-347 for 1-d arrays. [result] is the optional output
    array of every rank; if it is [None] new arrays are allocated. *)
Definition fetch_elements {A} (junk : A) (d : list (list A)) (index : list (list Z))
    (result : option (list (list A))) : res (list (list A)) :=
  let P := length d in
  do f <- fetch_request d index;
  let rc := alltoall P (f_sc f) in
  let buffers := match result with
                 | None => map (fun i => repeat junk (length i)) index
                 | Some b => b
                 end in
  do values_recv <- alltoallv P (f_values f) rc (map excl_cumsum rc)
                      buffers (f_sc f) (map excl_cumsum (f_sc f));
  mapM (fun r => unsort (nth r values_recv []) (nth r (f_idx f) [])) (seq 0 P).

(** parallel_sort.py:257-347 for rows of [nv] values *)
Definition fetch_elements_nd {A} (junk : A) (nv : Z) (d : list (list (list A))) (index : list (list Z))
    (result : option (list (list (list A)))) : res (list (list (list A))) :=
  let P := length d in
  do f <- fetch_request d index;
  let rc := alltoall P (f_sc f) in
  let buffers := match result with
                 | None => map (fun i => repeat junk (Z.to_nat (nv * zlen i))) index
                 | Some b => map (@concat A) b
                 end in
  do flat <- alltoallv P (map (@concat A) (f_values f)) (map (scale nv) rc) (map (scale nv) (map excl_cumsum rc))
               buffers (map (scale nv) (f_sc f)) (map (scale nv) (map excl_cumsum (f_sc f)));
  mapM (fun r => unsort (rows_of nv (zlen (nth r index [])) (nth r flat [])) (nth r (f_idx f) [])) (seq 0 P).
