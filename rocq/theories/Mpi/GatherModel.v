(** Model of gather_array and allgather_array
    (/repo/python/virgo/mpi/gather_array.py:6-84). Arrays are n-dimensional; memory
    order is C order and a view is identified with its contents. *)
From Verif.Base Require Import Prelude NdArray.
Local Open Scope Z_scope.

(** lines 36-41: swapaxes(0, axis) if axis is not zero, then ascontiguousarray (which
    turns a 0-d array into a 1-d one) *)
Definition prepare {A} (axis : Z) (a : nd A) : res (nd A) :=
  let ndim := zlen (shape a) in
  if axis =? 0 then Ok (match shape a with [] => {| shape := [1%nat]; data := data a |} | _ => a end)
  else if (axis <? - ndim) || (ndim <=? axis) then Err EValue
  else Ok (swapaxes (Z.to_nat (if axis <? 0 then axis + ndim else axis)) a).

(** MPI_Gatherv at the receiving rank: the message of rank r, of exactly counts[r]
    elements, is stored at displ[r] *)
Definition gatherv {A} (out : list A) (bufs : list (list A)) (counts displ : list Z) : res (list A) :=
  if forallb (fun bc => zlen (fst bc) =? snd bc) (combine bufs counts)
  then Ok (fold_left (fun buf r => write_at buf (nth r displ 0) (nth r bufs [])) (seq 0 (length bufs)) out)
  else Err EMpi.

(** the value returned on one receiving rank, whose prepared array is [mine];
    lines 44-81 *)
Definition gather_on {A} (junk : A) (axis : Z) (ds : list (nd A)) (mine : nd A) : res (nd A) :=
  do lens <- mapM (fun a => match shape a with [] => Err EIndex | n :: _ => Ok (Z.of_nat n) end) ds;
  let ntot := sumZ lens in
  let nelements := Z.of_nat (nelem (tl (shape mine))) in
  let counts := scale nelements lens in
  let displ := scale nelements (excl_cumsum lens) in
  let out_shape := Z.to_nat ntot :: tl (shape mine) in
  do out <- gatherv (repeat junk (nelem out_shape)) (map data ds) counts displ;
  let outdata := {| shape := out_shape; data := out |} in
  let ndim := zlen out_shape in
  Ok (if axis =? 0 then outdata else swapaxes (Z.to_nat (if axis <? 0 then axis + ndim else axis)) outdata).

(** the values returned on all ranks; [root = None] is allgather_array. Ranks other
    than the root return None. *)
Definition gather_array {A} (junk : A) (root : option nat) (axis : Z) (arrs : list (nd A)) : res (list (option (nd A))) :=
  do ds <- mapM (prepare axis) arrs;
  do _ <- check (match root with None => true | Some q => (q <? length arrs)%nat end) EMpi;
  mapM (fun qd => let '(q, mine) := qd in
    match root with
    | None => do o <- gather_on junk axis ds mine; Ok (Some o)
    | Some r => if (q =? r)%nat then do o <- gather_on junk axis ds mine; Ok (Some o) else Ok None
    end) (combine (seq 0 (length arrs)) ds).
