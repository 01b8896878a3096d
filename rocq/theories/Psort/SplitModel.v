(** Model of weighted_median and find_splitting_points
    (/repo/python/virgo/mpi/parallel_sort.py:351-504). *)
From Coq Require Import QArith.
From Verif.Base Require Import Prelude Order.
From Verif.Mpi Require Import CommModel.
Local Open Scope Z_scope.

(** *** weighted_median, parallel_sort.py:351-368, with exact rational weights *)

Definition sumQ (l : list Q) : Q := fold_right Qplus 0%Q l.
Fixpoint cumsumQ_from (acc : Q) (l : list Q) : list Q :=
  match l with [] => [] | x :: l' => (acc + x)%Q :: cumsumQ_from (acc + x)%Q l' end.
Definition cumsumQ (l : list Q) : list Q := cumsumQ_from 0%Q l.

Definition weighted_median {A} (O : TOrd A) (arr : list A) (weight : list Q) : res A :=
  (* lines 357-359 *)
  let idx := argsort O arr in
  do arr <- np_take arr idx;
  do weight <- np_take weight idx;
  (* line 361 *)
  let tot := sumQ weight in
  let weight := map (fun w => (w / tot)%Q) weight in
  (* line 363 *)
  let wbefore := zipwith Qminus (cumsumQ weight) weight in
  (* line 365 *)
  let wafter := map (fun c => (1 - c)%Q) (cumsumQ weight) in
  (* lines 367-368: an empty selection is an IndexError *)
  let ind := zipwith (fun b a => Qle_bool b (1#2) && Qle_bool a (1#2)) wbefore wafter in
  match np_mask arr ind with v :: _ => Ok v | [] => Err EIndex end.

(** *** find_splitting_points *)
Section Split.
  Context {A : Type} (Od : TOrd A).
  (** value that stands for the assignments of 0.0 to elements of the arrays *)
  Variable zero : A.
  (** the weighted median used at lines 451 and 463, its weights and how they are
      computed from the number of active elements here and everywhere (line 440) *)
  Variable W : Type.
  Variable wzero : W.
  Variable weight_of : Z -> Z -> W.
  Variable wmedian : list A -> list W -> res A.

  (** State of the search for one requested rank. The entries of [done],
      [res_median], [res_min_rank] and [res_max_rank] are computed by every MPI
      rank from the results of collectives, so they are the same everywhere and
      are kept once; [imin] and [imax] have one entry per MPI rank. *)
  Record track : Type := {
    t_r : Z;              (** requested global rank *)
    t_done : bool;
    t_imin : list Z;
    t_imax : list Z;
    t_median : A;
    t_min_rank : Z;
    t_max_rank : Z
  }.

  Definition arr_at (arrs : list (list A)) (p : nat) : list A := nth p arrs [].

  (** parallel_sort.py:411-423 *)
  Definition track_init (arrs : list (list A)) (r : Z) : track :=
    {| t_r := r; t_done := false;
       t_imin := map (fun _ => 0) arrs;
       t_imax := map (fun a => zlen a - 1) arrs;
       t_median := zero; t_min_rank := 0; t_max_rank := 0 |}.

  (** line 434: size of the active range on MPI rank p *)
  Definition nlocal (t : track) (p : nat) : Z :=
    Z.max 0 (nth p (t_imax t) 0 - nth p (t_imin t) 0 + 1).

  (** lines 437-443, on MPI rank p: (local_median[i], local_weight[i]) *)
  Definition local_estimate (arrs : list (list A)) (t : track) (p : nat) : res (A * W) :=
    let P := length arrs in
    let nactive_sum := sumZ (spmd P (nlocal t)) in
    let n := nlocal t p in
    if (0 <? n) && negb (t_done t) then
      do m <- py_nth (arr_at arrs p) (nth p (t_imin t) 0 + n / 2);
      Ok (m, weight_of n nactive_sum)
    else Ok (zero, wzero).

  (** One rank's column of medians and weights: what gather_to_2d_array (lines
      447-448) or the two Alltoall calls (lines 459-460) bring together for the
      requested rank of track t. *)
  Definition column (arrs : list (list A)) (t : track) : res (list (A * W)) :=
    mapM (local_estimate arrs t) (seq 0 (length arrs)).

  (** lines 445-468: est_median[i]. The branches differ in who computes it and in
      the placeholder used once the rank is found. *)
  Definition estimate (nranks : nat) (arrs : list (list A)) (t : track) : res A :=
    do col <- column arrs t;
    if t_done t then
      Ok (if (length arrs <? nranks)%nat then zero else fst (hd (zero, wzero) col))
    else wmedian (map fst col) (map snd col).

  (** lines 478-500 for one requested rank that is not done; [min_rank] and
      [max_rank] as at lines 481-482, [ifirst]/[ilast] by MPI rank *)
  Definition track_update (t : track) (est : A) (fsum lsum : Z) (ifirst ilast : list Z) : track :=
    let min_rank := fsum in
    let max_rank := lsum - 1 in
    let found := (min_rank <=? t_r t) && (t_r t <=? max_rank) in
    {| t_r := t_r t;
       t_done := if found then true else t_done t;
       t_imin := if max_rank <? t_r t then zipwith Z.max (t_imin t) ilast else t_imin t;
       t_imax := if t_r t <? min_rank then zipwith Z.min (t_imax t) (map (fun x => x - 1) ifirst) else t_imax t;
       t_median := if found then est else t_median t;
       t_min_rank := if found then min_rank else t_min_rank t;
       t_max_rank := if found then max_rank else t_max_rank t |}.

  (** the loop at lines 478-500; [j] counts the ranks that were not done. Columns
      of ifirst and ilast are [nth j] of every MPI rank's array. *)
  Fixpoint update_all (tracks : list track) (est : list A) (j : nat)
      (fsum lsum : list Z) (ifirst ilast : list (list Z)) : list track :=
    match tracks, est with
    | t :: tracks', e :: est' =>
        if t_done t then t :: update_all tracks' est' j fsum lsum ifirst ilast
        else track_update t e (nth j fsum 0) (nth j lsum 0)
               (map (fun row => nth j row 0) ifirst) (map (fun row => nth j row 0) ilast)
             :: update_all tracks' est' (S j) fsum lsum ifirst ilast
    | _, _ => []
    end.

  (** one iteration of the while loop, lines 431-500 *)
  Definition split_step (arrs : list (list A)) (tracks : list track) : res (list track) :=
    do est <- mapM (estimate (length tracks) arrs) tracks;
    let active := np_mask est (map (fun t => negb (t_done t)) tracks) in
    (* lines 471-476 *)
    let ifirst := map (fun a => map (searchsorted_left Od a) active) arrs in
    let ilast := map (fun a => map (searchsorted_right Od a) active) arrs in
    let column_sum (m : list (list Z)) := spmd (length active) (fun j => sumZ (map (fun row => nth j row 0) m)) in
    Ok (update_all tracks est 0 (column_sum ifirst) (column_sum ilast) ifirst ilast).

  (** the while loop, line 430 *)
  Fixpoint split_loop (fuel : nat) (arrs : list (list A)) (tracks : list track) : res (list track) :=
    if existsb (fun t => negb (t_done t)) tracks then
      match fuel with
      | O => Err EFuel
      | S fuel' => do tracks' <- split_step arrs tracks; split_loop fuel' arrs tracks'
      end
    else Ok tracks.

  (** parallel_sort.py:386-504; the result for each requested rank is
      (res_median, res_min_rank, res_max_rank) *)
  Definition find_splitting_points (fuel : nat) (arrs : list (list A)) (r : list Z) : res (list (A * Z * Z)) :=
    do tracks <- split_loop fuel arrs (map (track_init arrs) r);
    Ok (map (fun t => (t_median t, t_min_rank t, t_max_rank t)) tracks).
End Split.

Arguments t_r {A} t. Arguments t_done {A} t. Arguments t_imin {A} t. Arguments t_imax {A} t.
Arguments t_median {A} t. Arguments t_min_rank {A} t. Arguments t_max_rank {A} t.

(** the instance that the code uses, with exact weights *)
Definition q_weight (n nactive_sum : Z) : Q := (inject_Z n / inject_Z nactive_sum)%Q.
Definition find_splitting_points_exact {A} (O : TOrd A) (zero : A) :=
  find_splitting_points O zero Q 0%Q q_weight (weighted_median O).
