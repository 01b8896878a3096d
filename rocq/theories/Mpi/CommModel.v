(** Bulk-synchronous meaning of the MPI collectives used by the package and of
    [my_alltoallv].

    A matrix of counts is a list (indexed by the rank that holds it) of rows
    (indexed by the other rank), as the [send_count] etc. arrays of
    /repo/python/virgo/mpi/parallel_sort.py. *)
From Verif.Base Require Import Prelude.

Definition mat (m : list (list Z)) (i j : nat) : Z := nth j (nth i m []) 0.

(** comm.Alltoall(send_count, recv_count): rank i receives element i of every
    rank's send array, in rank order. *)
Definition alltoall (P : nat) (m : list (list Z)) : list (list Z) :=
  spmd P (fun i => spmd P (fun j => mat m j i)).

Definition all_pairs (P : nat) (f : nat -> nat -> bool) : bool :=
  forallb (fun i => forallb (fun j => f i j) (seq 0 P)) (seq 0 P).

(** the slice [off, off+cnt) lies in a buffer of [len] elements *)
Definition slice_fits (off cnt len : Z) : bool :=
  (cnt =? 0) || ((0 <=? off) && (off + cnt <=? len)).

(** two slices have no element in common *)
Definition slices_disjoint (o1 c1 o2 c2 : Z) : bool :=
  (c1 <=? 0) || (c2 <=? 0) || (o1 + c1 <=? o2) || (o2 + c2 <=? o1).

(** The conditions under which a call of my_alltoallv is a legal MPI exchange:
    both sides agree on every count, and all slices are inside the buffers.
    Receive slices on one rank must not overlap. *)
Definition a2av_valid {A} (P : nat) (sbuf : list (list A)) (sc sd : list (list Z))
    (rbuf : list (list A)) (rc rd : list (list Z)) : bool :=
  all_pairs P (fun i j =>
    (mat sc i j =? mat rc j i) && (0 <=? mat sc i j) &&
    slice_fits (mat sd i j) (mat sc i j) (zlen (nth i sbuf [])) &&
    slice_fits (mat rd i j) (mat rc i j) (zlen (nth i rbuf []))) &&
  forallb (fun r => all_pairs P (fun i j =>
    (i =? j)%nat || slices_disjoint (mat rd r i) (mat rc r i) (mat rd r j) (mat rc r j))) (seq 0 P).

(** Meaning of my_alltoallv (parallel_sort.py:37-129): rank j's receive buffer
    gets, for each rank i, rank i's send slice for j at the receive offset for i.
    The point-to-point implementation is modelled in [AlltoallvModel] and proved
    to have this meaning. An exchange that is not legal is an error. *)
Definition alltoallv {A} (P : nat) (sbuf : list (list A)) (sc sd : list (list Z))
    (rbuf : list (list A)) (rc rd : list (list Z)) : res (list (list A)) :=
  if a2av_valid P sbuf sc sd rbuf rc rd then
    Ok (spmd P (fun j =>
      fold_left (fun buf i =>
        write_at buf (mat rd j i)
          (pyslice (nth i sbuf []) (mat sd i j) (mat sd i j + mat sc i j)))
        (seq 0 P) (nth j rbuf [])))
  else Err EMpi.

(** The idiom that surrounds most calls (e.g. parallel_sort.py:684-694): exchange
    the counts, compute receive offsets, allocate uninitialised memory ([junk])
    and call my_alltoallv. *)
Definition exchange {A} (junk : A) (P : nat) (sbuf : list (list A)) (sc sd : list (list Z))
    : res (list (list A)) :=
  let rc := alltoall P sc in
  let rd := map excl_cumsum rc in
  let rbuf := map (fun c => repeat junk (Z.to_nat (sumZ c))) rc in
  alltoallv P sbuf sc sd rbuf rc rd.
