(** Operational model of my_alltoallv and sendrecv
    (/repo/python/virgo/mpi/parallel_sort.py:37-129 and 142-191). *)
From Verif.Base Require Import Prelude.
From Verif.Mpi Require Import CommModel.

(** One call of comm.Sendrecv (parallel_sort.py:86-88): send
    [sendbuf[x_soff : x_soff+x_snum]] to rank [x_peer] and receive from the same
    rank into [recvbuf[x_roff : x_roff+x_rnum]]. [x_grp] and [x_chunk] record the
    values of [ngrp] and of the trip count of the while loop; they are not used
    by the semantics. *)
Record xfer : Type := {
  x_grp : nat; x_chunk : nat; x_peer : nat;
  x_soff : Z; x_snum : Z; x_roff : Z; x_rnum : Z
}.

(** parallel_sort.py:60-62: [while 2**ptask < comm_size: ptask += 1] *)
Fixpoint find_ptask (fuel : nat) (ptask comm_size : nat) : res nat :=
  if (2 ^ ptask <? comm_size)%nat then
    match fuel with O => Err EFuel | S f => find_ptask f (S ptask) comm_size end
  else Ok ptask.

(** parallel_sort.py:81-93: the while loop that moves the data for one peer in
    pieces of at most [nchunk] elements. *)
Fixpoint chunk_loop (fuel : nat) (nchunk : Z) (grp k peer : nat)
    (soff ls roff lr : Z) : res (list xfer) :=
  if (0 <? ls) || (0 <? lr) then
    match fuel with
    | O => Err EFuel
    | S f =>
      let ns := Z.min ls nchunk in
      let nr := Z.min lr nchunk in
      do rest <- chunk_loop f nchunk grp (S k) peer (soff + ns) (ls - ns) (roff + nr) (lr - nr);
      Ok ({| x_grp := grp; x_chunk := k; x_peer := peer;
             x_soff := soff; x_snum := ns; x_roff := roff; x_rnum := nr |} :: rest)
    end
  else Ok [].

(** parallel_sort.py:72-93: the sequence of Sendrecv calls made by rank
    [comm_rank] with the default "hypercube" method. *)
Definition hypercube_ops (fuel : nat) (nchunk : Z) (P : nat) (sc sd rc rd : list (list Z))
    (comm_rank : nat) : res (list xfer) :=
  do ptask <- find_ptask fuel 0 P;
  do blocks <- mapM (fun ngrp =>
      let rank := Nat.lxor comm_rank ngrp in
      if (rank <? P)%nat then
        chunk_loop fuel nchunk ngrp 0 rank
          (mat sd comm_rank rank) (mat sc comm_rank rank)
          (mat rd comm_rank rank) (mat rc comm_rank rank)
      else Ok []) (seq 0 (2 ^ ptask));
  Ok (concat blocks).

(** *** Message passing semantics of blocking Sendrecv *)
Section Semantics.
  Context {A : Type} (sbuf : list (list A)).

  (** what a rank still has to execute, and its receive buffer *)
  Record rstate : Type := { rs_todo : list xfer; rs_buf : list A }.

  (** the message sent by rank [p] executing [o] *)
  Definition message (p : nat) (o : xfer) : list A :=
    pyslice (nth p sbuf []) (x_soff o) (x_soff o + x_snum o).

  (** completion of [o] on a rank that receives [m]; a message longer than the
      posted buffer is an MPI truncation error ([None]) *)
  Definition receive (s : rstate) (o : xfer) (rest : list xfer) (m : list A) : option rstate :=
    if zlen m <=? x_rnum o then
      Some {| rs_todo := rest; rs_buf := write_at (rs_buf s) (x_roff o) m |}
    else None.

  (** Ranks [p] and [q] complete their current Sendrecv calls together. This is
      the strictest behaviour MPI permits: no message is buffered, a Sendrecv
      completes only when its partner is in the matching Sendrecv.
      [None]: not possible now. [Some None]: MPI error. *)
  Definition rendezvous (c : list rstate) (p q : nat) : option (option (list rstate)) :=
    match nth_error c p, nth_error c q with
    | Some sp, Some sq =>
      match rs_todo sp, rs_todo sq with
      | op :: tp, oq :: tq =>
        if (x_peer op =? q)%nat && (x_peer oq =? p)%nat then
          match receive sp op tp (message q oq), receive sq oq tq (message p op) with
          | Some sp', Some sq' => Some (Some (set_nth (set_nth c p sp') q sq'))
          | _, _ => Some None
          end
        else None
      | _, _ => None
      end
    | _, _ => None
    end.

  (** [runs c sched c']: starting from [c], the matched pairs of calls in [sched]
      complete in that order and lead to [c'] *)
  Inductive runs : list rstate -> list (nat * nat) -> list rstate -> Prop :=
  | runs_nil c : runs c [] c
  | runs_step c sched c' p q c'' :
      runs c sched c' -> rendezvous c' p q = Some (Some c'') ->
      runs c (sched ++ [(p, q)]) c''.
End Semantics.

(** initial configuration: every rank is at the start of its call *)
Definition init_config {A} (progs : list (list xfer)) (rbuf : list (list A)) : list (@rstate A) :=
  zipwith (fun t b => {| rs_todo := t; rs_buf := b |}) progs rbuf.

Definition finished {A} (c : list (@rstate A)) : bool :=
  forallb (fun s => match rs_todo s with [] => true | _ => false end) c.

(** *** The non-blocking variant (parallel_sort.py:94-124) *)

(** lines 99-107 / 112-120: the (offset, number) of each message of one peer *)
Fixpoint post_loop (fuel : nat) (nchunk off left : Z) : res (list (Z * Z)) :=
  if 0 <? left then
    match fuel with
    | O => Err EFuel
    | S f =>
      let n := Z.min left nchunk in
      do rest <- post_loop f nchunk (off + n) (left - n);
      Ok ((off, n) :: rest)
    end
  else Ok [].

(** A transfer: the message travels to rank [t_dst] and is stored at [t_off],
    where a receive for [t_num] elements was posted. *)
Record transfer (A : Type) : Type := { t_dst : nat; t_off : Z; t_num : Z; t_msg : list A }.
Arguments t_dst {A} t. Arguments t_off {A} t. Arguments t_num {A} t. Arguments t_msg {A} t.

(** MPI matches the k-th send from i to j with the k-th receive posted by j for
    i (non-overtaking rule). [Err EMpi]: some request can never complete. *)
Definition match_pair {A} (fuel : nat) (nchunk : Z) (sbuf : list (list A))
    (sc sd rc rd : list (list Z)) (i j : nat) : res (list (transfer A)) :=
  do sends <- post_loop fuel nchunk (mat sd i j) (mat sc i j);
  do recvs <- post_loop fuel nchunk (mat rd j i) (mat rc j i);
  do _ <- check (length sends =? length recvs)%nat EMpi;
  Ok (zipwith (fun s r => {| t_dst := j; t_off := fst r; t_num := snd r;
                             t_msg := pyslice (nth i sbuf []) (fst s) (fst s + snd s) |}) sends recvs).

Definition async_transfers {A} (fuel : nat) (nchunk : Z) (P : nat) (sbuf : list (list A))
    (sc sd rc rd : list (list Z)) : res (list (transfer A)) :=
  do ts <- mapM (fun ij => match_pair fuel nchunk sbuf sc sd rc rd (fst ij) (snd ij))
             (list_prod (seq 0 P) (seq 0 P));
  Ok (concat ts).

(** one message is stored in the receive buffer of its destination *)
Definition deliver {A} (bufs : list (list A)) (t : transfer A) : res (list (list A)) :=
  if zlen (t_msg t) <=? t_num t then
    Ok (set_nth bufs (t_dst t) (write_at (nth (t_dst t) bufs []) (t_off t) (t_msg t)))
  else Err EMpi.

(** delivery of a list of messages in the given order *)
Fixpoint deliver_all {A} (bufs : list (list A)) (ts : list (transfer A)) : res (list (list A)) :=
  match ts with
  | [] => Ok bufs
  | t :: ts' => do bufs' <- deliver bufs t; deliver_all bufs' ts'
  end.

(** *** sendrecv (parallel_sort.py:142-191) between two ranks

    [recvlen] is the number announced by the partner (line 174). The exchanges
    performed by this rank: (send offset, number, receive offset, number). *)
Definition sendrecv_ops (fuel : nat) (nchunk soff sleft roff rleft : Z) : res (list xfer) :=
  chunk_loop fuel nchunk 0 0 0 soff sleft roff rleft.

(** Both partners execute their loops in lock step; a side that has run out of
    calls while the other still waits hangs ([EMpi]). The receive buffer slice
    [recvbuf[roff:roff+nr]] is clipped by numpy at the end of the buffer; a
    message longer than the slice is a truncation error. *)
Fixpoint sendrecv_run {A} (sendA sendB : list A) (opsA opsB : list xfer) (recvA recvB : list A)
    : res (list A * list A) :=
  match opsA, opsB with
  | [], [] => Ok (recvA, recvB)
  | a :: opsA', b :: opsB' =>
    let ma := pyslice sendA (x_soff a) (x_soff a + x_snum a) in
    let mb := pyslice sendB (x_soff b) (x_soff b + x_snum b) in
    if (zlen mb <=? zlen (pyslice recvA (x_roff a) (x_roff a + x_rnum a))) &&
       (zlen ma <=? zlen (pyslice recvB (x_roff b) (x_roff b + x_rnum b))) then
      sendrecv_run sendA sendB opsA' opsB' (write_at recvA (x_roff a) mb) (write_at recvB (x_roff b) ma)
    else Err EMpi
  | _, _ => Err EMpi
  end.

Definition sendrecv {A} (fuel : nat) (nchunk : Z) (sendA recvA sendB recvB : list A)
    : res (list A * list A) :=
  do opsA <- sendrecv_ops fuel nchunk 0 (zlen sendA) 0 (zlen sendB);
  do opsB <- sendrecv_ops fuel nchunk 0 (zlen sendB) 0 (zlen sendA);
  sendrecv_run sendA sendB opsA opsB recvA recvB.
