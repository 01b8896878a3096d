(** Properties C01-C04: my_alltoallv and sendrecv
    (/repo/python/virgo/mpi/parallel_sort.py:37-129, 142-191). *)
From Verif.Base Require Import Prelude.
From Verif.Mpi Require Import CommModel AlltoallvModel AlltoallvSpec AlltoallvProofs.

(** C01. Every rank's loop nest terminates ([fuel] bounds the number of trips of
    each loop), the exchange can be completed, and whenever it has completed the
    receive buffers are as specified by [delivered]. *)
Theorem C01_my_alltoallv_delivers :
  forall (A : Type) (P : nat) (nchunk : Z) (sbuf : list (list A)) sc sd rbuf rc rd fuel,
  legal_call P sbuf sc sd rbuf rc rd -> 1 <= nchunk -> (P <= fuel)%nat ->
  (forall i j, (i < P)%nat -> (j < P)%nat -> entry sc i j <= Z.of_nat fuel) ->
  exists progs, mapM (hypercube_ops fuel nchunk P sc sd rc rd) (seq 0 P) = Ok progs /\
    (exists sched c, runs sbuf (init_config progs rbuf) sched c /\ finished c = true) /\
    forall sched c, runs sbuf (init_config progs rbuf) sched c -> finished c = true ->
      delivered P sbuf sd rbuf rc rd (map rs_buf c).
Proof. exact @hypercube_delivers. Qed.
Print Assumptions C01_my_alltoallv_delivers.

(** The bulk-synchronous meaning [alltoallv], used by the models of the other
    routines, is the same function. *)
Theorem C01_bulk_synchronous_meaning :
  forall (A : Type) (P : nat) (sbuf : list (list A)) sc sd rbuf rc rd,
  legal_call P sbuf sc sd rbuf rc rd ->
  exists final, alltoallv P sbuf sc sd rbuf rc rd = Ok final /\ delivered P sbuf sd rbuf rc rd final.
Proof. exact @bsp_delivered. Qed.
Print Assumptions C01_bulk_synchronous_meaning.

(** C02. In every configuration reachable under any schedule: the number of
    exchanges so far is bounded, no exchange that can complete is a truncation
    error, the call has finished on all ranks or some pair of ranks can complete
    an exchange, and finished runs all have the same buffers. *)
Theorem C02_no_deadlock_and_schedule_independent :
  forall (A : Type) (P : nat) (nchunk : Z) (sbuf : list (list A)) sc sd rbuf rc rd fuel,
  legal_call P sbuf sc sd rbuf rc rd -> 1 <= nchunk -> (P <= fuel)%nat ->
  (forall i j, (i < P)%nat -> (j < P)%nat -> entry sc i j <= Z.of_nat fuel) ->
  exists progs, mapM (hypercube_ops fuel nchunk P sc sd rc rd) (seq 0 P) = Ok progs /\
    forall sched c, runs sbuf (init_config progs rbuf) sched c ->
      (length sched <= length (concat progs))%nat /\
      (forall p q, rendezvous sbuf c p q <> Some None) /\
      (finished c = true \/ exists p q c', rendezvous sbuf c p q = Some (Some c')) /\
      (forall sched' c', runs sbuf (init_config progs rbuf) sched' c' ->
         finished c = true -> finished c' = true -> map rs_buf c = map rs_buf c').
Proof. exact @hypercube_no_deadlock. Qed.
Print Assumptions C02_no_deadlock_and_schedule_independent.

(** Finding: an element type larger than 100 MB makes nchunk = 0 (line 53) and a
    rank with something to send never leaves the while loop. *)
Theorem C02_zero_chunk_diverges :
  forall fuel grp k peer soff ls roff lr, 0 < ls -> 0 <= lr ->
  chunk_loop fuel 0 grp k peer soff ls roff lr = Err EFuel.
Proof. exact chunk_loop_zero_diverges. Qed.
Print Assumptions C02_zero_chunk_diverges.

(** C03. The non-blocking method: all requests match up, and delivering the
    messages in any order gives the buffers of any completed hypercube run. *)
Theorem C03_async_same_result :
  forall (A : Type) (P : nat) (nchunk : Z) (sbuf : list (list A)) sc sd rbuf rc rd fuel progs sched c,
  legal_call P sbuf sc sd rbuf rc rd -> 1 <= nchunk -> (P <= fuel)%nat ->
  (forall i j, (i < P)%nat -> (j < P)%nat -> entry sc i j <= Z.of_nat fuel) ->
  mapM (hypercube_ops fuel nchunk P sc sd rc rd) (seq 0 P) = Ok progs ->
  runs sbuf (init_config progs rbuf) sched c -> finished c = true ->
  exists ts, async_transfers fuel nchunk P sbuf sc sd rc rd = Ok ts /\
    forall ts', Permutation ts ts' -> deliver_all rbuf ts' = Ok (map rs_buf c).
Proof. exact @async_same. Qed.
Print Assumptions C03_async_same_result.

(** C04. Two ranks calling sendrecv with each other swap their buffers. *)
Theorem C04_sendrecv_swaps :
  forall (A : Type) fuel nchunk (sendA sendB recvA recvB : list A), 1 <= nchunk ->
  zlen sendB <= zlen recvA -> zlen sendA <= zlen recvB -> Z.max (zlen sendA) (zlen sendB) <= Z.of_nat fuel ->
  sendrecv fuel nchunk sendA recvA sendB recvB =
  Ok (sendB ++ skipn (length sendB) recvA, sendA ++ skipn (length sendA) recvB).
Proof. exact @sendrecv_ok. Qed.
Print Assumptions C04_sendrecv_swaps.

(** *** A concrete case: three ranks (not a power of two), chunks of two elements,
    counts from 0 to 5, gaps in the receive buffers, receive slices out of order. *)
Definition ex_sbuf : list (list nat) := [[1;2;3;4;5;6;7]; []; [21;22;23]]%nat.
Definition ex_sc : list (list Z) := [[1;5;0]; [0;0;0]; [2;1;0]].
Definition ex_sd : list (list Z) := [[0;1;-1]; [0;0;0]; [1;0;7]].
Definition ex_rbuf : list (list nat) := [[0;0;0;0;0]; [0;0;0;0;0;0;0]; []]%nat.
Definition ex_rc : list (list Z) := [[1;0;2]; [5;0;1]; [0;0;0]].
Definition ex_rd : list (list Z) := [[4;0;1]; [2;0;0]; [0;0;0]].

Example ex_legal : legal_call 3 ex_sbuf ex_sc ex_sd ex_rbuf ex_rc ex_rd.
Proof. apply valid_legal; reflexivity. Qed.

Example ex_bound : forall i j, (i < 3)%nat -> (j < 3)%nat -> entry ex_sc i j <= Z.of_nat 5.
Proof. intros i j Hi Hj. destruct i as [|[|[|]]], j as [|[|[|]]]; cbv; try discriminate; lia. Qed.

Example ex_run :
  match mapM (hypercube_ops 5 2 3 ex_sc ex_sd ex_rc ex_rd) (seq 0 3) with
  | Ok progs => option_map (fun c => (finished c, map rs_buf c))
      (run_sched ex_sbuf (init_config progs ex_rbuf) [(0,0); (0,1); (1,0); (0,1); (0,2); (1,2)]%nat)
  | Err _ => None
  end = Some (true, [[0;22;23;0;1]; [21;0;2;3;4;5;6]; []]%nat).
Proof. vm_compute. reflexivity. Qed.

Example ex_sendrecv : sendrecv 10 2 [1;2;3;4;5]%nat [0;0;0]%nat [7]%nat [9;9;9;9;9;9]%nat
  = Ok ([7;0;0], [1;2;3;4;5;9])%nat.
Proof. vm_compute. reflexivity. Qed.
