(** Specification vocabulary for my_alltoallv: no reference to the implementation. *)
From Verif.Base Require Import Prelude.

(** entry (i,j) of a table of per-rank arrays *)
Definition entry (m : list (list Z)) (i j : nat) : Z := nth j (nth i m []) 0.

(** A legal call: rank i announces for rank j the count that j expects from i;
    send slices lie inside the send buffers, receive slices lie inside the
    receive buffers and are pairwise disjoint. *)
Record legal_call {A} (P : nat) (sbuf : list (list A)) (sc sd : list (list Z))
    (rbuf : list (list A)) (rc rd : list (list Z)) : Prop := {
  lc_sbuf : length sbuf = P;
  lc_rbuf : length rbuf = P;
  lc_counts : forall i j, (i < P)%nat -> (j < P)%nat ->
      entry sc i j = entry rc j i /\ 0 <= entry sc i j;
  lc_send : forall i j, (i < P)%nat -> (j < P)%nat ->
      entry sc i j = 0 \/
      0 <= entry sd i j /\ entry sd i j + entry sc i j <= Z.of_nat (length (nth i sbuf []));
  lc_recv : forall i j, (i < P)%nat -> (j < P)%nat ->
      entry rc i j = 0 \/
      0 <= entry rd i j /\ entry rd i j + entry rc i j <= Z.of_nat (length (nth i rbuf []));
  lc_disjoint : forall r i j x, (r < P)%nat -> (i < P)%nat -> (j < P)%nat -> i <> j ->
      entry rd r i <= x < entry rd r i + entry rc r i ->
      entry rd r j <= x < entry rd r j + entry rc r j -> False
}.

(** What the receive buffers must contain afterwards. *)
Record delivered {A} (P : nat) (sbuf : list (list A)) (sd : list (list Z))
    (rbuf : list (list A)) (rc rd : list (list Z)) (final : list (list A)) : Prop := {
  dl_ranks : length final = P;
  dl_length : forall j, (j < P)%nat -> length (nth j final []) = length (nth j rbuf []);
  (** element t of the slice that rank j set aside for rank i *)
  dl_data : forall i j t, (i < P)%nat -> (j < P)%nat -> 0 <= t < entry rc j i ->
      nth_error (nth j final []) (Z.to_nat (entry rd j i + t)) =
      nth_error (nth i sbuf []) (Z.to_nat (entry sd i j + t));
  (** everything else is untouched *)
  dl_frame : forall j x, (j < P)%nat ->
      (forall i, (i < P)%nat -> ~ (entry rd j i <= Z.of_nat x < entry rd j i + entry rc j i)) ->
      nth_error (nth j final []) x = nth_error (nth j rbuf []) x
}.
