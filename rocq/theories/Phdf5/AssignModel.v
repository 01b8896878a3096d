(** Model of assign_files (/repo/python/virgo/mpi/parallel_hdf5.py:282-294). *)
From Verif.Base Require Import Prelude NdArray.
Local Open Scope Z_scope.

(** lines 290-291: files_on_rank[(i*step) % nr_ranks] += 1 for i in range(remainder) *)
Definition spread (nr_ranks step : Z) (files : list Z) (remainder : nat) : list Z :=
  fold_left (fun f i => upd (Z.to_nat ((Z.of_nat i * step) mod nr_ranks)) (Z.add 1) f) (seq 0 remainder) files.

Definition assign_files (nr_files nr_ranks : Z) : res (list Z) :=
  do _ <- check (0 <=? nr_ranks) EValue;
  do _ <- check (negb (nr_ranks =? 0)) EZeroDiv;
  let files_on_rank := repeat (nr_files / nr_ranks) (Z.to_nat nr_ranks) in
  let remainder := nr_files mod nr_ranks in
  let files_on_rank := if 0 <? remainder
    then spread nr_ranks (Z.max (nr_files / (remainder + 1)) 1) files_on_rank (Z.to_nat remainder)
    else files_on_rank in
  do _ <- check (sumZ files_on_rank =? nr_files) EAssert;
  Ok files_on_rank.
