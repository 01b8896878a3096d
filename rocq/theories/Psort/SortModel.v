(** Model of parallel_sort (/repo/python/virgo/mpi/parallel_sort.py:507-749). *)
From Coq Require Import QArith.
From Verif.Base Require Import Prelude Order.
From Verif.Mpi Require Import CommModel.
From Verif.Psort Require Import SplitModel.
Local Open Scope Z_scope.

Section Sort.
  Context {A : Type} (Od : TOrd A).
  Variable zero : A.
  Variable W : Type.
  Variable wzero : W.
  Variable weight_of : Z -> Z -> W.
  Variable wmedian : list A -> list W -> res A.

  (** *** The part executed on the ranks which have data (lines 563-731) *)

  (** lines 597-601: number of instances of every splitting value on this rank *)
  Definition nval_local (arr : list A) (val : list A) : res (list Z) :=
    mapM (fun v =>
      let first_ind := searchsorted_left Od arr v in
      let last_ind := searchsorted_right Od arr v - 1 in
      let n := last_ind - first_ind + 1 in
      let first_ind := if zlen arr <=? first_ind then zlen arr - 1 else first_ind in
      do a <- py_nth arr first_ind;
      Ok (if eqb Od a v then n else 0)) val.

  (** lines 610-615, on rank r: instances on the ranks before *)
  Definition nval_lower (nval_all : list (list Z)) (r : nat) (nval : nat) : list Z :=
    spmd nval (fun ival => if (0 <? r)%nat then sumZ (map (fun row => nth ival row 0) (firstn r nval_all)) else 0).

  (** lines 636-674: last element to send to [rank], given the index arrays *)
  Definition last_to_send (P : nat) (arr val : list A) (split_instance nval_lower : list Z) (rank : nat) : res Z :=
    if (rank <? P - 1)%nat then
      do v <- py_nth val (Z.of_nat rank + 1);
      let val_first_index := searchsorted_left Od arr v in
      let val_last_index := searchsorted_right Od arr v - 1 in
      if zlen arr - 1 <? val_first_index then Ok (zlen arr - 1)
      else
        do a <- py_nth arr val_first_index;
        if negb (eqb Od a v) then Ok (val_first_index - 1)
        else
          let val_first_instance := nth (S rank) nval_lower 0 in
          let val_last_instance := nth (S rank) nval_lower 0 + (val_last_index - val_first_index) in
          let si := nth (S rank) split_instance 0 in
          if val_last_instance <? si then Ok val_last_index
          else if si <=? val_first_instance then Ok (val_first_index - 1)
          else Ok (val_first_index + (si - val_first_instance) - 1)
    else Ok (zlen arr - 1).

  (** lines 627-678: the loop over destination ranks [rank, rank+1, ...] *)
  Fixpoint send_counts (P : nat) (arr val : list A) (nperproc split_instance nval_lower : list Z)
      (ranks : list nat) (first_to_send : Z) : res (list Z) :=
    match ranks with
    | [] => Ok []
    | rank :: ranks' =>
        if (nth rank nperproc 0 =? 0) || (zlen arr <=? first_to_send) then
          do rest <- send_counts P arr val nperproc split_instance nval_lower ranks' first_to_send;
          Ok (0 :: rest)
        else
          do last <- last_to_send P arr val split_instance nval_lower rank;
          do rest <- send_counts P arr val nperproc split_instance nval_lower ranks' (Z.max first_to_send (last + 1));
          Ok (Z.max 0 (last - first_to_send + 1) :: rest)
    end.

  (** [x[:] = y] for 1-d arrays: a ValueError unless the lengths agree (a length
      of one would be broadcast) *)
  Definition assign_all {B} (x y : list B) : res (list B) :=
    if (length x =? length y)%nat then Ok y
    else match y with [b] => Ok (map (fun _ => b) x) | _ => Err EValue end.

  (** lines 563-731 on a communicator where every rank has data. The result is
      the new content of arr and the index array of every rank. *)
  Definition sort_nonempty (fuel : nat) (junk : A) (arrs : list (list A)) : res (list (list A) * list (list Z)) :=
    let P := length arrs in
    let nperproc := nperproc arrs in
    (* 573-574 *)
    let sort_idx1 := map (argsort Od) arrs in
    do arrs <- mapM (fun r => np_take (nth r arrs []) (nth r sort_idx1 [])) (seq 0 P);
    (* 579 *)
    let split_rank := excl_cumsum nperproc in
    (* 590-591 *)
    do sp <- find_splitting_points Od zero W wzero weight_of wmedian fuel arrs split_rank;
    let val := map (fun o => fst (fst o)) sp in
    let min_rank := map (fun o => snd (fst o)) sp in
    let split_instance := zipwith Z.sub split_rank min_rank in
    (* 595-609 *)
    do nval_all <- mapM (fun r => nval_local (nth r arrs []) val) (seq 0 P);
    (* 620-678 *)
    do sc <- mapM (fun r => send_counts P (nth r arrs []) val nperproc split_instance
                              (nval_lower nval_all r (length val)) (seq 0 P) 0) (seq 0 P);
    (* 681-692 *)
    do arr_tmp <- exchange junk P arrs sc (map excl_cumsum sc);
    (* 697-699 *)
    let sort_idx2 := map (argsort Od) arr_tmp in
    do sorted <- mapM (fun r => np_take (nth r arr_tmp []) (nth r sort_idx2 [])) (seq 0 P);
    do out <- mapM (fun r => assign_all (nth r arrs []) (nth r sorted [])) (seq 0 P);
    (* 713-716 *)
    do index <- mapM (fun r => np_take
                   (map (Z.add (if (0 <? r)%nat then sumZ (firstn r nperproc) else 0)) (zseq 0 (length (nth r arrs []))))
                   (nth r sort_idx1 [])) (seq 0 P);
    (* 719-722 *)
    do index_tmp <- exchange 0 P index sc (map excl_cumsum sc);
    (* 725 *)
    do isorted <- mapM (fun r => np_take (nth r index_tmp []) (nth r sort_idx2 [])) (seq 0 P);
    do iout <- mapM (fun r => assign_all (nth r index []) (nth r isorted [])) (seq 0 P);
    Ok (out, iout).

  (** *** The whole function *)

  (** lines 551-560: the communicator made of the ranks with data, in rank order *)
  Definition nonempty {B} (l : list B) : bool := match l with [] => false | _ => true end.

  (** each rank's share of the results of the communicator with data; ranks
      without data keep their empty array and return an empty index (733-736) *)
  Fixpoint unsplit {B} (d : list (list A)) (out : list (list B)) : list (list B) :=
    match d with
    | [] => []
    | l :: d' => if nonempty l then hd [] out :: unsplit d' (tl out) else [] :: unsplit d' out
    end.

  (** (new content of arr, returned index array) on every rank; with
      return_index=False only the first part is computed *)
  Definition parallel_sort (fuel : nat) (junk : A) (d : list (list A)) : res (list (list A) * list (list Z)) :=
    do oi <- sort_nonempty fuel junk (filter nonempty d);
    Ok (unsplit d (fst oi), unsplit d (snd oi)).
End Sort.

(** the instance that the code uses, with exact weights *)
Definition parallel_sort_exact {A} (O : TOrd A) (zero : A) :=
  parallel_sort O zero Q 0%Q q_weight (weighted_median O).
