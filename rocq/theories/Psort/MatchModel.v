(** Model of parallel_match (/repo/python/virgo/mpi/parallel_sort.py:752-877). *)
From Coq Require Import QArith.
From Verif.Base Require Import Prelude Order.
From Verif.Mpi Require Import CommModel.
From Verif.Psort Require Import MoveModel SplitModel SortModel.
Local Open Scope Z_scope.

(** [l[mask] = vals] *)
Fixpoint np_mask_put {A} (l : list A) (m : list bool) (vals : list A) : list A :=
  match l, m with
  | a :: l', true :: m' =>
      match vals with v :: vals' => v :: np_mask_put l' m' vals' | [] => a :: np_mask_put l' m' [] end
  | a :: l', false :: m' => a :: np_mask_put l' m' vals
  | _, _ => l
  end.

Section Match.
  Context {A : Type} (Od : TOrd A).
  (** what np.asarray(0, dtype) gives for an empty array's minimum and maximum *)
  Variable zero : A.

  (** np.amin and np.amax, lines 802-808; the value for an empty array is [zero] *)
  Definition amin (l : list A) : A :=
    match l with [] => zero | x :: l' => fold_left (fun m y => if leb Od m y then m else y) l' x end.
  Definition amax (l : list A) : A :=
    match l with [] => zero | x :: l' => fold_left (fun m y => if leb Od y m then m else y) l' x end.

  (** lines 823-840, on one rank: (send_count, send_displ) given the sorted local
      arr1 and the gathered minima, maxima and flags *)
  Definition match_plan (P : nat) (have_arr2 : list bool) (min_on_task max_on_task : list A) (arr1_ls : list A)
      : res (list Z * list Z) :=
    let displ := map (searchsorted_left Od arr1_ls) (np_mask min_on_task have_arr2) in
    let next := map (searchsorted_right Od arr1_ls) (np_mask max_on_task have_arr2) in
    let displ := if (1 <? length (filter id have_arr2))%nat then hd 0 displ :: removelast next else displ in
    let cnt := map (fun c => if c <? 0 then 0 else c) (zipwith Z.sub next displ) in
    do _ <- check (sumZ cnt <=? zlen arr1_ls) EAssert;
    do _ <- check (forallb (fun x => 0 <=? x) displ) EAssert;
    do _ <- check (forallb (fun x => x <=? zlen arr1_ls) (zipwith Z.add displ cnt)) EAssert;
    Ok (np_mask_put (repeat 0 P) have_arr2 cnt, np_mask_put (repeat 0 P) have_arr2 displ).

  (** lines 853-861, on one rank: the index to return for one imported element *)
  Definition match_lookup (arr2_ordered : list A) (index_in : list Z) (x : A) : res Z :=
    let ptr := searchsorted_left Od arr2_ordered x in
    let ptr := if ptr <? 0 then 0 else ptr in
    let ptr := if zlen arr2_ordered <=? ptr then 0 else ptr in
    do a <- py_nth arr2_ordered ptr;
    let ptr := if negb (eqb Od a x) then -1 else ptr in
    if 0 <=? ptr then py_nth index_in ptr else Ok (-1).

  (** lines 796-877 given arr2_ordered and index_in *)
  Definition match_ordered (junk : A) (arr1 arr2_ordered : list (list A)) (index_in : list (list Z))
      : res (list (list Z)) :=
    let P := length arr1 in
    let min_on_task := map amin arr2_ordered in
    let max_on_task := map amax arr2_ordered in
    let have_arr2 := map (fun a => 0 <? zlen a) arr2_ordered in
    let idx := map (argsort Od) arr1 in
    do arr1_ls <- mapM (fun r => np_take (nth r arr1 []) (nth r idx [])) (seq 0 P);
    do plan <- mapM (fun r => match_plan P have_arr2 min_on_task max_on_task (nth r arr1_ls [])) (seq 0 P);
    let sc := map fst plan in
    let sd := map snd plan in
    do arr1_recv <- exchange junk P arr1_ls sc sd;
    do index_return <- mapM (fun r => mapM (match_lookup (nth r arr2_ordered []) (nth r index_in []))
                                        (nth r arr1_recv [])) (seq 0 P);
    let rc := alltoall P sc in
    do index_out <- alltoallv P index_return rc (map excl_cumsum rc)
                      (map (fun a => repeat (-1) (length a)) arr1) sc sd;
    Ok (spmd P (fun r => np_put (repeat 0 (length (nth r index_out []))) (nth r idx []) (nth r index_out []))).

  (** the whole function; [junk] is the content of uninitialised arrays *)
  Definition parallel_match (fuel : nat) (junk : A) (arr2_sorted : bool) (arr1 arr2 : list (list A)) : res (list (list Z)) :=
    if sumZ (nperproc arr1) =? 0 then Ok (map (fun _ => []) arr1)
    else if sumZ (nperproc arr2) =? 0 then Ok (map (fun a => repeat (-1) (length a)) arr1)
    else
      (* lines 785-795 *)
      let first_on_task := excl_cumsum (nperproc arr2) in
      let index_in := spmd (length arr2) (fun r => map (fun i => i + nth r first_on_task 0) (zseq 0 (length (nth r arr2 [])))) in
      if arr2_sorted then match_ordered junk arr1 arr2 index_in
      else
        do si <- parallel_sort_exact Od zero fuel junk arr2;
        do index_in <- fetch_elements 0 index_in (snd si) None;
        match_ordered junk arr1 (fst si) index_in.
End Match.
