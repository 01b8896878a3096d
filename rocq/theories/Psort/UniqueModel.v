(** Model of parallel_unique (/repo/python/virgo/mpi/parallel_sort.py:880-978). *)
From Coq Require Import QArith.
From Verif.Base Require Import Prelude Order.
From Verif.Mpi Require Import CommModel.
From Verif.Psort Require Import MoveModel SplitModel SortModel.
Local Open Scope Z_scope.

Section Unique.
  Context {A : Type} (Od : TOrd A).
  Variable zero : A.

  (** runs of equal elements with their lengths *)
  Fixpoint rle (l : list A) : list (A * Z) :=
    match l with
    | [] => []
    | x :: l' =>
        match rle l' with
        | (y, n) :: m => if eqb Od x y then (y, n + 1) :: m else (x, 1) :: (y, n) :: m
        | [] => [(x, 1)]
        end
    end.
  (** np.unique(l, return_counts=True) as a list of (value, count) *)
  Definition np_unique (l : list A) : list (A * Z) := rle (sort_by Od (fun x => x) l).

  (** lines 940-943: sum of the counts of the ranks after this one whose first
      value is [x]; [firsts] are their (first value, count) in rank order *)
  Fixpoint later_counts (firsts : list (A * Z)) (x : A) : Z :=
    match firsts with
    | (y, n) :: firsts' => if eqb Od y x then n + later_counts firsts' x else 0
    | [] => 0
    end.

  (** [local_count[-1] += k] and [local_count[0] = 0] *)
  Definition add_last (u : list (A * Z)) (k : Z) : list (A * Z) :=
    match rev u with (x, n) :: m => rev m ++ [(x, n + k)] | [] => [] end.
  Definition zero_first (u : list (A * Z)) : list (A * Z) :=
    match u with (x, _) :: m => (x, 0) :: m | [] => [] end.

  (** lines 939-952 on rank [r] of the communicator with data *)
  Definition unique_merge (u : list (A * Z)) (firsts lasts : list (A * Z)) (r : nat) : res (list (A * Z)) :=
    do mylast <- py_nth lasts (Z.of_nat r);
    let u := add_last u (later_counts (skipn (S r) firsts) (fst mylast)) in
    do same <- (if (0 <? r)%nat then
                  do f <- py_nth firsts (Z.of_nat r);
                  do l <- py_nth lasts (Z.of_nat r - 1);
                  Ok (eqb Od (fst f) (fst l))
                else Ok false);
    let u := if same then zero_first u else u in
    Ok (filter (fun p => 0 <? snd p) u).

  (** lines 921-952: the ranks with data *)
  Definition unique_nonempty (fuel : nat) (junk : A) (arr_sorted : bool) (arrs : list (list A)) : res (list (list (A * Z))) :=
    do arrs <- (if arr_sorted then Ok arrs
                else do si <- parallel_sort_exact Od zero fuel junk arrs; Ok (fst si));
    let u := map np_unique arrs in
    do firsts <- mapM (fun l => py_nth l 0) u;
    do lasts <- mapM (fun l => py_nth l (-1)) u;
    mapM (fun r => unique_merge (nth r u []) firsts lasts r) (seq 0 (length arrs)).

  (** lines 962-966: [n] split over [P] ranks *)
  Definition even_sizes (n : Z) (P : nat) : list Z :=
    spmd P (fun r => n / Z.of_nat P + (if Z.of_nat r <? n mod Z.of_nat P then 1 else 0)).

  (** the whole function: (values, counts) on every rank *)
  Definition parallel_unique (fuel : nat) (junk : A) (arr_sorted repartition_output : bool) (d : list (list A))
      : res (list (list A) * list (list Z)) :=
    do out <- unique_nonempty fuel junk arr_sorted (filter nonempty d);
    let out := unsplit d out in
    let local_unique := map (map fst) out in
    let local_count := map (map snd) out in
    if repartition_output then
      let total_nr_unique := sumZ (map zlen local_unique) in
      let ndesired := even_sizes total_nr_unique (length d) in
      do _ <- check (sumZ ndesired =? total_nr_unique) EAssert;
      do u <- repartition junk local_unique ndesired;
      do c <- repartition 0 local_count ndesired;
      Ok (u, c)
    else Ok (local_unique, local_count).
End Unique.
