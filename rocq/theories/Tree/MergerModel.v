(** Model of match_halos and consistent_match
    (/repo/python/virgo/mpi/merger_tree.py:8-165). *)
From Verif.Base Require Import Prelude Order.
From Verif.Mpi Require Import CommModel.
From Verif.Psort Require Import MoveModel MatchModel UniqueModel.
Local Open Scope Z_scope.

(** numpy's order on the structured dtype of grnr_pair: lexicographic *)
Definition pair_ord {A B} (O : TOrd A) (Q : TOrd B) : TOrd (A * B).
Proof.
  refine {| leb := pair_leb O Q |}; unfold pair_leb.
  - intros [a b]. cbn. rewrite eqb_refl. apply leb_refl.
  - intros [a b] [c d]; cbn. destruct (eqb O a c) eqn:E.
    + apply eqb_eq in E. subst. rewrite eqb_refl. intros H1 H2. f_equal. now apply (leb_antisym _ Q).
    + intros H1 H2. destruct (eqb O c a) eqn:E2; [apply eqb_eq in E2; subst; rewrite eqb_refl in E; discriminate|].
      pose proof (leb_antisym _ O _ _ H1 H2). subst. rewrite eqb_refl in E. discriminate.
  - intros [a b] [c d] [e f]; cbn. destruct (eqb O a c) eqn:E1.
    + apply eqb_eq in E1. subst. destruct (eqb O c e) eqn:E2; [apply leb_trans | auto].
    + destruct (eqb O c e) eqn:E2.
      * apply eqb_eq in E2. subst. rewrite E1. auto.
      * intros H1 H2. destruct (eqb O a e) eqn:E3.
        -- apply eqb_eq in E3. subst. pose proof (leb_antisym _ O _ _ H1 H2). subst. rewrite eqb_refl in E1. discriminate.
        -- eapply leb_trans; eassumption.
  - intros [a b] [c d]; cbn. destruct (eqb O a c) eqn:E1.
    + apply eqb_eq in E1. subst. rewrite eqb_refl. apply leb_total.
    + destruct (eqb O c a) eqn:E2; [apply eqb_eq in E2; subst; rewrite eqb_refl in E1; discriminate|]. apply leb_total.
Defined.

(** lines 68-72: rank that collects the matches of halo [g] *)
Definition destination (P : nat) (halos_per_rank g : Z) : Z :=
  if 0 <? halos_per_rank then Z.min (g / halos_per_rank) (Z.of_nat P - 1) else Z.of_nat P - 1.

(** line 80: np.bincount(destination, minlength=comm_size), all destinations being ranks *)
Definition dest_counts (P : nat) (dest : list Z) : list Z :=
  spmd P (fun j => zlen (filter (fun x => x =? Z.of_nat j) dest)).

(** lines 108-124: one received pair; the state is (matched_grnr2, matched_count) *)
Definition match_step (local_offset local_size : Z) (st : list Z * list Z) (rec : (Z * Z) * Z) : res (list Z * list Z) :=
  let '((g1, g2), count) := rec in
  let '(matched_grnr2, matched_count) := st in
  let local_halo_nr := g1 - local_offset in
  do _ <- check (0 <=? local_halo_nr) EAssert;
  do _ <- check (local_halo_nr <? local_size) EAssert;
  do c <- py_nth matched_count local_halo_nr;
  do m <- py_nth matched_grnr2 local_halo_nr;
  let k := Z.to_nat local_halo_nr in
  if (c <? count) || ((count =? c) && (g2 <? m))
  then Ok (set_nth matched_grnr2 k g2, set_nth matched_count k count)
  else Ok st.

Fixpoint match_loop (local_offset local_size : Z) (st : list Z * list Z) (recs : list ((Z * Z) * Z)) : res (list Z * list Z) :=
  match recs with
  | [] => Ok st
  | rec :: recs' => do st' <- match_step local_offset local_size st rec; match_loop local_offset local_size st' recs'
  end.

Section MatchHalos.
  Context {I : Type} (Od : TOrd I).
  Variable zero_id : I.

  (** lines 40-57: the pairs (grnr1, grnr2) of the particles in halos of both snapshots *)
  Definition halo_pairs (fuel : nat) (junk_id : I) (grnr1 : list (list Z)) (ids1 : list (list I))
      (grnr2 : list (list Z)) (ids2 : list (list I)) : res (list (list (Z * Z))) :=
    let P := length ids1 in
    do snap2_id_index <- parallel_match Od zero_id fuel junk_id false ids1 ids2;
    let matched := map (map (fun i => 0 <=? i)) snap2_id_index in
    do fetched <- fetch_elements 0 grnr2 (spmd P (fun r => np_mask (nth r snap2_id_index []) (nth r matched []))) None;
    Ok (spmd P (fun r =>
      let g2 := np_mask_put (repeat (-1) (length (nth r ids1 []))) (nth r matched []) (nth r fetched []) in
      filter (fun p => (0 <=? fst p) && (0 <=? snd p)) (combine (nth r grnr1 []) g2))).

  (** lines 8-128; [nlocal] holds local_nr_halos of every rank *)
  Definition match_halos (fuel : nat) (junk_id : I) (junk : Z) (grnr1 : list (list Z)) (ids1 : list (list I))
      (grnr2 : list (list Z)) (ids2 : list (list I)) (nlocal : list Z) : res (list (list Z)) :=
    let P := length ids1 in
    do grnr_pair <- halo_pairs fuel junk_id grnr1 ids1 grnr2 ids2;
    do uc <- parallel_unique (pair_ord ZOrd ZOrd) (0, 0) fuel (junk, junk) false true grnr_pair;
    let '(unique_grnr, unique_grnr_count) := uc in
    (* lines 67-77 *)
    let total_nr_halos := sumZ nlocal in
    let halos_per_rank := total_nr_halos / Z.of_nat P in
    let local_size := spmd P (fun r => if (r =? P - 1)%nat then halos_per_rank + total_nr_halos mod Z.of_nat P else halos_per_rank) in
    do _ <- check (sumZ local_size =? total_nr_halos) EAssert;
    (* lines 80-98 *)
    let send_count := map (fun u => dest_counts P (map (fun p => destination P halos_per_rank (fst p)) u)) unique_grnr in
    let send_offset := map excl_cumsum send_count in
    do unique_grnr_recv <- exchange (junk, junk) P unique_grnr send_count send_offset;
    do unique_grnr_count_recv <- exchange junk P unique_grnr_count send_count send_offset;
    (* lines 101-124 *)
    do matched <- mapM (fun r =>
        let n := nth r local_size 0 in
        do st <- match_loop (Z.of_nat r * halos_per_rank) n (repeat (-1) (Z.to_nat n), repeat 0 (Z.to_nat n))
                   (combine (nth r unique_grnr_recv []) (nth r unique_grnr_count_recv []));
        Ok (fst st)) (seq 0 P);
    (* lines 127-128 *)
    repartition junk matched nlocal.
End MatchHalos.

(** lines 131-165 *)
Definition consistent_match (match_index_12 match_index_21 : list (list Z)) : res (list (list Z)) :=
  let P := length match_index_12 in
  let local_halo_offset := excl_cumsum (nperproc match_index_12) in
  let has_match := map (map (fun i => 0 <=? i)) match_index_12 in
  do fetched <- fetch_elements 0 match_index_21 (spmd P (fun r => np_mask (nth r match_index_12 []) (nth r has_match []))) None;
  Ok (spmd P (fun r =>
    let n := length (nth r match_index_12 []) in
    let match_back := np_mask_put (repeat (-1) n) (nth r has_match []) (nth r fetched []) in
    let local_halo_index := zseq (nth r local_halo_offset 0) n in
    zipwith (fun a b => if a =? b then 1 else 0) match_back local_halo_index)).
