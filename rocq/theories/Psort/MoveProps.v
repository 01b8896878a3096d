(** Property theorems C05 and C06: repartition and fetch_elements. *)
From Verif.Base Require Import Prelude.
From Verif.Psort Require Import MoveModel MoveSpec MoveProofs FetchProofs MoveFinal.

(** C05. Every legal target distribution is reached, and the global array is the same. *)
Theorem C05_repartition_preserves :
  forall (A : Type) (junk : A) (d : list (list A)) (ndesired : list Z),
  length ndesired = length d -> Forall (fun n => 0 <= n) ndesired -> fold_right Z.add 0 ndesired = total d ->
  exists out, repartition junk d ndesired = Ok out /\
    concat out = concat d /\ map (fun l => Z.of_nat (length l)) out = ndesired.
Proof. exact @repartition_main. Qed.
Print Assumptions C05_repartition_preserves.

(** C05, rows: the flattened exchange moves whole rows. *)
Theorem C05_repartition_rows :
  forall (A : Type) (junk : A) (nv : Z) (d : list (list (list A))) (ndesired : list Z),
  0 <= nv -> row_width nv d ->
  length ndesired = length d -> Forall (fun n => 0 <= n) ndesired -> fold_right Z.add 0 ndesired = total d ->
  exists out, repartition_nd junk nv d ndesired = Ok out /\
    concat out = concat d /\ map (fun l => Z.of_nat (length l)) out = ndesired.
Proof. exact @repartition_nd_main. Qed.
Print Assumptions C05_repartition_rows.

(** C05, wrong total: the call aborts. *)
Theorem C05_repartition_wrong_total_aborts :
  forall (A : Type) (junk : A) (nv : Z) (d : list (list A)) (e : list (list (list A))) (ndesired : list Z),
  (fold_right Z.add 0 ndesired <> total d -> repartition junk d ndesired = Err EAbort) /\
  (fold_right Z.add 0 ndesired <> total e -> repartition_nd junk nv e ndesired = Err EAbort).
Proof. exact @repartition_abort_main. Qed.
Print Assumptions C05_repartition_wrong_total_aborts.

(** C06. fetch_elements is indexing of the global array. *)
Theorem C06_fetch_elements_indexes :
  forall (A : Type) (junk : A) (d : list (list A)) (index : list (list Z)) (result : option (list (list A))),
  length index = length d ->
  Forall (Forall (fun i => 0 <= i < total d)) index ->
  (forall b, result = Some b -> map (@length A) b = map (@length Z) index) ->
  exists out, fetch_elements junk d index result = Ok out /\ on_all_ranks (global_at d) index out.
Proof. exact @fetch_elements_main. Qed.
Print Assumptions C06_fetch_elements_indexes.

(** C06, rows. *)
Theorem C06_fetch_elements_rows :
  forall (A : Type) (junk : A) (nv : Z) (d : list (list (list A))) (index : list (list Z))
    (result : option (list (list (list A)))),
  0 <= nv -> row_width nv d ->
  length index = length d ->
  Forall (Forall (fun i => 0 <= i < total d)) index ->
  (forall b, result = Some b -> map (@length (list A)) b = map (@length Z) index /\ row_width nv b) ->
  exists out, fetch_elements_nd junk nv d index result = Ok out /\ on_all_ranks (global_at d) index out.
Proof. exact @fetch_elements_nd_main. Qed.
Print Assumptions C06_fetch_elements_rows.

(** C06, an index past the end on any rank is an error, never a wrong value. *)
Theorem C06_fetch_elements_past_end_raises :
  forall (A : Type) (junk : A) (d : list (list A)) (index : list (list Z)) (result : option (list (list A))),
  length index = length d ->
  Forall (Forall (fun i => 0 <= i)) index -> ~ Forall (Forall (fun i => i < total d)) index ->
  fetch_elements junk d index result = Err EIndex.
Proof. exact @fetch_elements_raises_main. Qed.
Print Assumptions C06_fetch_elements_past_end_raises.

(** Finding: a negative index is neither rejected nor python indexing from the
    end: the requests are routed with offsets that do not account for it, so even
    the other requests of that rank return wrong values. Here rank 0 asks for
    elements -1, 0 and 3 of the array 10..13 and gets 11, 12 and a value from uninitialised memory. *)
Theorem C06_negative_index_refuted :
  exists (d : list (list Z)) (index : list (list Z)) (out : list (list Z)),
    fetch_elements 0 d index None = Ok out /\
    exists r k, 0 <= nth k (nth r index []) 0 < total d /\
      nth_error (nth r out []) k <> nth_error (concat d) (Z.to_nat (nth k (nth r index []) 0)).
Proof. exact fetch_negative_refuted. Qed.
Print Assumptions C06_negative_index_refuted.

(** *** Concrete cases: four ranks, empty ranks, duplicated requests. *)
Example ex_repartition :
  repartition 0 [[1;2;3]; []; [4]; [5;6]] [0; 4; 2; 0] = Ok [[]; [1;2;3;4]; [5;6]; []].
Proof. vm_compute. reflexivity. Qed.
Example ex_repartition_nd :
  repartition_nd 0 2 [[[1;2];[3;4];[5;6]]; []; [[7;8]]] [1; 2; 1] = Ok [[[1;2]]; [[3;4];[5;6]]; [[7;8]]].
Proof. vm_compute. reflexivity. Qed.
Example ex_repartition_hyps :
  length [0;4;2;0] = 4%nat /\ Forall (fun n => 0 <= n) [0;4;2;0] /\ fold_right Z.add 0 [0;4;2;0] = total [[1;2;3]; []; [4]; [5;6]].
Proof. repeat split; repeat constructor; discriminate. Qed.
Example ex_fetch :
  fetch_elements 0 [[10;11]; []; [12;13;14]] [[4;0;4]; [3;2]; []] None = Ok [[14;10;14]; [13;12]; []].
Proof. vm_compute. reflexivity. Qed.
Example ex_fetch_result :
  fetch_elements_nd 0 2 [[[10;11]]; []; [[12;13];[14;15]]] [[2;0;2]; [1;2]; []]
    (Some [[[0;0];[0;0];[0;0]]; [[0;0];[0;0]]; []])
  = Ok [[[14;15];[10;11];[14;15]]; [[12;13];[14;15]]; []].
Proof. vm_compute. reflexivity. Qed.
Example ex_fetch_past_end : fetch_elements 0 [[10;11]; []] [[1]; [2;0]] None = Err EIndex.
Proof. vm_compute. reflexivity. Qed.
