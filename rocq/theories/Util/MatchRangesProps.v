(** Theorems about util/match.py and util/ranges.py (C26 to C28). *)
From Verif.Base Require Import Prelude ListLemmas Order.
From Verif.Util Require Import UMatchModel UMatchProofs RangesModel RangesSpec RangesProofs.
Local Open Scope Z_scope.

(** *** C26 *)
Theorem C26_match : forall A (Od : TOrd A) argsorted (arr2_sorted : bool) (arr2_index : option (list Z)) (arr1 arr2 : list A),
  (if arr2_sorted then sorted Od arr2 else is_argsort Od arr2 (match arr2_index with None => argsorted | Some i => i end)) ->
  exists out, match_ Od argsorted arr2_sorted arr2_index arr1 arr2 = Ok out /\
    Forall2 (fun x j => (j = -1 /\ ~ In x arr2) \/ (0 <= j /\ nth_error arr2 (Z.to_nat j) = Some x)) arr1 out.
Proof. exact @match_main. Qed.
Print Assumptions C26_match.
(** an index of only some elements of arr2, which lists them in ascending order, restricts the search to these *)
Theorem C26_partial_index : forall A (Od : TOrd A) argsorted idx (arr1 arr2 : list A) d,
  arr2 <> [] -> (forall i, In i idx -> 0 <= i < zlen arr2) -> idx <> [] -> sorted Od (map (fun i => nth (Z.to_nat i) arr2 d) idx) ->
  exists out, match_ Od argsorted false (Some idx) arr1 arr2 = Ok out /\
    Forall2 (fun x j => (j = -1 /\ forall i, In i idx -> nth_error arr2 (Z.to_nat i) <> Some x) \/ (In j idx /\ nth_error arr2 (Z.to_nat j) = Some x)) arr1 out.
Proof. intros A Od argsorted idx arr1 arr2 d. exact (match_general Od argsorted false (Some idx) arr1 arr2 idx d eq_refl). Qed.
Print Assumptions C26_partial_index.
Example C26_case :
  is_argsort ZOrd [30; 10; 20] [1; 2; 0] /\ match_ ZOrd [1; 2; 0] false None [20; 5; 30; 99; 10; 15] [30; 10; 20] = Ok [2; -1; 0; -1; 1; -1] /\
  match_ ZOrd [] true None [7; 8] [7; 7; 9] = Ok [0; -1] /\ match_ ZOrd [] false None [7; 8] [] = Ok [-1; -1].
Proof. split; [exact (argsort_is_argsort ZOrd [30; 10; 20]) | vm_compute; auto]. Qed.

(** *** C27 *)
(** the result is that of the loop in the documentation *)
Theorem C27_loop : forall A (array : list A) offset len value, length offset = length len -> length value = length len ->
  ordered 0 (combine offset len) (zlen array) ->
  assign_ranges array offset len value =
    Ok (fold_left (fun a (rv : Z * Z * A) => slice_fill a (fst (fst rv)) (fst (fst rv) + snd (fst rv)) (snd rv)) (combine (combine offset len) value) array).
Proof. exact @assign_loop. Qed.
Print Assumptions C27_loop.
(** elements in range i get value i, the others stay *)
Theorem C27_assigned : forall A (array : list A) offset len value, length offset = length len -> length value = length len ->
  ordered 0 (combine offset len) (zlen array) -> exists out, assign_ranges array offset len value = Ok out /\ assigned array (combine offset len) value out.
Proof. exact @assign_assigned. Qed.
Print Assumptions C27_assigned.
(** two or more ranges which are not in order, overlap, leave the array or do not go with the values are rejected *)
Theorem C27_rejected : forall A (array : list A) offset len value, (2 <= length offset)%nat ->
  ~ (length offset = length len /\ length value = length len /\ ordered 0 (combine offset len) (zlen array)) -> assign_ranges array offset len value = Err EValue.
Proof. exact @assign_bad. Qed.
Print Assumptions C27_rejected.
(** a single range is not checked: one past the end is cut off, a negative offset counts from the end *)
Theorem C27_single_checked_refuted : ~ forall (array : list Z) o l v, ~ ordered 0 [(o, l)] (zlen array) -> assign_ranges array [o] [l] [v] = Err EValue.
Proof. intro H. specialize (H [1; 2; 3] 2 5 9). assert (~ ordered 0 [(2, 5)] (zlen [1; 2; 3])) as H' by (cbn; intros (_ & _ & H'); apply H'; reflexivity). specialize (H H'). discriminate H. Qed.
Print Assumptions C27_single_checked_refuted.
Example C27_case :
  ordered 0 (combine [1; 3; 3; 5] [2; 0; 1; 3]) (zlen [0; 0; 0; 0; 0; 0; 0; 0; 0]) /\
  assign_ranges [0; 0; 0; 0; 0; 0; 0; 0; 0] [1; 3; 3; 5] [2; 0; 1; 3] [7; 8; 9; 10] = Ok [0; 7; 7; 9; 0; 10; 10; 10; 0] /\
  assign_ranges [0; 0; 0; 0] [1; 2] [2; 1] [7; 8] = Err EValue /\ assign_ranges [0; 0; 0; 0] [1; 3] [1; 2] [7; 8] = Err EValue /\
  assign_ranges [0; 0; 0; 0] [-2] [1] [7] = Ok [0; 0; 7; 0].
Proof. repeat split; vm_compute; try reflexivity; discriminate. Qed.

(** *** C28 *)
Theorem C28_sum : forall A W (add : A -> A -> A) (zero : A) (mul : A -> W -> A) div_len div_w (addw : W -> W -> W) (zerow : W) (array : list A) offset len,
  length offset = length len -> ordered 0 (combine offset len) (zlen array) ->
  sum_ranges add zero mul div_len div_w addw zerow array offset len None false =
    Ok (map (fun r => nsum add zero (elements array r)) (combine offset len)).
Proof. exact @sum_plain. Qed.
Print Assumptions C28_sum.
Theorem C28_mean : forall A W (add : A -> A -> A) (zero : A) (mul : A -> W -> A) div_len div_w (addw : W -> W -> W) (zerow : W) (array : list A) offset len,
  length offset = length len -> ordered 0 (combine offset len) (zlen array) ->
  sum_ranges add zero mul div_len div_w addw zerow array offset len None true =
    Ok (map (fun r => if 0 <? snd r then div_len (nsum add zero (elements array r)) (snd r) else zero) (combine offset len)).
Proof. exact @sum_mean. Qed.
Print Assumptions C28_mean.
Theorem C28_weighted_sum : forall A W (add : A -> A -> A) (zero : A) (mul : A -> W -> A) div_len div_w (addw : W -> W -> W) (zerow : W) (array : list A) offset len,
  length offset = length len -> ordered 0 (combine offset len) (zlen array) -> forall w : list W, length w = length array ->
  sum_ranges add zero mul div_len div_w addw zerow array offset len (Some w) false =
    Ok (map (fun r => nsum add zero (zipwith mul (elements array r) (elements w r))) (combine offset len)).
Proof. exact @sum_weighted. Qed.
Print Assumptions C28_weighted_sum.
Theorem C28_weighted_mean : forall A W (add : A -> A -> A) (zero : A) (mul : A -> W -> A) div_len div_w (addw : W -> W -> W) (zerow : W) (array : list A) offset len,
  length offset = length len -> ordered 0 (combine offset len) (zlen array) -> forall w : list W, length w = length array ->
  sum_ranges add zero mul div_len div_w addw zerow array offset len (Some w) true =
    Ok (map (fun r => if 0 <? snd r then div_w (nsum add zero (zipwith mul (elements array r) (elements w r))) (nsum addw zerow (elements w r)) else zero) (combine offset len)).
Proof. exact @sum_weighted_mean. Qed.
Print Assumptions C28_weighted_mean.
Example C28_case :
  ordered 0 (combine [0; 2; 2; 5; 7] [2; 0; 3; 2; 0]) (zlen [1; 2; 3; 4; 5; 6; 7]) /\
  sum_ranges Z.add 0 Z.mul Z.div Z.div Z.add 0 [1; 2; 3; 4; 5; 6; 7] [0; 2; 2; 5; 7] [2; 0; 3; 2; 0] None false = Ok [3; 0; 12; 13; 0] /\
  sum_ranges Z.add 0 Z.mul Z.div Z.div Z.add 0 [1; 2; 3; 4; 5; 6; 7] [0; 2; 2; 5; 7] [2; 0; 3; 2; 0] None true = Ok [1; 0; 4; 6; 0] /\
  sum_ranges Z.add 0 Z.mul Z.div Z.div Z.add 0 [1; 2; 3; 4; 5; 6; 7] [0; 2; 2; 5; 7] [2; 0; 3; 2; 0] (Some [1; 1; 2; 0; 0; 3; 1]) true = Ok [1; 0; 3; 6; 0].
Proof. repeat split; vm_compute; try reflexivity; discriminate. Qed.
