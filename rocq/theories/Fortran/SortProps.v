(** Theorems about the Fortran routine sort_index (C66). *)
From Verif.Base Require Import Prelude ListLemmas Order.
From Verif.Fortran Require Import SortModel SortProofs.
Local Open Scope Z_scope.

(** *** C66; [shrink] is floor(inc/2.2), of which only the bounds matter *)
(** the first size(arr) elements of idx become one-based indexes in sorted order; no access is outside an array *)
Theorem C66_sort_index : forall A (Od : TOrd A) (shrink : Z -> Z), shrink 1 <= 0 -> (forall inc, 3 <= inc < 50 -> 1 <= shrink inc < inc) ->
  forall arr idx, zlen arr <= zlen idx ->
  exists idx', sort_index Od shrink arr idx = Ok idx' /\ zlen idx' = zlen idx /\
    is_argsort Od arr (map (fun v => v - 1) (firstn (length arr) idx')) /\
    skipn (length arr) idx' = (if zlen arr <? 2 then skipn (length arr) idx else map (fun v => v + 1) (skipn (length arr) idx)).
Proof. exact @sort_index_ok. Qed.
Print Assumptions C66_sort_index.
Theorem C66_too_small : forall A (Od : TOrd A) shrink arr idx, zlen idx < zlen arr -> sort_index Od shrink arr idx = Err EAbort.
Proof. exact @sort_index_small. Qed.
Print Assumptions C66_too_small.
(** exact division by 2.2 meets the hypotheses; eight elements (shell sort) and 120 elements (heap sort) *)
Example C66_case : let shrink := fun inc => inc * 10 / 22 in
  shrink 1 <= 0 /\ (forall inc, 3 <= inc < 50 -> 1 <= shrink inc < inc) /\
  sort_index ZOrd shrink [5; 3; 9; 3; 1; 7; 2; 8] [77; 77; 77; 77; 77; 77; 77; 77; 40] = Ok [5; 7; 2; 4; 1; 6; 8; 3; 41] /\
  sort_index ZOrd shrink (map (fun i => i * 37 mod 120) (zseq 0 120)) (repeat 0 120) = Ok (map (fun v => v * 13 mod 120 + 1) (zseq 0 120)).
Proof.
  cbv zeta. split; [discriminate|]. split; [intros inc H; split; [apply Z.div_le_lower_bound; lia | apply Z.div_lt_upper_bound; lia]|]. split; vm_compute; reflexivity.
Qed.
