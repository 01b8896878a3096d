(** Model of match (/repo/python/virgo/util/match.py:5-65). Arrays hold values of a
    totally ordered type without NaN; the conversion to native byte order (lines 23-32)
    does not change values and is left out. *)
From Verif.Base Require Import Prelude Order.
Local Open Scope Z_scope.

Section Match.
  Context {A : Type} (Od : TOrd A).
  (** [argsorted] is what argsort(arr2) returns (line 41; not a stable sort) *)
  Definition match_ (argsorted : list Z) (arr2_sorted : bool) (arr2_index : option (list Z)) (arr1 arr2 : list A) : res (list Z) :=
    (* lines 19-21 *)
    if zlen arr2 =? 0 then Ok (map (fun _ => -1) arr1)
    else
      (* lines 34-46 *)
      do (tmp2, idx) <-
        (if arr2_sorted then Ok (arr2, zseq 0 (length arr2))
         else let idx := match arr2_index with None => argsorted | Some i => i end in
              do tmp2 <- np_take arr2 idx; Ok (tmp2, idx));
      (* line 49 *)
      let ptr := map (searchsorted_left Od tmp2) arr1 in
      (* lines 54-55 *)
      let ptr := map (fun p => if zlen tmp2 <=? p then 0 else p) ptr in
      let ptr := map (fun p => if p <? 0 then 0 else p) ptr in
      (* lines 57-59 *)
      do vals <- np_take tmp2 ptr;
      let ptr := zipwith (fun (va : A * A) p => if negb (eqb Od (fst va) (snd va)) then -1 else p) (combine vals arr1) ptr in
      (* lines 61-63: ind[ptr] is evaluated for all elements, -1 being the last one *)
      do ind <- np_take (zseq 0 (length arr2)) idx;
      do taken <- np_take ind ptr;
      Ok (zipwith (fun p i => if 0 <=? p then i else -1) ptr taken).
End Match.
