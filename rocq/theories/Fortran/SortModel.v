(** Model of sort_index (/repo/examples/millennium/fortran/sort.f90). The ten specific
    procedures of the interface (lines 37-1208) are the same code for different types of the
    array and of the index; this is the one of lines 37-151 for an array of any ordered type.
    Index values are unbounded. An access outside an array is the error [EIndex]. *)
From Verif.Base Require Import Prelude Order.
Local Open Scope Z_scope.

Definition fget {B} (l : list B) (i : Z) : res B :=
  if 0 <=? i then match nth_error l (Z.to_nat i) with Some v => Ok v | None => Err EIndex end else Err EIndex.
Definition fset {B} (l : list B) (i : Z) (v : B) : res (list B) :=
  if (0 <=? i) && (i <? zlen l) then Ok (set_nth l (Z.to_nat i) v) else Err EIndex.

Section Sort.
  Context {A : Type} (Od : TOrd A).
  (** floor(inc/2.2), line 92, in the arithmetic of the compiler *)
  Variable shrink : Z -> Z.
  Variable arr : list A.
  Definition nswitch : Z := 100. (* line 19 *)

  (** *** shell sort, lines 75-97 *)
  (** lines 82-86: (idx, j) after the loop *)
  Fixpoint shift_down (fuel : nat) (inc tmp : Z) (idx : list Z) (j : Z) : res (list Z * Z) :=
    match fuel with
    | O => Err EFuel
    | S fuel' =>
      if inc <=? j then
        do p <- fget idx (j - inc); do a <- fget arr p; do t <- fget arr tmp;
        if leb Od a t then Ok (idx, j)
        else
          do v <- fget idx (j - inc);
          do idx <- fset idx j v;
          shift_down fuel' inc tmp idx (j - inc)
      else Ok (idx, j)
    end.
  (** lines 79-88 *)
  Fixpoint shell_pass (count : nat) (inc i : Z) (idx : list Z) : res (list Z) :=
    match count with
    | O => Ok idx
    | S count' =>
      do tmp <- fget idx i;
      do (idx, j) <- shift_down (S (length idx)) inc tmp idx i;
      do idx <- fset idx j tmp;
      shell_pass count' inc (i + 1) idx
    end.
  (** lines 78-94 *)
  Fixpoint shell (fuel : nat) (n inc : Z) (idx : list Z) : res (list Z) :=
    match fuel with
    | O => Err EFuel
    | S fuel' =>
      if 0 <? inc then
        do idx <- shell_pass (Z.to_nat (n - inc)) inc inc idx;
        shell fuel' n (if inc =? 2 then 1 else shrink inc) idx
      else Ok idx
    end.

  (** *** heap sort, lines 99-145 *)
  (** lines 104-118 and 130-144 *)
  Fixpoint sift (fuel : nat) (finish root : Z) (idx : list Z) : res (list Z) :=
    match fuel with
    | O => Err EFuel
    | S fuel' =>
      if 2 * root + 1 <=? finish then
        let child := root * 2 + 1 in
        do child <- (if child <? finish then
                       do p <- fget idx child; do a <- fget arr p;
                       do q <- fget idx (child + 1); do b <- fget arr q;
                       if ltb Od a b then Ok (child + 1) else Ok child
                     else Ok child);
        do p <- fget idx root; do a <- fget arr p;
        do q <- fget idx child; do b <- fget arr q;
        if ltb Od a b then
          do tmp <- fget idx root;
          do v <- fget idx child;
          do idx <- fset idx root v;
          do idx <- fset idx child tmp;
          sift fuel' finish child idx
        else Ok idx
      else Ok idx
    end.
  (** lines 101-120 *)
  Fixpoint build (fuel : nat) (n start : Z) (idx : list Z) : res (list Z) :=
    match fuel with
    | O => Err EFuel
    | S fuel' =>
      if 0 <=? start then
        do idx <- sift (S (Z.to_nat n)) (n - 1) start idx;
        build fuel' n (start - 1) idx
      else Ok idx
    end.
  (** lines 124-145 *)
  Fixpoint extract (fuel : nat) (finish : Z) (idx : list Z) : res (list Z) :=
    match fuel with
    | O => Err EFuel
    | S fuel' =>
      if 0 <? finish then
        do tmp <- fget idx 0;
        do v <- fget idx finish;
        do idx <- fset idx 0 v;
        do idx <- fset idx finish tmp;
        let finish := finish - 1 in
        do idx <- sift (S (S (Z.to_nat finish))) finish 0 idx;
        extract fuel' finish idx
      else Ok idx
    end.

  (** lines 59-148: the contents of idx afterwards; [stop] is the error [EAbort] *)
  Definition sort_index (idx : list Z) : res (list Z) :=
    let n := zlen arr in
    if zlen idx <? n then Err EAbort
    else if n =? 0 then Ok idx
    else if n =? 1 then fset idx 0 1
    else
      let idx := zseq 0 (length arr) ++ skipn (length arr) idx in (* 71-73 *)
      if n <? nswitch then
        do idx <- shell (S (Z.to_nat n)) n (n / 2) idx;
        Ok (map (fun v => v + 1) idx)
      else
        do idx <- build (S (S (Z.to_nat n))) n ((n - 1) / 2) idx;
        do idx <- extract (S (Z.to_nat n)) (n - 1) idx;
        Ok (map (fun v => v + 1) idx).
End Sort.
