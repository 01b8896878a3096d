(** Model of util/read_multi.py: reading datasets from a set of files and
    concatenating them, with np.concatenate on n-dimensional arrays.

    Simplified: array elements have one type (no promotion between dtypes); a file
    is a function from names to datasets, a name that is present but cannot be
    read (for example a group) being an error value. The class used to open
    files and the expansion of the file name are the function [open]. *)
From Verif Require Import Base.Prelude Base.Order Base.NdArray Index.IndexModel Hash.HashModel.
Local Open Scope Z_scope.

Section Concat.
  Context {A : Type}.

  (** the element of the concatenation of [xs] along axis [k] at index [idx] *)
  Fixpoint cat_at (k : nat) (idx : list nat) (xs : list (nd A)) : list A :=
    match xs with
    | [] => []
    | x :: xs' =>
        let n := nth k (shape x) 0%nat in
        if (nth k idx 0 <? n)%nat
        then match nth_error (data x) (ravel (shape x) idx) with Some v => [v] | None => [] end
        else cat_at k (upd k (fun i => (i - n)%nat) idx) xs'
    end.
  (** shapes may differ along axis [k] only *)
  Definition same_but (k : nat) (s t : list nat) : bool :=
    if list_eq_dec Nat.eq_dec (upd k (fun _ => 0%nat) s) (upd k (fun _ => 0%nat) t) then true else false.
  (** total extent along axis [k] *)
  Definition extent (k : nat) (xs : list (nd A)) : nat := list_sum (map (fun x => nth k (shape x) 0%nat) xs).
  Definition cat_axis (k : nat) (s0 : list nat) (xs : list (nd A)) : nd A :=
    let s := upd k (fun _ => extent k xs) s0 in
    {| shape := s; data := flat_map (fun idx => cat_at k idx xs) (indices s) |}.

  (** np.concatenate(xs, axis); axis None flattens the arrays. All errors are
      ValueError or its subclass AxisError. *)
  Definition np_concatenate (axis : option Z) (xs : list (nd A)) : res (nd A) :=
    match xs with
    | [] => Err EValue
    | x :: _ =>
        match axis with
        | None => let d := flat_map data xs in Ok {| shape := [length d]; data := d |}
        | Some ax =>
            let ndim := zlen (shape x) in
            if ndim =? 0 then Err EValue
            else if (ax <? - ndim) || (ndim <=? ax) then Err EValue
            else
              let k := Z.to_nat (if ax <? 0 then ax + ndim else ax) in
              if forallb (fun y => same_but k (shape x) (shape y)) xs then Ok (cat_axis k (shape x) xs) else Err EValue
        end
    end.
  (** the items of an array used as a sequence *)
  Definition np_iter (a : nd A) : list (nd A) :=
    match shape a with
    | [] => []
    | n :: s => map (fun i => {| shape := s; data := firstn (nelem s) (skipn (i * nelem s) (data a)) |}) (seq 0 n)
    end.
End Concat.

Section Read.
  Context {A Name Idx : Type} (Od : TOrd Name).
  Variable open : Idx -> res (Name -> option (res (nd A))).

  (** values of the dictionary [result]: a python list of arrays, later an array *)
  Inductive cell := CList (l : list (nd A)) | CArr (a : nd A).

  (** lines 35-37 *)
  Definition init (datasets : list Name) : list (Name * cell) :=
    fold_left (fun d n => dset Od d n (CList [])) datasets [].
  (** lines 51-53 *)
  Definition read_name (f : Name -> option (res (nd A))) (d : list (Name * cell)) (n : Name) : res (list (Name * cell)) :=
    match f n with
    | None => Ok d
    | Some r =>
        do a <- r;
        match dget Od d n with
        | None => Err EKey
        | Some (CList l) => Ok (dset Od d n (CList (l ++ [a])))
        | Some (CArr _) => Err EType (* an array has no append: AttributeError *)
        end
    end.
  (** lines 40-53; the files opened are recorded *)
  Definition read_file (datasets : list Name) (st : list (Name * cell) * list Idx) (i : Idx) : res (list (Name * cell) * list Idx) :=
    do f <- open i;
    do d <- foldM (read_name f) datasets (fst st);
    Ok (d, snd st ++ [i]).
  (** lines 56-57 *)
  Definition concat_name (axis : option Z) (d : list (Name * cell)) (n : Name) : res (list (Name * cell)) :=
    match dget Od d n with
    | None => Err EKey
    | Some c =>
        do a <- np_concatenate axis (match c with CList l => l | CArr a => np_iter a end);
        Ok (dset Od d n (CArr a))
    end.
  (** lines 11-59: the dictionary returned, and the files opened in order *)
  Definition read_multi (idx : list Idx) (datasets : list Name) (axis : option Z) : res (list (Name * cell) * list Idx) :=
    do (d, log) <- foldM (read_file datasets) idx (init datasets, []);
    do d' <- foldM (concat_name axis) datasets d;
    Ok (d', log).
End Read.
Arguments CList {A} l. Arguments CArr {A} a.
