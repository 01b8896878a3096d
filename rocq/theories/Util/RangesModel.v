(** Model of assign_ranges and sum_ranges (/repo/python/virgo/util/ranges.py:5-128).
    [A] is the type of one row of the array along its first dimension. *)
From Verif.Base Require Import Prelude.
From Verif.Psort Require Import MatchModel.
Local Open Scope Z_scope.

(** python's [array[a:b] = v] with one row [v] for all rows of the slice *)
Definition slice_fill {A} (l : list A) (a b : Z) (v : A) : list A :=
  let a := pyidx (zlen l) a in
  let b := pyidx (zlen l) b in
  if a <? b then write_at l a (repeat v (Z.to_nat (b - a))) else l.

(** np.repeat(l, counts): a negative count is a ValueError *)
Definition np_repeat {A} (l : list A) (counts : list Z) : res (list A) :=
  do _ <- check (forallb (fun c => 0 <=? c) counts) EValue;
  Ok (concat (zipwith (fun x c => repeat x (Z.to_nat c)) l counts)).

(** x[0::2] = a and x[1::2] = b *)
Fixpoint interleave {A} (a b : list A) : list A :=
  match a, b with
  | x :: a', y :: b' => x :: y :: interleave a' b'
  | _, _ => a
  end.

(** lines 5-55: the new contents of the array. offset and length are one dimensional. *)
Definition assign_ranges {A} (array : list A) (offset length : list Z) (value : list A) : res (list A) :=
  (* lines 24-26 *)
  do _ <- check ((zlen offset =? zlen length) && (zlen length =? zlen value)) EValue;
  match offset, length, value with
  | [], _, _ => Ok array
  | [o], [l], [v] => Ok (slice_fill array o (o + l) v)
  | _, _, _ =>
    (* lines 37-40 *)
    let gap_length := hd 0 offset
      :: zipwith Z.sub (tl offset) (zipwith Z.add (removelast offset) (removelast length))
      ++ [zlen array - (last offset 0 + last length 0)] in
    (* lines 43-44 *)
    do _ <- check (sumZ length + sumZ gap_length =? zlen array) EValue;
    (* lines 47-52 *)
    let all_lengths := interleave gap_length length in
    let mask := interleave (map (fun _ => false) gap_length) (map (fun _ => true) length) in
    do mask <- np_repeat mask all_lengths;
    (* lines 54-55 *)
    do vals <- np_repeat value length;
    do _ <- check (zlen mask =? zlen array) EIndex;
    Ok (np_mask_put array mask vals)
  end.

(** np.add.reduceat(a, idx): for each i the sum of a[idx[i]:idx[i+1]], or a[idx[i]] if
    that is empty; an index not below len(a) is an IndexError *)
Section Sum.
  Context {A : Type} (add : A -> A -> A) (zero : A).
  (** sum of a non-empty sequence; 0 for an empty one *)
  Definition nsum (l : list A) : A := match l with [] => zero | x :: l' => fold_left add l' x end.
  Fixpoint reduceat (a : list A) (idx : list Z) : res (list A) :=
    match idx with
    | [] => Ok []
    | i :: idx' =>
      do x <- py_nth a i;
      let j := match idx' with [] => zlen a | j :: _ => j end in
      do rest <- reduceat a idx';
      Ok ((if i <? j then nsum (zslice a i j) else x) :: rest)
    end.
End Sum.

Section SumRanges.
  Context {A W : Type} (add : A -> A -> A) (zero : A).
  (** lines 58-128. [mul] is the product of a row with a weight (after conversion to
      dtype), [div_len] and [div_w] the division of a row by a count or total weight
      followed by conversion to dtype, [addw] the sum of two weights. *)
  Context (mul : A -> W -> A) (div_len : A -> Z -> A) (div_w : A -> W -> A) (addw : W -> W -> W) (zerow : W).
  Definition sum_ranges (array : list A) (offset length : list Z) (weight : option (list W)) (normalize : bool) : res (list A) :=
    (* lines 96-99: boolean index of a different length *)
    do _ <- check (zlen offset =? zlen length) EIndex;
    let ind := map (fun l => 0 <? l) length in
    let offset_nz := np_mask offset ind in
    let length_nz := np_mask length ind in
    (* lines 101-103 *)
    do mask <- assign_ranges (map (fun _ => false) array) offset_nz length_nz (map (fun _ => true) offset_nz);
    (* lines 105-108 *)
    let result := map (fun _ => zero) offset in
    match weight with
    | None =>
      (* lines 110-117 *)
      do s <- reduceat add zero (np_mask array mask) (excl_cumsum length_nz);
      let s := if normalize then zipwith div_len s length_nz else s in
      Ok (np_mask_put result ind s)
    | Some w =>
      (* lines 118-126 *)
      do _ <- check (zlen w =? zlen mask) EIndex;
      let a_x_w := zipwith mul (np_mask array mask) (np_mask w mask) in
      do s <- reduceat add zero a_x_w (excl_cumsum length_nz);
      if normalize then
        do sw <- reduceat addw zerow (np_mask w mask) (excl_cumsum length_nz);
        Ok (np_mask_put result ind (zipwith div_w s sw))
      else Ok (np_mask_put result ind s)
    end.
End SumRanges.
