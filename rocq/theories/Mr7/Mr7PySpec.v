(** Elements of arrays of numpy and of IDL. *)
From Coq Require Import Ascii String.
From Verif Require Import Base.Prelude Text.StrModel H5w.H5wModel H5w.H5wAttrSpec Mr7.Mr7Spec.
Local Open Scope Z_scope.
Local Open Scope list_scope.

(** numpy: a[i0, i1, ...], the last index varies fastest *)
Fixpoint np_place (shape idx : list Z) (k : Z) : option Z :=
  match shape, idx with
  | [], [] => Some k
  | n :: shape', i :: idx' => if (0 <=? i) && (i <? n) then np_place shape' idx' (n * k + i) else None
  | _, _ => None
  end.
Definition np_elem (a : list Z * list elt) (idx : list Z) : option elt := match np_place (fst a) idx 0 with Some k => nth_error (snd a) (Z.to_nat k) | None => None end.
(** IDL: a[i0, i1, ...], the first index varies fastest; [w] is the number of elements from one
    value of the index to the next *)
Fixpoint idl_place (dims idx : list Z) (w k : Z) : option Z :=
  match dims, idx with
  | [], [] => Some k
  | n :: dims', i :: idx' => if (0 <=? i) && (i <? n) then idl_place dims' idx' (w * n) (k + w * i) else None
  | _, _ => None
  end.
Definition idl_elem (a : list Z * list elt) (idx : list Z) : option elt := match idl_place (fst a) idx 1 0 with Some k => nth_error (snd a) (Z.to_nat k) | None => None end.
(** the numbers of particles are a list of six, not a table *)
Definition plain_header (h : list obj) (n : Z) : Prop := exists a, attribute_at h [lit "Header"] (lit "NumPart_ThisFile") a /\ counts a n /\ a_dims a = [6].
(** the first file of snapshot 61 *)
Definition first_file : str := lit "/gpfs/data/Millgas/data/dm/500/snapdir_061/500_dm_061.0.hdf5".
