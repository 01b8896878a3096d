(** What the properties of attributes and of the inquiry routines say. *)
From Coq Require Import Ascii String.
From Verif Require Import Base.Prelude Text.StrModel H5w.H5wModel H5w.H5wSpec.
Local Open Scope Z_scope.
Local Open Scope list_scope.

(** a name for the attribute [c] of the object at [p]: a name of the object, a slash and the attribute, with blanks at the end; the root is a slash *)
Definition attr_name (n : str) (p : list str) (c : str) : Prop :=
  (c <> [] /\ ~ In slash c /\ last c "x"%char <> " "%char) /\ Forall good_part p /\
  exists k loc, n = loc ++ slash :: c ++ repeat " "%char k /\ match p with [] => loc = [slash] | _ => loc = spell p \/ loc = slash :: spell p end.
(** the object at [p] has this attribute *)
Definition attribute_at (h : list obj) (p : list str) (c : str) (a : attr) : Prop := exists x l, holds h p x l /\ assoc c l = Some a.
(** the object [x] at [p] has other attributes, and nothing else has changed *)
Definition attrs_changed (p : list str) (x : thing) (m : list (str * attr)) (h h' : list obj) : Prop :=
  forall q y l, holds h' q y l <-> (q = p /\ y = x /\ l = m) \/ (q <> p /\ holds h q y l).
Definition same_objects (h h' : list obj) : Prop := forall q y l, holds h' q y l <-> holds h q y l.
(** an element of an attribute in the type of the array *)
Definition attr_as (cv : ty -> ty -> option (elt -> elt)) (from to : ty) (g : elt -> elt) : Prop :=
  match t_class from, t_class to with
  | CString, CString => forall e, g e = as_type to e
  | _, _ => (t_class from = t_class to /\ t_size from = t_size to /\ forall e, g e = e) \/ (~ (t_class from = t_class to /\ t_size from = t_size to) /\ cv from to = Some g)
  end.
(** the array holds the elements of the attribute in storage order, and after them what it held before *)
Definition attr_filled (g : elt -> elt) (data old b : list elt) : Prop :=
  zlen b = zlen old /\ (forall i e, nth_error data i = Some e -> nth_error b i = Some (g e)) /\ (forall i, (List.length data <= i)%nat -> nth_error b i = nth_error old i).
(** a default integer *)
Definition small (z : Z) : Prop := 0 <= z < 2 ^ 31.
Definition class_name (c : cls) : string := match c with CInt => "INTEGER" | CFloat => "REAL" | CString => "CHARACTER" | COther => "OTHER" end%string.
(** the name of a group, the root included *)
Definition group_name (n : str) (p : list str) : Prop := names n p \/ (p = [] /\ exists k, n = slash :: repeat " "%char k).
(** the list has these names once each, cut at the length of the caller's variables and at 500 characters if [cut] *)
Definition listing (cut : bool) (len : nat) (P : str -> Prop) (r : Z * option (list str)) (old : option (list str)) : Prop :=
  exists cs, NoDup cs /\ (forall c, In c cs <-> P c) /\ fst r = zlen cs /\
    match old, snd r with
    | None, None => True
    | Some old, Some new => zlen new = zlen old /\ (forall i c, nth_error cs i = Some c -> nth_error new i = Some (trim (firstn len (if cut then trim (firstn 500 c) else c)))) /\
        forall i, (List.length cs <= i)%nat -> nth_error new i = nth_error old i
    | _, _ => False
    end.
(** the array of names has room for them *)
Definition enough (P : str -> Prop) (old : option (list str)) : Prop := forall l cs, old = Some l -> NoDup cs -> (forall c, In c cs -> P c) -> zlen cs <= zlen l.
