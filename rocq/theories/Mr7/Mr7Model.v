(** The readers for a snapshot file of the Millennium-WMAP7 simulation: examples/millennium-wmap7/fortran/read_mr7_snapshot_file.f90, which uses the HDF5 wrapper,
    and examples/millennium-wmap7/c/read_mr7_snapshot_file.c, which uses the HDF5 library directly.

    Simplifications.  The lines of particles are lists of elements, each the bytes of a number: how the numbers are printed is not modelled, nor are the other
    lines printed.  Memory is taken to suffice for the arrays.  [undef] tells what is in new memory. *)
From Coq Require Import Ascii String.
From Verif Require Import Base.Prelude Binary.BinModel Text.StrModel H5w.H5wModel.
Local Open Scope Z_scope.
Local Open Scope list_scope.

(** a line: position, velocity and identifier *)
Definition line : Type := list elt * list elt * elt.
Definition int4 : ty := {| t_class := CInt; t_size := 4 |}.
Definition int8 : ty := {| t_class := CInt; t_size := 8 |}.
Definition real4 : ty := {| t_class := CFloat; t_size := 4 |}.
Definition real8 : ty := {| t_class := CFloat; t_size := 8 |}.
(** [n] elements of new memory; [k] tells one piece of memory from another *)
Definition memory (undef : nat -> Z -> elt) (k : nat) (n : Z) : list elt := map (undef k) (zseq 0 (Z.to_nat n)).

(** * read_mr7_snapshot_file.f90 *)
(** allocate(a(dims)): a dimension below zero counts as zero *)
Definition new_array (undef : nat -> Z -> elt) (k : nat) (t : ty) (dims : list Z) : marr :=
  {| m_ty := t; m_dims := map (Z.max 0) dims; m_buf := memory undef k (prod (map (Z.max 0) dims)) |}.
(** an element of an array; elements outside it must not be touched *)
Definition element (dims : list Z) (b : list elt) (i : list Z) : M elt := match nth_error b (Z.to_nat (offset dims i)) with Some e => ret e | None => wild end.
(** line 43 *)
Definition write_line (n : Z) (pos vel id : list elt) (i : Z) : M line :=
  let! x := element [3; n] pos [0; i] in let! y := element [3; n] pos [1; i] in let! z := element [3; n] pos [2; i] in
  let! u := element [3; n] vel [0; i] in let! v := element [3; n] vel [1; i] in let! w := element [3; n] vel [2; i] in
  let! k := element [n] id [i] in ret ([x; y; z], [u; v; w], k).
(** lines 42-44 *)
Fixpoint write_lines (n : Z) (pos vel id : list elt) (is : list Z) : M (list line) :=
  match is with [] => ret [] | i :: r => let! a := write_line n pos vel id i in let! l := write_lines n pos vel id r in ret (a :: l) end.
(** lines 19-44; npfile is the variable of line 13, pos, vel and id are those of lines 14-16 *)
Definition fortran_reader (cv : ty -> ty -> option (elt -> elt)) (undef : nat -> Z -> elt) (arg : str) : M (list line) :=
  let fname := fit 500 arg in
  let! ifile := open_file fname (Some true) in
  let! npfile := read_attribute cv ifile (lit "Header/NumPart_ThisFile") (new_array undef 0 int4 [6]) in
  let n := signed32 (le_value (nth 1 npfile [])) in
  let! pos := read_data ifile (lit "PartType1/Coordinates") (new_array undef 1 real4 [3; n]) None None in
  let! vel := read_data ifile (lit "PartType1/Velocities") (new_array undef 2 real4 [3; n]) None None in
  let! id := read_data ifile (lit "PartType1/ParticleIDs") (new_array undef 3 int8 [n]) None None in
  close_file ifile ;;
  write_lines n pos vel id (zseq 0 (Z.to_nat n)).

(** * read_mr7_snapshot_file.c *)
(** how it ends: with the lines, by exit or abort, or with undefined behaviour *)
Inductive cend (A : Type) := Ran (a : A) | Left | Undefined.
Arguments Ran {A}. Arguments Left {A}. Arguments Undefined {A}.
Definition cbind {A B} (m : cend A) (k : A -> cend B) : cend B := match m with Ran a => k a | Left => Left | Undefined => Undefined end.
Notation "'try' x ':=' m 'in' k" := (cbind m (fun x => k)) (at level 200, x pattern, m at level 100, k at level 200).
(** what HDF5 does with an element of another type *)
Definition to_native (cv : ty -> ty -> option (elt -> elt)) (from to : ty) : option (elt -> elt) :=
  if cls_eqb (t_class from) (t_class to) && (t_size from =? t_size to) then Some (fun e => e) else cv from to.
(** the library copies all elements to the buffer, whatever its size *)
Definition copy_all (f : option (elt -> elt)) (data buf : list elt) : cend (list elt) :=
  match f with
  | None => Left
  | Some f => if zlen buf <? zlen data then Undefined else Ran (write_at buf 0 (map f data))
  end.
(** H5LTget_attribute_uint and H5LTget_attribute_double *)
Definition lt_attribute (cv : ty -> ty -> option (elt -> elt)) (h : list obj) (name a : str) (t : ty) (buf : list elt) : cend (list elt) :=
  match resolve h 0 name with
  | None => Left
  | Some o => match assoc a (attrs_at h o) with None => Left | Some a => copy_all (to_native cv (a_ty a) t) (a_data a) buf end
  end.
(** H5LTread_dataset *)
Definition lt_dataset (cv : ty -> ty -> option (elt -> elt)) (h : list obj) (name : str) (t : ty) (buf : list elt) : cend (list elt) :=
  match dopen h name with
  | None => Left
  | Some o => match dset_at h o with None => Left | Some d => copy_all (to_native cv (d_ty d) t) (d_data d) buf end
  end.
Definition c_element (b : list elt) (i : Z) : cend elt := match nth_error b (Z.to_nat i) with Some e => Ran e | None => Undefined end.
(** lines 80-83; 3*i is computed as an int *)
Definition c_line (pos vel ids : list elt) (i : Z) : cend line :=
  if 2 ^ 31 <=? 3 * i + 2 then Undefined else
  try x := c_element pos (3 * i + 0) in try y := c_element pos (3 * i + 1) in try z := c_element pos (3 * i + 2) in
  try u := c_element vel (3 * i + 0) in try v := c_element vel (3 * i + 1) in try w := c_element vel (3 * i + 2) in
  try k := c_element ids i in Ran ([x; y; z], [u; v; w], k).
(** lines 77-84 *)
Fixpoint c_lines (pos vel ids : list elt) (is : list Z) : cend (list line) :=
  match is with [] => Ran [] | i :: r => try a := c_line pos vel ids i in try l := c_lines pos vel ids r in Ran (a :: l) end.
(** lines 20-84.  Lines 20-21: without a zero byte in fname what follows is undefined.  Lines 50, 58 and 66: 3*NumPart_ThisFile[1] is computed as an unsigned int *)
Definition c_reader (cv : ty -> ty -> option (elt -> elt)) (undef : nat -> Z -> elt) (arg : str) (files : list (str * dfile)) : cend (list line) :=
  if 500 <=? zlen arg then Undefined else
  match assoc arg files with
  | None => Left
  | Some fl =>
      try num := lt_attribute cv (heap fl) (lit "Header") (lit "NumPart_ThisFile") int4 (memory undef 0 6) in
      let n := le_value (nth 1 num []) in
      try box := lt_attribute cv (heap fl) (lit "Header") (lit "BoxSize") real8 (memory undef 4 1) in
      try pos := lt_dataset cv (heap fl) (lit "PartType1/Coordinates") real4 (memory undef 1 ((3 * n) mod 2 ^ 32)) in
      try vel := lt_dataset cv (heap fl) (lit "PartType1/Velocities") real4 (memory undef 2 ((3 * n) mod 2 ^ 32)) in
      try ids := lt_dataset cv (heap fl) (lit "PartType1/ParticleIDs") int8 (memory undef 3 n) in
      c_lines pos vel ids (zseq 0 (Z.to_nat n))
  end.
