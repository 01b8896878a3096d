(** What the native file and the script should contain. *)
From Coq Require Import Ascii String.
From Verif Require Import Base.Prelude Base.NdArray Text.StrModel Sql.SqlModel.
Local Open Scope Z_scope.
Local Open Scope list_scope.

(** a column of the table: its name, its SQL type and its value in each row *)
Record column := { c_name : str; c_type : str; c_value : nat -> option (list Z) }.

(** the SQL type of the arrays that can be written, and its width in bytes *)
Inductive sql_of : dtype -> str -> nat -> Prop :=
| sql_int : sql_of {| dkind := KInt; itemsize := 4; native := true |} (lit "integer") 4
| sql_bigint : sql_of {| dkind := KInt; itemsize := 8; native := true |} (lit "bigint") 8
| sql_real : sql_of {| dkind := KFloat; itemsize := 4; native := true |} (lit "real") 4
| sql_float : sql_of {| dkind := KFloat; itemsize := 8; native := true |} (lit "float") 8
| sql_char n b : sql_of {| dkind := KStr; itemsize := n; native := b |} (lit "char(" ++ fmt_d (Z.of_nat n) ++ lit ")") n.

(** element [idx] of an array *)
Definition elem (a : array) (idx : list nat) : option (list Z) := nth_error (data (aval a)) (ravel (shape (aval a)) idx).
(** an array as numpy has it: as many elements as the shape says, all of the item size *)
Definition array_ok (a : array) : Prop :=
  nd_ok (aval a) /\ Forall (fun e => length e = itemsize (adt a)) (data (aval a)).

(** the columns for one array: itself, or x, y and z *)
Inductive columns_of (n : nat) (name : str) (a : array) (ty : str) : list column -> Prop :=
| cols_scalar : shape (aval a) = [n] ->
    columns_of n name a ty [{| c_name := name; c_type := ty; c_value := fun i => elem a [i] |}]
| cols_vector : shape (aval a) = [n; 3%nat] ->
    columns_of n name a ty
      [{| c_name := name ++ lit "_x"; c_type := ty; c_value := fun i => elem a [i; 0%nat] |};
       {| c_name := name ++ lit "_y"; c_type := ty; c_value := fun i => elem a [i; 1%nat] |};
       {| c_name := name ++ lit "_z"; c_type := ty; c_value := fun i => elem a [i; 2%nat] |}].

(** the shapes that can be written *)
Definition shape_ok (n : nat) (a : array) : Prop := shape (aval a) = [n] \/ shape (aval a) = [n; 3%nat].
(** names of the columns *)
Definition names_of (na : str * array) : list str :=
  match shape (aval (snd na)) with
  | [_] => [fst na]
  | _ => [fst na ++ lit "_x"; fst na ++ lit "_y"; fst na ++ lit "_z"]
  end.
(** the table is well formed *)
Definition table_ok (n : nat) (data : list (str * array)) : Prop :=
  data <> [] /\ Forall (fun na => shape_ok n (snd na)) data /\
  NoDup (flat_map names_of data) /\ ~ In [] (flat_map names_of data).

(** the text of the script *)
Definition script_text (tablename : str) (cols : list column) : str :=
  lit "create table " ++ tablename ++ lit " (" ++ [ascii_of_nat 10] ++
  flat_map (fun c => lit "  " ++ c_name c ++ lit " " ++ c_type c ++ lit " NOT NULL," ++ [ascii_of_nat 10]) cols ++
  lit ")" ++ [ascii_of_nat 10].
(** width of a column from its SQL type *)
Definition has_width (ty : str) (w : nat) : Prop := exists d, sql_of d ty w.
(** [bytes] is [n] rows, a row being the values of the columns one after another
    in fields of the widths of their types *)
Definition rows_of (n : nat) (cols : list column) (widths : list nat) (bytes : list Z) : Prop :=
  Forall2 (fun c w => has_width (c_type c) w) cols widths /\
  length bytes = (n * list_sum widths)%nat /\
  forall i j c w, (i < n)%nat -> nth_error cols j = Some c -> nth_error widths j = Some w ->
  c_value c i = Some (firstn w (skipn (i * list_sum widths + list_sum (firstn j widths))%nat bytes)).
