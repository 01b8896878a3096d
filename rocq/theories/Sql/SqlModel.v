(** Model of database/make_dtrees_table.py: sql_type, write_sql_server_native_file
    and read_dhalo_trees.

    Simplified: an array element is the string of its bytes in memory. A numpy type
    is its kind, item size and whether it has the byte order of the machine. The
    script is written to a buffered file that is flushed when the file object is
    freed, so what was written before an exception is in the file. *)
From Coq Require Import Ascii String.
From Verif Require Import Base.Prelude Base.NdArray Index.IndexModel Text.StrModel Multi.MultiModel.
Local Open Scope Z_scope.
Local Open Scope list_scope.

(** dtype.kind: "i", "u", "f", "S" or anything else *)
Inductive kind := KInt | KUint | KFloat | KStr | KOther.
Record dtype := { dkind : kind; itemsize : nat; native : bool }.
Record array := { adt : dtype; aval : nd (list Z) }.

(** dtype == np.int32 and so on *)
Definition is_type (k : kind) (n : nat) (d : dtype) : bool :=
  match dkind d, k with KInt, KInt | KUint, KUint | KFloat, KFloat => (itemsize d =? n)%nat && native d | _, _ => false end.

(** lines 15-35 *)
Definition sql_type (d : dtype) : res str :=
  match dkind d with
  | KInt | KUint | KFloat =>
      if is_type KInt 4 d then Ok (lit "integer")
      else if is_type KInt 8 d then Ok (lit "bigint")
      else if is_type KFloat 4 d then Ok (lit "real")
      else if is_type KFloat 8 d then Ok (lit "float")
      else Err EValue
  | KStr => Ok (lit "char(" ++ fmt_d (Z.of_nat (itemsize d)) ++ lit ")")
  | KOther => Err EValue
  end.

Definition suffixes : list str := [lit "x"; lit "y"; lit "z"].

(** lines 124-136: the fields made from one array *)
Definition col_types (n : nat) (na : str * array) : res (list (str * dtype)) :=
  match shape (aval (snd na)) with
  | [] => Err EIndex
  | m :: rest =>
      if negb (m =? n)%nat then Err EValue
      else match rest with
           | [] => Ok [(fst na, adt (snd na))]
           | [p] => if (p =? 3)%nat then Ok (map (fun s => (fst na ++ lit "_" ++ s, adt (snd na))) suffixes) else Err EValue
           | _ => Err EValue
           end
  end.
(** line 137: np.dtype(type_list). A repeated name is a ValueError; an empty name
    is replaced by numpy and line 144 then raises ValueError. *)
Fixpoint distinct (l : list str) : bool :=
  match l with [] => true | x :: l' => negb (existsb (str_eqb x) l') && distinct l' end.
Definition dtype_ok (tl : list (str * dtype)) : bool :=
  distinct (map fst tl) && negb (existsb (str_eqb []) (map fst tl)).

(** a table under construction: its fields in order, each with the column of
    elements *)
Definition table : Type := list (str * list (list Z)).
(** table[name][:] = col *)
Fixpoint assign (t : table) (name : str) (col : list (list Z)) : res table :=
  match t with
  | [] => Err EValue
  | (f, c) :: t' => if str_eqb f name then Ok ((f, col) :: t') else do u <- assign t' name col; Ok ((f, c) :: u)
  end.
(** data[:,k] of an array with three columns *)
Definition component (k : nat) (a : array) : list (list Z) :=
  match shape (aval a) with
  | n :: _ => map (fun r => nth (r * 3 + k) (data (aval a)) []) (seq 0 n)
  | [] => []
  end.
(** lines 142-147 *)
Definition fill (t : table) (na : str * array) : res table :=
  match shape (aval (snd na)) with
  | [_] => assign t (fst na) (data (aval (snd na)))
  | _ => foldM (fun t ks => assign t (fst na ++ lit "_" ++ snd ks) (component (fst ks) (snd na))) (combine [0%nat; 1%nat; 2%nat] suffixes) t
  end.
(** table.tofile *)
Definition tofile (n : nat) (t : table) : list Z :=
  flat_map (fun r => flat_map (fun fc => nth r (snd fc) []) t) (seq 0 n).

Section Write.
  (** contents of uninitialised memory *)
  Variable junk : nat -> list Z.

  (** line 158 *)
  Definition script_line (name ty : str) : str := lit "  " ++ name ++ lit " " ++ ty ++ lit " NOT NULL," ++ [ascii_of_nat 10].
  (** lines 156-158: the text written, and the exception that stopped it *)
  Fixpoint script_lines (tl : list (str * dtype)) : str * option exn :=
    match tl with
    | [] => ([], None)
    | (name, d) :: tl' =>
        match sql_type d with
        | Err e => ([], Some e)
        | Ok ty => let (t, e) := script_lines tl' in (script_line name ty ++ t, e)
        end
    end.

  (** lines 106-160: the outcome, and the contents of the data and script files
      (None if the file was not opened) *)
  Definition write_sql_server_native_file (tablename : str) (data : list (str * array)) : res unit * option (list Z) * option str :=
    let before := (* lines 117-147 *)
      match data with
      | [] => Err EIndex
      | (_, a0) :: _ =>
          match shape (aval a0) with
          | [] => Err EIndex
          | n :: _ =>
              do tls <- mapM (col_types n) data;
              let type_list := concat tls in
              do _ <- check (dtype_ok type_list) EValue;
              do t <- foldM fill data (map (fun fd => (fst fd, repeat (junk (itemsize (snd fd))) n)) type_list);
              Ok (type_list, tofile n t)
          end
      end in
    match before with
    | Err e => (Err e, None, None)
    | Ok (type_list, bytes) =>
        let head := lit "create table " ++ tablename ++ lit " (" ++ [ascii_of_nat 10] in
        match script_lines type_list with
        | (body, None) => (Ok tt, Some bytes, Some (head ++ body ++ lit ")" ++ [ascii_of_nat 10]))
        | (body, Some e) => (Err e, Some bytes, Some (head ++ body))
        end
    end.
End Write.
