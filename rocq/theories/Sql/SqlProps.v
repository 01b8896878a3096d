(** C54, C64: the table of the merger trees. *)
From Coq Require Import Ascii String.
From Verif Require Import Base.Prelude Base.Order Base.NdArray Text.StrModel Multi.MultiModel Multi.MultiSpec
  Sql.SqlModel Sql.SqlSpec Sql.SqlProofs Sql.TreesModel Sql.TreesProofs.
Local Open Scope Z_scope.
Local Open Scope list_scope.

(** a well formed table: the script lists the columns, and the data file is its
    rows in fields of the widths of the types in the script, so that each value is
    found where the script says *)
Theorem C54_written : forall junk tablename data n,
  table_ok n data -> Forall (fun na => array_ok (snd na)) data -> Forall (fun na => supported (adt (snd na))) data ->
  exists css widths bytes,
    Forall2 (fun na cs => exists ty w, sql_of (adt (snd na)) ty w /\ columns_of n (fst na) (snd na) ty cs) data css /\
    rows_of n (concat css) widths bytes /\
    write_sql_server_native_file junk tablename data = (Ok tt, Some bytes, Some (script_text tablename (concat css))).
Proof. exact write_good. Qed.
Print Assumptions C54_written.

(** arrays of unequal length or the wrong shape, repeated or empty column names:
    an exception, and no file is touched *)
Theorem C54_refused : forall junk tablename data, (forall n, ~ table_ok n data) ->
  exists e, write_sql_server_native_file junk tablename data = (Err e, None, None) /\ (e = EValue \/ e = EIndex).
Proof. exact write_refused. Qed.
Print Assumptions C54_refused.

(** sql_type knows exactly the native 4 and 8 byte integers and floats, and strings *)
Theorem C54_sql_type : forall d ty, sql_type d = Ok ty <-> sql_of d ty (itemsize d).
Proof. exact sql_type_spec. Qed.
Print Assumptions C54_sql_type.

(** finding: a type that SQL does not have (such as unsigned integers, or the other
    byte order) is only noticed after the data file has been written *)
Theorem C54_unsupported_after_writing : forall junk tablename data n,
  table_ok n data -> ~ Forall (fun na => supported (adt (snd na))) data ->
  exists bytes text, write_sql_server_native_file junk tablename data = (Err EValue, Some bytes, Some text).
Proof. exact write_late. Qed.
Print Assumptions C54_unsupported_after_writing.

(** the datasets of the first file are concatenated over the files that have them *)
Theorem C64_read_trees : forall (A Name : Type) (Od : TOrd Name) (open : Z -> res (treefile A Name)) (F : Z -> Name -> option (nd A)) f0 nfiles,
  open 0 = Ok f0 -> number_of_files f0 = Ok nfiles -> Forall (tree_ok open F) (tree_files nfiles) ->
  (forall i n, In i (tree_files nfiles) -> F i n <> None -> In n (keys f0)) -> forall d,
  read_dhalo_trees Od open = Ok d <->
  exists outs, Forall2 (fun n out => np_concatenate (Some 0) (arrays_of F (tree_files nfiles) n) = Ok out) (keys f0) outs /\ d = combine (keys f0) (map CArr outs).
Proof. exact @read_trees. Qed.
Print Assumptions C64_read_trees.

(** a dataset that only a later file has is a KeyError *)
Theorem C64_new_name : forall (A Name : Type) (Od : TOrd Name) (open : Z -> res (treefile A Name)) (F : Z -> Name -> option (nd A))
    f0 nfiles pre i post f n ks1 ks2,
  open 0 = Ok f0 -> number_of_files f0 = Ok nfiles -> zseq 1 (Z.to_nat (nfiles - 1)) = pre ++ i :: post ->
  Forall (tree_ok open F) (0 :: pre) -> (forall j m, In j (0 :: pre) -> F j m <> None -> In m (keys f0)) ->
  open i = Ok f -> NoDup (keys f) -> keys f = ks1 ++ n :: ks2 -> incl ks1 (keys f0) -> ~ In n (keys f0) ->
  (forall m, In m ks1 -> exists a, F i m = Some a /\ getitem f m = Ok a) ->
  read_dhalo_trees Od open = Err EKey.
Proof. exact @new_name. Qed.
Print Assumptions C64_new_name.

(** ** examples *)
Definition i4 : dtype := {| dkind := KInt; itemsize := 4; native := true |}.
Definition f4 : dtype := {| dkind := KFloat; itemsize := 4; native := true |}.
Definition s2 : dtype := {| dkind := KStr; itemsize := 2; native := true |}.
Definition u4 : dtype := {| dkind := KUint; itemsize := 4; native := true |}.
(** two rows: an id, a position and a two letter name *)
Definition ex_data : list (str * array) :=
  [(lit "id", {| adt := i4; aval := {| shape := [2%nat]; data := [[1; 0; 0; 0]; [2; 0; 0; 0]] |} |});
   (lit "pos", {| adt := f4; aval := {| shape := [2%nat; 3%nat]; data := [[1; 1; 1; 1]; [2; 2; 2; 2]; [3; 3; 3; 3]; [4; 4; 4; 4]; [5; 5; 5; 5]; [6; 6; 6; 6]] |} |});
   (lit "nm", {| adt := s2; aval := {| shape := [2%nat]; data := [[65; 66]; [67; 0]] |} |})].
Example ex_table_ok : table_ok 2 ex_data.
Proof.
  unfold table_ok. split; [discriminate|]. split; [repeat (apply Forall_cons; [first [left; reflexivity | right; reflexivity]|]); constructor|]. cbn [flat_map names_of ex_data fst snd aval shape app]. split.
  - apply distinct_spec. reflexivity.
  - cbn. intuition discriminate.
Qed.
Example ex_arrays_ok : Forall (fun na => array_ok (snd na)) ex_data.
Proof. repeat constructor. Qed.
Example ex_supported : Forall (fun na => supported (adt (snd na))) ex_data.
Proof. repeat (apply Forall_cons; [eexists; eexists; constructor|]). constructor. Qed.
Example ex_written : write_sql_server_native_file (fun _ => []) (lit "trees") ex_data =
  (Ok tt,
   Some [1; 0; 0; 0; 1; 1; 1; 1; 2; 2; 2; 2; 3; 3; 3; 3; 65; 66;
         2; 0; 0; 0; 4; 4; 4; 4; 5; 5; 5; 5; 6; 6; 6; 6; 67; 0],
   Some (lit "create table trees (
  id integer NOT NULL,
  pos_x real NOT NULL,
  pos_y real NOT NULL,
  pos_z real NOT NULL,
  nm char(2) NOT NULL,
)
")).
Proof. vm_compute. reflexivity. Qed.
(** a column called like a component of a vector *)
Example ex_clash : write_sql_server_native_file (fun _ => []) (lit "trees") (ex_data ++ [(lit "pos_y", {| adt := i4; aval := {| shape := [2%nat]; data := [[1; 0; 0; 0]; [2; 0; 0; 0]] |} |})])
  = (Err EValue, None, None).
Proof. vm_compute. reflexivity. Qed.
Example ex_unsigned : write_sql_server_native_file (fun _ => []) (lit "t") [(lit "a", {| adt := i4; aval := {| shape := [1%nat]; data := [[1; 0; 0; 0]] |} |}); (lit "b", {| adt := u4; aval := {| shape := [1%nat]; data := [[2; 0; 0; 0]] |} |})]
  = (Err EValue, Some [1; 0; 0; 0; 2; 0; 0; 0], Some (lit "create table t (
  a integer NOT NULL,
")).
Proof. vm_compute. reflexivity. Qed.

(** two tree files, the second without dataset 20 *)
Definition ex_F (i n : Z) : option (nd Z) :=
  match i, n with
  | 0, 10 => Some {| shape := [2%nat]; data := [1; 2] |}
  | 0, 20 => Some {| shape := [2%nat]; data := [3; 4] |}
  | 1, 10 => Some {| shape := [1%nat]; data := [5] |}
  | _, _ => None
  end.
Definition ex_trees (i : Z) : res (treefile Z Z) :=
  Ok {| number_of_files := Ok 2; keys := if i =? 0 then [10; 20] else if i =? 1 then [10] else []; getitem := fun n => match ex_F i n with Some a => Ok a | None => Err EKey end |}.
Example ex_trees_ok : Forall (tree_ok ex_trees ex_F) (tree_files 2).
Proof.
  assert (forall i n, match i, n with 0, 10 | 0, 20 | 1, 10 => False | _, _ => True end -> ex_F i n = None) as HN.
  { intros i n H. unfold ex_F. repeat match goal with |- context [match ?x with _ => _ end] => destruct x; try reflexivity; try contradiction end. }
  repeat constructor; eexists; (split; [reflexivity|]); cbn [keys Z.eqb].
  - split; [repeat constructor; cbn; intuition discriminate|]. split; [|intros n a H; cbn [getitem ex_trees]; now rewrite H].
    intro n. split; [intros [<-|[<-|[]]]; discriminate|]. intro H. destruct (Z.eq_dec n 10); [left; congruence|]. destruct (Z.eq_dec n 20); [right; left; congruence|]. exfalso. apply H, HN.
    repeat match goal with |- context [match ?x with _ => _ end] => destruct x; try exact I; try congruence end.
  - split; [repeat constructor; cbn; intuition discriminate|]. split; [|intros n a H; cbn [getitem ex_trees]; now rewrite H].
    intro n. split; [intros [<-|[]]; discriminate|]. intro H. destruct (Z.eq_dec n 10); [left; congruence|]. exfalso. apply H, HN.
    repeat match goal with |- context [match ?x with _ => _ end] => destruct x; try exact I; try congruence end.
Qed.
(** finding: the column of a dataset missing from one file is shorter than the
    others, and nothing is said at this point *)
Example ex_short : read_dhalo_trees ZOrd ex_trees = Ok [(10, CArr {| shape := [3%nat]; data := [1; 2; 5] |}); (20, CArr {| shape := [2%nat]; data := [3; 4] |})].
Proof. vm_compute. reflexivity. Qed.
