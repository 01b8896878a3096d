(** What the name of a Millennium file looks like (for C80). *)
From Coq Require Import Ascii String NArith.
From Verif Require Import Base.Prelude Text.StrModel Text.StrSpec.
Local Open Scope char_scope. Local Open Scope Z_scope. Local Open Scope list_scope.

(** [s] is the number [z] written with at least [w] digits and no more than needed *)
Definition number (w : nat) (z : Z) (s : str) : Prop :=
  all_digits s /\ Z.of_N (sval s) = z /\ (w <= length s)%nat /\ ((w < length s)%nat -> hd_error s <> Some "0").

(** the types of file: directory and start of the name *)
Inductive file_type : Z -> string -> string -> Prop :=
| is_snapshot : file_type 0 "snapshot" "snap_millennium"
| is_group_tab : file_type 1 "group_tab" "group_tab"
| is_sub_tab : file_type 2 "sub_tab" "sub_tab"
| is_sub_ids : file_type 3 "sub_ids" "sub_ids"
| is_group_ids : file_type 4 "group_ids" "group_ids".
