(** C52: read_multi. *)
From Verif Require Import Base.Prelude Base.Order Base.NdArray Multi.MultiModel Multi.MultiSpec Multi.MultiProofs.
Local Open Scope Z_scope.

(** np.concatenate succeeds exactly when the axis exists and the shapes agree on
    all the other axes, and the result is the arrays one after another *)
Theorem C52_concatenate : forall (A : Type) ax (xs : list (nd A)) out, Forall nd_ok xs ->
  np_concatenate (Some ax) xs = Ok out <->
  exists k n, axis_of ax n k /\ xs <> [] /\ (forall x, In x xs -> length (shape x) = n) /\
    (forall x y, In x xs -> In y xs -> agree_but k (shape x) (shape y)) /\ joined k xs out.
Proof. exact @concatenate_axis. Qed.
Print Assumptions C52_concatenate.

(** with axis=None the arrays are flattened and put one after another in order *)
Theorem C52_flat : forall (A : Type) (xs : list (nd A)), xs <> [] ->
  exists out, np_concatenate None xs = Ok out /\ shape out = [length (concat (map data xs))] /\ data out = concat (map data xs).
Proof. exact @concatenate_flat. Qed.
Print Assumptions C52_flat.
Example ex_flat : np_concatenate None [{| shape := [1%nat; 2%nat]; data := [1; 2] |}; {| shape := [1%nat]; data := [3] |}] = Ok {| shape := [3%nat]; data := [1; 2; 3] |}.
Proof. reflexivity. Qed.

(** [F i n] is the dataset [n] of file [i], if it is there. If all files open,
    read_multi returns the requested names in order, each with the concatenation
    over the files that contain it, in the order of the indexes; it opens each
    file once; and it fails only if one of the concatenations does *)
Theorem C52_read_multi : forall (A Name Idx : Type) (Od : TOrd Name) (open : Idx -> res (Name -> option (res (nd A)))) (F : Idx -> Name -> option (nd A))
    names idx axis,
  NoDup names -> Forall (good open F names) idx -> forall d log,
  read_multi Od open idx names axis = Ok (d, log) <->
  exists outs, Forall2 (fun n out => np_concatenate axis (arrays_of F idx n) = Ok out) names outs /\
    d = combine names (map CArr outs) /\ log = idx.
Proof. exact @read_multi_spec. Qed.
Print Assumptions C52_read_multi.

(** a dataset that is in none of the files is a ValueError *)
Theorem C52_missing : forall (A Name Idx : Type) (Od : TOrd Name) (open : Idx -> res (Name -> option (res (nd A)))) (F : Idx -> Name -> option (nd A))
    names idx axis n,
  NoDup names -> Forall (good open F names) idx -> In n names -> (forall i, In i idx -> F i n = None) ->
  read_multi Od open idx names axis = Err EValue.
Proof. exact @read_multi_missing. Qed.
Print Assumptions C52_missing.

(** a file that cannot be opened is not skipped *)
Theorem C52_unreadable : forall (A Name Idx : Type) (Od : TOrd Name) (open : Idx -> res (Name -> option (res (nd A)))) (F : Idx -> Name -> option (nd A))
    names pre i post axis e,
  NoDup names -> Forall (good open F names) pre -> open i = Err e ->
  read_multi Od open (pre ++ i :: post) names axis = Err e.
Proof. exact @read_multi_unreadable. Qed.
Print Assumptions C52_unreadable.

(** finding: a name requested twice is read twice and then concatenated again, row
    by row, which loses a dimension *)
Theorem C52_duplicate_name_refuted :
  exists (open : Z -> res (Z -> option (res (nd Z)))) a,
    open 0 = Ok (fun _ => Some (Ok a)) /\ shape a = [2%nat; 2%nat] /\
    read_multi ZOrd open [0] [7; 7] (Some 0) = Ok ([(7, CArr {| shape := [8%nat]; data := [1; 2; 3; 4; 1; 2; 3; 4] |})], [0]).
Proof.
  exact (ex_intro _ (fun _ => Ok (fun _ => Some (Ok {| shape := [2%nat; 2%nat]; data := [1; 2; 3; 4] |})))
    (ex_intro _ {| shape := [2%nat; 2%nat]; data := [1; 2; 3; 4] |} (conj eq_refl (conj eq_refl eq_refl)))).
Qed.
Print Assumptions C52_duplicate_name_refuted.

(** files 1, 2 and 3; dataset 10 (two columns) is missing from file 2, and has no
    rows in file 3; dataset 20 is in files 2 and 3 *)
Definition ex_F (i n : Z) : option (nd Z) :=
  match i, n with
  | 1, 10 => Some {| shape := [2%nat; 2%nat]; data := [1; 2; 3; 4] |}
  | 3, 10 => Some {| shape := [0%nat; 2%nat]; data := [] |}
  | 5, 10 => Some {| shape := [1%nat; 2%nat]; data := [5; 6] |}
  | 2, 20 => Some {| shape := [3%nat; 1%nat]; data := [7; 8; 9] |}
  | 3, 20 => Some {| shape := [3%nat; 2%nat]; data := [10; 11; 12; 13; 14; 15] |}
  | _, _ => None
  end.
Definition ex_open (i : Z) : res (Z -> option (res (nd Z))) := Ok (fun n => option_map Ok (ex_F i n)).
Example ex_good : Forall (good ex_open ex_F [10; 20]) [5; 3; 1; 2].
Proof. repeat constructor; eexists; (split; [reflexivity | reflexivity]). Qed.
Example ex_read0 : read_multi ZOrd ex_open [5; 3; 1; 2] [10] (Some 0)
  = Ok ([(10, CArr {| shape := [3%nat; 2%nat]; data := [5; 6; 1; 2; 3; 4] |})], [5; 3; 1; 2]).
Proof. vm_compute. reflexivity. Qed.
Example ex_read1 : read_multi ZOrd ex_open [3; 2] [20] (Some (-1))
  = Ok ([(20, CArr {| shape := [3%nat; 3%nat]; data := [10; 11; 7; 12; 13; 8; 14; 15; 9] |})], [3; 2]).
Proof. vm_compute. reflexivity. Qed.
Example ex_missing : read_multi ZOrd ex_open [1; 5] [10; 20] (Some 0) = Err EValue.
Proof. vm_compute. reflexivity. Qed.
Example ex_shapes : read_multi ZOrd ex_open [3; 2] [20] (Some 0) = Err EValue.
Proof. vm_compute. reflexivity. Qed.
