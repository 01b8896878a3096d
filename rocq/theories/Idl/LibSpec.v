(** What the functions of the library for IDL should return, stated without their code. *)
From Coq Require Import Ascii String.
From Coq Require Import Sorting.Permutation Sorting.Sorted.
From Verif Require Import Base.Prelude Text.StrModel Text.PathSpec Formats.FileSpec Formats.CatSpec Fortran.RegionSpec Fortran.GroupTabSpec.
Local Open Scope Z_scope. Local Open Scope list_scope.

(** the file [stem]_NNN.i in the directory has the given contents, or does not exist *)
Definition file_is (fs : list ascii -> option (list Z)) (dir stem : list ascii) (num i : Z) (content : option (list Z)) : Prop :=
  forall s3 s1, number 3 num s3 -> number 1 i s1 -> fs (dir ++ lit "/" ++ stem ++ lit "_" ++ s3 ++ lit "." ++ s1) = content.
(** an order in the sense of qsort *)
Definition comparison {A} (cmp : A -> A -> Z) : Prop :=
  (forall a b, cmp a b <= 0 -> 0 <= cmp b a) /\ (forall a b, 0 <= cmp b a -> cmp a b <= 0) /\
  (forall a b c, cmp a b <= 0 -> cmp b c <= 0 -> cmp a c <= 0).
(** what is known of qsort *)
Definition sorts (qsort : forall A : Type, (A -> A -> Z) -> list A -> list A) : Prop :=
  forall A cmp (l : list A), comparison cmp -> Permutation l (qsort A cmp l) /\ StronglySorted (fun a b => cmp a b <= 0) (qsort A cmp l).

(** the files of a group catalogue, one for each element of [cats], with numbers in the byte
    order of the machine *)
Definition tab_files (little : bool) (fs : list ascii -> option (list Z)) (dir : list ascii) (num : Z) (cats : list catalogue) : Prop :=
  forall i cat, nth_error cats i = Some cat -> exists content extra,
    file_is fs dir (lit "group_tab") num (Z.of_nat i) (Some content) /\ catalogue_file little L2_group_tab cat extra content.
(** each file says how many files there are *)
Definition all_files_say (name : string) (cats : list catalogue) (v : Z) : Prop := Forall (fun cat => signed (scalar cat name) = v) cats.

(** the elements of a list with their numbers *)
Definition numbered {A} (l : list A) : list (Z * A) := combine (zseq 0 (length l)) l.
(** all groups: length, number of the file and number in the file *)
Definition all_groups (cats : list catalogue) : list (Z * Z * Z) :=
  concat (map (fun '(i, cat) => map (fun '(j, len) => (signed len, i, j)) (numbered (cat "GroupLen"%string))) (numbered cats)).
(** the number of groups of size [k] in all files *)
Definition groups_of_size (cats : list catalogue) (k : Z) : Z :=
  sumZ (map (fun cat => signed (nth (Z.to_nat k) (cat "Count"%string) 0)) cats).
Definition all_ids (cats : list catalogue) : Z := sumZ (map (fun cat => signed (scalar cat "Nids")) cats).
