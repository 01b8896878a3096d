(** Theorems about the names of the Millennium files (C80). *)
From Coq Require Import Ascii String NArith.
From Verif Require Import Base.Prelude Text.StrModel Text.StrSpec Text.PathModel Text.PathSpec Text.PathProofs.
Local Open Scope char_scope. Local Open Scope Z_scope. Local Open Scope list_scope.

(** *** C80; [number w z s]: s is z written with at least w digits, [file_type i d b]: directory and name of type i *)
Theorem C80_python : forall itype isnap ifile d b, 0 <= isnap -> 0 <= ifile -> file_type itype d b ->
  exists m s s' n, number 2 ((ifile + 3 * (63 - isnap)) mod 14) m /\ number 2 isnap s /\ number 3 isnap s' /\ number 1 ifile n /\
    cosma_file_path itype isnap ifile = Some (lit "/milli" ++ m ++ lit "/d" ++ s ++ lit "/" ++ lit d ++ lit "/" ++ lit b ++ lit "_" ++ s' ++ lit "." ++ n).
Proof. exact shape. Qed.
Print Assumptions C80_python.
Theorem C80_python_distinct : forall i s f i' s' f', 0 <= i <= 4 -> 0 <= i' <= 4 -> 0 <= s -> 0 <= s' -> 0 <= f -> 0 <= f' ->
  cosma_file_path i s f = cosma_file_path i' s' f' -> i = i' /\ s = s' /\ f = f'.
Proof. exact python_inj. Qed.
Print Assumptions C80_python_distinct.
(** the Fortran function gives the same path below "/data", followed by blanks *)
Theorem C80_fortran : forall itype isnap ifile, 0 <= itype <= 4 -> 0 <= isnap <= 99 -> 0 <= ifile <= 999 -> 0 <= ifile + 3 * (63 - isnap) ->
  exists p, cosma_file_path itype isnap ifile = Some p /\ filepath itype isnap ifile = Ok ((lit "/data" ++ p) ++ repeat " " (256 - length (lit "/data" ++ p))).
Proof. exact fortran_python. Qed.
Print Assumptions C80_fortran.
Theorem C80_fortran_distinct : forall i s f i' s' f', 0 <= i <= 4 -> 0 <= i' <= 4 -> 0 <= s <= 99 -> 0 <= s' <= 99 -> 0 <= f <= 999 -> 0 <= f' <= 999 ->
  0 <= f + 3 * (63 - s) -> 0 <= f' + 3 * (63 - s') -> filepath i s f = filepath i' s' f' -> i = i' /\ s = s' /\ f = f'.
Proof. exact fortran_inj. Qed.
Print Assumptions C80_fortran_distinct.
Theorem C80_fortran_stop : forall itype isnap ifile, ~ 0 <= itype <= 4 -> filepath itype isnap ifile = Err EAbort.
Proof. exact fortran_stop. Qed.
Print Assumptions C80_fortran_stop.
(** from 1000 files on different files get the same name; after snapshot 63 the directory number can be negative *)
Theorem C80_fortran_distinct_refuted :
  (~ forall s f f', 0 <= s <= 63 -> 0 <= f -> 0 <= f' -> filepath 0 s f = filepath 0 s f' -> f = f') /\
  (~ forall s f f', 0 <= s <= 99 -> 0 <= f <= 999 -> 0 <= f' <= 999 -> exists p, cosma_file_path 0 s f = Some p /\ filepath 0 s f = Ok ((lit "/data" ++ p) ++ repeat " " (256 - length (lit "/data" ++ p)))).
Proof.
  split; intro H.
  - assert (1000 = 1014) as E; [|discriminate E]. apply (H 63); solve [(vm_compute; intuition discriminate) | (vm_compute; reflexivity)].
  - destruct (H 66 0 0) as (p & E & F); [lia | lia | lia |]. vm_compute in E. injection E as <-. vm_compute in F. discriminate F.
Qed.
Print Assumptions C80_fortran_distinct_refuted.
(** Snapshot.open_file *)
Theorem C80_snapshot : forall basedir basename isnap ifile, basedir <> lit "COSMA" -> 0 <= isnap -> 0 <= ifile ->
  exists s n, number 3 isnap s /\ number 1 ifile n /\ snapshot_name basedir basename isnap ifile = Ok (basedir ++ lit "/snapdir_" ++ s ++ lit "/" ++ basename ++ lit "_" ++ s ++ lit "." ++ n).
Proof. exact name_shape. Qed.
Print Assumptions C80_snapshot.
Theorem C80_snapshot_cosma : forall basename isnap ifile, exists p, cosma_file_path 0 isnap ifile = Some p /\ snapshot_name (lit "COSMA") basename isnap ifile = Ok (lit "/gpfs/data/Millennium/" ++ p).
Proof. exact name_cosma. Qed.
Print Assumptions C80_snapshot_cosma.
Theorem C80_snapshot_distinct : forall basedir b b' s s' f f', basedir <> lit "COSMA" -> 0 <= s -> 0 <= s' -> 0 <= f -> 0 <= f' ->
  snapshot_name basedir b s f = snapshot_name basedir b' s' f' -> b = b' /\ s = s' /\ f = f'.
Proof. exact name_inj. Qed.
Print Assumptions C80_snapshot_distinct.

Example C80_case :
  cosma_file_path 0 63 511 = Some (lit "/milli07/d63/snapshot/snap_millennium_063.511") /\
  cosma_file_path 4 5 12 = Some (lit "/milli04/d05/group_ids/group_ids_005.12") /\
  filepath 4 5 12 = Ok (lit "/data/milli04/d05/group_ids/group_ids_005.12" ++ repeat " " 212) /\
  snapshot_name (lit "/data") (lit "snap") 7 30 = Ok (lit "/data/snapdir_007/snap_007.30").
Proof. repeat split; vm_compute; reflexivity. Qed.
