(** C85: the functions of groupstuff.c which read and use the hash table of a snapshot. *)
From Coq Require Import QArith.
From Coq Require Import Ascii String.
From Verif Require Import Base.Prelude Snap.ReadSpec Fortran.RegionSpec.
From Verif Require Import Text.StrModel Idl.LibModel Idl.LibSpec Idl.SnapSpec Idl.TabFinal Idl.HashFinal.
Local Open Scope Z_scope. Local Open Scope list_scope.

(** The number of files and of hash cells are those in the header of file 0. *)
Theorem C85_size : forall little fs dir base num n nhash box f files nfiles,
  0 <= num -> snap_files little fs dir base num n nhash box (f :: files) -> 0 <= n < 2 ^ 31 -> 0 <= nhash < 2 ^ 31 ->
  get_hash_table_size little fs dir num base nfiles = Ok (n, nhash).
Proof. exact size_final. Qed.
Print Assumptions C85_size.

(** The tables have for each cell the number of its first particle and its file, for each file
    its last cell and the number of its particles. The rest of the arrays is left alone. *)
Theorem C85_table : forall little fs dir base num nhash box files fuel t,
  0 <= num -> files <> [] -> snap_files little fs dir base num (zlen files) nhash box files -> zlen files < 2 ^ 31 -> nhash < 2 ^ 31 ->
  covers 0 nhash files -> Forall (fun f => cf_cells f <> [] \/ 0 < cf_first f < nhash) files -> room files t -> (List.length files < fuel)%nat ->
  get_hash_table little fs dir num base fuel t =
    Ok (0, {| Hashtable := first_particles files ++ skipn (List.length (cells files)) (Hashtable t);
              Filetable := files_of_cells files ++ skipn (List.length (cells files)) (Filetable t);
              LastHashCell := last_cells files ++ skipn (List.length files) (LastHashCell t);
              NInFiles := particle_counts files ++ skipn (List.length files) (NInFiles t) |}).
Proof. exact table_final. Qed.
Print Assumptions C85_table.
Example C85_table_case : snap_files false (ex_snaps 2 8 8 [ex_1; ex_2]) (lit "/data") (lit "snap") 7 2 8 8 [ex_1; ex_2] /\ covers 0 8 [ex_1; ex_2] /\
  Forall (fun f => cf_cells f <> [] \/ 0 < cf_first f < 8) [ex_1; ex_2] /\
  get_hash_table_size false (ex_snaps 2 8 8 [ex_1; ex_2]) (lit "/data") 7 (lit "snap") 0 = Ok (2, 8) /\
  get_hash_table false (ex_snaps 2 8 8 [ex_1; ex_2]) (lit "/data") 7 (lit "snap") 9 (ex_t 9 3) =
    Ok (0, {| Hashtable := [0; 2; 3; 0; 1; 2; 2; 4; -1]; Filetable := [0; 0; 0; 1; 1; 1; 1; 1; -1]; LastHashCell := [2; 7; -1]; NInFiles := [3; 5; -1] |}).
Proof. split; [exact ex_snap_files|]. split; [repeat split|]. split; [repeat constructor; discriminate|]. split; vm_compute; reflexivity. Qed.
(** A last file without cells is refused, although all files are there. *)
Theorem C85_empty_refuted : exists fs files t,
  snap_files false fs (lit "/data") (lit "snap") 7 (zlen files) 8 8 files /\ covers 0 8 files /\ room files t /\
  exists t', get_hash_table false fs (lit "/data") 7 (lit "snap") 9 t = Ok (-1, t').
Proof. exact empty_refuted. Qed.
Print Assumptions C85_empty_refuted.

(** If a file is missing the result is -1; if it is the first one nothing is changed. *)
Theorem C85_missing : forall little fs dir base num nhash box n files fuel t,
  0 <= num -> files <> [] -> snap_files little fs dir base num n nhash box files -> zlen files < n < 2 ^ 31 -> nhash < 2 ^ 31 ->
  covers 0 (zlen (cells files)) files -> zlen (cells files) <= nhash -> Forall (fun f => cf_cells f <> [] \/ 0 < cf_first f < nhash) files ->
  room files t -> (List.length files < fuel)%nat ->
  file_is fs dir base num (zlen files) None -> exists t', get_hash_table little fs dir num base fuel t = Ok (-1, t').
Proof. exact missing_hash_final. Qed.
Print Assumptions C85_missing.
Example C85_missing_case : snap_files false (ex_snaps 2 8 8 [ex_1]) (lit "/data") (lit "snap") 7 2 8 8 [ex_1] /\ covers 0 3 [ex_1] /\ file_is (ex_snaps 2 8 8 [ex_1]) (lit "/data") (lit "snap") 7 1 None.
Proof. split; [exact ex_snap_files1|]. split; [repeat split|]. apply file_is_intro; [discriminate | discriminate | vm_compute; reflexivity]. Qed.
Theorem C85_missing_first : forall little fs dir base num fuel t nfiles,
  0 <= num -> (0 < fuel)%nat -> file_is fs dir base num 0 None ->
  get_hash_table_size little fs dir num base nfiles = Ok (nfiles, -1) /\ get_hash_table little fs dir num base fuel t = Ok (-1, t).
Proof. exact missing_first_final. Qed.
Print Assumptions C85_missing_first.
Example C85_missing_first_case : file_is (ex_snaps 2 8 8 [ex_1]) (lit "/data") (lit "snap") 8 0 None.
Proof. apply file_is_intro; [discriminate | discriminate | vm_compute; reflexivity]. Qed.

(** The cells are divided in as many blocks of equal size as there are files; the result is the
    number of particles in each block. *)
Theorem C85_cubes : forall files nhash nfiles t tab (per := nhash / nfiles) (block := fun p => concat (zslice (cells files) (p * per) ((p + 1) * per))),
  covers 0 nhash files -> holds files t -> countable files ->
  0 < nfiles <= zlen tab -> (forall p, 0 <= p < nfiles -> zlen (block p) < 2 ^ 31) ->
  get_particles_in_cubes t nhash nfiles tab = Ok (map (fun p => zlen (block p)) (zseq 0 (Z.to_nat nfiles)) ++ skipn (Z.to_nat nfiles) tab).
Proof. exact cubes_final. Qed.
Print Assumptions C85_cubes.
Example C85_cubes_case : exists t, holds [ex_1; ex_2] t /\ countable [ex_1; ex_2] /\ covers 0 8 [ex_1; ex_2] /\ get_particles_in_cubes t 8 4 [-1; -1; -1; -1; -1] = Ok [3; 1; 1; 3; -1].
Proof. destruct ex_holds as (t & E & H1 & H2). exists t. split; [exact H1|]. split; [exact H2|]. split; [repeat split|]. vm_compute in E. injection E as <-. vm_compute. reflexivity. Qed.
(** These are all particles if the number of files divides the number of cells, and need not be
    otherwise. *)
Theorem C85_cubes_all : forall files nhash nfiles (per := nhash / nfiles),
  covers 0 nhash files -> 0 < nfiles -> (nfiles | nhash) ->
  sumZ (map (fun p => zlen (concat (zslice (cells files) (p * per) ((p + 1) * per)))) (zseq 0 (Z.to_nat nfiles))) = sumZ (particle_counts files).
Proof. exact cubes_all_final. Qed.
Print Assumptions C85_cubes_all.
Theorem C85_cubes_refuted : exists files t,
  covers 0 8 files /\ holds files t /\ countable files /\
  exists tab, get_particles_in_cubes t 8 3 [0; 0; 0] = Ok tab /\ sumZ tab <> sumZ (particle_counts files).
Proof. exact cubes_refuted. Qed.
Print Assumptions C85_cubes_refuted.
