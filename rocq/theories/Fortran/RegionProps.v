(** C67-C68: reading parts of Millennium snapshot files from Fortran. *)
From Coq Require Import Ascii String.
From Verif Require Import Base.Prelude Base.ListLemmas Formats.FileSpec Formats.CatSpec Snap.ReadModel Snap.ReadSpec.
From Verif Require Import Fortran.RegionModel Fortran.RegionSpec Fortran.RegionFinal.
Local Open Scope Z_scope.

(** ** C67: readparticles.c, for files and machines of either byte order *)

(** the coordinates of particles ifirst to ilast, counting from 1 *)
Theorem C67_coords : forall little lf cat extra content, snapshot_file lf cat extra content -> forall ifirst ilast, 1 <= ifirst <= ilast -> ilast <= npart_of cat -> 256 + 12 * npart_of cat < 2 ^ 31 ->
  readpartcoords little (negb (Bool.eqb lf little)) content ifirst ilast =
  Ok (let c k := column (cat "PartType1/Coordinates"%string) k (ifirst - 1) (ilast - ifirst + 1) in (c 0, c 1, c 2)).
Proof. exact coords_final. Qed.
Print Assumptions C67_coords.

Theorem C67_velocities : forall little lf cat extra content, snapshot_file lf cat extra content -> forall ifirst ilast, 1 <= ifirst <= ilast -> ilast <= npart_of cat -> 264 + 24 * npart_of cat < 2 ^ 31 ->
  readpartvel little (negb (Bool.eqb lf little)) content ifirst ilast =
  Ok (let c k := column (cat "PartType1/Velocities"%string) k (ifirst - 1) (ilast - ifirst + 1) in (c 0, c 1, c 2)).
Proof. exact velocities_final. Qed.
Print Assumptions C67_velocities.

Theorem C67_ids : forall little lf cat extra content, snapshot_file lf cat extra content -> forall ifirst ilast, 1 <= ifirst <= ilast -> ilast <= npart_of cat -> 276 + 32 * npart_of cat < 2 ^ 31 ->
  readpartids little (negb (Bool.eqb lf little)) content ifirst ilast = Ok (map signed64 (zslice (cat "PartType1/ParticleIDs"%string) (ifirst - 1) ilast)).
Proof. exact ids_final. Qed.
Print Assumptions C67_ids.

Theorem C67_hash : forall little lf cat extra content, snapshot_file lf cat extra content -> 292 + 32 * npart_of cat < 2 ^ 31 ->
  scalar cat "first_hash_cell" < 2 ^ 31 -> scalar cat "last_hash_cell" < 2 ^ 31 - 1 -> Forall (fun v => v < 2 ^ 31) (cat "blockid"%string) ->
  readhash little (negb (Bool.eqb lf little)) content = Ok (scalar cat "first_hash_cell", scalar cat "last_hash_cell", cat "blockid"%string, npart_of cat).
Proof. exact hash_final. Qed.
Print Assumptions C67_hash.

(** the offsets are computed as int: undefined behaviour from 67108855 particles on *)
Theorem C67_2GB_refuted : forall little lf cat extra content, snapshot_file lf cat extra content -> npart_of cat < 2 ^ 31 -> 2 ^ 31 <= 292 + 32 * npart_of cat ->
  readhash little (negb (Bool.eqb lf little)) content = Err EAbort.
Proof. exact large_final. Qed.
Print Assumptions C67_2GB_refuted.

(** a file with [n] particles, all with the same numbers, in one cell *)
Definition ex_cat (first last : Z) (pos vel ids starts : list Z) : catalogue := fun name =>
  (if (name =? "PartType1/Coordinates")%string then pos else if (name =? "PartType1/Velocities")%string then vel else if (name =? "PartType1/ParticleIDs")%string then ids
   else if (name =? "first_hash_cell")%string then [first] else if (name =? "last_hash_cell")%string then [last] else if (name =? "blockid")%string then starts
   else if (name =? "Header/NumPart_ThisFile")%string then [0; zlen ids; 0; 0; 0; 0] else if (name =? "Header/MassTable")%string then [0; 7; 0; 0; 0; 0]
   else if (name =? "Header/NumPart_Total")%string then [0; zlen ids; 0; 0; 0; 0] else if (name =? "Header/fill")%string then repeat 0 84 else [1]).
Definition blank (n : Z) : catalogue := ex_cat 0 0 (repeat 5 (Z.to_nat (n * 3))) (repeat 6 (Z.to_nat (n * 3))) (repeat 8 (Z.to_nat n)) [0].
Example C67_blank_ex : forall n lf, 0 <= n < 2 ^ 28 -> npart_of (blank n) = n /\ snapshot_file lf (blank n) [] (file_bytes lf (L2_snapshot (blank n)) ++ []).
Proof.
  intros n lf Hn.
  assert (forall (x : Z) n, 0 <= n -> zlen (repeat x (Z.to_nat n)) = n) as R by (intros; unfold zlen; rewrite repeat_length; lia).
  assert (forall (x : Z) n (P : Z -> Prop), P x -> Forall P (repeat x n)) as F by (intros x k P H; induction k; constructor; assumption).
  assert (npart_of (blank n) = n) as En by (change (npart_of (blank n)) with (zlen (repeat 8 (Z.to_nat n))); apply R; lia). split; [exact En|]. split; [|reflexivity].
  unfold L2_snapshot. fold (npart_of (blank n)). rewrite En. repeat (apply Forall_app; split); unfold record; (apply Forall_cons; [|apply Forall_app; split; [|apply Forall_cons; [|apply Forall_nil]]]).
  1,3: cbn [map sumZ piece_size attr_of fd_name fd_size L2_snapshot_header one six]; split; [discriminate | reflexivity].
  1: unfold L2_snapshot_header; cbn [map]; repeat (apply Forall_cons || apply Forall_nil); cbn [attr_of fd_name fd_size fd_dims one six piece_ok map extent fold_left];
     (split; [lia|]; split; [repeat constructor; lia|]; split; [reflexivity|]); try change (blank n "Header/NumPart_ThisFile"%string) with [0; npart_of (blank n); 0; 0; 0; 0]; try change (blank n "Header/NumPart_Total"%string) with [0; npart_of (blank n); 0; 0; 0; 0];
     rewrite ?En; cbn; repeat (apply Forall_cons || apply Forall_nil); lia.
  all: unfold plain_data; cbn [map sumZ piece_size piece_ok fold_left]; try change (blank n "PartType1/Coordinates"%string) with (repeat 5 (Z.to_nat (n * 3))); try change (blank n "PartType1/Velocities"%string) with (repeat 6 (Z.to_nat (n * 3)));
     try change (blank n "PartType1/ParticleIDs"%string) with (repeat 8 (Z.to_nat n)); rewrite ?R by lia; try lia.
  all: try (apply Forall_cons; [split; [lia|]; split; [repeat constructor; lia|]; split; [lia|]; apply F; lia | apply Forall_nil]).
  all: cbn; try lia; repeat (apply Forall_cons || apply Forall_nil); cbn; repeat split; repeat constructor; try lia.
  all: try (apply F; lia); rewrite R by lia; destruct n; lia.
Qed.
(** so the hypotheses of [C67_2GB_refuted] can be met *)
Example C67_2GB_ex : forall n, n = 67108855 -> n < 2 ^ 31 /\ 2 ^ 31 <= 292 + 32 * n /\ npart_of (blank n) = n /\ snapshot_file true (blank n) [] (file_bytes true (L2_snapshot (blank n)) ++ []).
Proof. intros n H. split; [lia|]. split; [lia|]. apply C67_blank_ex. lia. Qed.

Definition ex_file1 : catalogue := ex_cat 0 2 [1; 2; 3; 4; 5; 6; 7; 8; 9] [11; 12; 13; 14; 15; 16; 17; 18; 19] [100; 2 ^ 64 - 1; 102] [0; 2; 2].
Example C67_ex : snapshot_file false ex_file1 [9; 9] (file_bytes false (L2_snapshot ex_file1) ++ [9; 9]) /\ npart_of ex_file1 = 3 /\
  let f := file_bytes false (L2_snapshot ex_file1) ++ [9; 9] in
  readpartcoords true true f 2 3 = Ok ([4; 7], [5; 8], [6; 9]) /\ readpartvel true true f 2 3 = Ok ([14; 17], [15; 18], [16; 19]) /\
  readpartids true true f 1 2 = Ok [100; -1] /\ readhash true true f = Ok (0, 2, [0; 2; 2], 3) /\ readpartids true true f 3 40 = Err EIO.
Proof.
  split; [split; [apply pieces_okb; vm_compute; reflexivity | reflexivity]|]. vm_compute. repeat split.
Qed.

(** ** C68: readregion.f90 *)

(** the particles of exactly the flagged cells, in file order, with all arrays in step; if
    there are none a file which is not open is closed (undefined behaviour) *)
Theorem C68_region : forall little lf nhash fs contents hashmap junk, Forall2 (hash_file lf) fs contents -> covers 0 nhash fs -> zlen hashmap = nhash ->
  exists sel, picks_files (flagged hashmap) fs sel /\
    (sel <> [] -> readregion little (negb (Bool.eqb lf little)) nhash contents hashmap junk =
       Ok (zlen sel, {| r_x := pos_of 0 sel; r_y := pos_of 1 sel; r_z := pos_of 2 sel; r_vx := vel_of 0 sel; r_vy := vel_of 1 sel; r_vz := vel_of 2 sel; r_ids := ids_of sel |})) /\
    (sel = [] -> readregion little (negb (Bool.eqb lf little)) nhash contents hashmap junk = Err EAbort).
Proof. exact region_final. Qed.
Print Assumptions C68_region.

(** the python method Snapshot.read_cells (C43) returns the same particles in the same order,
    whatever was read before *)
Theorem C68_python : forall little lf nhash fs contents hashmap junk keys n r, Forall2 (hash_file lf) fs contents -> covers 0 nhash fs -> zlen hashmap = nhash ->
  Forall (fun k => 0 <= k < nhash) keys -> (forall c, 0 <= c < nhash -> (flagged hashmap c <-> In c keys)) ->
  readregion little (negb (Bool.eqb lf little)) nhash contents hashmap junk = Ok (n, r) ->
  forall calls, exists pos vel ids, snd (read_cells nhash (map file_of fs) (cells_history nhash (map file_of fs) calls) keys) = Ok (pos, vel, ids) /\
    n = zlen pos /\ r = {| r_x := map (fun p => nth 0 p 0) pos; r_y := map (fun p => nth 1 p 0) pos; r_z := map (fun p => nth 2 p 0) pos;
                           r_vx := map (fun p => nth 0 p 0) vel; r_vy := map (fun p => nth 1 p 0) vel; r_vz := map (fun p => nth 2 p 0) vel; r_ids := map (fun p => nth 0 p 0) ids |}.
Proof. exact python_final. Qed.
Print Assumptions C68_python.

Definition ex_region : list (cellfile (list Z)) :=
  [{| cf_first := 0; cf_cells := [[([1; 2; 3], [11; 12; 13], [100]); ([4; 5; 6], [14; 15; 16], [-1])]; []; [([7; 8; 9], [17; 18; 19], [102])]] |};
   {| cf_first := 3; cf_cells := [[([21; 22; 23], [24; 25; 26], [7])]; [([31; 32; 33], [34; 35; 36], [8]); ([41; 42; 43], [44; 45; 46], [9])]; []] |}].
Definition ex_file2 : catalogue := ex_cat 3 5 [21; 22; 23; 31; 32; 33; 41; 42; 43] [24; 25; 26; 34; 35; 36; 44; 45; 46] [7; 8; 9] [0; 1; 3].
Definition ex_bytes : list (list Z) := [file_bytes false (L2_snapshot ex_file1) ++ [9; 9]; file_bytes false (L2_snapshot ex_file2) ++ []].
Example C68_ex : Forall2 (hash_file false) ex_region ex_bytes /\ covers 0 6 ex_region /\
  readregion true true 6 ex_bytes [false; true; true; true; false; true] 77 =
    Ok (2, {| r_x := [7; 21]; r_y := [8; 22]; r_z := [9; 23]; r_vx := [17; 24]; r_vy := [18; 25]; r_vz := [19; 26]; r_ids := [102; 7] |}) /\
  readregion true true 6 ex_bytes [false; true; false; false; false; true] 77 = Err EAbort /\
  (forall c, 0 <= c < 6 -> (flagged [false; true; true; true; false; true] c <-> In c [5; 3; 2; 1; 2])).
Proof.
  split; [|split; [|split; [vm_compute; reflexivity|split; [vm_compute; reflexivity|]]]].
  - constructor; [exists ex_file1, [9; 9] | constructor; [exists ex_file2, [] | constructor]]; cbn zeta; (split; [reflexivity|]; split; [apply pieces_okb; vm_compute; reflexivity|]; split; [repeat constructor|]; repeat (split; [vm_compute; reflexivity|]); vm_compute; reflexivity).
  - cbn. unfold zlen. cbn. lia.
  - intros c Hc. unfold flagged. assert (c = 0 \/ c = 1 \/ c = 2 \/ c = 3 \/ c = 4 \/ c = 5) as H by lia. destruct H as [->|[->|[->|[->|[->| ->]]]]]; cbn; (split; intro Q; [try discriminate Q; tauto | try reflexivity; lia]).
Qed.
