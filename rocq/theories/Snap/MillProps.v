(** C78: class Snapshot of subfind_lgadget2.py, from the bytes of the files. *)
From Coq Require Import Ascii String Reals Lra.
From Flocq Require Import Core.
From Verif Require Import Base.Prelude Base.ListLemmas Formats.FileSpec Formats.CatSpec Peano.PeanoModel Snap.ReadModel Snap.ReadSpec Fortran.RegionSpec Fortran.RegionFinal Fortran.VolumeSpec.
From Verif Require Import Snap.MillModel Snap.MillSpec Snap.MillFinal Snap.MillFloat.
Local Open Scope Z_scope.

(** the state of the object; [bits] is the least number with room for the hash table *)
Definition the_object (fs : list (cellfile (list Z))) (nhash boxsize bits : Z) : snapshot :=
  {| s_nhash := nhash; s_boxsize := boxsize; s_nfiles := zlen fs; s_ncell := 2 ^ bits; s_bits := bits |}.
Theorem C78_init : forall little files fs nhash boxsize, is_snapshot files fs nhash boxsize ->
  exists bits, snapshot_init little files = Ok (the_object fs nhash boxsize bits) /\ 0 <= bits <= 11 /\ nhash <= 8 ^ bits /\ forall c, 0 <= c < bits -> 8 ^ c < nhash.
Proof. exact init_ok. Qed.
Print Assumptions C78_init.

(** read_cells after any method calls: the particles of the cells, in the order of the files *)
Theorem C78_cells : forall little files fs nhash boxsize, is_snapshot files fs nhash boxsize -> forall bits float_dims junk calls keys,
  Forall (fun k => - nhash <= k < nhash) keys -> some_cell (wanted nhash keys) fs -> let s := the_object fs nhash boxsize bits in
  exists sel, picks_files (wanted nhash keys) fs sel /\
    snd (snap_read_cells little files s (after little files float_dims junk s calls) keys) = Ok (map (fun p => fst (fst p)) sel, map (fun p => snd (fst p)) sel, map snd sel).
Proof. exact mill_cells. Qed.
Print Assumptions C78_cells.
Theorem C78_cells_none : forall little files fs nhash boxsize, is_snapshot files fs nhash boxsize -> forall bits float_dims junk calls keys,
  Forall (fun k => - nhash <= k < nhash) keys -> ~ some_cell (wanted nhash keys) fs -> let s := the_object fs nhash boxsize bits in
  snd (snap_read_cells little files s (after little files float_dims junk s calls) keys) = Err EValue.
Proof. exact mill_none. Qed.
Print Assumptions C78_cells_none.
Theorem C78_cells_bad_key : forall little files fs nhash boxsize, is_snapshot files fs nhash boxsize -> forall bits float_dims junk calls keys,
  ~ Forall (fun k => - nhash <= k < nhash) keys -> let s := the_object fs nhash boxsize bits in
  snd (snap_read_cells little files s (after little files float_dims junk s calls) keys) = Err EIndex.
Proof. exact mill_bad. Qed.
Print Assumptions C78_cells_bad_key.

(** read_region with a version of numpy in which dimensions can be floats: the particles of the
    cells between the corners, in the order of the files; the box is periodic *)
Theorem C78_region : forall little files fs nhash boxsize, is_snapshot files fs nhash boxsize -> forall bits junk x0 x1 y0 y1 z0 z1, 1 <= bits <= 11 -> forall calls,
  x0 <= x1 -> y0 <= y1 -> z0 <= z1 -> let inside := in_corners bits (x0, y0, z0) (x1, y1, z1) in (forall c, inside c -> c < nhash) -> some_cell inside fs -> let s := the_object fs nhash boxsize bits in
  exists sel, picks_files inside fs sel /\
    snd (read_region little files true junk s (after little files true junk s calls) [x0; x1; y0; y1; z0; z1]) = Ok (map (fun p => fst (fst p)) sel, map (fun p => snd (fst p)) sel, map snd sel).
Proof. exact mill_region. Qed.
Print Assumptions C78_region.
(** none of the cells is in any of the files, or there are none: ValueError, not empty arrays *)
Theorem C78_region_none : forall little files fs nhash boxsize, is_snapshot files fs nhash boxsize -> forall bits junk x0 x1 y0 y1 z0 z1, 1 <= bits <= 11 -> forall calls,
  x0 <= x1 -> y0 <= y1 -> z0 <= z1 -> let inside := in_corners bits (x0, y0, z0) (x1, y1, z1) in (forall c, inside c -> c < nhash) -> ~ some_cell inside fs -> let s := the_object fs nhash boxsize bits in
  snd (read_region little files true junk s (after little files true junk s calls) [x0; x1; y0; y1; z0; z1]) = Err EValue.
Proof. exact mill_region_none. Qed.
Print Assumptions C78_region_none.
Theorem C78_region_empty : forall little files fs nhash boxsize, is_snapshot files fs nhash boxsize -> forall bits junk x0 x1 y0 y1 z0 z1, 1 <= bits <= 11 -> forall calls,
  x1 < x0 \/ y1 < y0 \/ z1 < z0 -> let s := the_object fs nhash boxsize bits in
  snd (read_region little files true junk s (after little files true junk s calls) [x0; x1; y0; y1; z0; z1]) = Err EValue.
Proof. exact mill_region_empty. Qed.
Print Assumptions C78_region_empty.
(** a hash table which is smaller than the grid *)
Theorem C78_region_outside : forall little files fs nhash boxsize, is_snapshot files fs nhash boxsize -> forall bits junk x0 x1 y0 y1 z0 z1, 1 <= bits <= 11 -> forall calls,
  x0 <= x1 -> y0 <= y1 -> z0 <= z1 -> (exists c, in_corners bits (x0, y0, z0) (x1, y1, z1) c /\ nhash <= c) -> let s := the_object fs nhash boxsize bits in
  snd (read_region little files true junk s (after little files true junk s calls) [x0; x1; y0; y1; z0; z1]) = Err EIndex.
Proof. exact mill_region_outside. Qed.
Print Assumptions C78_region_outside.

(** if each particle is in the hash cell of its position then no particle of the region is
    missed. [grid x] is the cell coordinate of [x] *)
Theorem C78_contains : forall little files fs boxsize bits junk calls grid le xmin xmax ymin ymax zmin zmax, is_snapshot files fs (8 ^ bits) boxsize -> 1 <= bits <= 10 -> covers 0 (8 ^ bits) fs ->
  monotone le grid -> located grid (2 ^ bits) (key_of bits) fs -> grid xmin <= grid xmax -> grid ymin <= grid ymax -> grid zmin <= grid zmax -> let s := the_object fs (8 ^ bits) boxsize bits in
  exists sel, snd (read_region little files true junk s (after little files true junk s calls) [grid xmin; grid xmax; grid ymin; grid ymax; grid zmin; grid zmax]) =
      Ok (map (fun p => fst (fst p)) sel, map (fun p => snd (fst p)) sel, map snd sel) /\
    (forall p, In p sel -> In p (particles fs) /\ within_cells grid (2 ^ bits) xmin xmax (coord 0 p) /\ within_cells grid (2 ^ bits) ymin ymax (coord 1 p) /\ within_cells grid (2 ^ bits) zmin zmax (coord 2 p)) /\ forall p, In p (particles fs) -> in_volume le (xmin, ymin, zmin) (xmax, ymax, zmax) p = true -> In p sel.
Proof. exact mill_contains. Qed.
Print Assumptions C78_contains.
(** the expression for the cell coordinate is monotone in double precision *)
Theorem C78_double : forall (val : Z -> R) boxsize n, (0 < double (boxsize / IZR n))%R -> monotone (fun a b => Rle_bool (val a) (val b)) (fun a => floor_cell boxsize n (val a)).
Proof. exact double_monotone. Qed.
Print Assumptions C78_double.
(** the Millennium simulation: 500 Mpc/h, 256 cells *)
Example C78_ex_double : (0 < double (500 / IZR 256))%R.
Proof. apply double_pos. lra. Qed.

(** with numpy 1.12 or newer read_region never works *)
Theorem C78_region_refuted : forall little files junk s state icoords, read_region little files false junk s state icoords = (state, Err EType).
Proof. exact mill_region_numpy. Qed.
Print Assumptions C78_region_refuted.

(** a negative size of the hash table in the header is an error *)
Theorem C78_negative : forall little files s state keys, s_nhash s < 0 -> snap_read_cells little files s state keys = (state, Err EValue).
Proof. intros little files s state keys H. unfold snap_read_cells. apply Z.ltb_lt in H. now rewrite H. Qed.
Print Assumptions C78_negative.

(** two files with 3 and 5 of the 8 cells *)
Definition ex_grid (x : Z) : Z := x / 10.
Definition ex_points : list (cellfile (list Z)) :=
  [{| cf_first := 0; cf_cells := [[([1; 2; 3], [11; 12; 13], [100]); ([4; 5; 6], [14; 15; 16], [2 ^ 64 - 1])]; []; [([17; 18; 9], [17; 18; 19], [102])]] |};
   {| cf_first := 3; cf_cells := [[([11; 2; 3], [24; 25; 26], [7])]; [([11; 2; 13], [34; 35; 36], [8]); ([12; 3; 14], [44; 45; 46], [9])]; []; []; [([1; 2; 13], [54; 55; 56], [10])]] |}].
Definition ex_cat (f : cellfile (list Z)) : catalogue := fun name =>
  let all := concat (cf_cells f) in
  (if (name =? "PartType1/Coordinates")%string then concat (map (fun p => fst (fst p)) all) else if (name =? "PartType1/Velocities")%string then concat (map (fun p => snd (fst p)) all)
   else if (name =? "PartType1/ParticleIDs")%string then concat (map snd all)
   else if (name =? "first_hash_cell")%string then [cf_first f] else if (name =? "last_hash_cell")%string then [cf_first f + zlen (cf_cells f) - 1] else if (name =? "blockid")%string then starts 0 (cf_cells f)
   else if (name =? "Header/NumPart_ThisFile")%string then [0; zlen all; 0; 0; 0; 0] else if (name =? "Header/MassTable")%string then [0; 7; 0; 0; 0; 0]
   else if (name =? "Header/NumPart_Total")%string then [0; 7; 0; 0; 0; 0] else if (name =? "Header/fill")%string then repeat 0 84
   else if (name =? "Header/NumFilesPerSnapshot")%string then [2] else if (name =? "Header/HashTabSize")%string then [8] else [5]).
Definition ex_file (n : nat) : cellfile (list Z) := nth n ex_points {| cf_first := 0; cf_cells := [] |}.
Definition ex_files (i : Z) : option (list Z) :=
  if i =? 0 then Some (file_bytes false (L2_snapshot (ex_cat (ex_file 0))) ++ [9; 9])%list
  else if i =? 1 then Some (file_bytes true (L2_snapshot (ex_cat (ex_file 1))) ++ [])%list else None.
Example C78_ex : is_snapshot ex_files ex_points 8 5 /\ covers 0 (8 ^ 1) ex_points /\ monotone Z.leb ex_grid /\ located ex_grid (2 ^ 1) (key_of 1) ex_points /\
  snapshot_init true ex_files = Ok (the_object ex_points 8 5 1) /\
  let s := the_object ex_points 8 5 1 in
  let state := after true ex_files true 0 s [Cells [1]; Region [0; 1; 0; 0; 0; 0]; Cells [100]] in
  snd (snap_read_cells true ex_files s state [7; 2]) = Ok ([[17; 18; 9]; [1; 2; 13]], [[17; 18; 19]; [54; 55; 56]], [[102]; [10]]) /\
  snd (snap_read_cells true ex_files s state [2; 8]) = Err EIndex /\
  (* from -1 to 0 along x: both cells *)
  snd (read_region true ex_files true 0 s state [-1; 0; 1; 1; 0; 0]) = Ok ([[17; 18; 9]], [[17; 18; 19]], [[102]]) /\
  key_scalar 1 (1, 1, 0) = Ok 2 /\ key_scalar 1 (0, 1, 0) = Ok 1 /\
  snd (read_region true ex_files true 0 s state [0; 0; 1; 0; 0; 0]) = Err EValue /\
  snd (read_region true ex_files true 0 s state [0; 0; -5; 20; 0; 0]) = Ok ([[1; 2; 3]; [4; 5; 6]], [[11; 12; 13]; [14; 15; 16]], [[100]; [2 ^ 64 - 1]]).
Proof.
  assert (forall n lf extra, (n < 2)%nat -> ex_files (Z.of_nat n) = Some (file_bytes lf (L2_snapshot (ex_cat (ex_file n))) ++ extra)%list ->
    exists lf cat extra, ex_files (Z.of_nat n) = Some (file_bytes lf (L2_snapshot cat) ++ extra)%list /\ records_ok (L2_snapshot cat) /\ holds_cells cat (ex_file n) /\
      (n = 0%nat -> scalar cat "Header/NumFilesPerSnapshot" = zlen ex_points /\ scalar cat "Header/HashTabSize" = 8 /\ scalar cat "Header/BoxSize" = 5)) as K.
  { intros n lf extra Hn E. exists lf, (ex_cat (ex_file n)), extra. split; [exact E|]. destruct n as [|[|n]]; [| |lia].
    all: split; [split; [apply pieces_okb; vm_compute; reflexivity | apply Forall_forall; intros p Hp; vm_compute in Hp; repeat (destruct Hp as [<-|Hp]; [first [exact I | reflexivity]|]); destruct Hp]|]; split; [split; [repeat constructor|]; repeat (split; [vm_compute; reflexivity|]); vm_compute; reflexivity|].
    all: intro Q; try discriminate; repeat split. }
  split; [|split; [cbn; unfold zlen; cbn; lia|]; split; [intros a c H; unfold ex_grid; apply Z.leb_le in H; apply Z.div_le_mono; lia|]; split; [|vm_compute; repeat split]].
  2:{ intros h p (f & k & c & Hf & Hk & <- & Hp). assert (nth_error (cf_cells f) k = Some c -> (k < 5)%nat) as Bk by (intro Q; assert (nth_error (cf_cells f) k <> None) as Q2 by congruence; apply nth_error_Some in Q2; clear Q; rename Q2 into Q; destruct Hf as [<-|[<-|[]]]; vm_compute in Q; lia). specialize (Bk Hk).
    destruct Hf as [<-|[<-|[]]]; do 5 (destruct k as [|k]; [vm_compute in Hk; try discriminate Hk; injection Hk as <-; cbn [In] in Hp; repeat destruct Hp as [<-|Hp]; try contradiction; vm_compute; repeat split; congruence|]); lia. }
  split; [discriminate|]. split; [reflexivity|]. split; [lia|]. split; [repeat constructor; vm_compute; try discriminate; try reflexivity|].
  intros i f Hi. assert (i < 2)%nat as Hlt by (apply (proj1 (nth_error_Some ex_points i)); rewrite Hi; discriminate).
  assert (f = ex_file i) as -> by (unfold ex_file; symmetry; now apply nth_error_nth).
  destruct i as [|[|i]]; [apply (K 0%nat false [9; 9]); [lia | reflexivity] | apply (K 1%nat true []); [lia | reflexivity] | lia].
Qed.
