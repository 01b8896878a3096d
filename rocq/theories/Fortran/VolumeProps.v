(** C72: the program which writes the particles of a volume (readregionexample.f90). *)
From Coq Require Import Ascii String Reals.
From Flocq Require Import Core.
From Verif Require Import Base.Prelude Base.ListLemmas Formats.FileSpec Formats.CatSpec Snap.ReadSpec Peano.PeanoModel Fortran.RegionModel Fortran.RegionSpec Fortran.FofSpec Fortran.VolumeModel Fortran.VolumeSpec Fortran.VolumeFloat Fortran.VolumeProofs Fortran.RegionFinal Fortran.RegionProps.
Local Open Scope Z_scope.

(** a snapshot with 8^b hash cells, in which each particle is in the cell of its position: if
    any of the cells between the corners of the volume has a particle then the lines are
    exactly the particles in the volume, in the order of the files. [key_of b] is the
    Peano-Hilbert key of C29, [cell n x] the cell coordinate of [x] with [n] cells along a side *)
Theorem C72_volume : forall little lf le cell b fs contents junk xmin xmax ymin ymax zmin zmax, 1 <= b <= 10 -> Forall2 (hash_file lf) fs contents -> covers 0 (8 ^ b) fs ->
  monotone le (cell (2 ^ b)) -> located (cell (2 ^ b)) (2 ^ b) (key_of b) fs ->
  (exists p h t, in_cell fs h p /\ between (cell (2 ^ b)) (2 ^ b) (xmin, ymin, zmin) (xmax, ymax, zmax) t /\ key_of b t = Some h) ->
  volume_program little (negb (Bool.eqb lf little)) le cell (8 ^ b) contents junk xmin xmax ymin ymax zmin zmax =
  Ok (map (fun p => (coord 0 p, coord 1 p, coord 2 p)) (filter (in_volume le (xmin, ymin, zmin) (xmax, ymax, zmax)) (particles fs))).
Proof. exact volume_lines. Qed.
Print Assumptions C72_volume.
(** the velocities and ids are in step with the positions *)
Theorem C72_arrays : forall little lf le cell b fs contents junk xmin xmax ymin ymax zmin zmax, 1 <= b <= 10 -> Forall2 (hash_file lf) fs contents -> covers 0 (8 ^ b) fs ->
  monotone le (cell (2 ^ b)) -> located (cell (2 ^ b)) (2 ^ b) (key_of b) fs ->
  (exists p h t, in_cell fs h p /\ between (cell (2 ^ b)) (2 ^ b) (xmin, ymin, zmin) (xmax, ymax, zmax) t /\ key_of b t = Some h) ->
  let kept := filter (in_volume le (xmin, ymin, zmin) (xmax, ymax, zmax)) (particles fs) in
  exists r, volume little (negb (Bool.eqb lf little)) le cell (8 ^ b) contents junk xmin xmax ymin ymax zmin zmax = Ok (zlen kept, r) /\
    let first := firstn (length kept) in
    first (r_x r) = pos_of 0 kept /\ first (r_y r) = pos_of 1 kept /\ first (r_z r) = pos_of 2 kept /\ first (r_vx r) = vel_of 0 kept /\ first (r_vy r) = vel_of 1 kept /\ first (r_vz r) = vel_of 2 kept /\ first (r_ids r) = ids_of kept.
Proof. exact volume_arrays. Qed.
Print Assumptions C72_arrays.
(** a particle in the volume is in one of those cells; so nothing is written if and only if there
    is nothing in the volume, but the program fails if the cells are empty (it closes a file which
    is not open) *)
Theorem C72_some : forall le grid b fs lo hi p h, 1 <= b -> monotone le grid -> located grid (2 ^ b) (key_of b) fs -> in_cell fs h p -> in_volume le lo hi p = true ->
  exists t, between grid (2 ^ b) lo hi t /\ key_of b t = Some h.
Proof. exact some_final. Qed.
Print Assumptions C72_some.
Theorem C72_empty_refuted : forall little lf le cell b fs contents junk xmin xmax ymin ymax zmin zmax, 1 <= b <= 10 -> Forall2 (hash_file lf) fs contents -> covers 0 (8 ^ b) fs ->
  monotone le (cell (2 ^ b)) -> located (cell (2 ^ b)) (2 ^ b) (key_of b) fs ->
  ~ (exists p h t, in_cell fs h p /\ between (cell (2 ^ b)) (2 ^ b) (xmin, ymin, zmin) (xmax, ymax, zmax) t /\ key_of b t = Some h) ->
  volume_program little (negb (Bool.eqb lf little)) le cell (8 ^ b) contents junk xmin xmax ymin ymax zmin zmax = Err EAbort.
Proof. exact volume_empty. Qed.
Print Assumptions C72_empty_refuted.
(** more than 2^30 hash cells: the cube of the number of cells overflows *)
Theorem C72_large_refuted : forall little byteswap le cell nhash contents junk xmin xmax ymin ymax zmin zmax, 2 ^ 30 < nhash ->
  volume_program little byteswap le cell nhash contents junk xmin xmax ymin ymax zmin zmax = Err EAbort.
Proof. exact volume_large. Qed.
Print Assumptions C72_large_refuted.
(** the expression for the cell is monotone in single precision arithmetic *)
Theorem C72_single : forall (val : Z -> R) lbox n, (0 < lbox)%R -> 0 <= n -> monotone (fun a b => Rle_bool (val a) (val b)) (fun a => int_cell lbox n (val a)).
Proof. exact float_monotone. Qed.
Print Assumptions C72_single.

(** a box of side 20 with 8 cells, in two files; cells 0, 5 and 7 have particles *)
Definition ex_grid (n x : Z) : Z := Z.quot (x * n) 20.
Definition ex_point (x y z id : Z) : particle := ([x; y; z], [x + 100; y + 100; z + 100], [id]).
Definition ex_points : list particle := [ex_point 1 2 3 50; ex_point 9 9 9 51; ex_point 4 5 16 52; ex_point 15 17 11 53; ex_point 19 10 10 54].
Definition ex_key (p : particle) : Z := match key_of 1 (ex_grid 2 (coord 0 p), ex_grid 2 (coord 1 p), ex_grid 2 (coord 2 p)) with Some k => k | None => -1 end.
Definition ex_box : list (cellfile (list Z)) :=
  [{| cf_first := 0; cf_cells := map (fun c => filter (fun p => ex_key p =? c) ex_points) [0; 1; 2; 3; 4] |}; {| cf_first := 5; cf_cells := map (fun c => filter (fun p => ex_key p =? c) ex_points) [5; 6; 7] |}].
Definition ex_box_bytes (f : cellfile (list Z)) : list Z :=
  let all := concat (cf_cells f) in
  file_bytes false (L2_snapshot (ex_cat (cf_first f) (cf_first f + zlen (cf_cells f) - 1) (concat (map (fun p => fst (fst p)) all)) (concat (map (fun p => snd (fst p)) all)) (map (fun p => nth 0 (snd p) 0) all) (starts 0 (cf_cells f)))) ++ [].
Example C72_ex : Forall2 (hash_file false) ex_box (map ex_box_bytes ex_box) /\ covers 0 (8 ^ 1) ex_box /\ monotone Z.leb (ex_grid (2 ^ 1)) /\ located (ex_grid (2 ^ 1)) (2 ^ 1) (key_of 1) ex_box /\
  map (fun f => map (@List.length particle) (cf_cells f)) ex_box = [[2; 0; 0; 0; 0]; [2; 0; 1]]%nat /\
  (exists p h t, in_cell ex_box h p /\ between (ex_grid (2 ^ 1)) (2 ^ 1) (2, 5, 9) (20, 17, 16) t /\ key_of 1 t = Some h) /\
  volume_program true true Z.leb ex_grid 8 (map ex_box_bytes ex_box) 77 2 20 5 17 9 16 = Ok [(9, 9, 9); (15, 17, 11); (19, 10, 10); (4, 5, 16)] /\
  volume_program true true Z.leb ex_grid 8 (map ex_box_bytes ex_box) 77 (-5) 8 0 8 0 30 = Ok [(1, 2, 3); (4, 5, 16)] /\
  volume_program true true Z.leb ex_grid 8 (map ex_box_bytes ex_box) 77 2 3 2 3 2 3 = Ok [] /\
  volume_program true true Z.leb ex_grid 8 (map ex_box_bytes ex_box) 77 11 12 1 2 1 2 = Err EAbort.
Proof.
  split.
  { assert (forall f, In f ex_box -> hash_file false f (ex_box_bytes f)) as H; [|unfold ex_box; cbn [map]; repeat constructor; apply H; cbn; tauto].
    intros f [<-|[<-|[]]]; (eexists; exists []; cbn zeta; split; [reflexivity|]); (split; [apply pieces_okb; vm_compute; reflexivity|]); (split; [vm_compute; repeat constructor|]); repeat (split; [vm_compute; reflexivity|]); vm_compute; reflexivity. }
  split; [vm_compute; repeat split|]. split; [intros a c H; unfold ex_grid; apply Z.leb_le in H; change (2 ^ 1) with 2; apply Z.quot_le_mono; lia|].
  split.
  { intros h p (f & k & c & Hf & Hk & <- & Hp). assert (nth_error (cf_cells f) k = Some c -> (k < 5)%nat) as Bk by (intro Q; assert (nth_error (cf_cells f) k <> None) as Q2 by congruence; apply nth_error_Some in Q2; clear Q; rename Q2 into Q; destruct Hf as [<-|[<-|[]]]; vm_compute in Q; lia). specialize (Bk Hk).
    destruct Hf as [<-|[<-|[]]]; do 5 (destruct k as [|k]; [vm_compute in Hk; try discriminate Hk; injection Hk as <-; cbn [In] in Hp; repeat destruct Hp as [<-|Hp]; try contradiction; vm_compute; repeat split; congruence|]); lia. }
  split; [vm_compute; reflexivity|].
  split.
  { exists (ex_point 9 9 9 51), 0, (0, 0, 0). split; [exists {| cf_first := 0; cf_cells := map (fun c => filter (fun p => ex_key p =? c) ex_points) [0; 1; 2; 3; 4] |}, 0%nat; eexists; split; [now left|]; split; [vm_compute; reflexivity|]; split; [reflexivity | vm_compute; tauto]|].
    split; [vm_compute; repeat split; congruence | vm_compute; reflexivity]. }
  repeat (split; [vm_compute; reflexivity|]). vm_compute. reflexivity.
Qed.
