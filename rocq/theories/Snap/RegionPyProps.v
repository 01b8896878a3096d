(** C112: read_region.py of the Millennium simulation. *)
From Coq Require Import Ascii String Reals Lra.
From Flocq Require Import Core.
From Verif Require Import Base.Prelude Text.StrModel Text.StrProofs Snap.ReadSpec Fortran.RegionSpec Fortran.FofSpec Fortran.VolumeSpec Snap.MillSpec Snap.MillFloat Snap.MillProps Script.SubListSpec Script.SubListFinal Snap.RegionPyModel Snap.RegionPySpec Snap.RegionPyFinal.
Local Open Scope Z_scope.
Local Open Scope list_scope.

(** With a version of numpy before 1.12 the script has the positions, velocities and ids, in the same order, of particles of the snapshot which are in the cells of the region or
    at its edge, among them all those between 10 and 20 Mpc/h in each direction, if each particle is in the hash cell of its position. *)
Theorem C112_region : forall little fsys files fs boxsize bits junk (box val : Z -> R), on_disk fsys files -> is_snapshot files fs (8 ^ bits) boxsize -> 1 <= bits <= 10 -> covers 0 (8 ^ bits) fs -> single_10_20 val ->
  (0 < double (box boxsize / IZR (2 ^ bits)))%R -> located (fun a => floor_cell (box boxsize) (2 ^ bits) (val a)) (2 ^ bits) (key_of bits) fs ->
  exists sel, read_region_py little fsys true junk box = Ok (map (fun p => fst (fst p)) sel, map (fun p => snd (fst p)) sel, map snd sel) /\
    (forall p, In p sel -> In p (particles fs) /\ forall k, (k < 3)%nat -> near val (floor_cell (box boxsize) (2 ^ bits)) (2 ^ bits) (coord k p)) /\ forall p, In p (particles fs) -> in_region val p -> In p sel.
Proof. exact script_reads. Qed.
Print Assumptions C112_region.
(** the two files of C78_ex; the box has the size 32, and the coordinate with the pattern z is z + 6, so that the second particle is in the region *)
Definition ex_box (z : Z) : R := 32.
Definition ex_val (z : Z) : R := if z =? 1092616192 then 10 else if z =? 1101004800 then 20 else IZR (z + 6).
Definition ex_disk (name : str) : option (list Z) := if str_eqb name (name_i 0) then ex_files 0 else if str_eqb name (name_i 1) then ex_files 1 else None.
Example C112_region_case : on_disk ex_disk ex_files /\ is_snapshot ex_files ex_points (8 ^ 1) 5 /\ covers 0 (8 ^ 1) ex_points /\ single_10_20 ex_val /\ (0 < double (ex_box 5 / IZR (2 ^ 1)))%R /\
  located (fun a => floor_cell (ex_box 5) (2 ^ 1) (ex_val a)) (2 ^ 1) (key_of 1) ex_points /\
  In ([4; 5; 6], [14; 15; 16], [2 ^ 64 - 1]) (particles ex_points) /\ in_region ex_val ([4; 5; 6], [14; 15; 16], [2 ^ 64 - 1]) /\ ~ in_region ex_val ([1; 2; 3], [11; 12; 13], [100]).
Proof.
  destruct C78_ex as (S & C & _ & L & _). split.
  - intros i name Hi (b & Sb & ->). unfold ex_disk. assert (forall j, str_eqb (lit "/virgo/data/Millennium//snapdir_063/snap_millennium_063." ++ b) (name_i j) = (i =? j)) as K.
    { intro j. apply eq_true_iff_eq. rewrite str_eqb_eq, Z.eqb_eq. destruct (name_i_63 j) as (b' & Sb' & ->). split.
      - intro E. apply app_inv_head in E. subst b'. exact (shows_value _ _ _ Sb Sb').
      - intros ->. f_equal. exact (shows_unique _ _ _ Sb Sb'). }
    rewrite !K. unfold ex_files. destruct (Z.eqb_spec i 0) as [->|]; [reflexivity|]. destruct (Z.eqb_spec i 1) as [->|]; reflexivity.
  - split; [exact S|]. split; [exact C|]. split; [split; reflexivity|]. split; [apply double_pos; unfold ex_box; change (2 ^ 1) with 2; lra|]. split; [|split; [|split]].
    + assert (forall a, 0 <= a < 20 -> floor_cell (ex_box 5) (2 ^ 1) (ex_val a) = ex_grid a) as G.
      { intros a Ha. unfold ex_val, ex_box, ex_grid. replace (a =? 1092616192) with false by lia. replace (a =? 1101004800) with false by lia. change (2 ^ 1) with 2. rewrite floor_16 by lia.
        destruct (Z.lt_ge_cases a 10); [rewrite !Z.div_small by lia; reflexivity|]. rewrite <- (Z.div_unique (a + 6) 16 1 (a - 10)), <- (Z.div_unique a 10 1 (a - 10)) by lia. reflexivity. }
      intros h p Hin. specialize (L h p Hin). assert (forall k, (k < 3)%nat -> 0 <= coord k p < 20) as B.
      { destruct Hin as (f & k & c & Hf & Hk & _ & Hp). assert (In p (particles ex_points)) as I by (unfold particles; apply in_concat; exists c; split; [|exact Hp]; apply in_concat; exists (cf_cells f); split; [now apply in_map | now apply nth_error_In in Hk]).
        assert (Forall (fun p => forall k, (k < 3)%nat -> 0 <= coord k p < 20) (particles ex_points)) as A.
        { unfold particles, ex_points. cbn [map cf_cells concat app]. repeat (apply Forall_cons; [intros [|[|[|j]]] Hj; cbn; lia|]). apply Forall_nil. }
        rewrite Forall_forall in A. now apply A. }
      rewrite !G by (apply B; lia). exact L.
    + vm_compute. auto.
    + intros [|[|[|k]]] Hk; [change (10 <= 10 <= 20)%R | change (10 <= 11 <= 20)%R | change (10 <= 12 <= 20)%R | lia]; lra.
    + intro R. specialize (R 0%nat ltac:(lia)). change (10 <= 7 <= 20)%R in R. lra.
Qed.

(** With numpy 1.12 or newer it ends with TypeError, whatever is in the snapshot. *)
Theorem C112_numpy_refuted : forall little fsys files fs boxsize bits junk box, on_disk fsys files -> is_snapshot files fs (8 ^ bits) boxsize -> 1 <= bits <= 10 -> read_region_py little fsys false junk box = Err EType.
Proof. exact script_numpy_type. Qed.
Print Assumptions C112_numpy_refuted.
(** Without the first file: IOError. *)
Theorem C112_missing : forall little fsys float_dims junk box, (forall name, name_63 0 name -> fsys name = None) -> read_region_py little fsys float_dims junk box = Err EIO.
Proof. exact script_missing. Qed.
Print Assumptions C112_missing.
Example C112_missing_case : let only_second := fun name : str => if str_eqb name (name_i 1) then ex_files 1 else None in only_second (name_i 1) <> None /\ forall name, name_63 0 name -> only_second name = None.
Proof.
  split; [cbv beta zeta; rewrite (proj2 (str_eqb_eq _ _) eq_refl); discriminate|]. intros name (b & Sb & ->). cbv beta zeta. destruct (str_eqb _ _) eqn:E; [|reflexivity]. exfalso. apply str_eqb_eq in E. destruct (name_i_63 1) as (c & Sc & Ec). rewrite Ec in E. apply app_inv_head in E. subst c.
  pose proof (shows_value _ _ _ Sb Sc). discriminate.
Qed.
