(** C87: the functions of groupstuff.c which count and read the particles in a spherical region. *)
From Coq Require Import QArith.
From Coq Require Import Ascii String.
From Verif Require Import Base.Prelude Snap.ReadSpec Fortran.RegionSpec Fortran.FofSpec.
From Verif Require Import Text.StrModel Idl.LibModel Idl.LibSpec Idl.SnapSpec Idl.TabFinal Idl.HashFinal Idl.GroupSpec Idl.SphereSpec Idl.SphereFinal.
Local Open Scope Z_scope. Local Open Scope list_scope.

(** With 8^b hash cells, and a radius so small that with one more cell it is less than half of the
    box, both functions take the particles of the same cells, each cell once. No particle within
    the radius is missed and none is more than the radius and two cells away on any axis. The count
    is the number of these particles, and the positions are relative to the centre of the region
    in the periodic box. What is past them in the array of the caller is left alone. The numbers
    are exact. *)
Theorem C87_region : forall little fs dir base num n b box files t value4 value8 s rad pos box0 (B := value8 box),
  1 <= b <= 10 -> 0 <= num -> snap_files little fs dir base num n (8 ^ b) box files -> covers 0 (8 ^ b) files -> holds files t ->
  (0 < B)%Q -> in_its_cell value4 B b files -> point_in_box B s -> (0 <= rad)%Q -> (rad + cell_size B b < (1 # 2) * B)%Q ->
  exists sel, of_cells files sel /\
    (forall p, In p (concat (cells files)) -> near_point value4 B rad s p -> In p sel) /\
    (forall p, In p sel -> near_point value4 B (rad + 2 * cell_size B b) s p) /\
    (zlen sel < 2 ^ 31 -> get_spherical_region_count little fs dir num base value8 t (8 ^ b) (fst (fst s)) (snd (fst s)) (snd s) rad box0 = Ok (zlen sel, B)) /\
    (3 * zlen sel < 2 ^ 31 -> 3 * zlen sel <= zlen pos -> exists new, Forall2 (relative_point value4 B s) sel new /\
      get_spherical_region_coordinates little fs dir num base value4 value8 t (8 ^ b) (fst (fst s)) (snd (fst s)) (snd s) rad pos box0 = Ok (0, flat new ++ skipn (3 * List.length sel) pos, B)).
Proof. exact region_final. Qed.
Print Assumptions C87_region.
(** 64 cells of size 2 in a box of size 8 with five particles. Four are in the cells of the region
    around (1, 1, 1), two of them on the other side of the box, and one is too far away. *)
Example C87_region_case (fs := ex_snaps 2 64 8 [ex_4; ex_5]) :
  snap_files false fs (lit "/data") (lit "snap") 7 2 (8 ^ 2) 8 [ex_4; ex_5] /\ covers 0 (8 ^ 2) [ex_4; ex_5] /\ holds [ex_4; ex_5] ex_tables2 /\ in_its_cell inject_Z 8 2 [ex_4; ex_5] /\
  point_in_box 8 (1, 1, 1)%Q /\ (1 + cell_size 8 2 < (1 # 2) * 8)%Q /\ zlen (concat (cells [ex_4; ex_5])) = 5 /\
  get_spherical_region_count false fs (lit "/data") 7 (lit "snap") inject_Z ex_tables2 (8 ^ 2) 1 1 1 1 0 = Ok (4, 8%Q) /\
  match get_spherical_region_coordinates false fs (lit "/data") 7 (lit "snap") inject_Z inject_Z ex_tables2 (8 ^ 2) 1 1 1 1 (repeat 9%Q 13) 0 with
  | Ok (ret, pos, box) => ret = 0 /\ map Qred pos = [-2; -2; -1; 0; 0; 0; 0; 1; 1; 2; 0; -2; 9]%Q /\ box = 8%Q
  | Err _ => False
  end.
Proof.
  split; [exact ex_sphere_files|]. split; [repeat split|]. split; [exact ex_sphere_hold|]. split; [exact ex_sphere_in|]. split; [repeat split; discriminate|]. split; [reflexivity|]. split; [reflexivity|]. split; [vm_compute; reflexivity|]. vm_compute. repeat split.
Qed.

(** If the first file of the snapshot is missing the result is -1 and nothing is changed. *)
Theorem C87_missing : forall little fs dir base num t value4 value8 size sx sy sz rad pos box0,
  0 <= num -> file_is fs dir base num 0 None ->
  get_spherical_region_count little fs dir num base value8 t size sx sy sz rad box0 = Ok (-1, box0) /\
  get_spherical_region_coordinates little fs dir num base value4 value8 t size sx sy sz rad pos box0 = Ok (-1, pos, box0).
Proof. exact region_missing. Qed.
Print Assumptions C87_missing.
Example C87_missing_case : file_is (ex_snaps 2 8 8 [ex_1; ex_2]) (lit "/data") (lit "snap") 8 0 None.
Proof. apply file_is_intro; [discriminate | discriminate | vm_compute; reflexivity]. Qed.
(** Without the condition on the radius the same cell is taken more than once: in a box of size 8
    with 8 particles in 8 cells, the sphere of radius 1/2 around (1, 1, 1) has 20 particles. *)
Theorem C87_twice_refuted : exists fs files t,
  snap_files false fs (lit "/data") (lit "snap") 7 2 (8 ^ 1) 8 files /\ covers 0 (8 ^ 1) files /\ holds files t /\ in_its_cell inject_Z 8 1 files /\ zlen (concat (cells files)) = 8 /\
  (forall box0, get_spherical_region_count false fs (lit "/data") 7 (lit "snap") inject_Z t (8 ^ 1) 1 1 1 (1 # 2) box0 = Ok (20, 8%Q)).
Proof. exact twice_refuted. Qed.
Print Assumptions C87_twice_refuted.
