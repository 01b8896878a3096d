(** What the IDL programs for profiles of groups should show, stated without their code. *)
From Coq Require Import QArith.
From Coq Require Import Ascii String.
From Coq Require Import Sorting.Permutation Sorting.Sorted.
From Verif Require Import Base.Prelude Text.StrModel Snap.ReadSpec Fortran.FofSpec Idl.LibSpec Idl.SnapSpec Idl.GroupSpec Idl.SphereSpec Idl.ProgSpec.
Local Open Scope Z_scope. Local Open Scope list_scope.

Notation vec := (Q * Q * Q)%type.
Definition minus (a b : vec) : vec := let '(x, y, z) := a in let '(u, v, w) := b in (x - u, y - v, z - w)%Q.
Definition plus (a b : vec) : vec := let '(x, y, z) := a in let '(u, v, w) := b in (x + u, y + v, z + w)%Q.
Definition norm2 (a : vec) : Q := let '(x, y, z) := a in (x * x + y * y + z * z)%Q.
Definition same (a b : vec) : Prop := let '(x, y, z) := a in let '(u, v, w) := b in (x == u /\ y == v /\ z == w)%Q.
Definition origin : vec := (0, 0, 0)%Q.
(** the points which are nearer to [c] than the root of [r2] *)
Definition nearer (pts : list vec) (c : vec) (r2 : Q) : list vec := filter (fun p => negb (Qle_bool r2 (norm2 (minus p c)))) pts.
(** [c] is the mean of the points *)
Definition is_mean (l : list vec) (c : vec) : Prop :=
  let n := inject_Z (zlen l) in let '(x, y, z) := c in
  (n * x == total (map (fun p => fst (fst p)) l) /\ n * y == total (map (fun p => snd (fst p)) l) /\ n * z == total (map snd l))%Q.
(** spheres which shrink by one tenth and are moved to the mean of the points in them, as long as
    there are [least] points in them *)
Inductive settles (least : Z) (pts : list vec) : vec -> Q -> vec -> Prop :=
| settled c r2 : zlen (nearer pts c r2) < least -> settles least pts c r2 c
| moves c r2 c' e : least <= zlen (nearer pts c r2) -> is_mean (nearer pts c r2) c' -> settles least pts c' ((81 # 100) * r2)%Q e -> settles least pts c r2 e.
(** less than [n] of the points are at the same place *)
Definition not_together (n : Z) (pts : list vec) : Prop := forall l c, Permutation.Permutation pts (l ++ c) -> Forall (fun p => forall q, In q l -> same p q) l -> zlen l < n.
Definition largest (l : list Q) (x : Q) : Prop := Exists (fun y => y == x)%Q l /\ Forall (fun y => y <= x)%Q l.
(** one point for each distance, from the smallest to the largest, with the number of points up to it *)
Definition ranked (ds : list Q) (points : list (Q * Z)) : Prop :=
  Permutation ds (map fst points) /\ StronglySorted Qle (map fst points) /\ map snd points = zseq 1 (List.length ds).
(** the squares of the distances *)
Definition distances2 (pts : list vec) (c : vec) (ds : list Q) : Prop := Forall2 (fun p d => d == norm2 (minus p c))%Q pts ds.

(** what is shown of a group in show_profile *)
Definition profile_of (least : Z) (pts : list vec) (points : list (Q * Z)) : Prop :=
  exists ds0 rmax2 off ds, distances2 pts origin ds0 /\ largest ds0 rmax2 /\ settles least pts origin rmax2 off /\ distances2 pts off ds /\ ranked ds points.
(** the particles of the snapshot, those which are nearer than the root of [rad2] to [s] in the
    periodic box, with their distances, and the others *)
Definition in_sphere (files : list (cellfile (list Z))) (value4 : Z -> Q) (box : Q) (s : vec) (rad2 : Q) (ds : list Q) : Prop :=
  exists sel rest new, Permutation (concat (cells files)) (sel ++ rest) /\ Forall2 (relative_point value4 box s) sel new /\ ds = map norm2 new /\
    Forall (fun d => d < rad2)%Q ds /\ Forall (fun p => forall d, relative_point value4 box s p d -> rad2 <= norm2 d)%Q rest.
(** the sphere of a group with the given positions around [s]: the largest distance of one of its
    particles from the new centre is the radius *)
Definition sphere_of (least : Z) (s : vec) (pts : list vec) (centre : vec) (rad2 : Q) : Prop :=
  exists ds0 rmax2 off ds, distances2 pts origin ds0 /\ largest ds0 rmax2 /\ settles least pts origin rmax2 off /\ distances2 pts off ds /\ largest ds rad2 /\ same centre (plus s off).
(** the positions of the particles around their centre of mass [s], in the order of their ids *)
Definition arranged (value4 : Z -> Q) (box : Q) (members : list particle) (s : vec) (pts : list vec) : Prop :=
  let '(cx, cy, cz) := s in exists sel, Permutation members sel /\ in_id_order sel /\
    about_centre box (map (coordinate value4 0) sel) (map (fun q => fst (fst q)) pts) cx /\
    about_centre box (map (coordinate value4 1) sel) (map (fun q => snd (fst q)) pts) cy /\
    about_centre box (map (coordinate value4 2) sel) (map snd pts) cz.
(** group number [n] of the table, its length, and the positions of its particles around their centre of mass *)
Definition placed (little : bool) (fs : list ascii -> option (list Z)) (dir : list ascii) (num : Z) (files : list (cellfile (list Z))) (value4 : Z -> Q) (box : Q)
    (table : list (Z * Z * Z)) (n : Z) (len : Z) (s : vec) (pts : list vec) : Prop :=
  exists group gids members, nth_error table (Z.to_nat n) = Some group /\ len = fst (fst group) /\ group_members little fs dir num files group gids members /\ arranged value4 box members s pts.
(** less than [least] of the particles are at the same place *)
Definition apart (value4 : Z -> Q) (least : Z) (members : list particle) : Prop :=
  forall l rest, Permutation members (l ++ rest) -> (forall p q k, In p l -> In q l -> (k < 3)%nat -> (coordinate value4 k p == coordinate value4 k q)%Q) -> zlen l < least.
(** what is known of a group which is shown: its members are particles of the snapshot, and they are apart *)
Definition good_group (little : bool) (fs : list ascii -> option (list Z)) (dir : list ascii) (num : Z) (files : list (cellfile (list Z))) (value4 : Z -> Q) (box : Q) (limit least : Z) (group : Z * Z * Z) (members : list particle) : Prop :=
  exists gids, group_members little fs dir num files group gids members /\ gids <> [] /\ 3 * zlen gids < 2 ^ 31 /\ 3 * zlen gids <= limit /\ zlen (neighbours files gids) < 2 ^ 29 /\
    Forall (in_box value4 box) members /\ apart value4 least members.
(** what plot_profile_vmax shows of group number [n]: all particles of the snapshot in its sphere *)
Definition profiled (little : bool) (fs : list ascii -> option (list Z)) (dir : list ascii) (num : Z) (files : list (cellfile (list Z))) (value4 : Z -> Q) (box : Q)
    (table : list (Z * Z * Z)) (n : Z) (r : Z * Z * vec * list (Q * Z)) : Prop :=
  exists len s pts centre rad2 ds points, r = (n, len, centre, points) /\ placed little fs dir num files value4 box table n len s pts /\ sphere_of 25 s pts centre rad2 /\
    in_sphere files value4 box centre rad2 ds /\ ranked ds points.

(** [x] is a radius within which the mean density is as large as wanted: all particles up to it have
    at least the mass [mean_mass x] *)
Definition dense (partmass : Q) (mean_mass : Q -> Q) (r : list Q) (x : Q) : Prop := (mean_mass x <= partmass * inject_Z (zlen (filter (fun y => Qle_bool y x) r)))%Q.
(** the number of particles in bin number [k] *)
Definition in_bin (bin : Q -> Z) (r : list Q) (k : Z) : Z := zlen (filter (fun x => bin x =? k) r).
