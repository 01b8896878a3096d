(** C106: what the IDL programs show_profile, plot_profile_vmax and plot_profile_dens show. *)
From Coq Require Import QArith Qround Lqa.
From Coq Require Import Ascii String.
From Coq Require Import Sorting.Permutation.
From Verif Require Import Base.Prelude Formats.FileSpec Formats.CatSpec Text.StrModel Snap.ReadSpec Fortran.RegionSpec Fortran.GroupTabSpec Fortran.FofSpec.
From Verif Require Import Idl.LibModel Idl.LibSpec Idl.SnapSpec Idl.GroupSpec Idl.TabFinal Idl.HashFinal Idl.GroupFinal Idl.SphereSpec Idl.ProgSpec Idl.ProgModel Idl.ProgProofs Idl.ProgFinal Idl.ProgCases.
From Verif Require Import Idl.ProfSpec Idl.ProfModel Idl.ProfProofs Idl.ProfFinal Idl.ProfUnique Idl.ProfCases.
Local Open Scope Z_scope. Local Open Scope list_scope.

(** show_profile ends, and plots one point for each particle of the largest group: the distances
    from the centre of the spheres which shrink, with the number of particles up to each of them. *)
Theorem C106_show_profile little fs qsort limit basedir snapbase num dir fuel nhash box files value4 value8 cats : snapdir basedir num dir -> whole_snapshot little fs dir snapbase num nhash box files -> (List.length files < fuel)%nat ->
  nhash <= limit /\ zlen files <= limit -> sorts qsort -> whole_catalogue little fs dir num cats -> (List.length cats < fuel)%nat -> different_ids files -> (0 < value8 box)%Q -> 0 < zlen (all_groups cats) <= limit -> (2 <= fuel)%nat ->
  (forall table group, by_length cats table -> nth_error table 0 = Some group -> exists members, good_group little fs dir num files value4 (value8 box) limit 15 group members) ->
  exists N, forall steps, (N <= steps)%nat -> exists table len s pts points, by_length cats table /\ placed little fs dir num files value4 (value8 box) table 0 len s pts /\
    show_profile little fs qsort limit basedir snapbase num fuel value4 value8 steps = Ok points /\ profile_of 15 pts points.
Proof. exact (fun Hd Hs Hf Hl Ht Hc Hcf Hi Hb Ha Hf2 => show_ok little fs qsort limit basedir snapbase num dir Hd fuel nhash box files Hs Hf Hl value4 value8 cats Ht Hc Hcf Hi Hb Ha Hf2). Qed.
Print Assumptions C106_show_profile.
Example C106_show_profile_case : snapdir ex_base 7 ex_dir /\ whole_snapshot false (in_fs 26) ex_dir (lit "snap") 7 64 800 [in_1; in_2] /\ sorts isort /\ whole_catalogue false (in_fs 26) ex_dir 7 [line_tab 26 9] /\ different_ids [in_1; in_2] /\ zlen (all_groups [line_tab 26 9]) = 9 /\
  forall table group, by_length [line_tab 26 9] table -> nth_error table 0 = Some group -> exists members, good_group false (in_fs 26) ex_dir 7 [in_1; in_2] inject_Z 800 1000 15 group members.
Proof.
  split; [exact ex_snapdir|]. split; [exact (in_snapshot 26)|]. split; [exact isort_sorts|]. split; [exact (in_catalogue 26 (or_introl eq_refl))|]. split; [exact in_different|]. split; [reflexivity|].
  intros table group HB HE. destruct (in_table 26 table 0 group (or_introl eq_refl) HB HE) as (nr & Hn & ->). exists (in_members 26). exact (in_good 15 26 nr (or_introl eq_refl) eq_refl Hn).
Qed.
(** a group of two particles at (1,1,1) and (1,1,7) in a box of size 8 *)
Example C106_two_case : match show_profile false ex_six_fs isort 100 ex_base (lit "snap") 7 9 inject_Z inject_Z 5 with Ok points => map (fun '(r2, m) => (Qred r2, m)) points = [(1%Q, 1); (1%Q, 2)] | Err _ => False end.
Proof. vm_compute. reflexivity. Qed.
(** the centre of 16 particles moves once *)
Example C106_moves_case (pts := map (fun x => (inject_Z x, 0, 0)%Q) (repeat (-1) 9 ++ repeat 1 5 ++ [19; 20])) :
  match shrink 15 9 pts (20 * 20) origin with Ok (l, off) => sameb off (1, 0, 0)%Q = true /\ sameb (hd origin l) (- (2), 0, 0)%Q = true | Err _ => False end /\ settles 15 pts origin (20 * 20) (1, 0, 0)%Q.
Proof.
  split; [vm_compute; split; reflexivity|]. apply (moves _ _ _ _ (1, 0, 0)%Q); [vm_compute; discriminate | apply mean_intro; vm_compute; reflexivity|]. apply settled. vm_compute. reflexivity.
Qed.

(** plot_profile_vmax ends, and plots for each of the nine largest groups all particles of the
    snapshot inside of its sphere, in the group or not: their distances from the centre, with the
    number of particles up to each of them. The sphere has to be inside of the half of the box in
    each direction, and its centre in the box. *)
Theorem C106_vmax little fs qsort limit basedir snapbase num dir fuel box files value4 value8 cats root b (nhash := 8 ^ b) (B := value8 box) : snapdir basedir num dir -> whole_snapshot little fs dir snapbase num nhash box files -> (List.length files < fuel)%nat ->
  nhash <= limit /\ zlen files <= limit -> sorts qsort -> whole_catalogue little fs dir num cats -> (List.length cats < fuel)%nat -> different_ids files -> (0 < B)%Q -> 9 <= zlen (all_groups cats) <= limit -> (2 <= fuel)%nat ->
  (forall q, (0 <= q)%Q -> (0 <= root q /\ q <= root q * root q)%Q) -> 1 <= b <= 10 -> in_its_cell value4 B b files -> 3 * zlen (concat (cells files)) <= limit /\ 3 * zlen (concat (cells files)) < 2 ^ 31 ->
  (forall table n group, by_length cats table -> 0 <= n < 9 -> nth_error table (Z.to_nat n) = Some group -> exists members, good_group little fs dir num files value4 B limit 25 group members /\
    forall s pts centre rad2, arranged value4 B members s pts -> sphere_of 25 s pts centre rad2 -> point_in_box B centre /\ (root rad2 + cell_size B b < (1 # 2) * B)%Q /\ ~ in_sphere files value4 B centre rad2 []) ->
  exists N, forall steps, (N <= steps)%nat -> exists table out, by_length cats table /\
    plot_profile_vmax little fs qsort limit basedir snapbase num fuel value4 value8 root steps = Ok out /\ Forall2 (profiled little fs dir num files value4 B table) [0; 1; 2; 3; 4; 5; 6; 7; 8] out.
Proof. exact (vmax_prog little fs qsort limit basedir snapbase num dir fuel box files value4 value8 cats root b). Qed.
Print Assumptions C106_vmax.
Example C106_vmax_case : snapdir ex_base 7 ex_dir /\ whole_snapshot false (in_fs 26) ex_dir (lit "snap") 7 (8 ^ 2) 800 [in_1; in_2] /\ sorts isort /\ whole_catalogue false (in_fs 26) ex_dir 7 [line_tab 26 9] /\ different_ids [in_1; in_2] /\ zlen (all_groups [line_tab 26 9]) = 9 /\
  (forall q, (0 <= q)%Q -> (0 <= ex_root q /\ q <= ex_root q * ex_root q)%Q) /\ in_its_cell inject_Z 800 2 [in_1; in_2] /\ zlen (concat (cells [in_1; in_2])) = 27 /\
  forall table n group, by_length [line_tab 26 9] table -> 0 <= n < 9 -> nth_error table (Z.to_nat n) = Some group -> exists members, good_group false (in_fs 26) ex_dir 7 [in_1; in_2] inject_Z 800 1000 25 group members /\
    forall s pts centre rad2, arranged inject_Z 800 members s pts -> sphere_of 25 s pts centre rad2 -> point_in_box 800 centre /\ (ex_root rad2 + cell_size 800 2 < (1 # 2) * 800)%Q /\ ~ in_sphere [in_1; in_2] inject_Z 800 centre rad2 [].
Proof.
  split; [exact ex_snapdir|]. split; [exact (in_snapshot 26)|]. split; [exact isort_sorts|]. split; [exact (in_catalogue 26 (or_introl eq_refl))|]. split; [exact in_different|]. split; [reflexivity|]. split; [exact ex_root_ok|]. split; [exact in_hold|]. split; [reflexivity|].
  intros table n group HB Hn HE. destruct (in_table 26 table (Z.to_nat n) group (or_introl eq_refl) HB HE) as (nr & Hr & ->). exists (in_members 26). split; [exact (in_good 25 26 nr (or_introl eq_refl) eq_refl Hr) | exact in_box_26].
Qed.

(** The positions of a group around its centre of mass, and its sphere, are determined by its
    particles. *)
Theorem C106_unique value4 box least members s s' pts pts' c c' rad2 rad2' : (0 < box)%Q -> 0 < least -> members <> [] -> NoDup (map (fun p => plain_id (id_of p)) members) -> arranged value4 box members s pts -> arranged value4 box members s' pts' ->
  sphere_of least s pts c rad2 -> sphere_of least s' pts' c' rad2' -> same s s' /\ Forall2 same pts pts' /\ same c c' /\ (rad2 == rad2')%Q.
Proof.
  intros Hb Hl Hn HD A A' S S'. destruct (arranged_unique value4 box members s s' pts pts' Hb Hn HD A A') as [E1 E2]. exact (conj E1 (conj E2 (sphere_unique least pts pts' s s' c c' rad2 rad2' Hl E2 E1 S S'))).
Qed.
Print Assumptions C106_unique.
Example C106_unique_case : arranged inject_Z 800 (in_members 26) (300 + (95 # 26), 100, 100)%Q pts_26 /\ sphere_of 25 (300 + (95 # 26), 100, 100)%Q pts_26 (300 - 4, 100, 100)%Q (199 * 199).
Proof. split; [exact in_26 | exact (sphere_26 300)]. Qed.

(** If no particle is inside of the sphere of the largest group there is an error: this is so if all
    its particles are at the same distance from the centre, as for one particle. *)
Theorem C106_vmax_none little fs qsort limit basedir snapbase num dir fuel box files value4 value8 cats root b (nhash := 8 ^ b) (B := value8 box) : snapdir basedir num dir -> whole_snapshot little fs dir snapbase num nhash box files -> (List.length files < fuel)%nat ->
  nhash <= limit /\ zlen files <= limit -> sorts qsort -> whole_catalogue little fs dir num cats -> (List.length cats < fuel)%nat -> different_ids files -> (0 < B)%Q -> 0 < zlen (all_groups cats) <= limit -> (2 <= fuel)%nat ->
  (forall q, (0 <= q)%Q -> (0 <= root q /\ q <= root q * root q)%Q) -> 1 <= b <= 10 -> in_its_cell value4 B b files -> 3 * zlen (concat (cells files)) <= limit /\ 3 * zlen (concat (cells files)) < 2 ^ 31 ->
  (forall table group, by_length cats table -> nth_error table 0 = Some group -> exists members, good_group little fs dir num files value4 B limit 25 group members /\
    forall s pts centre rad2, arranged value4 B members s pts -> sphere_of 25 s pts centre rad2 -> point_in_box B centre /\ (root rad2 + cell_size B b < (1 # 2) * B)%Q /\ in_sphere files value4 B centre rad2 []) ->
  exists N, forall steps, (N <= steps)%nat -> plot_profile_vmax little fs qsort limit basedir snapbase num fuel value4 value8 root steps = Err EIndex.
Proof. exact (none_prog little fs qsort limit basedir snapbase num dir fuel box files value4 value8 cats root b). Qed.
Print Assumptions C106_vmax_none.
Example C106_vmax_none_case : whole_snapshot false (in_fs 1) ex_dir (lit "snap") 7 (8 ^ 2) 800 [in_1; in_2] /\ whole_catalogue false (in_fs 1) ex_dir 7 [line_tab 1 9] /\ zlen (all_groups [line_tab 1 9]) = 9 /\
  forall table group, by_length [line_tab 1 9] table -> nth_error table 0 = Some group -> exists members, good_group false (in_fs 1) ex_dir 7 [in_1; in_2] inject_Z 800 1000 25 group members /\
    forall s pts centre rad2, arranged inject_Z 800 members s pts -> sphere_of 25 s pts centre rad2 -> point_in_box 800 centre /\ (ex_root rad2 + cell_size 800 2 < (1 # 2) * 800)%Q /\ in_sphere [in_1; in_2] inject_Z 800 centre rad2 [].
Proof.
  split; [exact (in_snapshot 1)|]. split; [exact (in_catalogue 1 (or_intror eq_refl))|]. split; [reflexivity|].
  intros table group HB HE. destruct (in_table 1 table 0 group (or_intror eq_refl) HB HE) as (nr & Hr & ->). exists (in_members 1). split; [exact (in_good 25 1 nr (or_intror eq_refl) eq_refl Hr) | exact in_box_1].
Qed.

(** If the centre of the sphere is outside of the box, as it can be for a group at its edge, the
    library does not find all particles inside. *)
Theorem C106_edge_refuted : exists fs files t members s pts centre rad2 ds pos, snap_files false fs (lit "/data") (lit "snap") 7 2 64 800 files /\ covers 0 64 files /\ holds files t /\ in_its_cell inject_Z 800 2 files /\
  incl members (concat (cells files)) /\ Forall (in_box inject_Z 800) members /\ apart inject_Z 25 members /\ arranged inject_Z 800 members s pts /\ sphere_of 25 s pts centre rad2 /\ (rad2 == 199 * 199 /\ 199 + cell_size 800 2 < (1 # 2) * 800)%Q /\
  in_sphere files inject_Z 800 centre rad2 ds /\ zlen ds = 26 /\
  get_spherical_region_count false fs (lit "/data") 7 (lit "snap") inject_Z t 64 (fst (fst centre)) (snd (fst centre)) (snd centre) 199 800 = Ok (26, 800%Q) /\
  get_spherical_region_coordinates false fs (lit "/data") 7 (lit "snap") inject_Z inject_Z t 64 (fst (fst centre)) (snd (fst centre)) (snd centre) 199 (repeat 0%Q 78) 800 = Ok (0, pos, 800%Q) /\
  zlen (nearer (columns pos) origin rad2) = 25.
Proof. exact edge_refuted. Qed.
Print Assumptions C106_edge_refuted.

(** plot_profile_dens: R200 is the largest of the radii within which the mean density is large enough. *)
Theorem C106_r200 partmass mean_mass r : (0 <= partmass)%Q -> (forall x y, (x == y)%Q -> (mean_mass x == mean_mass y)%Q) -> (exists x, In x r /\ dense partmass mean_mass r x) ->
  exists x, r200 partmass mean_mass r = Ok x /\ In x r /\ dense partmass mean_mass r x /\ forall y, In y r -> dense partmass mean_mass r y -> (y <= x)%Q.
Proof. exact (r200_ok partmass mean_mass r). Qed.
Print Assumptions C106_r200.
(** Without such a radius there is an error. *)
Theorem C106_r200_none partmass mean_mass r : (0 <= partmass)%Q -> (forall x y, (x == y)%Q -> (mean_mass x == mean_mass y)%Q) -> (forall x, In x r -> ~ dense partmass mean_mass r x) -> r200 partmass mean_mass r = Err EIndex.
Proof. exact (fun Hp Hm => proj1 (r200_none partmass mean_mass r Hp Hm)). Qed.
Print Assumptions C106_r200_none.
Example C106_r200_case : r200 8 (fun x => x * x * x)%Q [5; 1; 3; 2; 2]%Q = Ok 3%Q /\ dense 8 (fun x => x * x * x)%Q [5; 1; 3; 2; 2]%Q 3 /\ ~ dense 8 (fun x => x * x * x)%Q [5; 1; 3; 2; 2]%Q 5 /\ r200 8 (fun x => x * x * x)%Q [5; 7; 9]%Q = Err EIndex /\
  forall x, In x [5; 7; 9]%Q -> ~ dense 8 (fun x => x * x * x)%Q [5; 7; 9]%Q x.
Proof.
  split; [vm_compute; reflexivity|]. split; [unfold dense; vm_compute; discriminate|]. split; [unfold dense; vm_compute; intro H; now apply H|]. split; [vm_compute; reflexivity|]. intros x [<- | [<- | [<- | []]]]; unfold dense; vm_compute; intro H; now apply H.
Qed.
(** The numbers of particles in the bins are not right: they do not start from 0 but from the
    number of the bin, so that bin number k has k particles more. *)
Theorem C106_counts bins bin r : 0 <= bins -> countarr bins bin r = map (fun k => k + in_bin bin r k) (zseq 0 (Z.to_nat bins)).
Proof. exact (countarr_ok bins bin r). Qed.
Print Assumptions C106_counts.
Theorem C106_counts_refuted : exists bins bin r, countarr bins bin r <> map (in_bin bin r) (zseq 0 (Z.to_nat bins)).
Proof. exists 3, Qfloor, [0; 1; 1 # 2]%Q. vm_compute. discriminate. Qed.
Print Assumptions C106_counts_refuted.
Example C106_counts_case : countarr 3 Qfloor [0; 1; 1 # 2; 7]%Q = [2; 2; 2] /\ map (in_bin Qfloor [0; 1; 1 # 2; 7]%Q) (zseq 0 3) = [2; 1; 0].
Proof. split; vm_compute; reflexivity. Qed.
