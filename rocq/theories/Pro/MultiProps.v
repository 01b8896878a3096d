(** C101: IDL programs which read several files of the Millennium simulation. *)
From Coq Require Import Ascii String.
From Verif Require Import Base.Prelude Formats.FileSpec Formats.CatSpec Fortran.RegionSpec Fortran.GroupTabSpec.
From Verif Require Import Text.StrModel Pro.ProModel Pro.ProSpec Pro.MultiModel Pro.MultiSpec Pro.MultiProofs Pro.PotProofs.
From Verif Require Fortran.RegionFinal Fortran.RegionProps.
Local Open Scope Z_scope. Local Open Scope list_scope.

(** ReadMulti_xyz.pro: the positions of all files in order; zeros for particles of which the header of
    the first file knows but which are in no file, an error if there are more particles than that *)
Theorem C101_multi little fs base snapbase num (cat : catalogue) (cats : list catalogue) : no_blanks base -> no_blanks snapbase -> three_digits num ->
  (forall i, (i < List.length (cat :: cats))%nat -> exists content, fs (snapshot_path base snapbase num (Z.of_nat i)) = Some content /\ positions_file little (nth i (cat :: cats) (fun _ => [])) content) ->
  files_of cat = zlen (cat :: cats) -> zlen (cat :: cats) <= 32768 ->
  if all_particles (cat :: cats) <=? total_particles cat
  then read_multi little fs base snapbase num = Ok (all_positions (cat :: cats) ++ repeat 0 (Z.to_nat (3 * (total_particles cat - all_particles (cat :: cats)))), cat "Header/BoxSize"%string)
  else exists e, read_multi little fs base snapbase num = Err e.
Proof. intros Hb Hs Hn. exact (multi_top little fs base snapbase num Hb Hs Hn cat cats). Qed.
Print Assumptions C101_multi.
(** a file which is missing, cut off, or without particles is an error *)
Theorem C101_multi_error little fs base snapbase num cat content i : no_blanks base -> no_blanks snapbase -> three_digits num ->
  fs (snapshot_path base snapbase num 0) = Some content -> positions_file little cat content -> 0 <= i < files_of cat -> unreadable little (fs (snapshot_path base snapbase num i)) ->
  exists e, read_multi little fs base snapbase num = Err e.
Proof. intros Hb Hs Hn. exact (multi_bad little fs base snapbase num Hb Hs Hn cat content i). Qed.
Print Assumptions C101_multi_error.
(** with the values which are in the program, it asks for a name without [snap_millennium_008] *)
Theorem C101_default_refuted : ~ exists dir, snapshot_name (lit "/virgo/data/MilliMillennium/") (lit "snap_millennium/") 8 0 = dir ++ lit "/snap_millennium_008.0".
Proof. exact default_refuted. Qed.
Print Assumptions C101_default_refuted.

(** ReadPotential.pro: element (x, y, z) of the array is the potential there *)
Theorem C101_potential little fs base num g phi slabs fuel : no_blanks base -> three_digits num -> potential_ok g phi ->
  slabs_ok g slabs -> zlen slabs <= 2 ^ 15 -> (forall i, (i < List.length slabs)%nat -> readable_slabs little g phi (nth i slabs (0, 0)) (fs (potential_file base num (Z.of_nat i)))) -> (List.length slabs <= fuel)%nat ->
  exists p, read_potential little fs fuel base num = Ok p /\ zlen p = g * g * g /\ forall x y z, 0 <= x < g -> 0 <= y < g -> 0 <= z < g -> nth (Z.to_nat (x + g * (y + g * z))) p 0 = phi x y z.
Proof. intros Hb Hn Hp. exact (potential_top little fs base num Hb Hn g phi Hp slabs fuel). Qed.
Print Assumptions C101_potential.
(** files are read until there are as many planes as the grid has; one which is missing, cut off, or
    without planes before that is an error *)
Theorem C101_potential_error little fs base num g phi slabs fuel : no_blanks base -> three_digits num -> potential_ok g phi ->
  Forall (fun s => 0 <= fst s /\ 0 < snd s /\ fst s + snd s <= g) slabs -> sumZ (map snd slabs) < g -> zlen slabs < 2 ^ 15 ->
  (forall i, (i < List.length slabs)%nat -> readable_slabs little g phi (nth i slabs (0, 0)) (fs (potential_file base num (Z.of_nat i)))) -> unreadable_slabs little g phi (fs (potential_file base num (zlen slabs))) -> (List.length slabs < fuel)%nat ->
  exists e, e <> EFuel /\ read_potential little fs fuel base num = Err e.
Proof. intros Hb Hn Hp. exact (potential_bad little fs base num Hb Hn g phi Hp slabs fuel). Qed.
Print Assumptions C101_potential_error.

(** two snapshot files with three particles each and room for seven *)
Definition ex_multi : catalogue := fun name => if String.eqb name "Header/NumPart_Total" then [0; 7; 0; 0; 0; 0] else if String.eqb name "Header/NumFilesPerSnapshot" then [2] else RegionProps.ex_file1 name.
Example C101_ex : let whole := file_bytes true (L2_snapshot ex_multi) ++ [5] in
  positions_file true ex_multi whole /\ files_of ex_multi = 2 /\ total_particles ex_multi = 7 /\
  (let fs name := if str_eqb name (lit "d/snapdir_007/s_007.0") || str_eqb name (lit "d/snapdir_007/s_007.1") then Some whole else None in
   read_multi true fs (lit "d") (lit "s") 7 = Ok ([1; 2; 3; 4; 5; 6; 7; 8; 9; 1; 2; 3; 4; 5; 6; 7; 8; 9; 0; 0; 0], ex_multi "Header/BoxSize"%string)).
Proof.
  cbn zeta. split; [|split; [reflexivity|split; [reflexivity | vm_compute; reflexivity]]]. exists [5], (file_bytes true (L2_snapshot ex_multi) ++ [5]), (List.length (file_bytes true (L2_snapshot ex_multi) ++ [5])).
  split; [split; [apply RegionFinal.pieces_okb; vm_compute; reflexivity | reflexivity]|]. split; [now rewrite firstn_all|]. vm_compute. repeat split; discriminate.
Qed.
(** planes 2, 0 and 1 of a grid of three, in two files *)
Example C101_ex_potential : let phi x y z := 100 * (x mod 3) + 10 * (y mod 3) + z mod 3 in let file first slabs := potential_bytes false 3 phi first slabs 4 0 0 in
  potential_ok 3 phi /\ slabs_ok 3 [(2, 1); (0, 2)] /\ readable_slabs false 3 phi (2, 1) (Some (file 2 1)) /\ readable_slabs false 3 phi (0, 2) (Some (file 0 2)) /\
  (let fs name := if str_eqb name (lit "d/snapdir_042/potential_042.0") then Some (file 2 1) else if str_eqb name (lit "d/snapdir_042/potential_042.1") then Some (file 0 2) else None in
   read_potential false fs 2 (lit "d") 42 = Ok [0; 100; 200; 10; 110; 210; 20; 120; 220; 1; 101; 201; 11; 111; 211; 21; 121; 221; 2; 102; 202; 12; 112; 212; 22; 122; 222]).
Proof.
  cbn zeta.
  split. { split; [lia|]. intros x y z. pose proof (Z.mod_pos_bound x 3 ltac:(lia)). pose proof (Z.mod_pos_bound y 3 ltac:(lia)). pose proof (Z.mod_pos_bound z 3 ltac:(lia)). lia. }
  split. { split; [repeat constructor; cbn; lia|]. split; [reflexivity|]. intros x Hx. destruct (Z.eq_dec x 2) as [-> |]; [exists (2, 1) | exists (0, 2)]; cbn; split; (tauto || lia). }
  split; [|split; [|vm_compute; reflexivity]].
  - exists (potential_bytes false 3 (fun x y z => 100 * (x mod 3) + 10 * (y mod 3) + z mod 3) 2 1 4 0 0), 68%nat. split; [exists 4, 0, 0, []; rewrite app_nil_r; repeat split; lia|]. split; [vm_compute; reflexivity | vm_compute; discriminate].
  - exists (potential_bytes false 3 (fun x y z => 100 * (x mod 3) + 10 * (y mod 3) + z mod 3) 0 2 4 0 0), 104%nat. split; [exists 4, 0, 0, []; rewrite app_nil_r; repeat split; lia|]. split; [vm_compute; reflexivity | vm_compute; discriminate].
Qed.
