(** C75: GroupOrderedSnapshot (P-Gadget3 and Gadget-4), from the bytes of the files. *)
From Coq Require Import Ascii String.
From Verif Require Import Base.Prelude Base.NdArray Binary.BinModel Formats.ReaderModel Formats.FileSpec Formats.CatSpec Formats.GadgetSpec.
From Verif Require Import Multi.MultiModel Multi.GroupCatModel Multi.GroupCatSpec Multi.GroupCatFinal Multi.GroupCatProps Snap.ReadModel Snap.ReadSpec Snap.OrderedModel Snap.OrderedSpec Snap.OrderedFinal.
Local Open Scope Z_scope.
Local Open Scope list_scope.

(** P-Gadget3: the group catalogue files hold [cs] and the snapshot files hold [ss], in any byte order.
    Then the object can be made, and after any earlier calls read_fof_group and read_subfind_group
    return the particles of type 1 (positions, velocities and ids, or some of these) which the
    catalogue gives to the group *)
Theorem C75_pgadget3 : forall little tabs snaps so id fl cs ss, id_size id -> id_size fl ->
  Forall (fun c => consistent c (P3_sub_tab so id fl) /\ 1 <= scalar c "NTask" <= 65535) cs ->
  option_map (fun c => scalar c "NTask") (hd_error cs) = Some (zlen cs) ->
  stored tabs (fun c => pieces_of c (P3_sub_tab so id fl)) cs ->
  Forall sn_ok ss -> option_map (fun s => scalar (sn_cat s) "Header/NumFilesPerSnapshot") (hd_error ss) = Some (zlen ss) -> zlen ss < 2 ^ 31 ->
  snaps_stored snaps ss ->
  exists o fs, p3_init little tabs snaps so id fl = Ok o /\ snap_list little snaps (o_nfiles o) = Ok fs /\
  forall calls names, (forall c, In c calls -> NoDup (snd c) /\ incl (snd c) three) -> NoDup names -> incl names three ->
  (forall g, 0 <= g < zlen (in_all cs "GroupLen") ->
     let off := nth (Z.to_nat g) (in_all cs "GroupOffset") 0 in let len := int32 (nth (Z.to_nat g) (in_all cs "GroupLen") 0) in
     0 < len -> off + len <= all_count ss 1 ->
     snd (p3_read_fof_group fs (range_history fs calls) (o_GroupOffset o) (o_GroupLen o) g names) = Ok (map (fun n => (n, zslice (all_rows ss 1 n) off (off + len))) names)) /\
  (forall g, 0 <= g < zlen (in_all cs "SubLen") ->
     let off := int32 (nth (Z.to_nat g) (in_all cs "SubOffset") 0) in let len := int32 (nth (Z.to_nat g) (in_all cs "SubLen") 0) in
     0 <= off -> 0 < len -> off + len <= all_count ss 1 -> off + len <= 2 ^ 31 ->
     snd (p3_read_subfind_group fs (range_history fs calls) (o_SubOffset o) (o_SubLen o) g names) = Ok (map (fun n => (n, zslice (all_rows ss 1 n) off (off + len))) names)).
Proof. exact @p3_whole. Qed.
Print Assumptions C75_pgadget3.

(** Gadget-4: the same for read_fof_group, with all types of particles and the subhalo of each
    particle. [type_complete] and [type_short] are as in C45: the last particle of a type can be
    missing if it is the first of a file. A pair (file, group in file) means the group with that
    place in that file. *)
Theorem C75_gadget4 : forall id fl, id_size id -> forall little tabs snaps cs ss, Forall (g4_ok id fl) cs ->
  option_map (fun c => scalar c "NFiles") (hd_error cs) = Some (zlen cs) -> zlen cs < 2 ^ 31 ->
  stored tabs (G4_sub_tab id) cs ->
  Forall sn_ok ss -> option_map (fun s => scalar (sn_cat s) "Header/NumFilesPerSnapshot") (hd_error ss) = Some (zlen ss) -> zlen ss < 2 ^ 31 ->
  snaps_stored snaps ss ->
  0 < sumZ (map (fun c => scalar c "Ngroups") cs) -> 0 < sumZ (map (fun c => scalar c "Nsubgroups") cs) -> cat_ok (the_fofcat cs) ->
  exists fs, g4_init little tabs snaps id = Ok (the_fofcat cs, zlen ss) /\ snap_list little snaps (zlen ss) = Ok fs /\
  let c := the_fofcat cs in
  (forall calls i, 0 <= i < zlen (foflentype c) ->
     (forall t, In t types -> group_start c i t + group_len c i t <= all_count ss t) ->
     (forall j, (0 < j < List.length ss)%nat -> (forall t, In t types -> group_start c i t + group_len c i t - 1 <= all_count (firstn j ss) t) ->
        forall t, In t types -> 0 < group_len c i t -> all_count (firstn j ss) t <> group_start c i t + group_len c i t - 1) ->
     exists out, snd (g4_read_fof_group c fs (fof_history c fs calls) (GrNr i)) = Ok out /\ Forall2 (type_complete c (map sn_rows ss) i) types out) /\
  (forall calls i, 0 <= i < zlen (foflentype c) ->
     (forall t, In t types -> group_start c i t + group_len c i t <= all_count ss t) ->
     (exists out, snd (g4_read_fof_group c fs (fof_history c fs calls) (GrNr i)) = Ok out /\ Forall2 (type_short c (map sn_rows ss) i) types out) \/
     snd (g4_read_fof_group c fs (fof_history c fs calls) (GrNr i)) = Err EValue) /\
  (forall calls f k, (f < List.length cs)%nat -> g4_read_fof_group c fs (fof_history c fs calls) (GrPair (Z.of_nat f) k) =
     g4_read_fof_group c fs (fof_history c fs calls) (GrNr (sumZ (firstn f (map (fun c => scalar c "Ngroups") cs)) + k))).
Proof. exact @g4_whole. Qed.
Print Assumptions C75_gadget4.
(** finding: if there are no groups, or no subhalos, the object can not be made *)
Theorem C75_gadget4_empty_refuted : forall id fl, id_size id -> forall little tabs snaps cs, Forall (g4_ok id fl) cs ->
  option_map (fun c => scalar c "NFiles") (hd_error cs) = Some (zlen cs) -> zlen cs < 2 ^ 31 ->
  stored tabs (G4_sub_tab id) cs ->
  sumZ (map (fun c => scalar c "Ngroups") cs) = 0 \/ sumZ (map (fun c => scalar c "Nsubgroups") cs) = 0 ->
  g4_init little tabs snaps id = Err EValue.
Proof. exact @g4_opens_not. Qed.
Print Assumptions C75_gadget4_empty_refuted.

(** snapshots of 3 and 4 particles, with no particles in a file between these *)
Definition ex_header (n : Z) : catalogue := fun name =>
  if String.eqb name "Header/NumPart_ThisFile" then [0; n; 0; 0; 0; 0] else if String.eqb name "Header/MassTable" then [0; 4607182418800017408; 0; 0; 0; 0]
  else if String.eqb name "Header/NumPart_Total" then [0; 7; 0; 0; 0; 0] else if String.eqb name "Header/NumPart_Total_HighWord" then [0; 0; 0; 0; 0; 0]
  else if String.eqb name "Header/NumFilesPerSnapshot" then [3] else [1].
Definition ex_snap (n base : Z) : snapfile :=
  {| sn_cat := ex_header n; sn_fill := repeat 0 64; sn_mass := [true; false; true; true; true; true]; sn_size := fun name => if str_eqb name (nm "ParticleIDs") then 8 else 4;
     sn_vals := fun name i => zseq base (Z.to_nat (if str_eqb name (nm "ParticleIDs") then n else 3 * n)); sn_blocks := if 0 <? n then 3 else 0 |}.
Definition ex_snaps : list snapfile := [ex_snap 3 100; ex_snap 0 0; ex_snap 4 200].
Definition ex_snap_files (i : Z) : option (list Z) :=
  if i <? 0 then None else option_map (fun s => file_bytes (i =? 0) (sn_pieces s)) (nth_error ex_snaps (Z.to_nat i)).
Lemma ex_wf n base : In n [0; 3; 4] -> well_formed (sn_cat (ex_snap n base)) (sn_fill (ex_snap n base)) (sn_mass (ex_snap n base)) [] (sn_size (ex_snap n base)) (sn_vals (ex_snap n base)).
Proof.
  intro Hn. assert (0 <= n < 5) as Hn' by (cbn in Hn; lia). clear Hn. split; [|split]; [split| |constructor].
  - unfold attr_of. cbn [map G_header six one fd_name fd_size fd_dims Formats.CatSpec.extent]. repeat constructor; cbn; try lia; try reflexivity.
  - reflexivity.
  - cbn. repeat constructor; lia.
  - split.
    + repeat constructor; cbn; intro H; repeat (destruct H as [H|H]; [discriminate|]); exact H.
    + repeat constructor; try discriminate; cbn; intro H; repeat (destruct H as [H|H]; [discriminate|]); exact H.
  - repeat constructor.
  - repeat constructor.
  - repeat constructor; cbn; lia.
  - unfold mass_types, zero64, ex_snap. cbn. repeat match goal with |- Forall2 _ (_ :: _) _ => apply Forall2_cons | |- Forall2 _ [] _ => apply Forall2_nil end; split; auto; try discriminate; intros [H|H]; discriminate.
Qed.
Lemma ex_snaps_ok : Forall sn_ok ex_snaps.
Proof.
  unfold ex_snaps. repeat match goal with |- Forall _ (_ :: _) => constructor | |- Forall _ [] => constructor end;
    (split; [apply ex_wf; cbn; tauto|]; split; [each|]; split; [vm_compute; lia|]; (right; vm_compute; lia) || (left; reflexivity)).
Qed.
Lemma ex_snaps_stored : snaps_stored ex_snap_files ex_snaps.
Proof.
  intros i s E. exists (Z.of_nat i =? 0), []. unfold ex_snap_files. replace (Z.of_nat i <? 0) with false by (symmetry; apply Z.ltb_ge; lia). rewrite Nat2Z.id, E, app_nil_r. split; [reflexivity|]. right. reflexivity.
Qed.
(** groups of 2 and 5 particles, the second with subhalos of 3 and 1 *)
Definition ex_tab (k : bool) : catalogue := fun name =>
  if String.eqb name "GroupLen" then (if k then [2] else [5]) else if String.eqb name "GroupOffset" then (if k then [0] else [2])
  else if String.eqb name "SubLen" then (if k then [] else [3; 1]) else if String.eqb name "SubOffset" then (if k then [] else [2; 5])
  else ex_file (P3_sub_tab false 8 4) [("Ngroups", 1); ("Nsubgroups", if k then 0 else 2); ("NTask", 2)]%string 0 name.
Definition ex_tabs : list catalogue := [ex_tab true; ex_tab false].
Definition ex_p3_files := ex_files (fun c => pieces_of c (P3_sub_tab false 8 4)) ex_tabs.
Example C75_pgadget3_ex : Forall (fun c => consistent c (P3_sub_tab false 8 4) /\ 1 <= scalar c "NTask" <= 65535) ex_tabs /\
  option_map (fun c => scalar c "NTask") (hd_error ex_tabs) = Some (zlen ex_tabs) /\ stored ex_p3_files (fun c => pieces_of c (P3_sub_tab false 8 4)) ex_tabs /\
  Forall sn_ok ex_snaps /\ option_map (fun s => scalar (sn_cat s) "Header/NumFilesPerSnapshot") (hd_error ex_snaps) = Some (zlen ex_snaps) /\ snaps_stored ex_snap_files ex_snaps /\
  (do o <- p3_init true ex_p3_files ex_snap_files false 8 4; do fs <- snap_list true ex_snap_files (o_nfiles o);
   do a <- snd (p3_read_fof_group fs (new_npart fs) (o_GroupOffset o) (o_GroupLen o) 1 ["ParticleIDs"]%string);
   do b <- snd (p3_read_subfind_group fs (new_npart fs) (o_SubOffset o) (o_SubLen o) 0 ["Coordinates"]%string); Ok (a, b)) =
  Ok ([("ParticleIDs"%string, [[102]; [200]; [201]; [202]; [203]])], [("Coordinates"%string, [[106; 107; 108]; [200; 201; 202]; [203; 204; 205]])]).
Proof.
  split; [|split; [reflexivity|]; split; [apply ex_stored|]; split; [exact ex_snaps_ok|]; split; [reflexivity|]; split; [exact ex_snaps_stored | vm_compute; reflexivity]].
  repeat constructor; try (vm_compute; congruence); try each; counts.
Qed.
Definition ex_tab4 (k : bool) : catalogue := fun name =>
  if String.eqb name "GroupLenType" then (if k then [0; 2; 0; 0; 0; 0] else [0; 5; 0; 0; 0; 0]) else if String.eqb name "Nsubs" then (if k then [0] else [2]) else if String.eqb name "FirstSub" then (if k then [2 ^ 32 - 1] else [0])
  else if String.eqb name "SubLenType" then (if k then [] else [0; 3; 0; 0; 0; 0; 0; 1; 0; 0; 0; 0])
  else ex_file (G4_header ++ G4_groups 4 ++ G4_subs 8 4) [("Ngroups", 1); ("Nsubgroups", if k then 0 else 2); ("NFiles", 2); ("flag_dp", 0)]%string 0 name.
Definition ex_tabs4 : list catalogue := [ex_tab4 true; ex_tab4 false].
Definition ex_g4_files := ex_files (G4_sub_tab 8) ex_tabs4.
Example C75_gadget4_ex : Forall (g4_ok 8 4) ex_tabs4 /\ option_map (fun c => scalar c "NFiles") (hd_error ex_tabs4) = Some (zlen ex_tabs4) /\ stored ex_g4_files (G4_sub_tab 8) ex_tabs4 /\
  the_fofcat ex_tabs4 = {| foflentype := [[0; 2; 0; 0; 0; 0]; [0; 5; 0; 0; 0; 0]]; fof_nsubs := [0; 2]; fof_firstsub := [-1; 0]; sublentype := [[0; 3; 0; 0; 0; 0]; [0; 1; 0; 0; 0; 0]]; nfof_file := [1; 1] |} /\
  cat_ok (the_fofcat ex_tabs4) /\
  (do (c, n) <- g4_init true ex_g4_files ex_snap_files 8; do fs <- snap_list true ex_snap_files n;
   do a <- snd (g4_read_fof_group c fs (new_npart6 fs) (GrPair 1 0)); Ok a) =
  Ok [None; Some ([[[106; 107; 108]; [200; 201; 202]; [203; 204; 205]; [206; 207; 208]; [209; 210; 211]]; [[106; 107; 108]; [200; 201; 202]; [203; 204; 205]; [206; 207; 208]; [209; 210; 211]];
                   [[102]; [200]; [201]; [202]; [203]]], [0; 0; 0; 1; -1]); None; None; None; None].
Proof.
  split. { unfold ex_tabs4. repeat match goal with |- Forall _ (_ :: _) => constructor | |- Forall _ [] => constructor end; (split; [reflexivity|]; split; split; [each | counts | each | each]). }
  split; [reflexivity|]. split; [apply ex_stored|]. split; [vm_compute; reflexivity|]. split; [|vm_compute; reflexivity].
  split; [vm_compute; repeat constructor; congruence|]. split; [vm_compute; repeat constructor; congruence|]. split; [reflexivity|]. split; [reflexivity|].
  intros i Hi. assert (i = 0 \/ i = 1) as [->| ->] by (change (zlen (foflentype (the_fofcat ex_tabs4))) with 2 in Hi; lia);
    (cbv zeta; split; [vm_compute; congruence|]; split; [vm_compute; intuition congruence|]; intros t Ht; cbn in Ht; intuition; subst; vm_compute; congruence).
Qed.
