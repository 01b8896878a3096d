(** C100: the lemmas with the names of the files, and examples. *)
From Coq Require Import Ascii String.
From Verif Require Import Base.Prelude Base.ListLemmas Formats.FileSpec Formats.CatSpec Formats.StructModel Formats.StructSpec Fortran.RegionSpec Fortran.GroupTabSpec.
From Verif Require Import Text.StrModel Pro.ProModel Pro.ProSpec Pro.NameProofs Pro.ProProofs Pro.SingleProofs.
From Verif Require Mill2.SnapCFinal.
From Coq Require Import ZifyBool ZifyNat.
Local Open Scope Z_scope. Local Open Scope list_scope.

Section Final.
  Variables (little : bool) (fs : str -> option (list Z)) (base : str) (num : Z).
  Hypothesis Hb : no_blanks base.
  Hypothesis Hn : three_digits num.
  Lemma sub_top sub cat1 cat2 extra1 extra2 content1 content2 k1 k2 :
    catalogue_file little L2_group_tab cat1 extra1 content1 -> catalogue_file little (L2_sub_tab 8) cat2 extra2 content2 ->
    fs (group_tab_file base num sub) = Some (firstn k1 content1) -> fs (sub_tab_file base num sub) = Some (firstn k2 content2) ->
    0 < scalar cat1 "Ngroups" -> 0 < scalar cat2 "Ngroups" -> 0 < scalar cat2 "Nsubhalos" ->
    read_sub_halos little fs base num sub =
      if (Z.of_nat k1 <? 16 + 4 * scalar cat1 "Ngroups") || (Z.of_nat k2 <? size_of cat2 (L2_sub_tab 8)) then Err EIO else
      Ok (map signed (cat1 "GroupLen"%string), map (map signed) (arrays_of cat2 sub_tab_counts), arrays_of cat2 halo_properties, arrays_of cat2 subhalo_properties).
  Proof using Hb Hn. destruct (names_final base num sub Hb Hn) as (E1 & E2 & _). rewrite <- E1, <- E2. intros. eapply sub_final; eassumption. Qed.
  Lemma aux_top filenr cat extra content k : catalogue_file little (MPA_tree_aux 8) cat extra content -> fs (tree_path "treeaux" base num filenr) = Some (firstn k content) ->
    Forall (fun n => 0 < scalar cat n) ["TotSnaps"; "Ntrees"; "TotHalos"; "Totunique"]%string ->
    read_tree_aux little fs base num filenr =
      if Z.of_nat k <? size_of cat (firstn 12 (MPA_tree_aux 8)) then Err EIO else Ok (map (map signed) (arrays_of cat aux_counts) ++ [map signed64 (cat "IDs"%string); cat "Pos"%string]).
  Proof using Hb Hn. destruct (names_final base num filenr Hb Hn) as (_ & _ & _ & _ & E & _). rewrite <- E. intros. eapply aux_final; eassumption. Qed.
  Lemma tree_top filenr trees extra content k : trees_file little trees extra content -> 0 < zlen trees -> zlen (concat trees) < 2 ^ 32 -> fs (tree_path "trees" base num filenr) = Some (firstn k content) ->
    read_tree_file little fs base num filenr = if Z.of_nat k <? trees_size trees then Err EIO else Ok (tree_numbers trees).
  Proof using Hb Hn. destruct (names_final base num filenr Hb Hn) as (_ & _ & _ & E & _). rewrite <- E. intros. eapply tree_final; eassumption. Qed.
  Lemma all_trees_top (trees : Z -> list (list structure)) :
    (forall i, 0 <= i < 512 -> exists extra content, trees_file little (trees i) extra content /\ 0 < zlen (trees i) /\ zlen (concat (trees i)) < 2 ^ 32 /\ fs (tree_path "trees" base num i) = Some content) ->
    read_tree little fs base num = Ok (map (fun i => tree_numbers (trees i)) (zseq 0 512)).
  Proof using Hb Hn.
    intro HA. apply all_trees_final. intros i Hi. destruct (names_final base num i Hb Hn) as (_ & _ & _ & E & _). rewrite E. exact (HA i Hi).
  Qed.
  Lemma few_top i : 0 <= i < 512 -> fs (tree_path "trees" base num i) = None -> exists e, read_tree little fs base num = Err e.
  Proof using Hb Hn. destruct (names_final base num i Hb Hn) as (_ & _ & _ & E & _). rewrite <- E. apply few_trees_final. Qed.
  Lemma empty_tree_top filenr n extra : 0 <= n < 2 ^ 32 -> fs (tree_path "trees" base num filenr) = Some (number_bytes little 4 1 ++ number_bytes little 4 n ++ number_bytes little 4 0 ++ extra) ->
    read_tree_file little fs base num filenr = Err EValue.
  Proof using Hb Hn. destruct (names_final base num filenr Hb Hn) as (_ & _ & _ & E & _). rewrite <- E. intros A B. exact (empty_tree_final little fs base num filenr extra n B A). Qed.
  Lemma single_top snapbase sub cat extra content k : no_blanks snapbase -> snapshot_file little cat extra content -> fs (snapshot_path base snapbase num sub) = Some (firstn k content) -> 0 < npart_of cat -> 12 * npart_of cat < 2 ^ 31 ->
    read_single little fs base snapbase num sub = if Z.of_nat k <? 288 + 32 * npart_of cat then Err EIO else
      Ok (map signed (cat "Header/NumPart_ThisFile"%string), (cat "PartType1/Coordinates"%string, cat "PartType1/Velocities"%string, map signed64 (cat "PartType1/ParticleIDs"%string))).
  Proof using Hb Hn. intros Hs. destruct (names_final base num sub Hb Hn) as (_ & _ & _ & _ & _ & E). rewrite <- (E snapbase Hs). intros A B C D. exact (single_final little cat extra content A fs base snapbase num sub k B C D). Qed.
End Final.

(** *** examples *)
Definition ex_halo (i : Z) : structure := fun name =>
  if existsb (String.eqb name) ["Pos"; "Vel"; "Spin"]%string then [i; i + 1; i + 2] else if String.eqb name "MostBoundID" then [2 ^ 40 + i] else [i].
Definition ex_trees : list (list structure) := [[ex_halo 1]; [ex_halo 20; ex_halo 30]].
Definition halo_b (s : structure) : bool := forallb (fun m => (zlen (s (m_name m)) =? m_count m) && forallb (fun v => (0 <=? v) && (v <? 256 ^ m_size m)) (s (m_name m))) (tree_halo 8 false).
Lemma halo_b_ok s : halo_b s = true -> halo_ok s.
Proof.
  intro E. apply Forall_forall. intros m Hm. unfold halo_b in E. rewrite forallb_forall in E. specialize (E m Hm). apply andb_prop in E as [E1 E2]. split; [lia|]. apply Forall_forall. intros v Hv. rewrite forallb_forall in E2. specialize (E2 v Hv). lia.
Qed.
Lemma ex_trees_ok lf extra : trees_file lf ex_trees extra (tree_file lf (map zlen ex_trees) (map (halo_bytes lf) (concat ex_trees)) extra).
Proof. 
  assert (forall s, In s (concat ex_trees) -> halo_ok s) as A.
  { intros s Hs. apply halo_b_ok. assert (forallb halo_b (concat ex_trees) = true) as E by (vm_compute; reflexivity). rewrite forallb_forall in E. now apply E. }
  split; [apply Forall_forall; intros t Ht; apply Forall_forall; intros s Hs; apply A; apply in_concat; exists t; now split|]. split; [repeat constructor|]. split; [reflexivity | reflexivity]. Qed.
Definition ex_tab : catalogue := fun name =>
  if existsb (String.eqb name) ["Ngroups"; "Nsubhalos"; "GroupMinLen"; "TotHalos"; "Totunique"]%string then [2] else
  if existsb (String.eqb name) ["TotSnaps"; "Ntrees"]%string then [1] else
  if existsb (String.eqb name) ["SubPos"; "SubVel"; "SubSpin"; "Pos"; "Vel"]%string then [1; 2; 3; 4; 5; 6] else
  if existsb (String.eqb name) ["GroupIDs"; "GroupLen"; "GroupOffset"; "Count"; "NsubPerHalo"; "FirstSubOfHalo"; "SubLen"; "SubOffset"; "SubParentHalo"; "Halo_M_Mean200"; "Halo_R_Mean200"; "Halo_M_Crit200"; "Halo_R_Crit200"; "Halo_M_TopHat200"; "Halo_R_TopHat200";
    "SubVelDisp"; "SubVmax"; "SubHalfMass"; "SubMostBoundID"; "Nunique"; "OffsetID_Halo"; "IDs"]%string then [7; 2 ^ 32 - 1] else [0].
Definition scalar_b (cat : catalogue) (l : list field) : bool := forallb (fun fd => forallb (fun d => match d with Fixed _ => true | Of name => (0 <=? scalar cat name) && (scalar cat name <? 2 ^ 31) end) (fd_dims fd)) l.
Lemma consistent_b cat l : forallb SnapCFinal.ok_b (pieces_of cat l) = true -> scalar_b cat l = true -> consistent cat l.
Proof.
  intros A B. split; [now apply SnapCFinal.ok_b_ok|]. unfold scalar_b in B. rewrite forallb_forall in B. apply Forall_forall. intros fd Hf. specialize (B fd Hf). rewrite forallb_forall in B. apply Forall_forall. intros d Hd. specialize (B d Hd). destruct d as [m|name]; [exact I | lia].
Qed.
Lemma ex_tab_ok lf : consistent ex_tab L2_group_tab /\ consistent ex_tab (L2_sub_tab 8) /\ consistent ex_tab (MPA_tree_aux 8) /\
  catalogue_file lf L2_group_tab ex_tab [] (file_bytes lf (pieces_of ex_tab L2_group_tab) ++ []).
Proof.
  assert (consistent ex_tab L2_group_tab) as A by (apply consistent_b; vm_compute; reflexivity). split; [exact A|]. split; [apply consistent_b; vm_compute; reflexivity|]. split; [apply consistent_b; vm_compute; reflexivity|]. split; [exact A | reflexivity].
Qed.
