(** Proofs about reading files in IDL programs (C100). *)
From Coq Require Import Ascii String.
From Verif Require Import Base.Prelude Base.ListLemmas Binary.BinModel Binary.EndianProofs Binary.FortranProofs Formats.FileSpec Formats.CatSpec Formats.ReaderProofs Formats.StructModel Formats.StructSpec.
From Verif Require Import Peano.CPeanoModel Fortran.SortModel Fortran.RegionModel Fortran.RegionSpec Fortran.GroupTabModel Fortran.GroupTabSpec Fortran.GroupTabProofs.
From Verif Require Fortran.ReadPartProofs.
From Verif Require Import Text.StrModel Pro.ProModel Pro.ProSpec.
From Coq Require Import ZifyBool ZifyNat.
Local Open Scope Z_scope. Local Open Scope list_scope.

Lemma transfer_short little : forall l bytes, good l -> zlen bytes < csize l -> transfer little (items_of l) bytes = Err EIO.
Proof.
  induction l as [|[s v] l IH]; intros bytes H Hs; [pose proof (zlen_nonneg bytes); unfold csize in Hs; cbn in Hs; lia|]. apply Forall_cons_iff in H. destruct H as [[H1 H2] H3]. rewrite csize_cons in Hs. cbn [fst snd] in Hs.
  change (items_of ((s, v) :: l)) with ((s, zlen v) :: items_of l). cbn [transfer]. pose proof (zlen_nonneg v). replace (Z.max 0 (zlen v)) with (zlen v) by lia.
  destruct (Z.leb_spec (s * zlen v) (zlen bytes)) as [C|C]; [|reflexivity]. cbn [check bind]. rewrite IH; [reflexivity | exact H3|]. unfold zlen at 1. rewrite skipn_length. unfold zlen in *. nia.
Qed.
Lemma skipn_more {B} (a b : nat) (l : list B) : skipn a (skipn b l) = skipn (b + a) l.
Proof. revert l. induction b as [|b IH]; intros [|x l]; [reflexivity | reflexivity | now rewrite !skipn_nil | apply IH]. Qed.
Lemma concat_ok {B} (P : B -> Prop) l : Forall (Forall P) l -> Forall P (concat l).
Proof. induction 1 as [|x l Hx HF IH]; [constructor|]. cbn [concat]. apply Forall_app. now split. Qed.
Section Read.
  Variable little : bool.
  Lemma items_size l : sumZ (map (fun '(size, count) => size * count) (items_of l)) = csize l.
  Proof. unfold csize, items_of. rewrite map_map. f_equal. apply map_ext. now intros [s v]. Qed.
  (** a read of some arrays from the first [k] bytes of a file *)
  Lemma readu_cut k pre mid post extra content pos items : good (pre ++ mid ++ post) -> content = cbytes little (pre ++ mid ++ post) ++ extra -> pos = csize pre -> items = items_of mid -> csize pre <= Z.of_nat k ->
    readu little (firstn k content) pos items = if Z.of_nat k <? csize (pre ++ mid) then Err EIO else Ok (map snd mid, csize (pre ++ mid)).
  Proof.
    intros G -> -> -> Hk. apply good_app in G as [G1 G]. pose proof G as G'. apply good_app in G' as [G2 G3]. rewrite csize_app. pose proof (csize_nonneg _ G1) as N1. pose proof (csize_nonneg _ G2) as N2.
    assert (List.length (cbytes little pre) = Z.to_nat (csize pre)) as L1 by (pose proof (cbytes_len little pre G1) as L; unfold zlen in L; lia).
    assert (List.length (cbytes little mid) = Z.to_nat (csize mid)) as L2 by (pose proof (cbytes_len little mid G2) as L; unfold zlen in L; lia).
    unfold readu. rewrite items_size.
    assert (skipn (Z.to_nat (csize pre)) (firstn k (cbytes little (pre ++ mid ++ post) ++ extra)) = firstn (k - Z.to_nat (csize pre)) (cbytes little mid ++ cbytes little post ++ extra)) as ->.
    { rewrite !cbytes_app, <- !app_assoc, firstn_app, L1, firstn_all2 by lia. rewrite skipn_app, L1, skipn_all2, Nat.sub_diag by lia. reflexivity. }
    destruct (Z.ltb_spec (Z.of_nat k) (csize pre + csize mid)) as [C|C].
    - rewrite transfer_short; [reflexivity | exact G2|]. unfold zlen. rewrite firstn_length. lia.
    - rewrite firstn_app, L2, firstn_all2 by lia. rewrite transfer_ok by exact G2. reflexivity.
  Qed.
End Read.
(** the same for arrays of a catalogue *)
Definition chunks_of (cat : catalogue) (l : list field) : list (Z * list Z) := map (chunk_of cat) l.
Lemma chunks_size cat l : csize (chunks_of cat l) = size_of cat l.
Proof. unfold csize, chunks_of, size_of. rewrite map_map. reflexivity. Qed.
Lemma field_cut little cat extra content all k pre mid post pos items : catalogue_file little all cat extra content -> all = pre ++ mid ++ post -> pos = size_of cat pre ->
  items = map (fun fd => (fd_size fd, fold_left Z.mul (map (extent cat) (fd_dims fd)) 1)) mid -> size_of cat pre <= Z.of_nat k ->
  readu little (firstn k content) pos items = if Z.of_nat k <? size_of cat (pre ++ mid) then Err EIO else Ok (arrays_of cat (map fd_name mid), size_of cat (pre ++ mid)).
Proof.
  intros [C ->] -> -> -> Hk. pose proof (consistent_good _ _ C) as G. rewrite file_chunks. rewrite !map_app in *. rewrite <- !chunks_size in *. unfold chunks_of in *. rewrite map_app.
  rewrite (readu_cut little k (map (chunk_of cat) pre) (map (chunk_of cat) mid) (map (chunk_of cat) post) extra _ _ _ G eq_refl eq_refl) by (exact Hk || (unfold items_of; rewrite map_map; apply map_ext_in; intros fd Hf; cbn [chunk_of]; rewrite (consistent_len cat _ fd C); [reflexivity | rewrite !in_app_iff; tauto])).
  unfold arrays_of. rewrite !map_map. reflexivity.
Qed.
Lemma size_of_nonneg cat l : Forall (fun fd => 0 <= fd_size fd) l -> 0 <= size_of cat l.
Proof. unfold size_of. induction 1 as [|fd l Hf HF IH]; [reflexivity|]. cbn [map sumZ fold_right]. fold (sumZ (map (fun fd => fd_size fd * zlen (cat (fd_name fd))) l)). pose proof (zlen_nonneg (cat (fd_name fd))). nia. Qed.
Lemma size_of_app cat a b : size_of cat (a ++ b) = size_of cat a + size_of cat b.
Proof. unfold size_of. rewrite map_app. induction a as [|x a IH]; [reflexivity|]. cbn [map app sumZ fold_right] in *. unfold sumZ in *. lia. Qed.
(** a step of a program, for a program which needs [total] bytes *)
Lemma field_step {B} little cat extra content all k pre mid post pos items total (f : list (list Z) -> Z -> res B) r : catalogue_file little all cat extra content -> all = pre ++ mid ++ post -> pos = size_of cat pre ->
  items = map (fun fd => (fd_size fd, fold_left Z.mul (map (extent cat) (fd_dims fd)) 1)) mid -> size_of cat pre <= Z.of_nat k -> size_of cat (pre ++ mid) <= total ->
  (size_of cat (pre ++ mid) <= Z.of_nat k -> f (arrays_of cat (map fd_name mid)) (size_of cat (pre ++ mid)) = if Z.of_nat k <? total then Err EIO else r) ->
  (do (a, p) <- readu little (firstn k content) pos items; f a p) = if Z.of_nat k <? total then Err EIO else r.
Proof.
  intros C Ea Ep Ei Hk Ht Hf. rewrite (field_cut little cat extra content all k pre mid post pos items C Ea Ep Ei Hk). destruct (Z.ltb_spec (Z.of_nat k) (size_of cat (pre ++ mid))) as [D|D]; cbn [bind]; [replace (Z.of_nat k <? total) with true by lia; reflexivity|].
  apply Hf. exact D.
Qed.
Lemma count_ok cat all fd name : consistent cat all -> In fd all -> In (Of name) (fd_dims fd) -> signed32 (scalar cat name) = scalar cat name.
Proof. intros C Hf Hd. rewrite signed_model. apply signed_id. exact (consistent_count _ _ _ _ C Hf Hd). Qed.
Lemma mono_size cat a b : Forall (fun fd => 0 <= fd_size fd) b -> size_of cat a <= size_of cat (a ++ b).
Proof. intro H. rewrite size_of_app. pose proof (size_of_nonneg cat b H). lia. Qed.
Ltac small := repeat constructor; discriminate.

Section Programs.
  Variable little : bool.
  Variable fs : str -> option (list Z).
  Lemma groups_final base num k : exists e, read_groups little fs base num k = Err e.
  Proof. unfold read_groups. destruct (openr fs _) as [content|e]; cbn [bind]; [|now exists e]. destruct (readu little content 0 _) as [[h p]|e]; cbn [bind]; [now exists EName | now exists e]. Qed.

  Section Sub.
    Variables (cat1 cat2 : catalogue) (extra1 extra2 content1 content2 : list Z) (base : str) (num sub : Z) (k1 k2 : nat).
    Hypothesis H1 : catalogue_file little L2_group_tab cat1 extra1 content1.
    Hypothesis H2 : catalogue_file little (L2_sub_tab 8) cat2 extra2 content2.
    Hypothesis F1 : fs (group_tab_name base num sub) = Some (firstn k1 content1).
    Hypothesis F2 : fs (sub_tab_name base num sub) = Some (firstn k2 content2).
    Hypothesis P1 : 0 < scalar cat1 "Ngroups".
    Hypothesis P2 : 0 < scalar cat2 "Ngroups".
    Hypothesis P3 : 0 < scalar cat2 "Nsubhalos".
    Lemma sub_final : read_sub_halos little fs base num sub =
      if (Z.of_nat k1 <? 16 + 4 * scalar cat1 "Ngroups") || (Z.of_nat k2 <? size_of cat2 (L2_sub_tab 8)) then Err EIO else
      Ok (map signed (cat1 "GroupLen"%string), map (map signed) (arrays_of cat2 sub_tab_counts), arrays_of cat2 halo_properties, arrays_of cat2 subhalo_properties).
    Proof using All.
      unfold read_sub_halos, openr. rewrite F1. cbn [bind].
      assert (size_of cat1 (firstn 5 L2_group_tab) = 16 + 4 * scalar cat1 "Ngroups") as E1.
      { unfold size_of. cbn [firstn L2_group_tab map sumZ fold_right]. pose proof (fun fd => consistent_len cat1 _ fd (proj1 H1)) as L.
        rewrite (L (one "Ngroups" 4)), (L (one "Nids" 4)), (L (one "TotNgroups" 4)), (L (one "NTask" 4)), (L (col "Ngroups" "GroupLen" 4)) by (unfold L2_group_tab; auto 10 with datatypes). cbn [one col fd_size fd_dims map extent fold_left]. lia. }
      assert (size_of cat1 (firstn 4 L2_group_tab) <= 16 + 4 * scalar cat1 "Ngroups") as E0. { rewrite <- E1. apply (mono_size cat1 (firstn 4 L2_group_tab) [col "Ngroups" "GroupLen" 4]). small. }
      transitivity (if Z.of_nat k1 <? 16 + 4 * scalar cat1 "Ngroups" then Err EIO else if Z.of_nat k2 <? size_of cat2 (L2_sub_tab 8) then Err EIO else
        Ok (map signed (cat1 "GroupLen"%string), map (map signed) (arrays_of cat2 sub_tab_counts), arrays_of cat2 halo_properties, arrays_of cat2 subhalo_properties)); [|destruct (Z.of_nat k1 <? _); reflexivity].
      apply (field_step little cat1 extra1 content1 L2_group_tab k1 [] (firstn 4 L2_group_tab) (skipn 4 L2_group_tab)); [exact H1 | reflexivity | reflexivity | reflexivity | change (size_of cat1 []) with 0; lia | exact E0|]. intro K.
      assert (long_of (arrays_of cat1 (map fd_name (firstn 4 L2_group_tab))) 0 = scalar cat1 "Ngroups") as -> by (apply (count_ok cat1 _ (col "Ngroups" "GroupLen" 4) _ (proj1 H1)); [unfold L2_group_tab; auto 10 with datatypes | now left]).
      unfold new_array. replace (0 <? scalar cat1 "Ngroups") with true by lia. cbn [check bind]. change ([] ++ firstn 4 L2_group_tab) with (firstn 4 L2_group_tab) in *.
      apply (field_step little cat1 extra1 content1 L2_group_tab k1 (firstn 4 L2_group_tab) [col "Ngroups" "GroupLen" 4] (skipn 5 L2_group_tab)); [exact H1 | reflexivity | reflexivity | cbn [map fd_size fd_dims col extent fold_left]; now rewrite Z.mul_1_l | exact K | change (size_of cat1 (firstn 5 L2_group_tab) <= 16 + 4 * scalar cat1 "Ngroups"); lia|].
      intro K2. change (firstn 4 L2_group_tab ++ [col "Ngroups" "GroupLen" 4]) with (firstn 5 L2_group_tab) in *. replace (Z.of_nat k1 <? 16 + 4 * scalar cat1 "Ngroups") with false by lia. clear K K2 E0 E1.
      rewrite F2. cbn [bind]. set (l := L2_sub_tab 8) in *. pose (pre := fun n => firstn n l).
      assert (forall n, size_of cat2 (pre n) <= size_of cat2 l) as T. { intro n. unfold pre. rewrite <- (firstn_skipn n l) at 2. apply mono_size. apply Forall_forall. intros fd Hf. assert (In fd l) as Hl by (rewrite <- (firstn_skipn n l); apply in_app_iff; now right). pose proof (proj1 (proj1 H2)) as O. unfold pieces_of in O. rewrite Forall_map, Forall_forall in O. destruct (O fd Hl) as (A & _). lia. }
      apply (field_step little cat2 extra2 content2 l k2 [] (pre 5%nat) (skipn 5 l)); [exact H2 | reflexivity | reflexivity | reflexivity | change (size_of cat2 []) with 0; lia | apply T|]. intro K. change ([] ++ pre 5%nat) with (pre 5%nat) in *.
      assert (long_of (arrays_of cat2 (map fd_name (pre 5%nat))) 0 = scalar cat2 "Ngroups") as -> by (apply (count_ok cat2 _ (col "Ngroups" "NsubPerHalo" 4) _ (proj1 H2)); [unfold l, L2_sub_tab; auto 10 with datatypes | now left]).
      assert (long_of (arrays_of cat2 (map fd_name (pre 5%nat))) 4 = scalar cat2 "Nsubhalos") as -> by (apply (count_ok cat2 _ (col "Nsubhalos" "SubLen" 4) _ (proj1 H2)); [unfold l, L2_sub_tab; auto 20 with datatypes | now left]).
      cbn zeta. replace (0 <? scalar cat2 "Ngroups") with true by lia. replace (0 <? scalar cat2 "Nsubhalos") with true by lia. cbn [check bind].
      assert (forall a b, (a <= b)%nat -> pre b = pre a ++ firstn (b - a) (skipn a l)) as Cut. { intros a b Hab. unfold pre. rewrite <- (firstn_skipn a (firstn b l)). rewrite firstn_firstn, firstn_skipn_comm. f_equal; [f_equal; lia | f_equal; f_equal; lia]. }
      assert (forall a b, (a <= b)%nat -> l = pre a ++ firstn (b - a) (skipn a l) ++ skipn b l) as Split. { intros a b Hab. rewrite app_assoc, <- Cut by exact Hab. unfold pre. now rewrite firstn_skipn. }
      pose proof (fun c v => Z.mul_1_l (scalar c v)) as M1.
      apply (field_step little cat2 extra2 content2 l k2 (pre 5%nat) (firstn 5 (skipn 5 l)) (skipn 10 l)); [exact H2 | exact (Split 5%nat 10%nat ltac:(lia)) | reflexivity | cbn [l L2_sub_tab firstn skipn map fd_size fd_dims col vec extent fold_left]; now rewrite !M1 | exact K | exact (T 10%nat)|]. clear K. intro K. change (pre 5%nat ++ firstn 5 (skipn 5 l)) with (pre 10%nat) in *.
      apply (field_step little cat2 extra2 content2 l k2 (pre 10%nat) (firstn 2 (skipn 10 l)) (skipn 12 l)); [exact H2 | exact (Split 10%nat 12%nat ltac:(lia)) | reflexivity | cbn [l L2_sub_tab firstn skipn map fd_size fd_dims col vec extent fold_left]; now rewrite !M1 | exact K | exact (T 12%nat)|]. clear K. intro K. change (pre 10%nat ++ firstn 2 (skipn 10 l)) with (pre 12%nat) in *.
      apply (field_step little cat2 extra2 content2 l k2 (pre 12%nat) (firstn 2 (skipn 12 l)) (skipn 14 l)); [exact H2 | exact (Split 12%nat 14%nat ltac:(lia)) | reflexivity | cbn [l L2_sub_tab firstn skipn map fd_size fd_dims col vec extent fold_left]; now rewrite !M1 | exact K | exact (T 14%nat)|]. clear K. intro K. change (pre 12%nat ++ firstn 2 (skipn 12 l)) with (pre 14%nat) in *.
      apply (field_step little cat2 extra2 content2 l k2 (pre 14%nat) (firstn 2 (skipn 14 l)) (skipn 16 l)); [exact H2 | exact (Split 14%nat 16%nat ltac:(lia)) | reflexivity | cbn [l L2_sub_tab firstn skipn map fd_size fd_dims col vec extent fold_left]; now rewrite !M1 | exact K | exact (T 16%nat)|]. clear K. intro K. change (pre 14%nat ++ firstn 2 (skipn 14 l)) with (pre 16%nat) in *.
      apply (field_step little cat2 extra2 content2 l k2 (pre 16%nat) (firstn 7 (skipn 16 l)) (skipn 23 l)); [exact H2 | exact (Split 16%nat 23%nat ltac:(lia)) | reflexivity | cbn [l L2_sub_tab firstn skipn map fd_size fd_dims col vec extent fold_left]; rewrite !M1, !(Z.mul_comm _ 3); reflexivity | exact K | exact (T 23%nat)|]. clear K. intro K. change (pre 16%nat ++ firstn 7 (skipn 16 l)) with l in *.
      replace (Z.of_nat k2 <? size_of cat2 l) with false by lia. assert (forall t, map ints t = map (map signed) t) as I by (intro t; apply map_ext; intro x; apply ints_signed). rewrite I, ints_signed. reflexivity.
    Qed.
  End Sub.

  Section Aux.
    Variables (cat : catalogue) (extra content : list Z) (base : str) (num filenr : Z) (k : nat).
    Hypothesis H : catalogue_file little (MPA_tree_aux 8) cat extra content.
    Hypothesis Hfs : fs (treeaux_name base num filenr) = Some (firstn k content).
    Hypothesis Ps : Forall (fun n => 0 < scalar cat n) ["TotSnaps"; "Ntrees"; "TotHalos"; "Totunique"]%string.
    Lemma aux_final : read_tree_aux little fs base num filenr =
      if Z.of_nat k <? size_of cat (firstn 12 (MPA_tree_aux 8)) then Err EIO else
      Ok (map (map signed) (arrays_of cat aux_counts) ++ [map signed64 (cat "IDs"%string); cat "Pos"%string]).
    Proof using All.
      pose proof (Forall_inv Ps) as Q1. pose proof (Forall_inv (Forall_inv_tail Ps)) as Q2. pose proof (Forall_inv (Forall_inv_tail (Forall_inv_tail Ps))) as Q3. pose proof (Forall_inv (Forall_inv_tail (Forall_inv_tail (Forall_inv_tail Ps)))) as Q4. cbn beta in Q1, Q2, Q3, Q4.
      unfold read_tree_aux, openr. rewrite Hfs. cbn [bind]. set (l := MPA_tree_aux 8) in *. pose (pre := fun n => firstn n l).
      assert (Forall (fun fd => 0 <= fd_size fd) l) as Nn. { apply Forall_forall. intros fd Hf. pose proof (proj1 (proj1 H)) as O. unfold pieces_of in O. rewrite Forall_map, Forall_forall in O. destruct (O fd Hf) as (A & _). lia. }
      assert (forall n, (n <= 12)%nat -> size_of cat (pre n) <= size_of cat (firstn 12 l)) as T. { intros n Hn. unfold pre. replace (firstn n l) with (firstn n (firstn 12 l)) by (rewrite firstn_firstn; f_equal; lia). rewrite <- (firstn_skipn n (firstn 12 l)) at 2. apply mono_size. apply Forall_forall. intros fd Hf. rewrite Forall_forall in Nn. apply Nn. rewrite <- (firstn_skipn 12 l). apply in_app_iff. left. rewrite <- (firstn_skipn n (firstn 12 l)). apply in_app_iff. now right. }
      assert (forall a b, (a <= b)%nat -> l = pre a ++ firstn (b - a) (skipn a l) ++ skipn b l) as Split.
      { intros a b Hab. unfold pre. rewrite <- (firstn_skipn a l) at 1. f_equal. rewrite <- (firstn_skipn (b - a) (skipn a l)) at 1. f_equal. rewrite skipn_more. f_equal. lia. }
      apply (field_step little cat extra content l k [] (pre 4%nat) (skipn 4 l)); [exact H | reflexivity | reflexivity | reflexivity | change (size_of cat []) with 0; lia | apply T; lia|]. intro K. change ([] ++ pre 4%nat) with (pre 4%nat) in *.
      assert (long_of (arrays_of cat (map fd_name (pre 4%nat))) 0 = scalar cat "TotHalos") as -> by (apply (count_ok cat _ (col "TotHalos" "Nunique" 4) _ (proj1 H)); [unfold l, MPA_tree_aux; auto 20 with datatypes | now left]).
      assert (long_of (arrays_of cat (map fd_name (pre 4%nat))) 1 = scalar cat "Totunique") as -> by (apply (count_ok cat _ (col "Totunique" "IDs" 8) _ (proj1 H)); [unfold l, MPA_tree_aux; auto 20 with datatypes | now left]).
      assert (long_of (arrays_of cat (map fd_name (pre 4%nat))) 2 = scalar cat "Ntrees") as -> by (apply (count_ok cat _ (F "CountID_SnapTree" 4 [Of "TotSnaps"; Of "Ntrees"]) _ (proj1 H)); [unfold l, MPA_tree_aux; auto 20 with datatypes | right; now left]).
      assert (long_of (arrays_of cat (map fd_name (pre 4%nat))) 3 = scalar cat "TotSnaps") as -> by (apply (count_ok cat _ (col "TotSnaps" "CountID_Snap" 4) _ (proj1 H)); [unfold l, MPA_tree_aux; auto 20 with datatypes | now left]).
      cbn zeta. unfold new_array. replace (0 <? scalar cat "TotSnaps") with true by lia. replace (0 <? scalar cat "Ntrees") with true by lia. replace (0 <? scalar cat "TotHalos") with true by lia. cbn [check bind].
      pose proof (fun v => Z.mul_1_l (scalar cat v)) as M1.
      apply (field_step little cat extra content l k (pre 4%nat) (firstn 2 (skipn 4 l)) (skipn 6 l)); [exact H | exact (Split 4%nat 6%nat ltac:(lia)) | reflexivity | cbn [l MPA_tree_aux firstn skipn map fd_size fd_dims col vec extent fold_left]; now rewrite !M1 | exact K | exact (T 6%nat ltac:(lia))|]. clear K. intro K. change (pre 4%nat ++ firstn 2 (skipn 4 l)) with (pre 6%nat) in *.
      apply (field_step little cat extra content l k (pre 6%nat) (firstn 2 (skipn 6 l)) (skipn 8 l)); [exact H | exact (Split 6%nat 8%nat ltac:(lia)) | reflexivity | cbn [l MPA_tree_aux firstn skipn map fd_size fd_dims col vec extent fold_left]; rewrite !M1, (Z.mul_comm (scalar cat "TotSnaps")); reflexivity | exact K | exact (T 8%nat ltac:(lia))|]. clear K. intro K. change (pre 6%nat ++ firstn 2 (skipn 6 l)) with (pre 8%nat) in *.
      apply (field_step little cat extra content l k (pre 8%nat) (firstn 2 (skipn 8 l)) (skipn 10 l)); [exact H | exact (Split 8%nat 10%nat ltac:(lia)) | reflexivity | cbn [l MPA_tree_aux firstn skipn map fd_size fd_dims col vec extent fold_left]; now rewrite !M1 | exact K | exact (T 10%nat ltac:(lia))|]. clear K. intro K. change (pre 8%nat ++ firstn 2 (skipn 8 l)) with (pre 10%nat) in *.
      replace (0 <? scalar cat "Totunique") with true by lia. cbn [check bind].
      apply (field_step little cat extra content l k (pre 10%nat) (firstn 1 (skipn 10 l)) (skipn 11 l)); [exact H | exact (Split 10%nat 11%nat ltac:(lia)) | reflexivity | cbn [l MPA_tree_aux firstn skipn map fd_size fd_dims col vec extent fold_left]; now rewrite !M1 | exact K | exact (T 11%nat ltac:(lia))|]. clear K. intro K. change (pre 10%nat ++ firstn 1 (skipn 10 l)) with (pre 11%nat) in *.
      apply (field_step little cat extra content l k (pre 11%nat) (firstn 1 (skipn 11 l)) (skipn 12 l)); [exact H | exact (Split 11%nat 12%nat ltac:(lia)) | reflexivity | cbn [l MPA_tree_aux firstn skipn map fd_size fd_dims col vec extent fold_left]; rewrite !M1, (Z.mul_comm _ 3); reflexivity | exact K | exact (T 12%nat ltac:(lia))|]. clear K. intro K. change (pre 11%nat ++ firstn 1 (skipn 11 l)) with (firstn 12 l) in *.
      replace (Z.of_nat k <? size_of cat (firstn 12 l)) with false by lia. assert (forall t, map ints t = map (map signed) t) as I by (intro t; apply map_ext; intro x; apply ints_signed). assert (forall t, map longs t = map (map signed64) t) as I2 by (intro t; apply map_ext; intro x; apply longs_signed). rewrite I, I2. reflexivity.
    Qed.
  End Aux.

  (** *** trees *)
  Definition halo_chunks (s : structure) : list (Z * list Z) := map (fun m => (m_size m, s (m_name m))) (tree_halo 8 false).
  Lemma halo_bytes_chunks s : halo_bytes little s = cbytes little (halo_chunks s).
  Proof. unfold halo_bytes, cbytes, halo_chunks. now rewrite map_map. Qed.
  Lemma halo_good s : halo_ok s -> good (halo_chunks s).
  Proof.
    intro H. unfold good, halo_chunks. rewrite Forall_map. unfold halo_ok in H. rewrite Forall_forall in *. intros m Hm. destruct (H m Hm) as [_ B]. split; [|exact B].
    assert (Forall (fun m => 0 < m_size m) (tree_halo 8 false)) as P by (repeat constructor). rewrite Forall_forall in P. now apply P.
  Qed.
  Lemma halo_items s : halo_ok s -> items_of (halo_chunks s) = halo_struct.
  Proof.
    intro H. transitivity (map (fun m => (m_size m, m_count m)) (tree_halo 8 false)); [|reflexivity]. unfold items_of, halo_chunks. rewrite map_map. apply map_ext_in. intros m Hm. unfold halo_ok in H. rewrite Forall_forall in H. destruct (H m Hm) as [-> _]. reflexivity.
  Qed.
  Lemma halo_csize s : halo_ok s -> csize (halo_chunks s) = 104.
  Proof. intro H. rewrite <- items_size, halo_items by exact H. reflexivity. Qed.
  Definition tree_chunks (t : list structure) : list (Z * list Z) := concat (map halo_chunks t).
  Lemma tree_good t : Forall halo_ok t -> good (tree_chunks t).
  Proof. unfold tree_chunks. induction 1 as [|s t Hs HF IH]; [constructor|]. cbn [map concat]. apply good_app. split; [now apply halo_good | exact IH]. Qed.
  Lemma tree_items t : Forall halo_ok t -> items_of (tree_chunks t) = concat (repeat halo_struct (List.length t)).
  Proof. unfold tree_chunks. induction 1 as [|s t Hs HF IH]; [reflexivity|]. cbn [map concat List.length repeat]. unfold items_of in *. rewrite map_app, IH. fold (items_of (halo_chunks s)). now rewrite halo_items. Qed.
  Lemma tree_csize t : Forall halo_ok t -> csize (tree_chunks t) = 104 * zlen t.
  Proof. unfold tree_chunks. induction 1 as [|s t Hs HF IH]; [reflexivity|]. cbn [map concat]. rewrite csize_app, IH, halo_csize by exact Hs. unfold zlen. cbn [List.length]. lia. Qed.
  Lemma tree_app a b : tree_chunks (a ++ b) = tree_chunks a ++ tree_chunks b.
  Proof. unfold tree_chunks. now rewrite map_app, concat_app. Qed.
  Lemma tree_snd t : map snd (tree_chunks t) = concat (map halo_numbers t).
  Proof. unfold tree_chunks. induction t as [|s t IH]; [reflexivity|]. cbn [map concat]. rewrite map_app, IH. reflexivity. Qed.

  Lemma trees_read k head extra content : good head -> forall rest done, Forall (Forall halo_ok) done -> Forall (Forall halo_ok) rest -> Forall (fun t => 0 < zlen t < 2 ^ 31) rest ->
    content = cbytes little (head ++ tree_chunks (concat done ++ concat rest)) ++ extra -> csize head + 104 * zlen (concat done) <= Z.of_nat k ->
    read_trees little (firstn k content) (csize head + 104 * zlen (concat done)) (map zlen rest) = if Z.of_nat k <? csize head + 104 * zlen (concat (done ++ rest)) then Err EIO else Ok (tree_numbers rest).
  Proof.
    intros Gh. induction rest as [|t rest IH]; intros done Od Or Pr Ec Hk; [rewrite app_nil_r; cbn [map read_trees]; replace (Z.of_nat k <? csize head + 104 * zlen (concat done)) with false by lia; reflexivity|].
    apply Forall_cons_iff in Or as [Ot Or]. apply Forall_cons_iff in Pr as [Pt Pr]. cbn [map read_trees]. unfold new_array. replace (0 <? zlen t) with true by lia. cbn [check bind].
    assert (Forall halo_ok (concat done)) as Cd by (apply concat_ok; exact Od). assert (Forall halo_ok (concat rest)) as Cr by (apply concat_ok; exact Or).
    assert (csize (head ++ tree_chunks (concat done)) = csize head + 104 * zlen (concat done)) as S1 by (now rewrite csize_app, tree_csize).
    assert (csize ((head ++ tree_chunks (concat done)) ++ tree_chunks t) = csize head + 104 * zlen (concat (done ++ [t]))) as S2. { rewrite csize_app, S1, tree_csize by exact Ot. rewrite concat_app, zlen_app. cbn [concat]. rewrite app_nil_r. lia. }
    rewrite (readu_cut little k (head ++ tree_chunks (concat done)) (tree_chunks t) (tree_chunks (concat rest)) extra content).
    2: { rewrite !good_app. repeat split; [exact Gh | now apply tree_good | now apply tree_good | now apply tree_good]. }
    2: { rewrite Ec. cbn [concat]. now rewrite !tree_app, <- app_assoc. }
    2: { now rewrite S1. }
    2: { rewrite tree_items by exact Ot. do 2 f_equal. unfold zlen. lia. }
    2: { rewrite S1. exact Hk. }
    rewrite S2. destruct (Z.ltb_spec (Z.of_nat k) (csize head + 104 * zlen (concat (done ++ [t])))) as [C|C]; cbn [bind].
    - replace (Z.of_nat k <? _) with true; [reflexivity|]. rewrite concat_app, zlen_app in *. cbn [concat] in *. rewrite app_nil_r in C. rewrite zlen_app. pose proof (zlen_nonneg (concat rest)). lia.
    - rewrite (IH (done ++ [t])).
      + rewrite <- app_assoc. cbn [app]. destruct (Z.of_nat k <? _); cbn [bind]; [reflexivity|]. rewrite tree_snd. reflexivity.
      + apply Forall_app. split; [exact Od | constructor; [exact Ot | constructor]].
      + exact Or.
      + exact Pr.
      + rewrite Ec. cbn [concat]. rewrite concat_app. cbn [concat]. now rewrite app_nil_r, <- app_assoc.
      + exact C.
  Qed.
  Lemma tree_final trees extra content base num filenr k : trees_file little trees extra content -> 0 < zlen trees -> fs (tree_name base num filenr) = Some (firstn k content) ->
    zlen (concat trees) < 2 ^ 32 -> read_tree_file little fs base num filenr = if Z.of_nat k <? trees_size trees then Err EIO else Ok (tree_numbers trees).
  Proof.
    intros (Ok1 & Pos & Len & Ec) Hp HF Hc. unfold read_tree_file, openr. rewrite HF. cbn [bind]. pose proof (zlen_nonneg (concat trees)) as Nc.
    pose (h1 := [(4, [zlen trees]); (4, [zlen (concat trees)])]). pose (h2 := [(4, map zlen trees)]).
    assert (Forall halo_ok (concat trees)) as Cc by (apply concat_ok; exact Ok1).
    assert (good (h1 ++ h2)) as Gh. { repeat constructor; try lia. rewrite Forall_map. eapply Forall_impl; [|exact Pos]. intros t Ht. cbn beta in *. change (256 ^ 4) with (2 ^ 32). lia. }
    assert (content = cbytes little ((h1 ++ h2) ++ tree_chunks (concat trees)) ++ extra) as Ec2.
    { assert (cbytes little (tree_chunks (concat trees)) = concat (map (halo_bytes little) (concat trees))) as Et. { unfold tree_chunks. clear. induction (concat trees) as [|s t IH]; [reflexivity|]. cbn [map concat]. now rewrite cbytes_app, IH, halo_bytes_chunks. }
      rewrite Ec, !cbytes_app, Et. unfold tree_file. assert (cbytes little h1 = number_bytes little 4 (zlen trees) ++ number_bytes little 4 (zlen (concat trees))) as -> by (unfold cbytes, h1; cbn [map concat]; now rewrite !app_nil_r).
      assert (cbytes little h2 = concat (map (number_bytes little 4) (map zlen trees))) as -> by (unfold cbytes, h2; cbn [map concat]; now rewrite !app_nil_r).
      assert (zlen (map zlen trees) = zlen trees) as -> by (unfold zlen; now rewrite map_length). assert (zlen (map (halo_bytes little) (concat trees)) = zlen (concat trees)) as -> by (unfold zlen; now rewrite map_length). now rewrite <- !app_assoc. }
    assert (csize h1 = 8) as S1 by reflexivity. assert (csize (h1 ++ h2) = 8 + 4 * zlen trees) as S2. { rewrite csize_app, S1. unfold h2, csize. cbn [map sumZ fold_right]. unfold zlen. rewrite map_length. lia. }
    rewrite (readu_cut little k [] h1 (h2 ++ tree_chunks (concat trees)) extra content 0 [one_long; one_long]).
    2: { cbn [app]. rewrite app_assoc. apply good_app. split; [exact Gh | now apply tree_good]. }
    2: { cbn [app]. now rewrite app_assoc. }
    2-3: reflexivity. 2: change (csize []) with 0; lia.
    cbn [app]. rewrite S1. unfold trees_size. destruct (Z.ltb_spec (Z.of_nat k) 8) as [C|C]; cbn [bind]; [replace (Z.of_nat k <? _) with true by lia; reflexivity|].
    assert (long_of (map snd h1) 0 = zlen trees) as ->. { unfold long_of, item, h1. cbn [map snd nth]. rewrite signed_model. apply signed_id. lia. }
    cbn zeta. unfold new_array. replace (0 <? zlen trees) with true by lia. cbn [check bind].
    rewrite (readu_cut little k h1 h2 (tree_chunks (concat trees)) extra content 8 [(4, zlen trees)]).
    2: { rewrite app_assoc. apply good_app. split; [exact Gh | now apply tree_good]. }
    2: { now rewrite app_assoc. }
    2: { reflexivity. }
    2: { unfold h2, items_of. cbn [map]. unfold zlen. now rewrite map_length. }
    2: { rewrite S1. lia. }
    rewrite S2. destruct (Z.ltb_spec (Z.of_nat k) (8 + 4 * zlen trees)) as [C2|C2]; cbn [bind]; [replace (Z.of_nat k <? _) with true by lia; reflexivity|].
    assert (ints (item (map snd h2) 0) = map zlen trees) as ->. { unfold item, h2. cbn [map snd nth]. rewrite ints_signed, map_map. apply map_ext_in. intros t Ht. rewrite Forall_forall in Pos. specialize (Pos t Ht). cbn beta in Pos. apply signed_id. lia. }
    pose proof (trees_read k (h1 ++ h2) extra content Gh trees [] ltac:(constructor) Ok1 Pos Ec2) as R. change (zlen (concat (@nil (list structure)))) with 0 in R. rewrite S2 in R. replace (8 + 4 * zlen trees + 104 * 0) with (8 + 4 * zlen trees) in R by lia. cbn [app] in R. rewrite R by lia. reflexivity.
  Qed.
  Lemma empty_tree_final base num filenr extra n : fs (tree_name base num filenr) = Some (number_bytes little 4 1 ++ number_bytes little 4 n ++ number_bytes little 4 0 ++ extra) -> 0 <= n < 2 ^ 32 -> read_tree_file little fs base num filenr = Err EValue.
  Proof.
    intros HF Hn. unfold read_tree_file, openr. rewrite HF. cbn [bind]. pose (h1 := [(4, [1]); (4, [n])]). pose (h2 := [(4, [0])]). set (content := number_bytes little 4 1 ++ number_bytes little 4 n ++ number_bytes little 4 0 ++ extra).
    assert (good (h1 ++ h2)) as G by (repeat constructor; lia). assert (content = cbytes little (h1 ++ h2) ++ extra) as Ec by (unfold content, cbytes, h1, h2; cbn [map app concat]; rewrite !app_nil_r; now rewrite <- !app_assoc).
    assert (12 <= zlen content) as L by (rewrite Ec, zlen_app, cbytes_len by exact G; change (csize (h1 ++ h2)) with 12; pose proof (zlen_nonneg extra); lia). unfold zlen in L.
    pose proof (readu_cut little (List.length content) [] h1 h2 extra content 0 [one_long; one_long] G Ec eq_refl eq_refl ltac:(change (csize []) with 0; lia)) as R1. rewrite firstn_all in R1. change (csize ([] ++ h1)) with 8 in R1. replace (Z.of_nat (List.length content) <? 8) with false in R1 by lia. rewrite R1. cbn [bind].
    change (long_of (map snd h1) 0) with 1. cbn zeta. unfold new_array. change (0 <? 1) with true. cbn [check bind].
    pose proof (readu_cut little (List.length content) h1 h2 [] extra content 8 [(4, 1)] ltac:(now rewrite app_nil_r) ltac:(now rewrite app_nil_r) eq_refl eq_refl ltac:(change (csize h1) with 8; lia)) as R2. rewrite firstn_all in R2. change (csize (h1 ++ h2)) with 12 in R2. replace (Z.of_nat (List.length content) <? 12) with false in R2 by lia. rewrite R2. cbn [bind]. reflexivity.
  Qed.
  Lemma all_trees_final base num (trees : Z -> list (list structure)) : (forall i, 0 <= i < 512 -> exists extra content, trees_file little (trees i) extra content /\ 0 < zlen (trees i) /\ zlen (concat (trees i)) < 2 ^ 32 /\ fs (tree_name base num i) = Some content) ->
    read_tree little fs base num = Ok (map (fun i => tree_numbers (trees i)) (zseq 0 512)).
  Proof.
    intro Ha. unfold read_tree. apply mapM_map_ok. intros i Hi. apply In_zseq in Hi. destruct (Ha i ltac:(lia)) as (extra & content & HT & Hp & Hc & HF). rewrite <- (firstn_all content) in HF. rewrite (tree_final _ _ _ _ _ _ _ HT Hp HF Hc).
    replace (Z.of_nat (List.length content) <? trees_size (trees i)) with false; [reflexivity|]. symmetry. apply Z.ltb_ge. fold (zlen content). destruct HT as (O1 & _ & _ & ->). unfold tree_file, trees_size. rewrite !zlen_app, !number_len, vals_bytes_len by lia. assert (zlen (map zlen (trees i)) = zlen (trees i)) as -> by (unfold zlen; now rewrite map_length). pose proof (zlen_nonneg extra).
    assert (zlen (concat (map (halo_bytes little) (concat (trees i)))) = 104 * zlen (concat (trees i))) as ->; [|lia].
    assert (Forall halo_ok (concat (trees i))) as Cc by (apply concat_ok; exact O1). clear -Cc. induction Cc as [|s t Hs HF IH]; [reflexivity|]. cbn [map concat]. rewrite zlen_app, IH, halo_bytes_chunks, cbytes_len by (now apply halo_good). rewrite halo_csize by exact Hs. unfold zlen. cbn [List.length]. lia.
  Qed.
  Lemma few_trees_final base num i : 0 <= i < 512 -> fs (tree_name base num i) = None -> exists e, read_tree little fs base num = Err e.
  Proof.
    intros Hi HN. unfold read_tree. assert (In i (zseq 0 512)) as Hin by (apply In_zseq; lia). generalize dependent (zseq 0 512). intros l Hl. induction l as [|j l IH]; [destruct Hl|]. cbn [mapM]. destruct Hl as [-> | Hl].
    - unfold read_tree_file at 1, openr. rewrite HN. cbn [bind]. now exists EIO.
    - destruct (read_tree_file little fs base num j); cbn [bind]; [|eexists; reflexivity]. destruct (IH Hl) as [e ->]. now exists e.
  Qed.
End Programs.
