(** C70, C71: final forms. *)
From Coq Require Import Ascii String.
From Verif Require Import Base.Prelude Base.ListLemmas Formats.FileSpec Formats.CatSpec Fortran.RegionSpec Fortran.GroupTabModel Fortran.GroupTabSpec Fortran.GroupTabProofs Fortran.ReadFileProofs.
From Coq Require Import ZifyBool ZifyNat.
Local Open Scope Z_scope.

Lemma truncated_final little cat extra content k :
  (catalogue_file little L2_group_tab cat extra content -> 16 + 8 * scalar cat "Ngroups" < 2 ^ 31 -> Z.of_nat k < 16 + 8 * scalar cat "Ngroups" -> readgrouptab little (firstn k content) = Err EIO) /\
  (catalogue_file little (L2_group_ids 8) cat extra content -> 16 + 8 * scalar cat "Nids" < 2 ^ 31 -> Z.of_nat k < 16 + 8 * scalar cat "Nids" -> readgroupids little (firstn k content) = Err EIO) /\
  (catalogue_file little (L2_sub_tab 8) cat extra content -> 20 + 8 * scalar cat "Ngroups" + 12 * scalar cat "Nsubhalos" < 2 ^ 31 -> Z.of_nat k < 20 + 8 * scalar cat "Ngroups" + 12 * scalar cat "Nsubhalos" -> readsubtab little (firstn k content) = Err EIO) /\
  (catalogue_file little (L2_sub_tab 8) cat extra content -> 20 + 32 * scalar cat "Ngroups" + 68 * scalar cat "Nsubhalos" < 2 ^ 31 -> Z.of_nat k < 20 + 32 * scalar cat "Ngroups" + 68 * scalar cat "Nsubhalos" -> readsubhalos little (firstn k content) = Err EIO).
Proof.
  split; [intros H Hs Hk; apply (group_tab_short little cat extra content k H Hs); lia|].
  split; [intros H Hs Hk; exact (ids_short little cat extra content "NTask"%string H k Hs Hk)|].
  split; [intros H Hs Hk; exact (sub_short little cat extra content H k Hs Hk) | intros H Hs Hk; exact (subhalos_short little cat extra content H k Hs Hk)].
Qed.
Lemma twoGB_final little cat extra content :
  (catalogue_file little L2_group_tab cat extra content -> 2 ^ 31 <= 16 + 8 * scalar cat "Ngroups" -> readgrouptab little content = Err EAbort) /\
  (catalogue_file little (L2_group_ids 8) cat extra content -> 2 ^ 31 <= 16 + 8 * scalar cat "Nids" -> readgroupids little content = Err EAbort) /\
  (catalogue_file little (L2_sub_tab 8) cat extra content -> 2 ^ 31 <= 20 + 8 * scalar cat "Ngroups" + 12 * scalar cat "Nsubhalos" -> readsubtab little content = Err EAbort) /\
  (catalogue_file little (L2_sub_tab 8) cat extra content -> 2 ^ 31 <= 20 + 32 * scalar cat "Ngroups" + 68 * scalar cat "Nsubhalos" -> readsubhalos little content = Err EAbort).
Proof.
  split; [exact (group_tab_big little cat extra content)|]. split; [exact (ids_big little cat extra content "NTask"%string)|]. split; [exact (sub_tab_big little cat extra content) | exact (subhalos_big little cat extra content)].
Qed.
Definition many (n : Z) : catalogue := fun name => if (name =? "GroupIDs")%string then repeat 5 (Z.to_nat n) else if (name =? "Nids")%string then [n] else [1].
Lemma many_ok : forall n lf, n = 2 ^ 28 - 2 -> 2 ^ 31 <= 16 + 8 * scalar (many n) "Nids" /\ catalogue_file lf (L2_group_ids 8) (many n) [] (file_bytes lf (pieces_of (many n) (L2_group_ids 8)) ++ []).
Proof.
  intros n lf Hn. change (scalar (many n) "Nids") with n. split; [lia|]. split; [|reflexivity].
  assert (forall (x : Z) k (P : Z -> Prop), P x -> Forall P (repeat x k)) as F by (intros x k P H; induction k; constructor; assumption).
  assert (zlen (repeat 5 (Z.to_nat n)) = n) as R by (unfold zlen; rewrite repeat_length; lia). assert (0 <= n < 2 ^ 31) as B by lia. clear Hn.
  split; unfold pieces_of, L2_group_ids; cbn [map]; repeat (apply Forall_cons || apply Forall_nil).
  all: unfold data_of; cbn [fd_name fd_size fd_dims one col map extent piece_ok fold_left].
  all: try change (many n "GroupIDs"%string) with (repeat 5 (Z.to_nat n)); try change (scalar (many n) "Nids") with n; try change (many n "Nids"%string) with [n];
       try change (many n "Ngroups"%string) with [1]; try change (many n "TotNgroups"%string) with [1]; try change (many n "NTask"%string) with [1].
  all: rewrite ?R; try lia; repeat match goal with |- _ /\ _ => split end; repeat (apply Forall_cons || apply Forall_nil); try lia; try reflexivity; apply F; lia.
Qed.

Lemma cut_final little cat extra content (nh := scalar cat "last_hash_cell" - scalar cat "first_hash_cell" + 1) : snapshot_file little cat extra content ->
  12 * npart_of cat < 2 ^ 31 -> 4 * nh < 2 ^ 31 -> scalar cat "first_hash_cell" < 2 ^ 31 -> scalar cat "last_hash_cell" < 2 ^ 31 ->
  forall k room hroom, npart_of cat <= room -> nh <= hroom -> Z.of_nat k < sumZ (map piece_size (L2_snapshot cat)) ->
  readfile little (firstn k content) room hroom = Err EIO /\ (nh <= signed (scalar cat "Header/HashTabSize") -> file_program little (firstn k content) = Err EIO).
Proof.
  intros H H1 H2 H3 H4 k room hroom Hr Hh Hk. rewrite (total_size little cat extra content H) in Hk. fold nh in Hk. split.
  - rewrite (file_cut little cat extra content H H1 H2 H3 H4 k room hroom Hr Hh). fold nh. now replace (Z.of_nat k <? _) with true by lia.
  - intro Ht. rewrite (program_cut little cat extra content H H1 H2 H3 H4 k Ht). fold nh. now replace (Z.of_nat k <? _) with true by lia.
Qed.
