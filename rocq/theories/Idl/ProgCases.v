(** The IDL programs for groups: files for the examples, and programs which show wrong numbers. *)
From Coq Require Import QArith.
From Coq Require Import Ascii String.
From Coq Require Import Sorting.Permutation Sorting.Sorted.
From Verif Require Import Base.Prelude Base.ListLemmas Base.Order Binary.BinModel Formats.FileSpec Formats.CatSpec.
From Verif Require Import Text.StrModel Text.StrSpec Text.PathSpec Text.PathProofs Snap.ReadSpec Fortran.RegionSpec Fortran.GroupTabSpec Fortran.GroupTabProofs Fortran.FofSpec Index.IndexModel Fortran.RegionModel.
From Verif Require Import Idl.LibModel Idl.LibSpec Idl.SnapSpec Idl.GroupSpec Idl.StdioProofs Idl.NumberProofs Idl.TabProofs Idl.TabFinal Idl.SnapProofs Fortran.RegionProofs Fortran.RegionFinal Idl.HashProofs Idl.HashFinal Idl.GroupFinal Idl.ProgSpec Idl.ProgModel Idl.ProgProofs Idl.ProgFinal.
From Coq Require Import ZifyBool ZifyNat.
Local Open Scope Z_scope. Local Open Scope list_scope.

Definition ex_base : str := lit "/m".
Definition ex_dir : str := lit "/m/snapdir_007/".
(** the files of the directory /data, in this one *)
Definition moved (fs : str -> option (list Z)) : str -> option (list Z) := fun name => fs (lit "/data" ++ skipn (List.length ex_dir) name).
Lemma moved_is fs stem i c : file_is fs (lit "/data") stem 7 i c -> file_is (moved fs) ex_dir stem 7 i c.
Proof. intros H s3 s1 N3 N1. exact (H s3 s1 N3 N1). Qed.
Lemma moved_tabs little fs cats : tab_files little fs (lit "/data") 7 cats -> tab_files little (moved fs) ex_dir 7 cats.
Proof. intros H i cat E. destruct (H i cat E) as (content & extra & F & C). exists content, extra. split; [now apply moved_is | exact C]. Qed.
Lemma moved_snaps little fs base n nhash box files : snap_files little fs (lit "/data") base 7 n nhash box files -> snap_files little (moved fs) ex_dir base 7 n nhash box files.
Proof. intros H i f E. destruct (H i f E) as (cat & content & F & C). exists cat, content. split; [now apply moved_is | exact C]. Qed.
Lemma moved_ids little fs filenr nr gids : group_ids little fs (lit "/data") 7 filenr nr gids -> group_ids little (moved fs) ex_dir 7 filenr nr gids.
Proof. intros (tab & ids & c1 & e1 & c2 & e2 & F1 & C1 & F2 & R). exists tab, ids, c1, e1, c2, e2. split; [now apply moved_is|]. split; [exact C1|]. split; [now apply moved_is | exact R]. Qed.
Lemma ex_snapdir : snapdir ex_base 7 ex_dir.
Proof. split; [lia|]. exists (lit "007"). split; [|reflexivity]. split; [repeat constructor|]. split; [reflexivity|]. split; [cbn; lia | cbn; lia]. Qed.

(** two files with three groups *)
Definition ex_tabs : str -> option (list Z) := moved (ex_fs [ex_a; ex_b]).
Lemma ex_catalogue : whole_catalogue false ex_tabs ex_dir 7 [ex_a; ex_b] /\ all_files_say "GroupMinLen" [ex_a; ex_b] 3.
Proof. split; [|repeat constructor]. split; [discriminate|]. split; [exact (moved_tabs _ _ _ ex_files)|]. split; [repeat constructor|]. split; [repeat constructor | reflexivity]. Qed.
(** one file with the given groups, where groups of length less than that of [counts] are only counted *)
Definition ex_one (lens counts : list Z) : catalogue := ex_cat lens lens counts (sumZ lens) (zlen lens) 1.
Ltac one_tab := split; [discriminate|]; split; [|split; [repeat constructor | split; [repeat constructor | reflexivity]]]; apply moved_tabs; intros i c E; eexists (ex_file false c), [8; 8]; destruct i as [|i]; cbn [nth_error] in E; [|destruct i; discriminate E]; injection E as <-;
  split; [apply file_is_intro; [lia | lia | vm_compute; reflexivity] | apply ex_file_ok; vm_compute; reflexivity].
Definition ex_none : catalogue := ex_one [] [7; 3; 0].
Lemma ex_none_ok : whole_catalogue false (moved (ex_fs [ex_none])) ex_dir 7 [ex_none].
Proof. one_tab. Qed.
Definition ex_min (m : nat) : catalogue := ex_one [5; 9] (repeat 6 m).
Lemma ex_min_ok m : (m < 3)%nat -> whole_catalogue false (moved (ex_fs [ex_min m])) ex_dir 7 [ex_min m].
Proof. intro H. destruct m as [|[|[|m]]]; [one_tab | one_tab | one_tab | lia]. Qed.

(** six groups in a snapshot with two files; two of the particles are in two groups *)
Definition ex_six : catalogue := ex_cat [2; 2; 2; 1; 1; 2] [0; 2; 4; 6; 7; 8] [7; 3; 0] 10 6 1.
Definition ex_six_ids : list Z := [cell_id 0 11; cell_id 7 18; cell_id 3 14; cell_id 0 12; cell_id 1 13; cell_id 6 17; cell_id 3 14; cell_id 4 15; cell_id 6 17; cell_id 6 16].
Definition ex_two : catalogue := ex_cat [2; 2] [0; 2] [7; 3; 0] 4 2 1.
Definition ex_prog_fs (tab : catalogue) : str -> option (list Z) := moved (fun name => match ex_snaps 2 8 8 [ex_1; ex_2] name with
  | Some c => Some c
  | None => stored [(lit "/data/group_tab_007.0", ex_file false tab); (lit "/data/group_ids_007.0", ex_ids_file ex_six_ids)] name
  end).
Definition ex_six_fs := ex_prog_fs ex_six.
Definition ex_two_fs := ex_prog_fs ex_two.
Lemma ex_six_catalogue : whole_catalogue false ex_six_fs ex_dir 7 [ex_six].
Proof.
  split; [discriminate|]. split; [|split; [repeat constructor | split; [repeat constructor | reflexivity]]]. apply moved_tabs. intros i c E. exists (ex_file false ex_six), [8; 8]. destruct i as [|i]; cbn [nth_error] in E; [|destruct i; discriminate E]. injection E as <-.
  split; [apply file_is_intro; [lia | lia | vm_compute; reflexivity] | apply ex_file_ok; vm_compute; reflexivity].
Qed.
Lemma ex_prog_snapshot tab : whole_snapshot false (ex_prog_fs tab) ex_dir (lit "snap") 7 8 8 [ex_1; ex_2].
Proof.
  split; [discriminate|]. split; [|split; [repeat split | split; [repeat constructor; discriminate | split; [reflexivity | lia]]]]. apply moved_snaps.
  intros i f E. destruct (ex_snap_files i f E) as (cat & content & H & R). exists cat, content. split; [|exact R]. intros s3 s1 N3 N1. cbn beta. now rewrite (H s3 s1 N3 N1).
Qed.
Lemma ex_six_group nr gids : 0 <= nr < 6 -> (exists off, off = signed (at_index (ex_six "GroupOffset"%string) nr) /\ 0 <= off /\ off + zlen gids <= zlen ex_six_ids /\ gids = zslice ex_six_ids off (off + zlen gids)) -> group_ids false ex_six_fs ex_dir 7 0 nr gids.
Proof.
  intros Hn H. apply moved_ids. exists ex_six, (ex_ids ex_six_ids), (ex_file false ex_six), [8; 8], (ex_ids_file ex_six_ids), [5]. split; [apply file_is_intro; [lia | lia | vm_compute; reflexivity]|].
  split; [apply ex_file_ok; vm_compute; reflexivity|]. split; [apply file_is_intro; [lia | lia | vm_compute; reflexivity]|].
  split; [split; [split; [apply pieces_okb; vm_compute; reflexivity | repeat constructor; vm_compute; intuition discriminate] | reflexivity]|]. split; [exact Hn | exact H].
Qed.
Ltac a_group := [> reflexivity | reflexivity | cbn; lia | eexists; split; [reflexivity|]; split; [vm_compute; discriminate|]; split; [vm_compute; discriminate | reflexivity] | repeat constructor; cbn; tauto
  | split; [discriminate|]; split; [reflexivity|]; split; [reflexivity|]; repeat constructor; match goal with k : nat |- _ => destruct k as [|[|[|]]] end; try lia; vm_compute; intuition discriminate].
Lemma ex_six_good : good_groups false ex_six_fs ex_dir 7 [ex_1; ex_2] inject_Z 8 [ex_six].
Proof.
  assert (forall group gids members, fst (fst group) = zlen gids -> snd (fst group) = 0 -> 0 <= snd group < 6 -> (exists off, off = signed (at_index (ex_six "GroupOffset"%string) (snd group)) /\ 0 <= off /\ off + zlen gids <= zlen ex_six_ids /\ gids = zslice ex_six_ids off (off + zlen gids)) ->
    members_are [ex_1; ex_2] gids members -> gids <> [] /\ 3 * zlen gids < 2 ^ 31 /\ zlen (neighbours [ex_1; ex_2] gids) < 2 ^ 29 /\ Forall (in_box inject_Z 8) members ->
    exists gids members, group_members false ex_six_fs ex_dir 7 [ex_1; ex_2] group gids members /\ gids <> [] /\ 3 * zlen gids < 2 ^ 31 /\ zlen (neighbours [ex_1; ex_2] gids) < 2 ^ 29 /\ Forall (in_box inject_Z 8) members) as K.
  { intros [[len filenr] nr] gids members E1 E2 Hn HO HM HR. cbn [fst snd] in *. subst filenr. exists gids, members. split; [|exact HR]. split; [now apply ex_six_group|]. split; [now symmetry | exact HM]. }
  unfold good_groups. assert (all_groups [ex_six] = [(2, 0, 0); (2, 0, 1); (2, 0, 2); (1, 0, 3); (1, 0, 4); (2, 0, 5)]) as -> by reflexivity.
  intros group [<- | [<- | [<- | [<- | [<- | [<- | []]]]]]].
  - apply (K _ [cell_id 0 11; cell_id 7 18] [P 1 1 1 (cell_id 0 11); P 1 1 7 (cell_id 7 18)]); a_group.
  - apply (K _ [cell_id 3 14; cell_id 0 12] [P 7 1 2 (cell_id 3 14); P 3 3 3 (cell_id 0 12)]); a_group.
  - apply (K _ [cell_id 1 13; cell_id 6 17] [P 1 5 1 (cell_id 1 13); P 3 7 7 (cell_id 6 17)]); a_group.
  - apply (K _ [cell_id 3 14] [P 7 1 2 (cell_id 3 14)]); a_group.
  - apply (K _ [cell_id 4 15] [P 6 2 6 (cell_id 4 15)]); a_group.
  - apply (K _ [cell_id 6 17; cell_id 6 16] [P 3 7 7 (cell_id 6 17); P 2 6 5 (cell_id 6 16)]); a_group.
Qed.

Lemma ex_two_catalogue : whole_catalogue false ex_two_fs ex_dir 7 [ex_two].
Proof.
  split; [discriminate|]. split; [|split; [repeat constructor | split; [repeat constructor | reflexivity]]]. apply moved_tabs. intros i c E. exists (ex_file false ex_two), [8; 8]. destruct i as [|i]; cbn [nth_error] in E; [|destruct i; discriminate E]. injection E as <-.
  split; [apply file_is_intro; [lia | lia | vm_compute; reflexivity] | apply ex_file_ok; vm_compute; reflexivity].
Qed.
Lemma ex_two_group nr gids : 0 <= nr < 2 -> (exists off, off = signed (at_index (ex_two "GroupOffset"%string) nr) /\ 0 <= off /\ off + zlen gids <= zlen ex_six_ids /\ gids = zslice ex_six_ids off (off + zlen gids)) -> group_ids false ex_two_fs ex_dir 7 0 nr gids.
Proof.
  intros Hn H. apply moved_ids. exists ex_two, (ex_ids ex_six_ids), (ex_file false ex_two), [8; 8], (ex_ids_file ex_six_ids), [5]. split; [apply file_is_intro; [lia | lia | vm_compute; reflexivity]|].
  split; [apply ex_file_ok; vm_compute; reflexivity|]. split; [apply file_is_intro; [lia | lia | vm_compute; reflexivity]|].
  split; [split; [split; [apply pieces_okb; vm_compute; reflexivity | repeat constructor; vm_compute; intuition discriminate] | reflexivity]|]. split; [exact Hn | exact H].
Qed.
Lemma ex_two_good : good_groups false ex_two_fs ex_dir 7 [ex_1; ex_2] inject_Z 8 [ex_two].
Proof.
  assert (forall group gids members, fst (fst group) = zlen gids -> snd (fst group) = 0 -> 0 <= snd group < 2 -> (exists off, off = signed (at_index (ex_two "GroupOffset"%string) (snd group)) /\ 0 <= off /\ off + zlen gids <= zlen ex_six_ids /\ gids = zslice ex_six_ids off (off + zlen gids)) ->
    members_are [ex_1; ex_2] gids members -> gids <> [] /\ 3 * zlen gids < 2 ^ 31 /\ zlen (neighbours [ex_1; ex_2] gids) < 2 ^ 29 /\ Forall (in_box inject_Z 8) members ->
    exists gids members, group_members false ex_two_fs ex_dir 7 [ex_1; ex_2] group gids members /\ gids <> [] /\ 3 * zlen gids < 2 ^ 31 /\ zlen (neighbours [ex_1; ex_2] gids) < 2 ^ 29 /\ Forall (in_box inject_Z 8) members) as K.
  { intros [[len filenr] nr] gids members E1 E2 Hn HO HM HR. cbn [fst snd] in *. subst filenr. exists gids, members. split; [|exact HR]. split; [now apply ex_two_group|]. split; [now symmetry | exact HM]. }
  unfold good_groups. assert (all_groups [ex_two] = [(2, 0, 0); (2, 0, 1)]) as -> by reflexivity.
  intros group [<- | [<- | []]].
  - apply (K _ [cell_id 0 11; cell_id 7 18] [P 1 1 1 (cell_id 0 11); P 1 1 7 (cell_id 7 18)]); a_group.
  - apply (K _ [cell_id 3 14; cell_id 0 12] [P 7 1 2 (cell_id 3 14); P 3 3 3 (cell_id 0 12)]); a_group.
Qed.
Lemma ex_snap_part : snap_files false (ex_snaps 3 8 8 [ex_1]) (lit "/data") (lit "snap") 7 3 8 8 [ex_1].
Proof. intros i f E. exists (ex_snap 3 8 8 f), (ex_content 3 8 8 f). destruct i as [|i]; cbn [nth_error] in E; [|destruct i; discriminate E]. injection E as <-. one_snap. Qed.
(** If a file of the snapshot is missing, the program goes on: its particles are not counted. *)
Lemma cubes_missing_refuted : exists fs dir, snapdir ex_base 7 dir /\ snap_files false fs dir (lit "snap") 7 3 8 8 [ex_1] /\ file_is fs dir (lit "snap") 7 1 None /\
  getcubes false fs 1000 ex_base (lit "snap") 7 9 = Ok (3 :: repeat 0 511).
Proof.
  exists (moved (ex_snaps 3 8 8 [ex_1])), ex_dir. split; [exact ex_snapdir|]. split; [exact (moved_snaps _ _ _ _ _ _ _ ex_snap_part)|]. split; [apply moved_is, file_is_intro; [lia | lia | vm_compute; reflexivity] | vm_compute; reflexivity].
Qed.

(** 513 files, each with one cell *)
Definition ex_cell (i : Z) : cellfile (list Z) := {| cf_first := i; cf_cells := [[]] |}.
Definition ex_many : list (cellfile (list Z)) := map ex_cell (zseq 0 513).
Definition ex_many_fs : str -> option (list Z) := fun name => Some (ex_content 513 513 8 (ex_cell (Z.of_N (sval (skipn (List.length (ex_dir ++ lit "/snap_007.")) name))))).
Lemma ex_many_pieces : forallb (fun i => forallb piece_okb (L2_snapshot (ex_snap 513 513 8 (ex_cell i)))) (zseq 0 513) = true.
Proof. vm_compute. reflexivity. Qed.
Lemma ex_many_covers : forall n i, covers i (i + Z.of_nat n) (map ex_cell (zseq i n)).
Proof. induction n as [|n IH]; intro i; cbn [zseq map covers]; [lia|]. split; [reflexivity|]. change (zlen (cf_cells (ex_cell i))) with 1. replace (i + Z.of_nat (Datatypes.S n)) with (i + 1 + Z.of_nat n) by lia. apply IH. Qed.
Lemma ex_many_ok : whole_snapshot false ex_many_fs ex_dir (lit "snap") 7 513 8 ex_many.
Proof.
  split; [discriminate|]. split; [|split; [exact (ex_many_covers 513 0) | split; [apply Forall_forall; intros f Hf; apply in_map_iff in Hf as (i & <- & _); left; discriminate | split; [reflexivity | lia]]]].
  intros i f E. assert (i < 513)%nat as Hi by (rewrite <- (zseq_length 0 513), <- (map_length ex_cell); apply nth_error_Some; unfold ex_many in E; congruence).
  unfold ex_many in E. rewrite nth_error_map, nth_error_zseq, Z.add_0_l in E by exact Hi. injection E as <-. exists (ex_snap 513 513 8 (ex_cell (Z.of_nat i))), (ex_content 513 513 8 (ex_cell (Z.of_nat i))). split; [|split; [|repeat split]].
  - intros s3 s1 N3 (_ & N1 & _). rewrite (number_unique 3 7 s3 (fmt_0d 3 7)) by (lia || exact N3 || now apply number_3). unfold ex_many_fs.
    replace (ex_dir ++ lit "/" ++ lit "snap" ++ lit "_" ++ fmt_0d 3 7 ++ lit "." ++ s1) with ((ex_dir ++ lit "/snap_007.") ++ s1) by reflexivity. rewrite skipn_app, skipn_all, Nat.sub_diag. cbn [skipn app]. now rewrite N1.
  - exists [9]. split; [split; [apply pieces_okb; pose proof ex_many_pieces as HP; rewrite forallb_forall in HP; apply HP, In_zseq; lia | reflexivity]|]. split; [constructor|]. repeat (split; [reflexivity|]). reflexivity.
Qed.
