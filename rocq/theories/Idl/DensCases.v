(** plot_profile_dens: a catalogue with 109 groups for the example. *)
From Coq Require Import Reals QArith Qreals Lra.
From Coq Require Import Ascii String.
From Coq Require Import Sorting.Permutation Sorting.Sorted.
From Verif Require Import Base.Prelude Base.ListLemmas Base.Order Binary.BinModel Formats.FileSpec Formats.CatSpec.
From Verif Require Import Text.StrModel Text.StrSpec Text.PathSpec Text.PathProofs Snap.ReadSpec Fortran.RegionSpec Fortran.GroupTabSpec Fortran.GroupTabProofs Fortran.FofSpec Index.IndexModel Fortran.RegionModel.
From Verif Require Import Idl.LibModel Idl.LibSpec Idl.SnapSpec Idl.GroupSpec Idl.StdioProofs Idl.NumberProofs Idl.TabProofs Idl.TabFinal Idl.SnapProofs Fortran.RegionProofs Fortran.RegionFinal Idl.HashProofs Idl.HashFinal Idl.GroupFinal Idl.SphereSpec Idl.SphereFinal.
From Verif Require Import Idl.ProgSpec Idl.ProgModel Idl.ProgProofs Idl.ProgFinal Idl.ProgCases Idl.ProfSpec Idl.ProfModel Idl.ProfProofs Idl.ProfFinal Idl.ProfUnique Idl.ProfCases.
From Verif Require Import Idl.NfwModel Idl.NfwSpec Idl.NfwFinal Idl.DensModel Idl.DensSpec Idl.DensFinal Pro.ProSpec.
From Coq Require Import ZifyBool ZifyNat.
Local Open Scope Z_scope. Local Open Scope list_scope.

(** the files of the directory /data, in this one, where // is the same as / *)
Definition anyway (fs : str -> option (list Z)) : str -> option (list Z) := fun name => match skipn (List.length ex_dir) name with "/"%char :: rest => fs (lit "/data/" ++ rest) | rest => fs (lit "/data/" ++ rest) end.
Lemma anyway_is fs stem i c : file_is fs (lit "/data") stem 7 i c -> file_is (anyway fs) ex_dir stem 7 i c.
Proof. intros H s3 s1 N3 N1. exact (H s3 s1 N3 N1). Qed.
Lemma anyway_tabs little fs cats : tab_files little fs (lit "/data") 7 cats -> tab_files little (anyway fs) ex_dir 7 cats.
Proof. intros H i cat E. destruct (H i cat E) as (content & extra & F & C). exists content, extra. split; [now apply anyway_is | exact C]. Qed.
Lemma anyway_snaps little fs base n nhash box files : snap_files little fs (lit "/data") base 7 n nhash box files -> snap_files little (anyway fs) ex_dir base 7 n nhash box files.
Proof. intros H i f E. destruct (H i f E) as (cat & content & F & C). exists cat, content. split; [now apply anyway_is | exact C]. Qed.
Lemma anyway_ids little fs filenr nr gids : group_ids little fs (lit "/data") 7 filenr nr gids -> group_ids little (anyway fs) ex_dir 7 filenr nr gids.
Proof. intros (tab & ids & c1 & e1 & c2 & e2 & F1 & C1 & F2 & R). exists tab, ids, c1, e1, c2, e2. split; [now apply anyway_is|]. split; [exact C1|]. split; [now apply anyway_is | exact R]. Qed.
(** the group of 26 particles of ProfCases.v, 109 times in the catalogue *)
Definition many_fs : str -> option (list Z) := anyway (fun name => match ex_snaps 2 64 800 [in_1; in_2] name with
  | Some c => Some c
  | None => stored [(lit "/data/group_tab_007.0", ex_file false (line_tab 26 109)); (lit "/data/group_ids_007.0", ex_ids_file (line_ids (xs_26 300) 26))] name
  end).
Lemma many_header : snapshot_file false (ex_snap 2 64 800 in_1) [9] (ex_content 2 64 800 in_1) /\ many_fs (snapshot_path ex_base (lit "snap") 7 0) = Some (ex_content 2 64 800 in_1).
Proof. split; [split; [apply pieces_okb; vm_compute; reflexivity | reflexivity] | vm_compute; reflexivity]. Qed.
Lemma many_snapshot : whole_snapshot false many_fs ex_dir (lit "snap") 7 64 800 [in_1; in_2].
Proof.
  split; [discriminate|]. split; [|split; [repeat split | split; [repeat constructor; discriminate | split; [reflexivity | lia]]]]. apply anyway_snaps.
  intros i f E. destruct (in_files i f E) as (cat & content & H & R). exists cat, content. split; [|exact R]. intros s3 s1 N3 N1. cbn beta. now rewrite (H s3 s1 N3 N1).
Qed.
Lemma many_catalogue : whole_catalogue false many_fs ex_dir 7 [line_tab 26 109].
Proof.
  split; [discriminate|]. split; [|split; [repeat constructor | split; [repeat constructor | reflexivity]]]. apply anyway_tabs. intros i c E. exists (ex_file false c), [8; 8]. destruct i as [|i]; cbn [nth_error] in E; [|destruct i; discriminate E]. injection E as <-.
  split; [apply file_is_intro; [lia | lia | vm_compute; reflexivity] | apply ex_file_ok; vm_compute; reflexivity].
Qed.
Lemma many_groups nr : 0 <= nr < 109 -> group_ids false many_fs ex_dir 7 0 nr (line_ids (xs_26 300) 26).
Proof.
  intro Hr. apply anyway_ids. exists (line_tab 26 109), (ex_ids (line_ids (xs_26 300) 26)), (ex_file false (line_tab 26 109)), [8; 8], (ex_ids_file (line_ids (xs_26 300) 26)), [5].
  split; [apply file_is_intro; [lia | lia |]; vm_compute; reflexivity|]. split; [apply ex_file_ok; vm_compute; reflexivity|]. split; [apply file_is_intro; [lia | lia |]; vm_compute; reflexivity|].
  split; [split; [split; [apply pieces_okb; vm_compute; reflexivity | repeat constructor; vm_compute; intuition discriminate] | reflexivity]|]. split; [exact Hr|].
  exists 0. split; [change (line_tab 26 109 "GroupOffset"%string) with (repeat 0 109); unfold at_index; rewrite nth_repeat; reflexivity|]. split; [lia|]. split; [vm_compute; discriminate | vm_compute; reflexivity].
Qed.
Lemma many_good nr : 0 <= nr < 109 -> good_group false many_fs ex_dir 7 [in_1; in_2] inject_Z 800 1000 25 (26, 0, nr) (in_members 26).
Proof.
  intro Hr. destruct (in_good 25 26 0 (or_introl eq_refl) eq_refl ltac:(lia)) as (ids & _ & _ & _ & _ & _ & G5 & G6). exists (line_ids (xs_26 300) 26). split.
  - split; [now apply many_groups|]. split; [reflexivity|]. apply members_intro; vm_compute; reflexivity.
  - split; [discriminate|]. split; [reflexivity|]. split; [discriminate|]. split; [vm_compute; reflexivity|]. split; assumption.
Qed.
Lemma many_table table k group : by_length [line_tab 26 109] table -> nth_error table k = Some group -> exists nr, 0 <= nr < 109 /\ group = (26, 0, nr).
Proof.
  intros [HP _] E. apply nth_error_In, (Permutation_in _ (Permutation_sym HP)) in E. assert (all_groups [line_tab 26 109] = map (fun nr => (26, 0, nr)) (zseq 0 109)) as EA by (vm_compute; reflexivity). rewrite EA in E. apply in_map_iff in E as (nr & <- & H). apply In_zseq in H. exists nr. split; [lia | reflexivity].
Qed.

(** particles of mass 100000 at the radii 1, 2 and 9, now: the critical density is about 27.8 *)
Local Open Scope R_scope.
Lemma critical_now : critical 1 = 3 * 10000 / (8 * PI * (430071 / 10000)).
Proof. unfold critical. f_equal. field. Qed.
Lemma mean_now x : 200 * critical 1 * (4 / 3 * PI * x ^ 3) = 1000000 * x ^ 3 / (430071 / 10000).
Proof. rewrite critical_now. field. apply PI_neq0. Qed.
Lemma radii_now : radii 1 [81; 1; 4]%Q = [9; 1; 2].
Proof.
  unfold radii. cbn [map]. replace (Q2R 81) with (9 * 9) by (unfold Q2R; cbn; lra). replace (Q2R 1) with (1 * 1) by (unfold Q2R; cbn; lra). replace (Q2R 4) with (2 * 2) by (unfold Q2R; cbn; lra). rewrite !sqrt_square by lra. repeat f_equal; ring.
Qed.
Lemma three_over x : In x [9; 1; 2] -> x <> 9 -> over_200 100000 1 [9; 1; 2] x.
Proof.
  intros [<- | [<- | [<- | []]]] H; [now elim H| |].
  - exists (0 + 1)%Z. split; [apply not_with; [lra|]; apply one_with; [lra|]; apply not_with; [lra|constructor]|]. rewrite mean_now. cbn [Z.add Pos.add Pos.succ]. lra.
  - exists (0 + 1 + 1)%Z. split; [apply not_with; [lra|]; apply one_with; [lra|]; apply one_with; [lra|constructor]|]. rewrite mean_now. cbn [Z.add Pos.add Pos.succ]. lra.
Qed.
Lemma three_not : ~ over_200 100000 1 [9; 1; 2] 9.
Proof.
  intros (n & HN & H). assert (number_with (fun y => y <= 9) [9; 1; 2] (0 + 1 + 1 + 1)) as N by (apply one_with; [lra|]; apply one_with; [lra|]; apply one_with; [lra|constructor]).
  rewrite (number_unique _ _ _ _ HN N), mean_now in H. cbn [Z.add Pos.add Pos.succ] in H. lra.
Qed.
Lemma three_r200 : is_r200 100000 1 [9; 1; 2] 2.
Proof.
  split; [right; right; now left|]. split; [apply three_over; [right; right; now left|lra]|]. intros y [<- | [<- | [<- | []]]] H; [exfalso; exact (three_not H)|lra|lra].
Qed.

(** one particle at an expansion factor for which only the last shell is used in the fit *)
Definition late : R := 400 * limit 24.
Lemma limit_lt j k : (j < k)%Z -> limit j < limit k.
Proof. intro H. unfold limit. apply Rmult_lt_compat_l; [lra|]. apply Rpower_lt; [lra|]. apply IZR_lt in H. lra. Qed.
Lemma limit_le j k : (j <= k)%Z -> limit j <= limit k.
Proof. intro H. destruct (Z.eq_dec j k) as [->|]; [lra|]. left. apply limit_lt. lia. Qed.
Lemma limit_ends : limit 0 = 1 / 1000 /\ limit 25 = 5.
Proof. unfold limit. replace (0 / 25) with 0 by field. replace (25 / 25) with 1 by field. rewrite Rpower_O, Rpower_1 by lra. lra. Qed.
Lemma middle_between k : limit k < middle k < limit (k + 1).
Proof.
  pose proof (limit_pos k) as P. pose proof (limit_lt k (k + 1) ltac:(lia)) as L. unfold middle. split.
  - rewrite <- (sqrt_square (limit k)) at 1 by lra. apply sqrt_lt_1; nra.
  - rewrite <- (sqrt_square (limit (k + 1))) at 2 by lra. apply sqrt_lt_1; nra.
Qed.
Lemma late_bounds : 4 / 10 < late < 2000.
Proof. destruct limit_ends as [E0 E25]. pose proof (limit_lt 0 24 ltac:(lia)). pose proof (limit_lt 24 25 ltac:(lia)). unfold late. lra. Qed.
Lemma late_critical : 0 < critical late /\ critical late * PI < 1000.
Proof.
  destruct late_bounds as [L1 L2]. assert (64 / 1000 < late ^ 3) as L3 by (simpl; nra). assert (0 < 25 / 100 / late ^ 3 < 4) as B by (split; [apply Rdiv_lt_0_compat; lra|]; apply (Rmult_lt_reg_r (late ^ 3)); [lra|]; unfold Rdiv; rewrite Rmult_assoc, Rinv_l by lra; lra).
  split; [apply crit_pos; lra|]. unfold critical. replace (3 * (100 ^ 2 * (25 / 100 / late ^ 3 + 75 / 100)) / (8 * PI * (430071 / 10000)) * PI) with (3 * (100 ^ 2 * (25 / 100 / late ^ 3 + 75 / 100)) / (8 * (430071 / 10000))) by (field; repeat split; try lra; try apply PI_neq0). lra.
Qed.
Lemma number_nonneg {A} (P : A -> Prop) l n : number_with P l n -> (0 <= n)%Z.
Proof. induction 1; lia. Qed.
Lemma less_quot a b v : 0 < v -> a * v < b -> a < b / v.
Proof. intros Hv H. apply (Rmult_lt_reg_r v); [exact Hv|]. unfold Rdiv. now rewrite Rmult_assoc, Rinv_l, Rmult_1_r by lra. Qed.
Lemma one_shown : exists r l, 0 < r /\ shown_of 1000000 late (radii late [1 # 4000000]%Q) (r, 200 * critical late * (4 / 3 * PI * r ^ 3), rho_bins 1000000 late [1 # 4000000]%Q, (Some l, Some (1 / 100))).
Proof.
  destruct late_bounds as [L1 L2]. destruct late_critical as [C1 C2]. set (r := late / 2000). assert (0 < r < 1) as Hr by (unfold r; lra).
  assert (radii late [1 # 4000000]%Q = [r]) as ER. { unfold radii, r. cbn [map]. replace (Q2R (1 # 4000000)) with (1 / 2000 * (1 / 2000)) by (unfold Q2R; cbn; lra). rewrite sqrt_square by lra. f_equal. field. }
  pose proof (points_are 1000000 late [1 # 4000000]%Q ltac:(lra)) as HP. pose proof HP as (n & ks & HN & HS & EP & HK).
  assert (ks = [24%Z]) as EK.
  { apply increasing_same; [exact HS|repeat constructor|]. intro k. rewrite HK. assert (25 / 10000 * late = limit 24) as E24 by (unfold late; field). rewrite E24. split.
    - intros (Hk & _ & H). left. destruct (Z.eq_dec k 24) as [|Hn]; [congruence|]. exfalso. destruct (middle_between k) as [_ H2]. pose proof (limit_le (k + 1) 24 ltac:(lia)). lra.
    - intros [<- | []]. split; [lia|]. split; [|exact (proj1 (middle_between 24))]. pose proof (number_nonneg _ _ _ (HN 24%Z ltac:(lia))) as Hn. apply IZR_le in Hn. rewrite plus_IZR.
      pose proof (volume_pos 24) as V. apply less_quot; [exact V|].
      assert (volume 24 <= 4 / 3 * PI * 125) as V2. { unfold volume. change (24 + 1)%Z with 25%Z. rewrite (proj2 limit_ends). pose proof (limit_pos 24) as P. pose proof PI_RGT_0. assert (0 < limit 24 ^ 3) by (apply pow_lt; exact P). nra. }
      apply (Rle_lt_trans _ (20 * critical late * (4 / 3 * PI * 125))); [apply Rmult_le_compat_l; lra|]. replace (20 * critical late * (4 / 3 * PI * 125)) with (10000 / 3 * (critical late * PI)) by field. lra. }
  rewrite EK in EP. cbn [map] in EP. set (d := IZR (24 + n 24%Z) * 1000000 / volume 24) in *.
  pose proof (bins_positive 1000000 late [1 # 4000000]%Q ltac:(lra)) as BP. rewrite EP in BP. inversion BP as [|? ? [B1 B2] _]; subst. cbn [fst snd] in B1, B2.
  destruct (single_fits (middle 24) d 200 (1 / 100) B1 B2 ltac:(lra)) as (l & F & _). exists r, l. split; [lra|].
  exists r, (rho_bins 1000000 late [1 # 4000000]%Q), [(middle 24, d)], l, (1 / 100). split; [reflexivity|]. rewrite <- EP. split; [|split; [now apply shells_are; lra|split; [exact HP|split; [rewrite EP; discriminate|rewrite EP; exact F]]]].
  rewrite ER. split; [now left|]. split; [|intros y [<- | []] _; lra]. exists (0 + 1)%Z. split; [apply one_with; [lra|constructor]|]. cbn [Z.add].
  replace (200 * critical late * (4 / 3 * PI * r ^ 3)) with (200 * 4 / 3 * (critical late * PI) * r ^ 3) by field. pose proof PI_RGT_0. assert (0 < critical late * PI) by nra. assert (0 < r ^ 3) by (apply pow_lt; lra). assert (r * r < 1) by nra. assert (r ^ 3 < 1) by (replace (r ^ 3) with (r * r * r) by ring; nra). nra.
Qed.
