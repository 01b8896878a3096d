(** The statements about get_group_coordinates (C86). *)
From Coq Require Import QArith.
From Coq Require Import Ascii String.
From Coq Require Import Sorting.Permutation Sorting.Sorted.
From Verif Require Import Base.Prelude Base.ListLemmas Binary.BinModel Formats.FileSpec Formats.CatSpec Formats.ReaderProofs Snap.ReadSpec.
From Verif Require Import Text.StrModel Text.PathSpec Peano.CPeanoModel Fortran.RegionSpec Fortran.RegionFinal Fortran.GroupTabSpec Fortran.GroupTabProofs Fortran.FofSpec.
From Verif Require Import Idl.LibModel Idl.LibSpec Idl.StdioProofs Idl.TabProofs Idl.TabFinal Idl.SnapSpec Idl.HashProofs Idl.CellProofs Idl.HashFinal Idl.GroupSpec Idl.GroupProofs Idl.MatchProofs Idl.CentreProofs.
From Coq Require Import ZifyBool ZifyNat.
Local Open Scope Z_scope. Local Open Scope list_scope.

(** *** the ids of the group *)
Section Ids.
  Variables (little : bool) (tab ids : catalogue) (e1 c1 e2 c2 : list Z).
  Hypothesis H1 : catalogue_file little L2_group_tab tab e1 c1.
  Hypothesis H2 : catalogue_file little (L2_group_ids 8) ids e2 c2.
  Lemma offset_ok groupnr : 0 <= groupnr < zlen (tab "GroupOffset"%string) ->
    exists fd, fread_int little (c1, 16 + 4 * scalar tab "Ngroups" + 4 * groupnr) = Ok (signed (at_index (tab "GroupOffset"%string) groupnr), fd).
  Proof.
    intro H. pose proof (tab_content little tab e1 c1 H1) as EC. pose proof (tab_good little tab e1 c1 H1) as HG. destruct (tab_counts little tab e1 c1 H1) as (B1 & _ & E1 & E2 & _).
    unfold fread_int. eexists. rewrite (fread_at little (firstn 5 (tab_chunks tab)) 4 (tab "GroupOffset"%string) (skipn 6 (tab_chunks tab)) e1 c1 _ groupnr 1) by (exact HG || exact EC || lia || (unfold csize, sumZ; cbn [tab_chunks firstn map fold_right]; rewrite E1; unfold zlen; cbn [List.length]; lia)).
    cbn [bind]. do 2 f_equal. rewrite nth_zslice by lia. unfold at_index. rewrite Nat.add_0_r. apply signed_signed32.
    assert (In (nth (Z.to_nat groupnr) (tab "GroupOffset"%string) 0) (tab "GroupOffset"%string)) as HI by (apply nth_In; unfold zlen in H; lia).
    unfold good in HG. rewrite Forall_forall in HG. specialize (HG (4, tab "GroupOffset"%string) ltac:(unfold tab_chunks; cbn; tauto)). destruct HG as [_ HG]. rewrite Forall_forall in HG. exact (HG _ HI).
  Qed.
  Definition ids_chunks : list (Z * list Z) := [(4, [scalar ids "Ngroups"]); (4, [scalar ids "Nids"]); (4, [scalar ids "TotNgroups"]); (4, [scalar ids "NTask"]); (8, ids "GroupIDs"%string)].
  Lemma ids_content : c2 = cbytes little ids_chunks ++ e2.
  Proof.
    destruct H2 as [HC ->]. rewrite file_chunks. f_equal. f_equal. unfold L2_group_ids, ids_chunks. cbn [map]. unfold chunk_of. cbn [one col fd_size fd_name].
    rewrite (one_chunk ids (L2_group_ids 8) "Ngroups" 4), (one_chunk ids (L2_group_ids 8) "Nids" 4), (one_chunk ids (L2_group_ids 8) "TotNgroups" 4), (one_chunk ids (L2_group_ids 8) "NTask" 4) by (exact HC || (unfold L2_group_ids; cbn [In]; tauto)).
    reflexivity.
  Qed.
  Lemma ids_good : good ids_chunks.
  Proof.
    destruct H2 as [HC _]. apply consistent_good in HC as HG. unfold L2_group_ids in HG. cbn [map] in HG. unfold chunk_of in HG. cbn [one col fd_size fd_name] in HG.
    rewrite (one_chunk ids (L2_group_ids 8) "Ngroups" 4), (one_chunk ids (L2_group_ids 8) "Nids" 4), (one_chunk ids (L2_group_ids 8) "TotNgroups" 4), (one_chunk ids (L2_group_ids 8) "NTask" 4) in HG by (exact HC || (unfold L2_group_ids; cbn [In]; tauto)).
    exact HG.
  Qed.
  Lemma ids_header : exists h, read_tab_header little (c2, 0) = Ok (h, (c2, 16)).
  Proof.
    pose proof ids_content as EC. pose proof ids_good as HG. unfold ids_chunks in *. unfold read_tab_header. eexists.
    rewrite (fread_int_at little [] (scalar ids "Ngroups") _ e2) by (exact HG || exact EC || reflexivity). cbn [bind app].
    rewrite (fread_int_at little [_] (scalar ids "Nids") _ e2) by (exact HG || exact EC || reflexivity). cbn [bind app].
    rewrite (fread_int_at little [_; _] (scalar ids "TotNgroups") _ e2) by (exact HG || exact EC || reflexivity). cbn [bind app].
    rewrite (fread_int_at little [_; _; _] (scalar ids "NTask") _ e2) by (exact HG || exact EC || reflexivity). cbn [bind app].
    reflexivity.
  Qed.
  Lemma ids_ok off len : 0 <= off -> 0 <= len -> off + len <= zlen (ids "GroupIDs"%string) ->
    exists fd, fread little 8 len (c2, 16 + 8 * off) = Ok (zslice (ids "GroupIDs"%string) off (off + len), fd).
  Proof.
    intros Ho Hl Hb. eexists. apply (fread_at little (firstn 4 ids_chunks) 8 (ids "GroupIDs"%string) [] e2); [exact ids_good | exact ids_content | exact Ho | exact Hl | exact Hb | reflexivity].
  Qed.
  Lemma ids_range : Forall (fun v => 0 <= v < 2 ^ 64) (ids "GroupIDs"%string).
  Proof. pose proof ids_good as HG. unfold good, ids_chunks in HG. rewrite Forall_forall in HG. specialize (HG (8, ids "GroupIDs"%string) ltac:(cbn; tauto)). exact (proj2 HG). Qed.
End Ids.

Lemma In_firstn {A} (x : A) k l : In x (firstn k l) -> In x l.
Proof. intro H. rewrite <- (firstn_skipn k l). apply in_or_app. now left. Qed.
Lemma concat_filter {A B} (f : A -> list B) (S : A -> bool) l : concat (map (fun c => if S c then f c else []) l) = concat (map f (filter S l)).
Proof. induction l as [|c l IH]; [reflexivity|]. cbn [map concat filter]. destruct (S c); cbn [map concat app]; now rewrite IH. Qed.
Lemma about_len box x y c : about_centre box x y c -> List.length y = List.length x.
Proof. intros (H & _). induction H; cbn [List.length]; congruence. Qed.

Definition by_id (l : list particle) : Prop := StronglySorted (fun p q => plain_id (id_of p) <= plain_id (id_of q)) l.
Lemma sorted_map {A} (g : A -> Z) l : StronglySorted Z.le (map g l) -> StronglySorted (fun p q => g p <= g q) l.
Proof.
  induction l as [|x l IH]; intro H; [constructor|]. cbn [map] in H. apply StronglySorted_inv in H. destruct H as [H1 H2]. constructor; [now apply IH|]. apply Forall_forall. intros y Hy. rewrite Forall_forall in H2. apply H2. now apply in_map.
Qed.

Lemma group_final little fs qsort dir base num n nhash box files t value4 value8 groupnr filenr gids members fuel pos centre box0 :
  sorts qsort -> 0 <= num -> 0 <= filenr -> snap_files little fs dir base num n nhash box files -> covers 0 nhash files -> holds files t -> zlen files < 2 ^ 30 ->
  group_ids little fs dir num filenr groupnr gids -> gids <> [] -> members_are files gids members -> different_ids files -> zlen (neighbours files gids) < 2 ^ 29 ->
  (0 < value8 box)%Q -> Forall (in_box value4 (value8 box)) members -> 3 * zlen gids <= zlen pos -> 3 * zlen gids < 2 ^ 31 -> (2 <= fuel)%nat ->
  exists sel new cx cy cz,
    get_group_coordinates little fs qsort dir num base value4 value8 fuel t nhash groupnr filenr (zlen gids) pos centre box0 =
      Ok {| c_ret := 0; c_file := Filetable t; c_pos := flat new ++ skipn (3 * List.length gids) pos; c_centre := [cx; cy; cz]; c_box := value8 box |} /\
    Permutation members sel /\ by_id sel /\
    about_centre (value8 box) (map (coordinate value4 0) sel) (map (fun q => fst (fst q)) new) cx /\
    about_centre (value8 box) (map (coordinate value4 1) sel) (map (fun q => snd (fst q)) new) cy /\
    about_centre (value8 box) (map (coordinate value4 2) sel) (map snd new) cz.
Proof.
  intros HQ Hnum Hfn HF Hcov HT Hz HG Hne HM HD HB Hbox Hin Hroom Hint Hfuel.
  destruct HG as (tab & ids & c1 & e1 & c2 & e2 & F1 & C1 & F2 & C2 & Hg & off & Eoff & Ho1 & Ho2 & Egids).
  pose proof (zlen_nonneg gids) as P0. unfold holds in HT.
  unfold get_group_coordinates. rewrite tab_name_eq. rewrite (fopen_name fs dir (lit "group_tab") num filenr (Some c1) Hnum Hfn F1). rewrite (header_ok little tab e1 c1 C1). cbn [bind tab_head Ngroups].
  destruct (tab_counts little tab e1 c1 C1) as (T1 & _ & TL & TO & _).
  rewrite !fseek_ok by lia. destruct (offset_ok little tab e1 c1 C1 groupnr Hg) as (fd & EO). rewrite EO. cbn [bind]. rewrite <- Eoff. clear EO fd.
  rewrite ids_name_eq, (fopen_name fs dir (lit "group_ids") num filenr (Some c2) Hnum Hfn F2). destruct (ids_header little ids e2 c2 C2) as (h & EH). rewrite EH. cbn [bind]. rewrite fseek_ok by lia.
  destruct (ids_ok little ids e2 c2 C2 off (zlen gids) Ho1 P0 Ho2) as (fd & EI). rewrite EI. cbn [bind]. rewrite <- Egids. clear EI fd EH h.
  assert (Forall (fun v => 0 <= v < 2 ^ 64) gids) as HR by (rewrite Egids; apply In_slice_Forall; exact (ids_range little ids e2 c2 C2)).
  pose proof (nhash_cells files nhash Hcov) as EN. pose proof (zlen_nonneg (cells files)) as P1.
  assert (forall gid, 0 <= gid < 2 ^ 64 -> hash_key gid = key gid) as HK by (intros gid Hg'; unfold hash_key, key; now rewrite Z.mod_small).
  (* the cells *)
  assert (Forall (fun id => 0 <= id < 2 ^ 64 /\ key id < nhash) gids) as HI.
  { clear - HM HR HK EN. unfold members_are in HM. induction HM as [|gid p gids members [_ Hp] HM IH]; [constructor|]. apply Forall_cons_iff in HR. destruct HR as [HR1 HR]. constructor; [|now apply IH]. split; [exact HR1|]. rewrite HK in Hp by exact HR1.
    unfold cell_of in Hp. destruct (Z.lt_ge_cases (key gid) nhash) as [C|C]; [exact C|]. rewrite nth_overflow in Hp by (unfold zlen in EN; lia). destruct Hp. }
  destruct (shift_ok little fs dir base num n nhash box files t value4 value8 HF Hcov HT Hz) as (ft & S1 & S2). rewrite S1. cbn [bind]. rewrite S2. cbn [bind].
  change (map (fun c => 2 * fil files c + 0) (zseq 0 (Z.to_nat nhash)) ++ skipn (Z.to_nat nhash) (Filetable t)) with (flags nhash files t (fun _ => false)).
  assert (chosen nhash files (fun c => wanted_by gids c) = neighbours files gids) as ECH.
  { unfold chosen, chosen_in, neighbours. rewrite concat_filter. unfold cell, cell_of. rewrite EN. unfold zlen. rewrite Nat2Z.id. do 2 f_equal. apply filter_ext_in. intros c _. unfold wanted_by. clear - HR HK. induction HR as [|gid gids Hg HR IH]; [reflexivity|]. cbn [existsb]. now rewrite IH, HK. }
  assert (zlen (chosen nhash files (fun _ => false)) = 0) as EZ.
  { unfold chosen, chosen_in. rewrite (concat_filter (cell files) (fun _ => false)). assert (filter (fun _ : Z => false) (zseq 0 (Z.to_nat nhash)) = []) as ->; [|reflexivity]. generalize (zseq 0 (Z.to_nat nhash)). induction l; [reflexivity | exact IHl]. }
  destruct (mark_ok little fs dir base num n nhash box files t value4 value8 HF Hcov HT gids (fun _ => false) HI) as (S' & ES & EM).
  { cbn [orb]. change (fun c => wanted_by gids c) with (fun c => wanted_by gids c) in ECH. rewrite ECH. lia. }
  rewrite EZ in EM. rewrite EM. cbn [bind orb] in *.
  assert (chosen nhash files S' = neighbours files gids) as EC.
  { rewrite <- ECH. unfold chosen, chosen_in. f_equal. apply map_ext. intro c. now rewrite ES. }
  rewrite EC. set (R := neighbours files gids) in *. pose proof (zlen_nonneg R) as P2. rewrite CellProofs.c_int_ok by lia. cbn [bind]. replace (0 <=? zlen R) with true by lia. cbn [check bind].
  (* reading *)
  assert (Forall (fun c => 0 <= c < nhash) (zseq 0 (Z.to_nat nhash))) as HZ by (apply Forall_forall; intros c Hc; apply In_zseq in Hc; lia).
  assert (Forall (fun p => zlen (fst (fst p)) = 3) R) as H3.
  { apply Forall_forall. intros p Hp. unfold R, neighbours in Hp. apply in_concat in Hp. destruct Hp as (l & Hl & Hp). apply in_map_iff in Hl. destruct Hl as (c & <- & _). pose proof (cell_triples little fs dir base num n nhash box files HF c) as CT. rewrite Forall_forall in CT. now apply CT. }
  assert (chosen_in files S' (zseq 0 (Z.to_nat nhash)) = R) as ER by exact EC.
  rewrite (read_pos_ok little fs dir base num n nhash box files t value4 value8 Hnum HF Hcov HT S' (3 * zlen R) (zseq 0 (Z.to_nat nhash)) [] box0 HZ) by (rewrite ?ER; (change (zlen (@nil Q)) with 0; lia) || (intros c _; exact (cell_triples little fs dir base num n nhash box files HF c))).
  rewrite ER. cbn [bind app].
  rewrite (read_ids_ok little fs dir base num n nhash box files t value4 value8 Hnum HF Hcov HT S' (zlen R) (zseq 0 (Z.to_nat nhash)) [] HZ) by (rewrite ?ER; change (zlen (@nil Z)) with 0; lia).
  rewrite ER. cbn [bind app].
  assert (existsb S' (zseq 0 (Z.to_nat nhash)) = true) as EX.
  { destruct gids as [|gid gids]; [congruence|]. apply Forall_cons_iff in HI. destruct HI as [[I1 I2] _]. destruct (key_model value4 value8 gid I1) as [_ K]. apply existsb_exists. exists (key gid). split; [apply In_zseq; lia|]. rewrite ES. unfold wanted_by. cbn [existsb]. now rewrite Z.eqb_refl. }
  rewrite EX. rewrite map_length. fold (coded R). rewrite zlen_map.
  (* sorting *)
  destruct (sort_keys qsort (map mask34 gids) HQ) as [Q1 Q2].
  { apply Forall_map. apply Forall_forall. intros v _. rewrite mask_plain. pose proof (plain_range v). lia. }
  destruct (sort_keys qsort (coded R) HQ (coded_range R value4 HB)) as [Q3 Q4].
  set (T := qsort Z id_sort_compare_key (map mask34 gids)) in *. set (L := qsort Z id_sort_compare_key (coded R)) in *.
  assert (zlen T = zlen gids) as ET by (unfold zlen; rewrite <- (Permutation_length Q1), map_length; reflexivity).
  assert (zlen L = zlen R) as EL by (rewrite <- (coded_len R value4); unfold zlen; now rewrite (Permutation_length Q3)).
  assert (Forall (fun p => In p R) members) as MR.
  { apply Forall_forall. intros p Hp. unfold members_are in HM. assert (exists gid, In gid gids /\ In p (cell_of files (hash_key gid))) as (gid & G1 & G2).
    { clear - HM Hp. induction HM as [|gid q gids members [_ H] HM IH]; [destruct Hp|]. destruct Hp as [->|Hp]; [exists gid; split; [now left | exact H]|]. destruct (IH Hp) as (g & A & B). exists g. split; [now right | exact B]. }
    unfold R, neighbours. apply in_concat. exists (cell_of files (hash_key gid)). split; [|exact G2]. apply in_map. apply filter_In. rewrite Forall_forall in HI. destruct (HI gid G1) as [I1 I2]. destruct (key_model value4 value8 gid I1) as [_ K]. rewrite HK by exact I1. split; [apply In_zseq; unfold zlen in EN; lia|].
    apply existsb_exists. exists gid. split; [exact G1|]. rewrite HK by exact I1. apply Z.eqb_refl. }
  assert (map (fun p => plain_id (id_of p)) members = map mask34 gids) as EMM.
  { clear - HM. unfold members_are in HM. induction HM as [|gid p gids members [H _] HM IH]; [reflexivity|]. cbn [map]. now rewrite H, mask_plain, IH. }
  destruct (match_ok R value4 HB H3 L Q3 Q4 T pos Q2) as (sel & M1 & M2 & M3).
  { lia. }
  { lia. }
  { intros x Hx. apply (Permutation_in _ (Permutation_sym Q1)) in Hx. rewrite <- EMM in Hx. apply in_map_iff in Hx. destruct Hx as (p & E & Hp). exists p. split; [|exact E]. rewrite Forall_forall in MR. now apply MR. }
  rewrite EL in M3. rewrite M3. cbn [bind].
  assert (Forall (fun p => In p (concat (cells files))) R) as RA.
  { apply Forall_forall. intros p Hp. unfold R, neighbours in Hp. apply in_concat in Hp. destruct Hp as (l & Hl & Hp). apply in_map_iff in Hl. destruct Hl as (c & <- & _). unfold cell_of in Hp. apply in_concat. exists (nth (Z.to_nat c) (cells files) []). split; [|exact Hp]. destruct (nth_in_or_default (Z.to_nat c) (cells files) []) as [H|H]; [exact H|]. rewrite H in Hp. destruct Hp. }
  assert (Permutation members sel) as PM.
  { apply (permutation_by_id (fun p => plain_id (id_of p)) (concat (cells files)) members sel HD).
    - rewrite Forall_forall in *. intros p Hp. now apply RA, MR.
    - rewrite Forall_forall in *. intros p Hp. now apply RA, M2.
    - rewrite EMM, M1. exact Q1. }
  assert (Forall (in_box value4 (value8 box)) sel) as SB by (apply (Permutation_Forall PM); exact Hin).
  assert (Forall (fun p => zlen (fst (fst p)) = 3) sel) as S3 by (rewrite Forall_forall in *; intros p Hp; apply H3, M2, Hp).
  assert (zlen sel = zlen gids) as ESL by (rewrite <- ET, <- M1; now rewrite zlen_map).
  assert (sel <> []) as SN by (intros ->; destruct gids; [congruence|]; rewrite zlen_cons in ESL; change (zlen (@nil particle)) with 0 in ESL; pose proof (zlen_nonneg gids); lia).
  set (tail := skipn (List.length (concat (map (pos_vals value4) sel))) pos).
  assert (zlen (concat (map (pos_vals value4) sel)) = 3 * zlen gids) as EV by (rewrite triple_len; [lia|]; eapply Forall_impl; [|exact S3]; cbn; intros p Hp; unfold pos_vals; now rewrite zlen_map).
  assert (tail = skipn (3 * List.length gids) pos) as ETL by (unfold tail; f_equal; unfold zlen in EV; lia).
  rewrite CellProofs.c_int_ok by lia. cbn [bind]. rewrite zlen_app, EV. pose proof (zlen_nonneg tail) as P3. match goal with |- context [check ?b _] => replace b with true by lia end. cbn [check bind].
  rewrite <- ESL.
  pose proof (component_ok value4 sel tail 0 S3 ltac:(lia)) as K0. pose proof (component_ok value4 sel tail 1 S3 ltac:(lia)) as K1. pose proof (component_ok value4 sel tail 2 S3 ltac:(lia)) as K2. cbn [Z.of_nat Pos.of_succ_nat Pos.succ] in K0, K1, K2. rewrite K0, K1, K2.
  assert (forall k, (k < 3)%nat -> exists y c, recentre fuel (value8 box) (map (coordinate value4 k) sel) = Ok (y, c) /\ about_centre (value8 box) (map (coordinate value4 k) sel) y c) as RC.
  { intros k Hk. apply recentre_ok; [exact Hfuel | exact Hbox | destruct sel; [congruence | discriminate] |]. apply Forall_map. eapply Forall_impl; [|exact SB]. intros p Hp. now apply Hp. }
  destruct (RC 0%nat ltac:(lia)) as (x & cx & X1 & X2). destruct (RC 1%nat ltac:(lia)) as (y & cy & Y1 & Y2). destruct (RC 2%nat ltac:(lia)) as (z & cz & Z1 & Z2). rewrite X1. cbn [bind]. rewrite Y1. cbn [bind]. rewrite Z1. cbn [bind].
  rewrite interleave_flat. pose proof (about_len _ _ _ _ X2) as LX. pose proof (about_len _ _ _ _ Y2) as LY. pose proof (about_len _ _ _ _ Z2) as LZ. rewrite map_length in LX, LY, LZ.
  set (new := combine (combine x y) z). destruct (combine_parts x y z ltac:(lia) ltac:(lia)) as (N1 & N2 & N3). fold new in N1, N2, N3.
  assert (zlen (flat new) = 3 * zlen gids) as EF by (rewrite flat_len, <- ESL; f_equal; transitivity (zlen x); [rewrite <- N1; now rewrite zlen_map | unfold zlen; lia]).
  rewrite wr_range_ok by (rewrite ?zlen_app; lia). cbn [bind]. rewrite write_front by (unfold zlen in EF, EV; lia).
  destruct (restore nhash box files t value4 value8 Hcov HT S') as (fr & R1 & R2). rewrite R1. cbn [bind]. rewrite R2.
  exists sel, new, cx, cy, cz. rewrite N1, N2, N3, ETL. repeat split; try assumption; try (apply X2) || (apply Y2) || (apply Z2).
  apply sorted_map. rewrite M1. exact Q2.
Qed.

(** *** missing files *)
Lemma group_missing_tab little fs qsort dir base num value4 value8 fuel t size groupnr filenr len pos centre box :
  0 <= num -> 0 <= filenr -> file_is fs dir (lit "group_tab") num filenr None ->
  get_group_coordinates little fs qsort dir num base value4 value8 fuel t size groupnr filenr len pos centre box =
    Ok {| c_ret := -1; c_file := Filetable t; c_pos := pos; c_centre := centre; c_box := box |}.
Proof. intros Hnum Hf F. unfold get_group_coordinates. rewrite tab_name_eq. now rewrite (fopen_name fs dir (lit "group_tab") num filenr None Hnum Hf F). Qed.
Lemma group_missing_ids little fs qsort dir base num value4 value8 fuel t size groupnr filenr len pos centre box tab c1 e1 :
  0 <= num -> 0 <= filenr -> file_is fs dir (lit "group_tab") num filenr (Some c1) -> catalogue_file little L2_group_tab tab e1 c1 -> 0 <= groupnr < zlen (tab "GroupOffset"%string) ->
  file_is fs dir (lit "group_ids") num filenr None ->
  get_group_coordinates little fs qsort dir num base value4 value8 fuel t size groupnr filenr len pos centre box =
    Ok {| c_ret := -1; c_file := Filetable t; c_pos := pos; c_centre := centre; c_box := box |}.
Proof.
  intros Hnum Hf F1 C1 Hg F2. unfold get_group_coordinates. rewrite tab_name_eq. rewrite (fopen_name fs dir (lit "group_tab") num filenr (Some c1) Hnum Hf F1). rewrite (header_ok little tab e1 c1 C1). cbn [bind tab_head Ngroups].
  destruct (tab_counts little tab e1 c1 C1) as (T1 & _ & TL & TO & _). rewrite !fseek_ok by lia. destruct (offset_ok little tab e1 c1 C1 groupnr Hg) as (fd & EO). rewrite EO. cbn [bind].
  rewrite ids_name_eq. now rewrite (fopen_name fs dir (lit "group_ids") num filenr None Hnum Hf F2).
Qed.

(** *** examples *)
Definition ex_ids (l : list Z) : catalogue := fun name =>
  if String.eqb name "Ngroups" then [2] else if String.eqb name "Nids" then [zlen l] else if String.eqb name "TotNgroups" then [2] else if String.eqb name "NTask" then [1] else if String.eqb name "GroupIDs" then l else [].
Definition ex_ids_file (l : list Z) : list Z := file_bytes false (pieces_of (ex_ids l) (L2_group_ids 8)) ++ [5].
(** two groups; the ids of the second one are [gids] *)
Definition ex_tab2 (gids : list Z) : catalogue := ex_cat [2; zlen gids] [0; 2] [7; 3; 0] (2 + zlen gids) 2 1.
Definition ex_groups (n nhash box : Z) (files : list (cellfile (list Z))) (gids : list Z) : str -> option (list Z) := fun name =>
  match ex_snaps n nhash box files name with
  | Some c => Some c
  | None => stored [(lit "/data/group_tab_007.0", ex_file false (ex_tab2 gids)); (lit "/data/group_ids_007.0", ex_ids_file ([5; 6] ++ gids))] name
  end.
Definition ex_gids : list Z := [cell_id 7 18; cell_id 0 11; cell_id 3 14].
Definition ex_members : list particle := [P 1 1 7 (cell_id 7 18); P 1 1 1 (cell_id 0 11); P 7 1 2 (cell_id 3 14)].
Definition ex_tables : hash := {| Hashtable := [0; 2; 3; 0; 1; 2; 2; 4; -1]; Filetable := [0; 0; 0; 1; 1; 1; 1; 1; -1]; LastHashCell := [2; 7; -1]; NInFiles := [3; 5; -1] |}.
Lemma ex_tables_hold : holds [ex_1; ex_2] ex_tables.
Proof. exists [-1], [-1], [-1], [-1]. repeat split. Qed.
Lemma ex_group_ids : group_ids false (ex_groups 2 8 8 [ex_1; ex_2] ex_gids) (lit "/data") 7 0 1 ex_gids.
Proof. exists (ex_tab2 ex_gids), (ex_ids ([5; 6] ++ ex_gids)), (ex_file false (ex_tab2 ex_gids)), [8; 8], (ex_ids_file ([5; 6] ++ ex_gids)), [5]. split; [apply file_is_intro; [lia | lia | vm_compute; reflexivity]|].
  split; [apply ex_file_ok; vm_compute; reflexivity|]. split; [apply file_is_intro; [lia | lia | vm_compute; reflexivity]|].
  split; [split; [split; [apply pieces_okb; vm_compute; reflexivity | repeat constructor; vm_compute; intuition discriminate] | reflexivity]|].
  split; [vm_compute; intuition discriminate|]. exists 2. split; [reflexivity|]. split; [lia|]. split; [vm_compute; discriminate | reflexivity].
Qed.
Lemma ex_group_snaps gids : snap_files false (ex_groups 2 8 8 [ex_1; ex_2] gids) (lit "/data") (lit "snap") 7 2 8 8 [ex_1; ex_2].
Proof.
  intros i f E. destruct (ex_snap_files i f E) as (cat & content & H & R). exists cat, content. split; [|exact R]. intros s3 s1 N3 N1. unfold ex_groups. now rewrite (H s3 s1 N3 N1).
Qed.
Lemma ex_members_ok : members_are [ex_1; ex_2] ex_gids ex_members.
Proof. repeat constructor. Qed.
Lemma ex_different : different_ids [ex_1; ex_2].
Proof. unfold different_ids. vm_compute. repeat constructor; cbn; intuition discriminate. Qed.
Lemma ex_in_box : Forall (in_box inject_Z 8) ex_members.
Proof. repeat constructor; destruct k as [|[|[|k]]]; try lia; vm_compute; intuition discriminate. Qed.

(** a missing snapshot file: the table of the caller has been changed *)
Lemma group_changed_refuted : exists fs t gids, group_ids false fs (lit "/data") 7 0 1 gids /\ snap_files false fs (lit "/data") (lit "snap") 7 2 8 8 [ex_1] /\ file_is fs (lit "/data") (lit "snap") 7 1 None /\ holds [ex_1; ex_2] t /\
  exists r, get_group_coordinates false fs isort (lit "/data") 7 (lit "snap") inject_Z inject_Z 2 t 8 1 0 (zlen gids) (repeat 0%Q 9) [] 0%Q = Ok r /\ c_ret r = -1 /\ c_file r <> Filetable t.
Proof.
  exists (ex_groups 2 8 8 [ex_1] ex_gids), ex_tables, ex_gids. split; [|split; [|split; [|split; [exact ex_tables_hold|]]]].
  - exists (ex_tab2 ex_gids), (ex_ids ([5; 6] ++ ex_gids)), (ex_file false (ex_tab2 ex_gids)), [8; 8], (ex_ids_file ([5; 6] ++ ex_gids)), [5]. split; [apply file_is_intro; [lia | lia | vm_compute; reflexivity]|].
    split; [apply ex_file_ok; vm_compute; reflexivity|]. split; [apply file_is_intro; [lia | lia | vm_compute; reflexivity]|].
    split; [split; [split; [apply pieces_okb; vm_compute; reflexivity | repeat constructor; vm_compute; intuition discriminate] | reflexivity]|].
    split; [vm_compute; intuition discriminate|]. exists 2. split; [reflexivity|]. split; [lia|]. split; [vm_compute; discriminate | reflexivity].
  - intros i f E. destruct (ex_snap_files1 i f E) as (cat & content & H & R). exists cat, content. split; [|exact R]. intros s3 s1 N3 N1. unfold ex_groups. now rewrite (H s3 s1 N3 N1).
  - apply file_is_intro; [lia | lia | vm_compute; reflexivity].
  - eexists. split; [vm_compute; reflexivity|]. split; [reflexivity | discriminate].
Qed.
(** an id which no particle has: memory is read past the end *)
Definition ex_lost : list Z := [cell_id 0 11; cell_id 7 19].
Lemma group_lost_refuted : exists fs t gids, group_ids false fs (lit "/data") 7 0 1 gids /\ Forall (fun gid => hash_key gid < 8) gids /\ snap_files false fs (lit "/data") (lit "snap") 7 2 8 8 [ex_1; ex_2] /\ holds [ex_1; ex_2] t /\
  get_group_coordinates false fs isort (lit "/data") 7 (lit "snap") inject_Z inject_Z 2 t 8 1 0 (zlen gids) (repeat 0%Q 9) [] 0%Q = Err EAbort.
Proof.
  exists (ex_groups 2 8 8 [ex_1; ex_2] ex_lost), ex_tables, ex_lost. split; [|split; [repeat constructor | split; [apply ex_group_snaps | split; [exact ex_tables_hold | vm_compute; reflexivity]]]].
  exists (ex_tab2 ex_lost), (ex_ids ([5; 6] ++ ex_lost)), (ex_file false (ex_tab2 ex_lost)), [8; 8], (ex_ids_file ([5; 6] ++ ex_lost)), [5]. split; [apply file_is_intro; [lia | lia | vm_compute; reflexivity]|].
  split; [apply ex_file_ok; vm_compute; reflexivity|]. split; [apply file_is_intro; [lia | lia | vm_compute; reflexivity]|].
  split; [split; [split; [apply pieces_okb; vm_compute; reflexivity | repeat constructor; vm_compute; intuition discriminate] | reflexivity]|].
  split; [vm_compute; intuition discriminate|]. exists 2. split; [reflexivity|]. split; [lia|]. split; [vm_compute; discriminate | reflexivity].
Qed.
