(** Proofs about the functions which read group catalogues (C84). *)
From Coq Require Import QArith.
From Coq Require Import Ascii String.
From Coq Require Import Sorting.Permutation Sorting.Sorted.
From Verif Require Import Base.Prelude Base.ListLemmas Binary.BinModel Formats.FileSpec Formats.CatSpec Formats.ReaderProofs.
From Verif Require Import Text.StrModel Text.PathSpec Peano.CPeanoModel Fortran.SortModel Fortran.RegionModel Fortran.RegionSpec Fortran.GroupTabSpec Fortran.GroupTabProofs.
From Verif Require Import Idl.LibModel Idl.LibSpec Idl.StdioProofs.
From Coq Require Import ZifyBool ZifyNat.
Local Open Scope Z_scope. Local Open Scope list_scope.

(** *** one file *)
Section One.
  Variables (little : bool) (cat : catalogue) (extra content : list Z).
  Hypothesis HF : catalogue_file little L2_group_tab cat extra content.
  Definition tab_chunks : list (Z * list Z) :=
    [(4, [scalar cat "Ngroups"]); (4, [scalar cat "Nids"]); (4, [scalar cat "TotNgroups"]); (4, [scalar cat "NTask"]);
     (4, cat "GroupLen"%string); (4, cat "GroupOffset"%string); (4, [scalar cat "GroupMinLen"]); (4, cat "Count"%string)].
  Lemma tab_content : content = cbytes little tab_chunks ++ extra.
  Proof.
    destruct HF as [HC ->]. rewrite file_chunks. f_equal. f_equal. unfold L2_group_tab, tab_chunks. cbn [map]. unfold chunk_of. cbn [one col fd_size fd_name].
    rewrite (one_chunk cat L2_group_tab "Ngroups" 4), (one_chunk cat L2_group_tab "Nids" 4), (one_chunk cat L2_group_tab "TotNgroups" 4), (one_chunk cat L2_group_tab "NTask" 4), (one_chunk cat L2_group_tab "GroupMinLen" 4) by (exact HC || (unfold L2_group_tab; cbn [In]; tauto)).
    reflexivity.
  Qed.
  Lemma tab_good : good tab_chunks.
  Proof.
    destruct HF as [HC _]. apply consistent_good in HC as HG. unfold L2_group_tab in HG. cbn [map] in HG. unfold chunk_of in HG. cbn [one col fd_size fd_name] in HG.
    rewrite (one_chunk cat L2_group_tab "Ngroups" 4), (one_chunk cat L2_group_tab "Nids" 4), (one_chunk cat L2_group_tab "TotNgroups" 4), (one_chunk cat L2_group_tab "NTask" 4), (one_chunk cat L2_group_tab "GroupMinLen" 4) in HG by (exact HC || (unfold L2_group_tab; cbn [In]; tauto)).
    exact HG.
  Qed.
  Lemma tab_counts : 0 <= scalar cat "Ngroups" < 2 ^ 31 /\ 0 <= scalar cat "GroupMinLen" < 2 ^ 31 /\ zlen (cat "GroupLen"%string) = scalar cat "Ngroups" /\ zlen (cat "GroupOffset"%string) = scalar cat "Ngroups" /\ zlen (cat "Count"%string) = scalar cat "GroupMinLen".
  Proof.
    destruct HF as [HC _].
    pose proof (consistent_count cat L2_group_tab (col "Ngroups" "GroupLen" 4) "Ngroups" HC ltac:(unfold L2_group_tab; cbn [In]; tauto) ltac:(cbn; tauto)).
    pose proof (consistent_count cat L2_group_tab (col "GroupMinLen" "Count" 4) "GroupMinLen" HC ltac:(unfold L2_group_tab; cbn [In]; tauto) ltac:(cbn; tauto)).
    pose proof (consistent_len cat L2_group_tab (col "Ngroups" "GroupLen" 4) HC ltac:(unfold L2_group_tab; cbn [In]; tauto)) as E1.
    pose proof (consistent_len cat L2_group_tab (col "Ngroups" "GroupOffset" 4) HC ltac:(unfold L2_group_tab; cbn [In]; tauto)) as E2.
    pose proof (consistent_len cat L2_group_tab (col "GroupMinLen" "Count" 4) HC ltac:(unfold L2_group_tab; cbn [In]; tauto)) as E3.
    cbn [col fd_name fd_dims map extent fold_left] in E1, E2, E3. rewrite Z.mul_1_l in E1, E2, E3. tauto.
  Qed.
  Definition tab_head : tab_header :=
    {| Ngroups := scalar cat "Ngroups"; Nids := signed (scalar cat "Nids"); TotNgroups := signed (scalar cat "TotNgroups"); NTask := signed (scalar cat "NTask") |}.
  Lemma header_ok : read_tab_header little (content, 0) = Ok (tab_head, (content, 16)).
  Proof.
    pose proof tab_content as EC. pose proof tab_good as HG. unfold tab_chunks in *. unfold read_tab_header.
    rewrite (fread_int_at little [] (scalar cat "Ngroups") _ extra) by (exact HG || exact EC || reflexivity). cbn [bind app].
    rewrite (fread_int_at little [_] (scalar cat "Nids") _ extra) by (exact HG || exact EC || reflexivity). cbn [bind app].
    rewrite (fread_int_at little [_; _] (scalar cat "TotNgroups") _ extra) by (exact HG || exact EC || reflexivity). cbn [bind app].
    rewrite (fread_int_at little [_; _; _] (scalar cat "NTask") _ extra) by (exact HG || exact EC || reflexivity). cbn [bind app].
    destruct tab_counts as (H & _). do 2 f_equal. unfold tab_head. f_equal. unfold signed. destruct (Z.ltb_spec (scalar cat "Ngroups") (2 ^ 31)); lia.
  Qed.
  Lemma lens_ok : fread_ints little (scalar cat "Ngroups") (content, 16) = Ok (map signed (cat "GroupLen"%string), (content, 16 + 4 * scalar cat "Ngroups")).
  Proof.
    pose proof tab_content as EC. pose proof tab_good as HG. destruct tab_counts as (_ & _ & E & _). rewrite <- E.
    rewrite (fread_ints_all little [_; _; _; _] (cat "GroupLen"%string) _ extra content 16) by (exact HG || exact EC || reflexivity). do 3 f_equal. rewrite csize_app, csize_one. reflexivity.
  Qed.
  Lemma min_len_ok : read_min_len little (content, 0) = Ok (tab_head, scalar cat "GroupMinLen", (content, 16 + 8 * scalar cat "Ngroups" + 4)).
  Proof.
    pose proof tab_content as EC. pose proof tab_good as HG. destruct tab_counts as (H1 & H2 & E1 & E2 & E3). unfold read_min_len. rewrite header_ok. cbn [bind tab_head Ngroups].
    rewrite !fseek_ok by lia. unfold tab_chunks in *.
    rewrite (fread_int_at little (firstn 6 tab_chunks) (scalar cat "GroupMinLen") (skipn 7 tab_chunks) extra) by (exact HG || exact EC || (unfold csize, sumZ; cbn [tab_chunks firstn map fold_right]; rewrite E1, E2; unfold zlen; cbn [List.length]; lia)).
    cbn [bind]. do 3 f_equal; [unfold signed; destruct (Z.ltb_spec (scalar cat "GroupMinLen") (2 ^ 31)); lia|]. f_equal. unfold csize, sumZ. cbn [tab_chunks firstn map fold_right app]. rewrite E1, E2. unfold zlen. cbn [List.length]. lia.
  Qed.
  Lemma counts_ok : exists fd, fread_ints little (scalar cat "GroupMinLen") (content, 16 + 8 * scalar cat "Ngroups" + 4) = Ok (map signed (cat "Count"%string), fd).
  Proof.
    pose proof tab_content as EC. pose proof tab_good as HG. destruct tab_counts as (H1 & H2 & E1 & E2 & E3). eexists. rewrite <- E3. unfold tab_chunks in *.
    apply (fread_ints_all little (firstn 7 tab_chunks) (cat "Count"%string) [] extra); [exact HG | exact EC|]. unfold csize, sumZ; cbn [tab_chunks firstn map fold_right]; rewrite E1, E2; unfold zlen; cbn [List.length]; lia.
  Qed.
End One.

(** *** all files *)
Section All.
  Variables (little : bool) (fs : str -> option (list Z)) (dir : str) (num : Z) (cats : list catalogue).
  Hypothesis Hnum : 0 <= num.
  Hypothesis HF : tab_files little fs dir num cats.
  Lemma open_tab i cat : nth_error cats i = Some cat -> exists content extra, fopen fs (tab_name dir num (Z.of_nat i)) = Some (content, 0) /\ catalogue_file little L2_group_tab cat extra content.
  Proof.
    intro E. destruct (HF i cat E) as (content & extra & H1 & H2). exists content, extra. split; [|exact H2]. rewrite tab_name_eq. now rewrite (fopen_name fs dir (lit "group_tab") num (Z.of_nat i) (Some content)) by (lia || assumption).
  Qed.
  Lemma total_ok : forall cat rest, cats = cat :: rest -> get_total_number_of_groups little fs dir num = Ok (signed (scalar cat "TotNgroups")).
  Proof.
    intros cat rest E. destruct (open_tab 0 cat) as (content & extra & H1 & H2); [now rewrite E|]. unfold get_total_number_of_groups. change (Z.of_nat 0) with 0 in H1. rewrite H1. rewrite (header_ok little cat extra content H2). reflexivity.
  Qed.
  Lemma minimum_ok : forall cat rest, cats = cat :: rest -> get_minimum_group_len little fs dir num = Ok (scalar cat "GroupMinLen").
  Proof.
    intros cat rest E. destruct (open_tab 0 cat) as (content & extra & H1 & H2); [now rewrite E|]. unfold get_minimum_group_len. change (Z.of_nat 0) with 0 in H1. rewrite H1. rewrite (min_len_ok little cat extra content H2). reflexivity.
  Qed.

  (** the groups of the files from number [i] on *)
  Definition groups_from (i : Z) (l : list catalogue) : list (Z * Z * Z) :=
    concat (map (fun '(k, cat) => map (fun '(j, len) => (signed len, k, j)) (numbered (cat "GroupLen"%string))) (combine (zseq i (List.length l)) l)).
  Definition lens (l : list (Z * Z * Z)) := map (fun t => fst (fst t)) l.
  Definition files (l : list (Z * Z * Z)) := map (fun t => snd (fst t)) l.
  Definition nrs (l : list (Z * Z * Z)) := map (@snd (Z * Z) Z) l.
  Lemma one_group_lists (vals : list Z) (k : Z) (t := map (fun '(j, len) => (signed len, k, j)) (numbered vals)) :
    lens t = map signed vals /\ files t = repeat k (List.length vals) /\ nrs t = zseq 0 (List.length vals).
  Proof.
    unfold t, numbered, lens, files, nrs. rewrite !map_map. generalize 0. induction vals as [|v vals IH]; intro a; [repeat split|]. cbn [List.length zseq combine map repeat fst snd].
    destruct (IH (a + 1)) as (E1 & E2 & E3). rewrite E1, E2, E3. repeat split.
  Qed.
  Variable n : Z.
  Hypothesis Hn : all_files_say "NTask" cats n.
  Hypothesis Hlen : zlen cats <= n.
  Definition gs (a : list (Z * Z * Z)) (r : groups) : groups := {| g_len := lens a ++ g_len r; g_file := files a ++ g_file r; g_nr := nrs a ++ g_nr r |}.
  Definition room (m : Z) (r : groups) : Prop := m <= zlen (g_len r) /\ m <= zlen (g_file r) /\ m <= zlen (g_nr r).
  Definition drop (m : nat) (r : groups) : groups := {| g_len := skipn m (g_len r); g_file := skipn m (g_file r); g_nr := skipn m (g_nr r) |}.
  Definition last_tot (l : list catalogue) (tot : Z) : Z := fold_left (fun _ cat => signed (scalar cat "TotNgroups")) l tot.
  Lemma write_next {B} (a v r : list B) : (List.length v <= List.length r)%nat -> wr_range (a ++ r) (zlen a) v = Ok ((a ++ v) ++ skipn (List.length v) r).
  Proof.
    intro H. pose proof (zlen_nonneg a). rewrite wr_range_ok by (rewrite ?zlen_app; unfold zlen in *; lia). rewrite <- (firstn_skipn (List.length v) r) at 1. rewrite write_after by (rewrite firstn_length; lia). now rewrite app_assoc.
  Qed.
  Lemma skipn_skipn' {B} (l : list B) : forall a b, skipn a (skipn b l) = skipn (b + a) l.
  Proof. induction l as [|x l IH]; intros a [|b]; [reflexivity | now rewrite !skipn_nil | reflexivity | cbn [skipn Nat.add]; apply IH]. Qed.
  Lemma catalogue_steps l : forall a fuel tot acc r, cats = a ++ l -> room (zlen (groups_from (zlen a) l)) r -> zlen acc + zlen (groups_from (zlen a) l) < 2 ^ 31 ->
    catalogue_loop little fs dir num (List.length l + fuel) (zlen a) n tot (zlen acc) (gs acc r) =
    catalogue_loop little fs dir num fuel (zlen cats) n (last_tot l tot) (zlen (acc ++ groups_from (zlen a) l)) (gs (acc ++ groups_from (zlen a) l) (drop (List.length (groups_from (zlen a) l)) r)).
  Proof.
    induction l as [|cat l IH]; intros a fuel tot acc r E Hr Hc.
    - rewrite E, app_nil_r. cbn [last_tot fold_left groups_from combine map concat List.length Nat.add]. rewrite app_nil_r. unfold drop. cbn [skipn]. now destruct r.
    - cbn [List.length Nat.add catalogue_loop].
      assert (zlen a < n) as Hlt by (rewrite E, zlen_app, zlen_cons in Hlen; pose proof (zlen_nonneg l); lia). replace (zlen a <? n) with true by lia.
      assert (nth_error cats (List.length a) = Some cat) as En by (rewrite E, nth_error_app2, Nat.sub_diag by lia; reflexivity).
      destruct (open_tab _ _ En) as (content & extra & H1 & H2). change (Z.of_nat (List.length a)) with (zlen a) in H1. rewrite H1.
      rewrite (header_ok little cat extra content H2). cbn [bind tab_head Ngroups NTask TotNgroups]. rewrite (lens_ok little cat extra content H2). cbn [bind].
      destruct (tab_counts little cat extra content H2) as (C1 & _ & C2 & _).
      set (g := map (fun '(j, len) => (signed len, zlen a, j)) (numbered (cat "GroupLen"%string))).
      assert (groups_from (zlen a) (cat :: l) = g ++ groups_from (zlen (a ++ [cat])) l) as EG.
      { unfold groups_from at 1. cbn [List.length zseq combine map concat]. fold g. f_equal. unfold groups_from. rewrite zlen_app. reflexivity. }
      rewrite EG in *. rewrite zlen_app in Hr, Hc. destruct (one_group_lists (cat "GroupLen"%string) (zlen a)) as (L1 & L2 & L3). fold g in L1, L2, L3.
      assert (Z.to_nat (scalar cat "Ngroups") = List.length (cat "GroupLen"%string)) as EN by (unfold zlen in C2; lia). rewrite EN, <- L1, <- L2, <- L3.
      assert (List.length g = List.length (cat "GroupLen"%string)) as Lg by (rewrite <- (map_length (fun t => fst (fst t)) g); fold (lens g); rewrite L1; apply map_length).
      pose proof (zlen_nonneg (groups_from (zlen (a ++ [cat])) l)) as P. destruct Hr as (R1 & R2 & R3).
      assert (zlen acc = zlen (lens acc) /\ zlen acc = zlen (files acc) /\ zlen acc = zlen (nrs acc)) as (Z1 & Z2 & Z3) by (unfold lens, files, nrs, zlen; rewrite !map_length; tauto).
      assert (List.length (lens g) = List.length g /\ List.length (files g) = List.length g /\ List.length (nrs g) = List.length g) as (K1 & K2 & K3) by (unfold lens, files, nrs; rewrite !map_length; tauto).
      cbn [gs g_len g_file g_nr]. rewrite Z1 at 1. rewrite write_next by (rewrite K1; unfold zlen in *; lia). cbn [bind]. rewrite Z2 at 1. rewrite write_next by (rewrite K2; unfold zlen in *; lia). cbn [bind]. rewrite Z3 at 1. rewrite write_next by (rewrite K3; unfold zlen in *; lia). cbn [bind].
      rewrite K1, K2, K3. unfold c_int. assert (zlen acc + scalar cat "Ngroups" = zlen (acc ++ g)) as EA by (rewrite zlen_app; unfold zlen in *; lia). rewrite EA. pose proof (zlen_nonneg (acc ++ g)). replace ((- 2 ^ 31 <=? zlen (acc ++ g)) && (zlen (acc ++ g) <? 2 ^ 31)) with true by (rewrite zlen_app in *; lia). cbn [bind].
      assert (signed (scalar cat "NTask") = n) as ET by (unfold all_files_say in Hn; rewrite Forall_forall in Hn; apply Hn; rewrite E; apply in_or_app; right; now left). rewrite ET.
      replace (zlen a + 1) with (zlen (a ++ [cat])) by (rewrite zlen_app; reflexivity).
      assert ({| g_len := (lens acc ++ lens g) ++ skipn (List.length g) (g_len r); g_file := (files acc ++ files g) ++ skipn (List.length g) (g_file r); g_nr := (nrs acc ++ nrs g) ++ skipn (List.length g) (g_nr r) |} = gs (acc ++ g) (drop (List.length g) r)) as -> by (unfold gs, drop, lens, files, nrs; cbn [g_len g_file g_nr]; now rewrite !map_app).
      rewrite IH.
      + rewrite <- app_assoc. f_equal. unfold drop, gs. cbn [g_len g_file g_nr]. rewrite app_length. now rewrite !skipn_skipn'.
      + rewrite E, <- app_assoc. reflexivity.
      + unfold room, drop. cbn [g_len g_file g_nr]. unfold zlen in *. rewrite !skipn_length. lia.
      + rewrite zlen_app. unfold zlen in *; lia.
  Qed.

  Variable qsort : forall A : Type, (A -> A -> Z) -> list A -> list A.
  Hypothesis Hsort : sorts qsort.
  Lemma groups_comparison : comparison id_sort_groups.
  Proof.
    unfold comparison, id_sort_groups. repeat split; intros.
    - destruct (fst (fst b) <? fst (fst a)) eqn:A1, (fst (fst a) <? fst (fst b)) eqn:A2; lia.
    - destruct (fst (fst b) <? fst (fst a)) eqn:A1, (fst (fst a) <? fst (fst b)) eqn:A2; lia.
    - destruct (fst (fst b) <? fst (fst a)) eqn:A1, (fst (fst a) <? fst (fst b)) eqn:A2, (fst (fst c) <? fst (fst b)) eqn:A3, (fst (fst b) <? fst (fst c)) eqn:A4, (fst (fst c) <? fst (fst a)) eqn:A5, (fst (fst a) <? fst (fst c)) eqn:A6; lia.
  Qed.
  Lemma combine_back (t : list (Z * Z * Z)) : combine (combine (lens t) (files t)) (nrs t) = t.
  Proof. unfold lens, files, nrs. induction t as [|[[a b] c] t IH]; [reflexivity|]. cbn [map combine fst snd]. now rewrite IH. Qed.
  Lemma last_tot_ok tot l t0 : all_files_say "TotNgroups" l tot -> l <> [] -> last_tot l t0 = tot.
  Proof.
    intros H Hne. unfold last_tot. assert (forall l t, Forall (fun cat => signed (scalar cat "TotNgroups") = tot) l -> t = tot -> fold_left (fun _ cat => signed (scalar cat "TotNgroups")) l t = tot) as G.
    { clear. induction l as [|c l IH]; intros t H Ht; [exact Ht|]. apply Forall_cons_iff in H. destruct H as [H1 H2]. cbn [fold_left]. now apply IH. }
    destruct l as [|c l]; [congruence|]. apply Forall_cons_iff in H. destruct H as [H1 H2]. cbn [fold_left]. now apply G.
  Qed.
  Lemma catalogue_ok g fuel : zlen cats = n -> cats <> [] -> (List.length cats < fuel)%nat -> all_files_say "TotNgroups" cats (zlen (all_groups cats)) -> zlen (all_groups cats) < 2 ^ 31 -> room (zlen (all_groups cats)) g ->
    exists table, Permutation (all_groups cats) table /\ StronglySorted (fun a b => fst (fst b) <= fst (fst a)) table /\
      get_group_catalogue little fs qsort dir num fuel g = Ok (zlen (all_groups cats), gs table (drop (List.length table) g)).
  Proof.
    intros Hall Hne Hf Htot Hmax Hroom. set (all := all_groups cats) in *. set (table := qsort _ id_sort_groups all). destruct (Hsort _ id_sort_groups all groups_comparison) as [HP HS]. fold table in HP, HS.
    exists table. split; [exact HP|]. split.
    { clear -HS. induction HS as [|x l HS IH H]; constructor; [exact IH|]. eapply Forall_impl; [|exact H]. intros y Hy. unfold id_sort_groups in Hy. destruct (Z.ltb_spec (fst (fst y)) (fst (fst x))), (Z.ltb_spec (fst (fst x)) (fst (fst y))); lia. }
    destruct cats as [|cat rest] eqn:EC; [congruence|]. rewrite <- EC in *. destruct (open_tab 0 cat) as (content & extra & H1 & H2); [now rewrite EC|]. change (Z.of_nat 0) with 0 in H1.
    unfold get_group_catalogue. rewrite H1. rewrite (header_ok little cat extra content H2). cbn [bind tab_head NTask TotNgroups].
    assert (signed (scalar cat "NTask") = n) as ET by (unfold all_files_say in Hn; rewrite Forall_forall in Hn; apply Hn; rewrite EC; now left). rewrite ET.
    assert (groups_from 0 cats = all) as EA by (unfold all; rewrite EC; reflexivity).
    assert (exists f', fuel = (List.length cats + S f')%nat) as (f' & ->) by (exists (fuel - S (List.length cats))%nat; lia).
    pose proof (catalogue_steps cats [] (S f') (signed (scalar cat "TotNgroups")) [] g eq_refl) as L. change (zlen (@nil catalogue)) with 0 in L. change (zlen (@nil (Z * Z * Z))) with 0 in L. rewrite EA in L.
    assert (gs [] g = g) as E0 by (now destruct g). rewrite E0 in L. specialize (L Hroom ltac:(lia)). rewrite L. cbn [catalogue_loop]. replace (zlen cats <? n) with false by lia. cbn [bind app]. rewrite (last_tot_ok (zlen all)) by (assumption || (rewrite EC; discriminate)).
    assert (zlen all = zlen (lens all) /\ zlen all = zlen (files all) /\ zlen all = zlen (nrs all)) as (Z1 & Z2 & Z3) by (unfold lens, files, nrs, zlen; rewrite !map_length; tauto).
    cbn [gs g_len g_file g_nr]. pose proof (zlen_nonneg all) as P. rewrite !rd_range_ok by (rewrite ?zlen_app; unfold zlen in *; lia). cbn [bind]. rewrite !Z.add_0_l. 
    assert (forall r, zslice (lens all ++ r) 0 (zlen all) = lens all) as S1 by (intro r; rewrite Z1; apply zslice_front).
    assert (forall r, zslice (files all ++ r) 0 (zlen all) = files all) as S2 by (intro r; rewrite Z2; apply zslice_front).
    assert (forall r, zslice (nrs all ++ r) 0 (zlen all) = nrs all) as S3 by (intro r; rewrite Z3; apply zslice_front).
    rewrite S1, S2, S3. cbv zeta. rewrite combine_back. fold table. fold (lens table) (files table). change (map snd table) with (nrs table).
    assert (List.length table = List.length all) as LT by (symmetry; now apply Permutation_length).
    assert (List.length (lens table) = List.length (lens all) /\ List.length (files table) = List.length (files all) /\ List.length (nrs table) = List.length (nrs all)) as (K1 & K2 & K3) by (unfold lens, files, nrs; rewrite !map_length; tauto).
    rewrite wr_range_ok by (rewrite ?zlen_app; unfold zlen in *; lia). cbn [bind]. rewrite wr_range_ok by (rewrite ?zlen_app; unfold zlen in *; lia). cbn [bind]. rewrite wr_range_ok by (rewrite ?zlen_app; unfold zlen in *; lia). cbn [bind].
    rewrite !write_front by assumption. rewrite LT. reflexivity.
  Qed.

  (** a missing file *)
  Lemma first_missing : file_is fs dir (lit "group_tab") num 0 None ->
    get_total_number_of_groups little fs dir num = Ok (-1) /\ get_minimum_group_len little fs dir num = Ok (-1) /\
    (forall fuel junk counts ids, get_groupcount_below_minimum_len little fs dir num fuel junk counts ids = Ok {| b_ret := -1; b_count := counts; b_ids := ids |}) /\
    (forall fuel g, get_group_catalogue little fs qsort dir num fuel g = Ok (-1, g)).
  Proof.
    intro H. assert (fopen fs (tab_name dir num 0) = None) as E by (rewrite tab_name_eq; now rewrite (fopen_name fs dir (lit "group_tab") num 0 None) by (lia || assumption)).
    unfold get_total_number_of_groups, get_minimum_group_len, get_groupcount_below_minimum_len, get_group_catalogue. now rewrite E.
  Qed.

  Lemma later_missing g fuel : cats <> [] -> zlen cats < n -> (List.length cats < fuel)%nat -> file_is fs dir (lit "group_tab") num (zlen cats) None -> room (zlen (all_groups cats)) g -> zlen (all_groups cats) < 2 ^ 31 ->
    exists g', get_group_catalogue little fs qsort dir num fuel g = Ok (-1, g').
  Proof.
    intros Hne Hlt Hf HM Hroom Hmax. eexists. destruct cats as [|cat rest] eqn:EC; [congruence|]. rewrite <- EC in *. destruct (open_tab 0 cat) as (content & extra & H1 & H2); [now rewrite EC|]. change (Z.of_nat 0) with 0 in H1.
    unfold get_group_catalogue. rewrite H1. rewrite (header_ok little cat extra content H2). cbn [bind tab_head NTask TotNgroups].
    assert (signed (scalar cat "NTask") = n) as ET by (unfold all_files_say in Hn; rewrite Forall_forall in Hn; apply Hn; rewrite EC; now left). rewrite ET.
    assert (exists f', fuel = (List.length cats + S f')%nat) as (f' & ->) by (exists (fuel - S (List.length cats))%nat; lia).
    pose proof (catalogue_steps cats [] (S f') (signed (scalar cat "TotNgroups")) [] g eq_refl) as L. change (zlen (@nil catalogue)) with 0 in L. change (zlen (@nil (Z * Z * Z))) with 0 in L.
    assert (groups_from 0 cats = all_groups cats) as EA by reflexivity. rewrite EA in L.
    assert (gs [] g = g) as E0 by (now destruct g). rewrite E0 in L. specialize (L Hroom ltac:(lia)). rewrite L. cbn [catalogue_loop]. replace (zlen cats <? n) with true by lia.
    rewrite tab_name_eq. pose proof (zlen_nonneg cats). rewrite (fopen_name fs dir (lit "group_tab") num (zlen cats) None) by (lia || assumption). reflexivity.
  Qed.

  (** *** groups below the minimum length *)
  Definition count_of (cat : catalogue) (k : Z) : Z := nth (Z.to_nat k) (map signed (cat "Count"%string)) 0.
  Definition sums (l : list catalogue) (m : Z) : list Z := map (fun k => sumZ (map (fun cat => count_of cat k) l)) (zseq 0 (Z.to_nat m)).
  Definition last_min (l : list catalogue) (m : Z) : Z := fold_left (fun _ cat => scalar cat "GroupMinLen") l m.
  Lemma count_past cat extra content k : catalogue_file little L2_group_tab cat extra content -> scalar cat "GroupMinLen" <= k -> count_of cat k = 0.
  Proof. intros H Hk. destruct (tab_counts little cat extra content H) as (_ & C & _ & _ & E). unfold count_of. apply nth_overflow. rewrite map_length. unfold zlen in E. lia. Qed.
  Lemma add_front (m : Z) (l : list Z) c f : 0 <= zlen l <= m -> (forall k, 0 <= k < zlen l -> c k = nth (Z.to_nat k) l 0) -> (forall k, zlen l <= k -> c k = 0) ->
    map (fun '(a, b) => a + b) (combine (zslice (map f (zseq 0 (Z.to_nat m))) 0 (zlen l)) l) ++ skipn (List.length l) (map f (zseq 0 (Z.to_nat m))) = map (fun k => f k + c k) (zseq 0 (Z.to_nat m)).
  Proof.
    intros Hl H1 H2. replace (Z.to_nat m) with (List.length l + (Z.to_nat m - List.length l))%nat by (unfold zlen in Hl; lia). set (r := (Z.to_nat m - List.length l)%nat). rewrite zseq_app, !map_app.
    replace (skipn (List.length l) (map f (zseq 0 (List.length l)) ++ map f (zseq (0 + Z.of_nat (List.length l)) r))) with (map f (zseq (0 + Z.of_nat (List.length l)) r)).
    2: { assert (List.length (map f (zseq 0 (List.length l))) = List.length l) as EL by (now rewrite map_length, zseq_length). rewrite skipn_app. rewrite skipn_all2 by lia. rewrite EL, Nat.sub_diag. reflexivity. }
    f_equal.
    - replace (zlen l) with (zlen (map f (zseq 0 (List.length l)))) by (unfold zlen; now rewrite map_length, zseq_length). rewrite zslice_front.
      assert (forall l a, (forall k, 0 <= k < zlen l -> c (a + k) = nth (Z.to_nat k) l 0) -> map (fun '(x, y) => x + y) (combine (map f (zseq a (List.length l))) l) = map (fun k => f k + c k) (zseq a (List.length l))) as G.
      { clear. induction l as [|x l IH]; intros a H; [reflexivity|]. cbn [List.length zseq map combine]. rewrite zlen_cons in H. pose proof (zlen_nonneg l). f_equal.
        - specialize (H 0 ltac:(lia)). rewrite Z.add_0_r in H. rewrite H. reflexivity.
        - apply IH. intros k Hk. replace (a + 1 + k) with (a + (k + 1)) by lia. rewrite H by lia. replace (Z.to_nat (k + 1)) with (S (Z.to_nat k)) by lia. reflexivity. }
      apply G. intros k Hk. rewrite Z.add_0_l. now apply H1.
    - apply map_ext_in. intros k Hk. apply In_zseq in Hk. rewrite (H2 k) by (unfold zlen; lia). lia.
  Qed.
  Lemma below_steps m l : forall a fuel mlen buffer rest ids0, cats = a ++ l -> zlen buffer = m -> Forall (fun cat => scalar cat "GroupMinLen" <= m) cats -> 0 <= m ->
    exists buffer', zlen buffer' = m /\
    below_loop little fs dir num (List.length l + fuel) (zlen a) n mlen (all_ids a) buffer (sums a m ++ rest) ids0 =
    below_loop little fs dir num fuel (zlen cats) n (last_min l mlen) (all_ids cats) buffer' (sums cats m ++ rest) ids0.
  Proof.
    induction l as [|cat l IH]; intros a fuel mlen buffer rest ids0 E Hb Hm H0.
    - exists buffer. split; [exact Hb|]. rewrite E, app_nil_r. reflexivity.
    - cbn [List.length Nat.add below_loop].
      assert (zlen a < n) as Hlt by (rewrite E, zlen_app, zlen_cons in Hlen; pose proof (zlen_nonneg l); lia). replace (zlen a <? n) with true by lia.
      assert (nth_error cats (List.length a) = Some cat) as En by (rewrite E, nth_error_app2, Nat.sub_diag by lia; reflexivity).
      destruct (open_tab _ _ En) as (content & extra & H1 & H2). change (Z.of_nat (List.length a)) with (zlen a) in H1. rewrite H1.
      rewrite (min_len_ok little cat extra content H2). cbn [bind]. destruct (counts_ok little cat extra content H2) as (fd & EF). rewrite EF. cbn [bind].
      destruct (tab_counts little cat extra content H2) as (_ & C1 & _ & _ & C2).
      assert (scalar cat "GroupMinLen" <= m) as Cm by (rewrite Forall_forall in Hm; apply Hm; rewrite E; apply in_or_app; right; now left).
      set (c := map signed (cat "Count"%string)). assert (zlen c = scalar cat "GroupMinLen") as Ec by (unfold c, zlen; rewrite map_length; exact C2).
      assert (zlen (sums a m) = m) as Es by (unfold sums, zlen; rewrite map_length, zseq_length; lia).
      rewrite wr_range_ok by lia. cbn [bind]. rewrite rd_range_ok by (rewrite ?zlen_app; pose proof (zlen_nonneg rest); lia). cbn [bind].
      assert (exists b2, write_at buffer 0 c = c ++ b2 /\ zlen (c ++ b2) = m) as (b2 & -> & Eb).
      { exists (skipn (List.length c) buffer). split; [reflexivity|]. unfold zlen in *. rewrite app_length, skipn_length. lia. }
      rewrite rd_range_ok by lia. cbn [bind]. rewrite !Z.add_0_l. assert (zslice (c ++ b2) 0 (scalar cat "GroupMinLen") = c) as -> by (rewrite <- Ec; apply zslice_front).
      rewrite zslice_prefix by lia.
      set (new := map (fun '(x, y) => x + y) (combine (zslice (sums a m) 0 (scalar cat "GroupMinLen")) c)).
      assert (List.length new = List.length c) as Ln by (unfold new; rewrite map_length, combine_length; pose proof (zlen_zslice (sums a m) 0 (scalar cat "GroupMinLen") ltac:(lia) ltac:(lia) ltac:(lia)); unfold zlen in *; lia).
      rewrite wr_range_ok by (rewrite ?zlen_app; pose proof (zlen_nonneg rest); unfold zlen in *; lia). cbn [bind tab_head NTask Nids].
      assert (signed (scalar cat "NTask") = n) as ET by (unfold all_files_say in Hn; rewrite Forall_forall in Hn; apply Hn; rewrite E; apply in_or_app; right; now left). rewrite ET.
      replace (zlen a + 1) with (zlen (a ++ [cat])) by (rewrite zlen_app; reflexivity).
      assert (all_ids a + signed (scalar cat "Nids") = all_ids (a ++ [cat])) as -> by (unfold all_ids; rewrite map_app, sumZ_app; unfold sumZ; cbn [map fold_right]; lia).
      assert (write_at (sums a m ++ rest) 0 new = sums (a ++ [cat]) m ++ rest) as ->.
      { unfold write_at. cbn [Z.to_nat firstn app Nat.add]. rewrite Ln, skipn_app.
        replace (List.length c - List.length (sums a m))%nat with 0%nat by (unfold zlen in *; lia). cbn [skipn]. rewrite app_assoc. f_equal. unfold new. rewrite <- Ec. unfold sums at 1 2. rewrite (add_front m c (count_of cat)).
        - unfold sums. apply map_ext. intro k. rewrite map_app, sumZ_app. unfold sumZ. cbn [map fold_right]. lia.
        - pose proof (zlen_nonneg c). lia.
        - intros k Hk. reflexivity.
        - intros k Hk. apply (count_past cat extra content); [exact H2 | lia]. }
      apply IH; [rewrite E, <- app_assoc; reflexivity | exact Eb | exact Hm | exact H0].
  Qed.
  Lemma below_start cat rest f' junk counts ids0 : cats = cat :: rest -> Forall (fun c => scalar c "GroupMinLen" <= scalar cat "GroupMinLen") cats -> scalar cat "GroupMinLen" <= zlen counts ->
    exists buffer', get_groupcount_below_minimum_len little fs dir num (List.length cats + S f') junk counts ids0 =
    below_loop little fs dir num (S f') (zlen cats) n (last_min cats 0) (all_ids cats) buffer' (sums cats (scalar cat "GroupMinLen") ++ skipn (Z.to_nat (scalar cat "GroupMinLen")) counts) ids0.
  Proof.
    intros EC Hm Hc. destruct (open_tab 0 cat) as (content & extra & H1 & H2); [now rewrite EC|]. change (Z.of_nat 0) with 0 in H1.
    unfold get_groupcount_below_minimum_len. rewrite H1. rewrite (min_len_ok little cat extra content H2). cbn [bind]. destruct (tab_counts little cat extra content H2) as (_ & C1 & _).
    set (m := scalar cat "GroupMinLen") in *. replace (0 <=? m) with true by lia. cbn [check bind]. assert (zlen (repeat 0 (Z.to_nat m)) = m) as Er by (unfold zlen; rewrite repeat_length; lia). rewrite wr_range_ok by lia. cbn [bind tab_head NTask].
    assert (signed (scalar cat "NTask") = n) as ET by (unfold all_files_say in Hn; rewrite Forall_forall in Hn; apply Hn; rewrite EC; now left). rewrite ET.
    assert (write_at counts 0 (repeat 0 (Z.to_nat m)) = sums [] m ++ skipn (Z.to_nat m) counts) as ->.
    { unfold write_at. cbn [Z.to_nat firstn app Nat.add]. rewrite repeat_length. f_equal. unfold sums. cbn [map]. change (sumZ []) with 0. generalize (Z.to_nat m) as k. intro k. assert (forall a, repeat 0 k = map (fun _ : Z => 0) (zseq a k)) as G; [|apply G]. induction k as [|k IHk]; intro a; [reflexivity|]. cbn [repeat zseq map]. f_equal. apply IHk. }
    destruct (below_steps m cats [] (S f') m (repeat junk (Z.to_nat m)) (skipn (Z.to_nat m) counts) ids0 eq_refl) as (b' & _ & L); [unfold zlen; rewrite repeat_length; lia | exact Hm | lia|].
    change (zlen (@nil catalogue)) with 0 in L. change (all_ids []) with 0 in L. exists b'. rewrite L.
    assert (last_min cats m = last_min cats 0) as -> by (rewrite EC; reflexivity). reflexivity.
  Qed.
  Lemma below_ok cat rest fuel junk counts ids0 : zlen cats = n -> cats = cat :: rest -> (List.length cats < fuel)%nat -> Forall (fun c => scalar c "GroupMinLen" <= scalar cat "GroupMinLen") cats -> scalar cat "GroupMinLen" <= zlen counts ->
    get_groupcount_below_minimum_len little fs dir num fuel junk counts ids0 =
    Ok {| b_ret := last_min cats 0; b_count := sums cats (scalar cat "GroupMinLen") ++ skipn (Z.to_nat (scalar cat "GroupMinLen")) counts; b_ids := all_ids cats |}.
  Proof.
    intros Hall EC Hf Hm Hc. assert (exists f', fuel = (List.length cats + S f')%nat) as (f' & ->) by (exists (fuel - S (List.length cats))%nat; lia).
    destruct (below_start cat rest f' junk counts ids0 EC Hm Hc) as (b' & ->). cbn [below_loop]. replace (zlen cats <? n) with false by lia. reflexivity.
  Qed.
  Lemma below_missing cat rest fuel junk counts ids0 : zlen cats < n -> cats = cat :: rest -> (List.length cats < fuel)%nat -> Forall (fun c => scalar c "GroupMinLen" <= scalar cat "GroupMinLen") cats -> scalar cat "GroupMinLen" <= zlen counts ->
    file_is fs dir (lit "group_tab") num (zlen cats) None ->
    exists counts', get_groupcount_below_minimum_len little fs dir num fuel junk counts ids0 = Ok {| b_ret := -1; b_count := counts'; b_ids := ids0 |}.
  Proof.
    intros Hlt EC Hf Hm Hc HM. assert (exists f', fuel = (List.length cats + S f')%nat) as (f' & ->) by (exists (fuel - S (List.length cats))%nat; lia).
    destruct (below_start cat rest f' junk counts ids0 EC Hm Hc) as (b' & ->). eexists. cbn [below_loop]. replace (zlen cats <? n) with true by lia.
    rewrite tab_name_eq. pose proof (zlen_nonneg cats). rewrite (fopen_name fs dir (lit "group_tab") num (zlen cats) None) by (lia || assumption). reflexivity.
  Qed.
End All.
