(** Group ordered snapshots from the bytes of the files: the two classes. *)
From Coq Require Import Ascii String.
From Verif Require Import Base.Prelude Base.ListLemmas Base.NdArray Binary.BinModel Binary.NameProofs Formats.ReaderModel Formats.FileSpec Formats.CatSpec Formats.CatFinal.
From Verif Require Import Multi.MultiModel Multi.GroupCatModel Multi.GroupCatSpec Multi.GroupCatProofs Multi.GroupCatFinal Snap.ReadModel Snap.ReadSpec Snap.ReadFinal Snap.FofFinal Snap.OrderedModel Snap.OrderedSpec Snap.OrderedProofs.
From Coq Require Import ZifyBool ZifyNat.
Local Open Scope Z_scope.
Local Open Scope list_scope.

Lemma in_all_range cs name size : (forall c, In c cs -> Forall (fun v => 0 <= v < 256 ^ size) (c name)) -> Forall (fun v => 0 <= v < 256 ^ size) (in_all cs name).
Proof. unfold in_all. induction cs as [|c cs IH]; intro H; cbn [map concat]; [constructor|]. apply Forall_app. split; [apply H; now left | apply IH; intros; apply H; now right]. Qed.
Lemma in_all_len cs name (n : catalogue -> Z) : (forall c, In c cs -> zlen (c name) = n c) -> zlen (in_all cs name) = sumZ (map n cs).
Proof. unfold in_all. induction cs as [|c cs IH]; intro H; cbn [map concat sumZ]; [reflexivity|]. rewrite zlen_app, IH by (intros; apply H; now right). f_equal. apply H. now left. Qed.
Lemma zlen_map {A B} (f : A -> B) l : zlen (map f l) = zlen l.
Proof. unfold zlen. now rewrite map_length. Qed.
Lemma col_piece c count name size l : consistent c l -> In (col count name size) l -> zlen (c name) = scalar c count /\ Forall (fun v => 0 <= v < 256 ^ size) (c name).
Proof. intros Hc Hin. destruct (consistent_piece c _ l Hc Hin) as (_ & _ & H1 & H2). split; [|exact H2]. cbn in H1. rewrite H1. now destruct (scalar c count). Qed.
Lemma vec_piece c count n name size l : consistent c l -> In (vec count n name size) l -> zlen (c name) = scalar c count * n /\ Forall (fun v => 0 <= v < 256 ^ size) (c name).
Proof. intros Hc Hin. destruct (consistent_piece c _ l Hc Hin) as (_ & _ & H1 & H2). split; [|exact H2]. cbn in H1. rewrite H1. now destruct (scalar c count), n. Qed.

(** *** P-Gadget3 *)
Section P3.
  Variables (little : bool) (tabs snaps : Z -> option (list Z)) (so : bool) (id fl : Z) (cs : list catalogue) (ss : list snapfile).
  Hypothesis Hid : id_size id.
  Hypothesis Hfl : id_size fl.
  Hypothesis Hcs : Forall (fun c => consistent c (P3_sub_tab so id fl) /\ 1 <= scalar c "NTask" <= 65535) cs.
  Hypothesis Hnt : option_map (fun c => scalar c "NTask") (hd_error cs) = Some (zlen cs).
  Hypothesis Htabs : stored tabs (fun c => pieces_of c (P3_sub_tab so id fl)) cs.
  Hypothesis Hss : Forall sn_ok ss.
  Hypothesis Hns : option_map (fun s => scalar (sn_cat s) "Header/NumFilesPerSnapshot") (hd_error ss) = Some (zlen ss).
  Hypothesis Hls : zlen ss < 2 ^ 31.
  Hypothesis Hsnaps : snaps_stored snaps ss.
  Definition four : list string := ["GroupLen"; "GroupOffset"; "SubLen"; "SubOffset"]%string.
  Lemma four_ok n : In n four -> In (named (P3_sub_tab so id fl) n) (P3_sub_tab so id fl) /\ is_column (named (P3_sub_tab so id fl) n) /\ fd_name (named (P3_sub_tab so id fl) n) = n.
  Proof using.
    clear. intro H. destruct (p3_default_ok so id fl) as [_ D]. destruct (D n) as [D1 D2].
    { unfold p3_datasets. apply in_or_app. left. cbn in H. cbn. intuition. }
    split; [exact D1|]. split; [exact D2|]. unfold named in *. destruct (List.find _ _) as [fd|] eqn:E; [|destruct D2 as (? & ? & ?); discriminate]. apply find_some in E. destruct E as [_ E]. now apply String.eqb_eq in E.
  Qed.
  Lemma four_col n : In n four -> In (col (if existsb (String.eqb n) ["GroupLen"; "GroupOffset"]%string then "Ngroups" else "Nsubgroups") n 4) (P3_sub_tab so id fl).
  Proof using. clear. intro H. unfold P3_sub_tab. cbn in H. destruct H as [<-|[<-|[<-|[<-|[]]]]]; cbn [existsb String.eqb Ascii.eqb Bool.eqb orb]; apply in_or_app; [left | left | right | right]; try (apply in_or_app; right); repeat (first [left; reflexivity | right]). Qed.
  Lemma four_range n : In n four -> Forall (fun v => 0 <= v < 256 ^ 4) (in_all cs n).
  Proof using Hcs. intro H. apply in_all_range. intros c Hc. rewrite Forall_forall in Hcs. destruct (Hcs c Hc) as [C _]. now apply (col_piece c _ n 4 _ C (four_col n H)). Qed.
  Theorem p3_opens : p3_init little tabs snaps so id fl =
    Ok {| o_GroupLen := map int32 (in_all cs "GroupLen"); o_GroupOffset := in_all cs "GroupOffset"; o_SubLen := map int32 (in_all cs "SubLen"); o_SubOffset := map int32 (in_all cs "SubOffset"); o_nfiles := zlen ss |}.
  Proof using All.
    unfold p3_init. fold four. rewrite (p3_catalogue little tabs cs so id fl Hid Hfl Hcs Hnt Htabs (Some four)); [|apply distinct_b_ok; reflexivity | intros n Hn; now destruct (four_ok n Hn) as (? & ? & _)].
    cbn [bind]. assert (forall n, In n four -> data (whole_array cs (named (P3_sub_tab so id fl) n)) = in_all cs n) as D. { intros n Hn. unfold whole_array. cbn [data]. destruct (four_ok n Hn) as (_ & _ & ->). reflexivity. }
    unfold cat_array, four. cbn [map List.find fst].
    repeat match goal with |- context [str_eqb ?a ?b] => let v := eval vm_compute in (str_eqb a b) in change (str_eqb a b) with v end. cbn [bind].
    rewrite !D by (cbn; tauto). rewrite (all_number little snaps ss Hss Hsnaps Hns Hls). cbn [bind]. rewrite !signed_ints by (apply four_range; cbn; tauto). reflexivity.
  Qed.
  Lemma four_len n : In n four -> zlen (in_all cs n) = sumZ (map (fun c => scalar c (if existsb (String.eqb n) ["GroupLen"; "GroupOffset"]%string then "Ngroups" else "Nsubgroups")) cs).
  Proof using Hcs. intro H. apply in_all_len. intros c Hc. rewrite Forall_forall in Hcs. destruct (Hcs c Hc) as [C _]. now apply (col_piece c _ n 4 _ C (four_col n H)). Qed.
  Lemma nth_int32 l g : 0 <= g < zlen l -> nth (Z.to_nat g) (map int32 l) 0 = int32 (nth (Z.to_nat g) l 0).
  Proof using. clear. intro H. change 0 with (int32 0) at 1. apply map_nth. Qed.

  Theorem p3_whole : exists o fs, p3_init little tabs snaps so id fl = Ok o /\ snap_list little snaps (o_nfiles o) = Ok fs /\
    forall calls names, (forall c, In c calls -> NoDup (snd c) /\ incl (snd c) three) -> NoDup names -> incl names three ->
    (forall g, 0 <= g < zlen (in_all cs "GroupLen") ->
       let off := nth (Z.to_nat g) (in_all cs "GroupOffset") 0 in let len := int32 (nth (Z.to_nat g) (in_all cs "GroupLen") 0) in
       0 < len -> off + len <= all_count ss 1 ->
       snd (p3_read_fof_group fs (range_history fs calls) (o_GroupOffset o) (o_GroupLen o) g names) = Ok (map (fun n => (n, zslice (all_rows ss 1 n) off (off + len))) names)) /\
    (forall g, 0 <= g < zlen (in_all cs "SubLen") ->
       let off := int32 (nth (Z.to_nat g) (in_all cs "SubOffset") 0) in let len := int32 (nth (Z.to_nat g) (in_all cs "SubLen") 0) in
       0 <= off -> 0 < len -> off + len <= all_count ss 1 -> off + len <= 2 ^ 31 ->
       snd (p3_read_subfind_group fs (range_history fs calls) (o_SubOffset o) (o_SubLen o) g names) = Ok (map (fun n => (n, zslice (all_rows ss 1 n) off (off + len))) names)).
  Proof using All.
    rewrite p3_opens. destruct (all_snaps little snaps ss Hss Hsnaps) as (xs & E1 & E2 & E3 & E4). eexists. exists (map f_file xs). split; [reflexivity|]. cbn [o_nfiles o_GroupOffset o_GroupLen o_SubOffset o_SubLen]. split; [exact E1|].
    set (ys := map (fun x : @finfo (list Z) => (f_file x, f_rows x 1, f_n x 1)) xs). assert (map f_file xs = map i_file ys) as Ef by (unfold ys; rewrite map_map; reflexivity).
    assert (Forall (info_ok three) ys) as Hys. { unfold ys. apply Forall_forall. intros y Hy. apply in_map_iff in Hy. destruct Hy as (x & <- & Hx). rewrite Forall_forall in E2. destruct (E2 x Hx) as [_ H]. apply (H 1). cbn. tauto. }
    assert (total ys = all_count ss 1) as Et. { unfold total, all_count, ys. transitivity (sumZ (map (fun n : Z -> Z => n 1) (map f_n xs))); [now rewrite !map_map | now rewrite E4, map_map]. }
    assert (forall n, whole (map i_rows ys) n = all_rows ss 1 n) as Ew. { intro n. unfold whole, all_rows, ys. transitivity (concat (map (fun g : Z -> string -> list (list Z) => g 1 n) (map f_rows xs))); [now rewrite !map_map | now rewrite E3, map_map]. }
    rewrite Ef. intros calls names Hc Hn Hi. split.
    - intros g Hg. set (off := nth (Z.to_nat g) (in_all cs "GroupOffset") 0). set (len := int32 (nth (Z.to_nat g) (in_all cs "GroupLen") 0)). intros Hlen Hend. pose proof (four_len "GroupLen" ltac:(cbn; tauto)) as L1. pose proof (four_len "GroupOffset" ltac:(cbn; tauto)) as L2. cbn [existsb String.eqb Ascii.eqb Bool.eqb orb] in L1, L2.
      pose proof (rr_fof three names ys calls Hys Hc Hn Hi (in_all cs "GroupOffset") (map int32 (in_all cs "GroupLen")) g) as T. rewrite zlen_map, nth_int32 in T by exact Hg. fold off len in T. rewrite T; [now apply f_equal, map_ext; intro n; rewrite Ew | lia | lia | | exact Hlen | now rewrite Et].
      pose proof (four_range "GroupOffset" ltac:(cbn; tauto)) as R. rewrite Forall_forall in R. apply R. apply nth_In. unfold zlen in *. lia.
    - intros g Hg. set (off := int32 (nth (Z.to_nat g) (in_all cs "SubOffset") 0)). set (len := int32 (nth (Z.to_nat g) (in_all cs "SubLen") 0)). intros Hoff Hlen Hend H31. pose proof (four_len "SubLen" ltac:(cbn; tauto)) as L1. pose proof (four_len "SubOffset" ltac:(cbn; tauto)) as L2. cbn [existsb String.eqb Ascii.eqb Bool.eqb orb] in L1, L2.
      pose proof (rr_sub three names ys calls Hys Hc Hn Hi (map int32 (in_all cs "SubOffset")) (map int32 (in_all cs "SubLen")) g) as T. rewrite !zlen_map, !nth_int32 in T by (exact Hg || lia). fold off len in T. rewrite T; [now apply f_equal, map_ext; intro n; rewrite Ew | lia | lia | exact Hoff | exact Hlen | now rewrite Et | exact H31].
  Qed.
End P3.

(** *** Gadget-4 *)
Section G4.
  Variables (id fl : Z).
  Hypothesis Hid : id_size id.
  Definition LenType := vec "Ngroups" 6 "GroupLenType" 4.
  Definition Nsubs := col "Ngroups" "Nsubs" 4.
  Definition FirstSub := col "Ngroups" "FirstSub" 4.
  Definition SubLenType := vec "Nsubgroups" 6 "SubLenType" 4.
  Lemma in_groups fd : fd = LenType \/ fd = Nsubs \/ fd = FirstSub -> In fd (G4_groups fl).
  Proof using. clear. intros [->|[->| ->]]; unfold G4_groups; repeat (first [left; reflexivity | right]). Qed.
  Lemma in_subs : In SubLenType (G4_subs id fl).
  Proof using. clear. unfold G4_subs. repeat (first [left; reflexivity | right]). Qed.
  Definition part (c : catalogue) (fd : field) : list (nd Z) := if 0 <? rows_in fd c then [file_array c fd] else [].
  Definition parts (cs : list catalogue) (fd : field) : list (nd Z) := flat_map (fun c => part c fd) cs.
  Lemma parts_ok cs fd : Forall (g4_ok id fl) cs -> In fd (g4_columns id fl) ->
    Forall (fun x => nd_ok x /\ exists n, shape x = n :: row_shape fd) (parts cs fd) /\
    list_sum (map (fun x => nth 0 (shape x) 0%nat) (parts cs fd)) = Z.to_nat (sumZ (map (rows_in fd) cs)) /\ flat_map data (parts cs fd) = in_all cs (fd_name fd) /\
    0 <= sumZ (map (rows_in fd) cs) /\ (parts cs fd = [] <-> sumZ (map (rows_in fd) cs) = 0).
  Proof using.
    clear Hid. intros Hcs Hfd. pose proof (g4_column id fl fd Hfd) as Hcol. induction Hcs as [|c cs Hc Hcs IH]; [cbn; repeat split; try constructor; lia|]. destruct IH as (I1 & I2 & I3 & I4 & I5).
    destruct (g4_case id fl c fd Hc Hfd) as (C1 & C2 & C3). unfold parts in *. cbn [flat_map map sumZ]. unfold in_all in *. cbn [map concat]. unfold part at 1 3 5 7. destruct (Z.ltb_spec 0 (rows_in fd c)) as [Hp|Hp].
    - destruct (C1 Hp) as [_ Hpo]. pose proof (column_shape c fd Hcol) as Hsh. cbn [app map list_sum fold_right flat_map]. fold (list_sum (map (fun x : nd Z => nth 0 (shape x) 0%nat) (flat_map (fun c => part c fd) cs))).
      split; [constructor; [split; [now apply file_array_ok | eauto] | exact I1]|]. split; [rewrite I2, Hsh; cbn [nth]; lia|]. split; [now rewrite I3|]. split; [lia|]. split; [discriminate | lia].
    - assert (rows_in fd c = 0) as E0 by lia. destruct (C2 E0) as (_ & Hn & _). rewrite E0, Hn. cbn [app]. repeat (split; [assumption|]). exact I5.
  Qed.
  Lemma concat_parts cs fd : Forall (g4_ok id fl) cs -> In fd (g4_columns id fl) -> 0 < sumZ (map (rows_in fd) cs) -> np_concatenate (Some 0) (parts cs fd) = Ok (whole_array cs fd).
  Proof using.
    clear Hid. intros Hcs Hfd Hp. destruct (parts_ok cs fd Hcs Hfd) as (I1 & I2 & I3 & I4 & I5). rewrite (concat_first _ (row_shape fd)); [|intro E; apply I5 in E; lia | exact I1]. unfold whole_array. now rewrite I2, I3.
  Qed.
  Lemma concat_none cs fd : Forall (g4_ok id fl) cs -> In fd (g4_columns id fl) -> sumZ (map (rows_in fd) cs) = 0 -> np_concatenate (Some 0) (parts cs fd) = Err EValue.
  Proof using. clear Hid. intros Hcs Hfd Hp. destruct (parts_ok cs fd Hcs Hfd) as (_ & _ & _ & _ & I5). rewrite (proj2 I5 Hp). reflexivity. Qed.

  Variables (little : bool) (tabs snaps : Z -> option (list Z)) (cs : list catalogue) (ss : list snapfile).
  Hypothesis Hcs : Forall (g4_ok id fl) cs.
  Hypothesis Hnf : option_map (fun c => scalar c "NFiles") (hd_error cs) = Some (zlen cs).
  Hypothesis Hlen : zlen cs < 2 ^ 31.
  Hypothesis Htabs : stored tabs (G4_sub_tab id) cs.
  Definition tables_of (c : catalogue) : tables :=
    {| t_nfof := scalar c "Ngroups"; t_lentype := part c LenType; t_nsubs := part c Nsubs; t_firstsub := part c FirstSub; t_sublentype := part c SubLenType |}.
  Lemma header_one c name : g4_ok id fl c -> In (one name 4) G4_header -> In (Data (nm name) false 4 [] [scalar c name]) (G4_sub_tab id c).
  Proof using.
    clear. intros (_ & H1 & _) Hin. unfold G4_sub_tab. cbv zeta. apply in_or_app. left. right. apply in_or_app. left. apply one_piece; [|exact Hin]. apply consistent_sub with (1 := H1). intros x Hx. apply in_or_app. now left.
  Qed.
  Lemma i32_small v : 0 <= v < 2 ^ 31 -> i32 [v] = v.
  Proof using. clear. intro H. unfold i32, signed32. cbn [nth]. destruct (Z.leb_spec (2 ^ 31) v); lia. Qed.
  Lemma entry_there f c fd : g4_ok id fl c -> In fd (g4_columns id fl) -> 0 < rows_in fd c ->
    (forall name size sh vals, In (Data name false size sh vals) (G4_sub_tab id c) -> f name = Some (Ok {| shape := map Z.to_nat sh; data := vals |})) -> entry_of f (fd_name fd) = Ok (file_array c fd).
  Proof using. clear. intros Hc Hfd Hp Hf. destruct (g4_case id fl c fd Hc Hfd) as (C1 & _). destruct (C1 Hp) as [Hin _]. unfold entry_of. now rewrite (Hf (nm (fd_name fd)) _ _ _ Hin). Qed.
  Lemma tables_read f c : g4_ok id fl c ->
    (forall name size sh vals, In (Data name false size sh vals) (G4_sub_tab id c) -> f name = Some (Ok {| shape := map Z.to_nat sh; data := vals |})) -> read_tables f = Ok (tables_of c).
  Proof using.
    clear. intros Hc Hf. assert (forall name, In (one name 4) G4_header -> entry_of f name = Ok {| shape := []; data := [scalar c name] |}) as Hh. { intros name Hn. unfold entry_of. now rewrite (Hf _ _ _ _ (header_one c name Hc Hn)). }
    pose proof (count_range id fl c "Ngroups" (proj1 (proj2 Hc)) (or_introl eq_refl)) as Rg. pose proof (count_range id fl c "Nsubgroups" (proj1 (proj2 Hc)) (or_intror eq_refl)) as Rs.
    unfold read_tables. rewrite (Hh "Ngroups"%string) by (repeat (first [left; reflexivity | right])). cbn [bind data]. cbv zeta. rewrite (Hh "Nsubgroups"%string) by (repeat (first [left; reflexivity | right])). cbn [bind data]. rewrite !i32_small by assumption. rewrite !Z.gtb_ltb.
    assert (forall fd, fd = LenType \/ fd = Nsubs \/ fd = FirstSub -> In fd (g4_columns id fl) /\ rows_in fd c = scalar c "Ngroups") as G. { intros fd Hfd. pose proof (in_groups fd Hfd) as Hi. split; [apply in_or_app; now left | now apply (groups_rows fl c fd)]. }
    assert (In SubLenType (g4_columns id fl)) as Gs by (apply in_or_app; right; exact in_subs).
    unfold tables_of, part. change (rows_in LenType c) with (scalar c "Ngroups"). change (rows_in Nsubs c) with (scalar c "Ngroups"). change (rows_in FirstSub c) with (scalar c "Ngroups"). change (rows_in SubLenType c) with (scalar c "Nsubgroups").
    assert ((if 0 <? scalar c "Ngroups" then do a <- entry_of f "GroupLenType"; do b <- entry_of f "Nsubs"; do c0 <- entry_of f "FirstSub"; Ok ([a], [b], [c0]) else Ok ([], [], [])) =
      Ok (if 0 <? scalar c "Ngroups" then [file_array c LenType] else [], if 0 <? scalar c "Ngroups" then [file_array c Nsubs] else [], if 0 <? scalar c "Ngroups" then [file_array c FirstSub] else [])) as E1.
    { destruct (Z.ltb_spec 0 (scalar c "Ngroups")) as [Hp|Hp]; [|reflexivity]. change "GroupLenType"%string with (fd_name LenType). change "Nsubs"%string with (fd_name Nsubs). change "FirstSub"%string with (fd_name FirstSub).
      rewrite (entry_there f c LenType Hc (proj1 (G LenType ltac:(tauto))) Hp Hf), (entry_there f c Nsubs Hc (proj1 (G Nsubs ltac:(tauto))) Hp Hf), (entry_there f c FirstSub Hc (proj1 (G FirstSub ltac:(tauto))) Hp Hf). reflexivity. }
    rewrite E1. cbn [bind]. destruct (Z.ltb_spec 0 (scalar c "Nsubgroups")) as [Hp|Hp]; [|reflexivity]. change "SubLenType"%string with (fd_name SubLenType). rewrite (entry_there f c SubLenType Hc Gs Hp Hf). reflexivity.
  Qed.
  Lemma nth_tables i c : nth_error cs i = Some c -> exists f, open_nr little tabs (gadget4_sub_tab id) (Z.of_nat i) = Ok f /\ read_tables f = Ok (tables_of c) /\
     entry_of f "NFiles" = Ok {| shape := []; data := [scalar c "NFiles"] |}.
  Proof using Hid Hcs Htabs.
    intro E. destruct (nth_file little tabs (gadget4_sub_tab id) (G4_sub_tab id) cs (fun c lf rest Hc => g4_opens id fl Hid little cs Hcs c lf rest Hc) Htabs i c E) as (f & E1 & E2 & _). exists f. split; [exact E1|].
    pose proof (proj1 (Forall_forall _ _) Hcs c (nth_error_In _ _ E)) as Hc. split; [now apply tables_read|]. unfold entry_of. rewrite (E2 _ _ _ _ (header_one c "NFiles" Hc ltac:(repeat (first [left; reflexivity | right])))). reflexivity.
  Qed.
  Lemma all_tables : exists f c0 cs', cs = c0 :: cs' /\ open_nr little tabs (gadget4_sub_tab id) 0 = Ok f /\ entry_of f "NFiles" = Ok {| shape := []; data := [zlen cs] |} /\ read_tables f = Ok (tables_of c0) /\
    mapM (fun i => do f <- open_nr little tabs (gadget4_sub_tab id) i; read_tables f) (zseq 1 (Z.to_nat (zlen cs - 1))) = Ok (map tables_of cs').
  Proof using Hid Hcs Htabs Hnf.
    clear Hlen snaps. pose proof nth_tables as T. destruct cs as [|c0 cs'] eqn:E; [discriminate|]. cbn [hd_error option_map] in Hnf. injection Hnf as N. destruct (T 0%nat c0 eq_refl) as (f & E1 & E2 & E3). rewrite N in E3. exists f, c0, cs'. repeat (split; [reflexivity || assumption|]).
    replace (Z.to_nat (zlen (c0 :: cs') - 1)) with (List.length cs') by (unfold zlen; cbn [List.length]; lia).
    assert (forall l a, (forall i c, nth_error l i = Some c -> exists f, open_nr little tabs (gadget4_sub_tab id) (a + Z.of_nat i) = Ok f /\ read_tables f = Ok (tables_of c)) ->
      mapM (fun i => do f <- open_nr little tabs (gadget4_sub_tab id) i; read_tables f) (zseq a (List.length l)) = Ok (map tables_of l)) as K.
    { clear. induction l as [|c l IH]; intros a H; [reflexivity|]. cbn [List.length zseq mapM map]. destruct (H 0%nat c eq_refl) as (f & E1 & E2). rewrite Z.add_0_r in E1. rewrite E1. cbn [bind]. rewrite E2. cbn [bind]. rewrite (IH (a + 1)); [reflexivity|]. intros i c' Hi. destruct (H (S i) c' Hi) as (f' & E1' & E2'). exists f'. split; [|exact E2']. rewrite <- E1'. f_equal. lia. }
    apply K. intros i c Hi. destruct (T (S i) c Hi) as (f' & E1' & E2' & _). exists f'. split; [|exact E2']. rewrite <- E1'. f_equal. lia.
  Qed.
  Lemma flat_tables (g : tables -> list (nd Z)) fd c0 cs' : (forall c, g (tables_of c) = part c fd) -> flat_map g (tables_of c0 :: map tables_of cs') = parts (c0 :: cs') fd.
  Proof using. clear. intro H. unfold parts. cbn [flat_map]. rewrite H. f_equal. induction cs' as [|c l IH]; [reflexivity|]. cbn [map flat_map]. now rewrite H, IH. Qed.
  Lemma groups_in fd : fd = LenType \/ fd = Nsubs \/ fd = FirstSub -> In fd (g4_columns id fl).
  Proof using. clear. intro H. apply in_or_app. left. now apply in_groups. Qed.
  Lemma subs_in : In SubLenType (g4_columns id fl).
  Proof using. clear. apply in_or_app. right. exact in_subs. Qed.
  (** no groups, or no subhalos *)
  Theorem g4_opens_not : sumZ (map (fun c => scalar c "Ngroups") cs) = 0 \/ sumZ (map (fun c => scalar c "Nsubgroups") cs) = 0 -> g4_init little tabs snaps id = Err EValue.
  Proof using Hid Hcs Htabs Hnf Hlen.
    intro Hz. destruct all_tables as (f & c0 & cs' & E & E1 & E2 & E3 & E4). unfold g4_init. rewrite E1. cbn [bind]. rewrite E2. cbn [bind data]. cbv zeta. assert (1 <= zlen cs) as H1 by (rewrite E; unfold zlen; cbn [List.length]; lia). rewrite i32_small by lia. rewrite E3. cbn [bind]. unfold check at 1 2. replace (0 <=? zlen cs) with true by lia. replace (0 <? zlen cs) with true by lia. cbn [bind]. rewrite E4. cbn [bind].
    rewrite (flat_tables t_lentype LenType) by reflexivity. rewrite (flat_tables t_nsubs Nsubs) by reflexivity. rewrite (flat_tables t_firstsub FirstSub) by reflexivity. rewrite (flat_tables t_sublentype SubLenType) by reflexivity. rewrite <- E.
    destruct (parts_ok cs LenType Hcs (groups_in LenType ltac:(tauto))) as (_ & _ & _ & P & _). change (rows_in LenType) with (fun c => scalar c "Ngroups") in P.
    destruct (Z.eq_dec (sumZ (map (fun c => scalar c "Ngroups") cs)) 0) as [Hg|Hg].
    - now rewrite (concat_none cs LenType Hcs (groups_in LenType ltac:(tauto)) Hg).
    - assert (0 < sumZ (map (fun c => scalar c "Ngroups") cs)) as Hp by lia. rewrite (concat_parts cs LenType Hcs (groups_in LenType ltac:(tauto)) Hp), (concat_parts cs Nsubs Hcs (groups_in Nsubs ltac:(tauto)) Hp), (concat_parts cs FirstSub Hcs (groups_in FirstSub ltac:(tauto)) Hp). cbn [bind].
      destruct Hz as [Hz|Hz]; [contradiction|]. now rewrite (concat_none cs SubLenType Hcs subs_in Hz).
  Qed.
  Hypothesis Hss : Forall sn_ok ss.
  Hypothesis Hns : option_map (fun s => scalar (sn_cat s) "Header/NumFilesPerSnapshot") (hd_error ss) = Some (zlen ss).
  Hypothesis Hls : zlen ss < 2 ^ 31.
  Hypothesis Hsnaps : snaps_stored snaps ss.
  Lemma column_range fd : In fd (g4_columns id fl) -> fd_size fd = 4 -> Forall (fun v => 0 <= v < 256 ^ 4) (in_all cs (fd_name fd)).
  Proof using Hcs.
    intros Hfd Hsz. apply in_all_range. intros c Hc. destruct (proj1 (Forall_forall _ _) Hcs c Hc) as (_ & H & _). destruct (consistent_piece c fd _ H ltac:(apply in_or_app; right; exact Hfd)) as (_ & _ & _ & R). now rewrite Hsz in R.
  Qed.
  Theorem g4_opens_all : 0 < sumZ (map (fun c => scalar c "Ngroups") cs) -> 0 < sumZ (map (fun c => scalar c "Nsubgroups") cs) -> g4_init little tabs snaps id = Ok (the_fofcat cs, zlen ss).
  Proof using All.
    intros Hg Hs. destruct all_tables as (f & c0 & cs' & E & E1 & E2 & E3 & E4). unfold g4_init. rewrite E1. cbn [bind]. rewrite E2. cbn [bind data]. cbv zeta. assert (1 <= zlen cs) as H1 by (rewrite E; unfold zlen; cbn [List.length]; lia). rewrite i32_small by lia. rewrite E3. cbn [bind]. unfold check at 1 2. replace (0 <=? zlen cs) with true by lia. replace (0 <? zlen cs) with true by lia. cbn [bind]. rewrite E4. cbn [bind].
    rewrite (flat_tables t_lentype LenType) by reflexivity. rewrite (flat_tables t_nsubs Nsubs) by reflexivity. rewrite (flat_tables t_firstsub FirstSub) by reflexivity. rewrite (flat_tables t_sublentype SubLenType) by reflexivity. rewrite <- E.
    rewrite (concat_parts cs LenType Hcs (groups_in LenType ltac:(tauto)) Hg), (concat_parts cs Nsubs Hcs (groups_in Nsubs ltac:(tauto)) Hg), (concat_parts cs FirstSub Hcs (groups_in FirstSub ltac:(tauto)) Hg), (concat_parts cs SubLenType Hcs subs_in Hs). cbn [bind].
    rewrite (all_number little snaps ss Hss Hsnaps Hns Hls). cbn [bind]. f_equal. f_equal. unfold the_fofcat.
    rewrite (rows_cut (whole_array cs LenType) (Z.to_nat (sumZ (map (fun c => scalar c "Ngroups") cs))) [6%nat] eq_refl), (rows_cut (whole_array cs SubLenType) (Z.to_nat (sumZ (map (fun c => scalar c "Nsubgroups") cs))) [6%nat] eq_refl), !cut_map. cbn [whole_array data].
    fold (in_all cs (fd_name LenType)) (in_all cs (fd_name Nsubs)) (in_all cs (fd_name FirstSub)) (in_all cs (fd_name SubLenType)).
    rewrite !signed_ints by (apply column_range; [apply groups_in; tauto || exact subs_in || exact subs_in | reflexivity] || (apply column_range; [exact subs_in | reflexivity])).
    f_equal. rewrite E. cbn [map t_nfof tables_of]. f_equal. rewrite map_map. reflexivity.
  Qed.
  Theorem g4_whole : 0 < sumZ (map (fun c => scalar c "Ngroups") cs) -> 0 < sumZ (map (fun c => scalar c "Nsubgroups") cs) -> cat_ok (the_fofcat cs) ->
    exists fs, g4_init little tabs snaps id = Ok (the_fofcat cs, zlen ss) /\ snap_list little snaps (zlen ss) = Ok fs /\
    let c := the_fofcat cs in
    (forall calls i, 0 <= i < zlen (foflentype c) ->
       (forall t, In t types -> group_start c i t + group_len c i t <= all_count ss t) ->
       (forall j, (0 < j < List.length ss)%nat -> (forall t, In t types -> group_start c i t + group_len c i t - 1 <= all_count (firstn j ss) t) ->
          forall t, In t types -> 0 < group_len c i t -> all_count (firstn j ss) t <> group_start c i t + group_len c i t - 1) ->
       exists out, snd (g4_read_fof_group c fs (fof_history c fs calls) (GrNr i)) = Ok out /\ Forall2 (type_complete c (map sn_rows ss) i) types out) /\
    (forall calls i, 0 <= i < zlen (foflentype c) ->
       (forall t, In t types -> group_start c i t + group_len c i t <= all_count ss t) ->
       (exists out, snd (g4_read_fof_group c fs (fof_history c fs calls) (GrNr i)) = Ok out /\ Forall2 (type_short c (map sn_rows ss) i) types out) \/
       snd (g4_read_fof_group c fs (fof_history c fs calls) (GrNr i)) = Err EValue) /\
    (forall calls f k, (f < List.length cs)%nat -> g4_read_fof_group c fs (fof_history c fs calls) (GrPair (Z.of_nat f) k) =
       g4_read_fof_group c fs (fof_history c fs calls) (GrNr (sumZ (firstn f (map (fun c => scalar c "Ngroups") cs)) + k))).
  Proof using All.
    intros Hg Hs Hok. destruct (all_snaps little snaps ss Hss Hsnaps) as (xs & E1 & E2 & E3 & E4). exists (map f_file xs). split; [now apply g4_opens_all|]. split; [exact E1|]. cbv zeta. set (c := the_fofcat cs) in *.
    assert (forall j t, tot (firstn j xs) t = all_count (firstn j ss) t) as Et. { intros j t. unfold tot, all_count. transitivity (sumZ (map (fun n : Z -> Z => n t) (map f_n (firstn j xs)))); [now rewrite map_map|]. rewrite <- firstn_map, E4, firstn_map, map_map. reflexivity. }
    assert (List.length xs = List.length ss) as El. { rewrite <- (map_length f_n xs), E4. apply map_length. }
    assert (forall t, tot xs t = all_count ss t) as Ea. { intro t. specialize (Et (List.length ss) t). rewrite firstn_all in Et. rewrite <- El, firstn_all in Et. exact Et. }
    rewrite <- E3. split; [|split].
    - intros calls i Hi Hin Hb. apply g4_complete; [exact Hok | exact E2 | exact Hi | intros t Ht; rewrite Ea; now apply Hin |]. intros j Hj Hr t Ht. rewrite Et. apply Hb; [lia | intros t' Ht'; rewrite <- Et; now apply Hr | exact Ht].
    - intros calls i Hi Hin. apply g4_short; [exact Hok | exact E2 | exact Hi | intros t Ht; rewrite Ea; now apply Hin].
    - intros calls f k Hf. apply (g4_pair c xs calls f k). unfold c, the_fofcat. cbn [nfof_file]. now rewrite map_length.
  Qed.
End G4.
