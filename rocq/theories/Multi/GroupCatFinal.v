(** GroupCatalogue for the two formats. *)
From Coq Require Import Ascii String.
From Verif Require Import Base.Prelude Base.ListLemmas Base.Order Base.NdArray Binary.BinModel Binary.NameProofs Formats.ReaderModel Formats.FileSpec Formats.CatSpec Formats.ReaderProofs Formats.CatFinal.
From Verif Require Import Multi.MultiModel Multi.MultiSpec Multi.GroupCatModel Multi.GroupCatSpec Multi.GroupCatProofs.
From Coq Require Import ZifyBool ZifyNat.
Local Open Scope Z_scope.
Local Open Scope list_scope.

Lemma in_data c fd l : In fd l -> In (data_of c fd) (pieces_of c l).
Proof. intro H. now apply in_map. Qed.
Lemma consistent_piece c fd l : consistent c l -> In fd l -> piece_ok (data_of c fd).
Proof. intros [H _] Hi. rewrite Forall_forall in H. apply H. now apply in_data. Qed.
Lemma consistent_sub c l m : consistent c m -> incl l m -> consistent c l.
Proof. unfold consistent, pieces_of. intros [H1 H2] Hi. rewrite !Forall_forall in *. split; [|auto]. intros q Hq. apply H1. apply in_map_iff in Hq. destruct Hq as (fd & <- & Hq). apply in_map_iff. eauto. Qed.
Lemma one_piece c name l : consistent c l -> In (one name 4) l -> In (Data (nm name) false 4 [] [scalar c name]) (pieces_of c l).
Proof. intros H Hi. destruct (one_value c name 4 (consistent_piece c _ l H Hi)) as [E _]. rewrite <- E. exact (in_data c _ l Hi). Qed.

Theorem plain_catalogue little files p nf l cs cols : reads p nf l -> Forall (fun c => consistent c l /\ 1 <= scalar c nf <= 65535) cs ->
  option_map (fun c => scalar c nf) (hd_error cs) = Some (zlen cs) -> stored files (fun c => pieces_of c l) cs ->
  NoDup (map fd_name cols) -> (forall fd, In fd cols -> In fd l /\ is_column fd) ->
  group_catalogue little files p nf (map (fun fd => nm (fd_name fd)) cols) = Ok (map (fun fd => (nm (fd_name fd), CArr (whole_array cs fd))) cols, zseq 0 (List.length cs)).
Proof.
  intros R C N S D I. rewrite Forall_forall in C. destruct (hd_error cs) as [c0|] eqn:E0; [|discriminate]. cbn [option_map] in N. injection N as N.
  assert (In c0 cs) as H0 by (destruct cs; [discriminate | injection E0 as ->; now left]).
  apply (catalogue_whole little files p nf (fun c => pieces_of c l) cs cols).
  - intros c lf rest Hc. destruct (C c Hc). now apply (catalogue_opens p nf l).
  - exact S.
  - destruct (C c0 H0). lia.
  - exists c0, 4. split; [exact E0|]. rewrite <- N. apply one_piece; [now apply C | now apply nfiles_in with (p := p)].
  - intros fd Hfd. now apply I.
  - exact D.
  - intros c fd Hc Hfd. left. split; [apply in_data | apply consistent_piece with (l := l)]; try apply I; try apply C; assumption.
  - intros fd Hfd. exists c0. split; [exact H0|]. split; [apply in_data | apply consistent_piece with (l := l)]; try apply I; try apply C; assumption.
Qed.
Lemma named_cols l names : Forall (fun n => existsb (fun fd => String.eqb (fd_name fd) n) l = true) names -> map (fun n => nm n) names = map (fun fd => nm (fd_name fd)) (map (named l) names) /\ map fd_name (map (named l) names) = names /\ incl (map (named l) names) l.
Proof.
  intro H. assert (forall n, In n names -> fd_name (named l n) = n /\ In (named l n) l) as K.
  { intros n Hn. rewrite Forall_forall in H. specialize (H n Hn). unfold named. destruct (List.find (fun fd => String.eqb (fd_name fd) n) l) as [fd|] eqn:E.
    - apply find_some in E. destruct E as [E1 E2]. apply String.eqb_eq in E2. auto.
    - exfalso. apply existsb_exists in H. destruct H as (fd & H1 & H2). pose proof (find_none _ _ E fd H1) as H3. cbn in H3. congruence. }
  clear H. induction names as [|n names IH]; [repeat split; intros x []|]. destruct IH as (I1 & I2 & I3). { intros m Hm. apply K. now right. }
  destruct (K n) as [K1 K2]; [now left|]. cbn [map]. split; [now rewrite K1, I1|]. split; [now rewrite K1, I2|]. intros x [<-|Hx]; auto.
Qed.
Definition column_b (fd : field) : bool := match fd_dims fd with Of _ :: d => forallb (fun d => match d with Fixed _ => true | Of _ => false end) d | _ => false end.
Lemma column_b_ok fd : column_b fd = true -> is_column fd.
Proof.
  unfold column_b, is_column. destruct (fd_dims fd) as [|[n|count] d]; try discriminate. intro H. exists count, (map (fun d => match d with Fixed n => n | Of _ => 0 end) d). f_equal. rewrite map_map. rewrite forallb_forall in H. rewrite <- (map_id d) at 1. apply map_ext_in. intros x Hx. specialize (H x Hx). destruct x; [reflexivity | discriminate].
Qed.
Definition distinct_b (l : list string) : bool := (fix go l := match l with [] => true | x :: l' => negb (existsb (String.eqb x) l') && go l' end) l.
Lemma distinct_b_ok l : distinct_b l = true -> NoDup l.
Proof. induction l as [|x l IH]; intro H; constructor; cbn in H; apply andb_true_iff in H; destruct H as [H1 H2]; [|now apply IH]. intro Hi. apply negb_true_iff in H1. rewrite <- not_true_iff_false in H1. apply H1. apply existsb_exists. exists x. split; [exact Hi | apply String.eqb_refl]. Qed.

Theorem p3_catalogue little files cs so id fl : id_size id -> id_size fl -> Forall (fun c => consistent c (P3_sub_tab so id fl) /\ 1 <= scalar c "NTask" <= 65535) cs ->
  option_map (fun c => scalar c "NTask") (hd_error cs) = Some (zlen cs) -> stored files (fun c => pieces_of c (P3_sub_tab so id fl)) cs ->
  forall datasets, let names := match datasets with None => p3_datasets so | Some l => l end in
  NoDup names -> (forall n, In n names -> In (named (P3_sub_tab so id fl) n) (P3_sub_tab so id fl) /\ is_column (named (P3_sub_tab so id fl) n)) ->
  p3_group_catalogue little files datasets so id fl = Ok (map (fun n => (nm n, CArr (whole_array cs (named (P3_sub_tab so id fl) n)))) names, zseq 0 (List.length cs)).
Proof.
  intros Hid Hfl C N S datasets names D I. set (l := P3_sub_tab so id fl) in *.
  assert (forall n, In (named l n) l -> is_column (named l n) -> fd_name (named l n) = n) as Kn.
  { intros n _ (count & dims & Hc). unfold named in *. destruct (List.find _ l) as [fd|] eqn:E; [|discriminate]. apply find_some in E. destruct E as [_ E]. now apply String.eqb_eq in E. }
  pose proof (plain_catalogue little files _ _ l cs (map (named l) names) (r_P3_sub_tab so id fl Hid Hfl) C N S) as T.
  assert (map fd_name (map (named l) names) = names) as E. { rewrite map_map. rewrite <- (map_id names) at 2. apply map_ext_in. intros n Hn. now apply Kn; apply I. }
  rewrite E in T. specialize (T D). unfold p3_group_catalogue, names_or. fold names.
  assert (map nm names = map (fun fd => nm (fd_name fd)) (map (named l) names)) as E2. { rewrite map_map. apply map_ext_in. intros n Hn. now rewrite Kn by now apply I. }
  rewrite E2, T.
  - f_equal. f_equal. rewrite map_map. apply map_ext_in. intros n Hn. now rewrite Kn by now apply I.
  - intros fd Hfd. apply in_map_iff in Hfd. destruct Hfd as (n & <- & Hn). now apply I.
Qed.
(** the default list *)
Lemma p3_default_ok so id fl : NoDup (p3_datasets so) /\ forall n, In n (p3_datasets so) -> In (named (P3_sub_tab so id fl) n) (P3_sub_tab so id fl) /\ is_column (named (P3_sub_tab so id fl) n).
Proof.
  split; [apply distinct_b_ok; destruct so; vm_compute; reflexivity|]. intros n Hn. destruct (named_cols (P3_sub_tab so id fl) [n]) as (_ & _ & K).
  - constructor; [|constructor]. destruct so; cbn in Hn; repeat (destruct Hn as [<-|Hn]; [reflexivity|]); contradiction.
  - split; [apply K; now left|]. apply column_b_ok. destruct so; cbn in Hn; repeat (destruct Hn as [<-|Hn]; [reflexivity|]); contradiction.
Qed.

Lemma p3_default_complete so id fl fd : In fd (P3_sub_tab so id fl) -> is_column fd -> In (fd_name fd) (p3_datasets so).
Proof.
  intros Hin (count & dims & Hd). destruct so; cbn in Hin; repeat (destruct Hin as [<-|Hin]; [first [discriminate Hd | clear; cbn; tauto]|]); contradiction.
Qed.

(** *** Gadget-4 *)
Definition group_names : list string := map fd_name (G4_groups 4).
Definition sub_names : list string := map fd_name (G4_subs 4 4).
Definition header_names : list string := map fd_name G4_header.
Lemma no_prefix (mine others : list string) : forallb (fun a => forallb (fun b => negb (prefixb (keys (nm a)) (keys (nm b)))) others) mine = true ->
  forall a b t, In a mine -> In b others -> keys (nm b) <> keys (nm a) ++ t.
Proof.
  intros H a b t Ha Hb E. rewrite forallb_forall in H. specialize (H a Ha). rewrite forallb_forall in H. specialize (H b Hb). apply negb_true_iff in H. rewrite <- not_true_iff_false in H. apply H. apply prefixb_iff. now exists t.
Qed.
Lemma in_record full is_attr size sh vals l : In (Data full is_attr size sh vals) (record l) -> In (Data full is_attr size sh vals) l.
Proof. unfold record. intros [H|H]; [discriminate|]. apply in_app_or in H. destruct H as [H|[H|[]]]; [exact H | discriminate]. Qed.
Lemma in_each full is_attr size sh vals l : In (Data full is_attr size sh vals) (one_each l) -> In (Data full is_attr size sh vals) l.
Proof. unfold one_each. intro H. apply in_flat_map in H. destruct H as (q & Hq & H). apply in_record in H. destruct H as [<-|[]]. exact Hq. Qed.
Lemma in_names full is_attr size sh vals c l : In (Data full is_attr size sh vals) (pieces_of c l) -> exists n, In n (map fd_name l) /\ full = nm n.
Proof. intro H. apply in_map_iff in H. destruct H as (fd & E & H). unfold data_of in E. injection E as <- _ _ _ _. exists (fd_name fd). split; [now apply in_map | reflexivity]. Qed.
Lemma data_in_record c fd l : In fd l -> In (data_of c fd) (record (pieces_of c l)).
Proof. intro H. right. apply in_or_app. left. now apply in_data. Qed.
Lemma data_in_each c fd l : In fd l -> In (data_of c fd) (one_each (pieces_of c l)).
Proof. intro H. apply in_flat_map. exists (data_of c fd). split; [now apply in_data | right; now left]. Qed.

Section G4.
  Variables (id fl : Z).
  Hypothesis Hid : id_size id.
  Definition g4_columns : list field := G4_groups fl ++ G4_subs id fl.
  Lemma g4_column fd : In fd g4_columns -> is_column fd.
  Proof using. intro H. apply column_b_ok. unfold g4_columns in H. apply in_app_or in H. destruct H as [H|H]; cbn in H; repeat (destruct H as [<-|H]; [reflexivity|]); contradiction. Qed.
  Lemma groups_rows c fd : In fd (G4_groups fl) -> rows_in fd c = scalar c "Ngroups".
  Proof using. intro H. cbn in H. repeat (destruct H as [<-|H]; [reflexivity|]); contradiction. Qed.
  Lemma subs_rows c fd : In fd (G4_subs id fl) -> rows_in fd c = scalar c "Nsubgroups".
  Proof using. intro H. cbn in H. repeat (destruct H as [<-|H]; [reflexivity|]); contradiction. Qed.
  Lemma count_range c name : consistent c (G4_header ++ G4_groups fl ++ G4_subs id fl) -> name = "Ngroups"%string \/ name = "Nsubgroups"%string -> 0 <= scalar c name < 2 ^ 31.
  Proof using.
    intros [_ H] E. rewrite Forall_forall in H. destruct E as [->| ->].
    - specialize (H (col "Ngroups" "GroupLen" 4) ltac:(apply in_or_app; right; apply in_or_app; left; now left)). now apply Forall_cons_iff in H.
    - specialize (H (col "Nsubgroups" "SubLen" 4) ltac:(apply in_or_app; right; apply in_or_app; right; now left)). now apply Forall_cons_iff in H.
  Qed.
  Lemma no_rows c fd : piece_ok (data_of c fd) -> is_column fd -> rows_in fd c = 0 -> c (fd_name fd) = [].
  Proof using.
    intros (_ & _ & Hl & _) (count & dims & E) Hr. unfold rows_in in Hr. rewrite E in *. cbn [map Formats.CatSpec.extent fold_left] in Hl. rewrite Hr in Hl.
    assert (forall l, fold_left Z.mul l (1 * 0) = 0) as F by (change (1 * 0) with 0; induction l as [|z l IH]; cbn; [reflexivity | exact IH]). rewrite F in Hl. destruct (c (fd_name fd)); [reflexivity|]. unfold zlen in Hl. cbn in Hl. lia.
  Qed.
  Lemma g4_case c fd : g4_ok id fl c -> In fd g4_columns ->
    (0 < rows_in fd c -> there (G4_sub_tab id) c fd) /\ (rows_in fd c = 0 -> absent (G4_sub_tab id) c fd) /\ 0 <= rows_in fd c.
  Proof using.
    intros (Hf & Hc & _) Hin. pose proof (g4_column fd Hin) as Hcol. assert (piece_ok (data_of c fd)) as Hok. { apply consistent_piece with (1 := Hc). apply in_or_app. now right. }
    unfold g4_columns in Hin. unfold there, absent, G4_sub_tab, g4_float in *. rewrite Hf. cbv zeta. apply in_app_or in Hin. destruct Hin as [Hin|Hin].
    - rewrite (groups_rows c fd Hin) in *. pose proof (count_range c "Ngroups" Hc (or_introl eq_refl)) as Hr. split; [|split; [|lia]].
      + intro Hpos. replace (0 <? scalar c "Ngroups") with true by lia. split; [|exact Hok]. apply in_or_app. right. apply in_or_app. left. now apply data_in_each.
      + intro Hz. split; [exact Hz|]. split; [apply no_rows; [exact Hok | exact Hcol | now rewrite groups_rows]|]. replace (0 <? scalar c "Ngroups") with false by lia. cbn [app].
        intros full is_attr size sh vals t H. assert (exists n, In n (header_names ++ sub_names) /\ full = nm n) as (n & Hn & ->).
        { apply in_app_or in H. destruct H as [H|H]; [apply in_record, in_names in H; destruct H as (n & H & ->); exists n; split; [apply in_or_app; now left | reflexivity]|].
          destruct (0 <? scalar c "Nsubgroups"); [|contradiction]. apply in_each, in_names in H. destruct H as (n & H & ->). exists n. split; [apply in_or_app; right; exact H | reflexivity]. }
        apply (no_prefix group_names (header_names ++ sub_names)); [vm_compute; reflexivity | change group_names with (map fd_name (G4_groups fl)); now apply in_map | exact Hn].
    - rewrite (subs_rows c fd Hin) in *. pose proof (count_range c "Nsubgroups" Hc (or_intror eq_refl)) as Hr. split; [|split; [|lia]].
      + intro Hpos. replace (0 <? scalar c "Nsubgroups") with true by lia. split; [|exact Hok]. apply in_or_app. right. apply in_or_app. right. now apply data_in_each.
      + intro Hz. split; [exact Hz|]. split; [apply no_rows; [exact Hok | exact Hcol | now rewrite subs_rows]|]. replace (0 <? scalar c "Nsubgroups") with false by lia. rewrite app_nil_r.
        intros full is_attr size sh vals t H. assert (exists n, In n (header_names ++ group_names) /\ full = nm n) as (n & Hn & ->).
        { apply in_app_or in H. destruct H as [H|H]; [apply in_record, in_names in H; destruct H as (n & H & ->); exists n; split; [apply in_or_app; now left | reflexivity]|].
          destruct (0 <? scalar c "Ngroups"); [|contradiction]. apply in_each, in_names in H. destruct H as (n & H & ->). exists n. split; [apply in_or_app; right; exact H | reflexivity]. }
        apply (no_prefix sub_names (header_names ++ group_names)); [vm_compute; reflexivity | change sub_names with (map fd_name (G4_subs id fl)); now apply in_map | exact Hn].
  Qed.
  Variables (little : bool) (files : Z -> option (list Z)) (cs : list catalogue).
  Hypothesis Hok : Forall (g4_ok id fl) cs.
  Hypothesis Hnf : option_map (fun c => scalar c "NFiles") (hd_error cs) = Some (zlen cs).
  Hypothesis Hlen : zlen cs < 2 ^ 31.
  Hypothesis Hst : stored files (G4_sub_tab id) cs.
  Lemma g4_opens c lf rest : In c cs -> opens (gadget4_sub_tab id) (G4_sub_tab id c) little lf rest.
  Proof using Hid Hok.
    intro Hc. rewrite Forall_forall in Hok. destruct (Hok c Hc) as (_ & H1 & H2). apply gadget4_opens; [exact Hid | exact H2 | apply (count_range c "Ngroups" H1); now left | apply (count_range c "Nsubgroups" H1); now right].
  Qed.
  Lemma g4_first : exists c size, hd_error cs = Some c /\ In (Data (nm "NFiles") false size [] [zlen cs]) (G4_sub_tab id c).
  Proof using All.
    destruct (hd_error cs) as [c|] eqn:E; [|discriminate]. cbn [option_map] in Hnf. injection Hnf as N. exists c, 4. split; [reflexivity|]. assert (In c cs) as Hc by (destruct cs; [discriminate | injection E as ->; now left]).
    rewrite Forall_forall in Hok. destruct (Hok c Hc) as (_ & H1 & _). unfold G4_sub_tab. cbv zeta. apply in_or_app. left. right. apply in_or_app. left. rewrite <- N. apply one_piece; [|repeat (first [left; reflexivity | right])]. apply consistent_sub with (1 := H1). intros x Hx. apply in_or_app. now left.
  Qed.
  Lemma g4_in names : (forall n, In n names -> In (named g4_columns n) g4_columns) -> map nm names = map (fun fd => nm (fd_name fd)) (map (named g4_columns) names) /\ map fd_name (map (named g4_columns) names) = names.
  Proof using.
    intro H. destruct (named_cols g4_columns names) as (E1 & E2 & _); [|auto]. apply Forall_forall. intros n Hn. specialize (H n Hn). unfold named in H. destruct (List.find (fun fd => String.eqb (fd_name fd) n) g4_columns) as [fd|] eqn:E; [apply find_some in E; apply existsb_exists; eauto|]. exfalso. apply g4_column in H. destruct H as (count & dims & H). discriminate.
  Qed.
  Theorem g4_catalogue datasets : let names := match datasets with None => g4_datasets | Some l => l end in
    NoDup names -> (forall n, In n names -> In (named g4_columns n) g4_columns) ->
    (forall n, In n names -> 0 < sumZ (map (rows_in (named g4_columns n)) cs)) ->
    g4_group_catalogue little files id datasets = Ok (map (fun n => (nm n, CArr (whole_array cs (named g4_columns n)))) names, zseq 0 (List.length cs)).
  Proof using All.
    cbv zeta. set (names := match datasets with None => _ | Some l => l end). intros D I P. destruct (g4_in names I) as [E1 E2]. unfold g4_group_catalogue, names_or. fold names. rewrite E1. pose proof (proj1 (Forall_forall _ _) Hok) as Hok1.
    rewrite (catalogue_whole little files _ "NFiles" (G4_sub_tab id) cs (map (named g4_columns) names)).
    - unfold index. f_equal. f_equal. rewrite map_map. apply map_ext_in. intros n Hn. do 2 f_equal. rewrite map_map in E2. rewrite <- (map_id names) in E2 at 2. exact (ext_in_map E2 n Hn).
    - exact g4_opens.
    - exact Hst.
    - exact Hlen.
    - exact g4_first.
    - intros fd Hfd. apply in_map_iff in Hfd. destruct Hfd as (n & <- & Hn). now apply g4_column, I.
    - now rewrite E2.
    - intros c fd Hc Hfd. apply in_map_iff in Hfd. destruct Hfd as (n & <- & Hn). destruct (g4_case c _ (Hok1 c Hc) (I n Hn)) as (C1 & C2 & C3). destruct (Z.eq_dec (rows_in (named g4_columns n) c) 0); [right; auto | left; apply C1; lia].
    - intros fd Hfd. apply in_map_iff in Hfd. destruct Hfd as (n & <- & Hn). specialize (P n Hn).
      assert (forall l, (forall c, In c l -> In c cs) -> 0 < sumZ (map (rows_in (named g4_columns n)) l) -> exists c, In c l /\ 0 < rows_in (named g4_columns n) c) as F.
      { induction l as [|c l IH]; intros Hl Hp; cbn [map sumZ] in Hp; [lia|]. destruct (Z_lt_dec 0 (rows_in (named g4_columns n) c)) as [Hc|Hc]; [exists c; split; [now left | exact Hc]|]. destruct IH as (c' & H1 & H2); [intros; apply Hl; now right | lia | exists c'; split; [now right | exact H2]]. }
      destruct (F cs (fun _ H => H) P) as (c & Hc & Hp). exists c. split; [exact Hc|]. now apply (g4_case c _ (Hok1 c Hc) (I n Hn)).
  Qed.
  Theorem g4_empty datasets : let names := match datasets with None => g4_datasets | Some l => l end in
    NoDup names -> (forall n, In n names -> In (named g4_columns n) g4_columns) ->
    (exists n, In n names /\ sumZ (map (rows_in (named g4_columns n)) cs) = 0) ->
    g4_group_catalogue little files id datasets = Err EValue.
  Proof using All.
    cbv zeta. set (names := match datasets with None => _ | Some l => l end). intros D I (n & Hn & P). destruct (g4_in names I) as [E1 E2]. unfold g4_group_catalogue, names_or. fold names. rewrite E1. pose proof (proj1 (Forall_forall _ _) Hok) as Hok1.
    apply (catalogue_empty little files _ "NFiles" (G4_sub_tab id) cs (map (named g4_columns) names)) with (fd := named g4_columns n).
    - exact g4_opens.
    - exact Hst.
    - exact Hlen.
    - exact g4_first.
    - intros fd Hfd. apply in_map_iff in Hfd. destruct Hfd as (m & <- & Hm). now apply g4_column, I.
    - now rewrite E2.
    - intros c fd Hc Hfd. apply in_map_iff in Hfd. destruct Hfd as (m & <- & Hm). destruct (g4_case c _ (Hok1 c Hc) (I m Hm)) as (C1 & C2 & C3). destruct (Z.eq_dec (rows_in (named g4_columns m) c) 0); [right; auto | left; apply C1; lia].
    - apply in_map_iff. eauto.
    - assert (forall l, (forall c, In c l -> In c cs) -> sumZ (map (rows_in (named g4_columns n)) l) = 0 -> 0 <= sumZ (map (rows_in (named g4_columns n)) l) /\ forall c, In c l -> rows_in (named g4_columns n) c = 0) as F.
      { assert (forall l, (forall c, In c l -> In c cs) -> 0 <= sumZ (map (rows_in (named g4_columns n)) l)) as Pos.
        { induction l as [|c l IH]; intros Hl; cbn [map sumZ]; [lia|]. destruct (g4_case c _ (Hok1 c (Hl c (or_introl eq_refl))) (I n Hn)) as (_ & _ & C). specialize (IH (fun c' H => Hl c' (or_intror H))). lia. }
        induction l as [|c l IH]; intros Hl Hz; (split; [now apply Pos|]); [intros c []|]. cbn [map sumZ] in Hz. pose proof (Pos l (fun c' H => Hl c' (or_intror H))) as Pl. destruct (g4_case c _ (Hok1 c (Hl c (or_introl eq_refl))) (I n Hn)) as (_ & _ & C). intros c' [<-|Hc']; [lia|]. apply IH; [intros; apply Hl; now right | lia | exact Hc']. }
      intros c Hc. apply (g4_case c _ (Hok1 c Hc) (I n Hn)). now apply (F cs (fun _ H => H) P).
  Qed.
End G4.
Lemma g4_default_ok id fl : NoDup g4_datasets /\ forall n, In n g4_datasets -> In (named (g4_columns id fl) n) (g4_columns id fl).
Proof.
  split; [apply distinct_b_ok; vm_compute; reflexivity|]. intros n Hn. destruct (named_cols (g4_columns id fl) [n]) as (_ & _ & K); [|apply K; now left].
  constructor; [|constructor]. cbn in Hn. repeat (destruct Hn as [<-|Hn]; [reflexivity|]); contradiction.
Qed.
Lemma g4_default_complete id fl fd : In fd (g4_columns id fl) -> In (fd_name fd) g4_datasets.
Proof. intro Hin. cbn in Hin. repeat (destruct Hin as [<-|Hin]; [clear; cbn; tauto|]). contradiction. Qed.
