(** The IDL programs for groups: the programs which use the hash table, and the final lemmas. *)
From Coq Require Import QArith.
From Coq Require Import Ascii String.
From Coq Require Import Sorting.Permutation Sorting.Sorted.
From Verif Require Import Base.Prelude Base.ListLemmas Base.Order Binary.BinModel Formats.FileSpec Formats.CatSpec.
From Verif Require Import Text.StrModel Text.PathSpec Text.PathProofs Snap.ReadSpec Fortran.RegionSpec Fortran.GroupTabSpec Fortran.GroupTabProofs Fortran.FofSpec Index.IndexModel Fortran.RegionModel.
From Verif Require Import Idl.LibModel Idl.LibSpec Idl.SnapSpec Idl.GroupSpec Idl.StdioProofs Idl.NumberProofs Idl.TabProofs Idl.TabFinal Idl.SnapProofs Fortran.RegionProofs Idl.HashProofs Idl.HashFinal Idl.GroupFinal Idl.ProgSpec Idl.ProgModel Idl.ProgProofs.
From Coq Require Import ZifyBool ZifyNat.
Local Open Scope Z_scope. Local Open Scope list_scope.

Lemma subscript_nth {B} (l : list B) i x : 0 <= i -> nth_error l (Z.to_nat i) = Some x -> subscript l i = Ok x.
Proof.
  intros H E. unfold subscript. assert (Z.to_nat i < List.length l)%nat by (apply nth_error_Some; congruence). replace ((0 <=? i) && (i <? zlen l)) with true by (unfold zlen; lia). now rewrite E.
Qed.
Lemma zlen_zeros {B} (x : B) n : 0 <= n -> zlen (repeat x (Z.to_nat n)) = n.
Proof. intro. unfold zlen. rewrite repeat_length. lia. Qed.

Section Hash.
  Variable little : bool.
  Variable fs : str -> option (list Z).
  Variable qsort : forall A : Type, (A -> A -> Z) -> list A -> list A.
  Variable limit : Z.
  Variables basedir snapbase : str.
  Variable num : Z.
  Variable dir : str.
  Hypothesis Hdir : snapdir basedir num dir.
  Variable fuel : nat.
  Variables (nhash box : Z) (files : list (cellfile (list Z))).
  Hypothesis Hsnap : whole_snapshot little fs dir snapbase num nhash box files.
  Hypothesis Hfuel : (List.length files < fuel)%nat.
  Hypothesis Hlimit : nhash <= limit /\ zlen files <= limit.

  Lemma hash_ok : exists t, load_hash little fs limit basedir snapbase num fuel = Ok (nhash, zlen files, t) /\ holds files t.
  Proof using Hdir Hsnap Hfuel Hlimit.
    destruct Hsnap as (Hne & HF & HC & HS & H30 & Hh). destruct (dir_ok _ _ _ Hdir) as [Hnum ED]. unfold load_hash. rewrite ED.
    assert (0 < zlen files) as Hpos by (destruct files; [contradiction | rewrite zlen_cons; pose proof (zlen_nonneg l); lia]).
    destruct files as [|f rest] eqn:EF; [contradiction|]. rewrite (size_final little fs dir snapbase num (zlen (f :: rest)) nhash box f rest 0 Hnum HF) by lia. cbn [bind]. rewrite <- EF in *.
    rewrite ulong_small by lia. rewrite !lonarr_ok by lia. cbn [bind].
    pose proof (covers_len _ _ _ HC) as EN. rewrite Z.add_0_l in EN. change (cells_of files) with (cells files) in EN.
    rewrite (table_final little fs dir snapbase num nhash box files fuel) with (1 := Hnum) by (try assumption; try lia; try congruence; unfold room; cbn [Hashtable Filetable LastHashCell NInFiles]; rewrite !zlen_zeros by lia; repeat split; lia).
    cbn [bind]. eexists. split; [reflexivity|]. eexists _, _, _, _. cbn [Hashtable Filetable LastHashCell NInFiles]. repeat split; reflexivity.
  Qed.
  Lemma countable_ok : countable files.
  Proof using Hsnap.
    clear Hfuel Hlimit. destruct Hsnap as (_ & HF & _). apply Forall_forall. intros f Hf. apply In_nth_error in Hf as [i E]. destruct (HF i f E) as (cat & content & _ & (extra & _ & _ & _ & H & _) & _). cbn zeta in H. lia.
  Qed.
  Let per := nhash / zlen files.
  Let block p := concat (zslice (cells files) (p * per) ((p + 1) * per)).
  Lemma cubes_prog : zlen files <= 512 <= limit -> (forall p, 0 <= p < zlen files -> zlen (block p) < 2 ^ 31) ->
    getcubes little fs limit basedir snapbase num fuel = Ok (map (fun p => zlen (block p)) (zseq 0 (List.length files)) ++ repeat 0 (512 - List.length files)).
  Proof using Hdir Hsnap Hfuel Hlimit.
    intros HL HB. destruct hash_ok as (t & E & HH). unfold getcubes. rewrite E. cbn [bind fst snd]. rewrite lonarr_ok by lia. cbn [bind]. destruct Hsnap as (Hne & HF & HC & HS & H30 & Hh). rewrite long_small by lia.
    assert (0 < zlen files) as Hpos by (destruct files; [contradiction | rewrite zlen_cons; pose proof (zlen_nonneg l); lia]).
    rewrite (cubes_final files nhash (zlen files) t) by (try assumption; try apply countable_ok; try (rewrite zlen_zeros by lia); lia).
    fold per. do 2 f_equal; [unfold block; do 2 f_equal; unfold zlen; lia|]. rewrite <- (repeat_length 0 (512 - List.length files)) at 1. replace (Z.to_nat (zlen files)) with (List.length files) by (unfold zlen; lia). change (Z.to_nat 512) with 512%nat.
    replace 512%nat with (List.length files + (512 - List.length files))%nat at 1 by (unfold zlen in HL; lia). rewrite repeat_app. rewrite skipn_app, repeat_length, Nat.sub_diag. rewrite skipn_all2 by (rewrite repeat_length; lia). cbn [skipn app]. now rewrite repeat_length.
  Qed.
  Lemma cubes_room (f : Z -> list Z -> res Z) l tab r : foldM (fun tab p => do v <- f p tab; wr tab p v) l tab = Ok r -> Forall (fun p => p < zlen tab) l.
  Proof using.
    clear. revert tab. induction l as [|p l IH]; intros tab E; [constructor|]. cbn [foldM] in E. destruct (f p tab) as [v|e]; cbn [bind] in E; [|discriminate]. unfold wr in E. destruct ((0 <=? p) && (p <? zlen tab)) eqn:EP; cbn [bind] in E; [|discriminate].
    constructor; [lia|]. apply IH in E. replace (zlen tab) with (zlen (set_nth tab (Z.to_nat p) v)) by (unfold zlen; now rewrite set_nth_length). exact E.
  Qed.
  Lemma cubes_many r : 512 < zlen files -> getcubes little fs limit basedir snapbase num fuel <> Ok r.
  Proof using Hdir Hsnap Hfuel Hlimit.
    intros HL E. destruct hash_ok as (t & EH & HH). unfold getcubes in E. rewrite EH in E. cbn [bind fst snd] in E. destruct (lonarr limit 512) as [tab|e] eqn:ET; cbn [bind] in E; [|discriminate].
    assert (zlen tab = 512) as EL by (unfold lonarr, new in ET; destruct (0 <? 512); cbn [check bind] in ET; [|discriminate]; destruct (512 <=? limit); cbn [check bind] in ET; [|discriminate]; injection ET as <-; reflexivity).
    unfold get_particles_in_cubes in E. apply (cubes_room (fun proc _ => _)) in E. rewrite Forall_forall in E. specialize (E 512). rewrite In_zseq in E. lia.
  Qed.

  (** *** groups *)
  Variables value4 value8 : Z -> Q.
  Variable cats : list catalogue.
  Hypothesis Hsort : sorts qsort.
  Hypothesis Hcat : whole_catalogue little fs dir num cats.
  Hypothesis Hcfuel : (List.length cats < fuel)%nat.
  Hypothesis Hids : different_ids files.
  Hypothesis Hbox : (0 < value8 box)%Q.
  Hypothesis Hgood : good_groups little fs dir num files value4 (value8 box) cats.
  Let all := all_groups cats.
  Hypothesis Hall : 0 < zlen all <= limit.
  Hypothesis Hlen : forall group, In group all -> 3 * fst (fst group) <= limit.
  Hypothesis Hfuel2 : (2 <= fuel)%nat.

  Lemma file_number group : In group all -> 0 <= snd (fst group).
  Proof using.
    clear. unfold all, all_groups. intro H. apply in_concat in H as (l & Hl & H). apply in_map_iff in Hl as ([i cat] & <- & Hi). apply in_combine_l, In_zseq in Hi. apply in_map_iff in H as ([j len] & <- & _). cbn [fst snd]. lia.
  Qed.
  Lemma one_group table g n ns t box0 : by_length cats table -> g_len g = map (fun t => fst (fst t)) table -> g_file g = map (fun t => snd (fst t)) table -> g_nr g = map snd table ->
    0 <= n < zlen all -> holds files t -> exists r, shown little fs dir num files value4 (value8 box) table n r /\
    show_groups little fs qsort limit basedir snapbase num fuel value4 value8 g nhash t box0 (n :: ns) =
      do rest <- show_groups little fs qsort limit basedir snapbase num fuel value4 value8 g nhash {| Hashtable := Hashtable t; Filetable := Filetable t; LastHashCell := LastHashCell t; NInFiles := NInFiles t |} (value8 box) ns; Ok (r :: rest).
  Proof using All.
    intros [HP HS] E1 E2 E3 Hn HH. destruct (dir_ok _ _ _ Hdir) as [Hnum ED]. destruct Hsnap as (Hne & HF & HC & HSn & H30 & Hh). cbn [show_groups].
    assert (exists group, nth_error table (Z.to_nat n) = Some group) as [group EG].
    { destruct (nth_error table (Z.to_nat n)) as [x|] eqn:EX; [now exists x|]. apply nth_error_None in EX. apply Permutation_length in HP. fold all in HP. unfold zlen in Hn. lia. }
    assert (In group all) as HI by (apply (Permutation_in _ (Permutation_sym HP)), (nth_error_In _ _ EG)). pose proof (file_number _ HI) as Hfi.
    rewrite (subscript_nth _ n (snd (fst group))) by (try lia; rewrite E2; now apply (map_nth_error (fun t => snd (fst t)))).
    rewrite (subscript_nth _ n (snd group)) by (try lia; rewrite E3; now apply map_nth_error). rewrite (subscript_nth _ n (fst (fst group))) by (try lia; rewrite E1; now apply (map_nth_error (fun t => fst (fst t)))). cbn [bind].
    destruct (Hgood group HI) as (gids & members & HM & Hg1 & Hg2 & Hg3 & Hg4). destruct group as [[len filenr] nr]. destruct HM as (HM1 & HM2 & HM3). cbn [fst snd] in *.
    assert (0 < zlen gids) as Hpos by (destruct gids; [contradiction | rewrite zlen_cons; pose proof (zlen_nonneg gids); lia]).
    pose proof (Hlen _ HI) as HL. cbn [fst] in HL. unfold new. replace (0 <? 3 * len) with true by lia. replace (3 * len <=? limit) with true by lia. cbn [check bind]. rewrite ED, long_small by lia. rewrite <- HM2.
    destruct (group_final little fs qsort dir snapbase num (zlen files) nhash box files t value4 value8 nr filenr gids members fuel (repeat 0%Q (Z.to_nat (3 * zlen gids))) [0%Q; 0%Q; 0%Q] box0) as (sel & nw & cx & cy & cz & EC & C1 & C2 & C3 & C4 & C5); try assumption; [rewrite zlen_zeros by lia; lia|].
    rewrite EC. cbn [bind c_file c_box c_centre c_pos]. eexists. split; [|reflexivity]. exists (len, filenr, nr), gids, members, sel, nw, cx, cy, cz. split; [exact EG|]. split; [exact (conj HM1 (conj HM2 HM3))|]. split; [exact C1|]. split; [exact C2|]. split; [|exact (conj C3 (conj C4 C5))].
    cbn [fst]. rewrite skipn_all2 by (rewrite repeat_length; unfold zlen; lia). now rewrite app_nil_r, HM2.
  Qed.
  Lemma groups_shown table g ns : by_length cats table -> g_len g = map (fun t => fst (fst t)) table -> g_file g = map (fun t => snd (fst t)) table -> g_nr g = map snd table ->
    Forall (fun n => 0 <= n < zlen all) ns -> forall t box0, holds files t ->
    exists out, show_groups little fs qsort limit basedir snapbase num fuel value4 value8 g nhash t box0 ns = Ok out /\ Forall2 (shown little fs dir num files value4 (value8 box) table) ns out.
  Proof using All.
    intros HB E1 E2 E3. induction 1 as [|n ns Hn _ IH]; intros t box0 HH; [exists []; split; [reflexivity | constructor]|].
    destruct (one_group table g n ns t box0 HB E1 E2 E3 Hn HH) as (r & HR & ->). destruct (IH {| Hashtable := Hashtable t; Filetable := Filetable t; LastHashCell := LastHashCell t; NInFiles := NInFiles t |} (value8 box) HH) as (out & EO & HO).
    rewrite EO. exists (r :: out). split; [reflexivity | now constructor].
  Qed.
  Lemma groups_few table g ns : by_length cats table -> g_len g = map (fun t => fst (fst t)) table -> g_file g = map (fun t => snd (fst t)) table -> g_nr g = map snd table ->
    Forall (fun n => 0 <= n) ns -> Exists (fun n => zlen all <= n) ns -> forall t box0, holds files t ->
    show_groups little fs qsort limit basedir snapbase num fuel value4 value8 g nhash t box0 ns = Err EIndex.
  Proof using All.
    intros HB E1 E2 E3. induction 1 as [|n ns Hn _ IH]; intros HX t box0 HH; [inversion HX|]. destruct (Z_lt_ge_dec n (zlen all)) as [C|C].
    - destruct (one_group table g n ns t box0 HB E1 E2 E3 (conj Hn C) HH) as (r & HR & ->). rewrite IH; [reflexivity | | exact HH]. inversion HX; [lia | assumption].
    - cbn [show_groups]. rewrite subscript_out; [reflexivity|]. rewrite E2. unfold zlen. rewrite map_length. destruct HB as [HP _]. apply Permutation_length in HP. fold all in HP. rewrite <- HP. unfold zlen in C. lia.
  Qed.
  Lemma group_prog : 6 <= zlen all -> exists table out, by_length cats table /\ show_group little fs qsort limit basedir snapbase num fuel value4 value8 = Ok out /\
    Forall2 (shown little fs dir num files value4 (value8 box) table) [2; 3; 4; 5] out.
  Proof using All.
    intro H6. destruct (load_ok little fs qsort limit basedir num dir Hdir fuel cats Hsort Hcat Hcfuel Hall) as (table & g & E & HB & E1 & E2 & E3). destruct hash_ok as (t & EH & HH). unfold show_group. rewrite E. cbn [bind]. rewrite EH. cbn [bind fst].
    destruct (groups_shown table g [2; 3; 4; 5] HB E1 E2 E3) with (t := t) (box0 := 0%Q) as (out & EO & HO); [repeat constructor; lia | exact HH|]. exists table, out. repeat split; try assumption; apply HB.
  Qed.
  Lemma group_few : zlen all < 6 -> show_group little fs qsort limit basedir snapbase num fuel value4 value8 = Err EIndex.
  Proof using All.
    intro H6. destruct (load_ok little fs qsort limit basedir num dir Hdir fuel cats Hsort Hcat Hcfuel Hall) as (table & g & E & HB & E1 & E2 & E3). destruct hash_ok as (t & EH & HH). unfold show_group. rewrite E. cbn [bind]. rewrite EH. cbn [bind fst].
    apply groups_few with (table := table); try assumption; [repeat constructor; lia | do 3 apply Exists_cons_tl; apply Exists_cons_hd; lia].
  Qed.
End Hash.
