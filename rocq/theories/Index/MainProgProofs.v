(** find_main_progenitor (index_trees.py:119-160). *)
From Verif.Base Require Import Prelude Order ListLemmas.
From Verif.Util Require Import UMatchModel.
From Verif.Index Require Import IndexModel IndexSpec LinkProofs ForestProofs DfiFinal MassProofs.
From Coq Require Import ZifyBool ZifyNat.
Local Open Scope Z_scope.

Section MainProg.
  Context (close : Z -> Z -> bool) (node_order ni di snap mb : list Z).
  Context (Hld : length di = length ni) (Hls : length snap = length ni) (Hlm : length mb = length ni).
  Context (Hnd : NoDup ni) (Ho : is_argsort ZOrd ni node_order) (Hpos : forall q, In q mb -> 0 < q).
  Set Default Proof Using "All".

  Definition before (i j : Z) : Prop := gz snap i < gz snap j \/ gz snap i = gz snap j /\ gz (map Z.opp ni) i <= gz (map Z.opp ni) j.

  Section Ptr.
    Context (dp : list Z) (Hdp : length dp = length ni) (HD : forall i, ins (length dp) i -> D dp i = -1 \/ ins (length dp) (D dp i)).
    Notation ins := (ins (length dp)).
    Notation D := (D dp).

    Definition leads (P : list Z) (j p : Z) : Prop :=
      In p P /\ D p = j /\ forall q, In q P -> D q = j -> gz mb q < gz mb p \/ gz mb q = gz mb p /\ (q = p \/ before p q).
    Definition minv (P : list Z) (s : list Z * list Z) : Prop :=
      let (mx, mp) := s in
      zlen mx = zlen dp /\ zlen mp = zlen dp /\
      forall j, ins j -> (exists p, leads P j p /\ gz mx j = gz mb p /\ gz mp j = gz ni p) \/
        ((forall q, In q P -> D q <> j) /\ gz mx j = 0 /\ gz mp j = -1).

    Lemma mb_pos i : ins i -> 0 < gz mb i.
    Proof. intro H. apply Hpos. unfold gz. apply nth_In. unfold ForestProofs.ins in H. lia. Qed.

    Lemma main_fold : forall rest P s, minv P s -> (forall i, In i (P ++ rest) -> ins i) -> StronglySorted before (P ++ rest) ->
      exists s', foldM (main_step ni mb dp) rest s = Ok s' /\ minv (P ++ rest) s'.
    Proof.
      induction rest as [|x rest IH]; intros P s Hv Hin Hs; [exists s; rewrite app_nil_r; split; [reflexivity | assumption]|].
      assert (P ++ x :: rest = (P ++ [x]) ++ rest) as E by (rewrite <- app_assoc; reflexivity). rewrite E in *.
      assert (ins x) as Hx by (apply Hin; rewrite !in_app_iff; left; right; now left).
      assert (forall p, In p P -> before p x) as Hb.
      { intros p Hp. apply StronglySorted_app in Hs. destruct Hs as [Hs _]. apply StronglySorted_app in Hs. destruct Hs as (_ & _ & Hs). apply Hs; [assumption | now left]. }
      assert (exists s', main_step ni mb dp s x = Ok s' /\ minv (P ++ [x]) s') as (s' & Es & Hv').
      2:{ cbn [foldM]. rewrite Es. cbn [bind]. now apply IH. }
      destruct s as [mx mp]. destruct Hv as (Hmx & Hmp & Hv). unfold main_step. rewrite gz_py by (unfold ForestProofs.ins, zlen in *; lia). cbn [bind]. change (gz dp x) with (D x).
      assert (forall j mx' mp', ins j -> D x <> j -> gz mx' j = gz mx j -> gz mp' j = gz mp j ->
        (exists p, leads (P ++ [x]) j p /\ gz mx' j = gz mb p /\ gz mp' j = gz ni p) \/ ((forall q, In q (P ++ [x]) -> D q <> j) /\ gz mx' j = 0 /\ gz mp' j = -1)) as Hother.
      { intros j mx' mp' Hj Hne E1 E2. rewrite E1, E2. destruct (Hv j Hj) as [(p & (Hp1 & Hp2 & Hp3) & Hp4)|(Hq1 & Hq2)].
        - left. exists p. split; [|assumption]. split; [apply in_or_app; now left|]. split; [assumption|]. intros q Hq. apply in_app_or in Hq. destruct Hq as [Hq|[<-|[]]]; [now apply Hp3 | congruence].
        - right. split; [|assumption]. intros q Hq. apply in_app_or in Hq. destruct Hq as [Hq|[<-|[]]]; [now apply Hq1 | assumption]. }
      destruct (HD x Hx) as [Ed|Hd].
      - rewrite Ed. cbn [Z.leb bind]. exists (mx, mp). split; [reflexivity|]. split; [assumption|]. split; [assumption|]. intros j Hj. apply Hother; try reflexivity; [assumption | unfold ForestProofs.ins in Hj; lia].
      - remember (D x) as j eqn:Ej. symmetry in Ej. replace (0 <=? j) with true by (unfold ForestProofs.ins in Hd; lia). rewrite !gz_py by (unfold ForestProofs.ins, zlen in *; lia). cbn [bind].
        destruct (Z.ltb_spec (gz mx j) (gz mb x)) as [Hlt|Hge].
        + rewrite py_set_ok by (unfold ForestProofs.ins, zlen in *; lia). cbn [bind]. rewrite py_set_ok by (unfold ForestProofs.ins, zlen in *; lia). cbn [bind].
          eexists. split; [reflexivity|]. split; [now rewrite zlen_set_nth|]. split; [now rewrite zlen_set_nth|]. intros i Hi. destruct (Z.eq_dec i j) as [->|Hne].
          * left. exists x. rewrite !gz_set by (unfold ForestProofs.ins, zlen in *; lia). rewrite Z.eqb_refl. split; [|split; reflexivity].
            split; [apply in_or_app; right; now left|]. split; [assumption|]. intros q Hq Hqd. apply in_app_or in Hq. destruct Hq as [Hq|[<-|[]]]; [|right; split; [reflexivity | now left]].
            left. destruct (Hv j Hd) as [(p & (Hp1 & Hp2 & Hp3) & Hp4 & _)|(Hq1 & _)]; [|exfalso; now apply (Hq1 q)]. specialize (Hp3 q Hq Hqd). lia.
          * apply Hother; [assumption | congruence | |]; rewrite gz_set by (unfold ForestProofs.ins, zlen in *; lia); replace (i =? j) with false by lia; reflexivity.
        + cbn [bind]. exists (mx, mp). split; [reflexivity|]. split; [assumption|]. split; [assumption|]. intros i Hi. destruct (Z.eq_dec i j) as [->|Hne]; [|apply Hother; try reflexivity; [assumption | congruence]].
          destruct (Hv j Hd) as [(p & (Hp1 & Hp2 & Hp3) & Hp4)|(Hq1 & Hq2 & _)].
          * left. exists p. split; [|assumption]. split; [apply in_or_app; now left|]. split; [assumption|]. intros q Hq Hqd. apply in_app_or in Hq. destruct Hq as [Hq|[<-|[]]]; [now apply Hp3|].
            destruct (Z.eq_dec (gz mb x) (gz mb p)) as [Heq|]; [right; split; [assumption|]; right; now apply Hb | left; lia].
          * exfalso. pose proof (mb_pos x Hx). lia.
    Qed.

    Definition count_close (mx : list Z) (P : list Z) (j : Z) : Z := zlen (filter (fun q => (D q =? j) && close (gz mb q) (gz mx j)) P).
    Lemma tie_fold mx : zlen mx = zlen dp -> forall rest P nt, (forall i, In i (P ++ rest) -> ins i) -> zlen nt = zlen dp -> (forall j, ins j -> gz nt j = count_close mx P j) ->
      exists nt', foldM (tie_step close mb dp mx) rest nt = Ok nt' /\ zlen nt' = zlen dp /\ forall j, ins j -> gz nt' j = count_close mx (P ++ rest) j.
    Proof.
      intro Hmx. induction rest as [|x rest IH]; intros P nt Hin Hnt Hc; [exists nt; rewrite app_nil_r; auto|].
      assert (P ++ x :: rest = (P ++ [x]) ++ rest) as E by (rewrite <- app_assoc; reflexivity). rewrite E in *.
      assert (ins x) as Hx by (apply Hin; rewrite !in_app_iff; left; right; now left).
      assert (exists nt', tie_step close mb dp mx nt x = Ok nt' /\ zlen nt' = zlen dp /\ forall j, ins j -> gz nt' j = count_close mx (P ++ [x]) j) as (nt' & Es & Hl' & Hc').
      2:{ cbn [foldM]. rewrite Es. cbn [bind]. now apply IH. }
      assert (forall j, count_close mx (P ++ [x]) j = count_close mx P j + (if (D x =? j) && close (gz mb x) (gz mx j) then 1 else 0)) as Hsn.
      { intro j. unfold count_close. rewrite filter_app, zlen_app. f_equal. cbn [filter]. destruct ((D x =? j) && close (gz mb x) (gz mx j)); reflexivity. }
      unfold tie_step. rewrite gz_py by (unfold ForestProofs.ins, zlen in *; lia). cbn [bind]. change (gz dp x) with (D x). destruct (HD x Hx) as [Ed|Hd].
      - rewrite Ed. cbn [Z.leb bind]. exists nt. split; [reflexivity|]. split; [assumption|]. intros j Hj. rewrite Hsn, (Hc j Hj), Ed. replace (-1 =? j) with false by (unfold ForestProofs.ins in Hj; lia). cbn [andb]. lia.
      - remember (D x) as j eqn:Ej. replace (0 <=? j) with true by (unfold ForestProofs.ins in Hd; lia). rewrite !gz_py by (unfold ForestProofs.ins, zlen in *; lia). cbn [bind].
        destruct (close (gz mb x) (gz mx j)) eqn:Ec.
        + rewrite ?gz_py by (unfold ForestProofs.ins, zlen in *; lia). cbn [bind]. rewrite py_set_ok by (unfold ForestProofs.ins, zlen in *; lia). eexists. split; [reflexivity|]. split; [now rewrite zlen_set_nth|]. intros i Hi. rewrite gz_set by (unfold ForestProofs.ins, zlen in *; lia). rewrite Hsn, (Hc j Hd).
          destruct (Z.eqb_spec i j) as [->|Hne]; [rewrite Z.eqb_refl, Ec; reflexivity|]. replace (j =? i) with false by lia. cbn [andb]. rewrite (Hc i Hi). lia.
        + exists nt. split; [reflexivity|]. split; [assumption|]. intros i Hi. rewrite Hsn, (Hc i Hi). destruct (Z.eqb_spec j i) as [->|Hne]; [rewrite Ec; cbn; lia | cbn [andb]; lia].
    Qed.
  End Ptr.

  Lemma main_progenitor : exists ntie mainprog, find_main_progenitor close node_order ni di snap mb = Ok (ntie, mainprog) /\ length ntie = length ni /\ length mainprog = length ni /\
    forall h, (h < length ni)%nat ->
      ((forall p, ~ direct ni di p h) /\ nth_error mainprog h = Some (-1) /\ nth_error ntie h = Some 0) \/
      (exists p x, direct ni di p h /\ nth_error ni p = Some x /\ nth_error mainprog h = Some x /\
         (forall q, direct ni di q h -> nth q mb 0 < nth p mb 0 \/
            nth q mb 0 = nth p mb 0 /\ (nth p snap 0 < nth q snap 0 \/ nth p snap 0 = nth q snap 0 /\ nth q ni 0 <= nth p ni 0)) /\
         exists ties, NoDup ties /\ (forall q, In q ties <-> direct ni di q h /\ close (nth q mb 0) (nth p mb 0) = true) /\
           nth_error ntie h = Some (Z.max 0 (zlen ties - 1))).
  Proof.
    destruct (lexsort2_ok (map Z.opp ni) snap) as (idx & Ei & Hp & Hs); [rewrite map_length; lia|]. rewrite Hls in Hp.
    destruct (pointers node_order ni di Hld Hnd Ho) as (dp & Em & Hdp & HD & Hdir).
    unfold find_main_progenitor. rewrite Ei. cbn [bind]. rewrite Em. cbn [bind].
    assert (forall i, In i idx <-> ins (length dp) i) as Hidx.
    { intro i. split; intro H; [apply (Permutation_in _ Hp), In_zseq in H; unfold ins; lia | apply (Permutation_in _ (Permutation_sym Hp)), In_zseq; unfold ins in H; lia]. }
    assert (forall {B} (l : list B) i, gz (map (fun _ => 0) l) i = 0 \/ ~ (0 <= i < zlen l)) as Hzero.
    { intros B l i. destruct (Z_lt_dec i 0); [right; lia|]. destruct (Z_lt_dec i (zlen l)); [|right; lia]. left. unfold gz. apply nth_error_nth. rewrite nth_error_map. destruct (nth_error l (Z.to_nat i)) eqn:E; [reflexivity|]. apply nth_error_None in E. unfold zlen in *. lia. }
    destruct (main_fold dp Hdp HD idx [] (map (fun _ => 0) mb, minus_ones ni)) as ([mx mp] & Ef & (Hmx & Hmp & Hv)).
    { split; [rewrite zlen_map; unfold zlen; lia|]. split; [rewrite zlen_minus_ones; unfold zlen; lia|]. intros j Hj. right. split; [intros q []|]. split; [destruct (Hzero Z mb j) as [H|H]; [assumption | unfold ins, zlen in *; lia] | apply gz_minus_ones]. }
    { intros i Hi. now apply Hidx. }
    { exact Hs. }
    rewrite Ef. cbn [bind]. cbn [app] in *.
    destruct (tie_fold dp Hdp HD mx Hmx idx [] (map (fun _ => 0) ni)) as (nt & Et & Hnt & Hc).
    { intros i Hi. now apply Hidx. }
    { rewrite zlen_map. unfold zlen. lia. }
    { intros j Hj. destruct (Hzero Z ni j) as [H|H]; [rewrite H; reflexivity | unfold ins, zlen in *; lia]. }
    rewrite Et. cbn [bind]. cbn [app] in *. eexists _, mp. split; [reflexivity|]. split; [rewrite !map_length; unfold zlen in *; lia|]. split; [unfold zlen in *; lia|].
    intros h Hh. assert (ins (length dp) (Z.of_nat h)) as Hhi by (unfold ins; lia).
    assert (forall q, direct ni di q h <-> In (Z.of_nat q) idx /\ D dp (Z.of_nat q) = Z.of_nat h) as Hdd.
    { intro q. rewrite Hidx. split.
      - intro H. assert (q < length ni)%nat as Hq by (destruct H as (y & Hy & _); rewrite <- Hld; apply nth_error_Some; congruence). assert (ins (length dp) (Z.of_nat q)) as Hqi by (unfold ins; lia). split; [assumption|]. apply Hdir; [assumption | assumption | now rewrite !Nat2Z.id].
      - intros [Hq E]. apply Hdir in E; [|assumption | assumption]. now rewrite !Nat2Z.id in E. }
    assert (forall (l : list Z) q d, (q < length l)%nat -> nth q l d = gz l (Z.of_nat q)) as Hg.
    { intros l q d Hq. unfold gz. rewrite Nat2Z.id. now apply nth_indep. }
    assert (forall (l : list Z), zlen l = zlen dp -> nth_error l h = Some (gz l (Z.of_nat h))) as Hne.
    { intros l Hl. rewrite <- (Nat2Z.id h) at 1. apply nth_error_gz. unfold zlen in *. lia. }
    rewrite (Hne mp Hmp). rewrite !nth_error_map, (Hne nt Hnt). cbn [option_map].
    rewrite (Hc _ Hhi). destruct (Hv _ Hhi) as [(p & (Hp1 & Hp2 & Hp3) & Hp4 & Hp5)|(Hq1 & Hq2 & Hq3)].
    - right. pose proof (proj1 (Hidx p) Hp1) as Hpi. assert (Z.of_nat (Z.to_nat p) = p) as Ezp by (unfold ins in Hpi; lia). exists (Z.to_nat p), (gz ni p).
      split; [apply Hdd; rewrite Ezp; split; assumption|]. split; [rewrite nth_error_gz; [reflexivity | unfold ins in Hpi; unfold zlen; lia]|]. split; [now rewrite Hp5|].
      assert (Z.to_nat p < length ni)%nat as Hpn by (unfold ins in Hpi; lia).
      split.
      + intros q Hq. apply Hdd in Hq. destruct Hq as [Hqi Hqd]. pose proof (proj1 (Hidx _) Hqi) as Hqi'. assert (q < length ni)%nat as Hqn by (unfold ins in Hqi'; lia). specialize (Hp3 _ Hqi Hqd).
        rewrite !Hg by lia. rewrite Ezp. destruct Hp3 as [Hp3|[Hp3 Hp6]]; [now left|]. right. split; [assumption|]. destruct Hp6 as [E|[Hb|[Hb1 Hb2]]]; [rewrite <- E; right; split; [reflexivity | lia] | now left |].
        right. split; [assumption|].
        assert (forall i, ins (length dp) i -> gz (map Z.opp ni) i = - gz ni i) as Hopp.
        { intros i Hi. unfold gz at 1. apply nth_error_nth. rewrite nth_error_map, nth_error_gz by (unfold ins in Hi; unfold zlen; lia). reflexivity. }
        rewrite !Hopp in Hb2 by assumption. lia.
      + set (fl := filter (fun q => (D dp q =? Z.of_nat h) && close (gz mb q) (gz mx (Z.of_nat h))) idx).
        exists (map Z.to_nat fl). split; [|split].
        * assert (NoDup fl) as Hnf by (apply NoDup_filter, (Permutation_NoDup (Permutation_sym Hp)), NoDup_zseq). assert (forall x, In x fl -> 0 <= x) as Hfi by (intros x Hx; apply filter_In in Hx; destruct Hx as [Hx _]; apply Hidx in Hx; unfold ins in Hx; lia).
          clearbody fl. induction fl as [|x l IH]; [constructor|]. apply NoDup_cons_iff in Hnf. destruct Hnf as [Hn1 Hn2]. cbn [map]. constructor; [|apply IH; [assumption | intros y Hy; apply Hfi; now right]].
          intro Hcc. apply in_map_iff in Hcc. destruct Hcc as (y & E & Hy). assert (x = y) as -> by (specialize (Hfi x (or_introl eq_refl)) as H1; specialize (Hfi y (or_intror Hy)); lia). tauto.
        * intro q. rewrite Hdd. rewrite in_map_iff. unfold fl. split.
          -- intros (y & <- & Hy). apply filter_In in Hy. destruct Hy as [Hy1 Hy2]. apply andb_true_iff in Hy2. destruct Hy2 as [Hy2 Hy3]. apply Z.eqb_eq in Hy2. pose proof (proj1 (Hidx _) Hy1) as Hyi. rewrite !Hg by (unfold ins in Hyi; lia). rewrite Z2Nat.id by (unfold ins in Hyi; lia). rewrite Ezp, <- Hp4. auto.
          -- intros [[Hqi Hqd] Hcl]. pose proof (proj1 (Hidx _) Hqi) as Hqi'. rewrite !Hg in Hcl by (unfold ins in Hqi'; lia). rewrite Ezp, <- Hp4 in Hcl. exists (Z.of_nat q). split; [apply Nat2Z.id|]. apply filter_In. split; [assumption|]. rewrite Hqd, Z.eqb_refl, Hcl. reflexivity.
        * rewrite zlen_map. unfold count_close. fold fl. f_equal. destruct (Z.ltb_spec (zlen fl - 1) 0); lia.
    - left. split; [|split].
      + intros p Hpd. apply Hdd in Hpd. destruct Hpd as [H1 H2]. now apply (Hq1 (Z.of_nat p)).
      + now rewrite Hq3.
      + assert (filter (fun q => (D dp q =? Z.of_nat h) && close (gz mb q) (gz mx (Z.of_nat h))) idx = []) as Hfn.
        { clear -Hq1. induction idx as [|x l IH]; [reflexivity|]. cbn [filter]. replace (D dp x =? Z.of_nat h) with false by (symmetry; apply Z.eqb_neq, Hq1; now left). cbn [andb]. apply IH. intros q Hq. apply Hq1. now right. }
        unfold count_close. rewrite Hfn. reflexivity.
  Qed.
End MainProg.
