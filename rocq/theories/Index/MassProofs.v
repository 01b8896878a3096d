(** Proofs about the branch masses (index_trees.py:119-241). *)
From Verif.Base Require Import Prelude Order ListLemmas.
From Verif.Util Require Import UMatchModel MatchRangesProps.
From Verif.Psort Require Import FetchProofs.
From Verif.Index Require Import IndexModel IndexSpec LinkProofs ForestProofs DfiFinal.
From Coq Require Import ZifyBool ZifyNat Relation_Operators.
Local Open Scope Z_scope.

(** ** lexsort *)
Lemma lexsort2_ok minor major : length minor = length major ->
  exists idx, lexsort2 minor major = Ok idx /\ Permutation idx (zseq 0 (length major)) /\
    StronglySorted (fun i j => gz major i < gz major j \/ gz major i = gz major j /\ gz minor i <= gz minor j) idx.
Proof.
  intro Hl. unfold lexsort2. set (i1 := argsort ZOrd minor). destruct (argsort_stable ZOrd minor) as [HP1 HS1]. fold i1 in HP1, HS1.
  assert (forall i, In i i1 -> 0 <= i < zlen major) as Hr1 by (intros i Hi; apply (Permutation_in _ HP1), In_zseq in Hi; unfold zlen; lia).
  rewrite (np_take_ok major i1 (-1)) by assumption. cbn [bind]. set (m := map (fun i => nth (Z.to_nat i) major (-1)) i1). set (i2 := argsort ZOrd m).
  destruct (argsort_stable ZOrd m) as [HP2 HS2]. fold i2 in HP2, HS2.
  assert (length m = length i1) as Hlm by apply map_length.
  assert (length i1 = length minor) as Hl1 by (rewrite (Permutation_length HP1); apply zseq_length).
  assert (forall i, In i i2 -> 0 <= i < zlen i1) as Hr2 by (intros i Hi; apply (Permutation_in _ HP2), In_zseq in Hi; unfold zlen; lia).
  rewrite (np_take_ok i1 i2 0) by assumption. eexists. split; [reflexivity|]. split.
  - rewrite HP2. replace (length m) with (length i1) by lia. rewrite (map_nth_zseq ZOrd i1 0) || rewrite (map_nth_zseq i1 0). rewrite HP1. now rewrite Hl.
  - rewrite StronglySorted_map. eapply StronglySorted_weaken; [|exact HS2]. intros x y Hx Hy H. cbv beta in H. apply Hr2 in Hx, Hy.
    set (a := nth (Z.to_nat x) i1 0) in *. set (b := nth (Z.to_nat y) i1 0) in *.
    assert (forall z, 0 <= z < zlen i1 -> nth_error m (Z.to_nat z) = Some (gz major (nth (Z.to_nat z) i1 0))) as Hm.
    { intros z Hz. unfold m. rewrite nth_error_map, (nth_error_nth' _ 0) by (unfold zlen in Hz; lia). reflexivity. }
    specialize (H _ _ (Hm x Hx) (Hm y Hy)). fold a b in H. destruct H as [H|[H1 H2]].
    + left. unfold ltb in H. cbn [leb ZOrd] in H. lia.
    + right. split; [assumption|].
      assert (Z.to_nat x < Z.to_nat y)%nat as Hxy by lia.
      pose proof (StronglySorted_nth _ _ _ _ 0 HS1 Hxy ltac:(unfold zlen in Hy; lia)) as Hs. cbv beta in Hs. fold a b in Hs.
      assert (forall z, 0 <= z < zlen i1 -> nth_error minor (Z.to_nat (nth (Z.to_nat z) i1 0)) = Some (gz minor (nth (Z.to_nat z) i1 0))) as Hmin.
      { intros z Hz. apply nth_error_gz. assert (In (nth (Z.to_nat z) i1 0) i1) as Hin by (apply nth_In; unfold zlen in Hz; lia). apply Hr1 in Hin. unfold zlen in *. lia. }
      specialize (Hs _ _ (Hmin x Hx) (Hmin y Hy)). fold a b in Hs. destruct Hs as [Hs|[Hs _]]; [unfold ltb in Hs; cbn [leb ZOrd] in Hs; lia | lia].
Qed.

(** ** In sorted order *)
Section Sorted.
  Context (dp mass : list Z).
  Notation n := (length dp).
  Notation ins := (ins n).
  Notation D := (D dp).
  Context (Hmass : length mass = length dp).
  Context (HD : forall i, ins i -> D i = -1 \/ ins (D i)) (Hinc : forall i, ins i -> ins (D i) -> i < D i).
  Set Default Proof Using "All".

  Definition kids (k : nat) (j : Z) : list Z := filter (fun c => D c =? j) (zseq 0 k).
  Lemma kids_In j c : ins j -> In c (kids n j) <-> ins c /\ D c = j.
  Proof. intro Hj. unfold kids. rewrite filter_In, In_zseq, Z.eqb_eq. unfold ForestProofs.ins. intuition lia. Qed.
  Lemma kids_nodup j : NoDup (kids n j).
  Proof. apply NoDup_filter, NoDup_zseq. Qed.
  Lemma all_reach j : ins j -> exists m, reach n D m j.
  Proof.
    apply (acyclic_reach n D (kids n) HD kids_In kids_nodup). intros (c & Hc & Hd & Ha).
    assert (forall p h, anc n D p h -> p <= h) as Hle.
    { intros p h H. induction H as [h Hh|p h Hp Hdp Hanc IH]; [lia|]. specialize (Hinc p Hp Hdp). lia. }
    specialize (Hle _ _ Ha). specialize (Hinc c Hc Hd). lia.
  Qed.
  Lemma kids_early (k : nat) : ins (Z.of_nat k) -> kids k (Z.of_nat k) = kids n (Z.of_nat k).
  Proof.
    intro Hk. unfold kids. assert (n = k + (n - k))%nat as -> by (unfold ForestProofs.ins in Hk; lia). rewrite (zseq_app 0 k (n - k)), filter_app.
    assert (filter (fun c => D c =? Z.of_nat k) (zseq (0 + Z.of_nat k) (n - k)) = []) as ->; [|now rewrite app_nil_r].
    destruct (filter (fun c => D c =? Z.of_nat k) (zseq (0 + Z.of_nat k) (n - k))) as [|c l] eqn:E; [reflexivity|]. exfalso.
    assert (In c (filter (fun c => D c =? Z.of_nat k) (zseq (0 + Z.of_nat k) (n - k)))) as Hc by (rewrite E; now left).
    apply filter_In in Hc. destruct Hc as [Hc1 Hc2]. apply In_zseq in Hc1. apply Z.eqb_eq in Hc2. assert (ins c) as Hci by (unfold ForestProofs.ins in *; lia). specialize (Hinc c Hci). rewrite Hc2 in Hinc. specialize (Hinc Hk). lia.
  Qed.
  Lemma kids_S k j : kids (S k) j = kids k j ++ (if D (Z.of_nat k) =? j then [Z.of_nat k] else []).
  Proof.
    unfold kids. replace (S k) with (k + 1)%nat by lia. rewrite (zseq_app 0 k 1), filter_app. change (zseq (0 + Z.of_nat k) 1) with [0 + Z.of_nat k]. rewrite Z.add_0_l. reflexivity.
  Qed.
  Lemma zseq_S k : zseq 0 (S k) = zseq 0 k ++ [Z.of_nat k].
  Proof. replace (S k) with (k + 1)%nat by lia. rewrite zseq_app. reflexivity. Qed.

  Lemma foldM_app {S A} (f : S -> A -> res S) l m s : foldM f (l ++ m) s = bind (foldM f l s) (foldM f m).
  Proof. revert s. induction l as [|a l IH]; intro s; cbn [app foldM]; [reflexivity|]. destruct (f s a); cbn [bind]; auto. Qed.

  (** *** total mass *)
  Definition T (j : Z) : Z := sumZ (map (gz mass) (sub n (kids n) j)).
  Lemma T_eq j : ins j -> T j = gz mass j + sumZ (map T (kids n j)).
  Proof.
    intro Hj. destruct (all_reach j Hj) as [m Hr]. unfold T at 1. rewrite (sub_eq n D (kids n) HD kids_In kids_nodup m j Hr). cbn [map]. change (sumZ (?a :: ?b)) with (a + sumZ b). f_equal.
    induction (kids n j) as [|c l IH]; [reflexivity|]. cbn [flat_map map]. rewrite map_app, sumZ_app. change (sumZ (?a :: ?b)) with (a + sumZ b). now rewrite IH.
  Qed.

  Lemma tree_loop : forall k, (k <= n)%nat -> exists m, foldM (add_mass dp) (zseq 0 k) mass = Ok m /\ zlen m = zlen dp /\
    forall j, ins j -> gz m j = gz mass j + sumZ (map T (kids k j)).
  Proof.
    induction k as [|k IH]; intro Hk.
    - exists mass. split; [reflexivity|]. split; [unfold zlen; lia|]. intros. cbn. lia.
    - destruct IH as (m & E & Hm & Hg); [lia|]. rewrite zseq_S, foldM_app, E. cbn [bind foldM]. assert (ins (Z.of_nat k)) as Hki by (unfold ForestProofs.ins; lia).
      unfold add_mass. rewrite gz_py by (unfold zlen; lia). cbn [bind]. change (gz dp (Z.of_nat k)) with (D (Z.of_nat k)).
      destruct (HD _ Hki) as [Ed|Hd].
      + rewrite Ed. cbn [Z.leb bind]. exists m. split; [reflexivity|]. split; [assumption|]. intros j Hj. rewrite (Hg j Hj), kids_S, Ed. replace (-1 =? j) with false by (unfold ForestProofs.ins in Hj; lia). now rewrite app_nil_r.
      + set (j := D (Z.of_nat k)) in *. replace (0 <=? j) with true by (unfold ForestProofs.ins in Hd; lia). rewrite !gz_py by (unfold ForestProofs.ins, zlen in *; lia). cbn [bind]. rewrite py_set_ok by (unfold ForestProofs.ins, zlen in *; lia). cbn [bind].
        eexists. split; [reflexivity|]. split; [now rewrite zlen_set_nth|]. intros i Hi. rewrite gz_set by (unfold ForestProofs.ins, zlen in *; lia). rewrite kids_S. fold j.
        destruct (Z.eqb_spec i j) as [->|Hne].
        * rewrite Z.eqb_refl, map_app, sumZ_app. cbn [map]. rewrite (Hg j Hd), (Hg _ Hki), (kids_early k Hki), <- (T_eq _ Hki). change (sumZ [?x]) with (x + 0). lia.
        * replace (j =? i) with false by lia. rewrite app_nil_r. now apply Hg.
  Qed.

  (** *** largest chain *)
  Inductive zchain : Z -> list Z -> Prop :=
  | zc1 h : ins h -> zchain h [h]
  | zcS h p l : ins p -> ins h -> D p = h -> zchain p l -> zchain h (h :: l).
  Definition csum (l : list Z) : Z := sumZ (map (gz mass) l).
  (** second element before k *)
  Definition upto (k : Z) (l : list Z) : Prop := match l with _ :: p :: _ => p < k | _ => True end.
  Definition best (k : Z) (h v : Z) : Prop :=
    (exists l, zchain h l /\ upto k l /\ csum l = v) /\ forall l, zchain h l -> upto k l -> csum l <= v.

  Lemma csum_cons h l : csum (h :: l) = gz mass h + csum l.
  Proof. reflexivity. Qed.
  Lemma zchain_hd h l : zchain h l -> exists l', l = h :: l'.
  Proof. intros []; eauto. Qed.
  Lemma best_all k h v : ins h -> h <= k -> best k h v -> (exists l, zchain h l /\ csum l = v) /\ forall l, zchain h l -> csum l <= v.
  Proof.
    intros Hh Hk ((l & H1 & _ & H2) & H3). split; [exists l; auto|]. intros l' Hl'. apply H3; [assumption|].
    destruct Hl' as [h Hi|h p l' Hp Hi E Hl']; [exact I|]. destruct (zchain_hd _ _ Hl') as [l'' ->]. cbn [upto].
    assert (ins (D p)) as Hdp by now rewrite E. specialize (Hinc p Hp Hdp). lia.
  Qed.

  Lemma delucia_loop mdesc : zlen mdesc = zlen dp -> (forall i, ins i -> ins (D i) -> gz mdesc i = gz mass (D i)) ->
    forall k, (k <= n)%nat -> exists m, foldM (delucia_step dp mdesc) (zseq 0 k) mass = Ok m /\ zlen m = zlen dp /\
    forall j, ins j -> best (Z.of_nat k) j (gz m j).
  Proof.
    intros Hmd Hmdv. induction k as [|k IH]; intro Hk.
    - exists mass. split; [reflexivity|]. split; [unfold zlen; lia|]. intros j Hj. split.
      + exists [j]. split; [now constructor|]. split; [exact I|]. unfold csum. cbn. lia.
      + intros l Hl Hu. destruct Hl as [h Hi|h p l' Hp Hi E Hl]; [unfold csum; cbn; lia|]. destruct (zchain_hd _ _ Hl) as [l'' ->]. cbn [upto] in Hu. unfold ForestProofs.ins in Hp. lia.
    - destruct IH as (m & E & Hm & Hg); [lia|]. rewrite zseq_S, foldM_app, E. cbn [bind foldM]. assert (ins (Z.of_nat k)) as Hki by (unfold ForestProofs.ins; lia).
      assert (forall j v, ins j -> best (Z.of_nat k) j v -> D (Z.of_nat k) <> j -> best (Z.of_nat (S k)) j v) as Hsame.
      { intros j v Hj ((l & H1 & H2 & H3) & H4) Hne. split.
        - exists l. split; [assumption|]. split; [|assumption]. destruct l as [|? [|? ?]]; cbn [upto] in *; try exact I. lia.
        - intros l' Hl' Hu. apply H4; [assumption|]. destruct Hl' as [h Hi|h p l' Hp Hi Ep Hl']; [exact I|]. destruct (zchain_hd _ _ Hl') as [l'' ->]. cbn [upto] in *.
          destruct (Z.eq_dec p (Z.of_nat k)) as [->|]; [congruence | lia]. }
      unfold delucia_step. rewrite gz_py by (unfold zlen; lia). cbn [bind]. change (gz dp (Z.of_nat k)) with (D (Z.of_nat k)).
      destruct (HD _ Hki) as [Ed|Hd].
      + rewrite Ed. cbn [Z.leb bind]. exists m. split; [reflexivity|]. split; [assumption|]. intros j Hj. apply Hsame; [assumption | now apply Hg | unfold ForestProofs.ins in Hj; lia].
      + pose proof (Hmdv _ Hki Hd) as Hmdk. set (j := D (Z.of_nat k)) in *. replace (0 <=? j) with true by (unfold ForestProofs.ins in Hd; lia). rewrite !gz_py by (unfold ForestProofs.ins, zlen in *; lia). cbn [bind].
        destruct (best_all (Z.of_nat k) (Z.of_nat k) _ Hki ltac:(lia) (Hg _ Hki)) as [(lk & Hlk1 & Hlk2) Hlk3].
        destruct (Hg j Hd) as [(lj & Hlj1 & Hlj2 & Hlj3) Hlj4].
        assert (best (Z.of_nat (S k)) j (Z.max (gz m j) (gz mass j + gz m (Z.of_nat k)))) as Hnew.
        { split.
          - destruct (Z_le_gt_dec (gz mass j + gz m (Z.of_nat k)) (gz m j)) as [Hle|Hgt].
            + exists lj. split; [assumption|]. split; [destruct lj as [|? [|? ?]]; cbn [upto] in *; try exact I; lia | lia].
            + exists (j :: lk). split; [now apply (zcS j (Z.of_nat k))|]. destruct (zchain_hd _ _ Hlk1) as [l'' ->]. split; [cbn [upto]; lia|]. rewrite csum_cons. lia.
          - intros l Hl Hu. destruct Hl as [h Hi|h p l Hp Hi Ep Hl].
            + specialize (Hlj4 [h] (zc1 _ Hi) I). lia.
            + destruct (Z.eq_dec p (Z.of_nat k)) as [->|Hne].
              * specialize (Hlk3 l Hl). rewrite csum_cons. lia.
              * assert (upto (Z.of_nat k) (h :: l)) as Hu'.
                { destruct (zchain_hd _ _ Hl) as [l'' ->]. cbn [upto] in *. lia. }
                specialize (Hlj4 (h :: l) (zcS h p l Hp Hi Ep Hl) Hu'). lia. }
        destruct (Z.ltb_spec (gz m j) (gz mdesc (Z.of_nat k) + gz m (Z.of_nat k))) as [Hlt|Hge].
        * rewrite py_set_ok by (unfold ForestProofs.ins, zlen in *; lia). cbn [bind]. eexists. split; [reflexivity|]. split; [now rewrite zlen_set_nth|]. intros i Hi. rewrite gz_set by (unfold ForestProofs.ins, zlen in *; lia).
          destruct (Z.eqb_spec i j) as [->|Hne].
          -- replace (gz mdesc (Z.of_nat k) + gz m (Z.of_nat k)) with (Z.max (gz m j) (gz mass j + gz m (Z.of_nat k))) by lia. exact Hnew.
          -- apply Hsame; [assumption | now apply Hg | auto].
        * cbn [bind]. exists m. split; [reflexivity|]. split; [assumption|]. intros i Hi. destruct (Z.eq_dec i j) as [->|Hne].
          -- replace (gz m j) with (Z.max (gz m j) (gz mass j + gz m (Z.of_nat k))) by lia. exact Hnew.
          -- apply Hsame; [assumption | now apply Hg | auto].
  Qed.
End Sorted.
