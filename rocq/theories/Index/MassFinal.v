(** C47 and C48 in final form. *)
From Verif.Base Require Import Prelude Order ListLemmas.
From Verif.Util Require Import UMatchModel.
From Verif.Psort Require Import FetchProofs.
From Verif.Index Require Import IndexModel IndexSpec LinkProofs ForestProofs DfiFinal MassProofs.
From Coq Require Import ZifyBool ZifyNat Relation_Operators Operators_Properties.
Local Open Scope Z_scope.

Section Transport.
  Context (node_order : list Z -> list Z) (ni di snap mass junk : list Z).
  Context (Hld : length di = length ni) (Hls : length snap = length ni) (Hlm : length mass = length ni) (Hlj : length junk = length ni).
  Context (Hnd : NoDup ni) (Ho : forall l, is_argsort ZOrd l (node_order l)).
  Context (Hsnap : forall p h a b, direct ni di p h -> nth_error snap p = Some a -> nth_error snap h = Some b -> a < b).
  Set Default Proof Using "All".

  Section Idx.
    Context (idx : list Z) (Hp : Permutation idx (zseq 0 (length ni))).
    Context (Hs : StronglySorted (fun i j => gz snap i < gz snap j \/ gz snap i = gz snap j /\ gz (map Z.opp ni) i <= gz (map Z.opp ni) j) idx).
    Definition ix (p : Z) : nat := Z.to_nat (nth (Z.to_nat p) idx 0).
    Definition pick (l : list Z) : list Z := map (fun i => nth (Z.to_nat i) l (-1)) idx.

    Lemma idx_len : length idx = length ni.
    Proof. rewrite (Permutation_length Hp). apply zseq_length. Qed.
    Lemma idx_in i : In i idx <-> 0 <= i < Z.of_nat (length ni).
    Proof. split; intro H; [apply (Permutation_in _ Hp), In_zseq in H; lia | apply (Permutation_in _ (Permutation_sym Hp)), In_zseq; lia]. Qed.
    Lemma take_pick l : length l = length ni -> np_take l idx = Ok (pick l).
    Proof. intro Hl. apply np_take_ok. intros i Hi. apply idx_in in Hi. unfold zlen. lia. Qed.
    Lemma pick_len l : length (pick l) = length ni.
    Proof. unfold pick. rewrite map_length. apply idx_len. Qed.
    Lemma ix_bound p : 0 <= p < Z.of_nat (length ni) -> (ix p < length ni)%nat.
    Proof. intro H. unfold ix. assert (In (nth (Z.to_nat p) idx 0) idx) as Hin by (apply nth_In; rewrite idx_len; lia). apply idx_in in Hin. lia. Qed.
    Lemma pick_nth l p : 0 <= p < Z.of_nat (length ni) -> length l = length ni -> nth_error (pick l) (Z.to_nat p) = nth_error l (ix p).
    Proof.
      intros H Hl. pose proof (ix_bound p H) as Hb. unfold pick. rewrite nth_error_map, (nth_error_nth' _ 0) by (rewrite idx_len; lia). cbn. symmetry. apply nth_error_nth'. unfold ix in Hb. lia.
    Qed.
    Lemma ix_inj p q : 0 <= p < Z.of_nat (length ni) -> 0 <= q < Z.of_nat (length ni) -> ix p = ix q -> p = q.
    Proof.
      intros H1 H2 E. unfold ix in E. assert (NoDup idx) as Hn by (apply (Permutation_NoDup (Permutation_sym Hp)), NoDup_zseq).
      assert (In (nth (Z.to_nat p) idx 0) idx) as Hin1 by (apply nth_In; rewrite idx_len; lia). assert (In (nth (Z.to_nat q) idx 0) idx) as Hin2 by (apply nth_In; rewrite idx_len; lia). apply idx_in in Hin1, Hin2.
      rewrite (NoDup_nth _ 0) in Hn. assert (Z.to_nat p = Z.to_nat q) as Hpq by (apply Hn; rewrite ?idx_len; lia). lia.
    Qed.
    Lemma ix_surj h : (h < length ni)%nat -> exists p, 0 <= p < Z.of_nat (length ni) /\ ix p = h.
    Proof.
      intro H. assert (In (Z.of_nat h) idx) as Hin by (apply idx_in; lia). apply (In_nth _ _ 0) in Hin. destruct Hin as (k & Hk & E). exists (Z.of_nat k). rewrite idx_len in Hk. split; [lia|]. unfold ix. rewrite Nat2Z.id, E. lia.
    Qed.
    Lemma pick_nodup : NoDup (pick ni).
    Proof.
      apply NoDup_nth_error. intros i j Hi E. rewrite pick_len in Hi. pose proof (pick_nth ni (Z.of_nat i) ltac:(lia) eq_refl) as E1. rewrite Nat2Z.id in E1.
      assert (nth_error (pick ni) i <> None) as Hne by (apply nth_error_Some; rewrite pick_len; lia). assert (j < length (pick ni))%nat as Hj by (apply nth_error_Some; congruence). rewrite pick_len in Hj.
      pose proof (pick_nth ni (Z.of_nat j) ltac:(lia) eq_refl) as E2. rewrite Nat2Z.id in E2. rewrite E1, E2 in E.
      pose proof (proj1 (NoDup_nth_error ni) Hnd) as Hnd'. apply Hnd' in E; [|apply ix_bound; lia]. apply ix_inj in E; lia.
    Qed.
    Lemma direct_pick p h : 0 <= p < Z.of_nat (length ni) -> 0 <= h < Z.of_nat (length ni) -> direct (pick ni) (pick di) (Z.to_nat p) (Z.to_nat h) <-> direct ni di (ix p) (ix h).
    Proof. intros H1 H2. unfold direct. rewrite !pick_nth by (first [assumption | reflexivity]). reflexivity. Qed.

    Context (dp : list Z) (Hdp : length dp = length ni) (HD : forall i, ins (length dp) i -> D dp i = -1 \/ ins (length dp) (D dp i)).
    Context (Hdir : forall p h, ins (length dp) p -> ins (length dp) h -> D dp p = h <-> direct (pick ni) (pick di) (Z.to_nat p) (Z.to_nat h)).

    Lemma ins_ni p : ins (length dp) p <-> 0 <= p < Z.of_nat (length ni).
    Proof. unfold ins. rewrite Hdp. reflexivity. Qed.
    Lemma dir p h : ins (length dp) p -> ins (length dp) h -> D dp p = h <-> direct ni di (ix p) (ix h).
    Proof. intros H1 H2. rewrite Hdir by assumption. apply direct_pick; now apply ins_ni. Qed.
    Lemma inc i : ins (length dp) i -> ins (length dp) (D dp i) -> i < D dp i.
    Proof.
      intros Hi Hd. assert (direct ni di (ix i) (ix (D dp i))) as Hdd by (now apply dir). apply ins_ni in Hi, Hd. set (j := D dp i) in *.
      assert (gz snap (Z.of_nat (ix i)) < gz snap (Z.of_nat (ix j))) as Hlt.
      { apply (Hsnap _ _ _ _ Hdd); rewrite <- nth_error_gz, Nat2Z.id; try reflexivity; pose proof (ix_bound i Hi); pose proof (ix_bound j Hd); unfold zlen; lia. }
      assert (forall q, 0 <= q < Z.of_nat (length ni) -> Z.of_nat (ix q) = nth (Z.to_nat q) idx 0) as Hz.
      { intros q Hq. unfold ix. assert (In (nth (Z.to_nat q) idx 0) idx) as Hin by (apply nth_In; rewrite idx_len; lia). apply idx_in in Hin. lia. }
      rewrite !Hz in Hlt by assumption. destruct (Z_lt_le_dec i j) as [|Hle]; [assumption|]. exfalso. destruct (Z.eq_dec i j) as [E|Hne]; [rewrite E in Hlt; lia|].
      pose proof (StronglySorted_nth _ _ (Z.to_nat j) (Z.to_nat i) 0 Hs ltac:(lia) ltac:(rewrite idx_len; lia)) as H. cbv beta in H. lia.
    Qed.

    Lemma anc_up p h : anc (length dp) (D dp) p h -> progenitor ni di (ix p) (ix h).
    Proof. induction 1 as [h Hh|p h Hp' Hd Ha IH]; [apply rt_refl|]. eapply rt_trans; [apply rt_step | exact IH]. now apply dir. Qed.
    Lemma anc_down q x : progenitor ni di q x -> forall h, ins (length dp) h -> ix h = x -> exists p, ix p = q /\ anc (length dp) (D dp) p h.
    Proof.
      intro H. apply clos_rt_rt1n in H. induction H as [x|q r x Hqr H IH]; intros h Hh E; [exists h; split; [assumption | now constructor]|].
      destruct (IH h Hh E) as (p & Ep & Ha). assert (q < length ni)%nat as Hq by (destruct Hqr as (y & Hy & _); rewrite <- Hld; apply nth_error_Some; congruence).
      destruct (ix_surj q Hq) as (p' & Hp' & Ep'). exists p'. split; [assumption|]. apply ins_ni in Hp'. assert (ins (length dp) p) as Hpi by (destruct Ha; assumption).
      assert (D dp p' = p) as Ed by (apply dir; try assumption; now rewrite Ep', Ep). apply anc_step; rewrite ?Ed; assumption.
    Qed.

    Lemma put_nth m h p : length m = length ni -> ins (length dp) p -> ix p = h -> nth_error (np_put junk idx m) h = Some (gz m p).
    Proof.
      intros Hm Hpi E. apply ins_ni in Hpi. rewrite (nth_error_nth' _ (-1)) by (rewrite np_put_length; rewrite <- E; pose proof (ix_bound p Hpi); lia). f_equal. rewrite <- E. unfold ix, gz.
      apply np_put_at; [apply (Permutation_NoDup (Permutation_sym Hp)), NoDup_zseq | intros i Hi; apply idx_in in Hi; unfold zlen; lia | rewrite idx_len; lia | rewrite idx_len; lia].
    Qed.

    Lemma pick_mass p : ins (length dp) p -> gz (pick mass) p = nth (ix p) mass 0.
    Proof.
      intro H. apply ins_ni in H. unfold gz. apply nth_error_nth. rewrite pick_nth by assumption. apply nth_error_nth'. pose proof (ix_bound p H). lia.
    Qed.

    Lemma map_ix_nodup l : NoDup l -> (forall x, In x l -> ins (length dp) x) -> NoDup (map ix l).
    Proof.
      induction l as [|x l IH]; intros Hn Hin; [constructor|]. apply NoDup_cons_iff in Hn. destruct Hn as [H1 H2]. cbn [map]. constructor; [|apply IH; [assumption | intros y Hy; apply Hin; now right]].
      intro Hc. apply in_map_iff in Hc. destruct Hc as (y & E & Hy). apply ix_inj in E; [subst y; tauto | apply ins_ni, Hin; now right | apply ins_ni, Hin; now left].
    Qed.

    Lemma tree_mass_at m h : (h < length ni)%nat -> length m = length ni -> (forall j, ins (length dp) j -> gz m j = T dp (pick mass) j) ->
      exists ps, NoDup ps /\ (forall p, In p ps <-> progenitor ni di p h) /\ nth_error (np_put junk idx m) h = Some (total mass ps).
    Proof.
      intros Hh Hm HT. destruct (ix_surj h Hh) as (k & Hk & Ek). apply ins_ni in Hk.
      assert (length (pick mass) = length dp) as Hpm by (rewrite pick_len; lia).
      pose proof (kids_In dp (pick mass) Hpm HD inc) as HkI. pose proof (kids_nodup dp (pick mass) Hpm HD inc) as HkN.
      destruct (all_reach dp (pick mass) Hpm HD inc k Hk) as [mk Hr].
      set (sb := sub (length dp) (kids dp (length dp)) k).
      assert (forall x, In x sb <-> anc (length dp) (D dp) x k) as Hin by (intro x; apply (sub_In (length dp) (D dp) (kids dp (length dp)) HD HkI HkN mk k x Hr)).
      assert (forall x, In x sb -> ins (length dp) x) as Hins by (intros x Hx; apply Hin in Hx; destruct Hx; assumption).
      exists (map ix sb). split; [|split].
      - apply map_ix_nodup; [exact (sub_nodup (length dp) (D dp) (kids dp (length dp)) HD HkI HkN mk k Hr) | assumption].
      - intro p. split; intro H.
        + apply in_map_iff in H. destruct H as (x & <- & Hx). rewrite <- Ek. apply anc_up. now apply Hin.
        + destruct (anc_down p h H k Hk Ek) as (x & <- & Ha). apply in_map, Hin, Ha.
      - rewrite (put_nth m h k Hm Hk Ek), (HT k Hk). f_equal. unfold T, total. rewrite map_map. f_equal. apply map_ext_in. intros x Hx. apply pick_mass. now apply Hins.
    Qed.

    Lemma zchain_up h l : zchain dp h l -> chain ni di (ix h) (map ix l) /\ (forall x, In x l -> ins (length dp) x).
    Proof.
      induction 1 as [h Hh|h p l Hp' Hh E Hc [IH1 IH2]]; cbn [map]; (split; [|intros x [<-|Hx]; [assumption | try destruct Hx; try (now apply IH2)]]); [constructor|].
      apply (chain_more _ _ _ (ix p)); [now apply dir | assumption].
    Qed.
    Lemma zchain_down x l : chain ni di x l -> forall h, ins (length dp) h -> ix h = x -> exists l', zchain dp h l' /\ map ix l' = l.
    Proof.
      induction 1 as [x|x q l Hq Hc IH]; intros h Hh E; [exists [h]; split; [now constructor | now cbn; rewrite E]|].
      assert (q < length ni)%nat as Hqn by (destruct Hq as (y & Hy & _); rewrite <- Hld; apply nth_error_Some; congruence).
      destruct (ix_surj q Hqn) as (p & Hpp & Ep). apply ins_ni in Hpp. destruct (IH p Hpp Ep) as (l' & Hl' & Em). exists (h :: l'). split; [|cbn; now rewrite E, Em].
      apply (zcS dp h p); try assumption. apply dir; try assumption. now rewrite Ep, E.
    Qed.
    Lemma csum_total l : (forall x, In x l -> ins (length dp) x) -> csum (pick mass) l = total mass (map ix l).
    Proof. intro H. unfold csum, total. rewrite map_map. f_equal. apply map_ext_in. intros x Hx. apply pick_mass. now apply H. Qed.

    Lemma delucia_at m h : (h < length ni)%nat -> length m = length ni -> (forall j, ins (length dp) j -> best dp (pick mass) (Z.of_nat (length dp)) j (gz m j)) ->
      exists l v, nth_error (np_put junk idx m) h = Some v /\ chain ni di h l /\ total mass l = v /\ (forall l', chain ni di h l' -> total mass l' <= v).
    Proof.
      intros Hh Hm HB. destruct (ix_surj h Hh) as (k & Hk & Ek). apply ins_ni in Hk.
      assert (length (pick mass) = length dp) as Hpm by (rewrite pick_len; lia).
      destruct (best_all dp (pick mass) Hpm HD inc (Z.of_nat (length dp)) k _ Hk ltac:(unfold ins in Hk; lia) (HB k Hk)) as [(l & Hl1 & Hl2) Hl3].
      destruct (zchain_up _ _ Hl1) as [Hc Hi]. exists (map ix l), (gz m k). rewrite Ek in Hc. split; [now apply put_nth|]. split; [assumption|]. split; [rewrite <- csum_total by assumption; assumption|].
      intros l' Hl'. destruct (zchain_down h l' Hl' k Hk Ek) as (l'' & Hz & <-). rewrite <- csum_total; [now apply Hl3 | now apply zchain_up in Hz].
    Qed.
  End Idx.

  Lemma setup : exists idx dp, lexsort2 (map Z.opp ni) snap = Ok idx /\ Permutation idx (zseq 0 (length ni)) /\
    StronglySorted (fun i j => gz snap i < gz snap j \/ gz snap i = gz snap j /\ gz (map Z.opp ni) i <= gz (map Z.opp ni) j) idx /\
    match_ ZOrd (node_order (pick idx ni)) false None (pick idx di) (pick idx ni) = Ok dp /\ length dp = length ni /\
    (forall i, ins (length dp) i -> D dp i = -1 \/ ins (length dp) (D dp i)) /\
    (forall p h, ins (length dp) p -> ins (length dp) h -> D dp p = h <-> direct (pick idx ni) (pick idx di) (Z.to_nat p) (Z.to_nat h)).
  Proof.
    destruct (lexsort2_ok (map Z.opp ni) snap) as (idx & E & Hp & Hs); [rewrite map_length; lia|]. rewrite Hls in Hp. exists idx.
    destruct (pointers (node_order (pick idx ni)) (pick idx ni) (pick idx di)) as (dp & Em & Hl & HD & Hdir).
    - rewrite !pick_len by assumption. reflexivity.
    - now apply pick_nodup.
    - apply Ho.
    - exists dp. rewrite pick_len in Hl by assumption. repeat split; try assumption; now apply Hdir.
  Qed.

  Lemma tree_mass_main : exists out, find_progenitor_tree_mass node_order junk ni di snap mass = Ok out /\ length out = length ni /\
    forall h, (h < length ni)%nat -> exists ps, NoDup ps /\ (forall p, In p ps <-> progenitor ni di p h) /\ nth_error out h = Some (total mass ps).
  Proof.
    destruct setup as (idx & dp & E & Hp & Hs & Em & Hl & HD & Hdir). unfold find_progenitor_tree_mass. rewrite E. cbn [bind].
    rewrite !(take_pick idx) by (first [assumption | reflexivity]). cbn [bind]. rewrite Em. cbn [bind].
    assert (length (pick idx mass) = length dp) as Hpm by (rewrite pick_len by assumption; lia).
    destruct (tree_loop dp (pick idx mass) Hpm HD (inc idx Hp Hs dp Hl HD Hdir) (length dp) (le_n _)) as (m & Ef & Hm & Hg). rewrite Hl in Ef at 1. rewrite Ef. cbn [bind].
    exists (np_put junk idx m). split; [reflexivity|]. split; [rewrite np_put_length; assumption|]. intros h Hh.
    apply (tree_mass_at idx Hp Hs dp Hl HD Hdir m h Hh); [unfold zlen in Hm; lia|]. intros j Hj. rewrite (Hg j Hj). symmetry. apply (T_eq dp (pick idx mass) Hpm HD (inc idx Hp Hs dp Hl HD Hdir) j Hj).
  Qed.

  Lemma delucia_main : exists out, find_progenitor_branch_mass_delucia node_order junk ni di snap mass = Ok out /\ length out = length ni /\
    forall h, (h < length ni)%nat -> exists l v, nth_error out h = Some v /\ chain ni di h l /\ total mass l = v /\ (forall l', chain ni di h l' -> total mass l' <= v).
  Proof.
    destruct setup as (idx & dp & E & Hp & Hs & Em & Hl & HD & Hdir). unfold find_progenitor_branch_mass_delucia. rewrite E. cbn [bind].
    rewrite !(take_pick idx) by (first [assumption | reflexivity]). cbn [bind]. rewrite Em. cbn [bind].
    assert (length (pick idx mass) = length dp) as Hpm by (rewrite pick_len by assumption; lia).
    set (mdesc := map (fun p => if 0 <=? p then gz (pick idx mass) p else 0) dp).
    assert (mapM (fun p => if 0 <=? p then py_nth (pick idx mass) p else Ok 0) dp = Ok mdesc) as Emd.
    { apply mapM_map_ok. intros p Hin. destruct (Z.leb_spec 0 p); [|reflexivity]. apply gz_py. apply (In_nth _ _ (-1)) in Hin. destruct Hin as (k & Hk & Ep).
      destruct (HD (Z.of_nat k)) as [Hm1|Hi]; [unfold ins; lia | unfold D, gz in Hm1; rewrite Nat2Z.id in Hm1; lia |]. unfold D, gz in Hi. rewrite Nat2Z.id, Ep in Hi. unfold ins in Hi. unfold zlen. lia. }
    rewrite Emd. cbn [bind].
    destruct (delucia_loop dp (pick idx mass) Hpm HD (inc idx Hp Hs dp Hl HD Hdir) mdesc) with (k := length dp) as (m & Ef & Hm & Hg).
    { unfold mdesc. apply zlen_map. }
    { intros i Hi Hd. unfold mdesc, gz at 1. apply nth_error_nth. rewrite nth_error_map, nth_error_gz by (unfold ins in Hi; unfold zlen; lia). cbn. change (gz dp i) with (D dp i). replace (0 <=? D dp i) with true by (unfold ins in Hd; lia). reflexivity. }
    { apply le_n. }
    rewrite Hl in Ef at 1. rewrite Ef. cbn [bind]. exists (np_put junk idx m). split; [reflexivity|]. split; [rewrite np_put_length; assumption|]. intros h Hh.
    apply (delucia_at idx Hp Hs dp Hl HD Hdir m h Hh); [unfold zlen in Hm; lia | exact Hg].
  Qed.
End Transport.
