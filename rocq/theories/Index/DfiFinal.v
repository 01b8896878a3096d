(** depth_first_index as a whole. *)
From Verif.Base Require Import Prelude Order ListLemmas.
From Verif.Util Require Import UMatchModel MatchRangesProps.
From Verif.Index Require Import IndexModel IndexSpec LinkProofs ForestProofs WalkProofs EndsProofs.
From Coq Require Import ZifyBool ZifyNat Relation_Operators Operators_Properties.
Local Open Scope Z_scope.

Lemma gz_nth_error l i x : 0 <= i -> nth_error l (Z.to_nat i) = Some x -> gz l i = x.
Proof. intros _ H. unfold gz. now apply nth_error_nth. Qed.

Lemma nth_error_gz l i : 0 <= i < zlen l -> nth_error l (Z.to_nat i) = Some (gz l i).
Proof. intro H. unfold gz. apply nth_error_nth'. unfold zlen in H. lia. Qed.

Lemma clos_trans_first {A} (R : A -> A -> Prop) x y : clos_trans A R x y -> exists q, R x q /\ clos_refl_trans A R q y.
Proof.
  induction 1 as [x y H|x y z H1 (q & Hq & Hy) H2 (q' & Hq' & Hz)]; [exists y; split; [assumption | apply rt_refl]|].
  exists q. split; [assumption|]. eapply rt_trans; [exact Hy|]. eapply rt_trans; [apply rt_step; exact Hq' | exact Hz].
Qed.

Lemma clos_trans_cons {A} (R : A -> A -> Prop) x y z : R x y -> clos_refl_trans A R y z -> clos_trans A R x z.
Proof.
  intros H Hr. apply clos_rt_rtn1 in Hr. induction Hr as [|u v Huv Hr IH]; [now apply t_step|]. eapply t_trans; [exact IH | now apply t_step].
Qed.

(** pointers found by match *)
Section Pointers.
  Context (node_order ni di : list Z) (Hl : length di = length ni) (Hnd : NoDup ni) (Ho : is_argsort ZOrd ni node_order).

  Lemma pointers : exists dp, match_ ZOrd node_order false None di ni = Ok dp /\ length dp = length ni /\
    (forall i, ins (length dp) i -> D dp i = -1 \/ ins (length dp) (D dp i)) /\
    (forall p h, ins (length dp) p -> ins (length dp) h -> D dp p = h <-> direct ni di (Z.to_nat p) (Z.to_nat h)).
  Proof.
    destruct (C26_match Z ZOrd node_order false None di ni Ho) as (dp & E & HF). exists dp. split; [assumption|].
    pose proof (Forall2_len _ _ _ HF) as Hlen. split; [lia|].
    assert (forall i, ins (length dp) i -> exists x, nth_error di (Z.to_nat i) = Some x /\ (D dp i = -1 /\ ~ In x ni \/ 0 <= D dp i /\ nth_error ni (Z.to_nat (D dp i)) = Some x)) as Hent.
    { intros i Hi. unfold ins in Hi. assert (Z.to_nat i < length di)%nat as Hi' by lia. exists (nth (Z.to_nat i) di 0). split; [now apply nth_error_nth'|].
      unfold D, gz. clear -HF Hi'. revert Hi'. generalize (Z.to_nat i). induction HF as [|x j l m H HF IH]; intros k Hk; [cbn in Hk; lia|]. destruct k as [|k]; cbn [nth]; [assumption|]. apply IH. cbn in Hk. lia. }
    split.
    - intros i Hi. destruct (Hent i Hi) as (x & _ & [[H _]|[H1 H2]]); [now left|]. right. unfold ins. apply nth_error_Some_bound in H2 || (assert (nth_error ni (Z.to_nat (D dp i)) <> None) as Hne by congruence; apply nth_error_Some in Hne; lia).
    - intros p h Hp Hh. destruct (Hent p Hp) as (x & Hx & H). split.
      + intros <-. destruct H as [[H _]|[_ H]]; [unfold ins in Hh; lia|]. now exists x.
      + intros (y & Hy & Hy'). assert (y = x) as -> by congruence. destruct H as [[_ H]|[H1 H2]]; [exfalso; apply H; now apply nth_error_In in Hy'|].
        assert (Z.to_nat (D dp p) = Z.to_nat h) as Heq.
        { rewrite NoDup_nth_error in Hnd. apply Hnd; [apply nth_error_Some; congruence | congruence]. }
        unfold ins in Hh. lia.
  Qed.
End Pointers.

Section Dfi.
  Context {M : Type} (Od : TOrd M).
  Context (node_order mass_order : list Z) (index_order : list Z -> list Z) (ni di : list Z) (mb : list M).
  Context (Hl : length di = length ni) (Hlm : length mb = length ni) (Hnd : NoDup ni).
  Context (Ho : is_argsort ZOrd ni node_order) (Hm : is_argsort Od mb mass_order) (Hi : forall l, is_argsort ZOrd l (index_order l)).
  Set Default Proof Using "All".

  Lemma final_halos_ok dp : (forall i, ins (length dp) i -> D dp i = -1 \/ ins (length dp) (D dp i)) ->
    (forall f, In f (final_halos dp) <-> ins (length dp) f /\ D dp f = -1) /\ NoDup (final_halos dp).
  Proof.
    intro HD. unfold final_halos.
    assert (forall l s, np_mask (zseq s (length l)) (map (fun d => d <? 0) l) = filter (fun i => nth (Z.to_nat (i - s)) l (-1) <? 0) (zseq s (length l))) as Hmask.
    { induction l as [|d l IH]; intro s; [reflexivity|]. change (zseq s (length (d :: l))) with (s :: zseq (s + 1) (length l)) || (cbn [length]; change (S (length l)) with (1 + length l)%nat; rewrite zseq_app; change (zseq s 1) with [s]; cbn [app]).
      cbn [map np_mask filter]. rewrite Z.sub_diag. cbn [nth Z.to_nat]. rewrite IH.
      assert (filter (fun i => nth (Z.to_nat (i - (s + 1))) l (-1) <? 0) (zseq (s + 1) (length l)) = filter (fun i => nth (Z.to_nat (i - s)) (d :: l) (-1) <? 0) (zseq (s + 1) (length l))) as ->.
      { apply filter_ext_in. intros i Hin. apply In_zseq in Hin. replace (Z.to_nat (i - s)) with (S (Z.to_nat (i - (s + 1)))) by lia. reflexivity. }
      destruct (d <? 0); reflexivity. }
    rewrite Hmask. split; [|apply NoDup_filter, NoDup_zseq]. intro f. rewrite filter_In, In_zseq, Z.sub_0_r. change (nth (Z.to_nat f) dp (-1)) with (D dp f). unfold ins. split.
    - intros [H1 H2]. split; [lia|]. destruct (HD f); [unfold ins; lia | assumption |]. unfold ins in *. lia.
    - intros [H1 H2]. rewrite H2. split; [lia | reflexivity].
  Qed.

  Section WithPtr.
    Context (dp : list Z) (Hdp : length dp = length ni) (HD : forall i, ins (length dp) i -> D dp i = -1 \/ ins (length dp) (D dp i))
            (Hdir : forall p h, ins (length dp) p -> ins (length dp) h -> D dp p = h <-> direct ni di (Z.to_nat p) (Z.to_nat h)).
    Definition ch := chp dp mass_order.

    Lemma order_in i : In i mass_order <-> ins (length dp) i.
    Proof.
      destruct Hm as [Hp _]. split; intro H.
      - apply (Permutation_in _ Hp), In_zseq in H. unfold ins. lia.
      - apply (Permutation_in _ (Permutation_sym Hp)), In_zseq. unfold ins in H. lia.
    Qed.

    Lemma ch_In j c : ins (length dp) j -> In c (ch j) <-> ins (length dp) c /\ D dp c = j.
    Proof. intro Hj. unfold ch. rewrite chp_In, order_in. reflexivity. Qed.

    Lemma ch_nodup j : NoDup (ch j).
    Proof. unfold ch, chp. apply NoDup_rev, NoDup_filter. destruct Hm as [Hp _]. apply (Permutation_NoDup (Permutation_sym Hp)), NoDup_zseq. Qed.

    Lemma ch_sorted j l1 p l2 q : ch j = l1 ++ p :: l2 -> In q l2 -> mass_le Od mb (Z.to_nat q) (Z.to_nat p).
    Proof.
      intros E Hq. destruct Hm as [_ Hs]. apply (f_equal (@rev Z)) in E. unfold ch, chp in E. rewrite rev_involutive, rev_app_distr in E. cbn [rev] in E.
      assert (StronglySorted (fun i j : Z => forall a b : M, nth_error mb (Z.to_nat i) = Some a -> nth_error mb (Z.to_nat j) = Some b -> leb Od a b = true) (filter (fun i => D dp i =? j) mass_order)) as Hf.
      { clear -Hs. induction Hs as [|x l Hs IH Hx]; cbn [filter]; [constructor|]. destruct (D dp x =? j); [|assumption]. constructor; [assumption|].
        rewrite Forall_forall in *. intros y Hy. apply filter_In in Hy. now apply Hx. }
      rewrite E, <- app_assoc in Hf. apply StronglySorted_app in Hf. destruct Hf as (_ & _ & Hf).
      intros a b. apply Hf; [now apply in_rev in Hq | now left].
    Qed.

    Lemma direct_range p h : direct ni di p h -> ins (length dp) (Z.of_nat p) /\ ins (length dp) (Z.of_nat h).
    Proof.
      intros (x & H1 & H2). assert (nth_error di p <> None) as H1' by congruence. assert (nth_error ni h <> None) as H2' by congruence. apply nth_error_Some in H1', H2'. unfold ins. lia.
    Qed.
    Lemma direct_D p h : direct ni di p h -> D dp (Z.of_nat p) = Z.of_nat h.
    Proof. intro H. destruct (direct_range _ _ H) as [Hp Hh]. apply Hdir; [assumption | assumption|]. now rewrite !Nat2Z.id. Qed.

    Lemma anc_prog p h : anc (length dp) (D dp) p h -> progenitor ni di (Z.to_nat p) (Z.to_nat h).
    Proof.
      induction 1 as [h Hh|p h Hp Hd Ha IH]; [apply rt_refl|]. eapply rt_trans; [apply rt_step | exact IH]. now apply Hdir.
    Qed.
    Lemma prog_anc p h : progenitor ni di p h -> ins (length dp) (Z.of_nat h) -> anc (length dp) (D dp) (Z.of_nat p) (Z.of_nat h).
    Proof.
      intro H. apply clos_rt_rt1n in H. induction H as [h|p q h Hpq H IH]; intro Hh; [now constructor|].
      destruct (direct_range _ _ Hpq) as [Hp Hq]. pose proof (direct_D _ _ Hpq) as E. apply anc_step; [assumption | now rewrite E | rewrite E; now apply IH].
    Qed.

    Lemma cyclic_anc : cyclic ni di <-> exists c, ins (length dp) c /\ ins (length dp) (D dp c) /\ anc (length dp) (D dp) (D dp c) c.
    Proof.
      split.
      - intros (h & H). destruct (clos_trans_first _ _ _ H) as (q & Hq & Hp).
        destruct (direct_range _ _ Hq) as [Hh Hqr]. exists (Z.of_nat h). rewrite (direct_D _ _ Hq). repeat split; try apply Hh; try apply Hqr. now apply prog_anc.
      - intros (c & Hc & Hd & Ha). exists (Z.to_nat c). apply anc_prog in Ha.
        assert (direct ni di (Z.to_nat c) (Z.to_nat (D dp c))) as Hdc by (now apply Hdir).
        exact (clos_trans_cons _ _ _ _ Hdc Ha).
    Qed.

    Definition dfirst := assign (whole (length dp) ch (final_halos dp)) (minus_ones di) 1.

    Lemma zlen_dp : zlen dp = zlen di.
    Proof. unfold zlen. lia. Qed.

    Lemma whole_ins x : In x (whole (length dp) ch (final_halos dp)) -> 0 <= x < zlen (minus_ones di).
    Proof.
      intro H. destruct (final_halos_ok dp HD) as [Hf Hfn]. apply (whole_In (length dp) (D dp) ch HD ch_In ch_nodup _ Hf Hfn) in H. destruct H as [m Hr].
      apply (reach_in (length dp) (D dp) ch HD ch_In ch_nodup) in Hr. unfold ins in Hr. rewrite zlen_minus_ones. unfold zlen. lia.
    Qed.

    Lemma dfirst_len : zlen dfirst = zlen dp.
    Proof. unfold dfirst. rewrite assign_len, zlen_minus_ones. symmetry. apply zlen_dp. Qed.

    Lemma dfirst_num k : (k < length (whole (length dp) ch (final_halos dp)))%nat -> gz dfirst (nth k (whole (length dp) ch (final_halos dp)) 0) = 1 + Z.of_nat k.
    Proof.
      destruct (final_halos_ok dp HD) as [Hf Hfn]. apply assign_nth; [apply whole_ins | apply (whole_nodup (length dp) (D dp) ch HD ch_In ch_nodup _ Hf Hfn)].
    Qed.

    (** the function up to line 90 *)
    Lemma upto_walk : exists pp np, zlen pp = zlen dp /\ (forall j, ins (length dp) j -> gz pp j = hd (-1) (ch j)) /\
      foldM (link dp) mass_order (minus_ones dp, minus_ones dp) = Ok (pp, np) /\
      foldM (walk_tree pp np dp) (final_halos dp) (minus_ones di, 1) = Ok (dfirst, 1 + zlen (whole (length dp) ch (final_halos dp))).
    Proof.
      destruct (final_halos_ok dp HD) as [Hf Hfn].
      assert (forall i, inr dp i -> D dp i = -1 \/ inr dp (D dp i)) as HD' by (exact HD).
      destruct (link_main dp HD' mass_order) as (pp & np & E & (Hp & Hn & H1 & H2 & _)).
      { destruct Hm as [Hp _]. unfold N. rewrite Hdp, <- Hlm. exact Hp. }
      exists pp, np. split; [assumption|]. split; [exact H1|]. split; [assumption|].
      apply (walk_all dp pp np ch Hp Hn HD ch_In ch_nodup H1 H2); [intros f Hin; now apply Hf | rewrite zlen_minus_ones; symmetry; apply zlen_dp].
    Qed.

    Lemma order_desc : StronglySorted (fun i j => gz dfirst j <= gz dfirst i) (index_order (map Z.opp dfirst)).
    Proof.
      destruct (Hi (map Z.opp dfirst)) as [Hp Hs]. eapply StronglySorted_weaken; [|exact Hs]. intros x y Hx Hy H. cbv beta in H.
      apply (Permutation_in _ Hp), In_zseq in Hx, Hy. rewrite map_length in Hx, Hy.
      specialize (H (- gz dfirst x) (- gz dfirst y)). cbn [leb ZOrd] in H.
      rewrite !nth_error_map, !nth_error_gz in H by (unfold zlen; lia). specialize (H eq_refl eq_refl). lia.
    Qed.

    Lemma order_perm : Permutation (index_order (map Z.opp dfirst)) (zseq 0 (length dp)).
    Proof.
      destruct (Hi (map Z.opp dfirst)) as [Hp _]. rewrite map_length in Hp. pose proof dfirst_len as E. unfold zlen in E. replace (length dp) with (length dfirst) by lia. exact Hp.
    Qed.

    Lemma dfi_cycle : cyclic ni di -> match_ ZOrd node_order false None di ni = Ok dp -> depth_first_index node_order mass_order index_order ni di mb = Err EAssert.
    Proof.
      intros Hc Em. destruct (final_halos_ok dp HD) as [Hf Hfn]. destruct upto_walk as (pp & np & Hpp & Hfirst & El & Ew).
      unfold depth_first_index. rewrite Em. cbn [bind]. rewrite El. cbn [bind]. rewrite Ew. cbn [bind].
      destruct (update_total dp pp ch Hpp HD ch_In ch_nodup Hfirst (index_order (map Z.opp dfirst)) dfirst dfirst) as (e & l & Eu & He & Hl').
      { intros i Hin. apply (Permutation_in _ order_perm), In_zseq in Hin. unfold ins. lia. }
      { apply dfirst_len. } { apply dfirst_len. }
      rewrite Eu. cbn [bind].
      assert (forallb (fun x => 0 <=? x) dfirst = false) as Hneg.
      { destruct (forallb (fun x => 0 <=? x) dfirst) eqn:Efa; [|reflexivity]. exfalso. rewrite forallb_forall in Efa.
        apply cyclic_anc in Hc. revert Hc. apply (reach_acyclic (length dp) (D dp) ch HD ch_In ch_nodup). intros j Hj.
        apply (whole_In (length dp) (D dp) ch HD ch_In ch_nodup _ Hf Hfn).
        destruct (in_dec Z.eq_dec j (whole (length dp) ch (final_halos dp))) as [Hin|Hno]; [assumption|]. exfalso.
        assert (gz dfirst j = -1) as Ej. { unfold dfirst. rewrite assign_out; [apply gz_minus_ones | apply whole_ins | unfold ins in Hj; lia | assumption]. }
        specialize (Efa (gz dfirst j)). rewrite Ej in Efa. assert (0 <=? -1 = true) as Hbad; [|discriminate Hbad]. apply Efa. rewrite <- Ej. unfold gz. apply nth_In. pose proof dfirst_len as E. unfold zlen, ins in *. lia. }
      rewrite Hneg. unfold check. destruct (forallb (fun x => 0 <=? x) e); [|reflexivity]. cbn [bind]. destruct (forallb (fun x => 0 <=? x) l); reflexivity.
    Qed.

    Lemma dfi_acyclic : ~ cyclic ni di -> match_ ZOrd node_order false None di ni = Ok dp ->
      exists e l, depth_first_index node_order mass_order index_order ni di mb = Ok (dfirst, e, l) /\ zlen e = zlen dp /\ zlen l = zlen dp /\
        (forall j, ins (length dp) j -> exists m, reach (length dp) (D dp) m j) /\
        (forall j, ins (length dp) j -> gz l j = Lp dp ch dfirst j /\ gz e j = Ep dp ch dfirst j).
    Proof.
      intros Hc Em. destruct (final_halos_ok dp HD) as [Hf Hfn]. destruct upto_walk as (pp & np & Hpp & Hfirst & El & Ew).
      assert (forall j, ins (length dp) j -> exists m, reach (length dp) (D dp) m j) as Hall.
      { apply (acyclic_reach (length dp) (D dp) ch HD ch_In ch_nodup). now rewrite <- cyclic_anc. }
      destruct (ends_ok dp pp ch Hpp HD ch_In ch_nodup Hfirst _ Hf Hfn dfirst dfirst_len dfirst_num Hall _ order_perm order_desc) as (e & l & Eu & He & Hle & Hends).
      exists e, l. split; [|split; [assumption | split; [assumption | split; [assumption|]]]; exact Hends].
      unfold depth_first_index. rewrite Em. cbn [bind]. rewrite El. cbn [bind]. rewrite Ew. cbn [bind]. rewrite Eu. cbn [bind].
      pose proof dfirst_len as Hdl.
      assert (forall j, ins (length dp) j -> 1 <= gz dfirst j /\ gz dfirst j <= gz e j <= gz l j) as Hb.
      { intros j Hj. destruct (Hall j Hj) as [m Hr]. destruct (Hends j Hj) as [-> ->].
        pose proof (main_le dp pp ch Hpp HD ch_In ch_nodup Hfirst m j Hr) as Hml. unfold Lp, Ep, zlen.
        assert (In j (whole (length dp) ch (final_halos dp))) as Hin by (apply (whole_In (length dp) (D dp) ch HD ch_In ch_nodup _ Hf Hfn); now exists m).
        apply (In_nth _ _ 0) in Hin. destruct Hin as (k & Hk & <-). rewrite dfirst_num by assumption. lia. }
      assert (forall x, 0 <= x < zlen dp -> ins (length dp) x) as Hz by (unfold ins, zlen; lia).
      assert (forall u, zlen u = zlen dp -> (forall j, ins (length dp) j -> 0 <= gz u j) -> forallb (fun x => 0 <=? x) u = true) as Hpos.
      { intros u Hu H. apply forallb_forall. intros x Hx. apply (In_nth _ _ (-1)) in Hx. destruct Hx as (k & Hk & <-).
        specialize (H (Z.of_nat k)). unfold gz in H. rewrite Nat2Z.id in H. apply Z.leb_le, H, Hz. unfold zlen in *. lia. }
      assert (forall u v, zlen u = zlen dp -> zlen v = zlen dp -> (forall j, ins (length dp) j -> gz v j <= gz u j) -> forallb (fun ab => snd ab <=? fst ab) (combine u v) = true) as Hcmp.
      { intros u v Hu Hv H. apply forallb_forall. intros [a b] Hab. apply (In_nth _ _ (-1, -1)) in Hab. destruct Hab as (k & Hk & Eab). rewrite combine_length in Hk.
        rewrite combine_nth in Eab by (unfold zlen in *; lia). injection Eab as <- <-. cbn [fst snd].
        specialize (H (Z.of_nat k)). unfold gz in H. rewrite Nat2Z.id in H. apply Z.leb_le, H, Hz. unfold zlen in *. lia. }
      rewrite (Hpos e He) by (intros j Hj; destruct (Hb j Hj); lia). rewrite (Hpos l Hle) by (intros j Hj; destruct (Hb j Hj); lia). rewrite (Hpos dfirst Hdl) by (intros j Hj; destruct (Hb j Hj); lia).
      rewrite (Hcmp l e) by (try assumption; intros j Hj; destruct (Hb j Hj); lia). rewrite (Hcmp e dfirst) by (try assumption; intros j Hj; destruct (Hb j Hj); lia). reflexivity.
    Qed.
  End WithPtr.
End Dfi.
