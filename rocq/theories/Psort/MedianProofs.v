(** Proofs about weighted_median with exact weights. *)
From Coq Require Import QArith Lqa.
From Verif.Base Require Import Prelude ListLemmas Order.
From Verif.Psort Require Import SplitModel.
Local Open Scope Q_scope.

Lemma sumQ_app l m : sumQ (l ++ m) == sumQ l + sumQ m.
Proof. induction l as [|x l IH]; cbn [app sumQ fold_right]; [unfold sumQ; lra|]. fold (sumQ (l ++ m)) (sumQ l). lra. Qed.
Lemma sumQ_perm l m : Permutation l m -> sumQ l == sumQ m.
Proof.
  induction 1; cbn [sumQ fold_right]; try reflexivity.
  - fold (sumQ l) (sumQ l'). lra.
  - fold (sumQ l). lra.
  - etransitivity; eassumption.
Qed.
Lemma sumQ_nonneg l : Forall (fun w => 0 <= w) l -> 0 <= sumQ l.
Proof. induction 1 as [|x l Hx _ IH]; cbn [sumQ fold_right]; [lra|]. fold (sumQ l). lra. Qed.
Lemma sumQ_div l t : sumQ (map (fun w => w / t) l) == sumQ l / t.
Proof.
  induction l as [|x l IH]; cbn [map sumQ fold_right].
  - unfold Qdiv. ring.
  - fold (sumQ (map (fun w => w / t) l)) (sumQ l). rewrite IH. unfold Qdiv. ring.
Qed.

Section WM.
  Context {A : Type} (Od : TOrd A).

  Definition chosen (c : Q) (w : Q) : bool := Qle_bool (c + w - w) (1#2) && Qle_bool (1 - (c + w)) (1#2).
  Fixpoint sel (c : Q) (L : list (A * Q)) : list A :=
    match L with
    | [] => []
    | (a, w) :: L' => if chosen c w then a :: sel (c + w) L' else sel (c + w) L'
    end.
  Lemma sel_mask c (L : list (A * Q)) :
    np_mask (map fst L)
      (zipwith (fun b a => Qle_bool b (1#2) && Qle_bool a (1#2))
         (zipwith Qminus (cumsumQ_from c (map snd L)) (map snd L))
         (map (fun c => 1 - c) (cumsumQ_from c (map snd L)))) = sel c L.
  Proof.
    revert c; induction L as [|[a w] L IH]; intro c; [reflexivity|].
    cbn [map fst snd cumsumQ_from zipwith np_mask sel]. rewrite IH. reflexivity.
  Qed.

  Lemma sel_first L : forall c, c < 1#2 -> Forall (fun x => 0 <= snd x) L -> c + sumQ (map snd L) == 1 ->
    exists L1 a w L2 rest, L = L1 ++ (a, w) :: L2 /\ sel c L = a :: rest /\ 0 < w /\
      c + sumQ (map snd L1) <= 1#2 /\ sumQ (map snd L2) <= 1#2.
  Proof.
    induction L as [|[a w] L IH]; intros c Hc Hw Hs.
    - cbn in Hs. exfalso. lra.
    - inversion Hw as [|x l Hw0 Hw']; subst. cbn [snd] in Hw0.
      cbn [map snd sumQ fold_right] in Hs. fold (sumQ (map snd L)) in Hs.
      destruct (Qlt_le_dec (c + w) (1#2)) as [Hlt|Hge].
      + destruct (IH (c + w)) as (L1 & b & v & L2 & rest & E1 & E2 & E3 & E4 & E5); [exact Hlt | exact Hw' | lra |].
        exists ((a, w) :: L1), b, v, L2, rest. split; [now rewrite E1|]. split.
        * cbn [sel]. unfold chosen. destruct (Qle_bool (1 - (c + w)) (1#2)) eqn:E.
          -- apply Qle_bool_iff in E. exfalso. lra.
          -- now rewrite andb_false_r.
        * split; [assumption|]. cbn [map snd sumQ fold_right]. fold (sumQ (map snd L1)). split; [lra | assumption].
      + exists [], a, w, L, (sel (c + w) L). split; [reflexivity|]. split.
        * cbn [sel]. unfold chosen.
          assert (Qle_bool (c + w - w) (1#2) = true) as -> by (apply Qle_bool_iff; lra).
          assert (Qle_bool (1 - (c + w)) (1#2) = true) as -> by (apply Qle_bool_iff; lra). reflexivity.
        * split; [lra|]. cbn. split; lra.
  Qed.

  (** total weight of the elements satisfying p *)
  Definition weight_of_pairs (p : A -> bool) (L : list (A * Q)) : Q :=
    sumQ (map snd (filter (fun x => p (fst x)) L)).

  Lemma weight_perm p L M : Permutation L M -> weight_of_pairs p L == weight_of_pairs p M.
  Proof.
    intro H. apply sumQ_perm, Permutation_map. induction H; cbn [filter]; try reflexivity.
    - destruct (p (fst x)); [constructor|]; assumption.
    - destruct (p (fst x)), (p (fst y)); try reflexivity. apply perm_swap.
    - etransitivity; eassumption.
  Qed.
  Lemma weight_le_all p L : Forall (fun x => 0 <= snd x) L -> weight_of_pairs p L <= sumQ (map snd L).
  Proof.
    unfold weight_of_pairs. induction 1 as [|[a w] L Hx _ IH]; cbn [filter map snd sumQ fold_right fst]; [lra|].
    cbn [snd] in Hx. fold (sumQ (map snd L)). destruct (p a); cbn [map snd sumQ fold_right];
      fold (sumQ (map snd (filter (fun x => p (fst x)) L))); lra.
  Qed.
  Lemma weight_none p L : (forall a w, In (a, w) L -> p a = false) -> weight_of_pairs p L == 0.
  Proof.
    unfold weight_of_pairs. induction L as [|[a w] L IH]; intro H; cbn [filter fst]; [reflexivity|].
    rewrite (H a w) by (now left). apply IH. intros; apply (H a0 w0). now right.
  Qed.
  Lemma weight_app p L M : weight_of_pairs p (L ++ M) == weight_of_pairs p L + weight_of_pairs p M.
  Proof. unfold weight_of_pairs. rewrite filter_app, map_app. apply sumQ_app. Qed.
  Lemma weight_scale p L t : weight_of_pairs p (map (fun x => (fst x, snd x / t)) L) == weight_of_pairs p L / t.
  Proof.
    unfold weight_of_pairs. rewrite <- sumQ_div, map_map.
    enough (map snd (filter (fun x => p (fst x)) (map (fun x => (fst x, snd x / t)) L)) =
            map (fun x => snd x / t) (filter (fun x => p (fst x)) L)) as -> by reflexivity.
    induction L as [|[a w] L IH]; cbn [map filter fst snd]; [reflexivity|].
    destruct (p a); cbn [map snd]; now rewrite IH.
  Qed.

  Lemma combine_map_nth {B} (arr : list A) (w : list B) da dw idx :
    length w = length arr -> (forall i, In i idx -> (0 <= i < zlen arr)%Z) ->
    combine (map (fun i => nth (Z.to_nat i) arr da) idx) (map (fun i => nth (Z.to_nat i) w dw) idx) =
    map (fun i => nth (Z.to_nat i) (combine arr w) (da, dw)) idx.
  Proof.
    intros Hl Hr. induction idx as [|i idx IH]; [reflexivity|]. cbn [map combine]. rewrite IH.
    - now rewrite combine_nth.
    - intros; apply Hr; now right.
  Qed.

  Lemma weighted_median_main (arr : list A) (weight : list Q) :
    length weight = length arr -> Forall (fun w => 0 <= w) weight -> 0 < sumQ weight ->
    exists k v w, weighted_median Od arr weight = Ok v /\ nth_error arr k = Some v /\ nth_error weight k = Some w /\ 0 < w /\
      weight_of_pairs (fun x => ltb Od x v) (combine arr weight) <= sumQ weight / 2 /\
      weight_of_pairs (fun x => ltb Od v x) (combine arr weight) <= sumQ weight / 2.
  Proof.
    intros Hl Hw Hs.
    destruct arr as [|a0 arr0].
    { destruct weight; [cbn in Hs; exfalso; lra | discriminate]. }
    set (arr := a0 :: arr0) in *. unfold weighted_median.
    pose proof (argsort_is_argsort Od arr) as HA. set (idx := argsort Od arr) in *.
    assert (forall i, In i idx -> (0 <= i < zlen arr)%Z) as Hr by (intros; eapply is_argsort_In; eassumption).
    rewrite np_take_ok with (d := a0) by assumption. cbn [bind].
    rewrite np_take_ok with (d := 0) by (unfold zlen in *; rewrite Hl; assumption). cbn [bind].
    set (arr' := map (fun i => nth (Z.to_nat i) arr a0) idx). set (w' := map (fun i => nth (Z.to_nat i) weight 0) idx).
    set (tot := sumQ w').
    set (M := combine arr weight).
    assert (length M = length arr) as HlM by (unfold M; rewrite combine_length; lia).
    set (L0 := map (fun i => nth (Z.to_nat i) M (a0, 0)) idx).
    assert (combine arr' w' = L0) as HL0 by (apply combine_map_nth; assumption).
    assert (Permutation L0 M) as HP.
    { destruct HA as [HPi _]. unfold L0. rewrite (Permutation_map _ HPi), <- HlM. now rewrite map_nth_zseq. }
    assert (map fst L0 = arr') as Hf.
    { rewrite <- HL0. apply map_fst_combine'. unfold arr', w'. now rewrite !map_length. }
    assert (map snd L0 = w') as Hsd.
    { rewrite <- HL0. apply map_snd_combine'. unfold arr', w'. now rewrite !map_length. }
    assert (map snd M = weight) as HsM by (apply map_snd_combine'; lia).
    assert (tot == sumQ weight) as Htot.
    { unfold tot. rewrite <- Hsd, <- HsM. apply sumQ_perm. now apply Permutation_map. }
    set (L := map (fun x => (fst x, snd x / tot)) L0).
    assert (map fst L = arr') as HfL by (unfold L; rewrite map_map; cbn [fst]; exact Hf).
    assert (map snd L = map (fun w => w / tot) w') as HsL.
    { unfold L. rewrite map_map. cbn [snd]. rewrite <- Hsd, map_map. reflexivity. }
    rewrite <- HfL, <- HsL. unfold cumsumQ. rewrite sel_mask.
    assert (Forall (fun x => 0 <= snd x) L0) as HwL0.
    { apply Forall_forall. intros [a w] Hin. apply (Permutation_in _ HP) in Hin. cbn [snd].
      apply in_combine_r in Hin. rewrite Forall_forall in Hw. auto. }
    assert (0 < tot) as Htp by (rewrite Htot; exact Hs).
    assert (Forall (fun x => 0 <= snd x) L) as HwL.
    { unfold L. apply Forall_map. cbn [snd]. eapply Forall_impl; [|exact HwL0]. intros x Hx.
      unfold Qdiv. apply Qmult_le_0_compat; [assumption|]. apply Qinv_le_0_compat. lra. }
    destruct (sel_first L 0) as (L1 & a & w & L2 & rest & E1 & E2 & E3 & E4 & E5); [reflexivity | exact HwL | |].
    { rewrite HsL. rewrite sumQ_div. fold tot. unfold Qdiv. field. lra. }
    rewrite E2.
    assert (In (a, w) L) as Hin by (rewrite E1; apply in_or_app; right; now left).
    unfold L in Hin. apply in_map_iff in Hin. destruct Hin as ([b v] & Eb & Hin). cbn [fst snd] in Eb.
    injection Eb as -> <-.
    assert (In (a, v) M) as HinM by (eapply Permutation_in; eassumption).
    apply In_nth with (d := (a0, 0)) in HinM. destruct HinM as (k & Hk & Ek).
    unfold M in Ek. rewrite combine_nth in Ek by lia. assert (nth k arr a0 = a) as Ek1 by congruence.
    assert (nth k weight 0 = v) as Ek2 by congruence.
    exists k, a, v. split; [reflexivity|]. split; [rewrite <- Ek1; apply nth_error_nth'; lia|].
    split; [rewrite <- Ek2; apply nth_error_nth'; lia|]. split.
    { assert (v == v / tot * tot) as -> by (field; lra). apply Qmult_lt_0_compat; assumption. }
    assert (StronglySorted (fun x y => leb Od (fst x) (fst y) = true) L) as HSL.
    { apply (StronglySorted_map fst (fun x y => leb Od x y = true)). rewrite HfL. apply (is_argsort_sorted Od). exact HA. }
    rewrite E1 in HSL. apply StronglySorted_app in HSL. destruct HSL as (_ & HS2 & HS3).
    inversion HS2 as [|x l HS4 HS5]; subst x l. rewrite Forall_forall in HS5.
    assert (Forall (fun x => 0 <= snd x) L1 /\ Forall (fun x => 0 <= snd x) L2) as [HwL1 HwL2].
    { rewrite E1 in HwL. apply Forall_app in HwL. destruct HwL as [H1 H2]. split; [assumption|]. now inversion H2. }
    assert (forall p, weight_of_pairs p M == weight_of_pairs p L * tot) as HML.
    { intro p. unfold L. rewrite weight_scale, (weight_perm p _ _ HP). field. lra. }
    split.
    - rewrite HML, E1, weight_app. rewrite (weight_none _ ((a, v / tot) :: L2)).
      + pose proof (weight_le_all (fun x => ltb Od x a) L1 HwL1) as H. rewrite <- Htot.
        assert ((weight_of_pairs (fun x => ltb Od x a) L1 + 0) * tot <= (1#2) * tot) as H2.
        { apply Qmult_le_compat_r; lra. }
        assert (tot / 2 == (1#2) * tot) as -> by field. exact H2.
      + intros b w [H|H].
        * injection H as <- <-. apply ltb_irrefl.
        * apply leb_not_ltb. apply (HS5 (b, w) H).
    - rewrite HML, E1. change (L1 ++ (a, v / tot) :: L2) with (L1 ++ [(a, v / tot)] ++ L2). rewrite app_assoc, weight_app.
      rewrite (weight_none _ (L1 ++ [(a, v / tot)])).
      + pose proof (weight_le_all (fun x => ltb Od a x) L2 HwL2) as H. rewrite <- Htot.
        assert ((0 + weight_of_pairs (fun x => ltb Od a x) L2) * tot <= (1#2) * tot) as H2.
        { apply Qmult_le_compat_r; lra. }
        assert (tot / 2 == (1#2) * tot) as -> by field. exact H2.
      + intros b w Hb. apply in_app_or in Hb. destruct Hb as [Hb|[Hb|[]]].
        * apply leb_not_ltb. apply (HS3 (b, w) (a, v / tot) Hb ltac:(now left)).
        * injection Hb as <- <-. apply ltb_irrefl.
  Qed.
End WM.
