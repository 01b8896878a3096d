From Verif Require Import Base.Prelude Base.Order Base.ListLemmas Peano.PeanoModel Util.RangesModel Psort.UniqueModel Psort.UniqueProofs.
From Verif Require Import Snap.SanityModel Snap.SanitySpec Snap.SanityProofs.
From Coq Require Import ZifyBool ZifyNat.
Local Open Scope Z_scope.

Ltac peel H N := let u := fresh "u" in apply bind_ok_inv in H; destruct H as (u & N & H).

Lemma any_nth (f : Z -> bool) l : any f l = false <-> forall k, (k < length l)%nat -> f (nth k l 0) = false.
Proof.
  rewrite any_false, Forall_forall. split; intro H.
  - intros k Hk. apply H. now apply nth_In.
  - intros x Hx. destruct (In_nth _ _ 0 Hx) as (k & Hk & <-). now apply H.
Qed.
Lemma any_mask (f : Z -> bool) : forall l m, length l = length m ->
  (any f (np_mask l m) = false <-> forall k, (k < length l)%nat -> nth k m false = true -> f (nth k l 0) = false).
Proof.
  induction l as [|a l IH]; intros [|b m] E; try discriminate; [cbn; split; [intros _ k; lia|reflexivity]|].
  injection E as E. cbn [np_mask length]. assert (I : any f (np_mask l m) = false <-> forall k, (S k < S (length l))%nat -> nth (S k) (b :: m) false = true -> f (nth (S k) (a :: l) 0) = false).
  { rewrite (IH m E). split; intros H k Hk; [apply H; lia|apply H; lia]. }
  destruct b; cbn [any existsb] in *; unfold any in *; cbn [existsb]; rewrite ?orb_false_iff, I; split.
  - intros [H1 H2] [|k] Hk Hm; [easy|now apply H2].
  - intro H. split; [apply (H 0%nat); [lia|easy]|]. intros k Hk Hm. now apply H.
  - intros H [|k] Hk Hm; [easy|now apply H].
  - intros H k Hk Hm. now apply H.
Qed.
Lemma any2_mask (f : Z -> Z -> bool) : forall l n m, length l = length m -> length n = length m ->
  (any2 f (np_mask l m) (np_mask n m) = false <-> forall k, (k < length l)%nat -> nth k m false = true -> f (nth k l 0) (nth k n 0) = false).
Proof.
  induction l as [|a l IH]; intros [|c n] [|b m] E E2; try discriminate; [cbn; split; [intros _ k; lia|reflexivity]|].
  injection E as E. injection E2 as E2. cbn [np_mask length].
  assert (I : any2 f (np_mask l m) (np_mask n m) = false <-> forall k, (S k < S (length l))%nat -> nth (S k) (b :: m) false = true -> f (nth (S k) (a :: l) 0) (nth (S k) (c :: n) 0) = false).
  { rewrite (IH n m E E2). split; intros H k Hk; [apply H; lia|apply H; lia]. }
  destruct b; rewrite ?any2_cons, ?orb_false_iff, I; split.
  - intros [H1 H2] [|k] Hk Hm; [easy|now apply H2].
  - intro H. split; [apply (H 0%nat); [lia|easy]|]. intros k Hk Hm. now apply H.
  - intros H [|k] Hk Hm; [easy|now apply H].
  - intros H k Hk Hm. now apply H.
Qed.
Lemma nth_gt0 l k : (k < length l)%nat -> nth k (map (fun n => n >? 0) l) false = (nth k l 0 >? 0).
Proof. intro H. rewrite nth_indep with (d' := 0 >? 0) by (now rewrite map_length). exact (map_nth (fun n => n >? 0) l 0 k). Qed.

(** an int32 sum that does not exceed [n] after wrapping *)
Lemma wrap_le o l n : 0 <= o < 2 ^ 31 -> 0 <= l < 2 ^ 31 -> wrap32 (o + l) <= n -> o + l <= n \/ 2 ^ 31 <= o + l.
Proof. intros. destruct (Z_lt_ge_dec (o + l) (2 ^ 31)); [left|right; lia]. rewrite wrap32_id in *; unfold int32; lia. Qed.

(** ** L-Gadget2 SubTabFile *)
Lemma repeat_sorted_app g n (m : list Z) : StronglySorted Z.le m -> Forall (fun x => g <= x) m -> StronglySorted Z.le (repeat g n ++ m).
Proof.
  intros Hm Hg. induction n as [|n IH]; [easy|]. cbn. constructor; [exact IH|]. apply Forall_app. split; [|easy].
  apply Forall_forall. intros x Hx. apply repeat_spec in Hx. lia.
Qed.
Lemma count_occ_repeat g h n : Z.of_nat (count_occ Z.eq_dec (repeat g n) h) = if g =? h then Z.of_nat n else 0.
Proof.
  induction n as [|n IH]; cbn; [now destruct (g =? h)|]. destruct (Z.eq_dec g h).
  - subst. rewrite Z.eqb_refl in *. lia.
  - replace (g =? h) with false in * by lia. lia.
Qed.
Lemma repeat_parents : forall nsub g0, Forall (fun n => 0 <= n) nsub ->
  let p := concat (zipwith (fun x c => repeat x (Z.to_nat c)) (zseq g0 (length nsub)) nsub) in
  StronglySorted Z.le p /\ Forall (fun g => g0 <= g < g0 + zlen nsub) p /\
  (forall g, (g < length nsub)%nat -> Z.of_nat (count_occ Z.eq_dec p (g0 + Z.of_nat g)) = nth g nsub 0) /\ zlen p = sumZ nsub.
Proof.
  induction nsub as [|n nsub IH]; intros g0 Hn; cbn -[zlen Z.of_nat repeat].
  { split; [constructor|]. split; [constructor|]. split; [intros g Hg; lia|reflexivity]. }
  inversion Hn; subst. destruct (IH (g0 + 1)) as (S1 & F1 & C1 & L1); [easy|].
  set (q := concat _) in *. split; [|split; [|split]].
  - apply repeat_sorted_app; [easy|]. eapply Forall_impl; [|exact F1]. cbv beta. lia.
  - apply Forall_app. rewrite zlen_cons. pose proof (zlen_nonneg nsub). split.
    + apply Forall_forall. intros x Hx. apply repeat_spec in Hx. lia.
    + eapply Forall_impl; [|exact F1]. cbv beta. lia.
  - intros g Hg. rewrite count_occ_app, Nat2Z.inj_add, count_occ_repeat. destruct g as [|g].
    + replace (g0 =? g0 + Z.of_nat 0) with true by lia. replace (count_occ Z.eq_dec q (g0 + Z.of_nat 0)) with 0%nat; [lia|].
      symmetry. apply count_occ_not_In. intro Hi. rewrite Forall_forall in F1. specialize (F1 _ Hi). lia.
    + replace (g0 =? g0 + Z.of_nat (S g)) with false by lia. replace (g0 + Z.of_nat (S g)) with (g0 + 1 + Z.of_nat g) by lia.
      rewrite C1 by lia. lia.
  - rewrite zlen_app, L1. unfold zlen at 1. rewrite repeat_length. lia.
Qed.

Lemma list_eq_any2 : forall l m, length l = length m -> any2 (fun a b => negb (a =? b)) l m = false -> l = m.
Proof.
  induction l as [|a l IH]; intros [|b m] E H; try discriminate; [reflexivity|]. rewrite any2_cons, orb_false_iff in H.
  destruct H as [H1 H2]. f_equal; [lia|]. apply IH; [now injection E|easy].
Qed.
Lemma any2_refl l : any2 (fun a b => negb (a =? b)) l l = false.
Proof. induction l as [|a l IH]; [reflexivity|]. rewrite any2_cons, Z.eqb_refl. exact IH. Qed.

Lemma lg2_sub_tab_accepted floats nids nsub firstsub sublen suboffset parent :
  length firstsub = length nsub -> length suboffset = length sublen -> length parent = length sublen ->
  (- 2 ^ 63 <= sumZ nsub < 2 ^ 63) -> Forall int32 suboffset -> Forall (fun l => 0 <= l < 2 ^ 31) sublen ->
  lg2_sub_tab_check floats nids nsub firstsub sublen suboffset parent = Ok tt ->
  Forall (fun n => 0 <= n) nsub /\ parents_ok nsub parent /\ sumZ nsub = zlen sublen /\
  (forall k, (k < length nsub)%nat -> 0 < nth k nsub 0 -> 0 <= nth k firstsub 0 < zlen sublen) /\
  (forall k, (k < length sublen)%nat ->
     inside (nth k suboffset 0) (nth k sublen 0) nids \/ 2 ^ 31 <= nth k suboffset 0 + nth k sublen 0) /\ floats = true.
Proof.
  intros Lf Lo Lp Hs Ho Hl H. unfold lg2_sub_tab_check in H.
  peel H H1. apply refuse_ok in H1. rewrite wrap64_id in H1 by easy.
  peel H H2. apply refuse_ok in H2. apply orb_false_iff in H2. destruct H2 as [H2 H3].
  rewrite any_mask in H2, H3 by (now rewrite map_length).
  peel H H4. apply refuse_ok in H4. apply orb_false_iff in H4. destruct H4 as [H4 H5]. rewrite any_nth in H4. rewrite any2_false in H5.
  apply bind_ok_inv in H. destruct H as (par & Hp & H). unfold np_repeat in Hp. peel Hp Hc. apply check_ok in Hc. injection Hp as Hp.
  rewrite to_nat_zlen in Hp.
  assert (Hn : Forall (fun n => 0 <= n) nsub). { apply Forall_forall. rewrite forallb_forall in Hc. intros x Hx. specialize (Hc x Hx). lia. }
  destruct (repeat_parents nsub 0 Hn) as (P1 & P2 & P3 & P4). cbn zeta in *. rewrite Hp in *.
  peel H H6. apply refuse_ok in H6. apply refuse_ok in H.
  assert (E : parent = par). { apply list_eq_any2; [|easy]. unfold zlen in *. lia. }
  rewrite <- E in *. split; [exact Hn|]. split; [|split; [lia|split; [|split; [|now destruct floats]]]].
  - split; [exact P1|]. split; [exact P2|]. intros g Hg. now rewrite <- (P3 g Hg).
  - intros k Hk Hk0. rewrite <- Lf in Hk. specialize (H2 k Hk). specialize (H3 k Hk). rewrite nth_gt0 in H2, H3 by lia. lia.
  - intros k Hk. specialize (H4 k ltac:(lia)). specialize (H5 k ltac:(lia) ltac:(lia)).
    rewrite Forall_forall in Ho, Hl. specialize (Ho _ (nth_In suboffset 0 (n := k) ltac:(lia))). specialize (Hl _ (nth_In sublen 0 Hk)).
    unfold int32 in Ho. destruct (wrap_le (nth k suboffset 0) (nth k sublen 0) nids) as [W|W]; [lia|lia|lia|left|now right].
    unfold inside. lia.
Qed.

(** ** Gadget3 SubTabFile *)
Section G3.
  Variables (wg : Z -> Z) (totnids totngroups totnsub : Z) (grouplen groupoffset firstsub nsubs sublen suboffset subgrnr : list Z).
  Hypothesis L1 : length groupoffset = length grouplen.
  Hypothesis L2 : length firstsub = length nsubs.
  Hypothesis L3 : length suboffset = length sublen.

  (** what the two range tests that are done in int32 leave open *)
  Definition inside_mod (o l n : Z) : Prop := inside o l n \/ (0 <= o /\ 0 <= l /\ 2 ^ 31 <= o + l).

  Lemma g3_accepted (W : wg = wrap32 \/ wg = fun x => x) bytes floats :
    Forall int32 grouplen -> Forall (fun o => - 2 ^ 31 <= o < 2 ^ 32) groupoffset -> (wg = wrap32 -> Forall int32 groupoffset) ->
    Forall int32 firstsub -> Forall int32 nsubs -> Forall int32 sublen -> Forall int32 suboffset ->
    g3_sub_tab_check wg bytes floats totnids totngroups totnsub grouplen groupoffset firstsub nsubs sublen suboffset subgrnr = Ok tt ->
    bytes = true /\ 0 <= totnids /\ 0 <= totngroups /\ 0 <= totnsub /\
    (forall k, (k < length grouplen)%nat -> 0 <= nth k grouplen 0 /\
       (totnids < 2 ^ 31 -> inside (nth k groupoffset 0) (nth k grouplen 0) totnids \/
          wg = wrap32 /\ inside_mod (nth k groupoffset 0) (nth k grouplen 0) totnids)) /\
    (forall k, (k < length nsubs)%nat -> 0 <= nth k nsubs 0 /\ (0 < nth k nsubs 0 -> inside_mod (nth k firstsub 0) (nth k nsubs 0) totnsub)) /\
    (forall k, (k < length sublen)%nat -> 0 <= nth k sublen 0 /\ (totnids < 2 ^ 31 -> inside_mod (nth k suboffset 0) (nth k sublen 0) totnids)) /\
    StronglySorted Z.le subgrnr /\ Forall (fun g => 0 <= g < totngroups) subgrnr /\ floats = true.
  Proof.
    intros G1 G2 G2' G3 G4 G5 G6 H. unfold g3_sub_tab_check in H.
    peel H H0. apply refuse_ok in H0. peel H H1. apply refuse_ok in H1.
    peel H H2. apply refuse_ok in H2. rewrite any_nth in H2.
    peel H H3. peel H H4. apply refuse_ok in H4. rewrite any_nth in H4.
    peel H H5. apply refuse_ok in H5. apply orb_false_iff in H5. destruct H5 as [H5 H6].
    rewrite any_mask in H5 by (now rewrite map_length). rewrite any2_mask in H6 by (now rewrite map_length).
    peel H H7. apply refuse_ok in H7. rewrite any_nth in H7. peel H H8.
    peel H H9. apply refuse_ok in H9. peel H H10. apply refuse_ok in H10. apply orb_false_iff in H10. destruct H10 as [H10 H11].
    rewrite any_false in H10, H11. rewrite Forall_forall in *.
    split; [now destruct bytes|]. split; [lia|]. split; [lia|]. split; [lia|].
    split; [|split; [|split; [|split; [|split; [|now destruct floats]]]]].
    - intros k Hk. specialize (H2 k Hk). split; [lia|]. intro Hn. replace (totnids <? 2 ^ 31) with true in H3 by lia.
      apply refuse_ok in H3. apply orb_false_iff in H3. destruct H3 as [A B]. rewrite any_nth in A. rewrite any2_false in B.
      specialize (A k ltac:(lia)). specialize (B k ltac:(lia) Hk). specialize (G1 _ (nth_In grouplen 0 Hk)). unfold int32 in G1.
      destruct W as [->| ->].
      + right. split; [reflexivity|]. specialize (G2' eq_refl).
        specialize (G2' _ (nth_In groupoffset 0 (n := k) ltac:(lia))). unfold int32 in G2'.
        destruct (wrap_le (nth k groupoffset 0) (nth k grouplen 0) totnids); unfold inside_mod, inside; lia.
      + left. unfold inside. lia.
    - intros k Hk. specialize (H4 k Hk). split; [lia|]. intro Hp. rewrite <- L2 in Hk. specialize (H5 k Hk). specialize (H6 k Hk).
      rewrite nth_gt0 in H5, H6 by lia. specialize (H5 ltac:(lia)). specialize (H6 ltac:(lia)).
      specialize (G3 _ (nth_In firstsub 0 Hk)). specialize (G4 _ (nth_In nsubs 0 (n := k) ltac:(lia))). unfold int32 in *.
      destruct (wrap_le (nth k firstsub 0) (nth k nsubs 0) totnsub); unfold inside_mod, inside; lia.
    - intros k Hk. specialize (H7 k Hk). split; [lia|]. intro Hn. replace (totnids <? 2 ^ 31) with true in H8 by lia.
      apply refuse_ok in H8. apply orb_false_iff in H8. destruct H8 as [A B]. rewrite any_nth in A. rewrite any2_false in B.
      specialize (A k ltac:(lia)). specialize (B k ltac:(lia) Hk). specialize (G5 _ (nth_In sublen 0 Hk)).
      specialize (G6 _ (nth_In suboffset 0 (n := k) ltac:(lia))). unfold int32 in *.
      destruct (wrap_le (nth k suboffset 0) (nth k sublen 0) totnids); unfold inside_mod, inside; lia.
    - destruct subgrnr as [|g l]; [constructor|]. clear H10 H11.
      assert (Hs : any2 Z.ltb l (removelast (g :: l)) = false).
      { destruct (zlen (g :: l) >? 1) eqn:E; [now apply refuse_ok in H|]. rewrite zlen_cons in E.
        destruct l; [reflexivity|rewrite zlen_cons in E; pose proof (zlen_nonneg l); lia]. }
      clear - Hs. apply Sorted_StronglySorted; [intros x y z; lia|]. revert g Hs. induction l as [|h l IH]; intros g Hs; [repeat constructor|].
      change (removelast (g :: h :: l)) with (g :: removelast (h :: l)) in Hs. rewrite any2_cons, orb_false_iff in Hs.
      constructor; [now apply IH|]. constructor. lia.
    - intros x Hx. specialize (H10 x Hx). specialize (H11 x Hx). cbn in *. lia.
  Qed.

  Lemma g3_accepts (W : wg = wrap32 \/ wg = fun x => x) :
    0 <= totnids -> 0 <= totngroups -> 0 <= totnsub < 2 ^ 31 ->
    (forall k, (k < length grouplen)%nat -> 0 <= nth k grouplen 0 /\ (totnids < 2 ^ 31 -> inside (nth k groupoffset 0) (nth k grouplen 0) totnids)) ->
    (forall k, (k < length nsubs)%nat -> 0 <= nth k nsubs 0 /\ (0 < nth k nsubs 0 -> inside (nth k firstsub 0) (nth k nsubs 0) totnsub)) ->
    (forall k, (k < length sublen)%nat -> 0 <= nth k sublen 0 /\ (totnids < 2 ^ 31 -> inside (nth k suboffset 0) (nth k sublen 0) totnids)) ->
    StronglySorted Z.le subgrnr -> Forall (fun g => 0 <= g < totngroups) subgrnr ->
    g3_sub_tab_check wg true true totnids totngroups totnsub grouplen groupoffset firstsub nsubs sublen suboffset subgrnr = Ok tt.
  Proof.
    intros T1 T2 T3 A B C D E. unfold g3_sub_tab_check. cbn [negb]. rewrite refuse_false. cbn [bind].
    replace ((totnids <? 0) || (totngroups <? 0) || (totnsub <? 0)) with false by lia. rewrite refuse_false. cbn [bind].
    replace (any (fun l => l <? 0) grouplen) with false.
    2: { symmetry. apply any_nth. intros k Hk. destruct (A k Hk). lia. }
    rewrite refuse_false. cbn [bind].
    assert (K1 : (if totnids <? 2 ^ 31 then refuse (any (fun o => o <? 0) groupoffset || any2 (fun o l => wg (o + l) >? totnids) groupoffset grouplen) else Ok tt) = Ok tt).
    { destruct (totnids <? 2 ^ 31) eqn:Et; [|reflexivity]. replace (_ || _) with false; [reflexivity|]. symmetry. apply orb_false_iff. split.
      - apply any_nth. intros k Hk. destruct (A k ltac:(lia)) as [_ I]. unfold inside in I. lia.
      - apply any2_false. intros k Hk Hk'. destruct (A k ltac:(lia)) as [_ I]. unfold inside in I.
        destruct W as [->| ->]; [rewrite wrap32_id by (unfold int32; lia)|]; lia. }
    rewrite K1. cbn [bind]. clear K1.
    replace (any (fun l => l <? 0) nsubs) with false.
    2: { symmetry. apply any_nth. intros k Hk. destruct (B k Hk). lia. }
    rewrite refuse_false. cbn [bind].
    replace (any _ _ || any2 _ (np_mask firstsub _) _) with false.
    2: { symmetry. apply orb_false_iff. rewrite any_mask by (now rewrite map_length). rewrite any2_mask by (now rewrite map_length).
         split; intros k Hk Hm; rewrite nth_gt0 in Hm by lia; destruct (B k ltac:(lia)) as [_ I]; unfold inside in I; [lia|].
         rewrite wrap32_id by (unfold int32; lia). lia. }
    rewrite refuse_false. cbn [bind].
    replace (any (fun l => l <? 0) sublen) with false.
    2: { symmetry. apply any_nth. intros k Hk. destruct (C k Hk). lia. }
    rewrite refuse_false. cbn [bind].
    assert (K1 : (if totnids <? 2 ^ 31 then refuse (any (fun o => o <? 0) suboffset || any2 (fun o l => wrap32 (o + l) >? totnids) suboffset sublen) else Ok tt) = Ok tt).
    { destruct (totnids <? 2 ^ 31) eqn:Et; [|reflexivity]. replace (_ || _) with false; [reflexivity|]. symmetry. apply orb_false_iff. split.
      - apply any_nth. intros k Hk. destruct (C k ltac:(lia)) as [_ I]. unfold inside in I. lia.
      - apply any2_false. intros k Hk Hk'. destruct (C k ltac:(lia)) as [_ I]. unfold inside in I.
        rewrite wrap32_id by (unfold int32; lia); lia. }
    rewrite K1. cbn [bind].
    replace (any _ _ || any _ _) with false.
    2: { symmetry. apply orb_false_iff. rewrite !any_false. split; (eapply Forall_impl; [|exact E]); cbn; lia. }
    rewrite refuse_false. cbn [bind]. destruct (zlen subgrnr >? 1); [|reflexivity].
    replace (any2 _ _ _) with false; [reflexivity|]. symmetry. destruct subgrnr as [|g l]; [reflexivity|]. cbn [skipn].
    clear - D. revert g D. induction l as [|h l IH]; intros g D; [reflexivity|].
    change (removelast (g :: h :: l)) with (g :: removelast (h :: l)). rewrite any2_cons.
    apply StronglySorted_inv in D. destruct D as [D F]. rewrite (IH h D). inversion F; subst. lia.
  Qed.
End G3.

(** ** id lists *)
Lemma count_eq_1_NoDup (l : list Z) : (forall x, In x l -> count_eq ZOrd x l = 1) <-> NoDup l.
Proof.
  induction l as [|a l IH]; [split; [constructor|intros _ x []]|]. split.
  - intro H. assert (Na : ~ In a l).
    { intro Hi. specialize (H a (or_introl eq_refl)). unfold count_eq in H. rewrite count_cons in H. rewrite eqb_refl in H.
      pose proof (count_eq_pos ZOrd a l Hi) as P. unfold count_eq in P. lia. }
    constructor; [exact Na|]. apply IH. intros x Hx. specialize (H x (or_intror Hx)). unfold count_eq in *. rewrite count_cons in H.
    destruct (eqb ZOrd a x) eqn:E; [apply eqb_eq in E; subst; contradiction|lia].
  - intros H x Hx. inversion H as [|? ? Na Nl]; subst. unfold count_eq. rewrite count_cons. destruct Hx as [->|Hx].
    + rewrite eqb_refl. pose proof (count_eq_none ZOrd x l Na) as P. unfold count_eq in P. lia.
    + destruct (eqb ZOrd a x) eqn:E; [apply eqb_eq in E; subst; contradiction|]. apply (proj2 IH Nl) in Hx. unfold count_eq in Hx. lia.
Qed.
Lemma g3_ids_iff bytes ids : g3_ids_check bytes ids = Ok tt <-> bytes = true /\ NoDup ids.
Proof.
  unfold g3_ids_check. set (s := sort_by ZOrd (fun x => x) ids).
  assert (Pm : Permutation s ids) by apply sort_by_perm.
  destruct (rle_spec ZOrd s (sort_id_sorted ZOrd ids)) as [_ R].
  assert (K : any (fun c => negb (c =? 1)) (map snd (np_unique ZOrd ids)) = false <-> NoDup ids).
  { rewrite any_false. unfold np_unique. fold s. rewrite <- (Permutation_NoDup' Pm), <- count_eq_1_NoDup, Forall_forall. split.
    - intros H x Hx. assert (In (x, count_eq ZOrd x s) (rle ZOrd s)) as Hi by (now apply R).
      apply (in_map snd) in Hi. specialize (H _ Hi). cbn in H. lia.
    - intros H c Hc. apply in_map_iff in Hc. destruct Hc as [[x n] [<- Hi]]. apply R in Hi. destruct Hi as [Hx ->]. cbn. rewrite (H x Hx). reflexivity. }
  split.
  - intro H. peel H H1. apply refuse_ok in H1, H. split; [now destruct bytes|now apply K].
  - intros [-> Hn]. cbn [negb]. rewrite refuse_false. cbn [bind]. apply K in Hn. now rewrite Hn.
Qed.

Lemma num_eq i : i - Z.shiftl (Z.shiftr i 34) 34 = i mod 2 ^ 34.
Proof. rewrite Z.shiftl_mul_pow2, Z.shiftr_div_pow2 by lia. rewrite Z.mod_eq by lia. lia. Qed.
Lemma nums_eq ids : zipwith (fun i k => i - Z.shiftl k 34) ids (map (fun i => Z.shiftr i 34) ids) = map (fun i => i mod 2 ^ 34) ids.
Proof. induction ids as [|i ids IH]; cbn [map zipwith]; [reflexivity|]. now rewrite num_eq, IH. Qed.
Lemma lg2_ids_iff ids : lg2_ids_check ids = Ok tt <->
  Forall (fun i => 0 <= i < 2 ^ 58 /\ i mod 2 ^ 34 <= 2160 ^ 3) ids /\ zlen (filter (fun i => i mod 2 ^ 34 =? 0) ids) <= 1.
Proof.
  unfold lg2_ids_check. cbn zeta. rewrite nums_eq.
  assert (Ef : zlen (filter (fun i => i =? 0) (map (fun i => i mod 2 ^ 34) ids)) = zlen (filter (fun i => i mod 2 ^ 34 =? 0) ids)).
  { induction ids as [|i ids IH]; [reflexivity|]. cbn [map filter]. destruct (i mod 2 ^ 34 =? 0); rewrite ?zlen_cons, IH; reflexivity. }
  rewrite Ef. clear Ef.
  assert (Ek : forall i, 0 <= i -> (256 ^ 3 <=? Z.shiftr i 34) = (2 ^ 58 <=? i)).
  { intros i Hi. rewrite Z.shiftr_div_pow2 by lia. change (256 ^ 3) with 16777216. change (2 ^ 34) with 17179869184. change (2 ^ 58) with 288230376151711744.
    Z.div_mod_to_equations. lia. }
  assert (Em : forall i, 0 <= i mod 2 ^ 34) by (intro i; apply Z.mod_pos_bound; lia).
  split.
  - intro H. peel H H1. apply refuse_ok in H1. peel H H2. apply refuse_ok in H2. peel H H3. apply refuse_ok in H3. apply refuse_ok in H.
    apply orb_false_iff in H2, H3. destruct H2 as [_ H2]. destruct H3 as [_ H3]. rewrite any_false in *. rewrite Forall_map in *.
    split; [|lia]. rewrite Forall_forall in *. intros i Hi. specialize (H1 i Hi). specialize (H2 i Hi). specialize (H3 i Hi). cbv beta in H1, H2, H3.
    rewrite Ek in H2 by lia. split; [lia|]. lia.
  - intros [HF Hz]. assert (K : forall b, b = false -> refuse b = Ok tt) by (intros b ->; reflexivity).
    rewrite K. 2: { apply any_false. eapply Forall_impl; [|exact HF]. intros i Hi. cbv beta in *. lia. }
    cbn [bind]. rewrite K. 2: { apply orb_false_iff. rewrite !any_false, !Forall_map. split; (eapply Forall_impl; [|exact HF]); intros i Hi; cbv beta in *.
      - apply Z.ltb_ge. apply Z.shiftr_nonneg. lia.
      - rewrite Ek by lia. lia. }
    cbn [bind]. rewrite K. 2: { apply orb_false_iff. rewrite !any_false, !Forall_map. split; (eapply Forall_impl; [|exact HF]); intros i Hi; cbv beta in *.
      - specialize (Em i). lia.
      - lia. }
    cbn [bind]. apply K. lia.
Qed.

(** ** P-Gadget3 GroupTabFile *)
Definition plinks (len off : list Z) : bool :=
  any2 (fun a b => negb (a =? b)) (skipn 1 off) (zipwith Z.add (removelast off) (removelast len)).
Lemma plinks_cons o o2 off l l2 len : plinks (l :: l2 :: len) (o :: o2 :: off) = negb (o2 =? o + l) || plinks (l2 :: len) (o2 :: off).
Proof. reflexivity. Qed.
Lemma plinks_iff : forall off len o l, length off = length len ->
  (plinks (l :: len) (o :: off) = false <-> consecutive o (l :: len) (o :: off) (o + sumZ (l :: len))).
Proof.
  induction off as [|o2 off IH]; intros [|l2 len] o l Hlen; try discriminate.
  - cbn. split; [intros _; split; [easy|lia]|easy].
  - rewrite plinks_cons, orb_false_iff, IH by (now injection Hlen).
    cbn [consecutive sumZ] in *. split.
    + intros [E (_ & C)]. assert (o2 = o + l) by lia. subst o2. split; [easy|]. split; [easy|].
      replace (o + (l + (l2 + sumZ len))) with (o + l + (l2 + sumZ len)) by lia. easy.
    + intros (_ & -> & C). split; [lia|]. split; [easy|].
      replace (o + (l + (l2 + sumZ len))) with (o + l + (l2 + sumZ len)) in C by lia. easy.
Qed.
Lemma p3_group_tab_iff bytes mass nids len off lt : length off = length len -> length lt = length len ->
  (p3_group_tab_check bytes mass nids len off lt = Ok tt <->
   bytes = true /\ mass = true /\ map sumZ lt = len /\ (1 < nids -> exists start, consecutive start len off (start + sumZ len))).
Proof.
  intros Lo Lt. unfold p3_group_tab_check. fold (plinks len off).
  assert (K : plinks len off = false <-> exists start, consecutive start len off (start + sumZ len)).
  { destruct len as [|l len]; destruct off as [|o off]; try discriminate.
    - cbn. split; [intros _; exists 0; lia|easy].
    - rewrite plinks_iff by (now injection Lo). split; [intro H; now exists o|]. intros [s H].
      assert (o = s) by (destruct H; congruence). now subst. }
  split.
  - intro H. peel H H1. apply refuse_ok in H1. peel H H2. apply refuse_ok in H2. peel H H3. apply refuse_ok in H.
    split; [now destruct bytes|]. split; [now destruct mass|]. split; [apply list_eq_any2; [now rewrite map_length|easy]|].
    intro Hn. apply K. destruct (nids >? 1) eqn:E; [now apply refuse_ok in H3|lia].
  - intros (-> & -> & <- & H). cbn [negb]. rewrite refuse_false. cbn [bind]. rewrite any2_refl, refuse_false. cbn [bind].
    destruct (nids >? 1) eqn:E; [|reflexivity]. rewrite (proj2 K) by (apply H; lia). reflexivity.
Qed.
