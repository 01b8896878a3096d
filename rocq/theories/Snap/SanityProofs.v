From Verif Require Import Base.Prelude Base.Order Base.ListLemmas Peano.PeanoModel Util.RangesModel Psort.UniqueModel Psort.UniqueProofs.
From Verif Require Import Snap.SanityModel Snap.SanitySpec.
From Coq Require Import ZifyBool ZifyNat.
Local Open Scope Z_scope.

Lemma refuse_ok b u : refuse b = Ok u -> b = false.
Proof. unfold refuse. intro H. apply check_ok in H. now destruct b. Qed.
Lemma refuse_false : refuse false = Ok tt. Proof. reflexivity. Qed.

Lemma any_false {A} (f : A -> bool) l : any f l = false <-> Forall (fun x => f x = false) l.
Proof.
  unfold any. induction l as [|x l IH]; cbn; [split; constructor|].
  rewrite orb_false_iff, IH. split; [intros [H1 H2]; now constructor|intro H; now inversion H].
Qed.
Lemma any2_cons f a l b m : any2 f (a :: l) (b :: m) = f a b || any2 f l m. Proof. reflexivity. Qed.
Lemma any2_false f l m : any2 f l m = false <-> forall k, (k < length l)%nat -> (k < length m)%nat -> f (nth k l 0) (nth k m 0) = false.
Proof.
  revert m. induction l as [|a l IH]; intros [|b m]; cbn [length]; try (split; [intros _ k; lia|reflexivity]).
  rewrite any2_cons, orb_false_iff, IH. split.
  - intros [H1 H2] [|k] Hk Hk'; cbn; [easy|]. apply H2; lia.
  - intro H. split; [apply (H 0%nat); lia|]. intros k Hk Hk'. apply (H (S k)); lia.
Qed.

Ltac wrapc := unfold wrap32, wrap64, int32 in *; change (2 ^ 31) with 2147483648 in *; change (2 ^ 32) with 4294967296 in *;
  change (2 ^ 63) with 9223372036854775808 in *; change (2 ^ 64) with 18446744073709551616 in *; Z.div_mod_to_equations; nia.
Lemma wrap32_id x : int32 x -> wrap32 x = x. Proof. intro. wrapc. Qed.
Lemma wrap64_id x : - 2 ^ 63 <= x < 2 ^ 63 -> wrap64 x = x. Proof. intro. wrapc. Qed.
Lemma wrap32_high x : 2 ^ 31 <= x < 2 ^ 32 -> wrap32 x < 0. Proof. intro. wrapc. Qed.
Lemma wrap32_add a x : wrap32 (wrap32 a + x) = wrap32 (a + x). Proof. wrapc. Qed.
Lemma wrap64_add a x : wrap64 (wrap64 a + x) = wrap64 (a + x). Proof. wrapc. Qed.

Lemma py_sum_wrap np2 l : py_sum np2 l = if np2 then wrap32 (sumZ l) else wrap64 (sumZ l).
Proof.
  unfold py_sum. destruct np2.
  - assert (H : forall acc, fold_left (fun acc x => wrap32 (acc + x)) l (wrap32 acc) = wrap32 (acc + sumZ l)).
    { induction l as [|x l IH]; intro acc; cbn; [now rewrite Z.add_0_r|]. rewrite wrap32_add, IH. f_equal. lia. }
    exact (H 0).
  - assert (H : forall acc, fold_left (fun acc x => wrap64 (acc + x)) l (wrap64 acc) = wrap64 (acc + sumZ l)).
    { induction l as [|x l IH]; intro acc; cbn; [now rewrite Z.add_0_r|]. rewrite wrap64_add, IH. f_equal. lia. }
    exact (H 0).
Qed.

Lemma py_sum_id np2 l : 0 <= sumZ l < 2 ^ 31 -> py_sum np2 l = sumZ l.
Proof.
  intro. rewrite py_sum_wrap. destruct np2; [apply wrap32_id; unfold int32; lia|].
  apply wrap64_id. change (2 ^ 31) with 2147483648 in *. change (2 ^ 63) with 9223372036854775808. lia.
Qed.
Lemma py_sum_inv np2 l n : 0 <= sumZ l < 2 ^ 32 -> 0 <= n -> py_sum np2 l = n -> sumZ l = n.
Proof.
  intros H Hn E. rewrite py_sum_wrap in E. destruct np2.
  - destruct (Z_lt_ge_dec (sumZ l) (2 ^ 31)); [rewrite wrap32_id in E; unfold int32; lia|].
    pose proof (wrap32_high (sumZ l)). lia.
  - rewrite wrap64_id in E; [easy|]. change (2 ^ 32) with 4294967296 in *. change (2 ^ 63) with 9223372036854775808. lia.
Qed.

(** ** consecutive ranges *)
Definition links (len off : list Z) : bool :=
  any2 (fun a b => negb (a =? b)) (skipn 1 off) (zipwith (fun o l => wrap32 (o + l)) (removelast off) (removelast len)).
Lemma links_cons o o2 off l l2 len : links (l :: l2 :: len) (o :: o2 :: off) = negb (o2 =? wrap32 (o + l)) || links (l2 :: len) (o2 :: off).
Proof. reflexivity. Qed.

Lemma links_consecutive nids : forall off len o l, length off = length len -> int32 nids ->
  Forall (fun x => 0 <= x < 2 ^ 31) (l :: len) -> Forall (fun x => 0 <= x < nids) (o :: off) -> links (l :: len) (o :: off) = false ->
  consecutive o (l :: len) (o :: off) (o + sumZ (l :: len)) /\ o + sumZ (l :: len) < 2 ^ 32.
Proof.
  induction off as [|o2 off IH]; intros [|l2 len] o l Hlen Hn Hl Ho H; try discriminate.
  - inversion Hl; inversion Ho; subst. unfold int32 in Hn. cbn. change (Z.pow_pos 2 32) with 4294967296.
    change (2 ^ 31) with 2147483648 in *. lia.
  - rewrite links_cons in H. apply orb_false_iff in H. destruct H as [H1 H2].
    inversion Hl as [|? ? L1 L2]; inversion Ho as [|? ? O1 O2]; subst.
    assert (E : o2 = o + l).
    { inversion O2; subst. assert (E : o2 = wrap32 (o + l)) by lia.
      destruct (Z_lt_ge_dec (o + l) (2 ^ 31)); [rewrite wrap32_id in E; unfold int32 in *; lia|].
      pose proof (wrap32_high (o + l)). unfold int32 in Hn. change (2 ^ 32) with 4294967296 in *. change (2 ^ 31) with 2147483648 in *. lia. }
    destruct (IH len o2 l2) as [C B]; try easy; [now injection Hlen|].
    cbn [consecutive sumZ] in *. subst o2. replace (o + (l + (l2 + sumZ len))) with (o + l + (l2 + sumZ len)) by lia. easy.
Qed.

Lemma consecutive_len : forall len off a b, consecutive a len off b -> length off = length len.
Proof. induction len as [|l len IH]; intros [|o off] a b H; cbn in *; try easy. f_equal. eapply IH, H. Qed.
Lemma consecutive_sum : forall len off a b, consecutive a len off b -> b = a + sumZ len.
Proof.
  induction len as [|l len IH]; intros [|o off] a b H; cbn in *; try easy; [lia|].
  destruct H as [_ H]. apply IH in H. lia.
Qed.

Lemma consecutive_partitions : forall len off a b, Forall (fun x => 0 <= x) len -> consecutive a len off b -> partitions len off a b.
Proof.
  induction len as [|l len IH]; intros [|o off] a b Hl H x; cbn in H; try easy.
  - subst. split; [lia|]. intros _ k [Hk _]. cbn in Hk. lia.
  - inversion Hl as [|? ? L1 L2]; subst. destruct H as [-> H].
    pose proof (consecutive_sum _ _ _ _ H) as Hb. pose proof (sumZ_nonneg _ L2) as Hs.
    destruct (IH off (a + l) b L2 H x) as [I1 I2]. split.
    + intro Hx. destruct (Z_lt_ge_dec x (a + l)) as [Lt|Ge].
      * exists 0%nat. split; [split; cbn; lia|]. intros k [Hk Hr]. destruct k as [|k]; [easy|].
        cbn in Hk, Hr. exfalso. apply (I2 ltac:(lia) k). split; [lia|easy].
      * destruct (I1 ltac:(lia)) as [k [[Hk Hr] U]]. exists (S k). split; [split; cbn; [lia|easy]|].
        intros [|k'] [Hk' Hr']; cbn in Hk', Hr'; [lia|]. f_equal. apply U. split; [lia|easy].
    + intros Hx [|k] [Hk Hr]; cbn in Hk, Hr; [lia|]. apply (I2 ltac:(lia) k). split; [lia|easy].
Qed.

Lemma group_tab_accepted np2 nids len off : length off = length len -> int32 nids -> Forall int32 len -> Forall (fun x => 0 <= x) len ->
  lg2_group_tab_check np2 nids len off = Ok tt ->
  exists start, 0 <= start /\ sumZ len = nids /\ consecutive start len off (start + nids).
Proof.
  intros Hlen Hn H32 Hpos H. unfold lg2_group_tab_check in H.
  apply bind_ok_inv in H. destruct H as (u1 & H1 & H). apply refuse_ok in H1.
  apply bind_ok_inv in H. destruct H as (u2 & H2 & H). apply refuse_ok in H2.
  apply orb_false_iff in H2. destruct H2 as [H2 H3]. rewrite any_false in H2, H3.
  destruct len as [|l len]; destruct off as [|o off]; try discriminate.
  { exists 0. rewrite (py_sum_id np2 []) in H1 by (cbn; lia). cbn [sumZ] in H1. assert (nids = 0) by lia. subst nids. cbn. lia. }
  assert (Hr : Forall (fun x => 0 <= x < nids) (o :: off)).
  { rewrite Forall_forall in *. intros x Hx. specialize (H2 x Hx). specialize (H3 x Hx). cbn in *. lia. }
  assert (HL : links (l :: len) (o :: off) = false).
  { destruct (zlen (l :: len) >? 1) eqn:E; [now apply refuse_ok in H|].
    destruct len; [|rewrite !zlen_cons in E; pose proof (zlen_nonneg len); lia]. now destruct off. }
  destruct (links_consecutive nids off len o l) as [C B]; try easy; [now injection Hlen| |].
  { rewrite Forall_forall in *. intros x Hx. specialize (H32 x Hx). specialize (Hpos x Hx). unfold int32 in H32. lia. }
  assert (Hs := sumZ_nonneg _ Hpos). inversion Hr; subst.
  assert (E : sumZ (l :: len) = nids) by (apply (py_sum_inv np2); lia).
  exists o. rewrite E in C. split; [lia|]. split; [lia|exact C].
Qed.

Lemma group_tab_partition np2 nids len off : length off = length len -> int32 nids -> Forall int32 len -> Forall (fun x => 0 <= x) len ->
  lg2_group_tab_check np2 nids len off = Ok tt ->
  exists start, 0 <= start /\ sumZ len = nids /\ consecutive start len off (start + nids) /\ partitions len off start (start + nids) /\
    (0 < nids -> (partitions len off 0 nids <-> nth 0 off 0 = 0)).
Proof.
  intros Hlen Hn H32 Hpos H. destruct (group_tab_accepted _ _ _ _ Hlen Hn H32 Hpos H) as (s & Hs & E & C).
  exists s. pose proof (consecutive_partitions _ _ _ _ Hpos C) as P. split; [easy|]. split; [easy|]. split; [easy|]. split; [easy|].
  intro Hn0. destruct len as [|l len]; destruct off as [|o off]; try discriminate; [cbn in E; lia|].
  assert (Eo : o = s) by (now destruct C as [-> _]). subst o. cbn [nth]. split.
  - intro Q. destruct (Z.eq_dec s 0); [easy|]. destruct (P 0) as [_ P2]. destruct (Q 0) as [Q1 _].
    destruct Q1 as [k [Hk _]]; [lia|]. destruct (P2 ltac:(lia) k Hk).
  - intros ->. exact P.
Qed.

Lemma consecutive_bounds : forall len off a b, Forall (fun x => 0 < x) len -> consecutive a len off b -> Forall (fun o => a <= o < b) off.
Proof.
  induction len as [|l len IH]; intros [|o off] a b Hl H; cbn in H; try easy. destruct H as [-> H].
  inversion Hl; subst. pose proof (consecutive_sum _ _ _ _ H). assert (0 <= sumZ len).
  { apply sumZ_nonneg. eapply Forall_impl; [|eassumption]. cbn; lia. }
  constructor; [lia|]. eapply Forall_impl; [|eapply IH; eassumption]. cbn. lia.
Qed.
Lemma consecutive_links : forall len off a b, 0 <= a -> b < 2 ^ 31 -> Forall (fun x => 0 <= x) len -> consecutive a len off b -> links len off = false.
Proof.
  induction len as [|l len IH]; intros [|o off] a b Ha Hb Hl H; cbn in H; try easy. destruct H as [-> H].
  inversion Hl; subst. destruct len as [|l2 len]; destruct off as [|o2 off]; try easy.
  rewrite links_cons. pose proof (consecutive_sum _ _ _ _ H) as E. assert (0 <= sumZ (l2 :: len)) by now apply sumZ_nonneg.
  rewrite (IH _ (a + l) b); try easy; [|lia]. destruct H as [-> _].
  rewrite wrap32_id by (unfold int32; lia). rewrite Z.eqb_refl. reflexivity.
Qed.

Lemma group_tab_accepts np2 nids len off : nids < 2 ^ 31 -> Forall (fun x => 0 < x) len -> consecutive 0 len off nids ->
  lg2_group_tab_check np2 nids len off = Ok tt.
Proof.
  intros Hn Hl C. pose proof (consecutive_sum _ _ _ _ C) as E. cbn in E.
  assert (Hl0 : Forall (fun x => 0 <= x) len) by (eapply Forall_impl; [|exact Hl]; cbn; lia).
  pose proof (sumZ_nonneg _ Hl0) as Hs. unfold lg2_group_tab_check.
  rewrite py_sum_id by lia. replace (sumZ len =? nids) with true by lia. cbn [negb]. rewrite refuse_false. cbn [bind].
  pose proof (consecutive_bounds _ _ _ _ Hl C) as B.
  replace (any (fun o => o <? 0) off) with false by (symmetry; apply any_false; eapply Forall_impl; [|exact B]; cbn; lia).
  replace (any (fun o => nids <=? o) off) with false by (symmetry; apply any_false; eapply Forall_impl; [|exact B]; cbn; lia).
  cbn [orb]. rewrite refuse_false. cbn [bind]. destruct (zlen len >? 1); [|reflexivity].
  fold (links len off). rewrite (consecutive_links len off 0 nids); try easy; lia.
Qed.
