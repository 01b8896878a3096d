(** Proofs about match_halos. *)
From Coq Require Import QArith.
From Verif.Base Require Import Prelude ListLemmas Order.
From Verif.Mpi Require Import CommModel CommProofs CutProofs DestProofs.
From Verif.Psort Require Import MoveModel MoveSpec MoveProofs FetchProofs MoveFinal SortSpec SortProofs SortFinal UniqueModel UniqueProofs MatchModel MatchSpec MatchFinal UniqueFinal ReduceProofs ReduceFinal.
From Verif.Tree Require Import MergerModel MergerSpec MergerProofs.
From Coq Require Import ZifyBool ZifyNat.
Local Open Scope Z_scope.

(** *** the pairs *)
Section Pairs.
  Context {I : Type} (Od : TOrd I).
  Lemma find_first (ids : list I) : forall (g : list Z) x i, length ids = length g -> first_position ids x i ->
    (i = -1 /\ find (fun p => eqb Od (fst p) x) (combine ids g) = None) \/
    (0 <= i /\ exists v, nth_error g (Z.to_nat i) = Some v /\ find (fun p => eqb Od (fst p) x) (combine ids g) = Some (x, v)).
  Proof.
    induction ids as [|y ids IH]; intros [|w g] x i Hl Hf; try discriminate.
    - destruct Hf as [[-> _]|(H0 & H1 & _)]; [left; now split|]. now destruct (Z.to_nat i).
    - cbn [combine find fst]. destruct (eqb Od y x) eqn:E.
      + apply eqb_eq in E. subst y. destruct Hf as [[_ Hn]|(H0 & H1 & H2)]; [exfalso; apply Hn; now left|].
        assert (i = 0) as -> by (destruct (Z.ltb_spec 0 i) as [Hi|Hi]; [exfalso; apply (H2 0%nat); [lia | reflexivity] | lia]).
        right. split; [lia|]. exists w. now split.
      + assert (y <> x) as Hne by (intros ->; now rewrite eqb_refl in E).
        destruct Hf as [[-> Hn]|(H0 & H1 & H2)].
        * left. split; [reflexivity|]. destruct (IH g x (-1)) as [[_ H]|[H _]]; [now injection Hl | left; split; [reflexivity|]; intro H; apply Hn; now right | exact H | lia].
        * destruct (Z.eq_dec i 0) as [->|Hi]; [cbn in H1; congruence|]. right. split; [assumption|].
          destruct (IH g x (i - 1)) as [[H _]|[_ (v & V1 & V2)]]; [now injection Hl | | lia |].
          -- right. split; [lia|]. replace (Z.to_nat i) with (S (Z.to_nat (i - 1))) in H1 by lia. split; [exact H1|].
             intros j Hj. apply (H2 (S j)). lia.
          -- exists v. split; [|exact V2]. replace (Z.to_nat i) with (S (Z.to_nat (i - 1))) by lia. exact V1.
  Qed.

  Lemma pairs_ok zero_id fuel junk_id grnr1 ids1 grnr2 ids2 :
    layout grnr2 = layout ids2 -> length ids1 = length ids2 -> total ids2 <= Z.of_nat fuel ->
    halo_pairs Od zero_id fuel junk_id grnr1 ids1 grnr2 ids2 =
    Ok (spmd (length ids1) (fun r => filter (fun p => (0 <=? fst p) && (0 <=? snd p))
         (combine (nth r grnr1 []) (map (group_of Od (concat ids2) (concat grnr2)) (nth r ids1 []))))).
  Proof.
    intros Hl2 HP Hf. unfold halo_pairs.
    destruct (parallel_match_spec Od zero_id junk_id fuel false ids1 ids2 HP ltac:(discriminate) Hf) as (idx & M1 & M2).
    rewrite M1. cbn [bind].
    assert (length idx = length ids1) as Hli by (symmetry; now apply Forall2_len in M2).
    assert (Forall (Forall (fun i => i < total grnr2)) idx) as Hr.
    { apply Forall_forall. intros l Hl. apply In_nth with (d := []) in Hl. destruct Hl as (r & Hr & <-).
      pose proof (nth_ranks2 _ _ _ M2 r ltac:(lia)) as H. apply Forall_forall. intros i Hi. apply In_nth_error in Hi. destruct Hi as (k & Hk).
      assert (total grnr2 = total ids2) as Ht.
      { unfold total. change (zlen (concat grnr2) = zlen (concat ids2)). rewrite !zlen_concat, !map_zlen_layout. now rewrite Hl2. }
      rewrite Ht. assert (Forall2 (fun (i : Z) x => first_position (concat ids2) x i) (nth r idx []) (nth r ids1 [])) as H' by (clear - H; induction H; constructor; auto).
      destruct (Forall2_nth_error _ _ _ H' k i Hk) as (x & _ & [[-> _]|(H0 & H1 & _)]); [unfold total; lia|].
      assert (Z.to_nat i < length (concat ids2))%nat by (apply nth_error_Some; congruence). unfold total. lia. }
    destruct (masked_fetch grnr2 idx) as (f & F1 & F2); [rewrite (layout_length _ _ Hl2); congruence | exact Hr|].
    rewrite Hli in F1. rewrite F1. cbn [bind]. f_equal. apply spmd_ext. intros r Hr'. f_equal. f_equal.
    specialize (F2 r ltac:(lia)). pose proof (nth_ranks2 _ _ _ M2 r Hr') as H. rewrite (Forall2_len _ _ _ H).
    set (out := np_mask_put _ _ _) in *. clearbody out. clear - F2 H Hl2.
    assert (length (concat ids2) = length (concat grnr2)) as Hc.
    { apply Nat2Z.inj. change (zlen (concat ids2) = zlen (concat grnr2)). rewrite !zlen_concat, !map_zlen_layout. now rewrite Hl2. }
    revert out F2. induction H as [|x i l m Hx _ IH]; intros out F2; inversion F2; subst; [reflexivity|]. cbn [map]. f_equal; [|now apply IH].
    unfold group_of. destruct (find_first (concat ids2) (concat grnr2) x i Hc Hx) as [[-> Hn]|[Hi (v & V1 & V2)]].
    - rewrite Hn. cbn in H1. exact H1.
    - rewrite V2. destruct (Z.leb_spec 0 i); [|lia]. destruct H1 as [_ H1]. cbn. congruence.
  Qed.
End Pairs.

(** *** the loop over received pairs *)
Definition best (recs : list ((Z * Z) * Z)) (i m c : Z) : Prop :=
  (m = -1 /\ c = 0 /\ forall j n, ~ In ((i, j), n) recs) \/
  (In ((i, m), c) recs /\ forall j n, In ((i, j), n) recs -> n < c \/ (n = c /\ m <= j)).

Lemma match_loop_ok off size recs : forall done mg mc,
  (forall i j n, In ((i, j), n) recs -> off <= i < off + size /\ 0 < n) ->
  zlen mg = size -> zlen mc = size ->
  (forall k m c, nth_error mg k = Some m -> nth_error mc k = Some c -> best done (off + Z.of_nat k) m c) ->
  exists mg' mc', match_loop off size (mg, mc) recs = Ok (mg', mc') /\ zlen mg' = size /\ zlen mc' = size /\
    (forall k m c, nth_error mg' k = Some m -> nth_error mc' k = Some c -> best (done ++ recs) (off + Z.of_nat k) m c).
Proof.
  induction recs as [|[[i j] n] recs IH]; intros done mg mc Hin Hm Hc Hb; cbn [match_loop].
  - exists mg, mc. rewrite app_nil_r. auto.
  - pose proof (Hin i j n (or_introl eq_refl)) as [Hi Hn]. cbn [match_step].
    destruct (Z.leb_spec 0 (i - off)); [|lia]. destruct (Z.ltb_spec (i - off) size); [|lia]. cbn [check bind].
    unfold zlen in Hm, Hc.
    destruct (nth_error mc (Z.to_nat (i - off))) as [c|] eqn:Ec; [|apply nth_error_None in Ec; lia].
    destruct (nth_error mg (Z.to_nat (i - off))) as [m|] eqn:Em; [|apply nth_error_None in Em; lia].
    rewrite py_nth_ok with (d := 0) by (unfold zlen; lia). rewrite (nth_error_nth _ _ 0 Ec). cbn [bind].
    rewrite py_nth_ok with (d := 0) by (unfold zlen; lia). rewrite (nth_error_nth _ _ 0 Em). cbn [bind].
    pose proof (Hb _ _ _ Em Ec) as Hb0. replace (off + Z.of_nat (Z.to_nat (i - off))) with i in Hb0 by lia.
    replace (done ++ ((i, j), n) :: recs) with ((done ++ [((i, j), n)]) ++ recs) by (now rewrite <- app_assoc).
    assert (forall i' m' c', i' <> i -> best done i' m' c' -> best (done ++ [((i, j), n)]) i' m' c') as Hother.
    { intros i' m' c' Hne [(-> & -> & H')|[H1 H2]].
      - left. split; [reflexivity|]. split; [reflexivity|]. intros j' n' H3. apply in_app_or in H3. destruct H3 as [H3|[H3|[]]]; [exact (H' _ _ H3) | congruence].
      - right. split; [apply in_or_app; now left|]. intros j' n' H3. apply in_app_or in H3. destruct H3 as [H3|[H3|[]]]; [auto | congruence]. }
    destruct ((c <? n) || ((n =? c) && (j <? m))) eqn:Eb; cbn [bind].
    + apply IH; [intros ? ? ? Hx; exact (Hin _ _ _ (or_intror Hx)) | unfold zlen; now rewrite set_nth_length | unfold zlen; now rewrite set_nth_length |].
      intros k m' c'. rewrite !nth_error_set_nth by lia. destruct (Nat.eqb_spec k (Z.to_nat (i - off))) as [->|Hk].
      * intros [= <-] [= <-]. replace (off + Z.of_nat (Z.to_nat (i - off))) with i by lia. right. split; [apply in_or_app; right; now left|].
        intros j' n' H3. apply in_app_or in H3. destruct H3 as [H3|[H3|[]]]; [|injection H3 as <- <-; lia].
        destruct Hb0 as [(-> & -> & H')|[H1 H2]]; [exfalso; exact (H' _ _ H3)|]. specialize (H2 _ _ H3). lia.
      * intros H1 H2. apply Hother; [lia|]. now apply Hb.
    + apply IH; [intros ? ? ? Hx; exact (Hin _ _ _ (or_intror Hx)) | exact Hm | exact Hc |].
      intros k m' c' H1 H2. destruct (Nat.eqb_spec k (Z.to_nat (i - off))) as [->|Hk].
      * rewrite Em in H1. rewrite Ec in H2. injection H1 as <-. injection H2 as <-. replace (off + Z.of_nat (Z.to_nat (i - off))) with i by lia.
        destruct Hb0 as [(-> & -> & H')|[H1 H2]]; [lia|]. right. split; [apply in_or_app; now left|].
        intros j' n' H3. apply in_app_or in H3. destruct H3 as [H3|[H3|[]]]; [auto|]. injection H3 as <- <-. lia.
      * apply Hother; [lia|]. now apply Hb.
Qed.

(** *** destinations *)
Lemma destination_range P h g : (0 < P)%nat -> 0 <= h -> 0 <= g -> 0 <= destination P h g < Z.of_nat P.
Proof.
  intros HP Hh Hg. unfold destination. destruct (Z.ltb_spec 0 h); [|lia]. pose proof (Z.div_pos g h Hg ltac:(lia)). lia.
Qed.
Lemma destination_mono P h g g' : (0 < P)%nat -> 0 <= h -> g <= g' -> destination P h g <= destination P h g'.
Proof.
  intros HP Hh Hg. unfold destination. destruct (Z.ltb_spec 0 h); [|lia]. pose proof (Z.div_le_mono g g' h ltac:(lia) Hg). lia.
Qed.
Definition lsize (P : nat) (T : Z) (r : nat) : Z := if (r =? P - 1)%nat then T / Z.of_nat P + T mod Z.of_nat P else T / Z.of_nat P.
Lemma destination_local P T g r : (0 < P)%nat -> 0 <= g < T -> destination P (T / Z.of_nat P) g = Z.of_nat r ->
  Z.of_nat r * (T / Z.of_nat P) <= g < Z.of_nat r * (T / Z.of_nat P) + lsize P T r.
Proof.
  intros HP Hg Hd. unfold lsize. set (h := T / Z.of_nat P) in *. pose proof (Z.div_mod T (Z.of_nat P) ltac:(lia)) as E. fold h in E.
  pose proof (Z.mod_pos_bound T (Z.of_nat P) ltac:(lia)). assert (0 <= h) by (apply Z.div_pos; lia).
  unfold destination in Hd. destruct (Z.ltb_spec 0 h) as [Hh|Hh].
  - pose proof (Z.div_mod g h ltac:(lia)). pose proof (Z.mod_pos_bound g h ltac:(lia)). set (q := g / h) in *.
    destruct (Nat.eqb_spec r (P - 1)) as [->|Hr].
    + assert (Z.of_nat (P - 1) = Z.of_nat P - 1) as Ep by lia. rewrite Ep in *. split; [|nia]. assert (Z.of_nat P - 1 <= q) by lia. nia.
    + assert (q = Z.of_nat r) by lia. nia.
  - assert (h = 0) as E0 by lia. rewrite E0 in *. destruct (Nat.eqb_spec r (P - 1)); lia.
Qed.
Lemma sum_lsize P T : (0 < P)%nat -> sumZ (spmd P (lsize P T)) = T.
Proof.
  intro HP. destruct P as [|n]; [lia|]. rewrite spmd_S, sumZ_app. cbn [sumZ]. unfold lsize at 2. replace (n =? S n - 1)%nat with true by (symmetry; apply Nat.eqb_eq; lia).
  assert (sumZ (spmd n (lsize (S n) T)) = Z.of_nat n * (T / Z.of_nat (S n))) as ->.
  { rewrite (spmd_ext n _ (fun _ => T / Z.of_nat (S n))).
    - generalize (T / Z.of_nat (S n)) as q. intro q. clear. induction n as [|n IH]; [reflexivity|]. rewrite spmd_S, sumZ_app, IH. cbn [sumZ]. lia.
    - intros r Hr. unfold lsize. replace (r =? S n - 1)%nat with false by (symmetry; apply Nat.eqb_neq; lia). reflexivity. }
  pose proof (Z.div_mod T (Z.of_nat (S n)) ltac:(lia)). set (q := T / Z.of_nat (S n)) in *. clearbody q. nia.
Qed.
Lemma goff_lsize P T r : (r <= P - 1)%nat -> (0 < P)%nat -> goff (spmd P (lsize P T)) r = Z.of_nat r * (T / Z.of_nat P).
Proof.
  intros Hr HP. induction r as [|r IH]; [rewrite goff_0; lia|]. rewrite goff_S by (rewrite spmd_length; lia). rewrite IH by lia. rewrite nth_spmd by lia.
  unfold lsize. replace (r =? P - 1)%nat with false by (symmetry; apply Nat.eqb_neq; lia). nia.
Qed.

(** *** the whole function *)
Lemma In_length_pos {A} (x : A) l : In x l -> (0 < length l)%nat.
Proof. destruct l; [intros [] | cbn; lia]. Qed.
Lemma filter_length_le {A} (p : A -> bool) l : (length (filter p l) <= length l)%nat.
Proof. induction l as [|x l IH]; [reflexivity|]. cbn [filter]. destruct (p x); cbn [length]; lia. Qed.
Lemma pair_ltb_fst (a b : Z * Z) : ltb (pair_ord ZOrd ZOrd) a b = true -> fst a <= fst b.
Proof.
  destruct a as [a a'], b as [b b']. unfold ltb. cbn [leb pair_ord]. unfold pair_leb. cbn [fst snd]. unfold eqb. cbn [leb ZOrd].
  destruct (Z.leb_spec b a); [|lia]. destruct (Z.leb_spec a b); [lia|]. cbn. discriminate.
Qed.

Lemma match_halos_spec {I} (Od : TOrd I) (zero_id junk_id : I) (junk : Z) (fuel : nat) grnr1 ids1 grnr2 ids2 nlocal :
  ids1 <> [] -> layout grnr1 = layout ids1 -> layout grnr2 = layout ids2 -> length ids1 = length ids2 ->
  length nlocal = length ids1 -> Forall (fun n => 0 <= n) nlocal ->
  Forall (Forall (fun g => g < fold_right Z.add 0 nlocal)) grnr1 ->
  total ids1 <= Z.of_nat fuel -> total ids2 <= Z.of_nat fuel ->
  exists out, match_halos Od zero_id fuel junk_id junk grnr1 ids1 grnr2 ids2 nlocal = Ok out /\
    map (fun l => Z.of_nat (length l)) out = nlocal /\
    forall i, 0 <= i < fold_right Z.add 0 nlocal ->
      exists m, global_at out i m /\ plurality (shared Od (concat ids1) (concat grnr1) (concat ids2) (concat grnr2) i) m.
Proof.
  intros Hne Hl1 Hl2 HP Hln Hn0 Hg1 Hf1 Hf2. unfold match_halos.
  rewrite pairs_ok by assumption. cbn [bind]. set (P := length ids1) in *.
  assert (0 < P)%nat as HP0 by (unfold P; destruct ids1; [congruence | cbn; lia]).
  set (lk := group_of Od (concat ids2) (concat grnr2)). set (pairs := spmd P _).
  assert (concat pairs = filter (fun p => (0 <=? fst p) && (0 <=? snd p)) (combine (concat grnr1) (map lk (concat ids1)))) as Ep.
  { assert (layout grnr1 = layout (map (map lk) ids1)) as Hlk by (rewrite Hl1; unfold layout; rewrite map_map; apply map_ext; intro; now rewrite map_length).
    rewrite concat_map, <- combine_concat_layout by assumption. rewrite filter_concat, map_spmd. unfold pairs. rewrite (layout_length _ _ Hl1). fold P.
    f_equal. apply spmd_ext. intros r Hr. f_equal. f_equal. symmetry. exact (map_nth (map lk) ids1 [] r). }
  assert (length (concat ids1) = length (concat grnr1)) as Hc1.
  { apply Nat2Z.inj. change (zlen (concat ids1) = zlen (concat grnr1)). rewrite !zlen_concat, !map_zlen_layout. now rewrite Hl1. }
  destruct (parallel_unique_spec (pair_ord ZOrd ZOrd) (0, 0) (junk, junk) fuel false true pairs) as (vals & counts & U1 & U2 & U3 & U4 & U5 & U6 & _).
  { intro E. assert (length pairs = 0%nat) as H by (now rewrite E). unfold pairs in H. rewrite spmd_length in H. lia. }
  { discriminate. }
  { unfold total in *. rewrite Ep. pose proof (filter_length_le (fun p => (0 <=? fst p) && (0 <=? snd p)) (combine (concat grnr1) (map lk (concat ids1)))) as H.
    rewrite combine_length in H. lia. }
  rewrite U1. cbn [bind]. unfold pairs in U2. rewrite spmd_length in U2. fold pairs in U1.
  set (T := sumZ nlocal). assert (fold_right Z.add 0 nlocal = T) as ET by reflexivity. rewrite ET in *.
  assert (0 <= T) as HT0 by (unfold T; clear - Hn0; induction Hn0; cbn [sumZ]; lia).
  set (h := T / Z.of_nat P). assert (0 <= h) as Hh0 by (apply Z.div_pos; lia).
  change (spmd P (fun r => if (r =? P - 1)%nat then h + T mod Z.of_nat P else h)) with (spmd P (lsize P T)).
  rewrite sum_lsize, Z.eqb_refl by assumption. cbn [check bind].
  (* the records *)
  set (L := fun r => combine (nth r vals []) (nth r counts [])).
  assert (length vals = P) as Hv by exact U2. assert (length counts = P) as Hcn by (rewrite (layout_length _ _ U3); exact Hv).
  assert (forall r, map fst (L r) = nth r vals []) as HLf by (intro r; unfold L; apply map_fst_combine'; symmetry; now apply layout_nth).
  assert (forall r, map snd (L r) = nth r counts []) as HLs.
  { intro r. unfold L. pose proof (layout_nth _ _ r U3) as H. revert H. generalize (nth r vals []) as a, (nth r counts []) as b. clear.
    induction a as [|x a IH]; intros [|y b] H; cbn in H |- *; try discriminate; [reflexivity|]. f_equal. apply IH. lia. }
  set (dest := fun rec : (Z * Z) * Z => destination P h (fst (fst rec))).
  assert (vals = spmd P (fun r => map fst (L r))) as Ev.
  { rewrite <- (spmd_nth vals []) at 1. rewrite Hv. apply spmd_ext. intros r Hr. now rewrite HLf. }
  assert (counts = spmd P (fun r => map snd (L r))) as Ec.
  { rewrite <- (spmd_nth counts []) at 1. rewrite Hcn. apply spmd_ext. intros r Hr. now rewrite HLs. }
  assert (concat (spmd P L) = combine (concat vals) (concat counts)) as EL.
  { rewrite <- combine_concat_layout by (now symmetry). now rewrite Hv. }
  assert (map (fun u => dest_counts P (map (fun p => destination P h (fst p)) u)) vals =
          spmd P (fun i => spmd P (fun j => zlen (filter (fun v => v =? Z.of_nat j) (map dest (L i)))))) as Esc.
  { rewrite Ev at 1. rewrite map_spmd. apply spmd_ext. intros r Hr. unfold dest_counts. apply spmd_ext. intros j Hj. now rewrite map_map. }
  rewrite Esc.
  (* properties of the records *)
  assert (forall i j n, In ((i, j), n) (concat (spmd P L)) <-> 0 <= i /\ 0 <= j /\ In (i, j) (concat pairs) /\ n = number (fun p => eqb (pair_ord ZOrd ZOrd) p (i, j)) (concat pairs)) as HL.
  { intros i j n. rewrite EL. rewrite <- U5. split.
    - intro H. apply In_nth_error in H. destruct H as (k & Hk).
      assert (nth_error (concat vals) k = Some (i, j) /\ nth_error (concat counts) k = Some n) as [K1 K2].
      { clear - Hk. revert k Hk. generalize (concat vals) as a, (concat counts) as b. induction a as [|x a IH]; intros [|y b] [|k] Hk; try discriminate; cbn in *.
        - injection Hk as -> ->. now split.
        - now apply IH. }
      pose proof (nth_error_In _ _ K1) as Kin. pose proof Kin as Kin2. apply U5 in Kin2. rewrite Ep in Kin2. apply filter_In in Kin2. destruct Kin2 as [_ Kin2]. cbn [fst snd] in Kin2.
      split; [lia|]. split; [lia|]. split; [assumption|]. exact (U6 k _ _ K1 K2).
    - intros (_ & _ & H & ->). apply In_nth_error in H. destruct H as (k & Hk).
      assert (length (concat vals) = length (concat counts)) as Hlen.
      { apply Nat2Z.inj. change (zlen (concat vals) = zlen (concat counts)). rewrite !zlen_concat, !map_zlen_layout. now rewrite U3. }
      destruct (nth_error (concat counts) k) as [n|] eqn:En.
      2:{ apply nth_error_None in En. assert (k < length (concat vals))%nat by (apply nth_error_Some; congruence). lia. }
      rewrite <- (U6 k _ _ Hk En). clear - Hk En. revert k Hk En. generalize (concat vals) as a, (concat counts) as b. induction a as [|x a IH]; intros [|y b] [|k] Hk En; try discriminate; cbn in *.
      + left. congruence.
      + right. now apply (IH b k). }
  assert (forall i j, In (i, j) (concat pairs) -> 0 <= i < T /\ 0 <= j) as Hpr.
  { intros i j H. rewrite Ep in H. apply filter_In in H. destruct H as [H1 H2]. cbn [fst snd] in H2. apply in_combine_l in H1.
    apply in_concat in H1. destruct H1 as (l & Hl & Hi). rewrite Forall_forall in Hg1. specialize (Hg1 l Hl). rewrite Forall_forall in Hg1. specialize (Hg1 i Hi). cbn in Hg1. lia. }
  assert (forall r rec, (r < P)%nat -> In rec (L r) -> In rec (concat (spmd P L))) as HinL.
  { intros r rec Hr Hin. apply in_concat. exists (L r). split; [|assumption]. apply In_spmd. now exists r. }
  assert (forall i, (i < P)%nat -> dsorted dest (L i)) as HLd.
  { intros i Hi. unfold dsorted. assert (StronglySorted (fun x y => ltb (pair_ord ZOrd ZOrd) x y = true) (map fst (L i))) as H.
    { rewrite HLf. apply strictly_ascending_iff in U4. rewrite <- (firstn_skipn i vals) in U4. rewrite concat_app in U4. apply StronglySorted_app in U4. destruct U4 as (_ & U4 & _).
      rewrite <- (firstn_skipn 1 (skipn i vals)), concat_app in U4. apply StronglySorted_app in U4. destruct U4 as (U4 & _ & _).
      replace (concat (firstn 1 (skipn i vals))) with (nth i vals []) in U4; [exact U4|].
      assert (i < length vals)%nat as Hi' by lia. revert Hi'. clear. revert i. induction vals as [|v vals IH]; intros i Hi'; [cbn in Hi'; lia|]. destruct i as [|i]; [cbn; now rewrite app_nil_r|]. cbn [nth skipn]. apply IH. cbn in Hi'. lia. }
    rewrite StronglySorted_map in H. rewrite StronglySorted_map. eapply StronglySorted_weaken; [|exact H]. intros x y _ _ Hxy. cbn beta in Hxy. apply pair_ltb_fst in Hxy.
    unfold dest. now apply destination_mono. }
  assert (forall i x, (i < P)%nat -> In x (L i) -> 0 <= dest x < Z.of_nat P) as HLr.
  { intros i [[a b] n] Hi Hin. apply (HinL i _ Hi) in Hin. apply HL in Hin. unfold dest. cbn [fst]. apply destination_range; lia. }
  assert (exchange (junk, junk) P vals (spmd P (fun i => spmd P (fun j => zlen (filter (fun v => v =? Z.of_nat j) (map dest (L i))))))
     (map excl_cumsum (spmd P (fun i => spmd P (fun j => zlen (filter (fun v => v =? Z.of_nat j) (map dest (L i))))))) =
     Ok (spmd P (fun j => map fst (concat (spmd P (fun i => filter (fun x => dest x =? Z.of_nat j) (L i))))))) as EX1.
  { rewrite Ev at 1. exact (exchange_by_dest dest P fst L (junk, junk) HLd HLr). }
  assert (exchange junk P counts (spmd P (fun i => spmd P (fun j => zlen (filter (fun v => v =? Z.of_nat j) (map dest (L i))))))
     (map excl_cumsum (spmd P (fun i => spmd P (fun j => zlen (filter (fun v => v =? Z.of_nat j) (map dest (L i))))))) =
     Ok (spmd P (fun j => map snd (concat (spmd P (fun i => filter (fun x => dest x =? Z.of_nat j) (L i))))))) as EX2.
  { rewrite Ec at 1. exact (exchange_by_dest dest P snd L junk HLd HLr). }
  rewrite EX1. cbn [bind]. rewrite EX2. cbn [bind].
  set (recs := fun j => concat (spmd P (fun i => filter (fun x => dest x =? Z.of_nat j) (L i)))).
  assert (forall j rec, In rec (recs j) <-> In rec (concat (spmd P L)) /\ dest rec = Z.of_nat j) as Hrecs.
  { intros j rec. unfold recs. assert (concat (spmd P (fun i => filter (fun x => dest x =? Z.of_nat j) (L i))) = filter (fun x => dest x =? Z.of_nat j) (concat (spmd P L))) as ->
      by (now rewrite filter_concat, map_spmd). rewrite filter_In. split; intros [H1 H2]; (split; [assumption|lia]). }
  assert (forall r, (r < P)%nat -> exists mg mc,
     match_loop (Z.of_nat r * h) (lsize P T r) (repeat (-1) (Z.to_nat (lsize P T r)), repeat 0 (Z.to_nat (lsize P T r))) (recs r) = Ok (mg, mc) /\
     zlen mg = lsize P T r /\ zlen mc = lsize P T r /\
     forall k m c, nth_error mg k = Some m -> nth_error mc k = Some c -> best (recs r) (Z.of_nat r * h + Z.of_nat k) m c) as Hloop.
  { intros r Hr. assert (0 <= lsize P T r) as Hls by (unfold lsize; fold h; pose proof (Z.mod_pos_bound T (Z.of_nat P) ltac:(lia)); destruct (r =? P - 1)%nat; lia).
    apply (match_loop_ok (Z.of_nat r * h) (lsize P T r) (recs r) []).
    - intros i j n Hin. apply Hrecs in Hin. destruct Hin as [Hin Hd]. unfold dest in Hd. cbn [fst] in Hd. apply HL in Hin. destruct Hin as (_ & _ & Hin & ->).
      split; [apply destination_local; [assumption | now apply (Hpr i j) | exact Hd]|].
      unfold number. enough (0 < length (filter (fun p => eqb (pair_ord ZOrd ZOrd) p (i, j)) (concat pairs)))%nat by lia.
      assert (In (i, j) (filter (fun p => eqb (pair_ord ZOrd ZOrd) p (i, j)) (concat pairs))) as H by (apply filter_In; split; [assumption | apply eqb_refl]).
      apply In_length_pos in H. lia.
    - unfold zlen. rewrite repeat_length. lia.
    - unfold zlen. rewrite repeat_length. lia.
    - intros k m c H1 H2. apply nth_error_In, repeat_spec in H1. apply nth_error_In, repeat_spec in H2. subst m c. left. split; [reflexivity|]. split; [reflexivity|]. intros j n []. }
  assert (exists matched, mapM (fun r => let n := nth r (spmd P (lsize P T)) 0 in
        do st <- match_loop (Z.of_nat r * h) n (repeat (-1) (Z.to_nat n), repeat 0 (Z.to_nat n))
                   (combine (nth r (spmd P (fun j => map fst (recs j))) []) (nth r (spmd P (fun j => map snd (recs j))) []));
        Ok (fst st)) (seq 0 P) = Ok matched /\ length matched = P /\
      forall r, (r < P)%nat -> zlen (nth r matched []) = lsize P T r /\
        forall k m, nth_error (nth r matched []) k = Some m -> exists c, best (recs r) (Z.of_nat r * h + Z.of_nat k) m c) as (matched & MM & Mlen & Mbest).
  { exists (spmd P (fun r => match match_loop (Z.of_nat r * h) (lsize P T r) (repeat (-1) (Z.to_nat (lsize P T r)), repeat 0 (Z.to_nat (lsize P T r))) (recs r) with Ok st => fst st | Err _ => [] end)).
    split; [|split; [apply spmd_length|]].
    - apply mapM_seq_ok. intros r Hr. cbv zeta. rewrite !nth_spmd by assumption. rewrite combine_map_fst_snd. destruct (Hloop r Hr) as (mg & mc & E & _). rewrite E. reflexivity.
    - intros r Hr. rewrite nth_spmd by assumption. destruct (Hloop r Hr) as (mg & mc & E & E1 & E2 & E3). rewrite E. cbn [fst]. split; [assumption|].
      intros k m Hk. destruct (nth_error mc k) as [c|] eqn:Ek; [exists c; now apply E3|]. apply nth_error_None in Ek.
      assert (k < length mg)%nat by (apply nth_error_Some; congruence). unfold zlen in *. lia. }
  unfold recs in MM. cbv zeta in MM |- *. rewrite MM. cbn [bind]. clear MM.
  assert (nperproc matched = spmd P (lsize P T)) as Enp.
  { unfold nperproc. rewrite <- (spmd_nth matched []) at 1. rewrite map_spmd, Mlen. apply spmd_ext. intros r Hr. now apply Mbest. }
  destruct (@repartition_main Z junk matched nlocal) as (out & O1 & O2 & O3).
  - congruence.
  - assumption.
  - rewrite ET. unfold total. fold (zlen (concat matched)). rewrite zlen_concat. fold (nperproc matched). rewrite Enp. now rewrite sum_lsize.
  - exists out. split; [exact O1|]. split; [exact O3|]. intros i Hi.
    set (r := Z.to_nat (destination P h i)). pose proof (destination_range P h i HP0 Hh0 ltac:(lia)) as Hdr.
    assert (destination P h i = Z.of_nat r) as Hr by (unfold r; lia). assert (r < P)%nat as HrP by lia.
    pose proof (destination_local P T i r HP0 ltac:(lia) Hr) as Hloc. fold h in Hloc.
    destruct (Mbest r HrP) as [Ml Mb]. set (k := Z.to_nat (i - Z.of_nat r * h)).
    destruct (nth_error (nth r matched []) k) as [m|] eqn:Em.
    2:{ apply nth_error_None in Em. unfold zlen in Ml. lia. }
    exists m. split.
    { assert (global_at matched i m) as Hgm.
      { replace i with (goff (nperproc matched) r + Z.of_nat k); [apply local_global_at; [lia | exact Em]|]. rewrite Enp, goff_lsize by lia. fold h. lia. }
      destruct Hgm as [G1 G2]. split; [assumption|]. now rewrite O2. }
    destruct (Mb k m Em) as (c & Hb). replace (Z.of_nat r * h + Z.of_nat k) with i in Hb by lia.
    (* shares *)
    assert (forall j, 0 <= j -> shared Od (concat ids1) (concat grnr1) (concat ids2) (concat grnr2) i j = number (fun p => eqb (pair_ord ZOrd ZOrd) p (i, j)) (concat pairs)) as Hsh.
    { intros j Hj. unfold shared, number. fold lk. rewrite Ep. rewrite filter_filter. f_equal.
      generalize Hc1. generalize (concat ids1) as a, (concat grnr1) as b. clear - Hi Hj. induction a as [|x a IH]; intros [|y b] H; try discriminate; [reflexivity|].
      cbn [combine map filter fst snd]. specialize (IH b ltac:(now injection H)).
      assert (((y =? i) && (lk x =? j)) = ((0 <=? y) && (0 <=? lk x) && eqb (pair_ord ZOrd ZOrd) (y, lk x) (i, j))) as ->.
      { destruct (eqb (pair_ord ZOrd ZOrd) (y, lk x) (i, j)) eqn:E; [apply eqb_eq in E; injection E as -> ->; lia|].
        rewrite andb_false_r. destruct (Z.eqb_spec y i) as [->|]; [|reflexivity]. destruct (Z.eqb_spec (lk x) j) as [Ej|]; [|reflexivity]. rewrite Ej, eqb_refl in E. discriminate. }
      destruct (_ && _ && _); cbn [length]; now rewrite IH. }
    assert (forall j, 0 <= j -> In (i, j) (concat pairs) \/ number (fun p => eqb (pair_ord ZOrd ZOrd) p (i, j)) (concat pairs) = 0) as Hzero.
    { intros j Hj. destruct (filter (fun p => eqb (pair_ord ZOrd ZOrd) p (i, j)) (concat pairs)) as [|p l] eqn:E.
      - right. unfold number. now rewrite E.
      - left. assert (In p (filter (fun p => eqb (pair_ord ZOrd ZOrd) p (i, j)) (concat pairs))) as H by (rewrite E; now left). apply filter_In in H. destruct H as [H1 H2].
        apply eqb_eq in H2. now subst p. }
    assert (forall j, 0 <= j -> In (i, j) (concat pairs) -> In ((i, j), number (fun p => eqb (pair_ord ZOrd ZOrd) p (i, j)) (concat pairs)) (recs r)) as Hrin.
    { intros j Hj Hin. apply Hrecs. split; [|exact Hr]. apply HL. repeat split; auto; lia. }
    assert (forall j, In (i, j) (concat pairs) -> 0 < number (fun p => eqb (pair_ord ZOrd ZOrd) p (i, j)) (concat pairs)) as Hpos.
    { intros j Hin. unfold number. assert (In (i, j) (filter (fun p => eqb (pair_ord ZOrd ZOrd) p (i, j)) (concat pairs))) as H by (apply filter_In; split; [assumption | apply eqb_refl]).
      apply In_length_pos in H. lia. }
    destruct Hb as [(-> & -> & Hnone)|[Hin Hbest]].
    + left. split; [reflexivity|]. intros j Hj. rewrite Hsh by assumption. destruct (Hzero j Hj) as [Hin|H0]; [|exact H0]. exfalso. exact (Hnone _ _ (Hrin j Hj Hin)).
    + right. apply Hrecs in Hin. destruct Hin as [Hin _]. apply HL in Hin. destruct Hin as (_ & Hm & Hin & ->). split; [assumption|]. rewrite Hsh by assumption. split; [now apply Hpos|].
      intros j Hj. rewrite Hsh by assumption. destruct (Hzero j Hj) as [Hin'| ->]; [exact (Hbest _ _ (Hrin j Hj Hin'))|]. left. now apply Hpos.
Qed.
