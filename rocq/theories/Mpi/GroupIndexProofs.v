(** Proofs about group_index_from_length_and_offset. *)
From Verif.Base Require Import Prelude ListLemmas.
From Verif.Mpi Require Import CommModel CommProofs CutProofs GroupIndexModel GroupIndexSpec.
From Verif.Psort Require Import MoveSpec MoveProofs FetchProofs SortSpec UniqueFinal ReduceFinal.
From Coq Require Import ZifyBool ZifyNat.
Local Open Scope Z_scope.

Lemma nth_repeat_lt {A} (x d : A) n k : (k < n)%nat -> nth k (repeat x n) d = x.
Proof. revert k. induction n as [|n IH]; intros k H; [lia|]. destruct k; [reflexivity|]. cbn. apply IH. lia. Qed.

Section Plan.
  Variables (P : nat) (fid lid : list Z).
  Let F (r : nat) := nth r fid 0.
  Let E (r : nat) := nth r lid 0.
  Hypothesis HP : (0 < P)%nat.
  Set Default Proof Using "All".

  Lemma advance_first_ok n off first : 0 <= first <= Z.of_nat P - 1 ->
    let f := advance_first n (Z.of_nat P) lid off first in
    first <= f <= Z.of_nat P - 1 /\ forall e, first <= Z.of_nat e < f -> E e < off.
  Proof.
    revert first. induction n as [|n IH]; intros first Hf; cbn [advance_first]; [split; [lia | intros e He; lia]|].
    destruct (Z.ltb_spec first (Z.of_nat P - 1)) as [H1|H1]; cbn [andb]; [|split; [lia | intros e He; lia]].
    destruct (Z.ltb_spec (nth (Z.to_nat first) lid 0) off) as [H2|H2]; [|split; [lia | intros e He; lia]].
    destruct (IH (first + 1) ltac:(lia)) as [I1 I2]. split; [lia|]. intros e He.
    destruct (Z.eq_dec (Z.of_nat e) first) as [H|H]; [|apply I2; lia]. unfold E. replace e with (Z.to_nat first) by lia. exact H2.
  Qed.
  Lemma advance_last_ok n gend last : -1 <= last <= Z.of_nat P - 1 -> Z.of_nat P - 1 - last <= Z.of_nat n ->
    let l := advance_last n (Z.of_nat P) fid gend last in
    last <= l <= Z.of_nat P - 1 /\ (l = Z.of_nat P - 1 \/ gend <= F (Z.to_nat (l + 1))).
  Proof.
    revert last. induction n as [|n IH]; intros last Hl Hn; cbn [advance_last]; [split; [lia | left; lia]|].
    destruct (Z.ltb_spec last (Z.of_nat P - 1)) as [H1|H1]; cbn [andb]; [|split; [lia | left; lia]].
    destruct (Z.ltb_spec (nth (Z.to_nat (last + 1)) fid 0) gend) as [H2|H2]; [|split; [lia | right; exact H2]].
    destruct (IH (last + 1) ltac:(lia) ltac:(lia)) as [I1 I2]. split; [lia | exact I2].
  Qed.

  (** group (o, l) has a particle on rank d *)
  Definition touches (d : nat) (g : Z * Z) : Prop := exists p, F d <= p <= E d /\ fst g <= p < fst g + snd g.

  Record plan_inv (gs : list (Z * Z)) (st : plan) : Prop := {
    pi_first : 0 <= p_first st <= Z.of_nat P - 1;
    pi_last : -1 <= p_last st <= Z.of_nat P - 1;
    pi_before : forall e, Z.of_nat e < p_first st -> exists g, In g gs /\ E e < fst g;
    pi_slot : forall d, (d < P)%nat ->
      let so := nth d (p_offset st) 0 in let sc := nth d (p_count st) 0 in
      (sc = 0 /\ so = -1 /\ (Z.of_nat d < p_first st \/ p_last st < Z.of_nat d)) \/
      (0 < sc /\ 0 <= so /\ so + sc <= zlen gs /\ (p_first st <= Z.of_nat d -> so + sc = zlen gs /\ Z.of_nat d <= p_last st));
    pi_cover : forall d k g, (d < P)%nat -> nth_error gs k = Some g -> touches d g ->
      nth d (p_offset st) 0 <= Z.of_nat k < nth d (p_offset st) 0 + nth d (p_count st) 0
  }.
  Hypothesis Fmono : forall a b, (a <= b)%nat -> (b < P)%nat -> F a <= F b.

  Lemma plan_start_inv : plan_inv [] (plan_start P).
  Proof.
    constructor; cbn [plan_start p_first p_last p_offset p_count].
    - lia.
    - lia.
    - intros e He. lia.
    - intros d Hd. left. rewrite !nth_repeat_lt by assumption. repeat split; lia.
    - intros d k g Hd Hk. destruct k; discriminate.
  Qed.
  Lemma plan_step_inv gs st o l :
    plan_inv gs st -> (0 < l -> forall g, In g gs -> fst g <= o) ->
    plan_inv (gs ++ [(o, l)]) (plan_step P fid lid st (zlen gs) o l).
  Proof.
    intros [H1 H2 H3 H4 H5] Hasc. unfold plan_step.
    destruct (advance_first_ok P o (p_first st) H1) as [A1 A2]. set (f := advance_first _ _ _ _ _) in *.
    destruct (advance_last_ok P (o + l) (p_last st) H2 ltac:(lia)) as [B1 B2]. set (la := advance_last _ _ _ _ _) in *.
    assert (zlen (gs ++ [(o, l)]) = zlen gs + 1) as Hz by (unfold zlen; rewrite app_length; cbn; lia).
    assert (0 <= zlen gs) as Hz0 by (unfold zlen; lia).
    assert (forall e, Z.of_nat e < f -> exists g, In g (gs ++ [(o, l)]) /\ E e < fst g) as Hbef.
    { intros e He. destruct (Z.ltb_spec (Z.of_nat e) (p_first st)) as [Hlt|Hge].
      - destruct (H3 e Hlt) as (g & G1 & G2). exists g. split; [apply in_or_app; now left | assumption].
      - exists (o, l). split; [apply in_or_app; right; now left|]. cbn. apply A2. lia. }
    constructor; cbn [p_first p_last p_offset p_count].
    - lia.
    - lia.
    - exact Hbef.
    - intros d Hd. rewrite !nth_spmd by assumption. specialize (H4 d Hd). cbn zeta in *. rewrite Hz.
      destruct (Z.leb_spec f (Z.of_nat d)), (Z.leb_spec (Z.of_nat d) la); cbn [andb];
        destruct (Z.ltb_spec (nth d (p_offset st) 0) 0); lia.
    - intros d k g Hd Hk Ht. rewrite !nth_spmd by assumption. cbn zeta.
      destruct (Nat.lt_ge_cases k (length gs)) as [Hlt|Hge].
      + rewrite nth_error_app1 in Hk by assumption. specialize (H5 d k g Hd Hk Ht). specialize (H4 d Hd). cbn zeta in H4.
        destruct (Z.leb_spec f (Z.of_nat d)), (Z.leb_spec (Z.of_nat d) la); cbn [andb];
          destruct (Z.ltb_spec (nth d (p_offset st) 0) 0); lia.
      + rewrite nth_error_app2 in Hk by assumption. destruct (k - length gs)%nat as [|q] eqn:Eq; [|destruct q; discriminate]. cbn in Hk. injection Hk as <-.
        assert (Z.of_nat k = zlen gs) as Hkz by (unfold zlen; lia). destruct Ht as (p & T1 & T2). cbn [fst snd] in T2.
        assert (f <= Z.of_nat d) as Hf.
        { destruct (Z.leb_spec f (Z.of_nat d)) as [|Hf]; [assumption|]. destruct (Hbef d Hf) as (g & G1 & G2). apply in_app_or in G1. destruct G1 as [G1|[<-|[]]]; [|cbn in G2; lia].
          specialize (Hasc ltac:(lia) g G1). lia. }
        assert (Z.of_nat d <= la) as Hla.
        { destruct (Z.leb_spec (Z.of_nat d) la) as [|Hla]; [assumption|]. destruct B2 as [B2|B2]; [lia|].
          pose proof (Fmono (Z.to_nat (la + 1)) d ltac:(lia) Hd). lia. }
        specialize (H4 d Hd). cbn zeta in H4. destruct (Z.leb_spec f (Z.of_nat d)); [|lia]. destruct (Z.leb_spec (Z.of_nat d) la); [|lia]. cbn [andb].
        destruct (Z.ltb_spec (nth d (p_offset st) 0) 0); lia.
  Qed.
  Lemma plan_loop_inv gs2 : forall gs1 st, plan_inv gs1 st ->
    (forall a b g o l, (a < b)%nat -> nth_error (gs1 ++ gs2) a = Some g -> nth_error (gs1 ++ gs2) b = Some (o, l) -> 0 < l -> fst g <= o) ->
    plan_inv (gs1 ++ gs2) (plan_loop P fid lid st (zlen gs1) gs2).
  Proof.
    induction gs2 as [|[o l] gs2 IH]; intros gs1 st Hinv Hasc; cbn [plan_loop]; [now rewrite app_nil_r|].
    replace (gs1 ++ (o, l) :: gs2) with ((gs1 ++ [(o, l)]) ++ gs2) in * by (now rewrite <- app_assoc).
    replace (zlen gs1 + 1) with (zlen (gs1 ++ [(o, l)])) by (unfold zlen; rewrite app_length; cbn; lia).
    apply IH; [|exact Hasc]. apply plan_step_inv; [assumption|]. intros Hl g Hg. apply In_nth_error in Hg. destruct Hg as (a & Ha).
    assert (a < length gs1)%nat as Hlt by (apply nth_error_Some; congruence).
    apply (Hasc a (length gs1) g o l); [assumption | | | assumption].
    - rewrite nth_error_app1 by (rewrite app_length; lia). now rewrite nth_error_app1 by assumption.
    - rewrite nth_error_app1 by (rewrite app_length; cbn; lia). rewrite nth_error_app2 by lia. now rewrite Nat.sub_diag.
  Qed.
End Plan.

(** *** assignment on one rank *)
Definition covers (p : Z) (g : Z * (Z * Z)) : bool := (fst (snd g) <=? p) && (p <? fst (snd g) + snd (snd g)).
(** what the serial loop computes for particle [p] *)
Definition serial (p : Z) (gs : list (Z * (Z * Z))) (start : Z * Z) : Z * Z :=
  fold_left (fun acc g => if covers p g then (fst g, p - fst (snd g)) else acc) gs start.

Lemma assign_groups_ok n prev gs : 0 <= n -> length (assign_groups n prev gs) = Z.to_nat n /\
  forall k, (k < Z.to_nat n)%nat -> nth k (assign_groups n prev gs) 0 = fst (serial (prev + Z.of_nat k) gs (-1, -1)).
Proof.
  intro Hn. unfold assign_groups, serial.
  assert (forall k, (k < Z.to_nat n)%nat -> nth k (repeat (-1) (Z.to_nat n)) 0 = fst (-1, -1)) as H0 by (intros k Hk; now rewrite nth_repeat_lt).
  assert (length (repeat (-1) (Z.to_nat n)) = Z.to_nat n) as Hl by apply repeat_length.
  revert H0 Hl. generalize (repeat (-1) (Z.to_nat n)) as buf.
  assert (forall gs buf (st : nat -> Z * Z), (forall k, (k < Z.to_nat n)%nat -> nth k buf 0 = fst (st k)) -> length buf = Z.to_nat n ->
    let out := fold_left (fun grnr g => let '(ind, (offset, length)) := g in
      let i1 := Z.max 0 (offset - prev) in let i2 := Z.min n (offset + length - prev) in
      if i1 <? i2 then write_at grnr i1 (repeat ind (Z.to_nat (i2 - i1))) else grnr) gs buf in
    length out = Z.to_nat n /\ forall k, (k < Z.to_nat n)%nat -> nth k out 0 = fst (fold_left (fun acc g => if covers (prev + Z.of_nat k) g then (fst g, prev + Z.of_nat k - fst (snd g)) else acc) gs (st k))) as H.
  { clear gs. induction gs as [|[ind [o l]] gs IH]; intros buf st Hb Hl; cbn [fold_left]; [split; assumption|].
    cbv zeta. apply (IH _ (fun k => if covers (prev + Z.of_nat k) (ind, (o, l)) then (ind, prev + Z.of_nat k - o) else st k)).
    - intros k Hk. unfold covers. cbn [fst snd]. destruct (Z.ltb_spec (Z.max 0 (o - prev)) (Z.min n (o + l - prev))) as [Hlt|Hge].
      + rewrite nth_write_at by (unfold zlen; rewrite ?repeat_length; lia). unfold zlen. rewrite repeat_length.
        destruct ((Z.max 0 (o - prev) <=? Z.of_nat k) && (Z.of_nat k <? Z.max 0 (o - prev) + Z.of_nat (Z.to_nat (Z.min n (o + l - prev) - Z.max 0 (o - prev))))) eqn:B.
        * replace ((o <=? prev + Z.of_nat k) && (prev + Z.of_nat k <? o + l)) with true by lia. rewrite nth_repeat_lt by lia. reflexivity.
        * replace ((o <=? prev + Z.of_nat k) && (prev + Z.of_nat k <? o + l)) with false by lia. now apply Hb.
      + replace ((o <=? prev + Z.of_nat k) && (prev + Z.of_nat k <? o + l)) with false by lia. now apply Hb.
    - destruct (Z.ltb_spec (Z.max 0 (o - prev)) (Z.min n (o + l - prev))); [|assumption].
      rewrite write_at_length; [assumption | lia | unfold zlen; rewrite repeat_length; lia]. }
  intros buf Hb Hl. exact (H gs buf (fun _ => (-1, -1)) Hb Hl).
Qed.
Lemma assign_ranks_ok n prev gs : 0 <= n -> length (assign_ranks n prev gs) = Z.to_nat n /\
  forall k, (k < Z.to_nat n)%nat -> nth k (assign_ranks n prev gs) 0 = snd (serial (prev + Z.of_nat k) gs (-1, -1)).
Proof.
  intro Hn. unfold assign_ranks, serial.
  assert (forall k, (k < Z.to_nat n)%nat -> nth k (repeat (-1) (Z.to_nat n)) 0 = snd (-1, -1)) as H0 by (intros k Hk; now rewrite nth_repeat_lt).
  assert (length (repeat (-1) (Z.to_nat n)) = Z.to_nat n) as Hl by apply repeat_length.
  revert H0 Hl. generalize (repeat (-1) (Z.to_nat n)) as buf.
  assert (forall gs buf (st : nat -> Z * Z), (forall k, (k < Z.to_nat n)%nat -> nth k buf 0 = snd (st k)) -> length buf = Z.to_nat n ->
    let out := fold_left (fun rank g => let '(ind, (offset, length)) := g in
      let i1 := offset - prev in let rank_offset := if i1 <? 0 then Z.abs i1 else 0 in
      let i1 := Z.max 0 i1 in let i2 := Z.min n (offset + length - prev) in
      if 0 <? i2 - i1 then write_at rank i1 (zseq rank_offset (Z.to_nat (i2 - i1))) else rank) gs buf in
    length out = Z.to_nat n /\ forall k, (k < Z.to_nat n)%nat -> nth k out 0 = snd (fold_left (fun acc g => if covers (prev + Z.of_nat k) g then (fst g, prev + Z.of_nat k - fst (snd g)) else acc) gs (st k))) as H.
  { clear gs. induction gs as [|[ind [o l]] gs IH]; intros buf st Hb Hl; cbn [fold_left]; [split; assumption|].
    cbv zeta. apply (IH _ (fun k => if covers (prev + Z.of_nat k) (ind, (o, l)) then (ind, prev + Z.of_nat k - o) else st k)).
    - intros k Hk. unfold covers. cbn [fst snd]. destruct (Z.ltb_spec 0 (Z.min n (o + l - prev) - Z.max 0 (o - prev))) as [Hlt|Hge].
      + rewrite nth_write_at by (unfold zlen; rewrite ?zseq_length; lia). unfold zlen. rewrite zseq_length.
        destruct ((Z.max 0 (o - prev) <=? Z.of_nat k) && (Z.of_nat k <? Z.max 0 (o - prev) + Z.of_nat (Z.to_nat (Z.min n (o + l - prev) - Z.max 0 (o - prev))))) eqn:B.
        * replace ((o <=? prev + Z.of_nat k) && (prev + Z.of_nat k <? o + l)) with true by lia. rewrite nth_zseq by lia. cbn [snd]. destruct (Z.ltb_spec (o - prev) 0); lia.
        * replace ((o <=? prev + Z.of_nat k) && (prev + Z.of_nat k <? o + l)) with false by lia. now apply Hb.
      + replace ((o <=? prev + Z.of_nat k) && (prev + Z.of_nat k <? o + l)) with false by lia. now apply Hb.
    - destruct (Z.ltb_spec 0 (Z.min n (o + l - prev) - Z.max 0 (o - prev))); [|assumption].
      rewrite write_at_length; [assumption | lia | unfold zlen; rewrite zseq_length; lia]. }
  intros buf Hb Hl. exact (H gs buf (fun _ => (-1, -1)) Hb Hl).
Qed.

(** groups that do not cover the particle can be dropped *)
Lemma serial_none p gs st : (forall g, In g gs -> covers p g = false) -> serial p gs st = st.
Proof.
  unfold serial. revert st. induction gs as [|g gs IH]; intros st H; [reflexivity|]. cbn [fold_left]. rewrite (H g) by (now left). apply IH. intros g' Hg'. apply H. now right.
Qed.
Lemma serial_app p a b st : serial p (a ++ b) st = serial p b (serial p a st).
Proof. unfold serial. apply fold_left_app. Qed.
Lemma serial_slice p gs a b st : (forall k g, nth_error gs k = Some g -> covers p g = true -> a <= Z.of_nat k < b) ->
  serial p (zslice gs a b) st = serial p gs st.
Proof.
  intros H. destruct (Z.ltb_spec a b) as [Hab|Hab].
  - assert (gs = firstn (Z.to_nat a) gs ++ zslice gs a b ++ skipn (Z.to_nat b) gs) as E.
    { unfold zslice. rewrite <- (firstn_skipn (Z.to_nat a) gs) at 1. f_equal. rewrite <- (firstn_skipn (Z.to_nat b - Z.to_nat a) (skipn (Z.to_nat a) gs)) at 1. f_equal.
      rewrite skipn_skipn'. f_equal. lia. }
    rewrite E at 2. rewrite !serial_app. rewrite (serial_none p (firstn _ _)), (serial_none p (skipn _ _)); [reflexivity| |].
    + intros g Hg. apply In_nth_error in Hg. destruct Hg as (k & Hk). destruct (covers p g) eqn:C; [|reflexivity].
      specialize (H (Z.to_nat b + k)%nat g). rewrite <- nth_error_skipn' in H. specialize (H Hk C). lia.
    + intros g Hg. apply In_nth_error in Hg. destruct Hg as (k & Hk). destruct (covers p g) eqn:C; [|reflexivity].
      assert (k < length (firstn (Z.to_nat a) gs))%nat as Hl by (apply nth_error_Some; congruence). rewrite firstn_length in Hl.
      rewrite nth_error_firstn' in Hk. destruct (Nat.ltb_spec k (Z.to_nat a)); [|lia]. specialize (H k g Hk C). lia.
  - unfold zslice. replace (Z.to_nat b - Z.to_nat a)%nat with 0%nat by lia. cbn [firstn]. rewrite (serial_none p gs); [reflexivity|].
    intros g Hg. apply In_nth_error in Hg. destruct Hg as (k & Hk). destruct (covers p g) eqn:C; [|reflexivity]. specialize (H k g Hk C). lia.
Qed.
Lemma serial_concat p P (f h : nat -> list (Z * (Z * Z))) st :
  (forall i st, (i < P)%nat -> serial p (f i) st = serial p (h i) st) ->
  serial p (concat (spmd P f)) st = serial p (concat (spmd P h)) st.
Proof.
  induction P as [|P IH]; intro H; [reflexivity|]. rewrite !spmd_S, !concat_app, !serial_app. cbn [concat]. rewrite !app_nil_r.
  rewrite H by lia. f_equal. apply IH. intros i st' Hi. apply H. lia.
Qed.
Lemma serial_spec p gs :
  ((forall k g, nth_error gs k = Some g -> covers p g = false) /\ serial p gs (-1, -1) = (-1, -1)) \/
  (exists k g, nth_error gs k = Some g /\ covers p g = true /\ serial p gs (-1, -1) = (fst g, p - fst (snd g)) /\
     forall k' g', (k < k')%nat -> nth_error gs k' = Some g' -> covers p g' = false).
Proof.
  induction gs as [|g gs IH] using rev_ind; [left; split; [intros [|k] g; discriminate | reflexivity]|].
  rewrite serial_app. unfold serial at 1 3. cbn [fold_left]. destruct (covers p g) eqn:C.
  - right. exists (length gs), g. split; [rewrite nth_error_app2 by lia; now rewrite Nat.sub_diag|]. split; [assumption|]. split; [reflexivity|].
    intros k' g' Hk Hg. assert (k' < length (gs ++ [g]))%nat as Hl by (apply nth_error_Some; congruence). rewrite app_length in Hl. cbn in Hl. lia.
  - assert (forall k g', nth_error (gs ++ [g]) k = Some g' -> covers p g' = true -> nth_error gs k = Some g') as Hold.
    { intros k g' Hk Hc. destruct (Nat.lt_ge_cases k (length gs)); [now rewrite nth_error_app1 in Hk by assumption|].
      rewrite nth_error_app2 in Hk by assumption. destruct (k - length gs)%nat as [|q]; [injection Hk as <-; congruence | destruct q; discriminate]. }
    destruct IH as [[I1 I2]|(k & g' & I1 & I2 & I3 & I4)].
    + left. split; [|exact I2]. intros k g' Hk. destruct (covers p g') eqn:C'; [|reflexivity]. rewrite <- C'. apply (I1 k). now apply Hold.
    + right. exists k, g'. split; [rewrite nth_error_app1; [assumption | apply nth_error_Some; congruence]|]. split; [assumption|]. split; [exact I3|].
      intros k' g'' Hk Hg. destruct (covers p g'') eqn:C'; [|reflexivity]. rewrite <- C'. apply (I4 k'); [assumption|]. now apply Hold.
Qed.

Lemma nth_error_combine {A B} (a : list A) (b : list B) k x y :
  nth_error (combine a b) k = Some (x, y) <-> nth_error a k = Some x /\ nth_error b k = Some y.
Proof.
  revert b k. induction a as [|u a IH]; intros [|v b] [|k]; cbn; try (split; [discriminate | intros [? ?]; discriminate]).
  - split; [intro H; injection H as <- <-; now split | intros [H1 H2]; congruence].
  - apply IH.
Qed.
Lemma combine_3 {A B C} (R : list (A * (B * C))) :
  combine (map fst R) (combine (map (fun g => fst (snd g)) R) (map (fun g => snd (snd g)) R)) = R.
Proof. induction R as [|[a [b c]] R IH]; [reflexivity|]. cbn. now rewrite IH. Qed.
Lemma map_fst_combine3 {A B C} (a : list A) (b : list B) (c : list C) : length a = length c -> length b = length c ->
  map fst (combine a (combine b c)) = a /\ map (fun g => fst (snd g)) (combine a (combine b c)) = b /\ map (fun g => snd (snd g)) (combine a (combine b c)) = c.
Proof.
  revert b c. induction a as [|x a IH]; intros [|y b] [|z c] H1 H2; try discriminate; [now repeat split|]. cbn in *.
  destruct (IH b c ltac:(lia) ltac:(lia)) as (E1 & E2 & E3). now rewrite E1, E2, E3.
Qed.

Section Final.
  Variables (junk : Z) (len off : list (list Z)) (nids : list Z).
  Let P := length len.
  Hypothesis HP : (0 < P)%nat.
  Hypothesis Hlay : layout off = layout len.
  Hypothesis Hn : length nids = P.
  Hypothesis Hpos : Forall (fun n => 0 <= n) nids.
  Hypothesis Hasc : forall r, (r < P)%nat -> offsets_ascending (nth r off []) (nth r len []).
  Set Default Proof Using "All".

  Let fid := excl_cumsum nids.
  Let lid := map (fun n => n - 1) (cumsum nids).
  Let st (r : nat) := plan_loop P fid lid (plan_start P) 0 (combine (nth r off []) (nth r len [])).
  Definition gidx (r : nat) := map (fun i => i + nth r (excl_cumsum (nperproc len)) 0) (zseq 0 (length (nth r len []))).
  Definition recs (r : nat) := combine (gidx r) (combine (nth r off []) (nth r len [])).

  Lemma fid_goff r : (r < P)%nat -> nth r fid 0 = goff nids r.
  Proof. intro H. unfold fid. apply nth_excl_goff. lia. Qed.
  Lemma lid_goff r : (r < P)%nat -> nth r lid 0 = goff nids (S r) - 1.
  Proof.
    intro H. unfold lid. rewrite nth_map_dflt with (d' := 0) by (rewrite cumsum_length; lia). rewrite nth_cumsum by lia. reflexivity.
  Qed.
  Lemma off_len r : length (nth r off []) = length (nth r len []).
  Proof. now apply layout_nth. Qed.
  Lemma gidx_len r : length (gidx r) = length (nth r len []).
  Proof. unfold gidx. now rewrite map_length, zseq_length. Qed.
  Lemma recs_parts r : map fst (recs r) = gidx r /\ map (fun g => fst (snd g)) (recs r) = nth r off [] /\ map (fun g => snd (snd g)) (recs r) = nth r len [].
  Proof. unfold recs. apply map_fst_combine3; [apply gidx_len | apply off_len]. Qed.
  Lemma recs_len r : length (recs r) = length (nth r len []).
  Proof. destruct (recs_parts r) as (_ & _ & E). rewrite <- E. now rewrite map_length. Qed.

  Lemma st_inv r : (r < P)%nat -> plan_inv P fid lid (combine (nth r off []) (nth r len [])) (st r).
  Proof.
    intro Hr. unfold st. change 0 with (zlen (@nil (Z * Z))). 
    assert (forall a b, (a <= b)%nat -> (b < P)%nat -> nth a fid 0 <= nth b fid 0) as Hm.
    { intros a b Hab Hb. rewrite !fid_goff by lia. now apply goff_mono. }
    apply (plan_loop_inv P fid lid HP Hm _ [] (plan_start P)); [now apply plan_start_inv|].
    cbn [app]. intros a b [o l] o' l' Hab Ha Hb Hl. apply nth_error_combine in Ha, Hb. cbn. destruct Ha, Hb. now apply (Hasc r Hr a b o o' l').
  Qed.

  Definition rcv r := concat (spmd P (fun i => zslice (recs i) (nth r (p_offset (st i)) 0) (nth r (p_offset (st i)) 0 + nth r (p_count (st i)) 0))).
  Lemma recv_ok : forall r, (r < P)%nat ->
    let R := rcv r in
    forall p st0, goff nids r <= p < goff nids (S r) -> serial p R st0 = serial p (concat (spmd P recs)) st0.
  Proof.
    intros r Hr R p st0 Hp. unfold R, rcv. apply serial_concat. intros i st' Hi. apply serial_slice. intros k [ind [o l]] Hk Hc.
    apply nth_error_combine in Hk. destruct Hk as [_ Hk]. apply (pi_cover _ _ _ _ _ (st_inv i Hi) r k (o, l) Hr Hk).
    unfold covers in Hc. cbn [fst snd] in Hc. exists p. rewrite fid_goff, lid_goff by assumption. cbn [fst snd]. lia.
  Qed.

  Lemma group_index_eq : group_index junk len off nids =
    Ok (spmd P (fun r => assign_groups (nth r nids 0) (goff nids r) (rcv r)),
        spmd P (fun r => assign_ranks (nth r nids 0) (goff nids r) (rcv r))).
  Proof.
    unfold group_index. cbv zeta. fold P.
    assert (forall i j, (i < P)%nat -> (j < P)%nat ->
      mat (map p_count (spmd P st)) i j = nth j (p_count (st i)) 0 /\ mat (map p_offset (spmd P st)) i j = nth j (p_offset (st i)) 0) as Hmat.
    { intros i j Hi Hj. unfold mat. rewrite !map_spmd, !nth_spmd by assumption. now split. }
    assert (forall (b : list (list Z)), (forall i, (i < P)%nat -> length (nth i b []) = length (nth i len [])) ->
      forall i j, (i < P)%nat -> (j < P)%nat -> 0 <= mat (map p_count (spmd P st)) i j /\
      (mat (map p_count (spmd P st)) i j = 0 \/ 0 <= mat (map p_offset (spmd P st)) i j /\
        mat (map p_offset (spmd P st)) i j + mat (map p_count (spmd P st)) i j <= zlen (nth i b []))) as Hok.
    { intros b Hb i j Hi Hj. destruct (Hmat i j Hi Hj) as [-> ->]. pose proof (pi_slot _ _ _ _ _ (st_inv i Hi) j Hj) as Hs. cbn zeta in Hs.
      unfold zlen in *. rewrite combine_length, off_len, Nat.min_id in Hs. rewrite Hb by assumption. lia. }
    fold fid. fold lid. change (spmd P (fun r => plan_loop P fid lid (plan_start P) 0 (combine (nth r off []) (nth r len [])))) with (spmd P st).
    change (spmd P (fun r => map (fun i => i + nth r (excl_cumsum (nperproc len)) 0) (zseq 0 (length (nth r len []))))) with (spmd P gidx).
    rewrite exchange_ok by (apply Hok; reflexivity). cbn [bind].
    rewrite exchange_ok by (apply Hok; intros; apply off_len). cbn [bind].
    rewrite exchange_ok by (apply Hok; intros i Hi; rewrite nth_spmd by assumption; apply gidx_len). cbn [bind].
    assert (forall r, (r < P)%nat ->
      nth r (spmd P (fun r => combine
        (nth r (spmd P (fun j => concat (spmd P (fun i => zslice (nth i (spmd P gidx) []) (mat (map p_offset (spmd P st)) i j) (mat (map p_offset (spmd P st)) i j + mat (map p_count (spmd P st)) i j))))) [])
        (combine (nth r (spmd P (fun j => concat (spmd P (fun i => zslice (nth i off []) (mat (map p_offset (spmd P st)) i j) (mat (map p_offset (spmd P st)) i j + mat (map p_count (spmd P st)) i j))))) [])
                 (nth r (spmd P (fun j => concat (spmd P (fun i => zslice (nth i len []) (mat (map p_offset (spmd P st)) i j) (mat (map p_offset (spmd P st)) i j + mat (map p_count (spmd P st)) i j))))) [])))) [] =
      rcv r) as HR.
    { intros r Hr. rewrite !nth_spmd by assumption. unfold rcv.
      rewrite <- (combine_3 (concat (spmd P (fun i => zslice (recs i) _ _)))). rewrite !concat_map, !map_spmd.
      f_equal; [|f_equal]; f_equal; apply spmd_ext; intros i Hi; unfold mat; rewrite ?nth_spmd by assumption; rewrite map_zslice; destruct (recs_parts i) as (E1 & E2 & E3).
      - now rewrite E1.
      - now rewrite E2.
      - now rewrite E3. }
    f_equal. f_equal; apply spmd_ext; intros r Hr; rewrite HR by assumption; now rewrite fid_goff by assumption.
  Qed.

  (** the records in global order *)
  Lemma recs_global k i o l : nth_error (concat (spmd P recs)) k = Some (i, (o, l)) ->
    i = Z.of_nat k /\ nth_error (concat off) k = Some o /\ nth_error (concat len) k = Some l.
  Proof.
    intro H. assert (global_at (spmd P recs) (Z.of_nat k) (i, (o, l))) as Hg by (split; [lia | now rewrite Nat2Z.id]).
    apply global_at_local in Hg. destruct Hg as (j & q & Hj & Hq & Ek & Hr). rewrite spmd_length in Hj. rewrite nth_spmd in Hr by assumption.
    assert (layout (spmd P recs) = layout len) as Hl.
    { unfold layout. rewrite map_spmd. apply nth_error_ext. intro u. destruct (Nat.lt_ge_cases u P) as [Hu|Hu].
      - rewrite (nth_error_nth' _ 0%nat) by (now rewrite spmd_length). rewrite nth_spmd by assumption. rewrite recs_len.
        rewrite (nth_error_nth' _ 0%nat) by (now rewrite map_length). f_equal. symmetry. apply (map_nth (@length Z) len [] u).
      - rewrite !(proj2 (nth_error_None _ _)); [reflexivity | rewrite map_length; exact Hu | rewrite spmd_length; exact Hu]. }
    rewrite (goff_layout _ _ Hl) in Ek. unfold recs in Hr. apply nth_error_combine in Hr. destruct Hr as [R1 R2]. apply nth_error_combine in R2. destruct R2 as [R2 R3].
    pose proof (layout_length _ _ Hlay) as Hol.
    pose proof (local_global_at off j q o ltac:(rewrite Hol; exact Hj) R2) as [_ G2]. pose proof (local_global_at len j q l Hj R3) as [_ G3].
    rewrite (goff_layout _ _ Hlay) in G2. rewrite <- Ek, Nat2Z.id in G2, G3. repeat split; [|assumption|assumption].
    unfold gidx in R1. assert (q < length (nth j len []))%nat as Hq' by (apply nth_error_Some; congruence).
    rewrite nth_error_map in R1. rewrite (nth_error_nth' _ 0) in R1 by (now rewrite zseq_length). rewrite nth_zseq in R1 by assumption. cbn [option_map] in R1. injection R1 as <-.
    rewrite nth_excl_goff by (now rewrite nperproc_length). lia.
  Qed.
  Lemma recs_global_len : length (concat (spmd P recs)) = length (concat len).
  Proof.
    assert (zlen (concat (spmd P recs)) = zlen (concat len)) as H; [|unfold zlen in H; lia].
    rewrite !zlen_concat. f_equal. rewrite map_spmd. rewrite <- (spmd_nth (map zlen len) 0). rewrite map_length. fold P.
    apply spmd_ext. intros r Hr. unfold zlen at 1. rewrite recs_len. rewrite nth_map_dflt with (d' := []) by exact Hr. reflexivity.
  Qed.

  Lemma serial_last p : let s := serial p (concat (spmd P recs)) (-1, -1) in last_group (concat off) (concat len) p (fst s) (snd s).
  Proof.
    cbn zeta. assert (forall k o l, contains (concat off) (concat len) p k o l -> exists g, nth_error (concat (spmd P recs)) k = Some g /\ covers p g = true) as Hcon.
    { intros k o l (C1 & C2 & C3). destruct (nth_error (concat (spmd P recs)) k) as [[i [o' l']]|] eqn:E.
      - exists (i, (o', l')). split; [reflexivity|]. apply recs_global in E. destruct E as (_ & E2 & E3). assert (o' = o) as -> by congruence. assert (l' = l) as -> by congruence. unfold covers. cbn [fst snd]. lia.
      - apply nth_error_None in E. rewrite recs_global_len in E. apply nth_error_None in E. congruence. }
    destruct (serial_spec p (concat (spmd P recs))) as [[S1 S2]|(k & [i [o l]] & S1 & S2 & S3 & S4)].
    - left. rewrite S2. repeat split. intros k o l Hc. destruct (Hcon k o l Hc) as (g & G1 & G2). rewrite (S1 k g G1) in G2. discriminate.
    - right. rewrite S3. cbn [fst snd]. pose proof (recs_global _ _ _ _ S1) as (E1 & E2 & E3). exists k, o, l. unfold covers in S2. cbn [fst snd] in S2.
      repeat split; try assumption; try lia. intros k' o' l' Hk Hc. destruct (Hcon k' o' l' Hc) as (g & G1 & G2). rewrite (S4 k' g Hk G1) in G2. discriminate.
  Qed.

  Lemma group_index_main : exists grnr rank, group_index junk len off nids = Ok (grnr, rank) /\
    map zlen grnr = nids /\ map zlen rank = nids /\
    forall p g pos, global_at grnr p g -> global_at rank p pos -> last_group (concat off) (concat len) p g pos.
  Proof.
    rewrite group_index_eq. eexists _, _. split; [reflexivity|].
    assert (forall r, (r < P)%nat -> 0 <= nth r nids 0) as Hnn by (intros r Hr; rewrite Forall_nth in Hpos; apply Hpos; lia).
    assert (forall f : nat -> list Z, (forall r, (r < P)%nat -> length (f r) = Z.to_nat (nth r nids 0)) -> map zlen (spmd P f) = nids) as Hsz.
    { intros f Hf. rewrite map_spmd. rewrite <- (spmd_nth nids 0). rewrite Hn. apply spmd_ext. intros r Hr. unfold zlen. rewrite Hf by assumption. specialize (Hnn r Hr). lia. }
    assert (map zlen (spmd P (fun r => assign_groups (nth r nids 0) (goff nids r) (rcv r))) = nids) as L1 by (apply Hsz; intros r Hr; now apply assign_groups_ok, Hnn).
    assert (map zlen (spmd P (fun r => assign_ranks (nth r nids 0) (goff nids r) (rcv r))) = nids) as L2 by (apply Hsz; intros r Hr; now apply assign_ranks_ok, Hnn).
    split; [exact L1|]. split; [exact L2|]. intros p g pos Hg Hr.
    apply global_at_local in Hg. destruct Hg as (j & k & Hj & Hk & Ep & Hgk). rewrite spmd_length in Hj. rewrite nth_spmd in Hk, Hgk by assumption.
    unfold nperproc in Ep. rewrite L1 in Ep. destruct (assign_groups_ok (nth j nids 0) (goff nids j) (rcv j) (Hnn j Hj)) as [G1 G2]. destruct (assign_ranks_ok (nth j nids 0) (goff nids j) (rcv j) (Hnn j Hj)) as [K1 K2].
    rewrite G1 in Hk. specialize (G2 k Hk). specialize (K2 k Hk). apply (nth_error_nth _ _ 0) in Hgk. rewrite Hgk in G2.
    assert (nth_error (nth j (spmd P (fun r => assign_ranks (nth r nids 0) (goff nids r) (rcv r))) []) k = Some (nth k (assign_ranks (nth j nids 0) (goff nids j) (rcv j)) 0)) as Hrk.
    { rewrite nth_spmd by assumption. apply nth_error_nth'. lia. }
    apply local_global_at in Hrk; [|now rewrite spmd_length]. unfold nperproc in Hrk. rewrite L2 in Hrk. destruct Hrk as [_ Hrk], Hr as [_ Hr].
    rewrite <- Ep, Hr in Hrk. injection Hrk as ->. rewrite K2, G2. rewrite <- Ep.
    rewrite (recv_ok j Hj p (-1, -1)) by (rewrite goff_S by lia; lia). apply serial_last.
  Qed.
End Final.
