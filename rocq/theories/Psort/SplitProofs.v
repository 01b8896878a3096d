(** Proofs about find_splitting_points. *)
From Coq Require Import QArith.
From Verif.Base Require Import Prelude ListLemmas Order.
From Verif.Mpi Require Import CommModel CommProofs.
From Verif.Psort Require Import SplitModel MedianProofs FetchProofs.
From Coq Require Import ZifyBool ZifyNat.
Local Open Scope Z_scope.

Lemma sumZ_pos l : Forall (fun x => 0 <= x) l -> (exists x, In x l /\ 0 < x) -> 0 < sumZ l.
Proof.
  induction 1 as [|y l Hy Hl IH]; intros (x & Hin & Hx); [destruct Hin|]. cbn [sumZ].
  destruct Hin as [->|Hin].
  - pose proof (sumZ_nonneg l Hl). lia.
  - specialize (IH (ex_intro _ x (conj Hin Hx))). lia.
Qed.
Lemma sumZ_spmd_le P (f g : nat -> Z) : (forall p, (p < P)%nat -> f p <= g p) -> sumZ (spmd P f) <= sumZ (spmd P g).
Proof. intro H. unfold spmd. apply sumZ_map_le. intros x Hx. apply in_seq in Hx. apply H. lia. Qed.
Lemma sumZ_spmd_lt P (f g : nat -> Z) q : (forall p, (p < P)%nat -> f p <= g p) -> (q < P)%nat -> f q < g q ->
  sumZ (spmd P f) < sumZ (spmd P g).
Proof.
  intros H Hq Hlt. revert H Hq. induction P as [|P IH]; intros H Hq; [lia|]. rewrite !spmd_S, !sumZ_app. cbn [sumZ].
  destruct (Nat.eq_dec q P) as [->|Hne].
  - pose proof (sumZ_spmd_le P f g ltac:(intros; apply H; lia)). lia.
  - specialize (IH ltac:(intros; apply H; lia) ltac:(lia)). specialize (H P ltac:(lia)). lia.
Qed.

Section Ranks.
  Context {A : Type} (Od : TOrd A).
  (** an element of every global rank exists *)
  Lemma rank_exists (G : list A) r : 0 <= r < zlen G ->
    exists e, In e G /\ count_lt Od e G <= r < count_le Od e G.
  Proof.
    intro Hr. destruct G as [|a0 G0]; [unfold zlen in Hr; cbn in Hr; lia|]. set (G := a0 :: G0) in *.
    set (S := sort_by Od (fun x => x) G).
    assert (Permutation S G) as HP by apply sort_by_perm.
    assert (sorted Od S) as HS.
    { pose proof (sort_by_sorted_keys Od (fun x => x) G) as H. now rewrite map_id in H. }
    assert (length S = length G) as Hl by (now apply Permutation_length).
    exists (nth (Z.to_nat r) S a0). split.
    { eapply Permutation_in; [exact HP|]. apply nth_In. unfold zlen in Hr. lia. }
    set (e := nth (Z.to_nat r) S a0).
    unfold count_lt, count_le. rewrite <- !(count_perm _ S G HP).
    fold (count_lt Od e S) (count_le Od e S). rewrite <- ssl_count, <- ssr_count by assumption.
    assert (Z.to_nat r < length S)%nat as Hlt by (unfold zlen in Hr; lia).
    split.
    - destruct (Z.le_gt_cases (searchsorted_left Od S e) r) as [H|H]; [assumption|].
      pose proof (ssl_before Od S e (Z.to_nat r) a0 ltac:(lia)) as H'. fold e in H'. now rewrite ltb_irrefl in H'.
    - destruct (Z.lt_ge_cases r (searchsorted_right Od S e)) as [H|H]; [assumption|].
      pose proof (ssr_after Od S e (Z.to_nat r) a0 HS ltac:(lia) Hlt) as H'. fold e in H'. now rewrite leb_refl in H'.
  Qed.
End Ranks.

Section SplitP.
  Context {A : Type} (Od : TOrd A) (zero : A) (W : Type) (wzero : W) (weight_of : Z -> Z -> W)
    (wmedian : list A -> list W -> res A).

  (** the only property of the weighted median that matters: it returns one of
      the values with a non-zero number of active elements *)
  Definition median_ok (P : nat) (N : Z) : Prop :=
    forall (meds : list A) (ns : list Z), length meds = P -> length ns = P ->
    Forall (fun n => 0 <= n) ns -> 0 < sumZ ns <= N ->
    exists k, (k < P)%nat /\ 0 < nth k ns 0 /\
      wmedian meds (map (fun n => if 0 <? n then weight_of n (sumZ ns) else wzero) ns) = Ok (nth k meds zero).

  Variable arrs : list (list A).
  Let P := length arrs.
  Let G := concat arrs.
  Let N := zlen G.
  Hypothesis Hmed : median_ok P N.
  Hypothesis Hsorted : Forall (sorted Od) arrs.
  Set Default Proof Using "All".

  Notation arr p := (nth p arrs []).

  Lemma arr_sorted p : sorted Od (arr p).
  Proof.
    destruct (Nat.lt_ge_cases p P) as [H|H].
    - rewrite Forall_nth in Hsorted. now apply Hsorted.
    - rewrite nth_overflow by assumption. constructor.
  Qed.

  Record inv (t : track (A := A)) : Prop := {
    i_r : 0 <= t_r t < N;
    i_lmin : length (t_imin t) = P;
    i_lmax : length (t_imax t) = P;
    i_range : forall p, (p < P)%nat -> 0 <= nth p (t_imin t) 0 /\ nth p (t_imax t) 0 < zlen (arr p);
    i_low : forall p j, (p < P)%nat -> (j < length (arr p))%nat -> Z.of_nat j < nth p (t_imin t) 0 ->
       count_le Od (nth j (arr p) zero) G <= t_r t;
    i_high : forall p j, (p < P)%nat -> (j < length (arr p))%nat -> nth p (t_imax t) 0 < Z.of_nat j ->
       t_r t < count_lt Od (nth j (arr p) zero) G
  }.
  Record found (t : track (A := A)) : Prop := {
    fd_in : In (t_median t) G;
    fd_min : t_min_rank t = count_lt Od (t_median t) G;
    fd_max : t_max_rank t = count_le Od (t_median t) G - 1;
    fd_r : t_min_rank t <= t_r t <= t_max_rank t
  }.
  Definition good (t : track) : Prop := if t_done t then found t else inv t.
  Definition act (t : track (A := A)) : Z := sumZ (spmd P (nlocal t)).

  Lemma nlocal_nonneg (t : track (A := A)) p : 0 <= nlocal t p.
  Proof. unfold nlocal. lia. Qed.
  Lemma nlocals_nonneg (t : track (A := A)) : Forall (fun n => 0 <= n) (spmd P (nlocal t)).
  Proof. apply Forall_forall. intros x Hx. apply In_spmd in Hx. destruct Hx as (p & _ & ->). apply nlocal_nonneg. Qed.

  Lemma In_G_pos e : In e G -> exists p j, (p < P)%nat /\ (j < length (arr p))%nat /\ nth j (arr p) zero = e.
  Proof.
    intro H. unfold G in H. apply in_concat in H. destruct H as (l & Hl & He).
    apply In_nth with (d := []) in Hl. destruct Hl as (p & Hp & <-).
    apply In_nth with (d := zero) in He. destruct He as (j & Hj & Ej). exists p, j. auto.
  Qed.
  Lemma pos_In_G p j : (p < P)%nat -> (j < length (arr p))%nat -> In (nth j (arr p) zero) G.
  Proof. intros Hp Hj. unfold G. apply in_concat. exists (arr p). split; apply nth_In; assumption. Qed.

  Lemma act_pos t : inv t -> 0 < act t.
  Proof.
    intro Hi. destruct Hi as [Hr Hl1 Hl2 Hrng Hlow Hhigh].
    destruct (rank_exists Od G (t_r t) Hr) as (e & He & Hlt).
    destruct (In_G_pos e He) as (p & j & Hp & Hj & Ej).
    unfold act. apply sumZ_pos; [apply nlocals_nonneg|].
    exists (nlocal t p). split; [apply In_spmd; eauto|].
    unfold nlocal. specialize (Hlow p j Hp Hj). specialize (Hhigh p j Hp Hj). rewrite Ej in *. lia.
  Qed.
  Lemma act_le t : inv t -> act t <= N.
  Proof.
    intro Hi. destruct Hi as [Hr Hl1 Hl2 Hrng Hlow Hhigh]. unfold act, N, G. rewrite zlen_concat.
    rewrite <- (spmd_nth arrs []) at 1. rewrite map_spmd. apply sumZ_spmd_le. intros p Hp.
    specialize (Hrng p Hp). unfold nlocal. pose proof (zlen_nonneg (arr p)). lia.
  Qed.

  Lemma local_estimate_ok t p : inv t -> t_done t = false -> (p < P)%nat ->
    local_estimate zero W wzero weight_of arrs t p =
    Ok (if 0 <? nlocal t p then nth (Z.to_nat (nth p (t_imin t) 0 + nlocal t p / 2)) (arr p) zero else zero,
        if 0 <? nlocal t p then weight_of (nlocal t p) (act t) else wzero).
  Proof.
    intros Hi Hd Hp. unfold local_estimate. rewrite Hd. cbn [negb]. rewrite andb_true_r. fold P. fold (act t).
    destruct (Z.ltb_spec 0 (nlocal t p)) as [Hn|Hn]; [|reflexivity].
    unfold arr_at. rewrite py_nth_ok with (d := zero); [reflexivity|].
    destruct Hi as [Hr Hl1 Hl2 Hrng _ _]. specialize (Hrng p Hp).
    pose proof (Z.div_lt (nlocal t p) 2 ltac:(lia) ltac:(lia)). pose proof (Z.div_pos (nlocal t p) 2 ltac:(lia) ltac:(lia)).
    unfold nlocal in *. lia.
  Qed.

  Lemma estimate_ok nr t : inv t -> t_done t = false ->
    exists q j, (q < P)%nat /\ (j < length (arr q))%nat /\
      nth q (t_imin t) 0 <= Z.of_nat j <= nth q (t_imax t) 0 /\
      estimate zero W wzero weight_of wmedian nr arrs t = Ok (nth j (arr q) zero).
  Proof.
    intros Hi Hd. unfold estimate, column. fold P.
    rewrite (mapM_seq_ok _ _ P (fun p Hp => local_estimate_ok t p Hi Hd Hp)). cbn [bind]. rewrite Hd.
    rewrite !map_spmd. cbn [fst snd].
    set (meds := spmd P (fun p => if 0 <? nlocal t p then _ else zero)).
    destruct (Hmed meds (spmd P (nlocal t))) as (k & Hk & Hpos & Heq).
    - apply spmd_length.
    - apply spmd_length.
    - apply nlocals_nonneg.
    - split; [now apply act_pos | now apply act_le].
    - rewrite map_spmd in Heq. fold (act t) in Heq. rewrite Heq.
      rewrite nth_spmd in Hpos by assumption. unfold meds. rewrite nth_spmd by assumption.
      destruct (Z.ltb_spec 0 (nlocal t k)); [|lia].
      pose proof (i_range _ Hi k Hk) as Hrng.
      pose proof (Z.div_lt (nlocal t k) 2 ltac:(lia) ltac:(lia)). pose proof (Z.div_pos (nlocal t k) 2 ltac:(lia) ltac:(lia)).
      exists k, (Z.to_nat (nth k (t_imin t) 0 + nlocal t k / 2)). unfold nlocal, zlen in *.
      repeat split; try lia. 
  Qed.

  Lemma estimate_done nr t : t_done t = true -> exists v, estimate zero W wzero weight_of wmedian nr arrs t = Ok v.
  Proof.
    intro Hd. unfold estimate, column.
    rewrite (mapM_seq_ok _ (fun _ => (zero, wzero))).
    - cbn [bind]. rewrite Hd. eauto.
    - intros p Hp. unfold local_estimate. rewrite Hd. cbn [negb]. now rewrite andb_false_r.
  Qed.

  (** what the loop body does to one track *)
  Definition upd (t : track) (e : A) : track :=
    if t_done t then t
    else track_update t e (count_lt Od e G) (count_le Od e G)
           (map (fun a => searchsorted_left Od a e) arrs) (map (fun a => searchsorted_right Od a e) arrs).

  Lemma update_all_eq tracks : forall est pre, length est = length tracks ->
    let active := pre ++ np_mask est (map (fun t => negb (t_done t)) tracks) in
    let ifirst := map (fun a => map (searchsorted_left Od a) active) arrs in
    let ilast := map (fun a => map (searchsorted_right Od a) active) arrs in
    let column_sum (m : list (list Z)) := spmd (length active) (fun j => sumZ (map (fun row => nth j row 0) m)) in
    update_all tracks est (length pre) (column_sum ifirst) (column_sum ilast) ifirst ilast = zipwith upd tracks est.
  Proof.
    induction tracks as [|t tracks IH]; intros est pre Hl; [reflexivity|].
    destruct est as [|e est]; [discriminate|]. cbn [map np_mask]. unfold upd at 1.
    cbn [update_all zipwith]. destruct (t_done t) eqn:Hd; cbn [negb].
    - f_equal. apply IH. now injection Hl.
    - cbv zeta. set (active := pre ++ e :: np_mask est (map (fun t => negb (t_done t)) tracks)).
      assert (nth (length pre) active zero = e) as Hnth by (unfold active; apply nth_middle).
      assert (length pre < length active)%nat as Hlt by (unfold active; rewrite app_length; cbn; lia).
      assert (forall f : list A -> A -> Z, map (fun row => nth (length pre) row 0) (map (fun a => map (f a) active) arrs)
               = map (fun a => f a e) arrs) as Hcol.
      { intro f. rewrite map_map. apply map_ext. intro a.
        rewrite nth_map_dflt with (d' := zero) by assumption. now rewrite Hnth. }
      f_equal.
      + rewrite !nth_spmd by assumption. rewrite !Hcol.
        unfold count_lt, count_le. unfold G. rewrite !count_concat. f_equal.
        * f_equal. apply map_ext_in. intros a Ha. apply ssl_count.
          rewrite Forall_forall in Hsorted. auto.
        * f_equal. apply map_ext_in. intros a Ha. apply ssr_count.
          rewrite Forall_forall in Hsorted. auto.
      + specialize (IH est (pre ++ [e]) ltac:(now injection Hl)). cbv zeta in IH.
        rewrite app_length in IH. cbn [length] in IH. rewrite Nat.add_1_r in IH. rewrite <- app_assoc in IH.
        exact IH.
  Qed.

  Lemma nth_zipwith_map (f : Z -> Z -> Z) l (g : list A -> Z) p : length l = P -> (p < P)%nat ->
    nth p (zipwith f l (map g arrs)) 0 = f (nth p l 0) (g (arr p)).
  Proof.
    intros Hl Hp. rewrite nth_zipwith with (da := 0) (db := 0) by (rewrite ?map_length; fold P; lia).
    now rewrite nth_map_dflt with (d' := []) by exact Hp.
  Qed.

  Lemma upd_ok t q j : inv t -> t_done t = false -> (q < P)%nat -> (j < length (arr q))%nat ->
    nth q (t_imin t) 0 <= Z.of_nat j <= nth q (t_imax t) 0 ->
    let t' := upd t (nth j (arr q) zero) in
    good t' /\ t_r t' = t_r t /\ (t_done t' = true \/ act t' < act t).
  Proof.
    intros Hi Hd Hq Hj Hact. cbv zeta. unfold upd. rewrite Hd. set (e := nth j (arr q) zero).
    assert (In e G) as HeG by (now apply pos_In_G).
    assert (0 < count_eq Od e G) as Hpos by (apply count_pos with e; [assumption | apply eqb_refl]).
    pose proof (count_le_lt_eq Od e G) as Hce.
    set (t' := track_update t e _ _ _ _).
    destruct Hi as [Hr Hl1 Hl2 Hrng Hlow Hhigh].
    assert (length (t_imin t') = P) as Hl1'.
    { unfold t', track_update; cbn [t_imin]. destruct (count_le Od e G - 1 <? t_r t); [|assumption].
      rewrite zipwith_length, map_length. fold P. lia. }
    assert (length (t_imax t') = P) as Hl2'.
    { unfold t', track_update; cbn [t_imax]. destruct (t_r t <? count_lt Od e G); [|assumption].
      rewrite zipwith_length, !map_length. fold P. lia. }
    assert (forall p, (p < P)%nat -> nth p (t_imin t') 0 =
       if count_le Od e G - 1 <? t_r t then Z.max (nth p (t_imin t) 0) (searchsorted_right Od (arr p) e) else nth p (t_imin t) 0) as Hmin'.
    { intros p Hp. unfold t', track_update; cbn [t_imin]. destruct (count_le Od e G - 1 <? t_r t); [|reflexivity]. now apply nth_zipwith_map. }
    assert (forall p, (p < P)%nat -> nth p (t_imax t') 0 =
       if t_r t <? count_lt Od e G then Z.min (nth p (t_imax t) 0) (searchsorted_left Od (arr p) e - 1) else nth p (t_imax t) 0) as Hmax'.
    { intros p Hp. unfold t', track_update; cbn [t_imax]. destruct (t_r t <? count_lt Od e G); [|reflexivity].
      rewrite map_map. now apply (nth_zipwith_map Z.min (t_imax t) (fun a => searchsorted_left Od a e - 1)). }
    assert (t_r t' = t_r t) as Hr' by reflexivity.
    assert (t_done t' = ((count_lt Od e G <=? t_r t) && (t_r t <=? count_le Od e G - 1))%bool) as Hd'.
    { unfold t', track_update; cbn [t_done]. rewrite Hd. now destruct (_ && _)%bool. }
    unfold good. rewrite Hd'.
    destruct ((count_lt Od e G <=? t_r t) && (t_r t <=? count_le Od e G - 1))%bool eqn:Ef.
    - split; [|split; auto]. unfold t', track_update. rewrite Ef. constructor; cbn [t_median t_min_rank t_max_rank t_r]; auto. lia.
    - split; [|split; [reflexivity|right]].
      + constructor; auto.
        * intros p Hp. rewrite Hmin', Hmax' by assumption. specialize (Hrng p Hp).
          pose proof (ssr_bounds Od (arr p) e). pose proof (ssl_bounds Od (arr p) e).
          destruct (count_le Od e G - 1 <? t_r t), (t_r t <? count_lt Od e G); lia.
        * intros p k Hp Hk Hlt. rewrite Hr'. rewrite Hmin' in Hlt by assumption.
          destruct (Z.ltb_spec (count_le Od e G - 1) (t_r t)) as [Hc|Hc]; [|now apply Hlow].
          destruct (Z.lt_ge_cases (Z.of_nat k) (nth p (t_imin t) 0)) as [H|H]; [now apply Hlow|].
          assert (Z.of_nat k < searchsorted_right Od (arr p) e) as H2 by lia.
          apply (ssr_before Od _ _ _ zero) in H2. pose proof (count_le_mono Od _ _ G H2). lia.
        * intros p k Hp Hk Hlt. rewrite Hr'. rewrite Hmax' in Hlt by assumption.
          destruct (Z.ltb_spec (t_r t) (count_lt Od e G)) as [Hc|Hc]; [|now apply Hhigh].
          destruct (Z.lt_ge_cases (nth p (t_imax t) 0) (Z.of_nat k)) as [H|H]; [now apply Hhigh|].
          assert (searchsorted_left Od (arr p) e <= Z.of_nat k) as H2 by lia.
          apply (ssl_after Od _ _ _ zero (arr_sorted p)) in H2; [|assumption]. apply ltb_false_leb in H2.
          pose proof (count_lt_mono Od _ _ G H2). lia.
      + unfold act. apply sumZ_spmd_lt with (q := q); [|assumption|].
        * intros p Hp. unfold nlocal. rewrite Hmin', Hmax' by assumption. destruct (count_le Od e G - 1 <? t_r t), (t_r t <? count_lt Od e G); lia.
        * unfold nlocal. rewrite Hmin', Hmax' by assumption.
          assert (Z.of_nat j < searchsorted_right Od (arr q) e) as H1.
          { destruct (Z.lt_ge_cases (Z.of_nat j) (searchsorted_right Od (arr q) e)) as [H|H]; [assumption|].
            pose proof (ssr_after Od (arr q) e j zero (arr_sorted q) H Hj) as H'. fold e in H'. now rewrite leb_refl in H'. }
          assert (searchsorted_left Od (arr q) e <= Z.of_nat j) as H2.
          { destruct (Z.le_gt_cases (searchsorted_left Od (arr q) e) (Z.of_nat j)) as [H|H]; [assumption|].
            pose proof (ssl_before Od (arr q) e j zero ltac:(lia)) as H'. fold e in H'. now rewrite ltb_irrefl in H'. }
          destruct (Z.ltb_spec (count_le Od e G - 1) (t_r t)), (Z.ltb_spec (t_r t) (count_lt Od e G)); lia.
  Qed.

  Definition advanced (t t' : track (A := A)) : Prop :=
    good t' /\ t_r t' = t_r t /\ (t_done t' = true \/ t_done t = false /\ act t' < act t).

  Lemma split_step_ok tracks : Forall good tracks ->
    exists tracks', split_step Od zero W wzero weight_of wmedian arrs tracks = Ok tracks' /\ Forall2 advanced tracks tracks'.
  Proof.
    intro Hg. unfold split_step. set (nr := length tracks). clearbody nr.
    assert (exists est, mapM (estimate zero W wzero weight_of wmedian nr arrs) tracks = Ok est /\
              Forall2 (fun t e => t_done t = false -> exists q j, (q < P)%nat /\ (j < length (arr q))%nat /\
                 nth q (t_imin t) 0 <= Z.of_nat j <= nth q (t_imax t) 0 /\ e = nth j (arr q) zero) tracks est) as (est & E1 & E2).
    { induction Hg as [|t tracks Ht _ IH]; [exists []; split; [reflexivity | constructor]|].
      destruct IH as (est & E1 & E2). cbn [mapM]. rewrite E1.
      destruct (t_done t) eqn:Hd.
      - destruct (estimate_done nr t Hd) as (v & ->). exists (v :: est). split; [reflexivity|]. constructor; [|assumption]. congruence.
      - unfold good in Ht. rewrite Hd in Ht. destruct (estimate_ok nr t Ht Hd) as (q & j & Hq & Hj & Hb & ->).
        eexists. split; [reflexivity|]. constructor; [|assumption]. intros _. exists q, j. auto. }
    rewrite E1. cbn [bind]. eexists. split; [reflexivity|].
    assert (length est = length tracks) as Hl by (symmetry; exact (Forall2_len _ _ _ E2)).
    pose proof (update_all_eq tracks est [] Hl) as HU. cbv zeta in HU. cbn [app length] in HU. rewrite HU.
    clear HU E1 Hl. induction E2 as [|t e tracks est He E2 IH]; [constructor|].
    inversion Hg as [|x l Ht Hg']; subst. cbn [zipwith]. constructor; [|now apply IH].
    destruct (t_done t) eqn:Hd.
    - unfold upd. rewrite Hd. split; [assumption|]. split; [reflexivity|]. now left.
    - destruct (He eq_refl) as (q & j & Hq & Hj & Hb & ->). unfold good in Ht. rewrite Hd in Ht.
      destruct (upd_ok t q j Ht Hd Hq Hj Hb) as (H1 & H2 & H3). split; [assumption|]. split; [assumption|].
      destruct H3; auto.
  Qed.

  Lemma split_loop_ok fuel : forall tracks, Forall good tracks ->
    Forall (fun t => t_done t = true \/ act t <= Z.of_nat fuel) tracks ->
    exists tracks', split_loop Od zero W wzero weight_of wmedian fuel arrs tracks = Ok tracks' /\
      Forall2 (fun t t' => t_r t' = t_r t /\ found t') tracks tracks'.
  Proof.
    induction fuel as [|fuel IH]; intros tracks Hg Hf.
    - assert (Forall (fun t => t_done t = true) tracks) as Hd.
      { apply Forall_forall. intros t Ht. rewrite Forall_forall in Hg, Hf. specialize (Hg t Ht).
        destruct (Hf t Ht) as [H|H]; [assumption|]. unfold good in Hg. destruct (t_done t); [reflexivity|].
        pose proof (act_pos t Hg). lia. }
      exists tracks. split.
      + cbn [split_loop]. destruct (existsb _ tracks) eqn:E; [|reflexivity].
        apply existsb_exists in E. destruct E as (t & Ht & E). rewrite Forall_forall in Hd. rewrite (Hd t Ht) in E. discriminate.
      + clear Hf. induction Hg as [|t tracks Ht Hg' IHg]; constructor.
        * inversion Hd; subst. unfold good in Ht. rewrite H1 in Ht. auto.
        * apply IHg. now inversion Hd.
    - cbn [split_loop]. destruct (existsb (fun t => negb (t_done t)) tracks) eqn:E.
      + destruct (split_step_ok tracks Hg) as (tracks' & E1 & E2). rewrite E1. cbn [bind].
        destruct (IH tracks') as (tr & E3 & E4).
        * clear -E2. induction E2 as [|t t' l l' [H _] _ IH]; constructor; auto.
        * clear -E2 Hf. induction E2 as [|t t' l l' H _ IH]; constructor; inversion Hf as [|? ? Hf1 Hf2]; subst.
          -- destruct H as (_ & _ & [H|[H1 H2]]); [now left|]. right. destruct Hf1 as [Hf1|Hf1]; [congruence|lia].
          -- auto.
        * exists tr. split; [assumption|]. clear -E2 E4. revert tr E4.
          induction E2 as [|t t' l l' (_ & H & _) _ IH]; intros tr E4; inversion E4 as [|? u ? tr' [Ha Hb] Hc]; subst; constructor.
          -- split; [congruence | assumption].
          -- auto.
      + exists tracks. split; [reflexivity|].
        assert (Forall (fun t => t_done t = true) tracks) as Hd.
        { apply Forall_forall. intros t Ht. destruct (t_done t) eqn:Ed; [reflexivity|].
          enough (existsb (fun t => negb (t_done t)) tracks = true) by congruence.
          apply existsb_exists. exists t. split; [assumption|]. now rewrite Ed. }
        clear Hf E. induction Hg as [|t tracks Ht Hg' IHg]; constructor.
        * inversion Hd; subst. unfold good in Ht. rewrite H1 in Ht. auto.
        * apply IHg. now inversion Hd.
  Qed.

  Lemma track_init_good r : 0 <= r < N -> inv (track_init zero arrs r) /\ t_r (track_init zero arrs r) = r.
  Proof.
    intro Hr. split; [|reflexivity]. constructor; cbn [t_r t_imin t_imax track_init]; auto.
    - apply map_length.
    - apply map_length.
    - intros p Hp. rewrite !nth_map_dflt with (d' := []) by exact Hp. lia.
    - intros p j Hp Hj. rewrite nth_map_dflt with (d' := []) by exact Hp. lia.
    - intros p j Hp Hj. rewrite nth_map_dflt with (d' := []) by exact Hp. unfold zlen. lia.
  Qed.

  Lemma find_splitting_points_ok fuel r : Forall (fun x => 0 <= x < N) r -> N <= Z.of_nat fuel ->
    exists out, find_splitting_points Od zero W wzero weight_of wmedian fuel arrs r = Ok out /\
      Forall2 (fun x o => let '(v, lo, hi) := o in In v G /\ lo = count_lt Od v G /\ hi = count_le Od v G - 1 /\ lo <= x <= hi) r out.
  Proof.
    intros Hr Hf. unfold find_splitting_points.
    destruct (split_loop_ok fuel (map (track_init zero arrs) r)) as (tr & E1 & E2).
    - apply Forall_map. eapply Forall_impl; [|exact Hr]. intros x Hx. now apply track_init_good.
    - apply Forall_map. eapply Forall_impl; [|exact Hr]. intros x Hx. right.
      pose proof (act_le _ (proj1 (track_init_good x Hx))). lia.
    - rewrite E1. cbn [bind]. eexists. split; [reflexivity|]. clear E1 Hr. revert tr E2.
      induction r as [|x r IH]; intros tr E2; inversion E2 as [|? t ? tr' [Ha Hb] Hc]; subst; cbn [map]; constructor.
      + destruct Hb. cbn [t_r track_init] in Ha. rewrite <- Ha. auto.
      + now apply IH.
  Qed.
End SplitP.

(** the exact weighted median satisfies the contract *)
Lemma exact_median_ok {A} (Od : TOrd A) zero P N : median_ok zero Q 0%Q q_weight (weighted_median Od) P N.
Proof.
  intros meds ns H1 H2 H3 H4.
  set (ws := map (fun n => if 0 <? n then q_weight n (sumZ ns) else 0%Q) ns).
  assert (forall n, 0 <= n -> (0 <= (if (0 <? n)%Z then q_weight n (sumZ ns) else 0))%Q /\
            ((if (0 <? n)%Z then q_weight n (sumZ ns) else 0) == inject_Z n * / inject_Z (sumZ ns))%Q) as Hw.
  { intros n Hn. destruct (Z.ltb_spec 0 n) as [H|H].
    - unfold q_weight, Qdiv. split; [|reflexivity]. apply Qmult_le_0_compat.
      + change 0%Q with (inject_Z 0). rewrite <- Zle_Qle. lia.
      + apply Qinv_le_0_compat. change 0%Q with (inject_Z 0). rewrite <- Zle_Qle. lia.
    - split; [apply Qle_refl|]. assert (n = 0) as -> by lia. change (inject_Z 0) with 0%Q. now rewrite Qmult_0_l. }
  assert (forall l, Forall (fun n => 0 <= n) l ->
     (sumQ (map (fun n => if (0 <? n)%Z then q_weight n (sumZ ns) else 0) l) == inject_Z (sumZ l) * / inject_Z (sumZ ns))%Q) as Hsum.
  { induction 1 as [|n l Hn _ IH]; cbn [map sumQ fold_right sumZ].
    - change (inject_Z 0) with 0%Q. now rewrite Qmult_0_l.
    - fold (sumQ (map (fun n => if (0 <? n)%Z then q_weight n (sumZ ns) else 0%Q) l)). rewrite IH, (proj2 (Hw n Hn)), inject_Z_plus.
      ring. }
  destruct (weighted_median_main Od meds ws) as (k & v & w & E & Hv & Hk & Hp & _).
  - unfold ws. rewrite map_length. lia.
  - unfold ws. apply Forall_map. eapply Forall_impl; [|exact H3]. intros n Hn. now apply Hw.
  - unfold ws. rewrite (Hsum ns H3). rewrite Qmult_inv_r; [reflexivity|].
    change 0%Q with (inject_Z 0). rewrite inject_Z_injective. lia.
  - exists k. assert (k < length meds)%nat as Hk' by (apply nth_error_Some; congruence).
    split; [lia|]. split.
    + unfold ws in Hk. rewrite nth_error_map in Hk. rewrite nth_error_nth' with (d := 0) in Hk by lia.
      cbn [option_map] in Hk. injection Hk as Hk. destruct (Z.ltb_spec 0 (nth k ns 0)); [assumption|].
      subst w. exfalso. now apply (Qlt_irrefl 0).
    + fold ws. rewrite E. f_equal. symmetry. now apply nth_error_nth.
Qed.
