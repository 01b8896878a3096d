(** Proofs about parallel_sort. *)
From Coq Require Import QArith.
From Verif.Base Require Import Prelude ListLemmas Order.
From Verif.Mpi Require Import CommModel CommProofs CutProofs.
From Verif.Psort Require Import MoveModel MoveProofs FetchProofs SplitModel SplitProofs SortModel.
From Coq Require Import ZifyBool ZifyNat.
Local Open Scope Z_scope.

Section Lex.
  Context {A : Type} (Od : TOrd A).
  (** strict lexicographic order on (value, original position) *)
  Definition lexlt (x y : A * Z) : Prop := ltb Od (fst x) (fst y) = true \/ (fst x = fst y /\ snd x < snd y).

  Lemma argsort_lex (X : list (A * Z)) d :
    StronglySorted (fun x y => fst x = fst y -> snd x < snd y) X ->
    StronglySorted lexlt (map (fun i => nth (Z.to_nat i) X d) (argsort Od (map fst X))).
  Proof.
    intro HX. rewrite StronglySorted_map. pose proof (argsort_stable Od (map fst X)) as [HP HS].
    eapply StronglySorted_weaken; [|exact HS]. intros i j Hi Hj H.
    apply argsort_In in Hi, Hj. rewrite zlen_map in Hi, Hj. unfold zlen in Hi, Hj.
    assert (forall k, 0 <= k < Z.of_nat (length X) -> nth_error (map fst X) (Z.to_nat k) = Some (fst (nth (Z.to_nat k) X d))) as Hn.
    { intros k Hk. rewrite nth_error_map. rewrite nth_error_nth' with (d := d) by lia. reflexivity. }
    destruct (H _ _ (Hn i Hi) (Hn j Hj)) as [H1|[H1 H2]]; [now left|]. right. split; [assumption|].
    apply (StronglySorted_nth _ X (Z.to_nat i) (Z.to_nat j) d HX); [lia | lia | assumption].
  Qed.
  Lemma argsort_take_perm (X : list (A * Z)) d :
    Permutation (map (fun i => nth (Z.to_nat i) X d) (argsort Od (map fst X))) X.
  Proof.
    rewrite (Permutation_map _ (argsort_perm Od (map fst X))), map_length. now rewrite map_nth_zseq.
  Qed.
  Lemma map_take_argsort {B} (f : A * Z -> B) (X : list (A * Z)) d idx :
    (forall i, In i idx -> 0 <= i < zlen X) ->
    np_take (map f X) idx = Ok (map f (map (fun i => nth (Z.to_nat i) X d) idx)).
  Proof.
    intro H. rewrite np_take_ok with (d := f d).
    - f_equal. rewrite map_map. apply map_ext. intro i. apply map_nth.
    - intros i Hi. rewrite zlen_map. auto.
  Qed.

  (** a lexicographically increasing arrangement of the tagged elements of G
      lists the stable sorting permutation *)
  Lemma lex_stable_argsort (G : list A) (X : list (A * Z)) dflt :
    Permutation X (combine G (zseq 0 (length G))) -> StronglySorted lexlt X ->
    is_stable_argsort Od G (map snd X) /\ map fst X = map (fun i => nth (Z.to_nat i) G dflt) (map snd X).
  Proof.
    intros HP HS.
    assert (forall x, In x X -> nth_error G (Z.to_nat (snd x)) = Some (fst x)) as Hin.
    { intros [a i] Hx. apply (Permutation_in _ HP) in Hx. apply combine_zseq_nth in Hx.
      rewrite Z.sub_0_r in Hx. apply Hx. }
    split; [split|].
    - rewrite (Permutation_map snd HP). now rewrite map_snd_combine_zseq.
    - rewrite StronglySorted_map. eapply StronglySorted_weaken; [|exact HS].
      intros x y Hx Hy H a b Ha Hb. rewrite (Hin x Hx) in Ha. rewrite (Hin y Hy) in Hb. injection Ha as <-. injection Hb as <-. exact H.
    - rewrite map_map. apply map_ext_in. intros x Hx. symmetry. apply nth_error_nth. auto.
  Qed.
End Lex.

Lemma Permutation_concat_spmd {B} P (f g : nat -> list B) :
  (forall p, (p < P)%nat -> Permutation (f p) (g p)) -> Permutation (concat (spmd P f)) (concat (spmd P g)).
Proof.
  induction P as [|P IH]; intro H; [reflexivity|]. rewrite !concat_spmd_app. apply Permutation_app; auto.
Qed.
Lemma concat_spmd_swap {B} P Q (f : nat -> nat -> list B) :
  Permutation (concat (spmd P (fun j => concat (spmd Q (fun i => f i j))))) (concat (spmd Q (fun i => concat (spmd P (fun j => f i j))))).
Proof.
  induction P as [|P IH].
  - cbn. induction Q as [|Q IHQ]; [reflexivity|]. now rewrite concat_spmd_app, <- IHQ.
  - rewrite concat_spmd_app, IH. clear IH. induction Q as [|Q IHQ]; [reflexivity|].
    rewrite !concat_spmd_app. rewrite <- IHQ. rewrite <- !app_assoc. apply Permutation_app_head.
    rewrite !app_assoc. apply Permutation_app_tail. apply Permutation_app_comm.
Qed.

Lemma sorted_concat_spmd {B} (R : B -> B -> Prop) P (f : nat -> list B) :
  (forall p, (p < P)%nat -> StronglySorted R (f p)) ->
  (forall p q x y, (p < q)%nat -> (q < P)%nat -> In x (f p) -> In y (f q) -> R x y) ->
  StronglySorted R (concat (spmd P f)).
Proof.
  induction P as [|P IH]; intros H1 H2; [constructor|]. rewrite concat_spmd_app. apply StronglySorted_app.
  split; [|split].
  - apply IH; intros; [apply H1; lia | apply (H2 p q); auto; lia].
  - apply H1. lia.
  - intros x y Hx Hy. apply in_concat in Hx. destruct Hx as (l & Hl & Hx). apply In_spmd in Hl.
    destruct Hl as (p & Hp & ->). apply (H2 p P); auto.
Qed.

Lemma combine_app' {A B} (l1 l2 : list A) (m1 m2 : list B) : length l1 = length m1 ->
  combine (l1 ++ l2) (m1 ++ m2) = combine l1 m1 ++ combine l2 m2.
Proof. revert m1; induction l1 as [|a l1 IH]; intros [|b m1] H; try discriminate; cbn; [reflexivity|]. f_equal. apply IH. now injection H. Qed.

Section SortP.
  Context {A : Type} (Od : TOrd A) (zero : A) (W : Type) (wzero : W) (weight_of : Z -> Z -> W)
    (wmedian : list A -> list W -> res A) (arrs : list (list A)).
  Let P := length arrs.
  Let G := concat arrs.
  Let N := zlen G.
  Hypothesis Hmed : median_ok zero W wzero weight_of wmedian P N.
  Hypothesis Hne : forall p, (p < P)%nat -> nth p arrs [] <> [].
  Set Default Proof Using "All".

  Notation arr p := (nth p arrs []).
  Let F := goff (nperproc arrs).
  Let dflt : A * Z := (zero, 0).

  Definition tagged (p : nat) : list (A * Z) := combine (arr p) (zseq (F p) (length (arr p))).
  Definition loc (p : nat) : list (A * Z) := map (fun i => nth (Z.to_nat i) (tagged p) dflt) (argsort Od (arr p)).
  Definition K (p : nat) : list A := map fst (loc p).
  Definition I (p : nat) : list Z := map snd (loc p).

  Lemma F_S p : (p < P)%nat -> F (S p) = F p + zlen (arr p).
  Proof. intro Hp. unfold F. rewrite goff_S by (now rewrite nperproc_length). now rewrite nth_nperproc. Qed.
  Lemma F_0 : F 0%nat = 0. Proof. apply goff_0. Qed.
  Lemma F_P : F P = N.
  Proof. unfold F. rewrite goff_all by (rewrite nperproc_length; unfold P; lia). apply sum_nperproc. Qed.
  Lemma F_mono i j : (i <= j)%nat -> F i <= F j.
  Proof. apply goff_mono, nperproc_nonneg. Qed.
  Lemma F_lt p : (p < P)%nat -> 0 <= F p < N.
  Proof.
    intro Hp. split; [rewrite <- F_0; apply F_mono; lia|]. rewrite <- F_P.
    pose proof (F_mono (S p) P ltac:(lia)). rewrite F_S in H by assumption.
    pose proof (Hne p Hp). destruct (arr p); [congruence|]. rewrite zlen_cons in H. pose proof (zlen_nonneg l). lia.
  Qed.

  Lemma tagged_fst p : map fst (tagged p) = arr p.
  Proof. apply map_fst_combine_zseq. Qed.
  Lemma tagged_len p : length (tagged p) = length (arr p).
  Proof. rewrite <- (map_length fst). now rewrite tagged_fst. Qed.
  Lemma loc_perm p : Permutation (loc p) (tagged p).
  Proof. unfold loc. rewrite <- (tagged_fst p). apply argsort_take_perm. Qed.
  Lemma loc_len p : length (loc p) = length (arr p).
  Proof. rewrite (Permutation_length (loc_perm p)). apply tagged_len. Qed.
  Lemma loc_lex p : StronglySorted (lexlt Od) (loc p).
  Proof.
    unfold loc. rewrite <- (tagged_fst p). apply argsort_lex.
    eapply StronglySorted_weaken; [|apply combine_zseq_sorted]. intros x y _ _ H _. exact H.
  Qed.
  Lemma loc_snd_range p x : (p < P)%nat -> In x (loc p) -> F p <= snd x < F (S p).
  Proof.
    intros Hp Hx. apply (Permutation_in _ (loc_perm p)) in Hx. destruct x as [a i]. apply combine_zseq_nth in Hx.
    rewrite F_S by assumption. cbn [snd]. lia.
  Qed.
  Lemma K_sorted p : sorted Od (K p).
  Proof.
    unfold sorted, K. rewrite StronglySorted_map. eapply StronglySorted_weaken; [|apply loc_lex].
    intros x y _ _ [H|[H _]]; [now apply ltb_leb | rewrite H; apply leb_refl].
  Qed.
  Lemma K_perm p : Permutation (K p) (arr p).
  Proof. unfold K. rewrite (Permutation_map fst (loc_perm p)). now rewrite tagged_fst. Qed.
  Lemma K_zlen p : zlen (K p) = zlen (arr p).
  Proof. unfold zlen. now rewrite (Permutation_length (K_perm p)). Qed.
  Lemma I_len p : length (I p) = length (arr p).
  Proof. unfold I. rewrite map_length. apply loc_len. Qed.

  Lemma take_K p : (p < P)%nat -> np_take (arr p) (nth p (map (argsort Od) arrs) []) = Ok (K p).
  Proof.
    intro Hp. rewrite nth_map_dflt with (d' := []) by exact Hp.
    rewrite <- (tagged_fst p) at 1. unfold K, loc. apply map_take_argsort.
    intros i Hi. apply argsort_In in Hi. unfold zlen in *. now rewrite tagged_len.
  Qed.
  Lemma take_I p : (p < P)%nat ->
    np_take (map (Z.add (if (0 <? p)%nat then sumZ (firstn p (nperproc arrs)) else 0)) (zseq 0 (length (K p))))
      (nth p (map (argsort Od) arrs) []) = Ok (I p).
  Proof.
    intro Hp. rewrite nth_map_dflt with (d' := []) by exact Hp.
    assert ((if (0 <? p)%nat then sumZ (firstn p (nperproc arrs)) else 0) = F p) as ->.
    { destruct (Nat.ltb_spec 0 p); [reflexivity|]. replace p with 0%nat by lia. symmetry. apply F_0. }
    rewrite map_add_zseq, Z.add_0_r. rewrite (Permutation_length (K_perm p)).
    rewrite <- (map_snd_combine_zseq (arr p) (F p)). fold (tagged p). unfold I, loc. apply map_take_argsort.
    intros i Hi. apply argsort_In in Hi. unfold zlen in *. now rewrite tagged_len.
  Qed.

  Let KS := spmd P K.
  Lemma G_perm : Permutation (concat KS) G.
  Proof.
    unfold KS, G. rewrite <- (spmd_nth arrs []) at 1. apply Permutation_concat_spmd. intros p Hp. apply K_perm.
  Qed.
  Lemma count_G p : count p (concat KS) = count p G.
  Proof. apply count_perm, G_perm. Qed.
  Lemma count_G_sum p : count p G = sumZ (spmd P (fun q => count p (K q))).
  Proof. rewrite <- count_G, count_concat. unfold KS. now rewrite map_spmd. Qed.

  (** *** splitting values *)
  Variable v : nat -> A.
  Hypothesis Hv : forall k, (k < P)%nat -> count_lt Od (v k) G <= F k < count_le Od (v k) G.

  Definition nv (p k : nat) : Z := count_eq Od (v k) (K p).
  Definition lower (p k : nat) : Z := sumZ (spmd p (fun q => nv q k)).
  Definition inst (k : nat) : Z := F k - count_lt Od (v k) G.
  Definition cb (p k : nat) : Z :=
    if (k <? P)%nat then count_lt Od (v k) (K p) + Z.min (Z.max 0 (inst k - lower p k)) (nv p k)
    else zlen (K p).

  Lemma nv_nonneg p k : 0 <= nv p k. Proof. apply count_nonneg. Qed.
  Lemma nv_le p k : count_lt Od (v k) (K p) + nv p k = count_le Od (v k) (K p).
  Proof. unfold nv. now rewrite count_le_lt_eq. Qed.
  Lemma lower_S p k : lower (S p) k = lower p k + nv p k.
  Proof. unfold lower. rewrite spmd_S, sumZ_app. cbn [sumZ]. lia. Qed.
  Lemma lower_mono p q k : (p <= q)%nat -> lower p k <= lower q k.
  Proof. intro H. apply sumZ_spmd_mono; [assumption|]. intros; apply nv_nonneg. Qed.
  Lemma lower_nonneg p k : 0 <= lower p k.
  Proof. change 0 with (lower 0 k). apply lower_mono. lia. Qed.
  Lemma lower_P k : lower P k = count_eq Od (v k) G.
  Proof. unfold lower, nv, count_eq. symmetry. apply count_G_sum. Qed.
  Lemma inst_range k : (k < P)%nat -> 0 <= inst k < lower P k.
  Proof.
    intro Hk. pose proof (Hv k Hk). rewrite lower_P. unfold inst. pose proof (count_le_lt_eq Od (v k) G). lia.
  Qed.

  Lemma v_mono k : (S k < P)%nat -> leb Od (v k) (v (S k)) = true.
  Proof.
    intro Hk. destruct (leb Od (v k) (v (S k))) eqn:E; [reflexivity|]. exfalso.
    apply leb_false_ltb in E. pose proof (count_le_lt_mono Od _ _ G E).
    pose proof (Hv k ltac:(lia)). pose proof (Hv (S k) Hk). pose proof (F_mono k (S k) ltac:(lia)). lia.
  Qed.

  Lemma cb_0 p : (p < P)%nat -> cb p 0 = 0.
  Proof.
    intro Hp. unfold cb. destruct (Nat.ltb_spec 0 P); [|lia].
    pose proof (Hv 0%nat ltac:(lia)) as H0. rewrite F_0 in H0.
    assert (inst 0 = 0) as Hi.
    { unfold inst. rewrite F_0. pose proof (count_nonneg (fun x => ltb Od x (v 0%nat)) G). unfold count_lt in *. lia. }
    rewrite Hi. pose proof (lower_nonneg p 0). pose proof (nv_nonneg p 0).
    assert (count_lt Od (v 0%nat) (K p) = 0); [|lia].
    unfold count_lt. apply count_none. intros x Hx. apply (count_zero_inv (fun x => ltb Od x (v 0%nat)) G).
    - pose proof (count_nonneg (fun x => ltb Od x (v 0%nat)) G). unfold count_lt in *. lia.
    - unfold G. apply in_concat. exists (arr p). split; [now apply nth_In|].
      eapply Permutation_in; [apply K_perm | exact Hx].
  Qed.
  Lemma cb_P p : cb p P = zlen (K p).
  Proof. unfold cb. now rewrite Nat.ltb_irrefl. Qed.
  Lemma cb_le_len p k : cb p k <= zlen (K p).
  Proof.
    unfold cb. destruct (k <? P)%nat; [|lia]. pose proof (nv_le p k). pose proof (nv_nonneg p k).
    pose proof (count_le_zlen (fun x => leb Od x (v k)) (K p)). unfold count_le in *. lia.
  Qed.
  Lemma cb_mono p k : (p < P)%nat -> (k < P)%nat -> cb p k <= cb p (S k).
  Proof.
    intros Hp Hk. destruct (Nat.ltb_spec (S k) P) as [Hk'|Hk'].
    - unfold cb. destruct (Nat.ltb_spec k P); [|lia]. destruct (Nat.ltb_spec (S k) P); [|lia].
      destruct (leb_ltb_or_eq Od _ _ (v_mono k Hk')) as [Hlt|Heq].
      + pose proof (count_le_lt_mono Od _ _ (K p) Hlt). pose proof (nv_le p k). pose proof (nv_nonneg p k).
        pose proof (nv_nonneg p (S k)). lia.
      + assert (inst k <= inst (S k)) as Hi.
        { unfold inst. rewrite <- Heq. pose proof (F_mono k (S k) ltac:(lia)). lia. }
        unfold lower, nv. rewrite <- Heq. lia.
    - replace (S k) with P by lia. rewrite cb_P. apply cb_le_len.
  Qed.
  Lemma cb_nonneg p k : (p < P)%nat -> (k <= P)%nat -> 0 <= cb p k.
  Proof. intros Hp Hk. rewrite <- (cb_0 p Hp). apply (mono_le (cb p) P); auto; [|lia]. intros; now apply cb_mono. Qed.

  Lemma sum_clamp k p : sumZ (spmd p (fun q => Z.min (Z.max 0 (inst k - lower q k)) (nv q k))) = Z.min (Z.max 0 (inst k)) (lower p k).
  Proof.
    induction p as [|p IH].
    - unfold lower. cbn. lia.
    - rewrite spmd_S, sumZ_app, IH, lower_S. cbn [sumZ]. pose proof (nv_nonneg p k). pose proof (lower_nonneg p k). lia.
  Qed.
  Lemma sumZ_spmd_add n (f g : nat -> Z) : sumZ (spmd n (fun i => f i + g i)) = sumZ (spmd n f) + sumZ (spmd n g).
  Proof. unfold spmd. apply sumZ_map_add. Qed.

  Lemma sum_cb k : (k <= P)%nat -> sumZ (spmd P (fun p => cb p k)) = F k.
  Proof.
    intro Hk. destruct (Nat.ltb_spec k P) as [Hk'|Hk'].
    - rewrite (spmd_ext P (fun p => cb p k) (fun p => count_lt Od (v k) (K p) + Z.min (Z.max 0 (inst k - lower p k)) (nv p k))).
      + rewrite sumZ_spmd_add, sum_clamp. unfold count_lt. rewrite <- count_G_sum. fold (count_lt Od (v k) G).
        pose proof (inst_range k Hk'). unfold inst in *. lia.
      + intros p Hp. unfold cb. destruct (Nat.ltb_spec k P); [reflexivity | lia].
    - replace k with P by lia. rewrite F_P. rewrite (spmd_ext P (fun p => cb p P) (fun p => zlen (arr p))).
      + unfold N, G. rewrite zlen_concat. f_equal.
        transitivity (map zlen (spmd P (fun p => arr p))); [now rewrite map_spmd|]. f_equal. apply spmd_nth.
      + intros p Hp. now rewrite cb_P, K_zlen.
  Qed.

  (** everything before the cut is lexicographically smaller than everything after *)
  Lemma cut_lex p q k a b : (p < P)%nat -> (q < P)%nat -> (k < P)%nat ->
    (a < length (loc p))%nat -> (b < length (loc q))%nat ->
    Z.of_nat a < cb p k -> cb q k <= Z.of_nat b ->
    lexlt Od (nth a (loc p) dflt) (nth b (loc q) dflt).
  Proof.
    intros Hp Hq Hk Ha Hb Hca Hcb.
    set (x := nth a (loc p) dflt). set (y := nth b (loc q) dflt).
    assert (fst x = nth a (K p) zero) as Hx by (unfold K, x; change zero with (fst dflt); now rewrite map_nth).
    assert (fst y = nth b (K q) zero) as Hy by (unfold K, y; change zero with (fst dflt); now rewrite map_nth).
    assert (length (K p) = length (loc p)) as HlK by apply map_length.
    assert (length (K q) = length (loc q)) as HlK' by apply map_length.
    unfold cb in Hca, Hcb. destruct (Nat.ltb_spec k P); [|lia].
    pose proof (nv_le p k) as Hnp. pose proof (nv_le q k) as Hnq. pose proof (nv_nonneg p k). pose proof (nv_nonneg q k).
    pose proof (ssl_count Od (K p) (v k) (K_sorted p)) as Sp. pose proof (ssl_count Od (K q) (v k) (K_sorted q)) as Sq.
    pose proof (ssr_count Od (K p) (v k) (K_sorted p)) as Rp. pose proof (ssr_count Od (K q) (v k) (K_sorted q)) as Rq.
    assert (leb Od (fst x) (v k) = true) as Hxv by (rewrite Hx; apply ssr_before; lia).
    assert (leb Od (v k) (fst y) = true) as Hyv by (rewrite Hy; apply ltb_false_leb, ssl_after; [apply K_sorted | lia | lia]).
    assert (leb Od (fst x) (fst y) = true) as Hxy by (eapply leb_trans; eassumption).
    apply leb_ltb_or_eq in Hxy. destruct Hxy as [Hlt|Heq]; [now left|].
    assert (fst x = v k) as Exv by (apply (leb_antisym _ Od); [assumption | now rewrite Heq]).
    assert (fst y = v k) as Eyv by congruence.
    assert (count_lt Od (v k) (K p) <= Z.of_nat a) as Ha2.
    { destruct (Z.le_gt_cases (count_lt Od (v k) (K p)) (Z.of_nat a)) as [H'|H']; [assumption|].
      rewrite <- Sp in H'. pose proof (ssl_before Od (K p) (v k) a zero ltac:(lia)) as H2.
      rewrite <- Hx, Exv, ltb_irrefl in H2. discriminate. }
    assert (Z.of_nat b < count_le Od (v k) (K q)) as Hb2.
    { destruct (Z.lt_ge_cases (Z.of_nat b) (count_le Od (v k) (K q))) as [H'|H']; [assumption|].
      rewrite <- Rq in H'. pose proof (ssr_after Od (K q) (v k) b zero (K_sorted q) H' ltac:(lia)) as H2.
      rewrite <- Hy, Eyv, leb_refl in H2. discriminate. }
    destruct (Nat.lt_trichotomy p q) as [Hpq|[Hpq|Hpq]].
    - right. split; [assumption|].
      pose proof (loc_snd_range p x Hp (nth_In _ _ Ha)). pose proof (loc_snd_range q y Hq (nth_In _ _ Hb)).
      pose proof (F_mono (S p) q ltac:(lia)). lia.
    - subst q. assert (a < b)%nat as Hab by lia. exact (StronglySorted_nth _ _ a b dflt (loc_lex p) Hab Hb).
    - exfalso. pose proof (lower_mono (S q) p k ltac:(lia)) as Hl. rewrite lower_S in Hl. lia.
  Qed.

  Definition chunk (j : nat) : list (A * Z) := concat (spmd P (fun i => zslice (loc i) (cb i j) (cb i (S j)))).
  Definition fin (j : nat) : list (A * Z) := map (fun i => nth (Z.to_nat i) (chunk j) dflt) (argsort Od (map fst (chunk j))).

  Lemma chunk_In j x : (j < P)%nat -> In x (chunk j) ->
    exists p a, (p < P)%nat /\ (a < length (loc p))%nat /\ cb p j <= Z.of_nat a < cb p (S j) /\ x = nth a (loc p) dflt.
  Proof.
    intros Hj Hx. unfold chunk in Hx. apply in_concat in Hx. destruct Hx as (l & Hl & Hx). apply In_spmd in Hl.
    destruct Hl as (p & Hp & ->). apply zslice_In_nth with (d := dflt) in Hx; [|apply cb_nonneg; lia].
    destruct Hx as (a & Ha & Hr & ->). exists p, a. auto.
  Qed.
  Lemma zlen_chunk j : (j < P)%nat -> zlen (chunk j) = zlen (arr j).
  Proof.
    intro Hj. unfold chunk. rewrite zlen_concat, map_spmd.
    rewrite (spmd_ext P _ (fun i => cb i (S j) + (- cb i j))).
    - rewrite sumZ_spmd_add, sum_cb by lia.
      assert (sumZ (spmd P (fun i => - cb i j)) = - sumZ (spmd P (fun i => cb i j))) as ->.
      { unfold spmd. generalize (seq 0 P). induction l as [|q l IH]; cbn [map sumZ]; lia. }
      rewrite sum_cb by lia. rewrite F_S by assumption. lia.
    - intros i Hi. pose proof (cb_mono i j Hi Hj). pose proof (cb_nonneg i j Hi ltac:(lia)). pose proof (cb_le_len i (S j)).
      rewrite zlen_zslice; [lia | lia | lia |]. unfold zlen. rewrite loc_len. rewrite K_zlen in *. unfold zlen in *. lia.
  Qed.
  Lemma chunk_T j : (j < P)%nat -> StronglySorted (fun x y => fst x = fst y -> snd x < snd y) (chunk j).
  Proof.
    intro Hj. apply sorted_concat_spmd.
    - intros p Hp. apply StronglySorted_zslice. eapply StronglySorted_weaken; [|apply loc_lex].
      intros x y _ _ [H|[_ H]] E; [|assumption]. rewrite E, ltb_irrefl in H. discriminate.
    - intros p q x y Hpq Hq Hx Hy _. apply zslice_In in Hx, Hy.
      pose proof (loc_snd_range p x ltac:(lia) Hx). pose proof (loc_snd_range q y Hq Hy).
      pose proof (F_mono (S p) q ltac:(lia)). lia.
  Qed.
  Lemma fin_lex j : (j < P)%nat -> StronglySorted (lexlt Od) (fin j).
  Proof. intro Hj. apply argsort_lex. now apply chunk_T. Qed.
  Lemma fin_perm j : Permutation (fin j) (chunk j).
  Proof. apply argsort_take_perm. Qed.

  Definition result : list (A * Z) := concat (spmd P fin).
  Lemma result_lex : StronglySorted (lexlt Od) result.
  Proof.
    apply sorted_concat_spmd; [exact fin_lex|]. intros j k x y Hjk Hk Hx Hy.
    apply (Permutation_in _ (fin_perm j)) in Hx. apply (Permutation_in _ (fin_perm k)) in Hy.
    apply chunk_In in Hx; [|lia]. apply chunk_In in Hy; [|lia].
    destruct Hx as (p & a & Hp & Ha & Hra & ->). destruct Hy as (q & b & Hq & Hb & Hrb & ->).
    apply (cut_lex p q k); auto; [|lia].
    pose proof (mono_le (cb p) P (S j) k ltac:(intros; now apply cb_mono) ltac:(lia) ltac:(lia)). lia.
  Qed.
  Lemma tagged_concat n : (n <= P)%nat ->
    concat (spmd n tagged) = combine (concat (spmd n (fun p => arr p))) (zseq 0 (length (concat (spmd n (fun p => arr p))))) /\
    zlen (concat (spmd n (fun p => arr p))) = F n.
  Proof.
    induction n as [|n IH]; intro Hn.
    - cbn. rewrite F_0. split; reflexivity.
    - destruct IH as [IH1 IH2]; [lia|]. rewrite !concat_spmd_app, IH1, zlen_app, IH2, F_S by lia. split; [|lia].
      rewrite app_length, zseq_app, combine_app' by (now rewrite zseq_length).
      f_equal. unfold tagged. f_equal. f_equal. unfold zlen in IH2. lia.
  Qed.
  Lemma result_perm : Permutation result (combine G (zseq 0 (length G))).
  Proof.
    unfold result. rewrite (Permutation_concat_spmd P fin chunk) by (intros; apply fin_perm).
    unfold chunk. rewrite concat_spmd_swap.
    rewrite (Permutation_concat_spmd P _ tagged).
    - rewrite (proj1 (tagged_concat P ltac:(lia))). unfold P. now rewrite (spmd_nth arrs []).
    - intros p Hp. rewrite (concat_zslices (loc p) (cb p)) by (intros; now apply cb_mono).
      rewrite cb_0, cb_P by assumption. rewrite zslice_all; [apply loc_perm | lia|].
      rewrite K_zlen. unfold zlen. rewrite loc_len. lia.
  Qed.

  (** *** the model computes this *)
  Lemma nval_local_ok p : (p < P)%nat -> nval_local Od (K p) (spmd P v) = Ok (spmd P (nv p)).
  Proof.
    intro Hp. unfold nval_local. unfold spmd at 1. rewrite mapM_map_ok with (g := fun x => count_eq Od x (K p)).
    - f_equal. rewrite map_map. reflexivity.
    - intros x _. cbv zeta.
      assert (K p <> []) as Hk.
      { intro E. pose proof (K_zlen p) as Hl. rewrite E in Hl. symmetry in Hl. apply zlen_0_nil in Hl. now apply (Hne p). }
      destruct (K p) as [|k0 kk] eqn:EK; [congruence|]. rewrite <- EK in *.
      pose proof (ssl_count Od (K p) x (K_sorted p)) as Sp. pose proof (ssr_count Od (K p) x (K_sorted p)) as Rp.
      pose proof (ssl_bounds Od (K p) x). pose proof (ssr_bounds Od (K p) x).
      pose proof (count_le_lt_eq Od x (K p)) as Hc.
      assert (0 < zlen (K p)) as Hpos by (rewrite EK, zlen_cons; pose proof (zlen_nonneg kk); lia).
      rewrite py_nth_ok with (d := zero) by (destruct (Z.leb_spec (zlen (K p)) (searchsorted_left Od (K p) x)); lia).
      cbn [bind]. f_equal. set (a := nth _ (K p) zero). destruct (eqb Od a x) eqn:E; [lia|].
      apply eqb_neq in E. pose proof (count_nonneg (fun y => eqb Od y x) (K p)) as Hnn. fold (count_eq Od x (K p)) in Hnn.
      destruct (Z.eq_dec (count_eq Od x (K p)) 0) as [Hz|Hz]; [lia|]. exfalso. apply E. unfold a.
      destruct (Z.leb_spec (zlen (K p)) (searchsorted_left Od (K p) x)) as [Hle|Hle]; [lia|].
      apply (leb_antisym _ Od).
      + apply ssr_before. lia.
      + apply ltb_false_leb, ssl_after; [apply K_sorted | lia | unfold zlen in *; lia].
  Qed.

  Lemma nval_lower_ok r k : (r < P)%nat -> (k < P)%nat ->
    nth k (nval_lower (spmd P (fun p => spmd P (nv p))) r P) 0 = lower r k.
  Proof.
    intros Hr Hk. unfold nval_lower. rewrite nth_spmd by assumption. destruct (Nat.ltb_spec 0 r).
    - rewrite firstn_spmd by lia. rewrite map_spmd. unfold lower. f_equal. apply spmd_ext. intros q Hq.
      now rewrite nth_spmd.
    - replace r with 0%nat by lia. reflexivity.
  Qed.

  Lemma last_to_send_ok p rank nl si : (p < P)%nat -> (rank < P)%nat ->
    (forall k, (k < P)%nat -> nth k nl 0 = lower p k) -> (forall k, (k < P)%nat -> nth k si 0 = inst k) ->
    last_to_send Od P (K p) (spmd P v) si nl rank = Ok (cb p (S rank) - 1).
  Proof.
    intros Hp Hr Hnl Hsi. unfold last_to_send. destruct (Nat.ltb_spec rank (P - 1)) as [Hlt|Hge].
    - rewrite py_nth_ok with (d := zero) by (rewrite zlen_spmd; lia). cbn [bind].
      replace (Z.to_nat (Z.of_nat rank + 1)) with (S rank) by lia. rewrite nth_spmd by lia.
      rewrite Hnl, Hsi by lia. unfold cb. destruct (Nat.ltb_spec (S rank) P); [|lia]. set (k := S rank) in *.
      pose proof (nv_le p k) as Hn. pose proof (nv_nonneg p k) as Hn0.
      pose proof (ssl_count Od (K p) (v k) (K_sorted p)) as Sp. pose proof (ssr_count Od (K p) (v k) (K_sorted p)) as Rp.
      pose proof (ssl_bounds Od (K p) (v k)) as B1. pose proof (ssr_bounds Od (K p) (v k)) as B2.
      destruct (Z.ltb_spec (zlen (K p) - 1) (searchsorted_left Od (K p) (v k))) as [Hl|Hl]; [f_equal; lia|].
      rewrite py_nth_ok with (d := zero) by lia. cbn [bind].
      set (a := nth (Z.to_nat (searchsorted_left Od (K p) (v k))) (K p) zero).
      assert (leb Od (v k) a = true) as Ha by (unfold a; apply ltb_false_leb, ssl_after; [apply K_sorted | lia | unfold zlen in *; lia]).
      destruct (eqb Od a (v k)) eqn:E; cbn [negb].
      + assert (0 < nv p k) as Hpos.
        { apply count_pos with a; [|exact E]. apply nth_In. unfold zlen in *. lia. }
        destruct (Z.ltb_spec (lower p k + (searchsorted_right Od (K p) (v k) - 1 - searchsorted_left Od (K p) (v k))) (inst k)).
        * f_equal. lia.
        * destruct (Z.leb_spec (inst k) (lower p k)); f_equal; lia.
      + assert (nv p k = 0) as Hz.
        { destruct (Z.eq_dec (nv p k) 0) as [Hz|Hz]; [assumption|]. exfalso. apply eqb_neq in E. apply E.
          apply (leb_antisym _ Od); [|assumption]. unfold a. apply ssr_before. lia. }
        f_equal. lia.
    - replace (S rank) with P by lia. now rewrite cb_P.
  Qed.

  Lemma send_counts_ok p nl si : (p < P)%nat ->
    (forall k, (k < P)%nat -> nth k nl 0 = lower p k) -> (forall k, (k < P)%nat -> nth k si 0 = inst k) ->
    forall m s, (s + m = P)%nat ->
    send_counts Od P (K p) (spmd P v) (nperproc arrs) si nl (seq s m) (cb p s) =
    Ok (map (fun k => cb p (S k) - cb p k) (seq s m)).
  Proof.
    intros Hp Hnl Hsi. induction m as [|m IH]; intros s Hs; [reflexivity|]. cbn [seq send_counts map].
    pose proof (cb_mono p s Hp ltac:(lia)) as Hmono.
    pose proof (cb_le_len p (S s)) as Hlen.
    rewrite nth_nperproc by (fold P; lia).
    assert (zlen (arr s) <> 0) as Hnz.
    { intro E. apply zlen_0_nil in E. apply (Hne s); [lia | assumption]. }
    destruct (Z.eqb_spec (zlen (arr s)) 0) as [?|_]; [contradiction|]. cbn [orb].
    destruct (Z.leb_spec (zlen (K p)) (cb p s)) as [Hle|Hgt].
    - assert (cb p (S s) = cb p s) as E by lia. rewrite <- E at 1. rewrite IH by lia. cbn [bind].
      rewrite E. do 2 f_equal. lia.
    - rewrite last_to_send_ok by (assumption || lia). cbn [bind].
      replace (Z.max (cb p s) (cb p (S s) - 1 + 1)) with (cb p (S s)) by lia.
      rewrite IH by lia. cbn [bind]. do 2 f_equal. lia.
  Qed.

  Lemma is_cut_loc {B} (f : A * Z -> B) :
    is_cut P (spmd P (fun p => map f (loc p))) (spmd P (fun p => spmd P (fun k => cb p (S k) - cb p k))) cb.
  Proof.
    constructor.
    - intros i Hi. now rewrite nth_spmd.
    - apply spmd_length.
    - apply cb_0.
    - intros; now apply cb_mono.
    - intros i Hi. rewrite nth_spmd, cb_P, K_zlen by assumption. unfold zlen. now rewrite map_length, loc_len.
  Qed.
  Lemma exchange_loc {B} (f : A * Z -> B) junk :
    let sc := spmd P (fun p => spmd P (fun k => cb p (S k) - cb p k)) in
    exchange junk P (spmd P (fun p => map f (loc p))) sc (map excl_cumsum sc) = Ok (spmd P (fun j => map f (chunk j))).
  Proof.
    cbv zeta. rewrite (ic_exchange _ _ _ _ (is_cut_loc f)). f_equal. apply spmd_ext. intros j Hj.
    unfold chunk. rewrite concat_map, map_spmd. f_equal. apply spmd_ext. intros i Hi.
    rewrite nth_spmd by assumption. now rewrite map_zslice.
  Qed.
  Lemma take_fin {B} (f : A * Z -> B) j : (j < P)%nat ->
    np_take (nth j (spmd P (fun j => map f (chunk j))) [])
      (nth j (map (argsort Od) (spmd P (fun j => map fst (chunk j)))) []) = Ok (map f (fin j)).
  Proof.
    intro Hj. rewrite nth_spmd by assumption. rewrite map_spmd, nth_spmd by assumption. unfold fin.
    apply map_take_argsort. intros i Hi. apply argsort_In in Hi. now rewrite zlen_map in Hi.
  Qed.
  Lemma fin_length j : (j < P)%nat -> length (fin j) = length (arr j).
  Proof.
    intro Hj. rewrite (Permutation_length (fin_perm j)). pose proof (zlen_chunk j Hj). unfold zlen in *. lia.
  Qed.
  Lemma assign_fin {B} (f : A * Z -> B) j l : (j < P)%nat -> length l = length (arr j) -> assign_all l (map f (fin j)) = Ok (map f (fin j)).
  Proof. intros Hj Hl. unfold assign_all. now rewrite map_length, fin_length, Hl, Nat.eqb_refl by assumption. Qed.

  (** the part of sort_nonempty after find_splitting_points *)
  Lemma after_split (sp : list (A * Z * Z)) junk :
    map (fun o => fst (fst o)) sp = spmd P v -> map (fun o => snd (fst o)) sp = spmd P (fun k => count_lt Od (v k) G) ->
    (let val := map (fun o => fst (fst o)) sp in
     let min_rank := map (fun o => snd (fst o)) sp in
     let split_instance := zipwith Z.sub (excl_cumsum (nperproc arrs)) min_rank in
     do nval_all <- mapM (fun r => nval_local Od (nth r KS []) val) (seq 0 P);
     do sc <- mapM (fun r => send_counts Od P (nth r KS []) val (nperproc arrs) split_instance
                              (nval_lower nval_all r (length val)) (seq 0 P) 0) (seq 0 P);
     do arr_tmp <- exchange junk P KS sc (map excl_cumsum sc);
     let sort_idx2 := map (argsort Od) arr_tmp in
     do sorted <- mapM (fun r => np_take (nth r arr_tmp []) (nth r sort_idx2 [])) (seq 0 P);
     do out <- mapM (fun r => assign_all (nth r KS []) (nth r sorted [])) (seq 0 P);
     do index <- mapM (fun r => np_take
                   (map (Z.add (if (0 <? r)%nat then sumZ (firstn r (nperproc arrs)) else 0)) (zseq 0 (length (nth r KS []))))
                   (nth r (map (argsort Od) arrs) [])) (seq 0 P);
     do index_tmp <- exchange 0 P index sc (map excl_cumsum sc);
     do isorted <- mapM (fun r => np_take (nth r index_tmp []) (nth r sort_idx2 [])) (seq 0 P);
     do iout <- mapM (fun r => assign_all (nth r index []) (nth r isorted [])) (seq 0 P);
     Ok (out, iout)) = Ok (spmd P (fun j => map fst (fin j)), spmd P (fun j => map snd (fin j))).
  Proof.
    intros E1 E2. rewrite E1, E2. cbv zeta. unfold KS. rewrite spmd_length.
    assert (forall k, (k < P)%nat -> nth k (zipwith Z.sub (excl_cumsum (nperproc arrs)) (spmd P (fun k => count_lt Od (v k) G))) 0 = inst k) as Hsi.
    { intros k Hk. rewrite nth_zipwith with (da := 0) (db := 0) by (rewrite ?excl_cumsum_length, ?nperproc_length, ?spmd_length; exact Hk).
      rewrite nth_spmd by assumption. rewrite nth_excl_goff by (rewrite nperproc_length; exact Hk). reflexivity. }
    rewrite (mapM_seq_ok _ (fun p => spmd P (nv p)))
      by (intros r Hr; rewrite nth_spmd by assumption; now apply nval_local_ok).
    cbn [bind].
    rewrite (mapM_seq_ok _ (fun p => spmd P (fun k => cb p (S k) - cb p k))).
    2:{ intros r Hr. rewrite nth_spmd by assumption. rewrite <- (cb_0 r Hr). apply send_counts_ok; auto.
        intros k Hk. now apply nval_lower_ok. }
    cbn [bind].
    rewrite (exchange_loc fst junk : exchange junk P (spmd P K) _ _ = _). cbn [bind].
    rewrite (mapM_seq_ok _ _ P (take_fin fst)). cbn [bind].
    rewrite (mapM_seq_ok _ (fun j => map fst (fin j))).
    2:{ intros r Hr. rewrite !nth_spmd by assumption. apply assign_fin; [assumption|]. apply Permutation_length, K_perm. }
    cbn [bind].
    rewrite (mapM_seq_ok _ I) by (intros r Hr; rewrite nth_spmd by assumption; now apply take_I).
    cbn [bind].
    rewrite (exchange_loc snd 0 : exchange 0 P (spmd P I) _ _ = _). cbn [bind].
    rewrite (mapM_seq_ok _ _ P (take_fin snd)). cbn [bind].
    rewrite (mapM_seq_ok _ (fun j => map snd (fin j))).
    2:{ intros r Hr. rewrite !nth_spmd by assumption. apply assign_fin; [assumption|]. apply I_len. }
    reflexivity.
  Qed.
End SortP.

Lemma sort_nonempty_ok {A} (Od : TOrd A) zero W wzero weight_of wmedian fuel junk (arrs : list (list A)) :
  median_ok zero W wzero weight_of wmedian (length arrs) (zlen (concat arrs)) ->
  (forall p, (p < length arrs)%nat -> nth p arrs [] <> []) ->
  zlen (concat arrs) <= Z.of_nat fuel ->
  exists fin : nat -> list (A * Z),
    sort_nonempty Od zero W wzero weight_of wmedian fuel junk arrs =
      Ok (spmd (length arrs) (fun j => map fst (fin j)), spmd (length arrs) (fun j => map snd (fin j))) /\
    (forall j, (j < length arrs)%nat -> length (fin j) = length (nth j arrs [])) /\
    StronglySorted (lexlt Od) (concat (spmd (length arrs) fin)) /\
    Permutation (concat (spmd (length arrs) fin)) (combine (concat arrs) (zseq 0 (length (concat arrs)))).
Proof.
  intros Hmed Hne Hf. set (P := length arrs) in *. set (G := concat arrs) in *.
  set (F := goff (nperproc arrs)).
  set (KS := spmd P (K Od zero arrs)).
  pose proof (G_perm Od zero W wzero weight_of wmedian arrs Hmed Hne) as HGP. fold P in HGP. fold KS G in HGP.
  assert (forall p, count p (concat KS) = count p G) as Hcnt by (intro p; now apply count_perm).
  assert (zlen (concat KS) = zlen G) as HlG by (unfold zlen; now rewrite (Permutation_length HGP)).
  assert (length KS = P) as HlK by (unfold KS; apply spmd_length).
  assert (Forall (sorted Od) KS) as HsK.
  { apply Forall_forall. intros l Hl. apply In_spmd in Hl. destruct Hl as (p & Hp & ->).
    exact (K_sorted Od zero W wzero weight_of wmedian arrs Hmed Hne p). }
  assert (length (excl_cumsum (nperproc arrs)) = P) as Hle by (now rewrite excl_cumsum_length, nperproc_length).
  destruct (find_splitting_points_ok Od zero W wzero weight_of wmedian KS
              ltac:(rewrite HlK, HlG; exact Hmed) HsK fuel (excl_cumsum (nperproc arrs))) as (sp & E1 & E2).
  { apply Forall_forall. intros x Hx. apply In_nth with (d := 0) in Hx. destruct Hx as (k & Hk & <-).
    rewrite Hle in Hk. rewrite nth_excl_goff by (now rewrite nperproc_length). rewrite HlG.
    exact (F_lt Od zero W wzero weight_of wmedian arrs Hmed Hne k Hk). }
  { rewrite HlG. exact Hf. }
  set (v := fun k => fst (fst (nth k sp (zero, 0, 0)))).
  assert (length sp = P) as Hlsp by (rewrite <- (Forall2_len _ _ _ E2); exact Hle).
  assert (forall k, (k < P)%nat -> count_lt Od (v k) G <= F k < count_le Od (v k) G /\
            snd (fst (nth k sp (zero, 0, 0))) = count_lt Od (v k) G) as Hv.
  { intros k Hk. assert (forall (r : list Z) (o : list (A * Z * Z)) i, Forall2 (fun x o => let '(v, lo, hi) := o in In v (concat KS) /\ lo = count_lt Od v (concat KS) /\ hi = count_le Od v (concat KS) - 1 /\ lo <= x <= hi) r o ->
        (i < length r)%nat -> let '(v, lo, hi) := nth i o (zero, 0, 0) in In v (concat KS) /\ lo = count_lt Od v (concat KS) /\ hi = count_le Od v (concat KS) - 1 /\ lo <= nth i r 0 <= hi) as Hnth.
    { clear. intros r o i H. revert i. induction H as [|x y r o Hxy _ IH]; intros i Hi; [cbn in Hi; lia|].
      destruct i as [|i]; cbn [nth]; [exact Hxy|]. apply IH. cbn in Hi. lia. }
    specialize (Hnth _ _ k E2 ltac:(lia)). rewrite nth_excl_goff in Hnth by (now rewrite nperproc_length). unfold v.
    destruct (nth k sp (zero, 0, 0)) as [[w lo] hi]. cbn [fst snd]. destruct Hnth as (_ & -> & -> & Hr).
    unfold count_lt, count_le in *. rewrite !Hcnt in *. fold (F k) in Hr. split; [lia | reflexivity]. }
  exists (fin Od zero arrs v). split; [|split; [|split]].
  - unfold sort_nonempty. fold P.
    rewrite (mapM_seq_ok _ (K Od zero arrs)) by (intros r Hr; exact (take_K Od zero W wzero weight_of wmedian arrs Hmed Hne r Hr)).
    cbn [bind]. fold KS. rewrite E1. cbn [bind].
    apply (after_split Od zero W wzero weight_of wmedian arrs Hmed Hne v (fun k Hk => proj1 (Hv k Hk))).
    + rewrite <- (spmd_nth sp (zero, 0, 0)), Hlsp at 1. now rewrite map_spmd.
    + rewrite <- (spmd_nth sp (zero, 0, 0)), Hlsp at 1. rewrite map_spmd. apply spmd_ext. intros k Hk. now apply Hv.
  - intros j Hj. exact (fin_length Od zero W wzero weight_of wmedian arrs Hmed Hne v (fun k Hk => proj1 (Hv k Hk)) j Hj).
  - exact (result_lex Od zero W wzero weight_of wmedian arrs Hmed Hne v (fun k Hk => proj1 (Hv k Hk))).
  - exact (result_perm Od zero W wzero weight_of wmedian arrs Hmed Hne v (fun k Hk => proj1 (Hv k Hk))).
Qed.

(** *** ranks without data *)
Lemma concat_filter_nonempty {B} (d : list (list B)) : concat (filter nonempty d) = concat d.
Proof. induction d as [|l d IH]; [reflexivity|]. destruct l; cbn [filter nonempty concat app]; rewrite IH; reflexivity. Qed.
Lemma unsplit_concat {A B} (d : list (list A)) : forall (out : list (list B)), length out = length (filter nonempty d) ->
  concat (unsplit d out) = concat out.
Proof.
  induction d as [|l d IH]; intros out Hl.
  - destruct out; [reflexivity | discriminate].
  - destruct l as [|a l]; cbn [filter nonempty unsplit concat app] in *.
    + now apply IH.
    + destruct out as [|o out]; [discriminate|]. cbn [hd tl concat]. f_equal. apply IH. now injection Hl.
Qed.
Lemma unsplit_lengths {A B} (d : list (list A)) : forall (out : list (list B)),
  map (@length B) out = map (@length A) (filter nonempty d) ->
  map (@length B) (unsplit d out) = map (@length A) d.
Proof.
  induction d as [|l d IH]; intros out Hl; [reflexivity|]. destruct l as [|a l]; cbn [filter nonempty unsplit map] in *.
  - cbn. f_equal. now apply IH.
  - destruct out as [|o out]; [discriminate|]. cbn [hd tl]. cbn [map] in Hl. injection Hl as H1 H2. rewrite H1. f_equal. now apply IH.
Qed.

Lemma parallel_sort_ok {A} (Od : TOrd A) zero W wzero weight_of wmedian fuel junk (d : list (list A)) :
  median_ok zero W wzero weight_of wmedian (length (filter nonempty d)) (zlen (concat d)) ->
  zlen (concat d) <= Z.of_nat fuel ->
  exists out index, parallel_sort Od zero W wzero weight_of wmedian fuel junk d = Ok (out, index) /\
    map (@length A) out = map (@length A) d /\ map (@length Z) index = map (@length A) d /\
    is_stable_argsort Od (concat d) (concat index) /\
    concat out = map (fun i => nth (Z.to_nat i) (concat d) zero) (concat index).
Proof.
  intros Hmed Hf. set (arrs := filter nonempty d) in *.
  assert (concat arrs = concat d) as HG by apply concat_filter_nonempty.
  destruct (sort_nonempty_ok Od zero W wzero weight_of wmedian fuel junk arrs) as (fin & E & Hlen & HS & HP).
  - rewrite HG. exact Hmed.
  - intros p Hp. assert (In (nth p arrs []) arrs) as Hin by (now apply nth_In).
    unfold arrs in Hin at 2. apply filter_In in Hin. destruct Hin as [_ H]. intro E. rewrite E in H. discriminate.
  - rewrite HG. exact Hf.
  - unfold parallel_sort. fold arrs. rewrite E. cbn [bind fst snd]. eexists. eexists. split; [reflexivity|].
    set (P := length arrs) in *.
    assert (forall B (f : A * Z -> B), map (@length B) (spmd P (fun j => map f (fin j))) = map (@length A) arrs) as Hl.
    { intros B f. transitivity (map (@length A) (spmd P (fun j => nth j arrs []))).
      - rewrite !map_spmd. apply spmd_ext. intros j Hj. rewrite map_length. now apply Hlen.
      - f_equal. apply spmd_nth. }
    split; [now apply unsplit_lengths|]. split; [now apply unsplit_lengths|].
    rewrite !unsplit_concat by apply spmd_length.
    assert (forall B (f : A * Z -> B), concat (spmd P (fun j => map f (fin j))) = map f (concat (spmd P fin))) as Hc.
    { intros B f. now rewrite concat_map, map_spmd. }
    rewrite !Hc, <- HG. now apply lex_stable_argsort.
Qed.
