(** C79: all outputs of an Eagle run. *)
From Coq Require Import Ascii String.
From Verif Require Import Base.Prelude Base.ListLemmas.
From Verif Require Import Text.StrModel Text.StrProofs Text.EagleModel Text.EagleSpec Text.EagleProofs Text.EagleFinal Text.PresenceModel Text.PresenceSpec Text.PresenceProofs Text.PresenceFinal.
From Coq Require Import ZifyBool ZifyNat.
Local Open Scope char_scope.
Local Open Scope Z_scope.
Local Open Scope list_scope.

Lemma exn_eq_dec (a b : exn) : {a = b} + {a <> b}. Proof. decide equality. Qed.
Lemma NoDup_app_l {A} (a b : list A) : NoDup (a ++ b) -> NoDup a.
Proof. induction a as [|x a IH]; cbn; intro H; constructor; inversion H; subst; [intro N; apply H2; apply in_or_app; now left | now apply IH]. Qed.
Lemma NoDup_app_r {A} (a b : list A) : NoDup (a ++ b) -> NoDup b.
Proof. induction a as [|x a IH]; cbn; intro H; [exact H|]. inversion H; subst. now apply IH. Qed.
Section Run.
  Variable F : fs.
  Variable listing : str -> option (list str).
  Variable attribute : str -> str -> res Z.
  Hypothesis Hproper : proper F.
  Variable basedir : str.
  Hypothesis Hplain : plain basedir.

  (** after any other checks *)
  Definition eg_history (calls : list (str * str * str * str * Z)) : cache :=
    fold_left (fun c x => let '(b, d, f, a, i) := x in snd (eg_check_dir F listing attribute c b d f a i)) calls [].
  Lemma history_right calls : right_cache F (eg_history calls).
  Proof.
    unfold eg_history. assert (right_cache F []) as H by (intros ? ? ? ? E; discriminate). revert H. generalize (@nil (key * str)). induction calls as [|[[[[b d] f] a] i] calls IH]; intros c H; [exact H|]. apply IH. now apply check_right.
  Qed.
  Lemma check_history calls dirbase filebase attr isnap : fst (eg_check_dir F listing attribute (eg_history calls) basedir dirbase filebase attr isnap) = fst (eg_check_dir F listing attribute [] basedir dirbase filebase attr isnap).
  Proof. apply check_right, history_right. Qed.

  Lemma eg_check calls dirbase filebase attr isnap : ok_name dirbase = true -> ~ In "/" filebase ->
    match fst (eg_check_dir F listing attribute (eg_history calls) basedir dirbase filebase attr isnap) with
    | Ok (line, ok) => (ok = true <-> eg_complete F listing attribute basedir dirbase filebase attr isnap) /\ eg_says F listing attribute basedir dirbase filebase attr isnap line
    | Err e => e <> EIO /\ exists z, only_label F basedir dirbase isnap z /\ eg_first attribute basedir dirbase filebase attr isnap z = Err e
    end.
  Proof.
    intros Hok Hs. rewrite check_history. destruct (glob_label dirbase isnap Hok F basedir Hplain Hproper) as [(z & Hz & _)|[Hno _]].
    - destruct (eg_first attribute basedir dirbase filebase attr isnap z) as [n|e] eqn:Ef.
      2: destruct (exn_eq_dec e EIO) as [->|Hne].
      3:{ rewrite (one_dir_error F listing attribute Hproper basedir dirbase filebase attr isnap Hplain Hok z Hz e Ef Hne). split; [exact Hne|]. now exists z. }
      all: destruct (one_dir F listing attribute Hproper basedir dirbase filebase attr isnap Hplain Hok Hs z Hz) as ([line ok] & -> & H1 & H2); [unfold eg_first in Ef; now rewrite Ef|]; cbn [fst snd] in *.
      all: split; [rewrite H1; split; [intro H; exists z; now split | intros (z' & Hz' & H); now rewrite <- (label_unique dirbase isnap Hok F basedir Hplain z' z Hz' Hz)]|].
      all: split; [intros z' Hz'; now rewrite (label_unique dirbase isnap Hok F basedir Hplain z' z Hz' Hz) | intro H; destruct (H z Hz)].
    - rewrite (none_dir F listing attribute Hproper basedir dirbase filebase attr isnap Hplain Hok Hno). split; [|split; [intros z Hz; destruct (Hno z Hz) | reflexivity]]. split; [discriminate|]. intros (z & Hz & _). destruct (Hno z Hz).
  Qed.

  Let one (i : Z) (k : str * str * str * str) : res (str * bool) := let '(dirbase, filebase, _, attr) := k in fst (eg_check_dir F listing attribute [] basedir dirbase filebase attr i).
  Let nam (k : str * str * str * str) : str := snd (fst k).
  Let okof (i : Z) (k : str * str * str * str) : bool := match one i k with Ok r => snd r | Err _ => false end.
  Let lineof (i : Z) (k : str * str * str * str) : str := match one i k with Ok r => fst r | Err _ => [] end.
  Lemma steps_ok l : forall c lines t, right_cache F c -> (forall i k, In (i, k) l -> exists r, one i k = Ok r) ->
    eg_steps F listing attribute basedir l c lines t = Ok (lines ++ map (fun x => lineof (fst x) (snd x)) l, tally_of (events nam okof l) t).
  Proof.
    induction l as [|[i [[[d f] n] a]] l IH]; intros c lines t Hc H; cbn [eg_steps]; [cbn; now rewrite app_nil_r|].
    destruct (check_right F listing attribute c basedir d f a i Hc) as [H1 H2]. destruct (H i (d, f, n, a)) as ([line ok] & E); [now left|].
    destruct (eg_check_dir F listing attribute c basedir d f a i) as [r c']. cbn [fst snd] in *. assert (r = Ok (line, ok)) as -> by (rewrite H2; exact E).
    rewrite IH; [|exact H1 | intros; apply H; now right]. rewrite <- app_assoc. unfold events, tally_of. cbn [map fold_left fst snd app]. assert (lineof i (d, f, n, a) = line) as -> by (unfold lineof; now rewrite E). assert (okof i (d, f, n, a) = ok) as -> by (unfold okof; now rewrite E). reflexivity.
  Qed.
  Lemma steps_err l e : forall c lines t, right_cache F c -> eg_steps F listing attribute basedir l c lines t = Err e -> exists i k, In (i, k) l /\ one i k = Err e.
  Proof.
    induction l as [|[i [[[d f] n] a]] l IH]; intros c lines t Hc H; cbn [eg_steps] in H; [discriminate|].
    destruct (check_right F listing attribute c basedir d f a i Hc) as [H1 H2]. destruct (eg_check_dir F listing attribute c basedir d f a i) as [[[line ok]|e'] c']; cbn [fst snd] in *.
    - destruct (IH _ _ _ H1 H) as (i' & k & Hin & E). exists i', k. split; [now right | exact E].
    - injection H as ->. exists i, (d, f, n, a). split; [now left|]. cbn. now rewrite <- H2.
  Qed.

  Lemma kinds_eq snip : eg_kinds snip = eg_outputs snip. Proof. now destruct snip. Qed.
  Lemma kinds_good snip d f n a : In (d, f, n, a) (eg_outputs snip) -> ok_name d = true /\ ~ In "/" f.
  Proof.
    intro H. assert (forallb (fun x => let '(d, f, _, _) := x in ok_name d && negb (mem "/" f)) (eg_outputs snip) = true) as Q by (now destruct snip).
    rewrite forallb_forall in Q. specialize (Q _ H). apply andb_prop in Q. destruct Q as [Q1 Q2]. split; [exact Q1|]. apply mem_false. now destruct (mem "/" f).
  Qed.
  Lemma kinds_names : NoDup (map nam (eg_outputs false) ++ map nam (eg_outputs true)).
  Proof. cbn. repeat constructor; cbn; intro H; repeat destruct H as [H|H]; try discriminate; contradiction. Qed.

  Lemma eg_run_eq num_snaps num_snips : eg_run F listing attribute basedir num_snaps num_snips =
    (do (lines, t) <- eg_steps F listing attribute basedir (checks (zseq 0 (Z.to_nat num_snaps)) (eg_outputs false) ++ checks (zseq 0 (Z.to_nat num_snips)) (eg_outputs true)) [] [] []; Ok (lines, summary t)).
  Proof. reflexivity. Qed.
  Lemma in_checks {K} snaps (kinds : list K) i k : In (i, k) (checks snaps kinds) <-> In i snaps /\ In k kinds.
  Proof.
    unfold checks. rewrite in_flat_map. split.
    - intros (j & Hj & H). apply in_map_iff in H. destruct H as (k' & E & H). injection E as -> ->. now split.
    - intros [H1 H2]. exists i. split; [exact H1|]. apply in_map_iff. now exists k.
  Qed.
  Lemma one_spec snip i d f n a : In (d, f, n, a) (eg_outputs snip) ->
    match one i (d, f, n, a) with
    | Ok (line, ok) => (ok = true <-> eg_complete F listing attribute basedir d f a i) /\ eg_says F listing attribute basedir d f a i line
    | Err e => e <> EIO /\ exists z, only_label F basedir d i z /\ eg_first attribute basedir d f a i z = Err e
    end.
  Proof. intro H. destruct (kinds_good snip d f n a H) as [H1 H2]. exact (eg_check [] d f a i H1 H2). Qed.

  Lemma eg_run_err num_snaps num_snips e : eg_run F listing attribute basedir num_snaps num_snips = Err e -> e <> EIO /\ exists fname a, attribute fname a = Err e.
  Proof.
    rewrite eg_run_eq. destruct (eg_steps _ _ _ _ _ _ _ _) as [[lines t]|e'] eqn:E; [discriminate|]. cbn [bind]. intro Q. injection Q as ->.
    apply steps_err in E; [|intros ? ? ? ? Q; discriminate]. destruct E as (i & [[[d f] n] a] & Hin & E).
    assert (exists snip, In (d, f, n, a) (eg_outputs snip)) as (snip & Hk). { apply in_app_or in Hin. destruct Hin as [Hin|Hin]; apply in_checks in Hin; [exists false | exists true]; tauto. }
    pose proof (one_spec snip i d f n a Hk) as H. rewrite E in H. destruct H as (Hne & z & _ & Ef). split; [exact Hne|]. unfold eg_first in Ef. eauto.
  Qed.
  Lemma eg_run_ok num_snaps num_snips : (forall fname a e, attribute fname a = Err e -> e = EIO) ->
    exists lines s, eg_run F listing attribute basedir num_snaps num_snips = Ok (lines, s) /\
      Forall2 (fun x line => let '(i, (d, f, _, a)) := x in eg_says F listing attribute basedir d f a i line)
        (flat_map (fun i => map (fun k => (i, k)) (eg_outputs false)) (zseq 0 (Z.to_nat num_snaps)) ++ flat_map (fun i => map (fun k => (i, k)) (eg_outputs true)) (zseq 0 (Z.to_nat num_snips))) lines /\
      NoDup (map (fun x => fst (fst x)) s) /\ (forall n m e, In (n, m, e) s -> In n (map nam (eg_outputs false) ++ map nam (eg_outputs true))) /\
      forall (snip : bool) d f n a, In (d, f, n, a) (eg_outputs snip) -> let num := if snip then num_snips else num_snaps in exists ok : Z -> bool,
        (forall i, ok i = true <-> eg_complete F listing attribute basedir d f a i) /\
        forall m e, In (n, m, e) s <-> 0 < m /\ m = zlen (filter (fun i => negb (ok i)) (zseq 0 (Z.to_nat num))) /\ e = Z.max 0 num.
  Proof.
    intro Ha. rewrite eg_run_eq. set (l1 := checks (zseq 0 (Z.to_nat num_snaps)) (eg_outputs false)). set (l2 := checks (zseq 0 (Z.to_nat num_snips)) (eg_outputs true)).
    assert (forall i k, In (i, k) (l1 ++ l2) -> exists snip, In k (eg_outputs snip)) as Hk. { intros i k Hin. apply in_app_or in Hin. destruct Hin as [Hin|Hin]; apply in_checks in Hin; [exists false | exists true]; tauto. }
    assert (forall snip i k, In k (eg_outputs snip) -> exists r, one i k = Ok r) as Hone.
    { intros snip i [[[d f] n] a] Hin. pose proof (one_spec snip i d f n a Hin) as H. destruct (one i (d, f, n, a)) as [r|e]; [eauto|]. destruct H as (Hne & z & _ & Ef). destruct Hne. now apply (Ha _ _ _ Ef). }
    rewrite steps_ok; [|intros ? ? ? ? Q; discriminate | intros i k Hin; destruct (Hk i k Hin) as (snip & Hin'); now apply (Hone snip)]. cbn [bind app].
    do 2 eexists. split; [reflexivity|]. split; [|split; [apply summary_once|split]].
    - fold (checks (zseq 0 (Z.to_nat num_snaps)) (eg_outputs false)). fold (checks (zseq 0 (Z.to_nat num_snips)) (eg_outputs true)). fold l1 l2. revert Hk. generalize (l1 ++ l2). intros l Hk.
      induction l as [|[i [[[d f] n] a]] l IH]; cbn [map]; constructor; [|apply IH; intros; apply (Hk i0); now right]. cbn [fst snd]. destruct (Hk i (d, f, n, a)) as (snip & Hin); [now left|].
      pose proof (one_spec snip i d f n a Hin) as H. unfold lineof. destruct (Hone snip i _ Hin) as ([line ok] & E). rewrite E in *. apply H.
    - intros n m e H. apply summary_ok in H. destruct H as (H1 & H2 & _). destruct (in_dec (list_eq_dec ascii_dec) n (map nam (eg_outputs false) ++ map nam (eg_outputs true))) as [|N]; [assumption|].
      unfold missing in H2. rewrite events_app, filter_app, zlen_app in H2. fold (missing (events nam okof l1) n) in H2. fold (missing (events nam okof l2) n) in H2. unfold l1, l2 in H2.
      rewrite (proj1 (no_event nam okof _ (eg_outputs false) n (fun Q => N (in_or_app _ _ _ (or_introl Q))))), (proj1 (no_event nam okof _ (eg_outputs true) n (fun Q => N (in_or_app _ _ _ (or_intror Q))))) in H2. lia.
    - intros snip d f n a Hin. set (num := if snip then num_snips else num_snaps). exists (fun i => okof i (d, f, n, a)). split.
      + intro i. pose proof (one_spec snip i d f n a Hin) as H. unfold okof. destruct (Hone snip i _ Hin) as ([line ok] & E). rewrite E in *. apply H.
      + intros m e. rewrite summary_ok. unfold missing, expected. rewrite !events_app, !filter_app, !zlen_app.
        fold (missing (events nam okof l1) n) (missing (events nam okof l2) n) (expected (events nam okof l1) n) (expected (events nam okof l2) n).
        pose proof kinds_names as Hnd. assert (forall x, In x (map nam (eg_outputs false)) -> ~ In x (map nam (eg_outputs true))) as Hdis. { intros x H1 H2. apply in_split in H1. destruct H1 as (p & q & E). rewrite E in Hnd. rewrite <- app_assoc in Hnd. apply NoDup_remove_2 in Hnd. apply Hnd. apply in_or_app. right. cbn [app]. apply in_or_app. now right. }
        pose proof (NoDup_app_l _ _ Hnd) as Hd1. pose proof (NoDup_app_r _ _ Hnd) as Hd2.
        assert (zlen (zseq 0 (Z.to_nat num)) = Z.max 0 num) as Hlen by (rewrite zlen_zseq; lia).
        destruct snip; unfold num in *; clear num.
        * destruct (missing_checks nam okof (zseq 0 (Z.to_nat num_snips)) (eg_outputs true) (d, f, n, a) Hd2 Hin) as [E1 E2]. cbn [nam fst snd] in E1, E2.
          assert (~ In n (map nam (eg_outputs false))) as N. { intro Q. apply (Hdis n Q). apply in_map_iff. now exists (d, f, n, a). }
          destruct (no_event nam okof (zseq 0 (Z.to_nat num_snaps)) (eg_outputs false) n N) as [E3 E4]. unfold l1, l2. rewrite E1, E2, E3, E4, Hlen, !Z.add_0_l. tauto.
        * destruct (missing_checks nam okof (zseq 0 (Z.to_nat num_snaps)) (eg_outputs false) (d, f, n, a) Hd1 Hin) as [E1 E2]. cbn [nam fst snd] in E1, E2.
          assert (~ In n (map nam (eg_outputs true))) as N. { apply Hdis. apply in_map_iff. now exists (d, f, n, a). }
          destruct (no_event nam okof (zseq 0 (Z.to_nat num_snips)) (eg_outputs true) n N) as [E3 E4]. unfold l1, l2. rewrite E1, E2, E3, E4, Hlen, !Z.add_0_r. tauto.
  Qed.
End Run.
