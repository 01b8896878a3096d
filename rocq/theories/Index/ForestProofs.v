(** Facts about forests given by descendant pointers: depth, depth first sequence. *)
From Verif.Base Require Import Prelude Order ListLemmas.
From Coq Require Import ZifyBool ZifyNat Relation_Operators.
Local Open Scope Z_scope.

Lemma NoDup_app_iff' {A} (l m : list A) : NoDup (l ++ m) <-> NoDup l /\ NoDup m /\ (forall x, In x l -> ~ In x m).
Proof.
  induction l as [|a l IH]; cbn [app].
  - split; [intro H; repeat split; [constructor | assumption | intros x []] | tauto].
  - rewrite !NoDup_cons_iff, IH, in_app_iff. cbn [In]. split.
    + intros (Ha & Hl & Hm & Hd). repeat split; try tauto. intros x [<-|Hx]; [tauto | now apply Hd].
    + intros ((Ha & Hl) & Hm & Hd). repeat split; try tauto; [intros [?|?]; [tauto | now apply (Hd a); [left|]] | intros x Hx; apply Hd; now right].
Qed.

Lemma NoDup_flat_map {A B} (f : A -> list B) l : NoDup l -> (forall a, In a l -> NoDup (f a)) ->
  (forall a b x, In a l -> In b l -> In x (f a) -> In x (f b) -> a = b) -> NoDup (flat_map f l).
Proof.
  induction l as [|a l IH]; intros Hn Hf Hd; [constructor|]. cbn [flat_map]. apply NoDup_cons_iff in Hn. apply NoDup_app_iff'. repeat split.
  - apply Hf. now left.
  - apply IH; [tauto | intros; apply Hf; now right | intros b c x Hb Hc; apply Hd; now right].
  - intros x Hx Hc. apply in_flat_map in Hc. destruct Hc as (b & Hb & Hxb).
    assert (a = b) as -> by (apply (Hd a b x); [now left | now right | assumption | assumption]). tauto.
Qed.

Section Forest.
  Context (n : nat) (D : Z -> Z) (ch : Z -> list Z).
  Definition ins (i : Z) : Prop := 0 <= i < Z.of_nat n.
  Context (HD : forall i, ins i -> D i = -1 \/ ins (D i)).
  Context (Hch : forall j c, ins j -> In c (ch j) <-> ins c /\ D c = j).
  Context (Hnd : forall j, NoDup (ch j)).

  Set Default Proof Using "All".

  (** j is m links away from a final halo *)
  Inductive reach : nat -> Z -> Prop :=
  | reach0 f : ins f -> D f = -1 -> reach 0 f
  | reachS m j : ins j -> ins (D j) -> reach m (D j) -> reach (S m) j.

  Lemma reach_in m j : reach m j -> ins j.
  Proof. now intros []. Qed.

  Lemma reach_det m j : reach m j -> forall m', reach m' j -> m' = m.
  Proof.
    induction 1 as [f Hf E|m j Hj Hdj Hr IH]; intros m' H'; inversion H' as [f' Hf' E'|m1 j' Hj' Hdj' Hr']; subst; [reflexivity | | |].
    - unfold ins in Hdj'. lia.
    - unfold ins in Hdj. lia.
    - f_equal. now apply IH.
  Qed.

  Lemma reach_bound m j : reach m j -> (m < n)%nat.
  Proof.
    intro H. assert (exists l, length l = S m /\ NoDup l /\ forall x, In x l -> ins x /\ exists m', (m' <= m)%nat /\ reach m' x) as (l & Hl & Hn & Hi).
    { induction H as [f Hf E|m j Hj Hdj Hr (l & Hl & Hn & Hi)].
      - exists [f]. split; [reflexivity|]. split; [constructor; [intros [] | constructor]|]. intros x [<-|[]]. split; [assumption|]. exists O. split; [lia | now constructor].
      - exists (j :: l). split; [cbn; lia|]. split; [constructor; [|assumption]|].
        + intro Hc. apply Hi in Hc. destruct Hc as (_ & m' & Hm & Hr'). pose proof (reach_det _ _ (reachS _ _ Hj Hdj Hr) _ Hr'). lia.
        + intros x [<-|H]; [split; [assumption|]; exists (S m); split; [lia | now constructor]|].
          apply Hi in H. destruct H as (Hx & m' & Hm & Hr'). split; [assumption|]. exists m'. split; [lia | assumption]. }
    assert (incl l (zseq 0 n)) as Hincl by (intros x Hx; apply In_zseq; apply Hi in Hx; destruct Hx as [Hx _]; unfold ins in Hx; lia).
    pose proof (NoDup_incl_length Hn Hincl) as Hle. rewrite zseq_length in Hle. lia.
  Qed.

  Lemma reach_child m j c : reach m j -> In c (ch j) -> reach (S m) c.
  Proof.
    intros Hr Hc. pose proof (reach_in _ _ Hr) as Hj. apply Hch in Hc; [|assumption]. destruct Hc as [Hc <-]. now constructor.
  Qed.

  Lemma tree_ind (P : Z -> Prop) : (forall m j, reach m j -> (forall c, In c (ch j) -> P c) -> P j) -> forall m j, reach m j -> P j.
  Proof.
    intro Hstep. assert (forall k m j, (n - m <= k)%nat -> reach m j -> P j) as H.
    { induction k as [|k IH]; intros m j Hk Hr; [pose proof (reach_bound _ _ Hr); lia|].
      apply (Hstep m); [assumption|]. intros c Hc. apply (IH (S m)); [lia | now apply (reach_child m j)]. }
    intros m j. apply (H n). lia.
  Qed.

  (** depth first sequence *)
  Fixpoint pre (k : nat) (j : Z) : list Z :=
    match k with
    | O => []
    | S k => j :: flat_map (pre k) (ch j)
    end.

  Lemma pre_stable : forall k k' m j, reach m j -> (n - m <= k)%nat -> (n - m <= k')%nat -> pre k j = pre k' j.
  Proof.
    induction k as [|k IH]; intros k' m j Hr Hk Hk'; pose proof (reach_bound _ _ Hr); [lia|]. destruct k' as [|k']; [lia|]. cbn [pre]. f_equal.
    rewrite !flat_map_concat_map. f_equal. apply map_ext_in. intros c Hc. apply (IH k' (S m)); [now apply (reach_child m j) | lia | lia].
  Qed.

  Definition sub (j : Z) : list Z := pre n j.

  Lemma sub_eq m j : reach m j -> sub j = j :: flat_map sub (ch j).
  Proof.
    intro Hr. pose proof (reach_bound _ _ Hr) as Hb. unfold sub at 1. destruct n as [|k] eqn:En; [lia|]. cbn [pre]. f_equal.
    rewrite !flat_map_concat_map. f_equal. apply map_ext_in. intros c Hc. unfold sub. rewrite <- En in *.
    apply (pre_stable _ _ (S m)); [now apply (reach_child m j) | lia | lia].
  Qed.

  (** p descends to h by following descendant pointers *)
  Inductive anc : Z -> Z -> Prop :=
  | anc_refl h : ins h -> anc h h
  | anc_step p h : ins p -> ins (D p) -> anc (D p) h -> anc p h.

  Lemma anc_snoc p h : anc p h -> ins (D h) -> anc p (D h).
  Proof.
    induction 1 as [h Hh|p h Hp Hd Ha IH]; intro Hi; [apply anc_step; [assumption | assumption | now constructor] | apply anc_step; auto].
  Qed.

  Lemma anc_in p h : anc p h -> ins p.
  Proof. now intros []. Qed.

  Lemma anc_trans p q h : anc p q -> anc q h -> anc p h.
  Proof. induction 1; intro; [assumption|]. apply anc_step; auto. Qed.

  Lemma anc_reach p h : anc p h -> forall m, reach m h -> exists m', (m <= m')%nat /\ reach m' p /\ (m' = m -> p = h).
  Proof.
    induction 1 as [h Hh|p h Hp Hd Ha IH]; intros m Hr; [exists m; auto|].
    destruct (IH m Hr) as (m' & Hm & Hr' & _). exists (S m'). repeat split; [lia | now constructor | lia].
  Qed.

  Lemma anc_last p h : anc p h -> p = h \/ exists c, ins c /\ ins h /\ D c = h /\ anc p c.
  Proof.
    induction 1 as [h Hh|p h Hp Hd Ha IH]; [now left|]. right. destruct IH as [E|(c & Hc & Hh & E & Hac)].
    - exists p. rewrite <- E. repeat split; try apply Hp; try apply Hd. now constructor.
    - exists c. repeat split; try apply Hc; try apply Hh; try assumption. now apply anc_step.
  Qed.

  Lemma sub_In m h p : reach m h -> In p (sub h) <-> anc p h.
  Proof.
    intro Hr0. revert p. revert m h Hr0. apply (tree_ind (fun h => forall p, In p (sub h) <-> anc p h)). intros m h Hr IH p. rewrite (sub_eq m h Hr). cbn [In]. pose proof (reach_in _ _ Hr) as Hh. split.
    - intros [<-|Hp]; [now constructor|]. apply in_flat_map in Hp. destruct Hp as (c & Hc & Hp). pose proof Hc as Hc'. apply Hch in Hc'; [|assumption]. destruct Hc' as [Hci Hcd].
      apply (IH c Hc) in Hp. rewrite <- Hcd. apply anc_snoc; [assumption | now rewrite Hcd].
    - intro Ha. apply anc_last in Ha. destruct Ha as [->|(c & Hc & _ & E & Ha)]; [now left|]. right. apply in_flat_map. exists c.
      assert (In c (ch h)) as Hin by (apply Hch; [assumption | split; assumption]). split; [assumption | now apply IH].
  Qed.

  Lemma anc_common x a b m : anc x a -> anc x b -> reach m a -> reach m b -> a = b.
  Proof.
    intro Ha. revert b m. induction Ha as [h Hh|p h Hp Hd Ha IH]; intros b m Hb Hra Hrb.
    - destruct (anc_reach _ _ Hb _ Hrb) as (m' & Hm & Hr' & E). apply E. now apply (reach_det _ _ Hra).
    - destruct Hb as [h' Hh'|p' h' Hp' Hd' Hb].
      + destruct (anc_reach _ _ (anc_step _ _ Hp Hd Ha) _ Hra) as (m' & Hm & Hr' & E). symmetry. apply E. now apply (reach_det _ _ Hrb).
      + now apply (IH h' m).
  Qed.

  Lemma sub_nodup m h : reach m h -> NoDup (sub h).
  Proof.
    revert m h. apply (tree_ind (fun h => NoDup (sub h))). intros m h Hr IH. rewrite (sub_eq m h Hr). constructor.
    - intro Hc. apply in_flat_map in Hc. destruct Hc as (c & Hc & Hp). pose proof (reach_child _ _ _ Hr Hc) as Hrc. apply (sub_In (S m)) in Hp; [|assumption].
      destruct (anc_reach _ _ Hp _ Hrc) as (m' & Hm & Hr' & _). pose proof (reach_det _ _ Hr _ Hr'). lia.
    - apply NoDup_flat_map; [apply Hnd | assumption |]. intros a b x Ha Hb Hxa Hxb. pose proof (reach_child _ _ _ Hr Ha) as Hra. pose proof (reach_child _ _ _ Hr Hb) as Hrb.
      apply (sub_In (S m)) in Hxa, Hxb; try assumption. now apply (anc_common x a b (S m)).
  Qed.

  Lemma sub_length m h : reach m h -> (length (sub h) <= n)%nat.
  Proof.
    intro Hr. assert (incl (sub h) (zseq 0 n)) as Hi.
    { intros x Hx. apply (sub_In m) in Hx; [|assumption]. apply anc_in in Hx. apply In_zseq. unfold ins in Hx. lia. }
    pose proof (NoDup_incl_length (sub_nodup m h Hr) Hi) as Hle. now rewrite zseq_length in Hle.
  Qed.

  (** either every halo reaches a final one or there is a cycle *)
  Lemma reach_or_cycle : forall k j (path : list Z), ins j -> NoDup path -> (forall x, In x path -> ins x /\ ins (D x) /\ anc (D x) j) -> (n <= length path + k)%nat ->
    (exists m, reach m j) \/ (exists c, ins c /\ ins (D c) /\ anc (D c) c).
  Proof.
    induction k as [|k IH]; intros j path Hj Hp Hin Hk.
    - assert (In j path) as Hjp.
      { assert (incl (zseq 0 n) path) as Hi.
        { apply NoDup_length_incl; [assumption | rewrite zseq_length; lia |]. intros x Hx. apply In_zseq. apply Hin in Hx. unfold ins in Hx. lia. }
        apply Hi, In_zseq. unfold ins in Hj. lia. }
      right. exists j. apply Hin in Hjp. tauto.
    - destruct (in_dec Z.eq_dec j path) as [Hjp|Hjp]; [right; exists j; apply Hin in Hjp; tauto|].
      destruct (HD j Hj) as [E|Hd]; [left; exists O; now constructor|].
      destruct (IH (D j) (j :: path)) as [(m & Hr)|Hc].
      + assumption.
      + now constructor.
      + intros x [<-|Hx]; [repeat split; try apply Hj; try apply Hd; now constructor|]. apply Hin in Hx. destruct Hx as (H1 & H2 & H3). repeat split; try apply H1; try apply H2. now apply anc_snoc.
      + cbn. lia.
      + left. exists (S m). now constructor.
      + now right.
  Qed.

  Lemma acyclic_reach : ~ (exists c, ins c /\ ins (D c) /\ anc (D c) c) -> forall j, ins j -> exists m, reach m j.
  Proof.
    intros Hac j Hj. destruct (reach_or_cycle n j [] Hj) as [H|H]; [constructor | intros x [] | cbn; lia | assumption | tauto].
  Qed.

  Lemma reach_acyclic : (forall j, ins j -> exists m, reach m j) -> ~ (exists c, ins c /\ ins (D c) /\ anc (D c) c).
  Proof.
    intros Hall (c & Hc & Hd & Ha). destruct (Hall c Hc) as [m Hr]. destruct (anc_reach _ _ Ha _ Hr) as (m' & Hm & Hr' & _).
    pose proof (reach_det _ _ (reachS _ _ Hc Hd Hr') _ Hr). lia.
  Qed.
  (** ** The sequence of all trees *)
  Context (finals : list Z) (Hfin : forall f, In f finals <-> ins f /\ D f = -1) (Hfnd : NoDup finals).
  Definition whole : list Z := flat_map sub finals.

  Lemma final_reach f : In f finals -> reach 0 f.
  Proof. intro H. apply Hfin in H. destruct H. now constructor. Qed.

  Lemma whole_In x : In x whole <-> exists m, reach m x.
  Proof.
    unfold whole. rewrite in_flat_map. split.
    - intros (f & Hf & Hx). pose proof (final_reach f Hf) as Hr. apply (sub_In 0) in Hx; [|assumption]. destruct (anc_reach _ _ Hx _ Hr) as (m' & _ & Hr' & _). now exists m'.
    - intros (m & Hr). assert (exists f, In f finals /\ anc x f) as (f & Hf & Ha).
      { induction Hr as [f Hf E|m j Hj Hd Hr (f & Hf & Ha)]; [exists f; split; [apply Hfin; now split | now constructor] | exists f; split; [assumption | now apply anc_step]]. }
      exists f. split; [assumption|]. apply (sub_In 0); [now apply final_reach | assumption].
  Qed.

  Lemma whole_nodup : NoDup whole.
  Proof.
    apply NoDup_flat_map; [assumption | intros; apply (sub_nodup 0); now apply final_reach |].
    intros a b x Ha Hb Hxa Hxb. apply final_reach in Ha, Hb. apply (sub_In 0) in Hxa, Hxb; try assumption. now apply (anc_common x a b 0).
  Qed.

  Lemma whole_split m j : reach m j -> exists a b, whole = a ++ sub j ++ b.
  Proof.
    assert (forall (f : Z -> list Z) l x, In x l -> exists a b, flat_map f l = a ++ f x ++ b) as Hfm.
    { intros f l x H. apply in_split in H. destruct H as (l1 & l2 & ->). exists (flat_map f l1), (flat_map f l2). now rewrite flat_map_app. }
    induction 1 as [f Hf E|m j Hj Hd Hr (a & b & E)].
    - apply Hfm. apply Hfin. now split.
    - destruct (Hfm sub (ch (D j)) j) as (a' & b' & E'); [apply Hch; auto|].
      exists (a ++ D j :: a'), (b' ++ b). rewrite E, (sub_eq m (D j)), E' by assumption. rewrite <- !app_assoc. cbn [app]. now rewrite <- !app_assoc.
  Qed.

End Forest.
