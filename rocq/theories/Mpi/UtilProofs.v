(** Proofs about the collective helpers of util.py. *)
From Verif.Base Require Import Prelude ListLemmas NdArray.
From Verif.Mpi Require Import UtilModel GatherProofs.
From Coq Require Import ZifyBool ZifyNat.
Local Open Scope Z_scope.

Lemma fill_some {X} (x : X) l : fill (Some x) l = Some x.
Proof. unfold fill. induction l as [|[y|] l IH]; [reflexivity|exact IH..]. Qed.
Lemma fill_none {X} (l : list (option X)) :
  (fill None l = None /\ forall y, In y l -> y = None) \/
  (exists r x, nth_error l r = Some (Some x) /\ fill None l = Some x /\ forall j, (j < r)%nat -> nth_error l j = Some None).
Proof.
  induction l as [|[y|] l IH]; [left; split; [reflexivity | intros y []]| |].
  - right. exists 0%nat, y. split; [reflexivity|]. split; [apply fill_some | intros; lia].
  - destruct IH as [[I1 I2]|(r & x & I1 & I2 & I3)].
    + left. split; [exact I1|]. intros y [<-|H]; [reflexivity | now apply I2].
    + right. exists (S r), x. split; [assumption|]. split; [assumption|]. intros [|j] Hj; [reflexivity | apply I3; lia].
Qed.

Section ReplaceNone.
  Context {D A : Type} (all : list (arr D A)).
  Lemma replace_none_ok r dt a :
    nth_error all r = Some (Some (dt, a)) -> (forall j, (j < r)%nat -> nth_error all j = Some None) ->
    exists out, replace_none_with_zero_size all = Ok out /\ length out = length all /\
      forall q o, nth_error out q = Some o ->
        (forall b, nth_error all q = Some (Some b) -> o = Some b) /\
        (nth_error all q = Some None -> o = Some (dt, {| shape := 0%nat :: tl (shape a); data := [] |})).
  Proof.
    intros Hr Hbefore. unfold replace_none_with_zero_size.
    apply (mapM_index _ _ (fun q o => (forall b, nth_error all q = Some (Some b) -> o = Some b) /\ (nth_error all q = Some None -> o = Some (dt, {| shape := 0%nat :: tl (shape a); data := [] |})))).
    intros q mine Hq. unfold replace_none_on, broadcast_dtype_and_dims. destruct mine as [[dt' b]|]; cbn [option_map].
    - rewrite !fill_some. eexists. split; [reflexivity|]. split; [intros b' Hb'; congruence | congruence].
    - assert (forall {X} (f : D * nd A -> X), fill None (map (option_map f) all) = Some (f (dt, a))) as Hfill.
      { intros X f. destruct (fill_none (map (option_map f) all)) as [[_ H]|(r' & x & H1 & H2 & H3)].
        - specialize (H (Some (f (dt, a)))). discriminate H. apply in_map_iff. exists (Some (dt, a)). split; [reflexivity | now apply nth_error_In in Hr].
        - assert (r' = r) as ->.
          { destruct (Nat.lt_trichotomy r r') as [Hlt|[H|Hlt]]; [|symmetry; exact H|].
            - specialize (H3 r Hlt). rewrite (map_nth_error (option_map f) r all Hr) in H3. discriminate.
            - specialize (Hbefore r' Hlt). rewrite (map_nth_error (option_map f) r' all Hbefore) in H1. discriminate. }
          rewrite (map_nth_error (option_map f) r all Hr) in H1. cbn in H1. congruence. }
      pose proof (Hfill _ fst) as F1. pose proof (Hfill _ (fun x => tl (shape (snd x)))) as F2. cbn [fst snd] in F1, F2. unfold arr in *. rewrite F1, F2. eexists. split; [reflexivity|]. split; [congruence | reflexivity].
  Qed.
  Lemma replace_none_all_none : (forall m, In m all -> m = None) -> replace_none_with_zero_size all = Ok all.
  Proof.
    intro H. unfold replace_none_with_zero_size. rewrite (mapM_map_ok _ (fun x => x)); [now rewrite map_id|].
    intros m Hm. rewrite (H m Hm). unfold replace_none_on, broadcast_dtype_and_dims. cbn [option_map].
    destruct (fill_none (map (option_map fst) all)) as [[E _]|(r & x & E & _)]; [unfold arr in *; now rewrite E|].
    apply nth_error_In, in_map_iff in E. destruct E as (m' & E1 & E2). rewrite (H m' E2) in E1. discriminate.
  Qed.
End ReplaceNone.

Section Parser.
  Context {N : Type}.
  Lemma parse_args_ok (ranks : list (outcome N)) : ranks <> [] -> (forall o, In o ranks -> o <> Leaves) ->
    (exists ns, nth_error ranks 0 = Some (Parsed ns) /\ forall f, In f (parse_args ranks) -> f = Returns ns) \/
    (nth_error ranks 0 = Some Bad /\ forall f, In f (parse_args ranks) -> f = Finalizes).
  Proof.
    intros Hne Hl. destruct ranks as [|r0 ranks]; [contradiction|]. unfold parse_args. cbn [nth].
    pose proof (Hl r0 (or_introl eq_refl)) as H0. destruct r0 as [ns| |]; [| |contradiction].
    - left. exists ns. split; [reflexivity|]. intros f Hf. apply in_map_iff in Hf. destruct Hf as (o & <- & Ho). specialize (Hl o Ho). now destruct o.
    - right. split; [reflexivity|]. intros f Hf. apply in_map_iff in Hf. destruct Hf as (o & <- & Ho). specialize (Hl o Ho). now destruct o.
  Qed.
  Lemma parse_args_length (ranks : list (outcome N)) : length (parse_args ranks) = length ranks.
  Proof. apply map_length. Qed.
  Lemma parse_args_messages (ranks : list (outcome N)) r : In r (messages ranks) <-> r = 0%nat /\ nth_error ranks 0 = Some Bad.
  Proof.
    unfold messages. rewrite filter_In, in_seq. split.
    - intros [H1 H2]. destruct (nth r ranks Leaves) eqn:E; try discriminate. assert (r = 0%nat) as -> by lia. split; [reflexivity|].
      rewrite <- E. apply nth_error_nth'. lia.
    - intros [-> H]. rewrite (nth_error_nth _ _ _ H). split; [|reflexivity]. assert (0 < length ranks)%nat by (apply nth_error_Some; congruence). lia.
  Qed.
  Lemma parse_args_agree (ranks : list (outcome N)) : ranks <> [] -> (forall o, In o ranks -> o <> Leaves) ->
    length (parse_args ranks) = length ranks /\
    ((exists ns, nth_error ranks 0 = Some (Parsed ns) /\ forall f, In f (parse_args ranks) -> f = Returns ns) \/
     (nth_error ranks 0 = Some Bad /\ forall f, In f (parse_args ranks) -> f = Finalizes)).
  Proof. intros H1 H2. split; [apply parse_args_length | now apply parse_args_ok]. Qed.
End Parser.
