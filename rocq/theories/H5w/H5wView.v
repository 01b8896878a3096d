(** Proofs about what is at the paths of a file. *)
From Coq Require Import Ascii String.
From Verif Require Import Base.Prelude Base.ListLemmas Text.StrModel H5w.H5wModel H5w.H5wSpec H5w.H5wTable H5w.H5wFiles H5w.H5wArray H5w.H5wPath H5w.H5wHeap H5w.H5wCache.
From Coq Require Import ZifyBool ZifyNat.
Local Open Scope Z_scope.
Local Open Scope list_scope.

(** ** Prefixes *)
Lemma prefix_refl p : prefix p p.
Proof. exists []. now rewrite app_nil_r. Qed.
Lemma prefix_snoc x q e : prefix x (q ++ [e]) <-> prefix x q \/ x = q ++ [e].
Proof.
  split.
  - intros [r E]. destruct r as [|y r] using rev_ind; [right; now rewrite app_nil_r in E|]. left. rewrite app_assoc in E. apply app_inj_tail in E as [E _]. exists r. exact E.
  - intros [[r ->]| ->]; [exists (r ++ [e]); now rewrite app_assoc|apply prefix_refl].
Qed.
Lemma prefix_nil x : prefix x [] <-> x = [].
Proof. split; [intros [r E]; symmetry in E; now apply app_eq_nil in E|intros ->; apply prefix_refl]. Qed.
Lemma snoc_inj {A} (a b : list A) x y : a ++ [x] = b ++ [y] <-> a = b /\ x = y.
Proof. split; [apply app_inj_tail|intros [-> ->]; reflexivity]. Qed.

(** ** Walking *)
Lemma walk_snoc h q e a : walk h 0 (q ++ [e]) = Some a <-> exists b l, walk h 0 q = Some b /\ links_of h b = Some l /\ assoc e l = Some a.
Proof.
  rewrite walk_app. destruct (walk h 0 q) as [b|]; cbn [walk].
  - destruct (links_of h b) as [l|] eqn:L.
    + split; [intro H; exists b, l; destruct (assoc e l); auto|]. intros (b' & l' & [= <-] & L' & H). rewrite L in L'. injection L' as <-. now rewrite H.
    + split; [discriminate|]. intros (b' & l' & [= <-] & L' & H). congruence.
  - split; [discriminate|]. intros (b & l & H & _). discriminate.
Qed.
Lemma sound_links h a l : sound h -> links_of h a = Some l -> NoDup (map fst l) /\ Forall (fun e => (snd e < List.length h)%nat) l.
Proof. intros S L. apply links_of_some in L as (o & E & O). pose proof (sound_obj_at _ _ _ S E) as [A _]. now rewrite O in A. Qed.
Lemma walk_in h q : sound h -> forall a, walk h 0 q = Some a -> (a < List.length h)%nat.
Proof.
  intros S a. destruct q as [|e q _] using rev_ind.
  - cbn. intros [= <-]. destruct S as [(o & l & E & _) _]. apply nth_error_Some. congruence.
  - rewrite walk_snoc. intros (b & l & _ & L & A). destruct (sound_links _ _ _ S L) as [_ F]. apply assoc_In in A. rewrite Forall_forall in F. exact (F _ A).
Qed.
Lemma holds_walk h p x l : sound h -> (holds h p x l <-> exists a o, walk h 0 p = Some a /\ nth_error h a = Some o /\ kind (o_node o) = x /\ o_attrs o = l).
Proof.
  intro S. split; intros (a & o & H & K); exists a, o; (split; [|exact K]); [now apply leads_walk|now apply walk_leads].
Qed.
Lemma tree_walk h : sound h -> (tree h <-> forall p q a, walk h 0 p = Some a -> walk h 0 q = Some a -> p = q).
Proof.
  intro S. split; intros T p q a A B; apply (T p q a); first [now apply walk_leads | now apply leads_walk].
Qed.
Lemma nothing_walk h p : sound h -> (nothing_at h p <-> walk h 0 p = None).
Proof.
  intro S. split.
  - intro N. destruct (walk h 0 p) as [a|] eqn:W; [|reflexivity]. pose proof (walk_in _ _ S _ W) as L. apply nth_error_Some in L. destruct (nth_error h a) as [o|] eqn:E; [|contradiction].
    exfalso. apply (N (kind (o_node o)) (o_attrs o)). apply holds_walk; [exact S|]. exists a, o. auto.
  - intros W x l H. apply holds_walk in H as (a & o & A & _); [|exact S]. congruence.
Qed.
Lemma holds_fun h p x l y m : sound h -> holds h p x l -> holds h p y m -> x = y /\ l = m.
Proof.
  intros S A B. apply holds_walk in A as (a & o & A1 & A2 & A3 & A4); [|exact S]. apply holds_walk in B as (b & o' & B1 & B2 & B3 & B4); [|exact S].
  assert (b = a) by congruence. subst b. assert (o' = o) by congruence. subst o'. split; congruence.
Qed.

(** ** A new object *)
Definition leaf (n : node) : Prop := n = Group [] \/ exists d, n = Dset d.
Lemma add_link_inv h b c n h' : add_link h b c n = Some h' -> exists o l, nth_error h b = Some o /\ o_node o = Group l /\ assoc c l = None /\
  h' = set_nth h b {| o_node := Group (l ++ [(c, List.length h)]); o_attrs := o_attrs o |} ++ [{| o_node := n; o_attrs := [] |}].
Proof.
  unfold add_link. destruct (nth_error h b) as [o|]; [|discriminate]. destruct (o_node o) as [l|] eqn:O; [|discriminate]. destruct (assoc c l) eqn:A; [discriminate|]. intros [= <-]. exists o, l. auto.
Qed.
Lemma add_link_at h b c n h' a : add_link h b c n = Some h' -> exists o l, nth_error h b = Some o /\ o_node o = Group l /\ assoc c l = None /\
  nth_error h' a = if (a =? b)%nat then Some {| o_node := Group (l ++ [(c, List.length h)]); o_attrs := o_attrs o |}
                   else if (a =? List.length h)%nat then Some {| o_node := n; o_attrs := [] |} else nth_error h a.
Proof.
  intro H. apply add_link_inv in H as (o & l & E & O & A & ->). exists o, l. repeat (split; [assumption|]). assert (b < List.length h)%nat as Lb by (apply nth_error_Some; congruence).
  destruct (Nat.eqb_spec a b) as [->|N].
  - rewrite nth_error_app1 by now rewrite set_nth_length. now apply nth_error_set_nth_eq.
  - destruct (Nat.eqb_spec a (List.length h)) as [->|N2].
    + rewrite nth_error_app2 by (rewrite set_nth_length; lia). rewrite set_nth_length, Nat.sub_diag. reflexivity.
    + destruct (Nat.lt_ge_cases a (List.length h)) as [L|L].
      * rewrite nth_error_app1 by now rewrite set_nth_length. apply nth_error_set_nth_neq. congruence.
      * rewrite nth_error_app2 by (rewrite set_nth_length; lia). rewrite set_nth_length. transitivity (@None obj); [|symmetry; apply nth_error_None; lia].
        apply nth_error_None. cbn. lia.
Qed.
Lemma walk_add h b c n h' : sound h -> leaf n -> add_link h b c n = Some h' -> forall q a,
  walk h' 0 q = Some a <-> walk h 0 q = Some a \/ (a = List.length h /\ exists r, q = r ++ [c] /\ walk h 0 r = Some b).
Proof.
  intros S Ln H q. pose proof (grows_add_link _ _ _ _ _ H) as G. induction q as [|e q IH] using rev_ind; intro a.
  - split; [intro W; left; exact W|]. intros [W|(_ & r & E & _)]; [exact W|]. destruct r; discriminate.
  - split.
    + rewrite walk_snoc. intros (a0 & l' & W & L & A). apply IH in W. destruct (add_link_at _ _ _ _ _ a0 H) as (o & l & Eb & Ob & Ac & Ea).
      unfold links_of in L. rewrite Ea in L. destruct W as [W|(-> & _)].
      * pose proof (walk_in _ _ S _ W) as Lt. destruct (Nat.eqb_spec a0 b) as [->|N].
        -- cbn in L. injection L as <-. rewrite assoc_app in A. assert (links_of h b = Some l) as Lb by (apply links_of_some; eauto).
           destruct (assoc e l) as [v|] eqn:Ae; [left; apply walk_snoc; exists b, l; split; [exact W|split; [exact Lb|congruence]]|].
           cbn in A. destruct (str_eqb e c) eqn:Ec; [|discriminate]. apply str_eqb_eq in Ec. subst e. right. split; [congruence|]. exists q. auto.
        -- destruct (Nat.eqb_spec a0 (List.length h)) as [->|_]; [lia|]. left. apply walk_snoc. exists a0, l'. auto.
      * assert (b < List.length h)%nat as Lb by (apply nth_error_Some; congruence). destruct (Nat.eqb_spec (List.length h) b) as [E|_]; [lia|].
        rewrite Nat.eqb_refl in L. cbn in L. destruct Ln as [->|[d ->]]; [injection L as <-; discriminate|discriminate].
    + intros [W|(-> & r & E & W)]; [eapply grows_walk; eauto|]. apply snoc_inj in E as [-> ->]. apply walk_snoc.
      destruct (add_link_at _ _ _ _ _ b H) as (o & l & Eb & Ob & Ac & Ea). rewrite Nat.eqb_refl in Ea. exists b, (l ++ [(c, List.length h)]).
      split; [eapply grows_walk; eauto|]. split; [apply links_of_some; eexists; split; [exact Ea|reflexivity]|]. rewrite assoc_app, Ac. cbn. now rewrite str_eqb_refl.
Qed.
Lemma tree_add h b c n h' : sound h -> sound h' -> tree h -> leaf n -> add_link h b c n = Some h' -> tree h'.
Proof.
  intros S S' T Ln H. apply tree_walk; [exact S'|]. pose proof (proj1 (tree_walk h S) T) as U. intros p q a A B. apply (walk_add _ _ _ _ _ S Ln H) in A, B.
  destruct A as [A|(-> & r & -> & A)], B as [B|(E & r' & -> & B)].
  - eauto.
  - subst a. apply (walk_in _ _ S) in A. lia.
  - apply (walk_in _ _ S) in B. lia.
  - f_equal. eauto.
Qed.
Lemma holds_add h b c n h' r : sound h -> sound h' -> tree h -> leaf n -> add_link h b c n = Some h' -> walk h 0 r = Some b -> forall q x l,
  holds h' q x l <-> holds h q x l \/ (q = r ++ [c] /\ x = kind n /\ l = []).
Proof.
  intros S S' T Ln H W q x l. rewrite !holds_walk by assumption. pose proof (proj1 (tree_walk h S) T) as U.
  assert (forall a o, nth_error h a = Some o -> exists o', nth_error h' a = Some o' /\ kind (o_node o') = kind (o_node o) /\ o_attrs o' = o_attrs o) as K.
  { intros a o E. destruct (add_link_at _ _ _ _ _ a H) as (o1 & l1 & Eb & Ob & Ac & Ea). destruct (Nat.eqb_spec a b) as [->|N].
    - assert (o1 = o) by congruence. subst o1. eexists. split; [exact Ea|]. cbn. rewrite Ob. auto.
    - destruct (Nat.eqb_spec a (List.length h)) as [->|_]; [exfalso; assert (nth_error h (List.length h) <> None) as C by congruence; apply nth_error_Some in C; lia|]. exists o. rewrite Ea. auto. }
  split.
  - intros (a & o & A & E & X & L). apply (walk_add _ _ _ _ _ S Ln H) in A. destruct A as [A|(-> & r' & -> & A)].
    + left. pose proof (walk_in _ _ S _ A) as Lt. apply nth_error_Some in Lt. destruct (nth_error h a) as [o0|] eqn:E0; [|contradiction]. exists a, o0. destruct (K a o0 E0) as (o' & E' & X' & L').
      assert (o' = o) by congruence. subst o'. repeat split; congruence.
    + right. assert (r' = r) by eauto. subst r'. destruct (add_link_at _ _ _ _ _ (List.length h) H) as (o1 & l1 & Eb & Ob & Ac & Ea).
      destruct (Nat.eqb_spec (List.length h) b) as [E1|_]; [apply (walk_in _ _ S) in W; lia|]. rewrite Nat.eqb_refl in Ea. rewrite Ea in E. injection E as <-. cbn in X, L. auto.
  - intros [(a & o & A & E & X & L)|(-> & -> & ->)].
    + destruct (K a o E) as (o' & E' & X' & L'). exists a, o'. split; [apply (walk_add _ _ _ _ _ S Ln H); now left|]. repeat split; congruence.
    + destruct (add_link_at _ _ _ _ _ (List.length h) H) as (o1 & l1 & Eb & Ob & Ac & Ea). destruct (Nat.eqb_spec (List.length h) b) as [E1|_]; [apply (walk_in _ _ S) in W; lia|]. rewrite Nat.eqb_refl in Ea.
      eexists (List.length h), _. split; [apply (walk_add _ _ _ _ _ S Ln H); right; split; [reflexivity|]; exists r; auto|]. split; [exact Ea|]. split; reflexivity.
Qed.

(** ** An object unlinked *)
Lemma assoc_del {A} c e (l : list (str * A)) : NoDup (map fst l) -> assoc e (del c l) = if str_eqb e c then None else assoc e l.
Proof.
  induction l as [|[k v] l IH]; cbn; [destruct (str_eqb e c); reflexivity|]. intro N. apply NoDup_cons_iff in N as [N1 N2]. destruct (str_eqb c k) eqn:E.
  - apply str_eqb_eq in E. subst k. destruct (str_eqb e c) eqn:E2; [|reflexivity]. apply str_eqb_eq in E2. subst e. destruct (assoc c l) as [w|] eqn:A1; [|reflexivity].
    exfalso. apply N1. apply in_map_iff. exists (c, w). split; [reflexivity|]. now apply assoc_In.
  - cbn. rewrite IH by exact N2. destruct (str_eqb e k) eqn:E2; [|reflexivity]. apply str_eqb_eq in E2. subst e. destruct (str_eqb k c) eqn:E3; [|reflexivity]. apply str_eqb_eq in E3. subst. rewrite str_eqb_refl in E. discriminate.
Qed.
Section Unlink.
  Context (h : list obj) (b : nat) (o : obj) (ls : list (str * nat)) (c : str) (r : list str).
  Context (S : sound h) (T : tree h) (Eb : nth_error h b = Some o) (Ob : o_node o = Group ls) (W : walk h 0 r = Some b).
  Let h' := set_nth h b {| o_node := Group (del c ls); o_attrs := o_attrs o |}.
  Lemma unlink_at a : nth_error h' a = if (a =? b)%nat then Some {| o_node := Group (del c ls); o_attrs := o_attrs o |} else nth_error h a.
  Proof using Eb.
    destruct (Nat.eqb_spec a b) as [->|N]; [apply nth_error_set_nth_eq; apply nth_error_Some; congruence|apply nth_error_set_nth_neq; congruence].
  Qed.
  Lemma walk_unlink q : forall a, walk h' 0 q = Some a <-> walk h 0 q = Some a /\ ~ prefix (r ++ [c]) q.
  Proof using S T Eb Ob W.
    pose proof (proj1 (tree_walk h S) T) as U. assert (links_of h b = Some ls) as Lb by (apply links_of_some; eauto). destruct (sound_links _ _ _ S Lb) as [ND _].
    induction q as [|e q IH] using rev_ind; intro a.
    - cbn [walk]. split; [|tauto]. intros H. split; [exact H|]. rewrite prefix_nil. destruct r; discriminate.
    - rewrite !walk_snoc, prefix_snoc. rewrite snoc_inj. split.
      + intros (a0 & l' & A & L & B). apply IH in A as [A N]. unfold links_of in L. rewrite unlink_at in L. destruct (Nat.eqb_spec a0 b) as [->|N2].
        * cbn in L. injection L as <-. rewrite assoc_del in B by exact ND. destruct (str_eqb e c) eqn:E; [discriminate|]. split; [eauto|]. intros [P|[_ ->]]; [auto|]. rewrite str_eqb_refl in E. discriminate.
        * split; [exists a0, l'; auto|]. intros [P|[-> _]]; [auto|]. congruence.
      + intros [(a0 & l' & A & L & B) N]. assert (~ prefix (r ++ [c]) q) as N1 by tauto. exists a0. destruct (Nat.eq_dec a0 b) as [->|N2].
        * exists (del c ls). split; [apply IH; auto|]. split; [unfold links_of; rewrite unlink_at, Nat.eqb_refl; reflexivity|]. rewrite assoc_del by exact ND. assert (l' = ls) by congruence. subst l'.
          destruct (str_eqb e c) eqn:E; [|exact B]. exfalso. apply N. right. apply str_eqb_eq in E. split; [eauto|congruence].
        * exists l'. split; [apply IH; auto|]. split; [|exact B]. unfold links_of. rewrite unlink_at. destruct (Nat.eqb_spec a0 b); [contradiction|exact L].
  Qed.
  Lemma tree_unlink : sound h' -> tree h'.
  Proof using S T Eb Ob W.
    intro S'. apply tree_walk; [exact S'|]. pose proof (proj1 (tree_walk h S) T) as U. intros p q a A B. apply walk_unlink in A as [A _], B as [B _]. eauto.
  Qed.
  Lemma holds_unlink : sound h' -> forall q x l, holds h' q x l <-> holds h q x l /\ ~ prefix (r ++ [c]) q.
  Proof using S T Eb Ob W.
    intros S' q x l. rewrite !holds_walk by assumption. split.
    - intros (a & o1 & A & E & X & L). apply walk_unlink in A as [A N]. split; [|exact N]. rewrite unlink_at in E. destruct (Nat.eqb_spec a b) as [->|_].
      + injection E as <-. exists b, o. repeat split; auto. rewrite Ob. exact X.
      + exists a, o1. auto.
    - intros [(a & o1 & A & E & X & L) N]. destruct (Nat.eq_dec a b) as [->|N2].
      + assert (o1 = o) by congruence. subst o1. eexists b, _. split; [apply walk_unlink; auto|]. split; [rewrite unlink_at, Nat.eqb_refl; reflexivity|]. cbn. rewrite Ob in X. auto.
      + exists a, o1. split; [apply walk_unlink; auto|]. split; [|auto]. rewrite unlink_at. destruct (Nat.eqb_spec a b); [contradiction|exact E].
  Qed.
End Unlink.

(** ** An object changed in place *)
Section Change.
  Context (h : list obj) (a : nat) (o o' : obj).
  Context (S : sound h) (E : nth_error h a = Some o) (K : match o_node o, o_node o' with Group l, Group l' => l' = l | Dset _, Dset _ => True | _, _ => False end).
  Let h' := set_nth h a o'.
  Lemma change_at b : nth_error h' b = if (b =? a)%nat then Some o' else nth_error h b.
  Proof using E. destruct (Nat.eqb_spec b a) as [->|N]; [apply nth_error_set_nth_eq; apply nth_error_Some; congruence|apply nth_error_set_nth_neq; congruence]. Qed.
  Lemma walk_change q : forall b, walk h' b q = walk h b q.
  Proof using E K.
    induction q as [|c q IH]; intro b; [reflexivity|]. cbn [walk]. assert (links_of h' b = links_of h b) as ->.
    { unfold links_of. rewrite change_at. destruct (Nat.eqb_spec b a) as [->|_]; [|reflexivity]. rewrite E. destruct (o_node o), (o_node o'); try contradiction; congruence. }
    destruct (links_of h b) as [l|]; [|reflexivity]. destruct (assoc c l); [apply IH|reflexivity].
  Qed.
  Lemma tree_change : sound h' -> tree h -> tree h'.
  Proof using S E K. intros S' T. apply tree_walk; [exact S'|]. pose proof (proj1 (tree_walk h S) T) as U. intros p q b. rewrite !walk_change. apply U. Qed.
  Lemma holds_change p : sound h' -> tree h -> walk h 0 p = Some a -> forall q x l,
    holds h' q x l <-> (q = p /\ x = kind (o_node o') /\ l = o_attrs o') \/ (q <> p /\ holds h q x l).
  Proof using S E K.
    intros S' T W q x l. rewrite !holds_walk by assumption. pose proof (proj1 (tree_walk h S) T) as U. split.
    - intros (b & o1 & A & B & X & L). rewrite walk_change in A. rewrite change_at in B. destruct (Nat.eqb_spec b a) as [->|N].
      + left. injection B as <-. split; [eauto|]. auto.
      + right. split; [intros ->; congruence|]. exists b, o1. auto.
    - intros [(-> & -> & ->)|(N & b & o1 & A & B & X & L)].
      + exists a, o'. rewrite walk_change, change_at, Nat.eqb_refl. auto.
      + exists b, o1. rewrite walk_change, change_at. destruct (Nat.eqb_spec b a) as [->|_]; [exfalso; eauto|]. auto.
  Qed.
End Change.

(** ** Files stay sound trees *)
Definition shape (h : list obj) : Prop := sound h /\ tree h.
Definition keeps_shape (h h' : list obj) : Prop := shape h -> shape h'.
Lemma kh_refl h : keeps_shape h h. Proof. intro H. exact H. Qed.
Lemma kh_trans a b c : keeps_shape a b -> keeps_shape b c -> keeps_shape a c. Proof. intros A B H. auto. Qed.
Lemma shape_create h a name n h' : sound_node n -> leaf n -> create_at h a name n = Some h' -> keeps_shape h h'.
Proof.
  intros Sn Ln H [S T]. pose proof (sound_create _ _ _ _ _ S Sn H) as S'. split; [exact S'|]. apply create_at_add in H as (p & c & b & _ & _ & H & _). exact (tree_add _ _ _ _ _ S S' T Ln H).
Qed.
Lemma unlink_cases h name : unlink h name = h \/ exists c r b o l, steps (trim name) = r ++ [c] /\ walk h 0 r = Some b /\ nth_error h b = Some o /\ o_node o = Group l /\
  unlink h name = set_nth h b {| o_node := Group (del c l); o_attrs := o_attrs o |}.
Proof.
  unfold unlink. destruct (rev (steps (trim name))) as [|c r] eqn:R; [now left|]. destruct (walk h 0 (rev r)) as [b|] eqn:W; [|now left]. destruct (nth_error h b) as [o|] eqn:E; [|now left].
  destruct (o_node o) as [l|] eqn:O; [|now left]. right. exists c, (rev r), b, o, l. split; [|auto]. rewrite <- (rev_involutive (steps (trim name))), R. reflexivity.
Qed.
Lemma shape_unlink h name : keeps_shape h (unlink h name).
Proof.
  intros [S T]. pose proof (sound_unlink h name S) as S'. split; [exact S'|]. destruct (unlink_cases h name) as [E|(c & r & b & o & l & _ & W & E & O & U)]; [now rewrite E|].
  rewrite U in *. eapply tree_unlink; eauto.
Qed.
Lemma shape_set_dset h a d d' : dset_at h a = Some d -> sound_dset d' -> keeps_shape h (set_dset h a d').
Proof.
  intros D Sd [S T]. pose proof (sound_set_dset _ _ _ _ S D Sd) as S'. split; [exact S'|]. apply dset_at_some in D as (o & E & O). unfold set_dset in *. rewrite E in *. eapply tree_change; eauto. now rewrite O.
Qed.
Lemma tree_set_attrs h a l : sound h -> sound (set_attrs h a l) -> tree h -> tree (set_attrs h a l).
Proof.
  intros S S' T. unfold set_attrs in *. destruct (nth_error h a) as [o|] eqn:E; [|exact T]. eapply tree_change; eauto. cbn. destruct (o_node o); auto.
Qed.
Lemma write_call_shape cv c h s x : handle_of c = Some h -> writes c = true -> sound_call c -> nth_error (slots s) (Z.to_nat (h - 1)) = Some x ->
  pres_at (via keeps_shape (s_id x)) s (run cv c).
Proof.
  intros Hh W S N. destruct c; cbn in Hh, W; try discriminate; injection Hh as ->; cbn [run]; apply fmap_pres.
  - apply via_create_group; try exact kh_refl; try exact kh_trans; try assumption. intros h0 loc nm h' E. eapply shape_create; eauto; [exact sound_group|now left].
  - apply via_write_data; try exact kh_refl; try exact kh_trans; try assumption.
    + intros h0 loc nm h' E. eapply shape_create; eauto; [exact sound_group|now left].
    + intros _ h0 a _. apply shape_unlink.
    + intros h0 h' d dims E1 E2. eapply shape_create; eauto; [|right; eauto]. apply sound_dset_node. eapply sound_new. exact E1.
    + intros h0 a d d' need E1 E2 E3 E4 Sh. eapply shape_set_dset; eauto. eapply sound_extend; eauto. eapply sound_dset_at; eauto. apply Sh.
    + intros h0 a d b E1 E2 Sh. eapply shape_set_dset; eauto. eapply sound_with_data; eauto. eapply sound_dset_at; eauto. apply Sh.
  - apply via_write_attribute; auto using kh_refl. intros h0 a nm. split.
    + intros [S0 T0]. destruct (attrs_left_ok overwrite h0 a nm S0). assert (sound (set_attrs h0 a (attrs_left overwrite h0 a nm))) by now apply sound_set_attrs. split; [assumption|now apply tree_set_attrs].
    + intros D A [S0 T0]. destruct (attrs_left_ok overwrite h0 a nm S0) as [B C]. assert (sound (set_attrs h0 a (attrs_left overwrite h0 a nm ++ [(nm, new_attr arr)]))).
      { apply sound_set_attrs; auto.
        * rewrite map_app. apply NoDup_snoc; [exact B|]. now apply assoc_none.
        * apply Forall_app. split; [exact C|]. constructor; [|constructor]. cbn. now apply sound_arr_attr. }
      split; [assumption|now apply tree_set_attrs].
Qed.
Lemma tree_empty : tree (heap empty_file).
Proof.
  apply tree_walk; [exact sound_empty|]. assert (forall p a, walk (heap empty_file) 0 p = Some a -> p = []) as K.
  { intros p a. destruct p as [|c p]; [reflexivity|discriminate]. }
  intros p q a A B. now rewrite (K _ _ A), (K _ _ B).
Qed.
Definition shape_files (s : wst) : Prop := forall f d, assoc f (disk s) = Some d -> shape (heap d).
Theorem shape_history cv s0 t s : fresh s0 -> sound_files s0 -> tree_files s0 -> history cv s0 t s -> (forall c r, In (c, r) t -> sound_call c) -> shape_files s.
Proof.
  intros F S0 T0 H. induction H as [|t s c r s' H IH E]; [intros _ f d Ef; split; eauto|]. intro SC. assert (shape_files s) as S by (apply IH; intros; eapply SC; right; eauto).
  pose proof (inv_history _ _ _ _ F H) as I. pose proof (SC c r (or_introl eq_refl)) as Sc. intros f d' Ef.
  destruct (files_back _ _ _ _ _ _ _ _ I E Ef) as [[d Ed]| ->]; [|exact (conj sound_empty tree_empty)].
  destruct (plain_call c) eqn:Pl.
  - assert (exists h, handle_of c = Some h) as [h Hh] by (destruct c; try discriminate; eexists; reflexivity). destruct (writes c) eqn:W.
    + destruct (write_call_files cv t s c h keeps_shape I kh_refl Hh W (fun x => write_call_shape cv c h s x Hh W Sc) r s' E f d Ed) as (d2 & E2 & K).
      assert (d2 = d') by congruence. subst d2. specialize (S f d Ed). destruct K as [->|[_ K]]; [exact S|]. now apply K.
    + pose proof (nonwriting_disk cv c h s Hh Pl W) as R. unfold pres_at in R. rewrite E in R. destruct R as [_ R]. rewrite R in Ef. exact (S f d' Ef).
  - destruct c; try discriminate.
    + pose proof (open_spec cv t s fname readonly I) as P. rewrite E in P. destruct P as (h & _ & _ & _ & D & _). rewrite D in Ef. exact (S f d' Ef).
    + pose proof (create_spec cv t s fname I) as P. rewrite E in P. destruct P as (h & _ & _ & _ & D & _). rewrite D, assoc_put in Ef.
      destruct (str_eqb f (trim fname)); [injection Ef as <-; exact (conj sound_empty tree_empty)|exact (S f d' Ef)].
    + destruct (close_disk _ _ _ _ _ _ I E) as [D _]. rewrite D in Ef. exact (S f d' Ef).
Qed.
