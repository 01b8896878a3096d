(** Proofs about creating groups. *)
From Coq Require Import Ascii String.
From Verif Require Import Base.Prelude Base.ListLemmas Text.StrModel H5w.H5wModel H5w.H5wSpec H5w.H5wTable H5w.H5wFiles H5w.H5wArray H5w.H5wPath H5w.H5wHeap H5w.H5wCache H5w.H5wView.
From Coq Require Import ZifyBool ZifyNat.
Local Open Scope Z_scope.
Local Open Scope list_scope.

(** ** Names *)
Lemma good_names c : good_part c -> names c [c].
Proof. intro G. split; [discriminate|]. split; [now constructor|]. exists 0%nat. left. cbn. now rewrite app_nil_r. Qed.
Lemma good_last c : good_part c -> last c "x"%char <> slash.
Proof.
  intros (N & NS & _). intro E. apply NS. rewrite <- E. clear E NS. induction c as [|x c IH]; [contradiction|]. destruct c as [|y c]; [now left|]. right. apply IH. discriminate.
Qed.
Lemma spell_last_slash p : p <> [] -> Forall good_part p -> last (spell p) "x"%char <> slash.
Proof.
  intros N G. induction G as [|c p Gc G IH]; [contradiction|]. destruct p as [|c' p]; [now apply good_last|]. change (spell (c :: c' :: p)) with (c ++ slash :: spell (c' :: p)).
  rewrite last_app by discriminate. assert (c' :: p <> []) as N' by discriminate. pose proof (spell_nonempty _ N' G). specialize (IH N'). destruct (spell (c' :: p)); [contradiction|exact IH].
Qed.
Lemma spell_first_slash p : Forall good_part p -> hd "x"%char (spell p) <> slash.
Proof.
  intro G. destruct G as [|c p Gc G]; [discriminate|]. destruct Gc as (A & B & _). destruct c as [|x c]; [contradiction|]. assert (x <> slash) by (intros ->; apply B; now left). destruct p; exact H.
Qed.
Fixpoint spelled (p : list str) : str := match p with [] => [] | c :: r => c ++ slash :: spelled r end.
Lemma spelled_spell p : p <> [] -> spell p ++ [slash] = spelled p.
Proof.
  intro N. induction p as [|c p IH]; [contradiction|]. destruct p as [|c' p]; [reflexivity|]. change (spell (c :: c' :: p)) with (c ++ slash :: spell (c' :: p)). cbn [spelled]. rewrite <- app_assoc. cbn [app].
  rewrite IH by discriminate. reflexivity.
Qed.
Lemma spell_snoc g c : g <> [] -> spell (g ++ [c]) = spell g ++ slash :: c.
Proof.
  intro N. induction g as [|x g IH]; [contradiction|]. destruct g as [|y g]; [reflexivity|]. change (spell ((x :: y :: g) ++ [c])) with (x ++ slash :: spell ((y :: g) ++ [c])). rewrite IH by discriminate.
  change (spell (x :: y :: g)) with (x ++ slash :: spell (y :: g)). rewrite <- app_assoc. reflexivity.
Qed.
(** *** The last slash *)
Lemma last_slash_none c : ~ In slash c -> forall i r, last_slash_from i c r = r.
Proof.
  induction c as [|x c IH]; intros N i r; [reflexivity|]. cbn [last_slash_from]. destruct (Ascii.eqb_spec x slash) as [->|_]; [exfalso; apply N; now left|]. apply IH. intro H. apply N. now right.
Qed.
Lemma last_slash_app a : forall b i r, last_slash_from i (a ++ b) r = last_slash_from (i + zlen a) b (last_slash_from i a r).
Proof.
  induction a as [|x a IH]; intros b i r; cbn [app last_slash_from].
  - change (zlen []) with 0. now rewrite Z.add_0_r.
  - rewrite IH, zlen_cons. f_equal. lia.
Qed.
Lemma last_slash_bound a : forall i r, last_slash_from i a r <= Z.max r (i + zlen a - 1).
Proof.
  induction a as [|x a IH]; intros i r; cbn [last_slash_from]; [lia|]. rewrite zlen_cons. pose proof (zlen_nonneg a). specialize (IH (i + 1) (if Ascii.eqb x slash then i else r)). destruct (Ascii.eqb x slash); lia.
Qed.
Lemma last_slash_below s : s <> [] -> last s "x"%char <> slash -> last_slash s < zlen s.
Proof.
  intros N L. destruct s as [|c s _] using rev_ind; [contradiction|]. rewrite last_app in L by discriminate. cbn in L. unfold last_slash. rewrite last_slash_app. cbn [last_slash_from].
  destruct (Ascii.eqb_spec c slash) as [->|_]; [contradiction|]. pose proof (last_slash_bound s 1 0). rewrite zlen_app. change (zlen [c]) with 1. pose proof (zlen_nonneg s). lia.
Qed.
Lemma fit_blanks m b k : (List.length b <= m)%nat -> last b "x"%char <> " "%char -> fit m (b ++ repeat " "%char k) = b.
Proof.
  intros L N. unfold fit. rewrite firstn_app, firstn_all2 by exact L. rewrite firstn_repeat, trim_app_blanks. now apply trim_id.
Qed.
Lemma names_fit m n p : names n p -> (List.length (spell p) < m)%nat -> fit m n = spell p \/ fit m n = slash :: spell p.
Proof.
  intros (N & G & k & [-> | ->]) L.
  - left. apply fit_blanks; [lia|now apply spell_last].
  - right. rewrite app_comm_cons. apply fit_blanks; [cbn; lia|]. change (slash :: spell p) with ([slash] ++ spell p). rewrite last_app by now apply spell_nonempty. now apply spell_last.
Qed.

(** ** Groups added *)
Lemma made_refl p h : shape h -> (exists a, walk h 0 p = Some a) -> groups_made p h h.
Proof.
  intros [S T] [a W] q x l. split; [now left|]. intros [H|(N & [r ->] & _)]; [exact H|]. exfalso. apply (nothing_walk _ _ S) in N. rewrite walk_app, N in W. discriminate.
Qed.
Lemma made_trans p1 p2 h h1 h2 : sound h1 -> prefix p1 p2 -> groups_made p1 h h1 -> groups_made p2 h1 h2 -> groups_made p2 h h2.
Proof.
  intros S1 [r ->] A B q x l. rewrite (B q x l), (A q x l). split.
  - intros [[H|(N & [r' E] & X & L)]|(N & P & X & L)].
    + now left.
    + right. split; [exact N|]. split; [|auto]. exists (r' ++ r). rewrite E. now rewrite app_assoc.
    + right. split; [|auto]. intros y m H. apply (N y m). apply A. now left.
  - intros [H|(N & P & X & L)]; [left; now left|]. destruct (walk h1 0 q) as [a|] eqn:W.
    + left. right. assert (exists y m, holds h1 q y m) as (y & m & H).
      { pose proof (walk_in _ _ S1 _ W) as Lt. apply nth_error_Some in Lt. destruct (nth_error h1 a) as [o|] eqn:E; [|contradiction]. exists (kind (o_node o)), (o_attrs o). apply holds_walk; [exact S1|]. exists a, o. auto. }
      apply A in H as [H|(_ & P' & _)]; [exfalso; exact (N y m H)|]. auto.
    + right. split; [now apply nothing_walk|]. auto.
Qed.
Lemma made_one h b c h' r : shape h -> add_link h b c (Group []) = Some h' -> walk h 0 r = Some b -> groups_made (r ++ [c]) h h' /\ shape h' /\ walk h' 0 (r ++ [c]) = Some (List.length h) /\ links_of h' (List.length h) = Some [].
Proof.
  intros [S T] H W. assert (leaf (Group [])) as Lf by now left. pose proof (sound_add_link _ _ _ _ _ S sound_group H) as S'. pose proof (tree_add _ _ _ _ _ S S' T Lf H) as T'.
  split; [|split; [now split|split]].
  - intros q x l. rewrite (holds_add _ _ _ _ _ _ S S' T Lf H W). split.
    + intros [K|(-> & -> & ->)]; [now left|]. right. split; [|split; [apply prefix_refl|auto]]. apply nothing_walk; [exact S|]. destruct (walk h 0 (r ++ [c])) as [a|] eqn:E; [|reflexivity].
      apply walk_snoc in E as (b' & l' & W' & L & A). assert (b' = b) by congruence. subst b'. destruct (add_link_inv _ _ _ _ _ H) as (o & l0 & E0 & O0 & A0 & _).
      apply links_of_some in L as (o' & E1 & O1). assert (o' = o) by congruence. subst o'. congruence.
    + intros [K|(N & P & -> & ->)]; [now left|]. apply prefix_snoc in P as [[r' ->]| ->]; [|now right]. exfalso. apply nothing_walk in N; [|exact S]. rewrite walk_app, N in W. discriminate.
  - apply (walk_add _ _ _ _ _ S Lf H). right. split; [reflexivity|]. eauto.
  - destruct (add_link_at _ _ _ _ _ (List.length h) H) as (o1 & l1 & Eb & Ob & Ac & Ea). destruct (Nat.eqb_spec (List.length h) b) as [E1|_]; [apply (walk_in _ _ S) in W; lia|]. rewrite Nat.eqb_refl in Ea.
    apply links_of_some. eexists. split; [exact Ea|reflexivity].
Qed.

(** ** The routine *)
Definition changed (f : str) (w : bool) (h : list obj) (s s' : wst) : Prop := only f s s' /\ assoc f (disk s') = Some {| heap := h; writable := w |}.
Lemma changed_trans f w h1 h2 a b c : changed f w h1 a b -> changed f w h2 b c -> changed f w h2 a c.
Proof. intros [A _] [B C]. split; [eapply only_trans; eauto|exact C]. Qed.
Lemma file_of_ok id s f rw fl : zassoc id (lib s) = Some (f, rw) -> assoc f (disk s) = Some fl -> file_of id s = Go (f, fl) s.
Proof. intros Z E. unfold file_of. rewrite (bind_step _ _ _ s s) by reflexivity. rewrite Z. cbn [of_option]. rewrite (bind_step _ _ _ (f, rw) s) by reflexivity. cbn [fst]. rewrite E. reflexivity. Qed.
Lemma update_changed f fl h s : assoc f (disk s) = Some fl -> exists s', update f fl h s = Go tt s' /\ changed f (writable fl) h s s'.
Proof.
  intro E. eexists. split; [reflexivity|]. split; [|cbn; now rewrite assoc_put, str_eqb_refl]. repeat split; cbn.
  - intros g N. rewrite assoc_put. apply str_eqb_neq in N. now rewrite N.
  - intros _. rewrite assoc_put, str_eqb_refl. discriminate.
Qed.
Lemma changed_lib f w h s s' : changed f w h s s' -> lib s' = lib s /\ slots s' = slots s.
Proof. intros [((A & _ & B & _) & _) _]. auto. Qed.
Lemma changed_refl f fl s : assoc f (disk s) = Some fl -> changed f (writable fl) (heap fl) s s.
Proof. intro E. split; [apply only_refl|]. rewrite E. now destruct fl. Qed.
Lemma group_loop_part id c : ~ In slash c -> forall rest acc loc k, group_loop id (c ++ rest) acc loc k = group_loop id rest (rev c ++ acc) loc k.
Proof.
  induction c as [|x c IH]; intros N rest acc loc k; [reflexivity|]. cbn [app group_loop]. destruct (Ascii.eqb_spec x slash) as [->|_]; [exfalso; apply N; now left|].
  rewrite IH by (intro H; apply N; now right). cbn [rev]. now rewrite <- app_assoc.
Qed.
Lemma create_part h loc c n : good_part c -> create_at h loc c n = add_link h loc c n.
Proof.
  intro G. pose proof (good_names c G) as N. unfold create_at. pose proof (names_steps _ _ N) as S. destruct (names_trim _ _ N) as [_ NN]. destruct (trim c) as [|x t] eqn:T; [contradiction|]. rewrite S. reflexivity.
Qed.
Lemma gopen_part h loc c : good_part c -> gopen h loc c = match walk h loc [c] with Some b => match links_of h b with Some _ => Some b | None => None end | None => None end.
Proof. intro G. unfold gopen. now rewrite (names_resolve _ _ _ _ (good_names c G)). Qed.
Lemma group_loop_spec id f rw : forall p k loc s fl q ls, Forall good_part p -> zassoc id (lib s) = Some (f, rw) -> assoc f (disk s) = Some fl -> shape (heap fl) ->
  walk (heap fl) 0 q = Some loc -> links_of (heap fl) loc = Some ls -> k + zlen p <= 10 ->
  exists s' h', changed f (writable fl) h' s s' /\ shape h' /\
    ((group_loop id (spelled p) [] loc k s = Go tt s' /\ groups_made (q ++ p) (heap fl) h' /\ (exists a l, walk h' 0 (q ++ p) = Some a /\ links_of h' a = Some l)) \/
     (group_loop id (spelled p) [] loc k s = Stop s' /\ exists p1 c p2 d l, p = p1 ++ c :: p2 /\ holds (heap fl) (q ++ p1 ++ [c]) (ADset d) l /\ groups_made (q ++ p1) (heap fl) h')).
Proof.
  induction p as [|c p IH]; intros k loc s fl q ls G Z E Sh W L K.
  - exists s, (heap fl). split; [now apply changed_refl|]. split; [exact Sh|]. left. split; [reflexivity|]. rewrite app_nil_r. split; [apply made_refl; eauto|]. eauto.
  - inversion G as [|c' p' Gc G']; subst. rewrite zlen_cons in K. pose proof (zlen_nonneg p) as Zp. cbn [spelled]. rewrite group_loop_part by apply Gc. cbn [group_loop]. rewrite Ascii.eqb_refl, app_nil_r, rev_involutive.
    rewrite (bind_step _ _ _ _ _ (file_of_ok _ _ _ _ _ Z E)). cbn zeta. cbn [fst snd]. rewrite (create_part _ _ _ _ Gc).
    assert (forall s1 h1 g l1, update f fl h1 s = Go tt s1 -> changed f (writable fl) h1 s s1 -> gopen h1 loc c = Some g -> shape h1 -> groups_made (q ++ [c]) (heap fl) h1 -> walk h1 0 (q ++ [c]) = Some g -> links_of h1 g = Some l1 ->
      exists s' h', changed f (writable fl) h' s s' /\ shape h' /\
      (((let! _ := update f fl h1 in let! g := of_option (gopen h1 loc c) in if MAX_NEST <? k + 1 then wild else group_loop id (spelled p) [] g (k + 1)) s = Go tt s' /\ groups_made (q ++ c :: p) (heap fl) h' /\ (exists a l, walk h' 0 (q ++ c :: p) = Some a /\ links_of h' a = Some l)) \/
       ((let! _ := update f fl h1 in let! g := of_option (gopen h1 loc c) in if MAX_NEST <? k + 1 then wild else group_loop id (spelled p) [] g (k + 1)) s = Stop s' /\ exists p1 c0 p2 d l, c :: p = p1 ++ c0 :: p2 /\ holds (heap fl) (q ++ p1 ++ [c0]) (ADset d) l /\ groups_made (q ++ p1) (heap fl) h'))) as GO.
    { intros s1 h1 g l1 U Ch Go Sh1 Md W1 L1. destruct (changed_lib _ _ _ _ _ Ch) as [Lib _]. destruct Ch as [On E1].
      destruct (IH (k + 1) g s1 {| heap := h1; writable := writable fl |} (q ++ [c]) l1 G' ltac:(now rewrite Lib) E1 Sh1 W1 L1 ltac:(lia)) as (s' & h' & Ch' & Sh' & R). cbn [writable] in Ch'. cbn [heap] in R.
      exists s', h'. split; [eapply changed_trans; [exact (conj On E1)|exact Ch']|]. split; [exact Sh'|].
      rewrite (bind_step _ _ _ _ _ U). rewrite Go. cbn [of_option]. rewrite (bind_step _ _ _ g s1) by reflexivity. replace (MAX_NEST <? k + 1) with false by (unfold MAX_NEST; lia).
      rewrite <- !app_assoc in R. cbn [app] in R. destruct R as [(R1 & R2 & R3)|(R1 & p1 & c0 & p2 & d & l & R2 & R3 & R4)].
      - left. split; [exact R1|]. split; [|exact R3]. eapply made_trans; [apply Sh1| |exact Md|exact R2]. exists p. now rewrite <- app_assoc.
      - right. split; [exact R1|]. exists (c :: p1), c0, p2, d, l. split; [now rewrite R2|]. rewrite <- !app_assoc in R3, R4. cbn [app] in R3, R4. split.
        + apply Md in R3 as [R3|(_ & _ & C & _)]; [exact R3|discriminate].
        + eapply made_trans; [apply Sh1| |exact Md|exact R4]. exists p1. now rewrite <- app_assoc. }
    destruct (assoc c ls) as [b|] eqn:A.
    + assert (add_link (heap fl) loc c (Group []) = None) as ->. { unfold add_link. apply links_of_some in L as (o & E0 & O0). now rewrite E0, O0, A. }
      assert (walk (heap fl) 0 (q ++ [c]) = Some b) as Wb by (apply walk_snoc; eauto). assert (gopen (heap fl) loc c = match links_of (heap fl) b with Some _ => Some b | None => None end) as Go. { rewrite (gopen_part _ _ _ Gc). cbn [walk]. now rewrite L, A. }
      destruct (update_changed f fl (heap fl) s E) as (s1 & U & Ch). destruct (links_of (heap fl) b) as [l1|] eqn:Lb.
      * eapply GO; eauto. apply made_refl; eauto.
      * exists s1, (heap fl). split; [exact Ch|]. split; [exact Sh|]. right. rewrite (bind_step _ _ _ _ _ U), Go. split; [reflexivity|]. pose proof (walk_in _ _ (proj1 Sh) _ Wb) as Lt. apply nth_error_Some in Lt.
        destruct (nth_error (heap fl) b) as [o|] eqn:Eo; [|contradiction]. unfold links_of in Lb. rewrite Eo in Lb. destruct (o_node o) as [|d] eqn:O; [discriminate|].
        exists [], c, p, d, (o_attrs o). split; [reflexivity|]. cbn [app]. split; [|rewrite app_nil_r; apply made_refl; eauto]. apply holds_walk; [apply Sh|]. exists b, o. rewrite O. auto.
    + destruct (add_link (heap fl) loc c (Group [])) as [h1|] eqn:AL.
      * destruct (made_one _ _ _ _ _ Sh AL W) as (Md & Sh1 & W1 & L1). destruct (update_changed f fl h1 s E) as (s1 & U & Ch). eapply GO; eauto. rewrite (gopen_part _ _ _ Gc).
        assert (walk h1 loc [c] = Some (List.length (heap fl))) as ->; [|now rewrite L1]. rewrite walk_app in W1. rewrite (grows_walk _ _ _ (grows_add_link _ _ _ _ _ AL) _ _ W) in W1. exact W1.
      * exfalso. unfold add_link in AL. apply links_of_some in L as (o & E0 & O0). rewrite E0, O0, A in AL. discriminate.
Qed.
Lemma root_group h : sound h -> exists l, links_of h 0 = Some l.
Proof. intros [(o & l & E & O) _]. exists l. apply links_of_some. eauto. Qed.
Lemma create_group_spec h s x f rw fl n p : 1 <= h <= nfilemax -> nth_error (slots s) (Z.to_nat (h - 1)) = Some x -> s_ro x = false -> zassoc (s_id x) (lib s) = Some (f, rw) -> assoc f (disk s) = Some fl -> shape (heap fl) ->
  names n p -> (List.length (spell p) <= 255)%nat -> (List.length p <= 10)%nat ->
  exists s' h', changed f (writable fl) h' s s' /\ shape h' /\
    ((create_group h n s = Go tt s' /\ groups_made p (heap fl) h' /\ (exists a l, walk h' 0 p = Some a /\ links_of h' a = Some l)) \/
     (create_group h n s = Stop s' /\ exists p1 c p2 d l, p = p1 ++ c :: p2 /\ holds (heap fl) (p1 ++ [c]) (ADset d) l /\ groups_made p1 (heap fl) h')).
Proof.
  intros R N RO Z E Sh Nn Ls Lp. unfold create_group. rewrite (bind_step _ _ _ _ _ (slot_of_ok _ _ _ R N)). rewrite RO. cbn [negb]. rewrite (bind_step _ _ _ tt s) by reflexivity. cbn zeta.
  assert (p <> [] /\ Forall good_part p) as [Np G] by (destruct Nn as (A & B & _); auto).
  assert (match fit 256 n with c :: r => if Ascii.eqb c slash then r else fit 256 n | [] => fit 256 n end = spell p) as ->.
  { destruct (names_fit 256 n p Nn ltac:(lia)) as [-> | ->]; [|now rewrite Ascii.eqb_refl]. pose proof (spell_first_slash p G) as F. destruct (spell p) as [|y t]; [reflexivity|]. cbn in F. destruct (Ascii.eqb_spec y slash); [contradiction|reflexivity]. }
  pose proof (last_slash_below (spell p) (spell_nonempty p Np G) (spell_last_slash p Np G)) as B. replace (last_slash (spell p) <? zlen (spell p)) with true by lia.
  replace (256 <=? zlen (spell p)) with false by (unfold zlen; lia). rewrite spelled_spell by exact Np. destruct (root_group _ (proj1 Sh)) as [l0 L0].
  exact (group_loop_spec (s_id x) f rw p 0 0%nat s fl [] l0 G Z E Sh eq_refl L0 ltac:(unfold zlen; lia)).
Qed.
Lemma below_dataset h q r a l d m : sound h -> walk h 0 (q ++ r) = Some a -> links_of h a = Some l -> holds h q (ADset d) m -> False.
Proof.
  intros S W L H. apply holds_walk in H as (b & o & A & E & K & _); [|exact S]. assert (links_of h b = None) as Lb. { unfold links_of. rewrite E. destruct (o_node o); [discriminate|reflexivity]. }
  rewrite walk_app, A in W. destruct r as [|c r]; cbn [walk] in W; [congruence|]. rewrite Lb in W. discriminate.
Qed.
Lemma calls_sound t : calm t -> forall c r, In (c, r) t -> sound_call c.
Proof. intros C c r I. eapply calm_sound_calls; eauto. Qed.
Lemma c90_group cv s0 t s h f fl n p : fresh s0 -> sound_files s0 -> tree_files s0 -> history cv s0 t s -> (forall c r, In (c, r) t -> sound_call c) -> current t h = Some (f, false) ->
  assoc f (disk s) = Some fl -> names n p -> (List.length (spell p) <= 255)%nat -> (List.length p <= 10)%nat ->
  match run cv (CGroup h n) s with
  | Go v s' => v = RNone /\ (forall q d l, prefix q p -> ~ holds (heap fl) q (ADset d) l) /\ others_same f s s' /\
      exists fl', assoc f (disk s') = Some fl' /\ writable fl' = writable fl /\ groups_made p (heap fl) (heap fl')
  | Stop s' => exists q c r d l, p = q ++ c :: r /\ holds (heap fl) (q ++ [c]) (ADset d) l /\ others_same f s s' /\
      exists fl', assoc f (disk s') = Some fl' /\ writable fl' = writable fl /\ groups_made q (heap fl) (heap fl')
  | Wild => False
  end.
Proof.
  intros F S0 T0 H SC Cu Ed Nn Ls Lp. pose proof (shape_history _ _ _ _ F S0 T0 H SC f fl Ed) as Sh. pose proof (inv_history _ _ _ _ F H) as I.
  destruct (current_slot _ _ _ _ _ I Cu) as (J & R & x & Hx & P & Q & Nm & Z). cbn [negb] in Z. cbn [run]. unfold fmap.
  destruct (create_group_spec h s x f true fl n p R Hx Q Z Ed Sh Nn Ls Lp) as (s' & h' & [On E'] & Sh' & [(G & Md & a & l & W & L)|(G & p1 & c & p2 & d & l & Ep & Hd & Md)]).
  - rewrite (bind_step _ _ _ _ _ G). split; [reflexivity|]. split; [|split; [exact (proj1 (proj2 (proj2 On)))|]].
    + intros q d m [r ->] Hq. eapply (below_dataset h' q r a l d m (proj1 Sh') W L). apply Md. now left.
    + eexists. split; [exact E'|]. split; [reflexivity|exact Md].
  - rewrite (bind_stop _ _ _ _ G). exists p1, c, p2, d, l. split; [exact Ep|]. split; [exact Hd|]. split; [exact (proj1 (proj2 (proj2 On)))|]. eexists. split; [exact E'|]. split; [reflexivity|exact Md].
Qed.

(** ** For concrete cases *)
Fixpoint nodupb (l : list str) : bool := match l with [] => true | c :: r => negb (existsb (str_eqb c) r) && nodupb r end.
Lemma nodupb_ok l : nodupb l = true -> NoDup l.
Proof.
  induction l as [|c r IH]; cbn; [constructor|]. intro H. apply andb_prop in H as [A B]. constructor; [|auto]. intro I. apply Bool.negb_true_iff in A.
  assert (existsb (str_eqb c) r = true) as C by (apply existsb_exists; exists c; split; [exact I|apply str_eqb_refl]). congruence.
Qed.
Definition sound_objb (n : nat) (o : obj) : bool :=
  match o_node o with
  | Group l => nodupb (map fst l) && forallb (fun e => (snd e <? n)%nat) l
  | Dset d => forallb (Z.leb 0) (d_dims d) && (zlen (d_data d) =? prod (d_dims d)) && (List.length (d_max d) =? List.length (d_dims d))%nat
  end && nodupb (map fst (o_attrs o)) && forallb (fun e => zlen (a_data (snd e)) =? prod (a_dims (snd e))) (o_attrs o).
Definition soundb (h : list obj) : bool := match h with o :: _ => match o_node o with Group _ => true | Dset _ => false end | [] => false end && forallb (sound_objb (List.length h)) h.
Lemma soundb_ok h : soundb h = true -> sound h.
Proof.
  unfold soundb. intro H. apply andb_prop in H as [A B]. split.
  - destruct h as [|o h]; [discriminate|]. destruct (o_node o) as [l|] eqn:O; [|discriminate]. exists o, l. auto.
  - apply Forall_forall. intros o Ho. rewrite forallb_forall in B. specialize (B o Ho). unfold sound_objb in B. apply andb_prop in B as [B B3]. apply andb_prop in B as [B1 B2]. split; [|split].
    + destruct (o_node o) as [l|d].
      * apply andb_prop in B1 as [C D]. split; [now apply nodupb_ok|]. apply Forall_forall. intros e He. rewrite forallb_forall in D. specialize (D e He). lia.
      * apply andb_prop in B1 as [C D]. apply andb_prop in C as [C E]. split; [|split; [unfold full; lia|lia]]. apply Forall_forall. intros z Hz. rewrite forallb_forall in C. specialize (C z Hz). lia.
    + now apply nodupb_ok.
    + apply Forall_forall. intros e He. rewrite forallb_forall in B3. specialize (B3 e He). unfold full. lia.
Qed.
Definition see (h : list obj) (p : list str) : option (thing * list (str * attr)) :=
  match walk h 0 p with Some a => match nth_error h a with Some o => Some (kind (o_node o), o_attrs o) | None => None end | None => None end.
Lemma see_holds h p x l : see h p = Some (x, l) -> holds h p x l.
Proof. unfold see. destruct (walk h 0 p) as [a|] eqn:W; [|discriminate]. destruct (nth_error h a) as [o|] eqn:E; [|discriminate]. intros [= <- <-]. exists a, o. split; [now apply walk_leads|]. auto. Qed.
Lemma see_nothing h p : soundb h = true -> see h p = None -> nothing_at h p.
Proof.
  intros S. apply soundb_ok in S. unfold see. destruct (walk h 0 p) as [a|] eqn:W; [|intros _; now apply nothing_walk]. pose proof (walk_in _ _ S _ W) as L. apply nth_error_Some in L. destruct (nth_error h a); [discriminate|contradiction].
Qed.
