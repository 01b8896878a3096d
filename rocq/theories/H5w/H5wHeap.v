(** What the routines which write do to the objects of a file. *)
From Coq Require Import Ascii String.
From Verif Require Import Base.Prelude Base.ListLemmas Text.StrModel H5w.H5wModel H5w.H5wSpec H5w.H5wTable H5w.H5wArray H5w.H5wPath.
From Coq Require Import ZifyBool ZifyNat.
Local Open Scope Z_scope.
Local Open Scope list_scope.

Definition with_data (d : dset) (b : list elt) : dset := {| d_ty := d_ty d; d_dims := d_dims d; d_max := d_max d; d_chunked := d_chunked d; d_data := b |}.

  Lemma need_dims dims st ct : zlen dims <= zlen st -> zlen dims <= zlen ct ->
    let need := zipwith Z.max dims (zipwith (fun a b => a + b - 1) (firstn (List.length dims) st) (firstn (List.length dims) ct)) in
    List.length need = List.length dims /\ Forall2 Z.le dims need.
  Proof.
    revert st ct. induction dims as [|d dims IH]; intros [|x st] [|y ct] A B; rewrite ?zlen_cons in *; try (change (@zlen Z []) with 0 in * );
      try (pose proof (zlen_nonneg dims); lia); cbn; repeat split; try constructor.
    all: destruct (IH st ct ltac:(lia) ltac:(lia)) as [C D]; cbn in C, D; auto; lia.
  Qed.
  Lemma transfer_length {A} (f : A -> A) src dst a b r : transfer f src dst a b = Some (Some r) -> List.length r = List.length b.
  Proof. unfold transfer. destruct (negb _); [discriminate|]. destruct (_ && _); [|discriminate]. intros [= <-]. apply scatter_length. Qed.

Lemma none_go {A} s (a : A) s1 : of_option None s = Go a s1 -> False.
Proof. discriminate. Qed.
Section Via.
  Context (P : list obj -> list obj -> Prop) (P_refl : forall h, P h h) (P_trans : forall a b c, P a b -> P b c -> P a c).
  Definition via (id : Z) (s s' : wst) : Prop :=
    lib s' = lib s /\ slots s' = slots s /\
    forall f rw d, zassoc id (lib s) = Some (f, rw) -> assoc f (disk s) = Some d -> exists d', assoc f (disk s') = Some d' /\ writable d' = writable d /\ P (heap d) (heap d').
  Lemma via_refl id s : via id s s.
  Proof using P_refl. split; [reflexivity|]. split; [reflexivity|]. intros f rw d _ E. exists d. auto. Qed.
  Lemma via_trans id a b c : via id a b -> via id b c -> via id a c.
  Proof using P_trans.
    intros (L & S & A) (L' & S' & B). split; [congruence|]. split; [congruence|]. intros f rw d Z E. destruct (A f rw d Z E) as (d1 & E1 & W1 & P1).
    rewrite <- L in Z. destruct (B f rw d1 Z E1) as (d2 & E2 & W2 & P2). exists d2. split; [exact E2|]. split; [congruence|eauto].
  Qed.
  Lemma via_bind {A B} id s (m : M A) (k : A -> M B) : pres_at (via id) s m -> (forall a s1, m s = Go a s1 -> pres_at (via id) s1 (k a)) -> pres_at (via id) s (mbind m k).
  Proof using P_trans. apply pres_bind. apply via_trans. Qed.
  Lemma via_still {A} id s (m : M A) : still m -> pres_at (via id) s m.
  Proof using P_refl. apply still_pres. apply via_refl. Qed.
  Lemma via_update id s nf s1 h : file_of id s = Go nf s1 -> P (heap (snd nf)) h -> pres_at (via id) s (update (fst nf) (snd nf) h).
  Proof using.
    intros E H. apply file_of_inv in E as (_ & rw & L & D). unfold pres_at, update. split; [reflexivity|]. split; [reflexivity|]. intros f rw' d Z E. rewrite L in Z. injection Z as <- <-.
    rewrite D in E. injection E as <-. eexists. cbn. rewrite assoc_put, str_eqb_refl. repeat split. exact H.
  Qed.

  (** hdf5_create_group *)
  Context (CG : forall h loc name h', create_at h loc name (Group []) = Some h' -> P h h').
  Lemma via_group_loop id rest : forall acc loc n s, pres_at (via id) s (group_loop id rest acc loc n).
  Proof using P_refl P_trans CG.
    induction rest as [|c r IH]; intros acc loc n s; cbn [group_loop]; [apply via_still, still_ret|].
    destruct (Ascii.eqb c slash); [|apply IH].
    apply via_bind; [apply via_still, still_file|]. intros nf s1 E. pose proof (still_same _ _ _ _ (still_file id) E). subst s1. cbn zeta.
    apply via_bind.
    { eapply via_update; [exact E|]. destruct (create_at _ loc _ _) eqn:C; [eapply CG; exact C|apply P_refl]. }
    intros u s2 E2. apply via_bind; [apply via_still, still_option|]. intros g s3 E3. destruct (MAX_NEST <? n + 1); [exact I|]. apply IH.
  Qed.
  Lemma via_create_group h name s x : nth_error (slots s) (Z.to_nat (h - 1)) = Some x -> pres_at (via (s_id x)) s (create_group h name).
  Proof using P_refl P_trans CG.
    intro N. unfold create_group. apply via_bind; [apply via_still, still_slot|]. intros y s1 E. apply slot_of_inv in E as (-> & _ & E).
    assert (y = x) as -> by congruence. apply via_bind; [apply via_still, still_require|]. intros u s2 E2. cbn zeta.
    destruct (_ <? _); [destruct (256 <=? _); [exact I|]|]; apply via_group_loop.
  Qed.

  (** hdf5_write_data *)
  Context (name : str) (arr : marr) (o : wopts) (ndims := write_ndims (t_class (m_ty arr)) (List.length (m_dims arr))).
  Context (UN : w_overwrite o = Some true -> forall h a, dopen h name = Some a -> P h (unlink h name))
    (CD : forall h h' d dims, new_dset o (m_ty arr) dims ndims = Some d -> create_at h 0 name (Dset d) = Some h' -> P h h')
    (EX : forall h a d d' need, dset_at h a = Some d -> List.length need = List.length (d_dims d) -> Forall2 Z.le (d_dims d) need -> extend d need = Some d' -> P h (set_dset h a d'))
    (DA : forall h a d b, dset_at h a = Some d -> List.length b = List.length (d_data d) -> P h (set_dset h a (with_data d b))).
  Lemma via_write_data h s x : nth_error (slots s) (Z.to_nat (h - 1)) = Some x -> pres_at (via (s_id x)) s (write_data h name arr o).
  Proof using P_refl P_trans CG UN CD EX DA.
    intro N. unfold write_data. apply via_bind; [apply via_still, still_require|]. intros u s1 E. apply still_same in E; [|apply still_require]. subst s1.
    apply via_bind; [apply via_still, still_open|]. intros y s1 E. apply open_slot_inv in E as (-> & _ & E & _). assert (y = x) as -> by congruence.
    apply via_bind; [apply via_still, still_require|]. intros u1 s1 E1. apply still_same in E1; [|apply still_require]. subst s1.
    apply via_bind; [apply via_still, still_require|]. intros u2 s1 E1. apply still_same in E1; [|apply still_require]. subst s1.
    apply via_bind. { destruct (w_chunk o) as [l|]; [destruct (7 <? zlen l)|]; first [exact I | apply via_still, still_ret]. }
    intros u3 s1 E1. assert (s1 = s). { destruct (w_chunk o) as [l|]; [destruct (7 <? zlen l)|]; now inversion E1. } subst s1. clear E1.
    apply via_bind; [apply via_still, still_file|]. intros nf s1 Ef. pose proof (still_same _ _ _ _ (still_file _) Ef). subst s1.
    cbn zeta. match goal with |- pres_at _ _ (mbind ?m _) => assert (pres_at (via (s_id x)) s m) as V1 end.
    { destruct (dopen _ _) as [a0|] eqn:DO; [destruct (w_overwrite o) as [[]|] eqn:OV|]; try (apply via_still, still_ret). apply via_bind; [|intros; apply via_still, still_ret].
      eapply via_update; [exact Ef|]. eapply UN; eauto. }
    apply via_bind; [exact V1|].
    intros opened s1 E1. unfold pres_at in V1. rewrite E1 in V1. destruct V1 as (_ & S1 & _). assert (nth_error (slots s1) (Z.to_nat (h - 1)) = Some x) as N1 by now rewrite S1.
    apply via_bind.
    { destruct opened as [a|].
      - apply via_bind; [apply via_still, still_file|]. intros nf2 s2 E2. pose proof (still_same _ _ _ _ (still_file _) E2). subst s2.
        destruct (dset_at _ _) as [d|] eqn:DD; [|apply via_bind; [apply via_still, still_option|]; intros ? ? C; exact (False_rect _ (none_go _ _ _ C))].
        apply via_bind; [apply via_still, still_option|]. intros d0 s2 E3. pose proof E3 as E3'. apply still_same in E3; [|apply still_option]. subst s2. injection E3' as <-.
        apply via_bind; [apply via_still, still_require|]. intros v s2 E3. apply still_same in E3; [|apply still_require]. subst s2.
        apply via_bind; [apply via_still, still_require|]. intros v2 s2 E3. apply still_same in E3; [|apply still_require]. subst s2.
        destruct (w_start o) as [st|]; [|apply via_still, still_abort]. destruct (w_count o) as [ct|]; [|apply via_still, still_abort].
        apply via_bind; [apply via_still, still_require|]. intros v3 s2 E3. pose proof E3 as E3'. apply still_same in E3; [|apply still_require]. subst s2.
        unfold require in E3'. destruct ((_ <=? _) && (_ <=? _)) eqn:LL; [|discriminate]. apply andb_prop in LL as [LL1 LL2].
        destruct (need_dims (d_dims d) st ct ltac:(lia) ltac:(lia)) as [ND1 ND2].
        apply via_bind; [|intros; apply via_still, still_ret]. destruct (existsb _ _); [|apply via_still, still_ret].
        destruct (extend d _) as [d'|] eqn:ED; [|apply via_bind; [apply via_still, still_option|]; intros ? ? C; exact (False_rect _ (none_go _ _ _ C))].
        apply via_bind; [apply via_still, still_option|]. intros d1 s2 E3. pose proof E3 as E3''. apply still_same in E3; [|apply still_option]. subst s2. injection E3'' as <-.
        eapply via_update; [exact E2|]. eapply EX; eauto.
      - apply via_bind.
        { destruct (1 <? last_slash name); [|apply via_still, still_ret]. apply via_bind; [apply via_still, still_file|]. intros nf2 s2 E2. apply still_same in E2; [|apply still_file]. subst s2.
          destruct (gopen _ _ _); [apply via_still, still_ret|]. now apply via_create_group. }
        intros v s2 E2.
        apply via_bind; [apply via_still; still_tac|]. intros fd s3 E3.
        destruct (new_dset _ _ _ _) as [d|] eqn:ND; [|apply via_bind; [apply via_still, still_option|]; intros ? ? C; exact (False_rect _ (none_go _ _ _ C))].
        apply via_bind; [apply via_still, still_option|]. intros d0 s4 E4. pose proof E4 as E4'. apply still_same in E4; [|apply still_option]. subst s4. injection E4' as <-.
        apply via_bind; [apply via_still, still_file|]. intros nf2 s4 E4. pose proof (still_same _ _ _ _ (still_file _) E4). subst s4.
        destruct (create_at (heap (snd nf2)) 0 name (Dset d)) as [hh|] eqn:CR; [|apply via_bind; [apply via_still, still_option|]; intros ? ? C; exact (False_rect _ (none_go _ _ _ C))].
        apply via_bind; [apply via_still, still_option|]. intros hh0 s4 E5. pose proof E5 as E5'. apply still_same in E5; [|apply still_option]. subst s4. injection E5' as <-.
        apply via_bind; [|intros; apply via_still, still_option]. eapply via_update; [exact E4|]. exact (CD _ _ _ _ ND CR). }
    intros a s2 _. apply via_bind; [apply via_still, still_file|]. intros nf2 s3 E2. pose proof (still_same _ _ _ _ (still_file _) E2). subst s3.
    destruct (dset_at _ _) as [d|] eqn:DD; [|apply via_bind; [apply via_still, still_option|]; intros ? ? C; exact (False_rect _ (none_go _ _ _ C))].
    apply via_bind; [apply via_still, still_option|]. intros d0 s3 E3. pose proof E3 as E3'. apply still_same in E3; [|apply still_option]. subst s3. injection E3' as <-.
    apply via_bind; [apply via_still, still_require|]. intros v s3 E3. apply still_same in E3; [|apply still_require]. subst s3.
    apply via_bind; [apply via_still, still_require|]. intros v2 s3 E3. apply still_same in E3; [|apply still_require]. subst s3.
    apply via_bind; [apply via_still, still_option|]. intros ms s3 E3. apply still_same in E3; [|apply still_option]. subst s3.
    apply via_bind; [apply via_still, still_option|]. intros fs s3 E3. apply still_same in E3; [|apply still_option]. subst s3.
    destruct (transfer _ _ _ _ _) as [[b|]|] eqn:TR; [|exact I|apply via_still, still_abort]. eapply via_update; [exact E2|]. fold (with_data d b). apply DA; [exact DD|].
    eapply transfer_length. exact TR.
  Qed.
End Via.

(** hdf5_write_attribute *)
Section ViaAttr.
  Context (P : list obj -> list obj -> Prop) (P_refl : forall h, P h h).
  Context (arr : marr) (overwrite : option bool).
  Definition attrs_left (h : list obj) (a : nat) (nm : str) : list (str * attr) := match overwrite with Some true => del nm (attrs_at h a) | _ => attrs_at h a end.
  Definition new_attr : attr := {| a_ty := m_ty arr; a_dims := m_dims arr; a_data := firstn (Z.to_nat (prod (m_dims arr))) (m_buf arr) |}.
  Context (SA : forall h a nm, P h (set_attrs h a (attrs_left h a nm)) /\ (Forall (fun x => 0 <= x) (m_dims arr) -> assoc nm (attrs_left h a nm) = None -> P h (set_attrs h a (attrs_left h a nm ++ [(nm, new_attr)])))).
  Lemma via_write_attribute h name s x : nth_error (slots s) (Z.to_nat (h - 1)) = Some x -> pres_at (via P (s_id x)) s (write_attribute h name arr overwrite).
  Proof using P_refl SA.
    intro N. unfold pres_at. assert (forall (Q : Prop), via P (s_id x) s s) as R by (intros _; now apply via_refl). specialize (R True).
    unfold write_attribute. destruct (open_slot h s) as [y s1|s1|] eqn:O.
    2: { rewrite (bind_stop _ _ _ _ O). pose proof (still_open h s) as S. rewrite O in S. now subst. }
    2: { unfold mbind at 1. now rewrite O. }
    rewrite (bind_step _ _ _ _ _ O). apply open_slot_inv in O as (-> & _ & E & _). assert (y = x) as -> by congruence.
    destruct (s_ro x); [exact R|]. cbn [negb]. rewrite (bind_step _ _ _ tt s) by reflexivity.
    destruct (file_of (s_id x) s) as [nf s1|s1|] eqn:F.
    2: { rewrite (bind_stop _ _ _ _ F). pose proof (still_file (s_id x) s) as S. rewrite F in S. now subst. }
    2: { unfold mbind at 1. now rewrite F. }
    rewrite (bind_step _ _ _ _ _ F). apply file_of_inv in F as (-> & rw & L & D).
    destruct (attr_place 256 (heap (snd nf)) name) as [[a nm]|]; [|exact R]. cbn [of_option]. rewrite (bind_step _ _ _ (a, nm) s) by reflexivity.
    destruct (forallb (Z.leb 0) (m_dims arr)) eqn:DP; [|exact R]. rewrite (bind_step _ _ _ tt s) by reflexivity. cbn [fst snd]. cbn zeta.
    fold (attrs_left (heap (snd nf)) a nm). fold new_attr. destruct (SA (heap (snd nf)) a nm) as [S1 S2].
    assert (Forall (fun x => 0 <= x) (m_dims arr)) as DP'. { apply Forall_forall. intros z Hz. rewrite forallb_forall in DP. specialize (DP z Hz). lia. }
    specialize (S2 DP').
    assert (forall d1 l1 n1 hh, P (heap (snd nf)) hh -> via P (s_id x) s (with_lib (with_lib s (put (fst nf) d1 (disk s)) l1 n1) (put (fst nf) {| heap := hh; writable := writable (snd nf) |} (put (fst nf) d1 (disk s))) (lib s) n1)) as K.
    { intros d1 l1 n1 hh Hh. split; [reflexivity|]. split; [reflexivity|]. intros f rw' d Z Ed. rewrite L in Z. injection Z as <- <-. rewrite D in Ed. injection Ed as <-.
      eexists. cbn. rewrite assoc_put, str_eqb_refl. repeat split. exact Hh. }
    assert (via P (s_id x) s (with_lib s (put (fst nf) {| heap := set_attrs (heap (snd nf)) a (attrs_left (heap (snd nf)) a nm); writable := writable (snd nf) |} (disk s)) (lib s) (next s))) as K1.
    { split; [reflexivity|]. split; [reflexivity|]. intros f rw' d Z Ed. rewrite L in Z. injection Z as <- <-. rewrite D in Ed. injection Ed as <-.
      eexists. cbn. rewrite assoc_put, str_eqb_refl. repeat split. exact S1. }
    unfold mbind, update, require, ret, abort. destruct nm as [|ch nm]; [exact K1|]. destruct (assoc (ch :: nm) _) eqn:AS; [exact K1|]. apply K. auto.
  Qed.
End ViaAttr.

(** ** Links are kept *)
Definition grows (h h' : list obj) : Prop :=
  forall a o, nth_error h a = Some o -> exists o', nth_error h' a = Some o' /\
    match o_node o, o_node o' with Group l, Group l' => forall c b, assoc c l = Some b -> assoc c l' = Some b | Dset _, Dset _ => True | _, _ => False end.
Lemma grows_refl h : grows h h.
Proof. intros a o E. exists o. split; [exact E|]. destruct (o_node o); auto. Qed.
Lemma grows_trans x y z : grows x y -> grows y z -> grows x z.
Proof.
  intros A B a o E. destruct (A a o E) as (o1 & E1 & H1). destruct (B a o1 E1) as (o2 & E2 & H2). exists o2. split; [exact E2|].
  destruct (o_node o), (o_node o1), (o_node o2); auto; contradiction.
Qed.
Lemma grows_set h a o o' : nth_error h a = Some o -> match o_node o, o_node o' with Group l, Group l' => forall c b, assoc c l = Some b -> assoc c l' = Some b | Dset _, Dset _ => True | _, _ => False end ->
  forall more, grows h (set_nth h a o' ++ more).
Proof.
  intros E H more b q Eq. assert (b < List.length h)%nat as Lb by (apply nth_error_Some; congruence). rewrite nth_error_app1 by now rewrite set_nth_length.
  destruct (Nat.eq_dec b a) as [->|N].
  - exists o'. assert (q = o) as -> by congruence. split; [now apply nth_error_set_nth_eq|exact H].
  - exists q. rewrite nth_error_set_nth_neq by congruence. split; [exact Eq|]. destruct (o_node q); auto.
Qed.
Lemma assoc_app {A} c (l m : list (str * A)) : assoc c (l ++ m) = match assoc c l with Some v => Some v | None => assoc c m end.
Proof. induction l as [|[k v] l IH]; cbn; [reflexivity|]. destruct (str_eqb c k); [reflexivity|exact IH]. Qed.
Lemma grows_add_link h a c n h' : add_link h a c n = Some h' -> grows h h'.
Proof.
  unfold add_link. destruct (nth_error h a) as [o|] eqn:E; [|discriminate]. destruct (o_node o) as [l|] eqn:O; [|discriminate]. destruct (assoc c l) eqn:A; [discriminate|]. intros [= <-].
  eapply grows_set; [exact E|]. rewrite O. cbn. intros c' b H. now rewrite assoc_app, H.
Qed.
Lemma create_at_add h a name n h' : create_at h a name n = Some h' ->
  exists p c b, steps (trim name) = p ++ [c] /\ walk h a p = Some b /\ add_link h b c n = Some h' /\ trim name <> [].
Proof.
  unfold create_at. destruct (trim name) as [|x t] eqn:T; [discriminate|]. rewrite <- T. destruct (rev (steps (trim name))) as [|c r] eqn:R; [discriminate|].
  destruct (walk h a (rev r)) as [b|] eqn:W; [|discriminate]. intro H. exists (rev r), c, b. split.
  - rewrite <- (rev_involutive (steps (trim name))), R. reflexivity.
  - repeat split; auto. rewrite T. discriminate.
Qed.
Lemma grows_create h a name n h' : create_at h a name n = Some h' -> grows h h'.
Proof. intro H. apply create_at_add in H as (p & c & b & _ & _ & H & _). eapply grows_add_link. exact H. Qed.
Lemma set_nth_app_nil {A} (l : list A) a x : set_nth l a x = set_nth l a x ++ [].
Proof. now rewrite app_nil_r. Qed.
Lemma grows_set_dset h a d d' : dset_at h a = Some d -> grows h (set_dset h a d').
Proof.
  intro H. apply dset_at_some in H as (o & E & O). unfold set_dset. rewrite E. rewrite set_nth_app_nil. eapply grows_set; [exact E|]. rewrite O. exact I.
Qed.
Lemma grows_set_attrs h a l : grows h (set_attrs h a l).
Proof.
  unfold set_attrs. destruct (nth_error h a) as [o|] eqn:E; [|apply grows_refl]. rewrite set_nth_app_nil. eapply grows_set; [exact E|]. cbn. destruct (o_node o); auto.
Qed.
Lemma grows_walk h h' p : grows h h' -> forall a z, walk h a p = Some z -> walk h' a p = Some z.
Proof.
  intro G. induction p as [|c p IH]; intros a z; [auto|]. cbn [walk]. destruct (links_of h a) as [l|] eqn:L; [|discriminate]. apply links_of_some in L as (o & E & O).
  destruct (G a o E) as (o' & E' & H). rewrite O in H. destruct (o_node o') as [l'|] eqn:O'; [|contradiction]. unfold links_of. rewrite E', O'.
  destruct (assoc c l) as [b|] eqn:A; [|discriminate]. rewrite (H c b A). apply IH.
Qed.
Lemma grows_dset h h' a : grows h h' -> dset_at h a <> None -> dset_at h' a <> None.
Proof.
  intros G. unfold dset_at. destruct (nth_error h a) as [o|] eqn:E; [|contradiction]. destruct (G a o E) as (o' & -> & H). destruct (o_node o), (o_node o'); auto; try contradiction. discriminate.
Qed.
Lemma grows_dopen h h' n a : grows h h' -> dopen h n = Some a -> dopen h' n = Some a.
Proof.
  intros G. unfold dopen, resolve. destruct (trim n) eqn:T; [discriminate|]. destruct (walk h 0 _) as [b|] eqn:W; [|discriminate]. rewrite (grows_walk _ _ _ G _ _ W).
  destruct (dset_at h b) eqn:D; [|discriminate]. intros [= ->]. pose proof (grows_dset _ _ a G ltac:(congruence)). destruct (dset_at h' a); [reflexivity|contradiction].
Qed.

(** ** Files stay sound *)
Lemma sound_obj_more n m o : (n <= m)%nat -> sound_obj n o -> sound_obj m o.
Proof.
  intros L [A B]. split; [|exact B]. destruct (o_node o); [|exact A]. destruct A as [A1 A2]. split; [exact A1|]. eapply Forall_impl; [|exact A2]. cbn. lia.
Qed.
Lemma sound_set h a o o' more : sound h -> nth_error h a = Some o -> sound_obj (List.length h + List.length more) o' -> Forall (sound_obj (List.length h + List.length more)) more ->
  (match o_node o with Group _ => exists l, o_node o' = Group l | Dset _ => True end) -> sound (set_nth h a o' ++ more).
Proof.
  intros [(r & l & R & RO) S] E S1 S2 K. split.
  - destruct (Nat.eq_dec a 0) as [->|N].
    + assert (o = r) by congruence. subst o. rewrite RO in K. destruct K as [l' K]. exists o', l'. rewrite nth_error_app1 by (rewrite set_nth_length; apply nth_error_Some; congruence).
      split; [apply nth_error_set_nth_eq; apply nth_error_Some; congruence|exact K].
    + exists r, l. rewrite nth_error_app1 by (rewrite set_nth_length; apply nth_error_Some; congruence). rewrite nth_error_set_nth_neq by congruence. auto.
  - rewrite app_length, set_nth_length. apply Forall_app. split; [|exact S2]. apply Forall_forall. intros q Hq. apply In_nth_error in Hq as [n Hn].
    destruct (Nat.eq_dec n a) as [->|N].
    + rewrite nth_error_set_nth_eq in Hn by (apply nth_error_Some; congruence). injection Hn as <-. exact S1.
    + rewrite nth_error_set_nth_neq in Hn by congruence. rewrite Forall_forall in S. apply nth_error_In in Hn. specialize (S q Hn). eapply sound_obj_more; [|exact S]. lia.
Qed.
Lemma sound_obj_at h a o : sound h -> nth_error h a = Some o -> sound_obj (List.length h) o.
Proof. intros [_ S] E. rewrite Forall_forall in S. apply S. eapply nth_error_In. exact E. Qed.
Lemma NoDup_snoc {A} (l : list A) x : NoDup l -> ~ In x l -> NoDup (l ++ [x]).
Proof. intros N H. apply NoDup_app_intro; auto; [repeat constructor; auto|]. intros y Hy [<-|[]]. contradiction. Qed.
Definition sound_node (n : node) : Prop := forall k, sound_obj k {| o_node := n; o_attrs := [] |}.
Lemma sound_add_link h a c n h' : sound h -> sound_node n -> add_link h a c n = Some h' -> sound h'.
Proof.
  intros S Sn. unfold add_link. destruct (nth_error h a) as [o|] eqn:E; [|discriminate]. destruct (o_node o) as [l|] eqn:O; [|discriminate]. destruct (assoc c l) eqn:A; [discriminate|]. intros [= <-].
  pose proof (sound_obj_at _ _ _ S E) as [So1 So2]. rewrite O in So1. destruct So1 as [N F]. eapply sound_set; [exact S|exact E| | |].
  - split; [|exact So2]. cbn [o_node length]. split.
    + rewrite map_app. apply NoDup_snoc; [exact N|]. now apply assoc_none.
    + apply Forall_app. split; [eapply Forall_impl; [|exact F]; cbn; lia|]. constructor; [cbn; lia|constructor].
  - constructor; [apply Sn|constructor].
  - rewrite O. cbn. eauto.
Qed.
Lemma sound_create h a name n h' : sound h -> sound_node n -> create_at h a name n = Some h' -> sound h'.
Proof. intros S Sn H. apply create_at_add in H as (p & c & b & _ & _ & H & _). eapply sound_add_link; eauto. Qed.
Lemma sound_group : sound_node (Group []).
Proof. intro k. repeat split; cbn; constructor. Qed.
Definition sound_dset (d : dset) : Prop := Forall (fun x => 0 <= x) (d_dims d) /\ full (d_dims d) (d_data d) /\ List.length (d_max d) = List.length (d_dims d).
Lemma sound_dset_node d : sound_dset d -> sound_node (Dset d).
Proof. intros S k. split; [exact S|]. split; constructor. Qed.
Lemma sound_set_dset h a d d' : sound h -> dset_at h a = Some d -> sound_dset d' -> sound (set_dset h a d').
Proof.
  intros S H Sd. apply dset_at_some in H as (o & E & O). unfold set_dset. rewrite E. rewrite set_nth_app_nil. eapply sound_set; [exact S|exact E| |constructor|now rewrite O].
  pose proof (sound_obj_at _ _ _ S E) as [_ So2]. split; [exact Sd|exact So2].
Qed.
Lemma sound_dset_at h a d : sound h -> dset_at h a = Some d -> sound_dset d.
Proof. intros S H. apply dset_at_some in H as (o & E & O). pose proof (sound_obj_at _ _ _ S E) as [A _]. now rewrite O in A. Qed.
Lemma sound_set_attrs h a l : sound h -> NoDup (map fst l) -> Forall (fun e => full (a_dims (snd e)) (a_data (snd e))) l -> sound (set_attrs h a l).
Proof.
  intros S N F. unfold set_attrs. destruct (nth_error h a) as [o|] eqn:E; [|exact S]. rewrite set_nth_app_nil. eapply sound_set; [exact S|exact E| |constructor|].
  - pose proof (sound_obj_at _ _ _ S E) as [A _]. split; [|split; assumption]. cbn. rewrite Nat.add_0_r. exact A.
  - cbn. destruct (o_node o); eauto.
Qed.
Lemma del_incl {A} k (l : list (str * A)) e : In e (del k l) -> In e l.
Proof. induction l as [|[k' v] l IH]; cbn; [auto|]. destruct (str_eqb k k'); [now right|]. intros [H|H]; auto. Qed.
Lemma del_NoDup {A} k (l : list (str * A)) : NoDup (map fst l) -> NoDup (map fst (del k l)).
Proof.
  induction l as [|[k' v] l IH]; cbn; [auto|]. intro N. apply NoDup_cons_iff in N as [N1 N2]. destruct (str_eqb k k'); [exact N2|]. cbn. constructor; [|auto].
  intro H. apply N1. apply in_map_iff in H as (e & E & H). apply in_map_iff. exists e. split; [exact E|]. eapply del_incl. exact H.
Qed.
Lemma sound_unlink h name : sound h -> sound (unlink h name).
Proof.
  intro S. unfold unlink. destruct (rev _) as [|c r]; [exact S|]. destruct (walk h 0 (rev r)) as [b|]; [|exact S]. destruct (nth_error h b) as [o|] eqn:E; [|exact S].
  destruct (o_node o) as [l|] eqn:O; [|exact S]. rewrite set_nth_app_nil. eapply sound_set; [exact S|exact E| |constructor|cbn; rewrite O; eauto].
  pose proof (sound_obj_at _ _ _ S E) as [A B]. rewrite O in A. destruct A as [A1 A2]. split; [|exact B]. cbn. split; [now apply del_NoDup|].
  apply Forall_forall. intros e He. apply del_incl in He. rewrite Forall_forall in A2. specialize (A2 e He). lia.
Qed.
Lemma sound_new o t dims n d : new_dset o t dims n = Some d -> sound_dset d.
Proof.
  unfold new_dset. destruct (negb (forallb (Z.leb 0) dims)) eqn:E; [discriminate|]. destruct (_ && _); [discriminate|]. intros [= <-].
  assert (Forall (fun x => 0 <= x) dims) as F. { apply Forall_forall. intros x Hx. apply Bool.negb_false_iff in E. rewrite forallb_forall in E. specialize (E x Hx). lia. }
  split; [exact F|]. cbn. split; [|apply map_length]. unfold full. cbn. unfold zlen. rewrite repeat_length. pose proof (prod_nonneg _ F). lia.
Qed.
Lemma sound_extend d dims d' : sound_dset d -> List.length dims = List.length (d_dims d) -> Forall2 Z.le (d_dims d) dims -> extend d dims = Some d' -> sound_dset d'.
Proof.
  intros (A & B & C) L F. unfold extend. destruct (_ && _); [|discriminate]. intros [= <-]. cbn.
  assert (Forall (fun x => 0 <= x) dims) as D. { clear -A F. induction F; [constructor|]. inversion A; subst. constructor; [lia|auto]. }
  split; [exact D|]. cbn. split; [|lia]. unfold full. cbn. rewrite zlen_map. now apply box_len.
Qed.
Lemma sound_with_data d b : sound_dset d -> List.length b = List.length (d_data d) -> sound_dset (with_data d b).
Proof. intros (A & B & C) L. split; [exact A|]. split; [|exact C]. unfold full, zlen in *. cbn. lia. Qed.
