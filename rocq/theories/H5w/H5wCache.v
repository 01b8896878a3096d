(** Proofs about what holds after any calm sequence of calls: files are sound, and the dataset kept open for reading is the one its name leads to. *)
From Coq Require Import Ascii String.
From Verif Require Import Base.Prelude Base.ListLemmas Text.StrModel H5w.H5wModel H5w.H5wSpec H5w.H5wTable H5w.H5wFiles H5w.H5wArray H5w.H5wPath H5w.H5wHeap.
From Coq Require Import ZifyBool ZifyNat.
Local Open Scope Z_scope.
Local Open Scope list_scope.

Lemma calm_sound_calls t c r : In (c, r) t -> calm t -> sound_call c.
Proof. induction t as [|[c' r'] t IH]; [intros []|]. intros [E|I] [[S _] C]; [injection E as <- <-; exact S|auto]. Qed.

(** *** Soundness *)
Definition keeps_sound (h h' : list obj) : Prop := sound h -> sound h'.
Lemma ks_refl h : keeps_sound h h. Proof. intro H. exact H. Qed.
Lemma ks_trans a b c : keeps_sound a b -> keeps_sound b c -> keeps_sound a c. Proof. intros A B H. auto. Qed.
Lemma sound_arr_attr arr : sound_arr arr -> full (m_dims arr) (firstn (Z.to_nat (prod (m_dims arr))) (m_buf arr)).
Proof. intros [A B]. unfold full, zlen in *. rewrite firstn_length. pose proof (prod_nonneg _ A). lia. Qed.
Lemma attrs_left_ok ow h a nm : sound h -> NoDup (map fst (attrs_left ow h a nm)) /\ Forall (fun e => full (a_dims (snd e)) (a_data (snd e))) (attrs_left ow h a nm).
Proof.
  intro S. assert (NoDup (map fst (attrs_at h a)) /\ Forall (fun e => full (a_dims (snd e)) (a_data (snd e))) (attrs_at h a)) as [A B].
  { unfold attrs_at. destruct (nth_error h a) as [o|] eqn:E; [|split; constructor]. apply (sound_obj_at _ _ _ S E). }
  unfold attrs_left. destruct ow as [[]|]; auto. split; [now apply del_NoDup|]. apply Forall_forall. intros e He. apply del_incl in He. rewrite Forall_forall in B. auto.
Qed.
Lemma write_call_sound cv c h s x : handle_of c = Some h -> writes c = true -> sound_call c -> nth_error (slots s) (Z.to_nat (h - 1)) = Some x ->
  pres_at (via keeps_sound (s_id x)) s (run cv c).
Proof.
  intros Hh W S N. destruct c; cbn in Hh, W; try discriminate; injection Hh as ->; cbn [run]; apply fmap_pres.
  - apply via_create_group; try exact ks_refl; try exact ks_trans; try assumption. intros h0 loc nm h' E S0. eapply sound_create; eauto. exact sound_group.
  - apply via_write_data; try exact ks_refl; try exact ks_trans; try assumption.
    + intros h0 loc nm h' E S0. eapply sound_create; eauto. exact sound_group.
    + intros _ h0 a _ S0. now apply sound_unlink.
    + intros h0 h' d dims E1 E2 S0. eapply sound_create; eauto. apply sound_dset_node. eapply sound_new. exact E1.
    + intros h0 a d d' need E1 E2 E3 E4 S0. eapply sound_set_dset; eauto. eapply sound_extend; eauto. eapply sound_dset_at; eauto.
    + intros h0 a d b E1 E2 S0. eapply sound_set_dset; eauto. eapply sound_with_data; eauto. eapply sound_dset_at; eauto.
  - apply via_write_attribute; auto using ks_refl. intros h0 a nm. split.
    + intro S0. destruct (attrs_left_ok overwrite h0 a nm S0). now apply sound_set_attrs.
    + intros D A S0. destruct (attrs_left_ok overwrite h0 a nm S0) as [B C]. apply sound_set_attrs; auto.
      * rewrite map_app. apply NoDup_snoc; [exact B|]. now apply assoc_none.
      * apply Forall_app. split; [exact C|]. constructor; [|constructor]. cbn. now apply sound_arr_attr.
Qed.
Lemma write_call_grows cv c h s x : handle_of c = Some h -> writes c = true -> (match c with CWrite _ _ _ o => w_overwrite o <> Some true | _ => True end) ->
  nth_error (slots s) (Z.to_nat (h - 1)) = Some x -> pres_at (via grows (s_id x)) s (run cv c).
Proof.
  intros Hh W S N. destruct c; cbn in Hh, W; try discriminate; injection Hh as ->; cbn [run]; apply fmap_pres.
  - apply via_create_group; try exact grows_refl; try exact grows_trans; try assumption. intros. eapply grows_create; eauto.
  - apply via_write_data; try exact grows_refl; try exact grows_trans; try assumption; try (intro C; contradiction); intros; eauto using grows_create, grows_set_dset.
  - apply via_write_attribute; auto using grows_refl. intros h0 a nm. split; intros; apply grows_set_attrs.
Qed.
Lemma nonwriting_disk cv c h s : handle_of c = Some h -> plain_call c = true -> writes c = false -> pres_at reads s (run cv c).
Proof.
  intros _ Pl W. destruct c; cbn in Pl, W; try discriminate; cbn [run]; apply fmap_pres; try apply reads_read_data; apply reads_still;
    first [apply still_file_id | apply still_read_attribute | apply still_dims | apply still_type | apply still_members | apply still_attributes].
Qed.
Lemma close_disk cv t s h r s' : inv t s -> run cv (CClose h) s = Go r s' -> disk s' = disk s /\ exists f ro, current t h = Some (f, ro).
Proof.
  intros I E. cbn [run] in E. unfold fmap in E. apply bind_Go in E as (u & s1 & E1 & E2). injection E2 as <- <-. destruct (current t h) as [[f ro]|] eqn:C.
  - destruct (close_go _ _ _ _ _ I C) as (s2 & G & D & _). rewrite G in E1. injection E1 as _ <-. eauto.
  - destruct (close_closed _ _ _ I C) as [G|(s2 & G & _)]; congruence.
Qed.
(** what a writing call does to the files *)
Lemma write_call_files cv t s c h (P : list obj -> list obj -> Prop) : inv t s -> (forall x, P x x) -> handle_of c = Some h -> writes c = true ->
  (forall x, nth_error (slots s) (Z.to_nat (h - 1)) = Some x -> pres_at (via P (s_id x)) s (run cv c)) ->
  forall r s', run cv c s = Go r s' -> forall f d, assoc f (disk s) = Some d ->
    exists d', assoc f (disk s') = Some d' /\ (d' = d \/ (exists ro, current t h = Some (f, ro)) /\ P (heap d) (heap d')).
Proof.
  intros I R Hh W V r s' E f d Ef. assert (plain_call c = true) as Pl by (destruct c; try discriminate; reflexivity).
  pose proof (run_quiet cv c h s Hh Pl) as Q. unfold pres_at in Q. rewrite E in Q. destruct Q as [_ [D|(x & g & rw & Hx & Z & (_ & _ & O & _))]].
  - rewrite D. eauto.
  - destruct (list_eq_dec ascii_dec f g) as [->|N]; [|rewrite O by exact N; eauto].
    specialize (V x Hx). unfold pres_at in V. rewrite E in V. destruct V as (_ & _ & V). destruct (V g rw d Z Ef) as (d' & E' & _ & P'). exists d'. split; [exact E'|]. right. split; [|exact P'].
    destruct (current t h) as [[g' ro']|] eqn:C.
    + destruct (current_slot _ _ _ _ _ I C) as (_ & _ & y & Hy & _ & _ & _ & Z'). assert (y = x) by congruence. subst y. rewrite Z' in Z. injection Z as -> _. eauto.
    + exfalso. destruct (Z_le_dec 1 h) as [H1|H1]; [destruct (Z_le_dec h nfilemax) as [H2|H2]|].
      * destruct (closed_slot _ _ _ _ I C (conj H1 H2) Hx) as [ZN _]. congruence.
      * pose proof (slot_of_stop h s ltac:(lia)) as ST. destruct c; cbn in Hh, W; try discriminate; injection Hh as ->; cbn [run] in E; unfold fmap in E; apply bind_Go in E as (u & s1 & E1 & _).
        -- unfold create_group in E1. rewrite (bind_stop _ _ _ _ ST) in E1. discriminate.
        -- rewrite write_data_stop in E1 by (apply open_slot_stop; lia). discriminate.
        -- unfold write_attribute in E1. rewrite (bind_stop _ _ _ s) in E1 by (apply open_slot_stop; lia). discriminate.
      * pose proof (slot_of_stop h s ltac:(lia)) as ST. destruct c; cbn in Hh, W; try discriminate; injection Hh as ->; cbn [run] in E; unfold fmap in E; apply bind_Go in E as (u & s1 & E1 & _).
        -- unfold create_group in E1. rewrite (bind_stop _ _ _ _ ST) in E1. discriminate.
        -- rewrite write_data_stop in E1 by (apply open_slot_stop; lia). discriminate.
        -- unfold write_attribute in E1. rewrite (bind_stop _ _ _ s) in E1 by (apply open_slot_stop; lia). discriminate.
Qed.
Lemma sound_empty : sound (heap empty_file).
Proof. split; [do 2 eexists; split; reflexivity|]. constructor; [|constructor]. apply sound_group. Qed.
(** the files which are there stay, and only the writing calls add to them *)
Lemma files_back cv t s c r s' f d' : inv t s -> run cv c s = Go r s' -> assoc f (disk s') = Some d' ->
  (exists d, assoc f (disk s) = Some d) \/ d' = empty_file.
Proof.
  intros I E Ef. destruct (plain_call c) eqn:Pl.
  - assert (exists h, handle_of c = Some h) as [h Hh] by (destruct c; try discriminate; eexists; reflexivity).
    pose proof (run_quiet cv c h s Hh Pl) as Q. unfold pres_at in Q. rewrite E in Q. destruct Q as [_ [D|(x & g & rw & Hx & Z & (_ & _ & O & _))]].
    + rewrite D in Ef. eauto.
    + destruct (list_eq_dec ascii_dec f g) as [->|N]; [|rewrite O in Ef by exact N; eauto]. left. apply zassoc_In in Z. pose proof (i_disk _ _ I _ _ _ Z) as H. destruct (assoc g (disk s)); [eauto|contradiction].
  - destruct c; try discriminate.
    + pose proof (open_spec cv t s fname readonly I) as P. rewrite E in P. destruct P as (h & _ & _ & _ & D & _). rewrite D in Ef. eauto.
    + pose proof (create_spec cv t s fname I) as P. rewrite E in P. destruct P as (h & _ & _ & _ & D & _). rewrite D, assoc_put in Ef. destruct (str_eqb f (trim fname)); [right; congruence|eauto].
    + destruct (close_disk _ _ _ _ _ _ I E) as [D _]. rewrite D in Ef. eauto.
Qed.
Theorem sound_history cv s0 t s : fresh s0 -> sound_files s0 -> history cv s0 t s -> (forall c r, In (c, r) t -> sound_call c) -> sound_files s.
Proof.
  intros F S0 H. induction H as [|t s c r s' H IH E]; [auto|]. intro SC. assert (sound_files s) as S by (apply IH; intros; eapply SC; right; eauto).
  pose proof (inv_history _ _ _ _ F H) as I. pose proof (SC c r (or_introl eq_refl)) as Sc. intros f d' Ef.
  destruct (files_back _ _ _ _ _ _ _ _ I E Ef) as [[d Ed]| ->]; [|exact sound_empty].
  destruct (plain_call c) eqn:Pl.
  - assert (exists h, handle_of c = Some h) as [h Hh] by (destruct c; try discriminate; eexists; reflexivity). destruct (writes c) eqn:W.
    + destruct (write_call_files cv t s c h keeps_sound I ks_refl Hh W (fun x => write_call_sound cv c h s x Hh W Sc) r s' E f d Ed) as (d2 & E2 & K).
      assert (d2 = d') by congruence. subst d2. specialize (S f d Ed). destruct K as [->|[_ K]]; [exact S|]. now apply K.
    + pose proof (nonwriting_disk cv c h s Hh Pl W) as R. unfold pres_at in R. rewrite E in R. destruct R as [_ R]. rewrite R in Ef. exact (S f d' Ef).
  - destruct c; try discriminate.
    + pose proof (open_spec cv t s fname readonly I) as P. rewrite E in P. destruct P as (h & _ & _ & _ & D & _). rewrite D in Ef. exact (S f d' Ef).
    + pose proof (create_spec cv t s fname I) as P. rewrite E in P. destruct P as (h & _ & _ & _ & D & _). rewrite D, assoc_put in Ef.
      destruct (str_eqb f (trim fname)); [injection Ef as <-; exact sound_empty|exact (S f d' Ef)].
    + destruct (close_disk _ _ _ _ _ _ I E) as [D _]. rewrite D in Ef. exact (S f d' Ef).
Qed.

(** *** The dataset kept open *)
Lemma current_short t h f ro : calm t -> current t h = Some (f, ro) -> (List.length f <= 1000)%nat /\ hd "x"%char f <> " "%char /\ trim f = f.
Proof.
  assert (forall g, short g -> (List.length (trim g) <= 1000)%nat /\ hd "x"%char (trim g) <> " "%char /\ trim (trim g) = trim g) as K.
  { intros g [A B]. split; [exact A|]. split; [|apply trim_trim]. destruct (trim_split g) as [n E]. destruct (trim g) as [|x l]; [discriminate|]. rewrite E in B. exact B. }
  induction t as [|[c r] t IH]; [discriminate|]. intros [[_ C1] C2]. destruct c; cbn; auto.
  - destruct r as [k| | | | |]; auto. destruct (k =? h); [intros [= <- <-]; auto|auto].
  - destruct r as [k| | | | |]; auto. destruct (k =? h); [intros [= <- <-]; auto|auto].
  - destruct (ifile =? h); [discriminate|auto].
Qed.
Lemma fit_short f : (List.length f <= 1000)%nat -> trim f = f -> fit 1000 f = f.
Proof. intros L T. unfold fit. rewrite firstn_all2 by exact L. exact T. Qed.
Lemma strip_id f : hd "x"%char f <> " "%char -> trim f = f -> strip f = f.
Proof. intros A B. unfold strip. rewrite skip_blanks_id by exact A. exact B. Qed.
Definition coherent (t : list (call * result)) (s : wst) : Prop :=
  match kept t with
  | None => cached s = false
  | Some f => cached s = true /\ c_file s = f /\ (exists h ro, current t h = Some (f, ro)) /\
      exists a d p, c_id s = (f, a) /\ assoc f (disk s) = Some d /\ names (c_dset s) p /\ trim (c_dset s) = c_dset s /\ dopen (heap d) (c_dset s) = Some a
  end.
Lemma names_trim_names n p : names n p -> names (trim n) p.
Proof.
  intro H. pose proof (names_trim n p H) as [T _]. destruct H as (A & B & _). split; [exact A|]. split; [exact B|]. exists 0%nat. cbn. rewrite app_nil_r. exact T.
Qed.
Lemma dopen_trim h n : dopen h (trim n) = dopen h n.
Proof. unfold dopen, resolve. now rewrite trim_trim. Qed.
(** opening the dataset to be read *)
Lemma open_cached_spec cv s0 t s h f ro x n p d : fresh s0 -> history cv s0 t s -> calm t -> coherent t s -> current t h = Some (f, ro) ->
  nth_error (slots s) (Z.to_nat (h - 1)) = Some x -> assoc f (disk s) = Some d -> names n p -> (List.length (trim n) <= 1000)%nat ->
  match dopen (heap d) n with
  | Some a => exists s', open_cached x n s = Go (f, a) s' /\ reads s s' /\ cached s' = true /\ c_file s' = f /\ c_id s' = (f, a) /\ c_dset s' = trim n
  | None => exists s', open_cached x n s = Stop s' /\ reads s s'
  end.
Proof.
  intros F H C Co Cu Hx Ed Nn Ln. pose proof (inv_history _ _ _ _ F H) as I. destruct (current_slot _ _ _ _ _ I Cu) as (J & R & y & Hy & P & Q & Nm & Z).
  assert (y = x) by congruence. subst y. destruct (current_short _ _ _ _ C Cu) as (Fs & Ff & Ft). rewrite (fit_short f Fs Ft) in Nm.
  rewrite open_cached_cases.
  assert (forall s1, reads s s1 -> match dopen (heap d) n with
    | Some a => exists s', open_new x n s1 = Go (f, a) s' /\ reads s s' /\ cached s' = true /\ c_file s' = f /\ c_id s' = (f, a) /\ c_dset s' = trim n
    | None => exists s', open_new x n s1 = Stop s' /\ reads s s' end) as New.
  { intros s1 R1. assert (file_of (s_id x) s1 = Go (f, d) s1) as FO. { destruct R1 as ((L1 & _) & D1). apply (file_of_ok _ _ _ (negb ro)); rewrite ?L1, ?D1; auto. }
    unfold open_new. rewrite (bind_step _ _ _ _ _ FO). cbn [snd fst]. destruct (dopen (heap d) n) as [a|].
    - eexists. split; [reflexivity|]. split; [eapply reads_trans; [exact R1|]; repeat split|]. cbn [cached c_file c_id c_dset with_cache fst]. split; [reflexivity|]. split; [exact Nm|]. split; [reflexivity|]. apply fit_short; [exact Ln|apply trim_trim].
    - exists s1. split; [reflexivity|exact R1]. }
  destruct (cached s) eqn:Cs; cbn [andb]; [|apply New; apply reads_refl].
  unfold coherent in Co. destruct (kept t) as [g|] eqn:K; [|congruence]. destruct Co as (_ & Cf & (h' & ro' & Cg) & (a & d' & p' & Cid & Ed' & Nc & Tc & Dc)).
  destruct (current_short _ _ _ _ C Cg) as (Gs & Gf & Gt).
  destruct (same_dset x n s) eqn:SD.
  - unfold same_dset in SD. apply andb_prop in SD as [S1 S2]. apply str_eqb_eq in S1, S2. rewrite Nm, Cf in S1. rewrite (strip_id f Ff Ft), (strip_id g Gf Gt) in S1. subst g.
    rewrite (names_strip _ _ Nn), (names_strip _ _ Nc), Tc in S2. assert (d' = d) by congruence. subst d'. rewrite <- (dopen_trim (heap d) n), S2, Dc. exists s. split; [now rewrite Cid, <- S1|]. split; [apply reads_refl|]. repeat split; congruence.
  - apply New. repeat split.
Qed.

Theorem coherent_history cv s0 t s : fresh s0 -> history cv s0 t s -> calm t -> coherent t s.
Proof.
  intros F H. induction H as [|t s c r s' H IH E]; [intros _; apply F|]. intros [Cc Ct]. specialize (IH Ct). pose proof (inv_history _ _ _ _ F H) as I.
  destruct (is_read c) eqn:IR.
  - destruct c; try discriminate. destruct Cc as [_ [[p Nn] Ln]]. unfold coherent. cbn [kept]. cbn [run] in E. unfold fmap in E. apply bind_Go in E as (b & s1 & E1 & E2). injection E2 as <- <-.
    unfold read_data in E1. apply bind_Go in E1 as (u & s2 & E2 & E1). apply still_same in E2; [|apply still_require]. subst s2.
    apply bind_Go in E1 as (x & s2 & E2 & E1). apply open_slot_inv in E2 as (-> & R & Hx & P).
    apply bind_Go in E1 as (id & s2 & E2 & E1).
    assert (s1 = s2) as ->. { eapply (still_same _ s2 b s1); [|exact E1]. still_tac. }
    destruct (current t ifile) as [[f ro]|] eqn:C; cbn [option_map fst].
    + destruct (current_slot _ _ _ _ _ I C) as (J & _ & y & Hy & _ & _ & _ & Z). assert (y = x) by congruence. subst y.
      destruct (assoc f (disk s)) as [d|] eqn:Ed; [|exfalso; apply zassoc_In in Z; exact (i_disk _ _ I _ _ _ Z Ed)].
      pose proof (open_cached_spec cv s0 t s ifile f ro x name p d F H Ct IH C Hx Ed Nn Ln) as O. destruct (dopen (heap d) name) as [a|] eqn:DO.
      * destruct O as (s3 & O1 & (_ & O2) & O3 & O4 & O5 & O6). rewrite O1 in E2. injection E2 as <- <-. split; [exact O3|]. split; [exact O4|]. split.
        -- exists ifile, ro. exact C.
        -- exists a, d, p. rewrite O2, O6. split; [exact O5|]. split; [exact Ed|]. split; [now apply names_trim_names|]. split; [apply trim_trim|]. now rewrite dopen_trim.
      * destruct O as (s3 & O1 & _). congruence.
    + exfalso. destruct (dead_slot _ _ _ I (cache_history _ _ _ _ F H) C) as [O|(y & O & L & Cd & _)].
      * rewrite (open_slot_ok _ _ _ R Hx P) in O. discriminate.
      * rewrite (open_slot_ok _ _ _ R Hx P) in O. injection O as <-. rewrite open_cached_cases, Cd in E2. cbn [andb] in E2. rewrite open_new_dead in E2 by exact L. discriminate.
  - destruct (plain_call c) eqn:Pl.
    + (* calls which neither read nor open nor close *)
      assert (exists h, handle_of c = Some h) as [h Hh] by (destruct c; try discriminate; eexists; reflexivity).
      pose proof (run_cache cv c s Pl IR) as CS. unfold pres_at in CS. rewrite E in CS. destruct CS as (C1 & C2 & C3 & C4).
      assert (kept ((c, r) :: t) = kept t) as K by (destruct c; try discriminate; reflexivity).
      assert (forall k, current ((c, r) :: t) k = current t k) as CU by (intro k; destruct c; try discriminate; reflexivity).
      unfold coherent in *. rewrite K. destruct (kept t) as [f|] eqn:Kt; [|congruence]. destruct IH as (I1 & I2 & (h' & ro' & I3) & (a & d & p & I4 & I5 & I6 & I7 & I8)).
      rewrite C1, C2, C3, C4. split; [exact I1|]. split; [exact I2|]. split; [exists h', ro'; now rewrite CU|].
      destruct (writes c) eqn:W.
      * assert (exists d', assoc f (disk s') = Some d' /\ grows (heap d) (heap d')) as (d' & E' & G).
        { destruct (match c with CWrite _ _ _ o => match w_overwrite o with Some true => true | _ => false end | _ => false end) eqn:OV.
          - destruct c; try discriminate. destruct (w_overwrite o) as [[]|] eqn:OW; try discriminate. destruct Cc as [_ Cc].
            cbn in Hh. injection Hh as ->. destruct (write_call_files cv t s (CWrite h name arr o) h (fun _ _ => True) I (fun _ => Logic.I) eq_refl eq_refl) with (r := r) (s' := s') (f := f) (d := d) as (d' & E' & K'); auto.
            + intros x Hx. cbn [run]. apply fmap_pres. apply via_write_data; auto.
            + exists d'. split; [exact E'|]. destruct K' as [->|[[ro K'] _]]; [apply grows_refl|]. exfalso. apply (Cc OW f ro K'). exact Kt.
          - destruct (write_call_files cv t s c h grows I grows_refl Hh W) with (r := r) (s' := s') (f := f) (d := d) as (d' & E' & K'); auto.
            + intros x Hx. apply (write_call_grows cv c h s x Hh W); [|exact Hx]. destruct c; auto. intro C. rewrite C in OV. discriminate.
            + exists d'. split; [exact E'|]. destruct K' as [->|[_ K']]; [apply grows_refl|exact K']. }
        exists a, d', p. repeat (split; [assumption|]). eapply grows_dopen; eauto.
      * pose proof (nonwriting_disk cv c h s Hh Pl W) as R. unfold pres_at in R. rewrite E in R. destruct R as [_ R]. exists a, d, p. rewrite R. auto.
    + destruct c; try discriminate.
      * (* open *)
        pose proof (open_spec cv t s fname readonly I) as P. rewrite E in P. destruct P as (h & -> & LF & _ & D & _).
        assert (cache_same s s') as (C1 & C2 & C3 & C4).
        { cbn [run] in E. unfold fmap in E. apply bind_Go in E as (b & s1 & E1 & E2). injection E2 as <- <-. unfold open_file in E1. unfold fopen in E1.
          destruct (assoc _ _); [|discriminate]. destruct (_ && _); [discriminate|]. rewrite take_slot_spec in E1. destruct (free_slot _ _); [|discriminate]. injection E1 as _ <-.
          unfold init_tables. destruct (need_init s); repeat split. }
        unfold coherent in *. cbn [kept]. destruct (kept t) as [f|]; [|congruence]. destruct IH as (I1 & I2 & (h' & ro' & I3) & (a & d & p & I4 & I5 & I6 & I7 & I8)).
        rewrite C1, C2, C3, C4, D. split; [exact I1|]. split; [exact I2|]. split; [|exists a, d, p; auto]. exists h', ro'. cbn [current]. destruct (Z.eqb_spec h h') as [->|]; [|exact I3].
        destruct LF as (_ & LF & _). congruence.
      * (* create *)
        pose proof (create_spec cv t s fname I) as P. rewrite E in P. destruct P as (h & -> & LF & [CC _] & D & _).
        assert (cache_same s s') as (C1 & C2 & C3 & C4).
        { cbn [run] in E. unfold fmap in E. apply bind_Go in E as (b & s1 & E1 & E2). injection E2 as <- <-. unfold create_file in E1. unfold fcreate in E1.
          destruct (existsb _ _); [discriminate|]. destruct (match assoc _ _ with Some _ => _ | None => _ end); [discriminate|]. rewrite take_slot_spec in E1. destruct (free_slot _ _); [|discriminate]. injection E1 as _ <-.
          unfold init_tables. destruct (need_init s); repeat split. }
        unfold coherent in *. cbn [kept]. destruct (kept t) as [f|]; [|congruence]. destruct IH as (I1 & I2 & (h' & ro' & I3) & (a & d & p & I4 & I5 & I6 & I7 & I8)).
        rewrite C1, C2, C3, C4, D. split; [exact I1|]. split; [exact I2|]. split.
        -- exists h', ro'. cbn [current]. destruct (Z.eqb_spec h h') as [->|]; [|exact I3]. destruct LF as (_ & LF & _). congruence.
        -- exists a, d, p. split; [exact I4|]. split; [|auto]. rewrite assoc_put. destruct (str_eqb f (trim fname)) eqn:Q; [|exact I5]. apply str_eqb_eq in Q. exfalso. rewrite Q in I3. exact (CC h' ro' I3).
      * (* close *)
        destruct (close_disk _ _ _ _ _ _ I E) as [D (g & rg & Cg)]. destruct (current_slot _ _ _ _ _ I Cg) as (J & R & x & Hx & P & Q & Nm & Z).
        destruct (current_short _ _ _ _ Ct Cg) as (Gs & Gf & Gt). rewrite (fit_short g Gs Gt) in Nm.
        cbn [run] in E. unfold fmap in E. apply bind_Go in E as (b & s1 & E1 & E2). injection E2 as <- <-. unfold close_file in E1.
        rewrite (bind_step _ _ _ _ _ (open_slot_ok _ _ _ R Hx P)) in E1.
        unfold coherent in *. cbn [kept current]. rewrite Cg. destruct (kept t) as [f|] eqn:Kt.
        -- destruct IH as (I1 & I2 & (h' & ro' & I3) & (a & d & p & I4 & I5 & I6 & I7 & I8)). rewrite I1, I2, Nm in E1. cbn [andb] in E1.
           destruct (str_eqb g f) eqn:Q2.
           ++ apply str_eqb_eq in Q2. rewrite Q2, str_eqb_refl. unfold fclose in E1. cbn [lib with_cache] in E1. rewrite Z in E1. injection E1 as _ <-. reflexivity.
           ++ assert (str_eqb f g = false) as -> by (apply str_eqb_neq; apply str_eqb_neq in Q2; congruence). unfold fclose in E1. rewrite Z in E1. injection E1 as _ <-.
              cbn [cached c_file c_id c_dset disk with_slots with_lib]. split; [exact I1|]. split; [exact I2|]. split; [|exists a, d, p; auto].
              exists h', ro'. destruct (Z.eqb_spec ifile h') as [->|]; [|exact I3]. apply str_eqb_neq in Q2. congruence.
        -- rewrite IH in E1. cbn [andb] in E1. unfold fclose in E1. rewrite Z in E1. injection E1 as _ <-. exact IH.
Qed.
