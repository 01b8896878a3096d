(** The cache of memory mapped files. *)
From Verif.Base Require Import Prelude ListLemmas.
From Verif.Binary Require Import CacheModel.
From Coq Require Import ZifyBool ZifyNat.
Local Open Scope Z_scope.

Definition n_open (maps : list (Z * bool)) : Z := zlen (filter (fun e : Z * bool => snd e) maps).

Lemma nth_error_set_nth {A} : forall (l : list A) i j v, nth_error (set_nth l i v) j = if (i =? j)%nat then (if (i <? length l)%nat then Some v else None) else nth_error l j.
Proof.
  induction l as [|x l IH]; intros i j v.
  - destruct i, j; cbn; try reflexivity. destruct (i =? j)%nat; reflexivity.
  - destruct i as [|i], j as [|j]; cbn; try reflexivity. rewrite IH. reflexivity.
Qed.
Lemma close_len m maps : length (close_map m maps) = length maps.
Proof. unfold close_map. destruct (nth_error maps m) as [[f o]|]; [|reflexivity]. revert m. induction maps as [|x maps IH]; intros [|m]; cbn; try reflexivity. now rewrite IH. Qed.
Lemma close_nth m maps k : nth_error (close_map m maps) k = match nth_error maps k with Some (f, o) => Some (f, o && negb (m =? k)%nat) | None => None end.
Proof.
  unfold close_map. destruct (nth_error maps m) as [[f o]|] eqn:E.
  - rewrite nth_error_set_nth. destruct (Nat.eqb_spec m k) as [->|Hk].
    + rewrite E. assert (k < length maps)%nat as H by (apply nth_error_Some; congruence). apply Nat.ltb_lt in H. rewrite H. cbn. now rewrite andb_false_r.
    + destruct (nth_error maps k) as [[f' o']|]; [|reflexivity]. cbn. now rewrite andb_true_r.
  - destruct (nth_error maps k) as [[f' o']|] eqn:E'; [|reflexivity]. destruct (Nat.eqb_spec m k) as [->|Hk]; [congruence|]. cbn. now rewrite andb_true_r.
Qed.
Lemma close_open m maps k : is_open (close_map m maps) k = is_open maps k && negb (m =? k)%nat.
Proof. unfold is_open. rewrite close_nth. destruct (nth_error maps k) as [[f o]|]; reflexivity. Qed.

(** every open mapping is in the cache under its own name; all names in the cache differ *)
Record cinv (maxf : Z) (s : cstate) : Prop := {
  ci_open : forall m f, nth_error (c_maps s) m = Some (f, true) -> In (f, m) (c_cache s);
  ci_cache : forall f m, In (f, m) (c_cache s) -> exists o, nth_error (c_maps s) m = Some (f, o);
  ci_keys : NoDup (map fst (c_cache s));
  ci_dsets : forall d f m, nth_error (c_dsets s) d = Some (f, Some m) -> exists o, nth_error (c_maps s) m = Some (f, o);
  ci_size : zlen (c_cache s) <= maxf }.

Lemma find_key_In f c m : find_key f c = Some m -> In (f, m) c.
Proof. induction c as [|[f' m'] c IH]; cbn; [discriminate|]. destruct (Z.eqb_spec f f') as [->|]; [intro E; injection E as ->; now left | right; auto]. Qed.
Lemma find_key_none f c : find_key f c = None -> forall m, ~ In (f, m) c.
Proof. induction c as [|[f' m'] c IH]; cbn; [auto|]. destruct (Z.eqb_spec f f') as [|Hf]; [discriminate|]. intros H m [E|E]; [injection E as -> ->; contradiction | exact (IH H m E)]. Qed.
Lemma del_In f c e : In e (del_key f c) <-> In e c /\ fst e <> f.
Proof. unfold del_key. rewrite filter_In. split; intros [H1 H2]; (split; [exact H1|]); lia. Qed.
Lemma NoDup_filter_map (p : Z * nat -> bool) (c : list (Z * nat)) : NoDup (map fst c) -> NoDup (map fst (filter p c)).
Proof.
  induction c as [|e c IH]; cbn; [auto|]. intro H. apply NoDup_cons_iff in H. destruct H as [H1 H2]. destruct (p e); [|auto]. cbn. constructor; [|auto]. intro C. apply H1. apply in_map_iff in C. destruct C as (x & <- & Hx). apply filter_In in Hx. apply in_map. apply Hx.
Qed.
Lemma keys_inj (c : list (Z * nat)) f m m' : NoDup (map fst c) -> In (f, m) c -> In (f, m') c -> m = m'.
Proof.
  induction c as [|e c IH]; cbn; [contradiction|]. intro H. apply NoDup_cons_iff in H. destruct H as [H1 H2]. intros [E|E] [E'|E']; [congruence | | | auto].
  - subst e. contradiction H1. apply in_map_iff. exists (f, m'). auto.
  - subst e. contradiction H1. apply in_map_iff. exists (f, m). auto.
Qed.
Lemma filter_len_le {A} (p : A -> bool) l : (length (filter p l) <= length l)%nat.
Proof. induction l as [|x l IH]; cbn; [lia|]. destruct (p x); cbn; lia. Qed.
Lemma del_size f c m : In (f, m) c -> zlen (del_key f c) < zlen c.
Proof.
  unfold del_key, zlen. induction c as [|e c IH]; [contradiction|]. intros [->|H]; cbn [filter fst length].
  - rewrite Z.eqb_refl. cbn [negb]. pose proof (filter_len_le (fun e : Z * nat => negb (f =? fst e)) c). lia.
  - specialize (IH H). destruct (negb (f =? fst e)); cbn [length]; lia.
Qed.

Section Cache.
  Variable openable : Z -> bool.
  Variable maxf : Z.
  Hypothesis Hmax : 1 <= maxf.
  (** the part of the invariant kept while evicting *)
  Lemma evict_ok : forall cache maps,
    (forall m f, nth_error maps m = Some (f, true) -> In (f, m) cache) -> (forall f m, In (f, m) cache -> exists o, nth_error maps m = Some (f, o)) -> NoDup (map fst cache) ->
    exists cache' maps', evict maxf cache maps = (cache', maps', Ok tt) /\
      (forall m f, nth_error maps' m = Some (f, true) -> In (f, m) cache') /\ (forall f m, In (f, m) cache' -> exists o, nth_error maps' m = Some (f, o)) /\ NoDup (map fst cache') /\
      zlen cache' < maxf /\ length maps' = length maps /\ (forall m f o, nth_error maps m = Some (f, o) -> exists o', nth_error maps' m = Some (f, o')) /\ (forall e, In e cache' -> In e cache).
  Proof.
    induction cache as [|[f0 m0] cache IH]; intros maps H1 H2 H3; cbn [evict].
    - change (zlen (@nil (Z * nat))) with 0. replace (maxf <=? 0) with false by lia. exists [], maps. split; [reflexivity|]. do 4 (split; [first [assumption | change (zlen (@nil (Z * nat))) with 0; lia]|]). split; [reflexivity|]. split; [eauto | auto].
    - destruct (maxf <=? zlen ((f0, m0) :: cache)) eqn:E.
      + cbn [map fst] in H3. apply NoDup_cons_iff in H3. destruct H3 as [H3 H4]. destruct (IH (close_map m0 maps)) as (c' & m' & J1 & J2 & J3 & J4 & J5 & J6 & J7 & J8).
        * intros m f Hm. rewrite close_nth in Hm. destruct (nth_error maps m) as [[f' o]|] eqn:Em; [|discriminate]. injection Hm as -> Ho. apply andb_true_iff in Ho. destruct Ho as [-> Ho]. destruct (H1 m f Em) as [C|C]; [injection C as -> ->; rewrite Nat.eqb_refl in Ho; discriminate | exact C].
        * intros f m Hin. destruct (H2 f m (or_intror Hin)) as (o & Eo). rewrite close_nth, Eo. eauto.
        * exact H4.
        * exists c', m'. split; [exact J1|]. do 4 (split; [assumption|]). split; [rewrite J6; apply close_len|]. split; [|intros e He; right; auto]. intros m f o Em. apply (J7 m f (o && negb (m0 =? m)%nat)). now rewrite close_nth, Em.
      + exists ((f0, m0) :: cache), maps. split; [reflexivity|]. do 4 (split; [first [assumption | lia]|]). split; [reflexivity|]. split; [eauto | auto].
  Qed.
  Lemma close_inv m s : cinv maxf s -> cinv maxf {| c_maps := close_map m (c_maps s); c_dsets := c_dsets s; c_cache := c_cache s |}.
  Proof.
    intros [I1 I2 I3 I4 I5]. split; cbn [c_maps c_dsets c_cache]; try assumption.
    - intros k f Hk. rewrite close_nth in Hk. destruct (nth_error (c_maps s) k) as [[f' o]|] eqn:Ek; [|discriminate]. injection Hk as -> Ho. apply andb_true_iff in Ho. destruct Ho as [-> _]. now apply I1.
    - intros f k Hin. destruct (I2 f k Hin) as (o & Eo). rewrite close_nth, Eo. eauto.
    - intros d f k Hd. destruct (I4 d f k Hd) as (o & Eo). rewrite close_nth, Eo. eauto.
  Qed.
  Lemma mmap_spec s d fname file : cinv maxf s -> nth_error (c_dsets s) d = Some (fname, file) ->
    cinv maxf (fst (mmap_file openable maxf d s)) /\
    match snd (mmap_file openable maxf d s) with
    | Ok m => nth_error (c_maps (fst (mmap_file openable maxf d s))) m = Some (fname, true) /\ nth_error (c_dsets (fst (mmap_file openable maxf d s))) d = Some (fname, Some m)
    | Err e => openable fname = false /\ e = EIO
    end.
  Proof.
    intros I Hd. pose proof I as [I1 I2 I3 I4 I5]. unfold mmap_file. rewrite Hd. assert (d < length (c_dsets s))%nat as Hdl by (apply nth_error_Some; congruence).
    set (new := open_new openable maxf d fname s).
    assert (forall m, nth_error (c_maps s) m = Some (fname, true) -> let s' := {| c_maps := c_maps s; c_dsets := set_nth (c_dsets s) d (fname, Some m); c_cache := c_cache s |} in cinv maxf s' /\ nth_error (c_maps s') m = Some (fname, true) /\ nth_error (c_dsets s') d = Some (fname, Some m)) as Hpoint.
    { intros m Hm. cbn [c_maps c_dsets]. split; [|split; [exact Hm|]].
      - split; cbn [c_maps c_dsets c_cache]; try assumption. intros d' f m' Hd'. rewrite nth_error_set_nth in Hd'. destruct (Nat.eqb_spec d d') as [->|]; [|now apply (I4 d')]. destruct (_ <? _)%nat; [|discriminate]. injection Hd' as <- <-. eauto.
      - rewrite nth_error_set_nth, Nat.eqb_refl. apply Nat.ltb_lt in Hdl. now rewrite Hdl. }
    assert (forall cache, (forall m f, nth_error (c_maps s) m = Some (f, true) -> In (f, m) cache) -> (forall f m, In (f, m) cache -> In (f, m) (c_cache s)) -> NoDup (map fst cache) -> (forall m, ~ In (fname, m) cache) ->
      cinv maxf (fst (new cache)) /\ match snd (new cache) with Ok m => nth_error (c_maps (fst (new cache))) m = Some (fname, true) /\ nth_error (c_dsets (fst (new cache))) d = Some (fname, Some m) | Err e => openable fname = false /\ e = EIO end) as Hnew.
    { intros cache K1 K2 K3 K4. unfold new, open_new. destruct (evict_ok cache (c_maps s)) as (c' & m' & J1 & J2 & J3 & J4 & J5 & J6 & J7 & J8); [exact K1 | intros f m Hin; now apply I2, K2 | exact K3|]. rewrite J1. destruct (openable fname) eqn:Eo; cbn [fst snd].
      - split; [|split; [cbn [c_maps]; rewrite nth_error_app2, Nat.sub_diag by lia; reflexivity | cbn [c_dsets]; rewrite nth_error_set_nth, Nat.eqb_refl; apply Nat.ltb_lt in Hdl; now rewrite Hdl]].
        split; cbn [c_maps c_dsets c_cache].
        + intros m f Hm. apply in_or_app. destruct (Nat.ltb_spec m (length m')) as [Hlt|Hge]; [rewrite nth_error_app1 in Hm by lia; left; now apply J2|]. rewrite nth_error_app2 in Hm by lia. right. destruct (m - length m')%nat as [|k] eqn:Ek; [|destruct k; discriminate]. cbn in Hm. injection Hm as <-. left. f_equal. lia.
        + intros f m Hin. apply in_app_or in Hin. destruct Hin as [Hin|[Hin|[]]]; [destruct (J3 f m Hin) as (o & Em); exists o; rewrite nth_error_app1; [exact Em | apply nth_error_Some; congruence]|]. injection Hin as <- <-. exists true. rewrite nth_error_app2, Nat.sub_diag by lia. reflexivity.
        + rewrite map_app. cbn [map fst]. apply NoDup_Add with (a := fname) (l := map fst c'); [rewrite <- (app_nil_r (map fst c')) at 1; apply Add_app|]. split; [exact J4|]. intro C. apply in_map_iff in C. destruct C as ([f m] & E & Hin). cbn in E. subst f. exact (K4 m (J8 _ Hin)).
        + intros d' f m Hd'. rewrite nth_error_set_nth in Hd'. destruct (Nat.eqb_spec d d') as [->|].
          * destruct (_ <? _)%nat; [|discriminate]. injection Hd' as <- <-. exists true. rewrite nth_error_app2, Nat.sub_diag by lia. reflexivity.
          * destruct (I4 d' f m Hd') as (o & Em). destruct (J7 m f o Em) as (o' & Em'). exists o'. rewrite nth_error_app1; [exact Em' | apply nth_error_Some; congruence].
        + rewrite zlen_app. change (zlen [(fname, length m')]) with 1. lia.
      - split; [|auto]. split; cbn [c_maps c_dsets c_cache]; try assumption; [|lia]. intros d' f m Hd'. destruct (I4 d' f m Hd') as (o & Em). apply (J7 m f o Em). }
    destruct file as [m|].
    - destruct (is_open (c_maps s) m) eqn:Em.
      + cbn [fst snd]. split; [exact I|]. split; [|exact Hd]. destruct (I4 d fname m Hd) as (o & Eo). unfold is_open in Em. rewrite Eo in Em. now subst o.
      + destruct (find_key fname (c_cache s)) as [m1|] eqn:Ek.
        * apply find_key_In in Ek. destruct (I2 _ _ Ek) as (o & Eo). destruct (is_open (c_maps s) m1) eqn:Em1; [cbn [fst snd]; apply Hpoint; unfold is_open in Em1; rewrite Eo in Em1; now subst o|].
          apply Hnew; [| | |].
          -- intros k f Hk. apply del_In. split; [now apply I1|]. cbn. intros ->. assert (k = m1) as -> by (apply (keys_inj _ fname _ _ I3 (I1 _ _ Hk) Ek)). unfold is_open in Em1. rewrite Hk in Em1. discriminate.
          -- intros f k Hin. apply del_In in Hin. apply Hin.
          -- now apply NoDup_filter_map.
          -- intros k Hin. apply del_In in Hin. destruct Hin as [_ C]. now apply C.
        * apply Hnew; [exact I1 | auto | exact I3 | now apply find_key_none].
    - destruct (find_key fname (c_cache s)) as [m1|] eqn:Ek.
      + apply find_key_In in Ek. destruct (I2 _ _ Ek) as (o & Eo). destruct (is_open (c_maps s) m1) eqn:Em1; [cbn [fst snd]; apply Hpoint; unfold is_open in Em1; rewrite Eo in Em1; now subst o|].
        apply Hnew; [| | |].
        * intros k f Hk. apply del_In. split; [now apply I1|]. cbn. intros ->. assert (k = m1) as -> by (apply (keys_inj _ fname _ _ I3 (I1 _ _ Hk) Ek)). unfold is_open in Em1. rewrite Hk in Em1. discriminate.
        * intros f k Hin. apply del_In in Hin. apply Hin.
        * now apply NoDup_filter_map.
        * intros k Hin. apply del_In in Hin. destruct Hin as [_ C]. now apply C.
      + apply Hnew; [exact I1 | auto | exact I3 | now apply find_key_none].
  Qed.
  Lemma step_inv s o : cinv maxf s -> cinv maxf (run_cop openable maxf s o).
  Proof.
    intro I. destruct o as [d|d|f|d|m]; cbn [run_cop].
    - destruct (nth_error (c_dsets s) d) as [[fname file]|] eqn:E; [now apply (mmap_spec s d fname file)|]. unfold mmap_file. rewrite E. exact I.
    - destruct (nth_error (c_dsets s) d) as [[fname [m|]]|]; try exact I. now apply close_inv.
    - destruct I as [I1 I2 I3 I4 I5]. split; cbn [c_maps c_dsets c_cache]; try assumption. intros d f' m Hd. destruct (Nat.ltb_spec d (length (c_dsets s))) as [Hlt|Hge]; [rewrite nth_error_app1 in Hd by lia; now apply (I4 d)|]. rewrite nth_error_app2 in Hd by lia. destruct (d - length (c_dsets s))%nat as [|k]; [discriminate | destruct k; discriminate].
    - destruct (nth_error (c_dsets s) d) as [[fname file]|] eqn:E; [|exact I]. destruct I as [I1 I2 I3 I4 I5]. split; cbn [c_maps c_dsets c_cache]; try assumption. intros d' f' m Hd. rewrite nth_error_set_nth in Hd. destruct (d =? d')%nat; [destruct (_ <? _)%nat; discriminate | now apply (I4 d')].
    - destruct (existsb _ _); [exact I | now apply close_inv].
  Qed.
  Lemma run_inv ops : forall s, cinv maxf s -> cinv maxf (run_cops openable maxf ops s).
  Proof. induction ops as [|o ops IH]; intros s I; [exact I|]. cbn [run_cops fold_left]. apply IH. now apply step_inv. Qed.
  Lemma init_inv : cinv maxf no_files.
  Proof. split; cbn; try contradiction; try (intros [|?] ? E; discriminate E); try (intros [|?] ? ? E; discriminate E); [constructor | unfold zlen; cbn; lia]. Qed.
  (** the open mappings are at most as many as the entries of the cache *)
  Lemma open_bound maps : forall (base : nat) (cache : list nat), NoDup cache -> (forall k f, nth_error maps k = Some (f, true) -> In (base + k)%nat cache) -> n_open maps <= zlen cache.
  Proof.
    intros base cache Hnd H. set (idx := map fst (filter (fun p : nat * (Z * bool) => snd (snd p)) (combine (seq base (length maps)) maps))).
    assert (n_open maps = zlen idx) as ->. { unfold n_open, idx, zlen. rewrite map_length. f_equal. clear. revert base. induction maps as [|[f o] maps IH]; intro base; [reflexivity|]. cbn [length seq combine filter snd]. destruct o; cbn [length]; now rewrite (IH (S base)). }
    assert (NoDup idx) as Hn. { unfold idx. clear. revert base. induction maps as [|[f o] maps IH]; intro base; [constructor|]. cbn [length seq combine filter snd]. destruct o; [|apply IH]. cbn [map fst]. constructor; [|apply IH]. intro C. apply in_map_iff in C. destruct C as ([a b] & E & Hin). apply filter_In in Hin. destruct Hin as [Hin _]. apply in_combine_l in Hin. apply in_seq in Hin. cbn in E. lia. }
    assert (incl idx cache) as Hincl. { intros x Hx. unfold idx in Hx. apply in_map_iff in Hx. destruct Hx as ([a [f o]] & E & Hin). cbn in E. subst a. apply filter_In in Hin. destruct Hin as [Hin Ho]. cbn in Ho. subst o. apply In_nth_error in Hin. destruct Hin as (k & Hk).
      assert (nth_error maps k = Some (f, true) /\ x = (base + k)%nat) as [E1 ->]; [|now apply (H k f)]. revert Hk. clear. revert base k. induction maps as [|e maps IH]; intros base [|k] Hk; try discriminate; cbn [length seq combine nth_error] in *; [injection Hk as -> ->; split; [reflexivity | lia]|]. destruct (IH (S base) k Hk) as [-> ->]. split; [reflexivity | lia]. }
    unfold zlen. apply inj_le. now apply NoDup_incl_length.
  Qed.
  Lemma n_open_bound s : cinv maxf s -> n_open (c_maps s) <= maxf.
  Proof.
    intros [I1 I2 I3 I4 I5]. assert (NoDup (map snd (c_cache s))) as Hnd.
    { clear I1 I4 I5. induction (c_cache s) as [|[f m] c IH]; [constructor|]. cbn [map fst snd] in *. apply NoDup_cons_iff in I3. destruct I3 as [I3 I3']. constructor; [|apply IH; [intros f' m' Hin; apply I2; now right | exact I3']]. intro C. apply in_map_iff in C. destruct C as ([f' m'] & E & Hin). cbn in E. subst m'.
      destruct (I2 f m (or_introl eq_refl)) as (o & E1). destruct (I2 f' m (or_intror Hin)) as (o' & E2). rewrite E1 in E2. injection E2 as <- <-. apply I3. apply in_map_iff. exists (f, m). auto. }
    pose proof (open_bound (c_maps s) 0 (map snd (c_cache s)) Hnd) as H. rewrite zlen_map in H. etransitivity; [apply H | exact I5]. intros k f Hk. apply in_map_iff. exists (f, k). split; [reflexivity|]. now apply I1.
  Qed.
  (** at most one open mapping of each file *)
  Lemma open_unique s m m' f : cinv maxf s -> nth_error (c_maps s) m = Some (f, true) -> nth_error (c_maps s) m' = Some (f, true) -> m = m'.
  Proof. intros I H H'. exact (keys_inj _ f _ _ (ci_keys _ _ I) (ci_open _ _ I _ _ H) (ci_open _ _ I _ _ H')). Qed.
End Cache.
