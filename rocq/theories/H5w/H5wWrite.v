(** Proofs about writing datasets. *)
From Coq Require Import Ascii String.
From Verif Require Import Base.Prelude Base.ListLemmas Text.StrModel H5w.H5wModel H5w.H5wSpec H5w.H5wTable H5w.H5wFiles H5w.H5wArray H5w.H5wPath H5w.H5wHeap H5w.H5wCache H5w.H5wRead H5w.H5wView H5w.H5wGroup.
From Coq Require Import ZifyBool ZifyNat.
Local Open Scope Z_scope.
Local Open Scope list_scope.

(** ** Elements *)
(** the routine once the dataset [a] is there *)
Definition write_core (id : Z) (arr : marr) (o : wopts) (array_dims : list Z) (a : nat) : M unit :=
  let! nf := file_of id in
  let! d := of_option (dset_at (heap (snd nf)) a) in
  let rank := List.length (d_dims d) in
  let select_dims := match w_start o, w_count o with Some _, Some ct => firstn rank ct | _, _ => d_dims d end in
  let eff_select := eff select_dims in
  let eff_array := eff array_dims in
  require (zlen eff_array =? zlen eff_select) ;;
  require (fits eff_array eff_select) ;;
  let pad_dims := spread select_dims eff_array in
  let start := match w_start o, w_count o with Some st, Some _ => map (fun z => z - 1) (firstn rank st) | _, _ => map (fun _ => 0) (d_dims d) end in
  let! msel := of_option (if 0 <? zlen (d_dims d) then sel_slab pad_dims (map (fun _ => 0) pad_dims) select_dims else sel_all pad_dims) in
  let! fsel := of_option (if 0 <? zlen (d_dims d) then sel_slab (d_dims d) start select_dims else sel_all (d_dims d)) in
  match transfer (conv (d_ty d)) msel fsel (m_buf arr) (d_data d) with
  | None => abort
  | Some None => wild
  | Some (Some b) =>
      update (fst nf) (snd nf) (set_dset (heap (snd nf)) a {| d_ty := d_ty d; d_dims := d_dims d; d_max := d_max d; d_chunked := d_chunked d; d_data := b |})
  end.
Lemma long_part dims st ct : long_enough (List.length dims) st ct -> List.length (fst (part dims st ct)) = List.length dims /\ List.length (snd (part dims st ct)) = List.length dims.
Proof.
  unfold long_enough, part. destruct st as [st|], ct as [ct|]; try contradiction; cbn.
  - intros (A & B). rewrite !firstn_length. lia.
  - intros _. now rewrite map_length.
Qed.
Lemma map_ones_zero (l : list Z) : map (fun _ => 0) l = map (fun z => z - 1) (map (fun _ : Z => 1) l).
Proof. rewrite map_map. apply map_ext. reflexivity. Qed.
Lemma write_core_spec id f rw fl arr o a d s : zassoc id (lib s) = Some (f, rw) -> assoc f (disk s) = Some fl -> dset_at (heap fl) a = Some d -> sound_dset d -> sound_arr arr -> positive (m_dims arr) ->
  long_enough (List.length (d_dims d)) (w_start o) (w_count o) -> let st := fst (part (d_dims d) (w_start o) (w_count o)) in let ct := snd (part (d_dims d) (w_start o) (w_count o)) in positive ct ->
  (exists s' b, write_core id arr o (m_dims arr) a s = Go tt s' /\ changed f (writable fl) (set_dset (heap fl) a (with_data d b)) s s' /\ List.length b = List.length (d_data d) /\ roomy (m_dims arr) ct /\ inside (d_dims d) st ct /\
     written arr st ct (fun k e => elem (d_dims d) (d_data d) k = Some e) (with_data d b)) \/
  (write_core id arr o (m_dims arr) a s = Stop s /\ ~ (roomy (m_dims arr) ct /\ inside (d_dims d) st ct)).
Proof.
  intros Z E D (Sd1 & Sd2 & Sd3) (Sa1 & Sa2) Pm LE st ct Pc. destruct (long_part _ _ _ LE) as [Ls Lc]. fold st in Ls. fold ct in Lc.
  unfold write_core. rewrite (bind_step _ _ _ _ _ (file_of_ok _ _ _ _ _ Z E)). cbn [fst snd]. rewrite D. cbn [of_option]. rewrite (bind_step _ _ _ d s) by reflexivity. cbn zeta.
  assert ((match w_start o, w_count o with Some _, Some ct => firstn (List.length (d_dims d)) ct | _, _ => d_dims d end) = ct) as -> by (unfold ct, part; destruct (w_start o), (w_count o); reflexivity).
  assert ((match w_start o, w_count o with Some st, Some _ => map (fun z => z - 1) (firstn (List.length (d_dims d)) st) | _, _ => map (fun _ => 0) (d_dims d) end) = map (fun z => z - 1) st) as ->.
  { unfold st, part. destruct (w_start o), (w_count o); try contradiction; cbn [fst]; auto using map_ones_zero. }
  destruct (zlen (eff (m_dims arr)) =? zlen (eff ct)) eqn:EL.
  2: { right. split; [reflexivity|]. intros [R _]. apply roomy_len in R. lia. }
  rewrite (bind_step _ _ _ tt s) by reflexivity.
  destruct (fits (eff (m_dims arr)) (eff ct)) eqn:FT.
  2: { right. split; [reflexivity|]. intros [R _]. apply fits_spec in R; [congruence|lia]. }
  rewrite (bind_step _ _ _ tt s) by reflexivity. apply fits_spec in FT; [|lia].
  destruct (memory_sel (m_dims arr) ct Pm Pc FT) as (M1 & M2 & M3 & M4 & M5 & M6 & M7). set (pad := spread ct (eff (m_dims arr))) in *.
  assert ((if 0 <? zlen (d_dims d) then sel_slab pad (map (fun _ => 0) pad) ct else sel_all pad) = Some (map (offset pad) (box ct))) as ->.
  { apply sel_mem; auto.
    - intros Q C. rewrite C in M2. cbn in M2. unfold zlen in Q. lia.
    - intro Q. assert (List.length ct = 0%nat) as L0 by (unfold zlen in Q; lia). destruct ct; [|discriminate]. destruct pad; [reflexivity|discriminate]. }
  cbn [of_option]. rewrite (bind_step _ _ _ (map (offset pad) (box ct)) s) by reflexivity.
  assert (match (if 0 <? zlen (d_dims d) then sel_slab (d_dims d) (map (fun z => z - 1) st) ct else sel_all (d_dims d)) with
          | Some l => inside (d_dims d) st ct /\ l = map (fun i => offset (d_dims d) (shifted st i)) (box ct) | None => ~ inside (d_dims d) st ct end) as SF.
  { destruct (0 <? zlen (d_dims d)) eqn:Q.
    - apply sel_file; auto. intro C. rewrite C in Q. discriminate.
    - assert (d_dims d = []) as DD by (apply zlen_zero; pose proof (zlen_nonneg (d_dims d)); lia). rewrite DD in *. destruct st; [|discriminate]. destruct ct; [|discriminate]. split; [constructor|reflexivity]. }
  destruct (if 0 <? zlen (d_dims d) then sel_slab (d_dims d) (map (fun z => z - 1) st) ct else sel_all (d_dims d)) as [fsel|].
  2: { right. split; [reflexivity|]. tauto. }
  destruct SF as [Ins ->]. cbn [of_option]. rewrite (bind_step _ _ _ (map (fun i => offset (d_dims d) (shifted st i)) (box ct)) s) by reflexivity.
  destruct (transfer_spec (conv (d_ty d)) (offset pad) (fun i => offset (d_dims d) (shifted st i)) (box ct) (m_buf arr) (d_data d)) as (b & T & T1 & T2 & T3).
  - intros i Hi. apply In_box in Hi. unfold full in Sa2. rewrite Sa2. auto.
  - intros i Hi. apply In_box in Hi. unfold full in Sd2. rewrite Sd2. apply offset_range. eapply shifted_in; eauto.
  - apply NoDup_box.
  - intros i i' Hi Hi' Q. apply In_box in Hi, Hi'. apply offset_inj in Q; try (eapply shifted_in; eauto). apply shifted_inj in Q; auto; apply index_length in Hi, Hi'; lia.
  - rewrite T. destruct (update_changed f fl (set_dset (heap fl) a (with_data d b)) s E) as (s' & U & Ch). left. exists s', b. split; [exact U|]. split; [exact Ch|]. split; [exact T1|]. split; [exact FT|]. split; [exact Ins|].
    split; [|split].
    + unfold full, zlen in *. cbn. lia.
    + intros i j Hp. destruct (T2 i) as (v & A & B); [apply In_box; apply Hp|]. exists v. split; [unfold elem; rewrite <- (M5 i j Hp); exact A|]. cbn [d_dims d_data d_ty with_data]. unfold elem. rewrite <- conv_as_type. exact B.
    + cbn [d_dims d_data with_data]. intros k e Hk N Old. rewrite <- Old. unfold elem. apply T3; [apply offset_range; exact Hk|]. intros i Hi Q. apply In_box in Hi.
      apply offset_inj in Q; [exact (N i Hi Q)| |exact Hk]. eapply shifted_in; eauto.
Qed.

(** ** New datasets *)
Definition chunked_new (o : wopts) (dims : list Z) : bool :=
  ((0 <? gzip_level o) || szip_on o || extensible_on o) && negb (List.length dims =? 0)%nat && forallb (Z.ltb 0) (zipwith Z.min dims (nchunk_max o)).
Lemma compressed_level o : compressed o <-> 0 < gzip_level o.
Proof.
  unfold compressed, gzip_level. destruct (w_gzip o) as [g|].
  - split; [intros (g' & [= <-] & A & B); destruct (9 <? g) eqn:C; lia|]. intro H. exists g. split; [reflexivity|]. destruct (9 <? g) eqn:C; lia.
  - split; [intros (g & C & _); discriminate|lia].
Qed.
Lemma filters_on o : ((0 <? gzip_level o) && (gzip_shuffle o || (gzip_level o <=? 9))) = (0 <? gzip_level o).
Proof. unfold gzip_level, gzip_shuffle. destruct (w_gzip o) as [g|]; [|reflexivity]. destruct (9 <? g) eqn:C; lia. Qed.
Lemma chunks_spec o dims : positive dims -> (List.length dims <= 7)%nat -> (forall l, w_chunk o = Some l -> (List.length l <= 7)%nat) ->
  (forallb (Z.ltb 0) (zipwith Z.min dims (nchunk_max o)) = true <-> good_chunks o (List.length dims)).
Proof.
  intros P L C. assert (forall m, (List.length dims <= List.length m)%nat -> (forallb (Z.ltb 0) (zipwith Z.min dims m) = true <-> Forall (fun c => 1 <= c) (firstn (List.length dims) m))) as K.
  { clear C L. induction P as [|d ds Hd P IH]; intros m Lm; [cbn; split; auto|]. destruct m as [|x m]; [cbn in Lm; lia|]. cbn [zipwith forallb List.length firstn]. cbn [List.length] in Lm.
    rewrite Bool.andb_true_iff, IH by lia. split; [intros [A B]; constructor; [lia|exact B]|]. intro H. inversion H; subst. split; [lia|assumption]. }
  rewrite K.
  - unfold good_chunks, nchunk_max. destruct (w_chunk o) as [l|] eqn:W.
    + specialize (C l eq_refl). rewrite firstn_app. split.
      * intros H l' [= <-]. now apply Forall_app in H.
      * intro H. apply Forall_app. split; [now apply H|]. rewrite firstn_repeat. apply Forall_forall. intros z Hz. apply repeat_spec in Hz. lia.
    + split; [discriminate|]. intros _. change (repeat 8192 7) with (repeat 8192 7%nat). rewrite firstn_repeat. apply Forall_forall. intros z Hz. apply repeat_spec in Hz. lia.
  - unfold nchunk_max. destruct (w_chunk o) as [l|]; rewrite ?app_length, ?repeat_length; lia.
Qed.
Lemma new_dset_spec o t dims : (List.length dims <= 7)%nat -> (forall l, w_chunk o = Some l -> (List.length l <= 7)%nat) ->
  match new_dset o t dims (List.length dims) with
  | Some d => d_ty d = t /\ d_dims d = dims /\ d_max d = map (fun x => if extensible_on o then None else Some x) dims /\ d_data d = repeat (fill t) (Z.to_nat (prod dims)) /\ (positive dims -> can_store o (List.length dims))
  | None => ~ (can_store o (List.length dims) /\ positive dims)
  end.
Proof.
  intros L C. unfold new_dset. rewrite filters_on. destruct (forallb (Z.leb 0) dims) eqn:NN; cbn [negb].
  2: { intros [_ P]. assert (forallb (Z.leb 0) dims = true); [|congruence]. apply forallb_forall. intros x Hx. unfold positive in P. rewrite Forall_forall in P. specialize (P x Hx). cbn in P. lia. }
  fold (chunked_new o dims). destruct (negb (chunked_new o dims) && _) eqn:Q.
  - intros [[S1 S2] P]. apply andb_prop in Q as [Q1 Q2]. pose proof (chunks_spec o dims P L C) as CS. unfold chunked_new in Q1.
    assert (forallb (Z.ltb 0) (zipwith Z.min dims (nchunk_max o)) = true /\ (List.length dims =? 0)%nat = false /\ ((0 <? gzip_level o) = true \/ extensible_on o = true)) as (A & B & D).
    { apply Bool.orb_true_iff in Q2 as [Q2|Q2].
      - destruct (S1 (proj2 (compressed_level o) ltac:(lia))) as [A B]. split; [now apply CS|]. split; [lia|now left].
      - apply andb_prop in Q2 as [Q2 Q3]. assert (List.length dims <> 0%nat) as NZ by lia. split; [apply CS, S2; [|exact NZ]|split; [lia|now right]]. unfold extensible_on in Q2. destruct (w_extensible o); [discriminate|discriminate Q2]. }
    rewrite A, B in Q1. destruct D as [-> | ->] in Q1; rewrite ?Bool.orb_true_r in Q1; discriminate.
  - split; [reflexivity|]. split; [reflexivity|]. split; [reflexivity|]. split; [reflexivity|]. intro P. pose proof (chunks_spec o dims P L C) as CS. apply Bool.andb_false_iff in Q.
    assert (chunked_new o dims = true -> List.length dims <> 0%nat /\ good_chunks o (List.length dims)) as K.
    { unfold chunked_new. intro H. apply andb_prop in H as [H A]. apply andb_prop in H as [_ B]. split; [lia|now apply CS]. }
    split.
    + intro Cm. apply compressed_level in Cm. apply K. destruct Q as [Q|Q]; [now apply Bool.negb_false_iff in Q|]. apply Bool.orb_false_iff in Q as [Q _]. lia.
    + intros Ex NZ. apply K. destruct Q as [Q|Q]; [now apply Bool.negb_false_iff in Q|]. apply Bool.orb_false_iff in Q as [_ Q]. unfold extensible_on in Q. destruct (w_extensible o); [|contradiction]. lia.
Qed.

(** ** Names of datasets and of their groups *)
Lemma last_slash_blanks k : forall i r, last_slash_from i (repeat " "%char k) r = r.
Proof. intros. apply last_slash_none. intro H. apply repeat_spec in H. discriminate. Qed.
Lemma names_group g : g <> [] -> Forall good_part g -> names (spell g) g /\ names (slash :: spell g) g.
Proof. intros N G. split; (split; [exact N|]; split; [exact G|]; exists 0%nat); cbn [repeat]; rewrite app_nil_r; auto. Qed.
Lemma names_split n g c : names n (g ++ [c]) ->
  match g with [] => last_slash n <= 1 | _ => 1 < last_slash n /\ names (upto n (last_slash n - 1)) g /\ names (trim (upto n (last_slash n - 1))) g end.
Proof.
  intros (_ & G & k & H). apply Forall_app in G as [Gg Gc]. apply Forall_inv in Gc. destruct Gc as (_ & NS & _).
  assert (forall i r, last_slash_from i (c ++ repeat " "%char k) r = r) as K by (intros; rewrite last_slash_app, (last_slash_none c NS); apply last_slash_blanks).
  destruct g as [|x g].
  - cbn [app spell] in H. unfold last_slash. destruct H as [-> | ->]; [rewrite K; lia|]. cbn [last_slash_from]. rewrite Ascii.eqb_refl, K. lia.
  - assert (x :: g <> []) as N by discriminate. revert N Gg H. generalize (x :: g). clear x g. intros g N Gg H. rewrite spell_snoc in H by exact N. rewrite <- app_assoc in H. cbn [app] in H.
    pose proof (spell_nonempty g N Gg) as NE. assert (1 <= zlen (spell g)) as L1 by (destruct (spell g); [contradiction|]; rewrite zlen_cons; pose proof (zlen_nonneg s); lia).
    destruct (names_group g N Gg) as [N1 N2]. pose proof (spell_last g N Gg) as SL.
    assert (last (slash :: spell g) "x"%char <> " "%char) as SL2 by (change (slash :: spell g) with ([slash] ++ spell g); now rewrite last_app).
    assert (exists pre, n = pre ++ slash :: c ++ repeat " "%char k /\ (pre = spell g \/ pre = slash :: spell g)) as (pre & -> & P).
    { destruct H as [-> | ->]; [exists (spell g)|exists (slash :: spell g)]; auto. }
    assert (last_slash (pre ++ slash :: c ++ repeat " "%char k) = zlen pre + 1) as ->.
    { unfold last_slash. rewrite last_slash_app. cbn [last_slash_from]. rewrite Ascii.eqb_refl, K. lia. }
    assert (upto (pre ++ slash :: c ++ repeat " "%char k) (zlen pre + 1 - 1) = pre) as ->.
    { unfold upto, zlen. replace (Z.to_nat _) with (List.length pre) by lia. rewrite firstn_app, Nat.sub_diag, firstn_all. cbn. apply app_nil_r. }
    destruct P as [-> | ->].
    + split; [lia|]. split; [exact N1|]. now rewrite trim_id.
    + rewrite zlen_cons. split; [lia|]. split; [exact N2|]. now rewrite trim_id.
Qed.
Lemma create_names h n g c x : names n (g ++ [c]) -> create_at h 0 n x = match walk h 0 g with Some b => add_link h b c x | None => None end.
Proof.
  intro N. unfold create_at. destruct (names_trim _ _ N) as [_ NN]. pose proof (names_steps _ _ N) as S. destruct (trim n) as [|y t]; [contradiction|]. rewrite S, rev_app_distr. cbn [rev app]. now rewrite rev_involutive.
Qed.
Lemma gopen_names h n g : names n g -> gopen h 0 n = match walk h 0 g with Some b => match links_of h b with Some _ => Some b | None => None end | None => None end.
Proof. intro N. unfold gopen. now rewrite (names_resolve _ _ _ _ N). Qed.
Lemma dopen_names h n p : names n p -> dopen h n = match walk h 0 p with Some b => match dset_at h b with Some _ => Some b | None => None end | None => None end.
Proof. intro N. unfold dopen. now rewrite (names_resolve _ _ _ _ N). Qed.

(** ** What the steps do to the file *)
Lemma put_new h h1 g c b d h2 : shape h1 -> sound_dset d -> groups_made g h h1 -> walk h1 0 g = Some b -> add_link h1 b c (Dset d) = Some h2 ->
  put_dataset (g ++ [c]) d h h2 /\ shape h2 /\ walk h2 0 (g ++ [c]) = Some (List.length h1) /\ dset_at h2 (List.length h1) = Some d.
Proof.
  intros [S T] Sd M W A. assert (leaf (Dset d)) as Lf by (right; eauto). pose proof (sound_add_link _ _ _ _ _ S (sound_dset_node d Sd) A) as S2. pose proof (tree_add _ _ _ _ _ S S2 T Lf A) as T2.
  assert (walk h1 0 (g ++ [c]) = None) as Wn.
  { destruct (add_link_inv _ _ _ _ _ A) as (o & l & E & O & As & _). destruct (walk h1 0 (g ++ [c])) as [a|] eqn:Q; [|reflexivity]. apply walk_snoc in Q as (b' & l' & Q1 & Q2 & Q3).
    assert (b' = b) by congruence. subst b'. unfold links_of in Q2. rewrite E, O in Q2. congruence. }
  split; [|split; [now split|split]].
  - intros q x l. rewrite (holds_add _ _ _ _ _ _ S S2 T Lf A W), (M q x l). cbn [kind].
    assert (holds h1 q x l -> q <> g ++ [c]) as NP. { intros H ->. apply holds_walk in H as (a & o & H & _); [congruence|exact S]. }
    rewrite (M q x l) in NP. rewrite prefix_snoc. tauto.
  - apply (walk_add _ _ _ _ _ S Lf A). right. eauto.
  - destruct (add_link_at _ _ _ _ _ (List.length h1) A) as (o & l & E & _ & _ & At). apply dset_at_some. rewrite At. rewrite Nat.eqb_refl.
    destruct (Nat.eqb_spec (List.length h1) b) as [Q|_]; [exfalso; apply walk_in in W; [lia|exact S]|]. eauto.
Qed.
Lemma change_dset h a d d' p : shape h -> walk h 0 p = Some a -> dset_at h a = Some d -> sound_dset d' ->
  shape (set_dset h a d') /\ exists lp, holds h p (ADset d) lp /\ forall q x l, holds (set_dset h a d') q x l <-> (q = p /\ x = ADset d' /\ l = lp) \/ (q <> p /\ holds h q x l).
Proof.
  intros Sh W D Sd. pose proof (shape_set_dset h a d d' D Sd Sh) as Sh'. split; [exact Sh'|]. apply dset_at_some in D as (o & E & O). exists (o_attrs o). split.
  - apply (holds_walk _ _ _ _ (proj1 Sh)). exists a, o. now rewrite O.
  - unfold set_dset in *. rewrite E in *. assert (match o_node o, Dset d' with Group l, Group l' => l' = l | Dset _, Dset _ => True | _, _ => False end) as K by now rewrite O.
    exact (holds_change h a o {| o_node := Dset d'; o_attrs := o_attrs o |} (proj1 Sh) E K p (proj1 Sh') (proj2 Sh) W).
Qed.
Lemma put_change h h2 a d d' p : shape h2 -> walk h2 0 p = Some a -> dset_at h2 a = Some d -> sound_dset d' -> put_dataset p d h h2 -> put_dataset p d' h (set_dset h2 a d').
Proof.
  intros Sh W D Sd P. destruct (change_dset h2 a d d' p Sh W D Sd) as (_ & lp & Hp & Ch). intros q x l. rewrite Ch. rewrite (P q x l).
  assert (lp = []) as ->. { apply P in Hp as [(_ & _ & Q)|(N & _)]; [exact Q|contradiction]. } tauto.
Qed.
Lemma put_rest p d h h' : put_dataset p d h h' -> rest_same p h h'.
Proof. intro P. split; intros q x l N H; [apply P; auto|]. apply P in H as [(E & _)|(_ & H)]; [contradiction|exact H]. Qed.
Lemma made_rest g c h h' : shape h' -> groups_made g h h' -> rest_same (g ++ [c]) h h' /\ forall x l, holds h' (g ++ [c]) x l <-> holds h (g ++ [c]) x l.
Proof.
  intros _ M. split; [split; intros q x l N H|].
  - apply M. now left.
  - apply M in H as [H|(A & B & C)]; [now left|]. right. split; [exact A|]. split; [apply prefix_snoc; now left|exact C].
  - intros x l. rewrite (M (g ++ [c]) x l). split; [|tauto]. intros [H|(_ & [r E] & _)]; [exact H|]. apply (f_equal (@List.length str)) in E. rewrite !app_length in E. cbn in E. lia.
Qed.

(** ** The dataset is made *)
Definition make_dset (ifile : Z) (id : Z) (name : str) (arr : marr) (o : wopts) (ndims : nat) (array_dims : list Z) : M nat :=
  let i := last_slash name in
  (if 1 <? i then
     let! nf := file_of id in
     match gopen (heap (snd nf)) 0 (upto name (i - 1)) with
     | None => create_group ifile (trim (upto name (i - 1)))
     | Some _ => ret tt
     end
   else ret tt) ;;
  let! file_dims :=
    (match w_initial o, w_start o, w_count o with
     | Some l, _, _ => require (zlen array_dims <=? zlen l) ;; ret (firstn ndims l)
     | None, Some st, Some ct =>
         require ((zlen array_dims <=? zlen ct) && (zlen array_dims <=? zlen st)) ;;
         ret (zipwith (fun a b => a + b - 1) (firstn ndims st) (firstn ndims ct))
     | None, _, _ => ret array_dims
     end) in
  let! d := of_option (new_dset o (m_ty arr) file_dims ndims) in
  let! nf := file_of id in
  let! h := of_option (create_at (heap (snd nf)) 0 name (Dset d)) in
  update (fst nf) (snd nf) h ;;
  of_option (dopen h name).
Definition lists_long (arr : marr) (o : wopts) : Prop :=
  (forall l, w_initial o = Some l -> (List.length (m_dims arr) <= List.length l)%nat) /\
  (w_initial o = None -> forall st ct, w_start o = Some st -> w_count o = Some ct -> (List.length (m_dims arr) <= List.length st)%nat /\ (List.length (m_dims arr) <= List.length ct)%nat).
Lemma zipwith_len {A B C} (f : A -> B -> C) l : forall m, List.length (zipwith f l m) = Nat.min (List.length l) (List.length m).
Proof. induction l as [|x l IH]; intros [|y m]; cbn; auto. Qed.
Lemma new_dims_len arr o : lists_long arr o -> List.length (new_dims arr o) = List.length (m_dims arr).
Proof.
  intros [A B]. unfold new_dims. destruct (w_initial o) as [l|]; [specialize (A l eq_refl); rewrite firstn_length; lia|]. destruct (w_start o) as [st|]; [|reflexivity]. destruct (w_count o) as [ct|]; [|reflexivity].
  specialize (B eq_refl st ct eq_refl eq_refl). rewrite zipwith_len, !firstn_length. lia.
Qed.
Lemma dims_step arr o s : (lists_long arr o /\
   (match w_initial o, w_start o, w_count o with
     | Some l, _, _ => require (zlen (m_dims arr) <=? zlen l) ;; ret (firstn (List.length (m_dims arr)) l)
     | None, Some st, Some ct =>
         require ((zlen (m_dims arr) <=? zlen ct) && (zlen (m_dims arr) <=? zlen st)) ;;
         ret (zipwith (fun a b => a + b - 1) (firstn (List.length (m_dims arr)) st) (firstn (List.length (m_dims arr)) ct))
     | None, _, _ => ret (m_dims arr)
     end) s = Go (new_dims arr o) s) \/
  (~ lists_long arr o /\
   (match w_initial o, w_start o, w_count o with
     | Some l, _, _ => require (zlen (m_dims arr) <=? zlen l) ;; ret (firstn (List.length (m_dims arr)) l)
     | None, Some st, Some ct =>
         require ((zlen (m_dims arr) <=? zlen ct) && (zlen (m_dims arr) <=? zlen st)) ;;
         ret (zipwith (fun a b => a + b - 1) (firstn (List.length (m_dims arr)) st) (firstn (List.length (m_dims arr)) ct))
     | None, _, _ => ret (m_dims arr)
     end) s = Stop s).
Proof.
  unfold lists_long, new_dims. destruct (w_initial o) as [l|].
  - destruct (zlen (m_dims arr) <=? zlen l) eqn:Q; [left|right]; (split; [|reflexivity]).
    + split; [intros l' [= <-]; unfold zlen in Q; lia|discriminate].
    + intros [A _]. specialize (A l eq_refl). unfold zlen in Q. lia.
  - destruct (w_start o) as [st|]; [|left; split; [split; discriminate|reflexivity]]. destruct (w_count o) as [ct|]; [|left; split; [split; [discriminate|intros _ a b _ C; discriminate C]|reflexivity]].
    destruct ((zlen (m_dims arr) <=? zlen ct) && (zlen (m_dims arr) <=? zlen st)) eqn:Q; [left|right]; (split; [|reflexivity]).
    + split; [discriminate|]. intros _ a b [= <-] [= <-]. unfold zlen in Q. lia.
    + intros [_ A]. specialize (A eq_refl st ct eq_refl eq_refl). unfold zlen in Q. lia.
Qed.
Lemma spell_group_len g c : (List.length (spell g) <= List.length (spell (g ++ [c])))%nat.
Proof. destruct g as [|x g]; [cbn; lia|]. rewrite spell_snoc by discriminate. rewrite app_length. lia. Qed.
(** the groups on the way *)
Lemma way_step h s x f rw fl n g c : 1 <= h <= nfilemax -> nth_error (slots s) (Z.to_nat (h - 1)) = Some x -> s_ro x = false -> zassoc (s_id x) (lib s) = Some (f, rw) -> assoc f (disk s) = Some fl -> shape (heap fl) ->
  names n (g ++ [c]) -> (List.length (spell (g ++ [c])) <= 255)%nat -> (List.length (g ++ [c]) <= 11)%nat ->
  let m := if 1 <? last_slash n then
     let! nf := file_of (s_id x) in
     match gopen (heap (snd nf)) 0 (upto n (last_slash n - 1)) with
     | None => create_group h (trim (upto n (last_slash n - 1)))
     | Some _ => ret tt
     end
   else ret tt in
  exists s' h', changed f (writable fl) h' s s' /\ shape h' /\ rest_same (g ++ [c]) (heap fl) h' /\ (forall y l, holds h' (g ++ [c]) y l <-> holds (heap fl) (g ++ [c]) y l) /\
    ((m s = Go tt s' /\ groups_made g (heap fl) h' /\ exists a l, walk h' 0 g = Some a /\ links_of h' a = Some l) \/
     (m s = Stop s' /\ exists q d l, prefix q g /\ holds (heap fl) q (ADset d) l)).
Proof.
  intros R N RO Z E Sh Nn Ls Lp m. pose proof (names_split _ _ _ Nn) as Sp. unfold m. clear m.
  assert ((exists a l, walk (heap fl) 0 g = Some a /\ links_of (heap fl) a = Some l) -> exists h', changed f (writable fl) h' s s /\ shape h' /\ rest_same (g ++ [c]) (heap fl) h' /\ (forall y l, holds h' (g ++ [c]) y l <-> holds (heap fl) (g ++ [c]) y l) /\
    groups_made g (heap fl) h' /\ exists a l, walk h' 0 g = Some a /\ links_of h' a = Some l) as K.
  { intros (a & l & W & L). exists (heap fl). assert (groups_made g (heap fl) (heap fl)) as M by (apply made_refl; eauto). destruct (made_rest g c _ _ Sh M) as [A B]. split; [now apply changed_refl|]. split; [exact Sh|]. split; [exact A|]. split; [exact B|]. split; [exact M|eauto]. }
  destruct g as [|y g].
  - replace (1 <? last_slash n) with false by lia. destruct (root_group _ (proj1 Sh)) as [l0 L0]. destruct K as (h' & A & B & C & D & K); [exists 0%nat, l0; auto|].
    exists s, h'. split; [exact A|]. split; [exact B|]. split; [exact C|]. split; [exact D|]. left. auto.
  - destruct Sp as (L1 & N1 & N2). replace (1 <? last_slash n) with true by lia. rewrite (bind_step _ _ _ _ _ (file_of_ok _ _ _ _ _ Z E)). cbn [snd]. rewrite (gopen_names _ _ _ N1).
    assert (forall a l, walk (heap fl) 0 (y :: g) = Some a -> links_of (heap fl) a = Some l -> exists s' h', changed f (writable fl) h' s s' /\ shape h' /\ rest_same ((y :: g) ++ [c]) (heap fl) h' /\ (forall z l, holds h' ((y :: g) ++ [c]) z l <-> holds (heap fl) ((y :: g) ++ [c]) z l) /\
      ((@ret unit tt s = Go tt s' /\ groups_made (y :: g) (heap fl) h' /\ exists a l, walk h' 0 (y :: g) = Some a /\ links_of h' a = Some l) \/ (@ret unit tt s = Stop s' /\ exists q d l, prefix q (y :: g) /\ holds (heap fl) q (ADset d) l))) as K1.
    { intros a l W L. destruct K as (h' & A & B & C & D & K); [eauto|]. exists s, h'. split; [exact A|]. split; [exact B|]. split; [exact C|]. split; [exact D|]. left. auto. }
    assert (exists s' h', changed f (writable fl) h' s s' /\ shape h' /\ rest_same ((y :: g) ++ [c]) (heap fl) h' /\ (forall z l, holds h' ((y :: g) ++ [c]) z l <-> holds (heap fl) ((y :: g) ++ [c]) z l) /\
      ((create_group h (trim (upto n (last_slash n - 1))) s = Go tt s' /\ groups_made (y :: g) (heap fl) h' /\ exists a l, walk h' 0 (y :: g) = Some a /\ links_of h' a = Some l) \/
       (create_group h (trim (upto n (last_slash n - 1))) s = Stop s' /\ exists q d l, prefix q (y :: g) /\ holds (heap fl) q (ADset d) l))) as K2.
    { destruct (create_group_spec h s x f rw fl _ _ R N RO Z E Sh N2) as (s' & h' & Ch & Sh' & [(G & Md & W)|(G & p1 & c1 & p2 & d & l & Ep & Hd & Md)]).
      - pose proof (spell_group_len (y :: g) c). lia.
      - rewrite app_length in Lp. cbn [List.length] in *. lia.
      - exists s', h'. destruct (made_rest (y :: g) c _ _ Sh' Md) as [A B]. split; [exact Ch|]. split; [exact Sh'|]. split; [exact A|]. split; [exact B|]. left. auto.
      - exists s', h'. assert (groups_made p1 (heap fl) h' -> rest_same ((y :: g) ++ [c]) (heap fl) h' /\ forall z l, holds h' ((y :: g) ++ [c]) z l <-> holds (heap fl) ((y :: g) ++ [c]) z l) as Q.
        { intro M. assert ((y :: g) ++ [c] = p1 ++ (c1 :: p2) ++ [c]) as E2 by (rewrite Ep; now rewrite <- app_assoc). split; [split; intros q z m Nq H|].
          - apply M. now left.
          - apply M in H as [H|(A & [r B] & C)]; [now left|]. right. split; [exact A|]. split; [|exact C]. exists (r ++ (c1 :: p2) ++ [c]). rewrite E2, B. now rewrite <- app_assoc.
          - intros z m. rewrite (M _ z m). split; [|tauto]. intros [H|(_ & [r B] & _)]; [exact H|]. rewrite E2 in B. apply (f_equal (@List.length str)) in B. rewrite !app_length in B. cbn in B. lia. }
        destruct (Q Md) as [A B]. split; [exact Ch|]. split; [exact Sh'|]. split; [exact A|]. split; [exact B|]. right. split; [exact G|]. exists (p1 ++ [c1]), d, l. split; [|exact Hd]. exists p2. rewrite Ep. now rewrite <- app_assoc. }
    destruct (walk (heap fl) 0 (y :: g)) as [b|] eqn:W; [|exact K2]. destruct (links_of (heap fl) b) as [l|] eqn:L; [|exact K2]. eapply K1; eauto.
Qed.

Lemma nothing_dec h p : sound h -> nothing_at h p \/ exists x l, holds h p x l.
Proof.
  intro S. destruct (walk h 0 p) as [a|] eqn:W; [right|left; now apply nothing_walk]. pose proof (walk_in _ _ S _ W) as L. apply nth_error_Some in L. destruct (nth_error h a) as [o|] eqn:E; [|contradiction].
  exists (kind (o_node o)), (o_attrs o). apply holds_walk; [exact S|]. exists a, o. auto.
Qed.
Lemma make_dset_spec h s x f rw fl n g c arr o : 1 <= h <= nfilemax -> nth_error (slots s) (Z.to_nat (h - 1)) = Some x -> s_ro x = false -> zassoc (s_id x) (lib s) = Some (f, rw) -> assoc f (disk s) = Some fl -> shape (heap fl) ->
  names n (g ++ [c]) -> (List.length (spell (g ++ [c])) <= 255)%nat -> (List.length (g ++ [c]) <= 11)%nat ->
  (List.length (m_dims arr) <= 7)%nat -> (forall l, w_chunk o = Some l -> (List.length l <= 7)%nat) -> (forall d l, ~ holds (heap fl) (g ++ [c]) (ADset d) l) ->
  let p := g ++ [c] in let rank := List.length (m_dims arr) in
  exists s' h', changed f (writable fl) h' s s' /\ shape h' /\ rest_same p (heap fl) h' /\ (forall l, holds (heap fl) p AGroup l -> holds h' p AGroup l) /\
    ((exists a d, make_dset h (s_id x) n arr o rank (m_dims arr) s = Go a s' /\ walk h' 0 p = Some a /\ dset_at h' a = Some d /\ put_dataset p d (heap fl) h' /\ sound_dset d /\
        d_ty d = m_ty arr /\ d_dims d = new_dims arr o /\ d_max d = map (fun x => if extensible_on o then None else Some x) (new_dims arr o) /\ d_data d = repeat (fill (m_ty arr)) (Z.to_nat (prod (new_dims arr o))) /\
        lists_long arr o /\ (positive (new_dims arr o) -> can_store o rank) /\ free_way (heap fl) p) \/
     (make_dset h (s_id x) n arr o rank (m_dims arr) s = Stop s' /\ ~ (lists_long arr o /\ can_store o rank /\ positive (new_dims arr o) /\ free_way (heap fl) p))).
Proof.
  intros R N RO Z E Sh Nn Ls Lp L7 C7 NoD p rank. unfold make_dset. cbn zeta.
  destruct (way_step h s x f rw fl n g c R N RO Z E Sh Nn Ls Lp) as (s1 & h1 & Ch1 & Sh1 & Rs & Sp & Way). cbn zeta in Way.
  destruct Way as [(G & Md & a0 & l0 & W & L)|(G & q & d & l & Pq & Hq)].
  2: { rewrite (bind_stop _ _ _ _ G). exists s1, h1. split; [exact Ch1|]. split; [exact Sh1|]. split; [exact Rs|]. split; [intros m; apply Sp|]. right. split; [reflexivity|]. intros (_ & _ & _ & FW & _).
       eapply FW; [|  |exact Hq]; [apply prefix_snoc; now left|]. intros ->. destruct Pq as [r Q]. apply (f_equal (@List.length str)) in Q. unfold p in Q. rewrite !app_length in Q. cbn in Q. lia. }
  rewrite (bind_step _ _ _ _ _ G). destruct (changed_lib _ _ _ _ _ Ch1) as [Lb Sl]. pose proof (proj2 Ch1) as E1.
  assert (forall P : Prop, ~ P -> exists s' h', changed f (writable fl) h' s s' /\ shape h' /\ rest_same p (heap fl) h' /\ (forall l, holds (heap fl) p AGroup l -> holds h' p AGroup l) /\ s' = s1 /\ ~ P) as KS.
  { intros P NP. exists s1, h1. split; [exact Ch1|]. split; [exact Sh1|]. split; [exact Rs|]. split; [intros m; apply Sp|]. auto. }
  destruct (dims_step arr o s1) as [[LL D]|[NL D]].
  2: { fold rank in D. rewrite (bind_stop _ _ _ _ D). destruct (KS (lists_long arr o /\ can_store o rank /\ positive (new_dims arr o) /\ free_way (heap fl) p)) as (s' & h' & A1 & A2 & A3 & A4 & -> & A5); [tauto|].
       exists s1, h'. split; [exact A1|]. split; [exact A2|]. split; [exact A3|]. split; [exact A4|]. right. auto. }
  fold rank in D. rewrite (bind_step _ _ _ _ _ D). pose proof (new_dims_len arr o LL) as NL. pose proof (new_dset_spec o (m_ty arr) (new_dims arr o) ltac:(lia) C7) as ND. rewrite NL in ND. fold rank in ND.
  destruct (new_dset o (m_ty arr) (new_dims arr o) rank) as [d|] eqn:DN.
  2: { cbn [of_option]. rewrite (bind_stop _ _ s1 s1) by reflexivity. destruct (KS (lists_long arr o /\ can_store o rank /\ positive (new_dims arr o) /\ free_way (heap fl) p)) as (s' & h' & A1 & A2 & A3 & A4 & -> & A5); [tauto|].
       exists s1, h'. split; [exact A1|]. split; [exact A2|]. split; [exact A3|]. split; [exact A4|]. right. auto. }
  pose proof (sound_new _ _ _ _ _ DN) as Sd. cbn [of_option]. rewrite (bind_step _ _ _ d s1) by reflexivity. rewrite <- Lb in Z. rewrite (bind_step _ _ _ _ _ (file_of_ok _ _ _ _ _ Z E1)). cbn [fst snd heap].
  rewrite (create_names _ _ _ _ _ Nn), W. destruct (add_link h1 a0 c (Dset d)) as [h2|] eqn:A.
  2: { cbn [of_option]. rewrite (bind_stop _ _ s1 s1) by reflexivity. destruct (KS (lists_long arr o /\ can_store o rank /\ positive (new_dims arr o) /\ free_way (heap fl) p)) as (s' & h' & A1 & A2 & A3 & A4 & -> & A5).
       - intros (_ & _ & _ & _ & NG). unfold add_link in A. apply links_of_some in L as (ob & Eo & Oo). rewrite Eo, Oo in A. destruct (assoc c l0) as [z|] eqn:As; [|discriminate].
         assert (walk h1 0 (g ++ [c]) = Some z) as Wz by (apply walk_snoc; exists a0, l0; split; [exact W|]; split; [apply links_of_some; eauto|exact As]).
         destruct (nothing_dec h1 p (proj1 Sh1)) as [Nt|([|d'] & l & Hp)]; [apply nothing_walk in Nt; [unfold p in Nt; congruence|exact (proj1 Sh1)]|apply (NG l); now apply Sp|apply (NoD d' l); now apply Sp].
       - exists s1, h'. split; [exact A1|]. split; [exact A2|]. split; [exact A3|]. split; [exact A4|]. right. auto. }
  destruct (put_new (heap fl) h1 g c a0 d h2 Sh1 Sd Md W A) as (Put & Sh2 & W2 & D2). cbn [of_option]. rewrite (bind_step _ _ _ h2 s1) by reflexivity.
  destruct (update_changed f {| heap := h1; writable := writable fl |} h2 s1 E1) as (s2 & U & Ch2). rewrite (bind_step _ _ _ _ _ U). rewrite (dopen_names _ _ _ Nn), W2, D2. cbn [of_option].
  exists s2, h2. split; [exact (changed_trans _ _ _ _ _ _ _ Ch1 Ch2)|]. split; [exact Sh2|]. split; [exact (put_rest _ _ _ _ Put)|].
  assert (free_way (heap fl) p) as FW.
  { split.
    - intros q d' l Pq Nq Hq. apply prefix_snoc in Pq as [[r Eq]|Q]; [|exact (Nq Q)]. rewrite Eq in W. eapply (below_dataset h1 q r a0 l0 d' l (proj1 Sh1) W L). apply Md. now left.
    - intros l Hl. apply Sp in Hl. destruct (add_link_inv _ _ _ _ _ A) as (ob & lb & Eo & Oo & As & _). apply (holds_walk _ _ _ _ (proj1 Sh1)) in Hl as (z & _ & Wz & _). apply walk_snoc in Wz as (b' & l' & Q1 & Q2 & Q3).
      assert (b' = a0) by congruence. subst b'. unfold links_of in Q2. rewrite Eo, Oo in Q2. congruence. }
  split; [intros l Hl; exfalso; exact (proj2 FW l Hl)|]. left. exists (List.length h1), d. destruct ND as (F1 & F2 & F3 & F4 & F5).
  split; [reflexivity|]. split; [exact W2|]. split; [exact D2|]. split; [exact Put|]. split; [exact Sd|]. repeat (split; [assumption|]). exact FW.
Qed.

(** ** Writing a new dataset *)
Lemma inside_positive dims : forall st ct, inside dims st ct -> List.length st = List.length dims -> List.length ct = List.length dims -> positive ct -> positive dims.
Proof.
  unfold inside, positive. induction dims as [|d ds IH]; intros [|x st] [|y ct] I A B P; try discriminate; [constructor|]. cbn in I. inversion I; subst. inversion P; subst. cbn in *. constructor; [lia|]. eapply IH; eauto.
Qed.
Lemma elem_repeat dims (e : elt) k : index_in dims k -> elem dims (repeat e (Z.to_nat (prod dims))) k = Some e.
Proof. intro H. apply offset_range in H. unfold elem. apply nth_error_repeat. lia. Qed.
Lemma one_method_check o : match w_gzip o, w_szip o with Some g, Some true => negb (0 <? g) | _, _ => true end = true <-> one_method o.
Proof.
  unfold one_method. destruct (w_gzip o) as [g|]; [|split; [discriminate|reflexivity]]. destruct (w_szip o) as [[]|]; (split; [intros H g' [= <-] L C; try discriminate C; lia|]); try reflexivity.
  intro H. destruct (0 <? g) eqn:Q; [|reflexivity]. exfalso. apply (H g eq_refl); [lia|reflexivity].
Qed.
Lemma paired_check o : match w_start o, w_count o with Some _, None | None, Some _ => false | _, _ => true end = true <-> paired (w_start o) (w_count o).
Proof. destruct (w_start o), (w_count o); cbn; split; auto; try discriminate; try tauto. Qed.
Lemma ndims_same arr : (t_class (m_ty arr) = CInt -> List.length (m_dims arr) <> 7%nat) -> write_ndims (t_class (m_ty arr)) (List.length (m_dims arr)) = List.length (m_dims arr).
Proof. intro H. unfold write_ndims. destruct (t_class (m_ty arr)); auto. destruct (Nat.eqb_spec (List.length (m_dims arr)) 7); [exfalso; now apply H|reflexivity]. Qed.
Lemma rest_refl p h : rest_same p h h.
Proof. split; auto. Qed.
Lemma unlink_dataset h n p d l : shape h -> names n p -> holds h p (ADset d) l -> shape (unlink h n) /\ forall q x m, holds (unlink h n) q x m <-> holds h q x m /\ q <> p.
Proof.
  intros Sh Nn Hp. pose proof (shape_unlink h n Sh) as Sh'. split; [exact Sh'|]. pose proof (names_steps _ _ Nn) as St. assert (p <> []) as NE by apply Nn.
  destruct p as [|c g _] using rev_ind; [contradiction|]. clear NE. pose proof Hp as Hp'. apply holds_walk in Hp' as (a & o & W & E & K & _); [|exact (proj1 Sh)].
  pose proof W as W'. apply walk_snoc in W' as (b & lb & Wb & Lb & As). apply links_of_some in Lb as (ob & Eb & Ob).
  assert (unlink h n = set_nth h b {| o_node := Group (del c lb); o_attrs := o_attrs ob |}) as U. { unfold unlink. rewrite St, rev_app_distr. cbn [rev app]. rewrite rev_involutive, Wb, Eb, Ob. reflexivity. }
  rewrite U in *. intros q x m. rewrite (holds_unlink h b ob lb c g (proj1 Sh) (proj2 Sh) Eb Ob Wb (proj1 Sh') q x m). split; intros [H N]; (split; [exact H|]).
  - intros ->. apply N, prefix_refl.
  - intros [r ->]. apply holds_walk in H as (z & oz & Wz & _); [|exact (proj1 Sh)]. rewrite walk_app, W in Wz. destruct r as [|e r]; [apply N; now rewrite app_nil_r|]. cbn [walk] in Wz.
    unfold links_of in Wz. rewrite E in Wz. destruct (o_node o); [discriminate K|discriminate Wz].
Qed.
(** the routine, in parts *)
Lemma write_data_parts ifile name arr o : (t_class (m_ty arr) = CInt -> List.length (m_dims arr) <> 7%nat) ->
  write_data ifile name arr o =
  (require (match w_gzip o, w_szip o with Some g, Some true => negb (0 <? g) | _, _ => true end) ;;
   let! x := open_slot ifile in
   require (negb (s_ro x)) ;;
   require (match w_start o, w_count o with Some _, None | None, Some _ => false | _, _ => true end) ;;
   (match w_chunk o with Some l => if 7 <? zlen l then wild else ret tt | None => ret tt end) ;;
   let! nf := file_of (s_id x) in
   let opened := dopen (heap (snd nf)) name in
   let! opened :=
     (match opened, w_overwrite o with
      | Some _, Some true => update (fst nf) (snd nf) (unlink (heap (snd nf)) name) ;; ret None
      | _, _ => ret opened
      end) in
   let! a :=
     (match opened with
      | None => make_dset ifile (s_id x) name arr o (List.length (m_dims arr)) (m_dims arr)
      | Some a =>
          let! nf := file_of (s_id x) in
          let! d := of_option (dset_at (heap (snd nf)) a) in
          require (cls_eqb (t_class (m_ty arr)) (t_class (d_ty d))) ;;
          require (match t_class (m_ty arr) with CString => t_size (m_ty arr) <=? t_size (d_ty d) | _ => t_size (m_ty arr) =? t_size (d_ty d) end) ;;
          match w_start o, w_count o with
          | Some st, Some ct =>
              require ((zlen (d_dims d) <=? zlen st) && (zlen (d_dims d) <=? zlen ct)) ;;
              let rank := List.length (d_dims d) in
              let need := zipwith Z.max (d_dims d) (zipwith (fun a b => a + b - 1) (firstn rank st) (firstn rank ct)) in
              (if existsb (fun x => x) (zipwith Z.ltb (d_dims d) need) then
                 let! d' := of_option (extend d need) in
                 update (fst nf) (snd nf) (set_dset (heap (snd nf)) a d')
               else ret tt) ;;
              ret a
          | _, _ => abort
          end
      end) in
   write_core (s_id x) arr o (m_dims arr) a).
Proof. intro H. unfold write_data. rewrite (ndims_same arr H). rewrite firstn_all. reflexivity. Qed.
(** from the point at which there is no dataset with the name *)
Lemma write_new_spec h s x f rw fl h0 n p arr o : 1 <= h <= nfilemax -> nth_error (slots s) (Z.to_nat (h - 1)) = Some x -> s_ro x = false -> zassoc (s_id x) (lib s) = Some (f, rw) -> assoc f (disk s) = Some fl -> shape (heap fl) ->
  names n p -> (List.length (spell p) <= 255)%nat -> (List.length p <= 11)%nat -> sound_arr arr -> positive (m_dims arr) ->
  (List.length (m_dims arr) <= 7)%nat -> (forall l, w_chunk o = Some l -> (List.length l <= 7)%nat) -> (forall d l, ~ holds (heap fl) p (ADset d) l) ->
  one_method o -> paired (w_start o) (w_count o) ->
  (w_initial o <> None -> forall st ct, w_start o = Some st -> w_count o = Some ct -> (List.length (m_dims arr) <= List.length st)%nat /\ (List.length (m_dims arr) <= List.length ct)%nat) ->
  positive (snd (part (new_dims arr o) (w_start o) (w_count o))) ->
  (forall q y l, q <> p -> (holds (heap fl) q y l <-> holds h0 q y l)) -> (forall l, holds h0 p AGroup l <-> holds (heap fl) p AGroup l) ->
  exists s' h', changed f (writable fl) h' s s' /\
    ((exists r, (let! a := make_dset h (s_id x) n arr o (List.length (m_dims arr)) (m_dims arr) in write_core (s_id x) arr o (m_dims arr) a) s = Go tt s' /\
        can_write_new arr o /\ free_way h0 p /\ put_dataset p r h0 h' /\ new_written arr o r) \/
     ((let! a := make_dset h (s_id x) n arr o (List.length (m_dims arr)) (m_dims arr) in write_core (s_id x) arr o (m_dims arr) a) s = Stop s' /\
        ~ (can_write_new arr o /\ free_way h0 p) /\ rest_same p h0 h' /\ forall l, holds h0 p AGroup l -> holds h' p AGroup l)).
Proof.
  intros R N RO Z E Sh Nn Ls Lp Sa Pm L7 C7 NoD Om Pa Ini Pc Same SameG. assert (p <> []) as NE by apply Nn. destruct p as [|c g _] using rev_ind; [contradiction|]. clear NE. set (p := g ++ [c]) in *.
  destruct (make_dset_spec h s x f rw fl n g c arr o R N RO Z E Sh Nn Ls Lp L7 C7 NoD) as (s1 & h1 & Ch1 & Sh1 & Rs1 & Gr1 & Mk). cbn zeta in *. fold p in Rs1, Gr1, Mk.
  assert (forall q, q <> p -> (nothing_at (heap fl) q <-> nothing_at h0 q)) as SameN by (intros q Nq; unfold nothing_at; split; intros K y l H; apply (K y l), (Same q y l Nq); exact H).
  assert (free_way (heap fl) p <-> free_way h0 p) as SameF.
  { split; intros [A B]; (split; [intros q d l P Nq H; apply (A q d l P Nq); apply (Same q _ l Nq); exact H|intros l H; apply (B l), SameG, H]). }
  assert (forall h', rest_same p (heap fl) h' -> rest_same p h0 h') as SameR.
  { intros h' [A B]. split; intros q y l Nq H; [apply A; [exact Nq|]; now apply Same|]. destruct (B q y l Nq H) as [K|(K1 & K2)]; [left; now apply Same|]. right. split; [now apply SameN|exact K2]. }
  assert (can_write_new arr o -> lists_long arr o /\ can_store o (List.length (m_dims arr)) /\ positive (new_dims arr o)) as CanL.
  { intros (_ & LE & I & CS & _ & Ins). assert (lists_long arr o) as LL. { split; [exact I|]. intros _ st ct A B. unfold long_enough in LE. rewrite A, B in LE. tauto. }
    split; [exact LL|]. split; [exact CS|]. pose proof (new_dims_len _ _ LL) as NL. rewrite <- NL in LE. destruct (long_part _ _ _ LE) as [P1 P2]. exact (inside_positive _ _ _ Ins P1 P2 Pc). }
  destruct Mk as [(a & d & G & W & D & Put & Sd & F1 & F2 & F3 & F4 & LL & CS & FW)|(G & Not)].
  2: { exists s1, h1. split; [exact Ch1|]. right. rewrite (bind_stop _ _ _ _ G). split; [reflexivity|]. split; [|split; [now apply SameR|intros l H; apply Gr1, SameG, H]].
       intros [Cn Fw]. apply Not. destruct (CanL Cn) as (A & B & C). repeat (split; [assumption|]). now apply SameF. }
  rewrite (bind_step _ _ _ _ _ G). destruct (changed_lib _ _ _ _ _ Ch1) as [Lb _]. pose proof (proj2 Ch1) as E1. rewrite <- Lb in Z. pose proof (new_dims_len _ _ LL) as NL.
  assert (long_enough (List.length (d_dims d)) (w_start o) (w_count o)) as LE.
  { rewrite F2, NL. unfold long_enough. destruct (w_start o) as [st|] eqn:E3, (w_count o) as [ct|] eqn:E4; cbn in Pa; auto. destruct (w_initial o) as [l|] eqn:E5; [apply (Ini ltac:(discriminate) st ct eq_refl eq_refl)|].
    destruct LL as [_ LL]. exact (LL E5 st ct E3 E4). }
  pose proof (write_core_spec (s_id x) f rw {| heap := h1; writable := writable fl |} arr o a d s1 Z E1 D Sd Sa Pm LE) as WC. cbn zeta in WC. rewrite F2 in WC. cbn [heap writable] in WC.
  assert (free_way h0 p) as FW0 by now apply SameF.
  assert (forall r h', put_dataset p r (heap fl) h' -> put_dataset p r h0 h') as SameP.
  { intros r h' Q q y l. rewrite (Q q y l). split; (intros [H|[Nq H]]; [now left|right]; split; [exact Nq|]); (destruct H as [H|[H1 H2]]; [left; now apply (Same q y l Nq)|right; split; [now apply (SameN q Nq)|exact H2]]). }
  destruct (WC Pc) as [(s2 & b & WG & Ch2 & Lbd & Ro & Ins & Wr)|(WG & Not)].
  - exists s2, (set_dset h1 a (with_data d b)). split; [exact (changed_trans _ _ _ _ _ _ _ Ch1 Ch2)|]. left. exists (with_data d b). split; [exact WG|].
    rewrite F2, NL in LE. pose proof (inside_positive _ _ _ Ins) as IP. destruct (long_part (new_dims arr o) (w_start o) (w_count o)) as [P1 P2]; [now rewrite NL|]. specialize (IP P1 P2 Pc).
    split; [split; [exact Om|]; split; [exact LE|]; split; [exact (proj1 LL)|]; split; [exact (CS IP)|]; split; [exact Ro|exact Ins]|]. split; [exact FW0|].
    split; [apply SameP; exact (put_change _ _ _ _ _ _ Sh1 W D (sound_with_data d b Sd Lbd) Put)|].
    split; [exact F1|]. split; [exact F2|]. split.
    + cbn [d_max d_dims with_data]. rewrite F3, F2. intros k m. rewrite nth_error_map. unfold extensible_on. destruct (nth_error (new_dims arr o) k) as [z|]; [|discriminate]. cbn. intros [= <-]. now destruct (w_extensible o).
    + destruct Wr as (W1 & W2 & W3). split; [exact W1|]. split; [exact W2|]. intros k e Hk Nk ->. apply W3; [exact Hk|exact Nk|]. rewrite F4. cbn [d_dims with_data] in Hk. rewrite F2 in Hk. now apply elem_repeat.
  - exists s1, h1. split; [exact Ch1|]. right. split; [exact WG|]. split; [|split; [now apply SameR|intros l H; apply Gr1, SameG, H]]. intros [(_ & _ & _ & _ & A & B) _]. tauto.
Qed.
Lemma c91_write cv s0 t s h f fl n p arr o : fresh s0 -> sound_files s0 -> tree_files s0 -> history cv s0 t s -> (forall c r, In (c, r) t -> sound_call c) -> current t h = Some (f, false) ->
  assoc f (disk s) = Some fl -> names n p -> (List.length (spell p) <= 255)%nat -> (List.length p <= 11)%nat -> sound_arr arr -> positive (m_dims arr) ->
  (List.length (m_dims arr) <= 7)%nat -> (t_class (m_ty arr) = CInt -> List.length (m_dims arr) <> 7%nat) -> (forall l, w_chunk o = Some l -> (List.length l <= 7)%nat) ->
  (w_initial o <> None -> forall st ct, w_start o = Some st -> w_count o = Some ct -> (List.length (m_dims arr) <= List.length st)%nat /\ (List.length (m_dims arr) <= List.length ct)%nat) ->
  positive (snd (part (new_dims arr o) (w_start o) (w_count o))) -> (w_overwrite o = Some true \/ forall d l, ~ holds (heap fl) p (ADset d) l) ->
  match run cv (CWrite h n arr o) s with
  | Go v s' => v = RNone /\ can_write_new arr o /\ free_way (heap fl) p /\ others_same f s s' /\
      exists fl' r, assoc f (disk s') = Some fl' /\ writable fl' = writable fl /\ put_dataset p r (heap fl) (heap fl') /\ new_written arr o r
  | Stop s' => ~ (can_write_new arr o /\ free_way (heap fl) p) /\ others_same f s s' /\
      exists fl', assoc f (disk s') = Some fl' /\ writable fl' = writable fl /\ rest_same p (heap fl) (heap fl') /\ forall l, holds (heap fl) p AGroup l -> holds (heap fl') p AGroup l
  | Wild => False
  end.
Proof.
  intros F S0 T0 H SC Cu Ed Nn Ls Lp Sa Pm L7 N7 C7 Ini Pc Ow. pose proof (shape_history _ _ _ _ F S0 T0 H SC f fl Ed) as Sh. pose proof (inv_history _ _ _ _ F H) as I.
  destruct (current_slot _ _ _ _ _ I Cu) as (J & R & x & Hx & P & Q & Nm & Z). cbn [negb] in Z. cbn [run]. unfold fmap. rewrite (write_data_parts h n arr o N7).
  assert (forall (m : M unit), (forall s', m s = Stop s' -> s' = s) -> (exists s', m s = Stop s') -> ~ can_write_new arr o ->
     match (let! a := m in ret ((fun _ => RNone) a)) s with Go v s' => False | Wild => False | Stop s' => s' = s /\ ~ can_write_new arr o end) as K0.
  { intros m A [s' B] C. rewrite (bind_stop _ _ _ _ B). auto. }
  assert (~ can_write_new arr o -> ~ (can_write_new arr o /\ free_way (heap fl) p) /\ others_same f s s /\
      exists fl', assoc f (disk s) = Some fl' /\ writable fl' = writable fl /\ rest_same p (heap fl) (heap fl') /\ forall l, holds (heap fl) p AGroup l -> holds (heap fl') p AGroup l) as KS.
  { intro C. split; [tauto|]. split; [intros g _; reflexivity|]. exists fl. split; [exact Ed|]. split; [reflexivity|]. split; [apply rest_refl|auto]. }
  clear K0. destruct (match w_gzip o, w_szip o with Some g, Some true => negb (0 <? g) | _, _ => true end) eqn:OM.
  2: { unfold mbind at 1 2. cbn [require abort]. apply KS. intros (C & _). apply one_method_check in C. congruence. }
  apply one_method_check in OM. unfold mbind at 1. rewrite (bind_step _ _ _ tt s) by reflexivity. rewrite (bind_step _ _ _ _ _ (open_slot_ok _ _ _ R Hx P)). rewrite Q. cbn [negb].
  rewrite (bind_step _ _ _ tt s) by reflexivity. destruct (match w_start o, w_count o with Some _, None | None, Some _ => false | _, _ => true end) eqn:PA.
  2: { unfold mbind at 1. cbn [require abort]. apply KS. intros (_ & C & _). unfold long_enough in C. destruct (w_start o), (w_count o); try discriminate PA; contradiction. }
  apply paired_check in PA. rewrite (bind_step _ _ _ tt s) by reflexivity.
  assert ((match w_chunk o with Some l => if 7 <? zlen l then wild else ret tt | None => ret tt end) s = Go tt s) as CK.
  { destruct (w_chunk o) as [l|]; [|reflexivity]. specialize (C7 l eq_refl). replace (7 <? zlen l) with false by (unfold zlen; lia). reflexivity. }
  rewrite (bind_step _ _ _ _ _ CK). rewrite (bind_step _ _ _ _ _ (file_of_ok _ _ _ _ _ Z Ed)). cbn [fst snd]. cbn zeta.
  assert (forall s1 fl1, changed f (writable fl) (heap fl1) s s1 -> assoc f (disk s1) = Some fl1 -> writable fl1 = writable fl -> shape (heap fl1) -> (forall d l, ~ holds (heap fl1) p (ADset d) l) ->
     (forall q y l, q <> p -> (holds (heap fl1) q y l <-> holds (heap fl) q y l)) -> (forall l, holds (heap fl) p AGroup l <-> holds (heap fl1) p AGroup l) ->
     match (match (let! a := make_dset h (s_id x) n arr o (List.length (m_dims arr)) (m_dims arr) in write_core (s_id x) arr o (m_dims arr) a) s1 with Go a s' => ret RNone s' | Stop s' => Stop s' | Wild => Wild end) with
     | Go v s' => v = RNone /\ can_write_new arr o /\ free_way (heap fl) p /\ others_same f s s' /\
      exists fl' r, assoc f (disk s') = Some fl' /\ writable fl' = writable fl /\ put_dataset p r (heap fl) (heap fl') /\ new_written arr o r
     | Stop s' => ~ (can_write_new arr o /\ free_way (heap fl) p) /\ others_same f s s' /\
      exists fl', assoc f (disk s') = Some fl' /\ writable fl' = writable fl /\ rest_same p (heap fl) (heap fl') /\ forall l, holds (heap fl) p AGroup l -> holds (heap fl') p AGroup l
     | Wild => False
     end) as Rest.
  { intros s1 fl1 Ch E1 Wr Sh1 NoD Same SameG. destruct (changed_lib _ _ _ _ _ Ch) as [Lb Sl]. rewrite <- Lb in Z. rewrite <- Sl in Hx.
    destruct (write_new_spec h s1 x f true fl1 (heap fl) n p arr o R Hx Q Z E1 Sh1 Nn Ls Lp Sa Pm L7 C7 NoD OM PA Ini Pc Same SameG) as (s2 & h2 & Ch2 & [(r & G & Cn & FW & Put & NW)|(G & Not & Rs & Gp)]); rewrite G.
    - assert (others_same f s s2) as Os. { rewrite Wr in Ch2. exact (proj1 (proj2 (proj2 (proj1 (changed_trans _ _ _ _ _ _ _ Ch Ch2))))). }
      split; [reflexivity|]. split; [exact Cn|]. split; [exact FW|]. split; [exact Os|]. exists {| heap := h2; writable := writable fl1 |}, r. split; [exact (proj2 Ch2)|]. split; [exact Wr|]. auto.
    - assert (others_same f s s2) as Os. { rewrite Wr in Ch2. exact (proj1 (proj2 (proj2 (proj1 (changed_trans _ _ _ _ _ _ _ Ch Ch2))))). }
      split; [exact Not|]. split; [exact Os|]. exists {| heap := h2; writable := writable fl1 |}. split; [exact (proj2 Ch2)|]. split; [exact Wr|]. auto. }
  destruct (dopen (heap fl) n) as [a|] eqn:D.
  - destruct (dopen_leads _ _ _ _ Nn D) as (Ld & d & Da & Dp). assert (exists l, holds (heap fl) p (ADset d) l) as [l Hl]. { destruct Dp as (a' & o' & A & B & C). exists (o_attrs o'), a', o'. rewrite C. auto. }
    destruct Ow as [Ow|Ow]; [|exfalso; exact (Ow d l Hl)]. rewrite Ow. destruct (unlink_dataset (heap fl) n p d l Sh Nn Hl) as [Sh1 Un].
    destruct (update_changed f fl (unlink (heap fl) n) s Ed) as (s1 & U & Ch1).
    assert ((update f fl (unlink (heap fl) n) ;; ret None) s = Go (@None nat) s1) as U2 by (rewrite (bind_step _ _ _ _ _ U); reflexivity). rewrite (bind_step _ _ _ _ _ U2).
    apply (Rest s1 {| heap := unlink (heap fl) n; writable := writable fl |}); [exact Ch1|exact (proj2 Ch1)|reflexivity|exact Sh1| | |].
    + intros d' l' H'. apply Un in H' as [_ H']. now apply H'.
    + intros q y m Nq. rewrite (Un q y m). tauto.
    + intros m. rewrite (Un p AGroup m). split; [|tauto]. intro H'. destruct (holds_fun _ _ _ _ _ _ (proj1 Sh) Hl H') as [C _]. discriminate C.
  - rewrite (bind_step _ _ _ (@None nat) s) by reflexivity. apply (Rest s fl); [now apply changed_refl|exact Ed|reflexivity|exact Sh| | |]; try tauto.
    intros d l Hl. assert (dataset_at (heap fl) p d) as Dp. { destruct Hl as (a & o' & A & B & C & _). exists a, o'. split; [exact A|]. split; [exact B|]. destruct (o_node o'); [discriminate C|]. cbn in C. congruence. }
    destruct (dopen_at _ _ _ _ (proj1 Sh) Nn Dp) as (a & D' & _). congruence.
Qed.
