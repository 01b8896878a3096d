(** Proofs about writing a part of a dataset which is there already. *)
From Coq Require Import Ascii String.
From Verif Require Import Base.Prelude Base.ListLemmas Text.StrModel H5w.H5wModel H5w.H5wSpec H5w.H5wTable H5w.H5wFiles H5w.H5wArray H5w.H5wPath H5w.H5wHeap H5w.H5wCache H5w.H5wRead H5w.H5wView H5w.H5wGroup H5w.H5wWrite.
From Coq Require Import ZifyBool ZifyNat.
Local Open Scope Z_scope.
Local Open Scope list_scope.

(** ** Extending a dataset *)
Lemma zseq_nth n : forall z (k : nat), (k < n)%nat -> nth_error (zseq z n) k = Some (z + Z.of_nat k).
Proof. induction n as [|n IH]; intros z k L; [lia|]. destruct k as [|k]; cbn; [f_equal; lia|]. rewrite IH by lia. f_equal. lia. Qed.
Lemma flat_nth (c : nat) (l : list (list Z)) : forall k i t, nth_error l k = Some t -> (i < c)%nat ->
  nth_error (flat_map (fun t => map (fun i => i :: t) (zseq 0 c)) l) (i + c * k) = Some (Z.of_nat i :: t).
Proof.
  induction l as [|u l IH]; intros k i t E L; [destruct k; discriminate|]. cbn [flat_map]. assert (List.length (map (fun i => i :: u) (zseq 0 c)) = c) as Lc by now rewrite map_length, zseq_length. destruct k as [|k].
  - injection E as ->. rewrite nth_error_app1 by lia. rewrite Nat.mul_0_r, Nat.add_0_r, nth_error_map, zseq_nth by exact L. reflexivity.
  - rewrite nth_error_app2 by lia. rewrite Lc. replace (i + c * S k - c)%nat with (i + c * k)%nat by lia. now apply IH.
Qed.
Lemma box_nth dims k : index_in dims k -> nth_error (box dims) (Z.to_nat (offset dims k)) = Some k.
Proof.
  induction 1 as [|d x ds is Hd HI IH]; [reflexivity|]. cbn [box offset]. pose proof (offset_range _ _ HI). replace (Z.to_nat (x + d * offset ds is)) with (Z.to_nat x + Z.to_nat d * Z.to_nat (offset ds is))%nat by nia.
  rewrite (flat_nth _ _ _ _ _ IH) by lia. do 2 f_equal. lia.
Qed.
Lemma in_dims_spec dims : forall k, List.length k = List.length dims -> (in_dims dims k = true <-> index_in dims k).
Proof.
  unfold in_dims. induction dims as [|d ds IH]; intros [|x k] L; try discriminate; cbn [zipwith forallb]; [split; [constructor|auto]|]. rewrite Bool.andb_true_iff, IH by (cbn in L; lia).
  split; [intros [A B]; constructor; [lia|exact B]|]. intro H. inversion H; subst. split; [lia|assumption].
Qed.
Lemma elem_some d k : sound_dset d -> index_in (d_dims d) k -> exists e, elem (d_dims d) (d_data d) k = Some e.
Proof. intros (_ & B & _) H. apply offset_range in H. unfold elem. destruct (nth_error _ _) eqn:E; [eauto|]. apply nth_error_None in E. unfold full, zlen in B. lia. Qed.
Lemma bounds_spec (m : list (option Z)) : forall dims, List.length m = List.length dims ->
  (forallb (fun x => x) (zipwith (fun m n => match m with Some m => n <=? m | None => true end) m dims) = true <-> forall k b x, nth_error m k = Some (Some b) -> nth_error dims k = Some x -> x <= b).
Proof.
  induction m as [|y m IH]; intros [|z dims] L; try discriminate; cbn [zipwith forallb].
  - split; [|reflexivity]. intros _ k b x C. destruct k; discriminate.
  - rewrite Bool.andb_true_iff, IH by (cbn in L; lia). split.
    + intros [A B] [|k] b x; cbn; [intros [= ->] [= ->]; lia|apply B].
    + intro H. split; [destruct y as [b|]; [|reflexivity]; specialize (H 0%nat b z eq_refl eq_refl); lia|]. intros k b x. apply (H (S k)).
Qed.
Lemma extend_spec d dims : sound_dset d -> List.length dims = List.length (d_dims d) -> Forall2 Z.le (d_dims d) dims ->
  match extend d dims with
  | Some r => d_dims r = dims /\ still_there d r /\ sound_dset r /\ can_grow d dims
  | None => dims <> d_dims d -> ~ can_grow d dims
  end.
Proof.
  intros Sd L Le. destruct (extend d dims) as [r|] eqn:X.
  - pose proof (sound_extend _ _ _ Sd L Le X) as Sr. unfold extend in X. destruct (d_chunked d) eqn:Cd; [|discriminate]. cbn [andb] in X. destruct (forallb _ _) eqn:B; [|discriminate]. injection X as <-. cbn [d_dims].
    split; [reflexivity|]. split; [|split; [exact Sr|]].
    + split; [repeat split; cbn; auto|]. split; [exact Le|]. split; [exact (proj1 (proj2 Sr))|]. cbn [d_dims d_data]. intros k e Hk Old. unfold elem. rewrite nth_error_map, (box_nth _ _ Hk). cbn [option_map]. f_equal.
      pose proof (index_length _ _ Hk) as Lk. rewrite L in Lk. destruct (in_dims (d_dims d) k) eqn:Q.
      * apply in_dims_spec in Q; [|exact Lk]. destruct Old as [[_ Old]|[Old _]]; [|contradiction]. unfold elem in Old. now apply nth_error_nth.
      * destruct Old as [[Old _]|[_ ->]]; [|reflexivity]. apply in_dims_spec in Old; [congruence|exact Lk].
    + right. split; [exact Cd|]. apply bounds_spec; [|exact B]. destruct Sd as (_ & _ & S3). lia.
  - intros N [C|[C B]]; [contradiction|]. unfold extend in X. rewrite C in X. cbn [andb] in X. apply bounds_spec in B; [|destruct Sd as (_ & _ & S3); lia]. rewrite B in X. discriminate.
Qed.
Lemma still_refl d : sound_dset d -> still_there d d.
Proof.
  intros Sd. split; [repeat split|]. split; [|split; [exact (proj1 (proj2 Sd))|]].
  - induction (d_dims d); constructor; [lia|assumption].
  - intros k e Hk [[_ H]|[N _]]; [exact H|contradiction].
Qed.
Lemma not_larger dims : forall need, Forall2 Z.le dims need -> existsb (fun x => x) (zipwith Z.ltb dims need) = false -> need = dims.
Proof.
  intros need F. induction F as [|x y l m H F IH]; [reflexivity|]. cbn [zipwith existsb]. intro E. apply Bool.orb_false_iff in E as [A B]. f_equal; [lia|auto].
Qed.
Lemma larger dims : forall need, Forall2 Z.le dims need -> existsb (fun x => x) (zipwith Z.ltb dims need) = true -> need <> dims.
Proof.
  intros need F. induction F as [|x y l m H F IH]; [discriminate|]. cbn [zipwith existsb]. intros E C. injection C as -> C. apply Bool.orb_true_iff in E as [A|A]; [lia|]. exact (IH A C).
Qed.
Lemma inside_grown dims : forall st ct, (List.length dims <= List.length st)%nat -> (List.length dims <= List.length ct)%nat -> positive (firstn (List.length dims) ct) ->
  (inside (zipwith Z.max dims (zipwith (fun a b => a + b - 1) (firstn (List.length dims) st) (firstn (List.length dims) ct))) (firstn (List.length dims) st) (firstn (List.length dims) ct) <->
   Forall (fun z => 1 <= z) (firstn (List.length dims) st)).
Proof.
  unfold inside. induction dims as [|d ds IH]; intros [|x st] [|y ct] A B P; cbn in *; try lia; try (split; intros; constructor; fail). inversion P; subst.
  specialize (IH st ct ltac:(lia) ltac:(lia) ltac:(assumption)). split; intro H.
  - inversion H; subst. constructor; [cbn in *; lia|]. now apply IH.
  - inversion H; subst. constructor; [cbn; lia|]. now apply IH.
Qed.
Lemma type_check_write arr d : cls_eqb (t_class (m_ty arr)) (t_class (d_ty d)) = true ->
  (match t_class (m_ty arr) with CString => t_size (m_ty arr) <=? t_size (d_ty d) | _ => t_size (m_ty arr) =? t_size (d_ty d) end = true <-> type_fits (m_ty arr) (d_ty d)).
Proof. intro C. rewrite <- type_check_spec. unfold type_check. rewrite C. cbn [andb]. apply cls_eqb_eq in C. rewrite <- C. reflexivity. Qed.

Lemma c92_part cv s0 t s h f fl n p arr o d l : fresh s0 -> sound_files s0 -> tree_files s0 -> history cv s0 t s -> (forall c r, In (c, r) t -> sound_call c) -> current t h = Some (f, false) ->
  assoc f (disk s) = Some fl -> names n p -> sound_arr arr -> positive (m_dims arr) -> (t_class (m_ty arr) = CInt -> List.length (m_dims arr) <> 7%nat) -> (forall l, w_chunk o = Some l -> (List.length l <= 7)%nat) ->
  holds (heap fl) p (ADset d) l -> w_overwrite o <> Some true -> (forall ct, w_count o = Some ct -> positive (firstn (List.length (d_dims d)) ct)) ->
  match run cv (CWrite h n arr o) s with
  | Go v s' => v = RNone /\ others_same f s s' /\
      exists fl' r st ct, assoc f (disk s') = Some fl' /\ writable fl' = writable fl /\ can_write_part d arr o st ct /\ part_written d arr st ct r /\ dataset_changed p r l (heap fl) (heap fl')
  | Stop s' => (forall st ct, ~ can_write_part d arr o st ct) /\ others_same f s s' /\
      exists fl' r, assoc f (disk s') = Some fl' /\ writable fl' = writable fl /\ still_there d r /\ dataset_changed p r l (heap fl) (heap fl')
  | Wild => False
  end.
Proof.
  intros F S0 T0 H SC Cu Ed Nn Sa Pm N7 C7 Hp Ow Pc. pose proof (shape_history _ _ _ _ F S0 T0 H SC f fl Ed) as Sh. pose proof (inv_history _ _ _ _ F H) as I.
  destruct (current_slot _ _ _ _ _ I Cu) as (J & R & x & Hx & P & Q & Nm & Z). cbn [negb] in Z. cbn [run]. unfold fmap. rewrite (write_data_parts h n arr o N7).
  pose proof Hp as Hp'. apply holds_walk in Hp' as (a & ob & W & Eo & Ko & Ao); [|exact (proj1 Sh)]. assert (dset_at (heap fl) a = Some d) as Da. { apply dset_at_some. exists ob. split; [exact Eo|]. destruct (o_node ob); [discriminate Ko|]. cbn in Ko. congruence. }
  pose proof (sound_dset_at _ _ _ (proj1 Sh) Da) as Sd.
  assert (dataset_changed p d l (heap fl) (heap fl)) as Same.
  { intros q y m. split; [|intros [(-> & -> & ->)|[_ K]]; assumption]. intro K. destruct (list_eq_dec (list_eq_dec Ascii.ascii_dec) q p) as [->|Nq]; [left|right; auto]. destruct (holds_fun _ _ _ _ _ _ (proj1 Sh) K Hp) as [-> ->]. auto. }
  assert ((forall st ct, ~ can_write_part d arr o st ct) -> (forall st ct, ~ can_write_part d arr o st ct) /\ others_same f s s /\
      exists fl' r, assoc f (disk s) = Some fl' /\ writable fl' = writable fl /\ still_there d r /\ dataset_changed p r l (heap fl) (heap fl')) as KS.
  { intro C. split; [exact C|]. split; [intros g _; reflexivity|]. exists fl, d. split; [exact Ed|]. split; [reflexivity|]. split; [now apply still_refl|exact Same]. }
  destruct (match w_gzip o, w_szip o with Some g, Some true => negb (0 <? g) | _, _ => true end) eqn:OM.
  2: { unfold mbind at 1 2. cbn [require abort]. apply KS. intros st ct (C & _). apply one_method_check in C. congruence. }
  apply one_method_check in OM. unfold mbind at 1. rewrite (bind_step _ _ _ tt s) by reflexivity. rewrite (bind_step _ _ _ _ _ (open_slot_ok _ _ _ R Hx P)). rewrite Q. cbn [negb].
  rewrite (bind_step _ _ _ tt s) by reflexivity. destruct (match w_start o, w_count o with Some _, None | None, Some _ => false | _, _ => true end) eqn:PA.
  2: { unfold mbind at 1. cbn [require abort]. apply KS. intros st ct (_ & A & B & _). rewrite A, B in PA. discriminate. }
  rewrite (bind_step _ _ _ tt s) by reflexivity.
  assert ((match w_chunk o with Some l => if 7 <? zlen l then wild else ret tt | None => ret tt end) s = Go tt s) as CK.
  { destruct (w_chunk o) as [k|]; [|reflexivity]. specialize (C7 k eq_refl). replace (7 <? zlen k) with false by (unfold zlen; lia). reflexivity. }
  rewrite (bind_step _ _ _ _ _ CK). rewrite (bind_step _ _ _ _ _ (file_of_ok _ _ _ _ _ Z Ed)). cbn [fst snd]. cbn zeta. rewrite (dopen_names _ _ _ Nn), W, Da.
  rewrite (bind_step _ _ _ (Some a) s) by (destruct (w_overwrite o) as [[]|]; [congruence|reflexivity|reflexivity]).
  set (m := mbind (file_of (s_id x)) _).
  assert (forall s', m s = Stop s' -> (forall st ct, ~ can_write_part d arr o st ct) -> s' = s ->
     match (match (let! a0 := m in write_core (s_id x) arr o (m_dims arr) a0) s with Go _ s' => ret RNone s' | Stop s' => Stop s' | Wild => Wild end) with
     | Stop s' => (forall st ct, ~ can_write_part d arr o st ct) /\ others_same f s s' /\ exists fl' r, assoc f (disk s') = Some fl' /\ writable fl' = writable fl /\ still_there d r /\ dataset_changed p r l (heap fl) (heap fl')
     | _ => False end) as KM.
  { intros s' E C ->. rewrite (bind_stop _ _ _ _ E). now apply KS. }
  assert (m s = (let! d := ret d in
          require (cls_eqb (t_class (m_ty arr)) (t_class (d_ty d))) ;;
          require (match t_class (m_ty arr) with CString => t_size (m_ty arr) <=? t_size (d_ty d) | _ => t_size (m_ty arr) =? t_size (d_ty d) end) ;;
          match w_start o, w_count o with
          | Some st, Some ct =>
              require ((zlen (d_dims d) <=? zlen st) && (zlen (d_dims d) <=? zlen ct)) ;;
              (if existsb (fun x => x) (zipwith Z.ltb (d_dims d) (grown d st ct)) then
                 let! d' := of_option (extend d (grown d st ct)) in
                 update f fl (set_dset (heap fl) a d')
               else ret tt) ;;
              ret a
          | _, _ => abort
          end) s) as Em.
  { unfold m. rewrite (bind_step _ _ _ _ _ (file_of_ok _ _ _ _ _ Z Ed)). cbn [fst snd]. rewrite Da. reflexivity. }
  assert (forall P : Prop, (match (match (let! a0 := m in write_core (s_id x) arr o (m_dims arr) a0) s with Go _ s' => ret RNone s' | Stop s' => Stop s' | Wild => Wild end) with
     | Stop s' => (forall st ct, ~ can_write_part d arr o st ct) /\ others_same f s s' /\ exists fl' r, assoc f (disk s') = Some fl' /\ writable fl' = writable fl /\ still_there d r /\ dataset_changed p r l (heap fl) (heap fl')
     | _ => False end -> P) -> m s = Stop s -> (forall st ct, ~ can_write_part d arr o st ct) -> P) as KP by (intros P0 K E C; apply K; eapply KM; eauto).
  clear KM. rewrite (bind_step _ _ _ d s) in Em by reflexivity.
  match goal with |- ?G => assert (m s = Stop s -> (forall st ct, ~ can_write_part d arr o st ct) -> G) as KG end.
  { apply KP. destruct (match (let! a0 := m in write_core (s_id x) arr o (m_dims arr) a0) s with Go _ s' => ret RNone s' | Stop s' => Stop s' | Wild => Wild end); tauto. }
  clear KP. clearbody m. destruct (cls_eqb (t_class (m_ty arr)) (t_class (d_ty d))) eqn:TC.
  2: { apply KG; [exact Em|]. intros st ct (_ & _ & _ & _ & _ & (C & _) & _). apply cls_eqb_eq in C. congruence. }
  rewrite (bind_step _ _ _ tt s) in Em by reflexivity. pose proof (type_check_write arr d TC) as TS. destruct (match t_class (m_ty arr) with CString => _ | _ => _ end) eqn:TZ.
  2: { apply KG; [exact Em|]. intros st ct (_ & _ & _ & _ & _ & C & _). apply TS in C. discriminate. }
  rewrite (bind_step _ _ _ tt s) in Em by reflexivity. assert (type_fits (m_ty arr) (d_ty d)) as TF by now apply TS. clear TS TZ TC.
  destruct (w_start o) as [st|] eqn:Es. 2: { apply KG; [exact Em|]. intros st ct (_ & C & _). congruence. }
  destruct (w_count o) as [ct|] eqn:Ec. 2: { discriminate PA. }
  destruct ((zlen (d_dims d) <=? zlen st) && (zlen (d_dims d) <=? zlen ct)) eqn:LL.
  2: { apply KG; [exact Em|]. intros st' ct' (_ & A & B & C & D & _). assert (st' = st) by congruence. assert (ct' = ct) by congruence. subst st' ct'. unfold zlen in LL. lia. }
  rewrite (bind_step _ _ _ tt s) in Em by reflexivity. assert (List.length (grown d st ct) = List.length (d_dims d) /\ Forall2 Z.le (d_dims d) (grown d st ct)) as [Lg Leg] by (apply need_dims; lia).
  assert ((List.length (d_dims d) <= List.length st)%nat /\ (List.length (d_dims d) <= List.length ct)%nat) as [Ls Lc] by (unfold zlen in LL; lia).
  specialize (Pc ct eq_refl). pose proof (inside_grown (d_dims d) st ct Ls Lc Pc) as IG. fold (grown d st ct) in IG.
  (* the dataset [r], extended or not, and then the elements *)
  assert (forall s1 r h1, m s = Go a s1 -> changed f (writable fl) h1 s s1 -> shape h1 -> walk h1 0 p = Some a -> dset_at h1 a = Some r -> sound_dset r -> d_dims r = grown d st ct -> still_there d r -> can_grow d (grown d st ct) ->
     dataset_changed p r l (heap fl) h1 ->
     match (match (let! a0 := m in write_core (s_id x) arr o (m_dims arr) a0) s with Go _ s' => ret RNone s' | Stop s' => Stop s' | Wild => Wild end) with
     | Go v s' => v = RNone /\ others_same f s s' /\
       exists fl' r st ct, assoc f (disk s') = Some fl' /\ writable fl' = writable fl /\ can_write_part d arr o st ct /\ part_written d arr st ct r /\ dataset_changed p r l (heap fl) (heap fl')
     | Stop s' => (forall st ct, ~ can_write_part d arr o st ct) /\ others_same f s s' /\
       exists fl' r, assoc f (disk s') = Some fl' /\ writable fl' = writable fl /\ still_there d r /\ dataset_changed p r l (heap fl) (heap fl')
     | Wild => False
     end) as Rest.
  { intros s1 r h1 E1 Ch1 Sh1 W1 D1 Sr Dr St Gr DC. rewrite (bind_step _ _ _ _ _ E1). destruct (changed_lib _ _ _ _ _ Ch1) as [Lb _]. rewrite <- Lb in Z.
    assert (List.length (d_dims r) = List.length (d_dims d)) as Lr by now rewrite Dr.
    assert (long_enough (List.length (d_dims r)) (w_start o) (w_count o)) as LE by (rewrite Es, Ec, Lr; split; assumption).
    pose proof (write_core_spec (s_id x) f true {| heap := h1; writable := writable fl |} arr o a r s1 Z (proj2 Ch1) D1 Sr Sa Pm LE) as WC. cbn zeta in WC. rewrite Es, Ec in WC. cbn [part fst snd heap writable] in WC. rewrite Lr in WC.
    destruct (WC Pc) as [(s2 & b & WG & Ch2 & Lbd & Ro & Ins & Wr)|(WG & Not)]; rewrite WG.
    - split; [reflexivity|]. split; [exact (proj1 (proj2 (proj2 (proj1 (changed_trans _ _ _ _ _ _ _ Ch1 Ch2)))))|]. eexists _, (with_data r b), st, ct. split; [exact (proj2 Ch2)|]. split; [reflexivity|]. rewrite Dr in Ins.
      split; [split; [exact OM|]; split; [exact Es|]; split; [exact Ec|]; split; [exact Ls|]; split; [exact Lc|]; split; [exact TF|]; split; [now apply IG|]; split; [exact Gr|exact Ro]|].
      destruct St as ((K1 & K2 & K3) & _ & _ & K4). split.
      + split; [repeat split; cbn; assumption|]. split; [exact Dr|]. destruct Wr as (W2 & W3 & W4). split; [exact W2|]. split; [exact W3|]. intros k e Hk Nk Old. apply W4; auto.
      + destruct (change_dset h1 a r (with_data r b) p Sh1 W1 D1 (sound_with_data r b Sr Lbd)) as (_ & lp & Hlp & CD). apply DC in Hlp as [(_ & _ & ->)|[C _]]; [|contradiction].
        intros q y m0. cbn [heap]. rewrite (CD q y m0), (DC q y m0). tauto.
    - split; [|split; [exact (proj1 (proj2 (proj2 (proj1 Ch1))))|]].
      + intros st' ct' (_ & A & B & _ & _ & _ & C & _ & D). assert (st' = st) by congruence. assert (ct' = ct) by congruence. subst st' ct'. apply Not. split; [exact D|]. rewrite Dr. now apply IG.
      + eexists _, r. split; [exact (proj2 Ch1)|]. split; [reflexivity|]. auto. }
  destruct (existsb (fun x => x) (zipwith Z.ltb (d_dims d) (grown d st ct))) eqn:Gw.
  - pose proof (larger _ _ Leg Gw) as NG. pose proof (extend_spec d (grown d st ct) Sd Lg Leg) as ES. destruct (extend d (grown d st ct)) as [r|].
    2: { apply KG; [exact Em|]. intros st' ct' (_ & A & B & _ & _ & _ & _ & C & _). assert (st' = st) by congruence. assert (ct' = ct) by congruence. subst st' ct'. exact (ES NG C). }
    destruct ES as (Dr & St & Sr & Gr). destruct (update_changed f fl (set_dset (heap fl) a r) s Ed) as (s1 & U & Ch1).
    destruct (change_dset (heap fl) a d r p Sh W Da Sr) as (Sh1 & lp & Hlp & CD). destruct (holds_fun _ _ _ _ _ _ (proj1 Sh) Hlp Hp) as [_ ->].
    assert (holds (set_dset (heap fl) a r) p (ADset r) l) as Hr by (apply CD; auto).
    apply (Rest s1 r (set_dset (heap fl) a r)); try assumption.
    + rewrite Em. unfold mbind. cbn [of_option]. cbn [ret]. change (ret r s) with (Go r s). cbn beta iota. rewrite U. reflexivity.
    + unfold set_dset. rewrite Eo. rewrite (walk_change _ _ _ _ Eo); [exact W|]. apply dset_at_some in Da as (o2 & E2 & O2). assert (o2 = ob) by congruence. subst o2. rewrite O2. exact Logic.I.
    + apply dset_at_some. unfold set_dset. rewrite Eo. eexists. split; [apply nth_error_set_nth_eq; apply nth_error_Some; congruence|reflexivity].
  - pose proof (not_larger _ _ Leg Gw) as NG. apply (Rest s d (heap fl)); try assumption; try congruence.
    + now apply changed_refl.
    + now apply still_refl.
    + now left.
Qed.
