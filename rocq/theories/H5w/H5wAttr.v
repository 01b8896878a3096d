(** Proofs about attributes. *)
From Coq Require Import Ascii String.
From Verif Require Import Base.Prelude Base.ListLemmas Text.StrModel H5w.H5wModel H5w.H5wSpec H5w.H5wAttrSpec H5w.H5wTable H5w.H5wFiles H5w.H5wArray H5w.H5wPath H5w.H5wHeap H5w.H5wCache H5w.H5wRead H5w.H5wView H5w.H5wGroup H5w.H5wWrite.
From Coq Require Import ZifyBool ZifyNat.
Local Open Scope Z_scope.
Local Open Scope list_scope.

Lemma fit_id m b : (List.length b <= m)%nat -> last b "x"%char <> " "%char -> fit m b = b.
Proof. intros L N. unfold fit. rewrite firstn_all2 by exact L. now apply trim_id. Qed.
Lemma open_place h a loc p : sound h -> resolve h 0 loc = walk h 0 p -> walk h 0 p = Some a ->
  match dopen h loc with Some b => Some b | None => gopen h 0 loc end = Some a.
Proof.
  intros S E W. unfold dopen, gopen. rewrite E, W. pose proof (walk_in _ _ S _ W) as L. apply nth_error_Some in L. destruct (nth_error h a) as [o|] eqn:N; [|contradiction].
  unfold dset_at, links_of. rewrite N. now destruct (o_node o).
Qed.
Lemma attr_name_split n p c : attr_name n p c -> exists loc k, n = loc ++ slash :: c ++ repeat " "%char k /\ last_slash n = zlen loc + 1 /\ upto n (last_slash n - 1) = loc /\ from (trim n) (last_slash n + 1) = c /\
  loc <> [] /\ last loc "x"%char <> " "%char /\ (List.length loc <= S (List.length (spell p)))%nat /\ forall h, resolve h 0 loc = walk h 0 p.
Proof.
  intros ((Nc & NS & Lc) & G & k & loc & -> & HL). exists loc, k. split; [reflexivity|].
  assert (last_slash (loc ++ slash :: c ++ repeat " "%char k) = zlen loc + 1) as LS.
  { unfold last_slash. rewrite last_slash_app. cbn [last_slash_from]. rewrite Ascii.eqb_refl, last_slash_app, (last_slash_none c NS), last_slash_blanks. lia. }
  rewrite LS. split; [reflexivity|]. split; [|split].
  - unfold upto, zlen. replace (Z.to_nat _) with (List.length loc) by lia. rewrite firstn_app, Nat.sub_diag, firstn_all. cbn. apply app_nil_r.
  - assert (trim (loc ++ slash :: c ++ repeat " "%char k) = loc ++ slash :: c) as ->.
    { replace (loc ++ slash :: c ++ repeat " "%char k) with ((loc ++ slash :: c) ++ repeat " "%char k) by (rewrite <- app_assoc; reflexivity). rewrite trim_app_blanks. apply trim_id.
      change (slash :: c) with ([slash] ++ c). rewrite app_assoc, last_app by exact Nc. exact Lc. }
    unfold from, zlen. replace (Z.to_nat _) with (List.length loc + 1)%nat by lia. rewrite skipn_app, skipn_all2 by lia. replace (List.length loc + 1 - List.length loc)%nat with 1%nat by lia. reflexivity.
  - destruct p as [|y p].
    + subst loc. split; [discriminate|]. split; [discriminate|]. split; [cbn; lia|]. intro h. reflexivity.
    + assert (y :: p <> []) as NP by discriminate. destruct (names_group _ NP G) as [N1 N2]. pose proof (spell_nonempty _ NP G) as NE. pose proof (spell_last _ NP G) as SL. destruct HL as [-> | ->].
      * split; [exact NE|]. split; [exact SL|]. split; [lia|]. intro h. now apply names_resolve.
      * split; [discriminate|]. split; [change (slash :: spell (y :: p)) with ([slash] ++ spell (y :: p)); now rewrite last_app|]. split; [cbn [List.length]; lia|]. intro h. now apply names_resolve.
Qed.
Lemma attr_place_spec len h n p c : sound h -> attr_name n p c -> (List.length (spell p) < len)%nat -> (List.length c <= len)%nat ->
  attr_place len h n = match walk h 0 p with Some a => Some (a, c) | None => None end.
Proof.
  intros S A L1 L2. destruct (attr_name_split _ _ _ A) as (loc & k & E & LS & U & Fr & NE & Ll & Len & Rs). unfold attr_place. rewrite U, Fr. pose proof (zlen_nonneg loc). replace (last_slash n =? 0) with false by lia.
  rewrite (fit_id len loc) by (assumption || lia). rewrite (fit_id len c) by (assumption || apply A). destruct (walk h 0 p) as [a|] eqn:W.
  - pose proof (open_place h a loc p S (Rs h) W) as O. destruct (dopen h loc) as [b|]; [congruence|]. now rewrite O.
  - unfold dopen, gopen. now rewrite Rs, W.
Qed.
Lemma set_attrs_spec h a p x l m : shape h -> walk h 0 p = Some a -> holds h p x l -> NoDup (map fst m) -> Forall (fun e => full (a_dims (snd e)) (a_data (snd e))) m ->
  shape (set_attrs h a m) /\ attrs_changed p x m h (set_attrs h a m).
Proof.
  intros [S T] W Hp ND Fu. pose proof (sound_set_attrs h a m S ND Fu) as S'. split; [split; [exact S'|now apply tree_set_attrs]|]. apply holds_walk in Hp as (a' & o & W' & E & K & _); [|exact S]. assert (a' = a) by congruence. subst a'.
  unfold set_attrs in *. rewrite E in *. assert (match o_node o, o_node {| o_node := o_node o; o_attrs := m |} with Group l, Group l' => l' = l | Dset _, Dset _ => True | _, _ => False end) as Kd by (cbn; destruct (o_node o); auto).
  intros q y z. rewrite (holds_change h a o {| o_node := o_node o; o_attrs := m |} S E Kd p S' T W q y z). cbn [o_node o_attrs]. rewrite K. tauto.
Qed.
Lemma changed_same p x l h h' : sound h -> holds h p x l -> attrs_changed p x l h h' -> same_objects h h'.
Proof.
  intros S Hp C q y m. rewrite (C q y m). split; [intros [(-> & -> & ->)|[_ K]]; assumption|]. intro K. destruct (list_eq_dec (list_eq_dec Ascii.ascii_dec) q p) as [->|N]; [left|right; auto].
  destruct (holds_fun _ _ _ _ _ _ S K Hp) as [-> ->]. auto.
Qed.
Lemma attrs_twice p x m1 m2 h h1 h2 : attrs_changed p x m1 h h1 -> attrs_changed p x m2 h1 h2 -> attrs_changed p x m2 h h2.
Proof. intros A B q y l. rewrite (B q y l), (A q y l). tauto. Qed.
Lemma c93_write_attribute cv s0 t s h f fl n p c arr o : fresh s0 -> sound_files s0 -> tree_files s0 -> history cv s0 t s -> (forall c r, In (c, r) t -> sound_call c) -> current t h = Some (f, false) ->
  assoc f (disk s) = Some fl -> attr_name n p c -> (List.length (spell p) <= 255)%nat -> (List.length c <= 256)%nat -> sound_arr arr ->
  match run cv (CWriteAttr h n arr o) s with
  | Go v s' => v = RNone /\ others_same f s s' /\ exists fl' x l m, assoc f (disk s') = Some fl' /\ writable fl' = writable fl /\ holds (heap fl) p x l /\ (o = Some true \/ assoc c l = None) /\
      attrs_changed p x m (heap fl) (heap fl') /\ NoDup (map fst m) /\ assoc c m = Some {| a_ty := m_ty arr; a_dims := m_dims arr; a_data := m_buf arr |} /\ forall e, e <> c -> assoc e m = assoc e l
  | Stop s' => (nothing_at (heap fl) p \/ (o <> Some true /\ exists a, attribute_at (heap fl) p c a)) /\ others_same f s s' /\
      exists fl', assoc f (disk s') = Some fl' /\ writable fl' = writable fl /\ same_objects (heap fl) (heap fl')
  | Wild => False
  end.
Proof.
  intros F S0 T0 H SC Cu Ed An Ls Lc [Sa1 Sa2]. pose proof (shape_history _ _ _ _ F S0 T0 H SC f fl Ed) as Sh. pose proof (inv_history _ _ _ _ F H) as I.
  destruct (current_slot _ _ _ _ _ I Cu) as (J & R & x & Hx & P & Q & Nm & Z). cbn [negb] in Z. cbn [run]. unfold fmap, write_attribute. unfold mbind at 1.
  rewrite (bind_step _ _ _ _ _ (open_slot_ok _ _ _ R Hx P)). rewrite Q. cbn [negb]. rewrite (bind_step _ _ _ tt s) by reflexivity. rewrite (bind_step _ _ _ _ _ (file_of_ok _ _ _ _ _ Z Ed)). cbn [fst snd].
  rewrite (attr_place_spec 256 _ _ _ _ (proj1 Sh) An ltac:(lia) Lc). destruct (walk (heap fl) 0 p) as [a|] eqn:W.
  2: { unfold mbind at 1. cbn [of_option abort]. change (abort s) with (@Stop (nat * str) s). cbn beta iota. split; [left; now apply (nothing_walk _ _ (proj1 Sh))|]. split; [intros g _; reflexivity|]. exists fl. split; [exact Ed|]. split; [reflexivity|]. intros q y l. reflexivity. }
  cbn [of_option]. rewrite (bind_step _ _ _ (a, c) s) by reflexivity. cbn [fst snd].
  assert (forallb (Z.leb 0) (m_dims arr) = true) as Nn. { apply forallb_forall. rewrite Forall_forall in Sa1. intros z Hz. specialize (Sa1 z Hz). cbn in Sa1. lia. }
  rewrite Nn. rewrite (bind_step _ _ _ tt s) by reflexivity. cbn zeta.
  pose proof (walk_in _ _ (proj1 Sh) _ W) as Lt. apply nth_error_Some in Lt. destruct (nth_error (heap fl) a) as [ob|] eqn:Eo; [clear Lt|contradiction].
  assert (holds (heap fl) p (kind (o_node ob)) (o_attrs ob)) as Hp by (apply (holds_walk _ _ _ _ (proj1 Sh)); exists a, ob; auto).
  assert (attrs_at (heap fl) a = o_attrs ob) as -> by (unfold attrs_at; now rewrite Eo). pose proof (sound_obj_at _ _ _ (proj1 Sh) Eo) as (_ & ND & Fu).
  set (l1 := match o with Some true => del c (o_attrs ob) | _ => o_attrs ob end).
  assert (NoDup (map fst l1) /\ Forall (fun e => full (a_dims (snd e)) (a_data (snd e))) l1) as [ND1 Fu1].
  { unfold l1. destruct o as [[]|]; auto. split; [now apply del_NoDup|]. apply Forall_forall. intros e He. apply del_incl in He. rewrite Forall_forall in Fu. auto. }
  assert (forall e, e <> c -> assoc e l1 = assoc e (o_attrs ob)) as Oth. { intros e Ne. unfold l1. destruct o as [[]|]; auto. rewrite assoc_del by exact ND. apply str_eqb_neq in Ne. now rewrite Ne. }
  destruct (set_attrs_spec (heap fl) a p _ _ l1 Sh W Hp ND1 Fu1) as [Sh1 C1]. destruct (update_changed f fl (set_attrs (heap fl) a l1) s Ed) as (s1 & U & Ch1). rewrite (bind_step _ _ _ _ _ U).
  assert (require (match c with [] => false | _ => true end) s1 = Go tt s1) as Rc by (destruct An as ((A & _) & _); destruct c; [contradiction|reflexivity]). rewrite (bind_step _ _ _ _ _ Rc).
  destruct (assoc c l1) as [old|] eqn:Ac.
  - unfold mbind at 1. cbn [require abort]. change (abort s1) with (@Stop unit s1). cbn beta iota.
    assert (o <> Some true) as No. { intros ->. unfold l1 in Ac. rewrite assoc_del, str_eqb_refl in Ac by exact ND. discriminate. }
    assert (l1 = o_attrs ob) as El by (unfold l1; destruct o as [[]|]; congruence). split; [right; split; [exact No|]; exists old, (kind (o_node ob)), (o_attrs ob); split; [exact Hp|congruence]|].
    split; [exact (proj1 (proj2 (proj2 (proj1 Ch1))))|]. eexists. split; [exact (proj2 Ch1)|]. split; [reflexivity|]. cbn [heap]. rewrite El in *. eapply changed_same; [exact (proj1 Sh)|exact Hp|exact C1].
  - rewrite (bind_step _ _ _ tt s1) by reflexivity. pose proof (update_changed f fl) as UC.
    set (new := {| a_ty := m_ty arr; a_dims := m_dims arr; a_data := firstn (Z.to_nat (prod (m_dims arr))) (m_buf arr) |}).
    assert (new = {| a_ty := m_ty arr; a_dims := m_dims arr; a_data := m_buf arr |}) as En. { unfold new. f_equal. apply firstn_all2. unfold full, zlen in Sa2. lia. }
    assert (NoDup (map fst (l1 ++ [(c, new)]))) as ND2. { rewrite map_app. apply NoDup_snoc; [exact ND1|]. now apply assoc_none. }
    assert (Forall (fun e => full (a_dims (snd e)) (a_data (snd e))) (l1 ++ [(c, new)])) as Fu2 by (apply Forall_app; split; [exact Fu1|]; constructor; [rewrite En; exact Sa2|constructor]).
    destruct (set_attrs_spec (heap fl) a p _ _ _ Sh W Hp ND2 Fu2) as [Sh2 C2].
    assert (exists s2, update f fl (set_attrs (heap fl) a (l1 ++ [(c, new)])) s1 = Go tt s2 /\ changed f (writable fl) (set_attrs (heap fl) a (l1 ++ [(c, new)])) s1 s2) as (s2 & U2 & Ch2).
    { eexists. split; [reflexivity|]. split; [|cbn; now rewrite assoc_put, str_eqb_refl]. repeat split; cbn.
      - intros g N. rewrite assoc_put. apply str_eqb_neq in N. now rewrite N.
      - intros _. rewrite assoc_put, str_eqb_refl. discriminate. }
    rewrite U2. split; [reflexivity|]. split; [exact (proj1 (proj2 (proj2 (proj1 (changed_trans _ _ _ _ _ _ _ Ch1 Ch2)))))|].
    eexists _, (kind (o_node ob)), (o_attrs ob), (l1 ++ [(c, new)]). split; [exact (proj2 Ch2)|]. split; [reflexivity|]. split; [exact Hp|]. split; [|split; [exact C2|split; [exact ND2|split]]].
    + unfold l1 in Ac. destruct o as [[]|]; auto.
    + rewrite assoc_app, Ac. cbn [assoc]. rewrite str_eqb_refl. now rewrite En.
    + intros e Ne. rewrite assoc_app, (Oth e Ne). destruct (assoc e (o_attrs ob)); [reflexivity|]. cbn [assoc]. apply str_eqb_neq in Ne. now rewrite Ne.
Qed.

(** ** Reading *)
Lemma write_at_start {A} (data old : list A) : zlen data <= zlen old ->
  zlen (write_at old 0 data) = zlen old /\ (forall i e, nth_error data i = Some e -> nth_error (write_at old 0 data) i = Some e) /\ (forall i, (List.length data <= i)%nat -> nth_error (write_at old 0 data) i = nth_error old i).
Proof.
  intro L. split; [unfold zlen in *; rewrite write_at_length; unfold zlen; lia|]. unfold write_at. cbn [Z.to_nat firstn app Nat.add]. split.
  - intros i e E. rewrite nth_error_app1; [exact E|]. apply nth_error_Some. congruence.
  - intros i Li. rewrite nth_error_app2 by exact Li. rewrite nth_error_skipn'. f_equal. lia.
Qed.
Lemma c94_read_attribute cv s0 t s h f ro fl n p c arr : fresh s0 -> sound_files s0 -> history cv s0 t s -> (forall c r, In (c, r) t -> sound_call c) -> current t h = Some (f, ro) ->
  assoc f (disk s) = Some fl -> attr_name n p c -> (List.length (spell p) <= 255)%nat -> (List.length c <= 256)%nat -> (forall a, attribute_at (heap fl) p c a -> zlen (a_data a) <= zlen (m_buf arr)) ->
  match run cv (CReadAttr h n arr) s with
  | Go v s' => s' = s /\ exists a g b, v = RArr b /\ attribute_at (heap fl) p c a /\ attr_as cv (a_ty a) (m_ty arr) g /\ attr_filled g (a_data a) (m_buf arr) b
  | Stop s' => s' = s /\ forall a g, attribute_at (heap fl) p c a -> ~ attr_as cv (a_ty a) (m_ty arr) g
  | Wild => False
  end.
Proof.
  intros F S0 H SC Cu Ed An Ls Lc Room. pose proof (sound_history _ _ _ _ F S0 H SC f fl Ed) as Sf. pose proof (inv_history _ _ _ _ F H) as I.
  destruct (current_slot _ _ _ _ _ I Cu) as (J & R & x & Hx & P & Q & Nm & Z). cbn [run]. unfold fmap, read_attribute. unfold mbind at 1.
  rewrite (bind_step _ _ _ _ _ (open_slot_ok _ _ _ R Hx P)). rewrite (bind_step _ _ _ _ _ (file_of_ok _ _ _ _ _ Z Ed)). cbn [fst snd].
  rewrite (attr_place_spec 256 _ _ _ _ Sf An ltac:(lia) Lc). destruct (walk (heap fl) 0 p) as [a|] eqn:W.
  2: { split; [reflexivity|]. intros a g (y & l & Hp & _). apply holds_walk in Hp as (z & o & Wz & _); [congruence|exact Sf]. }
  cbn [of_option]. rewrite (bind_step _ _ _ (a, c) s) by reflexivity. cbn [fst snd]. pose proof (walk_in _ _ Sf _ W) as Lt. apply nth_error_Some in Lt. destruct (nth_error (heap fl) a) as [ob|] eqn:Eo; [clear Lt|contradiction].
  assert (attrs_at (heap fl) a = o_attrs ob) as -> by (unfold attrs_at; now rewrite Eo). assert (holds (heap fl) p (kind (o_node ob)) (o_attrs ob)) as Hp by (apply (holds_walk _ _ _ _ Sf); exists a, ob; auto).
  destruct (assoc c (o_attrs ob)) as [at_|] eqn:Ac.
  2: { split; [reflexivity|]. intros a' g (y & l & Hl & El). destruct (holds_fun _ _ _ _ _ _ Sf Hl Hp) as [_ ->]. congruence. }
  cbn [of_option]. rewrite (bind_step _ _ _ at_ s) by reflexivity. assert (attribute_at (heap fl) p c at_) as Aa by (eexists _, _; split; [exact Hp|exact Ac]). specialize (Room _ Aa).
  set (cvt := match t_class (a_ty at_), t_class (m_ty arr) with CString, CString => Some (conv (m_ty arr)) | _, _ => _ end).
  assert (match cvt with Some g => attr_as cv (a_ty at_) (m_ty arr) g | None => forall g, ~ attr_as cv (a_ty at_) (m_ty arr) g end) as K.
  { unfold cvt, attr_as. destruct (t_class (a_ty at_)) eqn:C1, (t_class (m_ty arr)) eqn:C2; try (intro e; apply conv_as_type);
      cbn [cls_eqb andb]; try (destruct (t_size (a_ty at_) =? t_size (m_ty arr)) eqn:TS; [left; split; [reflexivity|]; split; [lia|reflexivity]|]);
      (destruct (cv (a_ty at_) (m_ty arr)) as [g|] eqn:G; [right; split; [intros [C D]; first [discriminate C|lia]|reflexivity]|intros g [(C & D & _)|[_ C]]; first [discriminate C|lia]]). }
  destruct cvt as [g|].
  - cbn [of_option]. rewrite (bind_step _ _ _ g s) by reflexivity. replace (zlen (m_buf arr) <? zlen (a_data at_)) with false by lia. split; [reflexivity|]. exists at_, g. eexists. split; [reflexivity|]. split; [exact Aa|]. split; [exact K|].
    destruct (write_at_start (map g (a_data at_)) (m_buf arr)) as (B1 & B2 & B3); [now rewrite zlen_map|]. split; [exact B1|]. split; [|rewrite map_length in B3; exact B3]. intros i e Ei. apply B2. now apply map_nth_error.
  - split; [reflexivity|]. intros a' g (y & l & Hl & El). destruct (holds_fun _ _ _ _ _ _ Sf Hl Hp) as [_ ->]. assert (a' = at_) by congruence. subst a'. apply K.
Qed.
Lemma attr_as_same cv t g : attr_as cv t t g -> forall e, g e = as_type t e.
Proof. unfold attr_as, as_type. destruct (t_class t) eqn:C; try exact (fun K => K); (intros [(_ & _ & K)|[K _]]; [exact K|exfalso; apply K; auto]). Qed.
Lemma c94_round_trip cv s0 t s h f n p c arr o s' room : fresh s0 -> sound_files s0 -> tree_files s0 -> history cv s0 t s -> (forall c r, In (c, r) t -> sound_call c) -> current t h = Some (f, false) ->
  attr_name n p c -> (List.length (spell p) <= 255)%nat -> (List.length c <= 256)%nat -> sound_arr arr -> run cv (CWriteAttr h n arr o) s = Go RNone s' ->
  m_ty room = m_ty arr -> zlen (m_buf arr) <= zlen (m_buf room) ->
  exists b, run cv (CReadAttr h n room) s' = Go (RArr b) s' /\ attr_filled (as_type (m_ty arr)) (m_buf arr) (m_buf room) b.
Proof.
  intros F S0 T0 H SC Cu An Ls Lc Sa Rw Rt Room. pose proof (inv_history _ _ _ _ F H) as I. destruct (current_slot _ _ _ _ _ I Cu) as (J & R & x & Hx & P & Q & Nm & Z).
  destruct (assoc f (disk s)) as [fl|] eqn:Ed. 2: { exfalso. eapply (j_disk _ _ J); [apply zassoc_In; exact Z|exact Ed]. }
  pose proof (c93_write_attribute cv s0 t s h f fl n p c arr o F S0 T0 H SC Cu Ed An Ls Lc Sa) as W. rewrite Rw in W. destruct W as (_ & _ & fl' & y & l & m & E' & _ & Hy & _ & Ch & ND & Ac & _).
  assert (history cv s0 ((CWriteAttr h n arr o, RNone) :: t) s') as H' by (eapply h_call; eauto).
  assert (forall c0 r0, In (c0, r0) ((CWriteAttr h n arr o, RNone) :: t) -> sound_call c0) as SC'. { intros c0 r0 [[= <- <-]|K]; [exact Sa|eauto]. }
  pose proof (sound_history _ _ _ _ F S0 H' SC' f fl' E') as Sf. set (a := {| a_ty := m_ty arr; a_dims := m_dims arr; a_data := m_buf arr |}) in *.
  assert (holds (heap fl') p y m) as Hm by (apply Ch; auto). assert (forall a', attribute_at (heap fl') p c a' -> a' = a) as Un. { intros a' (z & l' & Hz & Ea). destruct (holds_fun _ _ _ _ _ _ Sf Hz Hm) as [_ ->]. congruence. }
  assert (current ((CWriteAttr h n arr o, RNone) :: t) h = Some (f, false)) as Cu' by exact Cu.
  pose proof (c94_read_attribute cv s0 _ s' h f false fl' n p c room F S0 H' SC' Cu' E' An Ls Lc ltac:(intros a' K; rewrite (Un _ K); exact Room)) as RD.
  assert (attribute_at (heap fl') p c a) as Aa by (eexists _, _; split; [exact Hm|exact Ac]).
  destruct (run cv (CReadAttr h n room) s') as [v s2|s2|]; [|exfalso|contradiction].
  - destruct RD as (-> & a' & g & b & -> & Ka & Kg & Kf). exists b. split; [reflexivity|]. rewrite (Un _ Ka) in Kg, Kf. cbn [a a_ty a_data] in Kg, Kf. rewrite Rt in Kg. destruct Kf as (B1 & B2 & B3). split; [exact B1|]. split; [|exact B3].
    intros i e Ei. rewrite <- (attr_as_same cv _ g Kg). now apply B2.
  - apply (proj2 RD a (as_type (m_ty arr)) Aa). cbn [a a_ty]. rewrite Rt. unfold attr_as, as_type. destruct (t_class (m_ty arr)); auto.
Qed.
