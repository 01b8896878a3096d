(** Names of datasets in a BinaryFile. *)
From Coq Require Import Ascii.
From Verif.Base Require Import Prelude ListLemmas Order.
From Verif.Binary Require Import BinModel.
From Coq Require Import ZifyBool ZifyNat.
Local Open Scope Z_scope.

(** *** specification: the non-empty parts of a path between slashes *)
Fixpoint pieces (s : str) : list str :=
  match s with
  | [] => [[]]
  | c :: s' => if Ascii.eqb c slash then [] :: pieces s' else match pieces s' with p :: ps => (c :: p) :: ps | [] => [[c]] end
  end.
Definition nonempty (s : str) : bool := match s with [] => false | _ => true end.
Definition comps (s : str) : list str := filter nonempty (pieces s).
(** the empty path is the name of the empty string *)
Definition keys (s : str) : list str := match comps s with [] => [[]] | cs => cs end.

(** what is found along the parts of a path *)
Fixpoint find (g : group) (cs : list str) : option entry :=
  match g, cs with
  | _, [] => None
  | Group _ dsets groups, c :: cs' =>
    match cs' with
    | [] => match get c groups with Some sub => Some (EGroup sub) | None => match get c dsets with Some (id, a) => Some (EDset id a) | None => None end end
    | _ => match get c groups with Some sub => find sub cs' | None => None end
    end
  end.

Lemma str_eqb_eq a : forall b, str_eqb a b = true <-> a = b.
Proof.
  induction a as [|x a IH]; intros [|y b]; cbn [str_eqb]; split; intro H; try reflexivity; try discriminate.
  - apply andb_true_iff in H. destruct H as [H1 H2]. apply Ascii.eqb_eq in H1. apply IH in H2. congruence.
  - injection H as -> ->. rewrite Ascii.eqb_refl. now apply IH.
Qed.
Lemma str_eqb_refl a : str_eqb a a = true. Proof. now apply str_eqb_eq. Qed.
Lemma str_eqb_neq a b : a <> b -> str_eqb a b = false.
Proof. intro H. destruct (str_eqb a b) eqn:E; [|reflexivity]. apply str_eqb_eq in E. contradiction. Qed.
Lemma get_put {V} k k' (v : V) d : get k (put k' v d) = if str_eqb k k' then Some v else get k d.
Proof.
  induction d as [|[k0 v0] d IH]; cbn [put get].
  - destruct (str_eqb k k'); reflexivity.
  - destruct (str_eqb k' k0) eqn:E; cbn [get].
    + apply str_eqb_eq in E. subst k0. destruct (str_eqb k k'); reflexivity.
    + rewrite IH. destruct (str_eqb k k0) eqn:E0; [|reflexivity]. apply str_eqb_eq in E0. subst k0. destruct (str_eqb k k') eqn:E1; [|reflexivity]. apply str_eqb_eq in E1. subst k'. rewrite str_eqb_refl in E. discriminate.
Qed.
Lemma put_same {V} k (v : V) d : get k d = Some v -> put k v d = d.
Proof.
  induction d as [|[k0 v0] d IH]; cbn [put get]; [discriminate|]. destruct (str_eqb k k0); [intro E; injection E as ->; reflexivity|]. intro E. now rewrite IH.
Qed.

(** *** split_path *)
Lemma pieces_ne s : pieces s <> [].
Proof. destruct s as [|c s]; [discriminate|]. cbn. destruct (Ascii.eqb c slash); [discriminate|]. destruct (pieces s); discriminate. Qed.
Lemma lstrip_spec s : exists k, s = repeat slash k ++ lstrip s /\ (match lstrip s with [] => True | c :: _ => c <> slash end).
Proof.
  induction s as [|c s IH]; [exists O; split; reflexivity || exact I|]. cbn [lstrip]. destruct (Ascii.eqb c slash) eqn:E.
  - apply Ascii.eqb_eq in E. subst c. destruct IH as (k & E & H). exists (S k). split; [cbn; congruence | assumption].
  - exists O. split; [reflexivity|]. now apply Ascii.eqb_neq.
Qed.
Lemma rev_repeat {A} (x : A) k : rev (repeat x k) = repeat x k.
Proof. induction k as [|k IH]; [reflexivity|]. cbn. rewrite IH. rewrite <- (repeat_cons k x). reflexivity. Qed.
Lemma strip_spec s : exists a b, s = repeat slash a ++ strip s ++ repeat slash b /\
  (match strip s with [] => True | c :: _ => c <> slash end) /\ (match rev (strip s) with [] => True | c :: _ => c <> slash end).
Proof.
  destruct (lstrip_spec s) as (a & Ea & Ha). destruct (lstrip_spec (rev (lstrip s))) as (b & Eb & Hb). unfold strip. set (t := lstrip (rev (lstrip s))) in *.
  assert (lstrip s = rev t ++ repeat slash b) as E. { rewrite <- (rev_involutive (lstrip s)), Eb, rev_app_distr, rev_repeat. reflexivity. }
  exists a, b. split; [congruence|]. split.
  - destruct (rev t) as [|c u] eqn:Er; [exact I|]. rewrite E in Ha. exact Ha.
  - rewrite rev_involutive. exact Hb.
Qed.
Lemma comps_slash_l a s : comps (repeat slash a ++ s) = comps s.
Proof. induction a as [|a IH]; [reflexivity|]. cbn [repeat app]. unfold comps. cbn [pieces]. change (Ascii.eqb slash slash) with true. cbn [filter nonempty]. exact IH. Qed.
Lemma pieces_snoc s : pieces (s ++ [slash]) = pieces s ++ [[]].
Proof.
  induction s as [|c s IH]; [reflexivity|]. cbn [app pieces]. rewrite IH. destruct (Ascii.eqb c slash); [reflexivity|]. pose proof (pieces_ne s). destruct (pieces s); [contradiction | reflexivity].
Qed.
Lemma comps_slash_r b : forall s, comps (s ++ repeat slash b) = comps s.
Proof.
  induction b as [|b IH]; intro s; [now rewrite app_nil_r|]. cbn [repeat]. change (slash :: repeat slash b) with ([slash] ++ repeat slash b). rewrite app_assoc, IH. unfold comps. rewrite pieces_snoc, filter_app. cbn. apply app_nil_r.
Qed.
Lemma split1_none s : split1 s = None -> pieces s = [s].
Proof.
  induction s as [|c s IH]; [reflexivity|]. cbn [split1 pieces]. destruct (Ascii.eqb c slash); [discriminate|]. destruct (split1 s) as [[h t]|]; [discriminate|]. intros _. now rewrite IH.
Qed.
Lemma split1_some s h t : split1 s = Some (h, t) -> s = h ++ slash :: t /\ pieces s = h :: pieces t.
Proof.
  revert h. induction s as [|c s IH]; intros h H; [discriminate|]. cbn [split1 pieces] in *. destruct (Ascii.eqb c slash) eqn:E.
  - apply Ascii.eqb_eq in E. injection H as <- <-. subst c. split; reflexivity.
  - destruct (split1 s) as [[h' t']|]; [|discriminate]. injection H as <- <-. destruct (IH h' eq_refl) as [E1 E2]. rewrite E1 at 1. rewrite E2. split; reflexivity.
Qed.
Lemma comps_last s : match rev s with [] => False | c :: _ => c <> slash end -> comps s <> [].
Proof.
  induction s as [|c s IH]; [contradiction|]. intro H. cbn [rev] in H. unfold comps. cbn [pieces]. destruct (Ascii.eqb c slash) eqn:E.
  - cbn [filter nonempty]. apply IH. destruct (rev s) as [|d r]; [|exact H]. apply Ascii.eqb_eq in E. exact (H E).
  - pose proof (pieces_ne s). destruct (pieces s); [contradiction|]. cbn [filter nonempty]. discriminate.
Qed.
Lemma split_path_spec s : match split_path s with
  | (None, t) => keys s = [t]
  | (Some h, t) => keys s = h :: keys t /\ comps s = h :: comps t /\ comps t <> [] /\ (length t < length s)%nat
  end.
Proof.
  destruct (strip_spec s) as (a & b & E & Hl & Hr). unfold split_path. set (u := strip s) in *.
  assert (comps s = comps u) as Ec. { rewrite E, comps_slash_l, comps_slash_r. reflexivity. }
  destruct (split1 u) as [[h t]|] eqn:E1.
  - apply split1_some in E1. destruct E1 as [Eu Ep].
    assert (comps s = h :: comps t) as Ecs. { rewrite Ec. unfold comps. rewrite Ep. cbn [filter]. destruct h as [|c h]; [|reflexivity]. rewrite Eu in Hl. cbn in Hl. contradiction. }
    assert (comps t <> []) as Hne. { apply comps_last. rewrite Eu, rev_app_distr in Hr. cbn [rev] in Hr. destruct (rev t) as [|c r]; [cbn in Hr; contradiction | exact Hr]. }
    split; [|split; [assumption|split; [assumption|]]].
    + unfold keys. rewrite Ecs. destruct (comps t); [contradiction | reflexivity].
    + rewrite E, Eu, !app_length. cbn. lia.
  - unfold keys. rewrite Ec. unfold comps. rewrite (split1_none _ E1). cbn [filter]. destruct u as [|c u']; reflexivity.
Qed.

(** *** lookup *)
Lemma lookup_find fuel : forall g key, (length key < fuel)%nat -> lookup fuel g key = match find g (keys key) with Some e => Ok e | None => Err EKey end.
Proof.
  induction fuel as [|fuel IH]; intros [attrs dsets groups] key H; [lia|]. cbn [lookup]. pose proof (split_path_spec key) as S. destruct (split_path key) as [[h|] t].
  - destruct S as (-> & _ & Hne & Hlen). cbn [find]. destruct (keys t) as [|c cs] eqn:Ek; [unfold keys in Ek; destruct (comps t); [discriminate|discriminate]|]. destruct (get h groups) as [sub|]; [|reflexivity]. rewrite IH by lia. now rewrite Ek.
  - rewrite S. cbn [find]. destruct (get t groups); [reflexivity|]. destruct (get t dsets) as [[id a]|]; reflexivity.
Qed.
Lemma getitem_find g key : g_getitem g key = match find g (keys key) with Some e => Ok e | None => Err EKey end.
Proof. apply lookup_find. unfold fuel_for. lia. Qed.

(** *** adding never changes what is there *)
Definition entry_le (a b : entry) : Prop :=
  match a, b with
  | EDset i at1, EDset j at2 => i = j /\ forall k v, get k at1 = Some v -> get k at2 = Some v
  | EGroup _, EGroup _ => True
  | _, _ => False
  end.
Lemma entry_le_refl e : entry_le e e.
Proof. destruct e; cbn; auto. Qed.
Lemma find_cons_group g c cs : find g (c :: cs) = match g with Group _ dsets groups => match cs with [] => match get c groups with Some sub => Some (EGroup sub) | None => match get c dsets with Some (id, a) => Some (EDset id a) | None => None end end | _ => match get c groups with Some sub => find sub cs | None => None end end end.
Proof. destruct g. reflexivity. Qed.
Lemma add_keeps fuel : forall g name id is_attr ks e, find g ks = Some e -> exists e', find (fst (add_block fuel g name id is_attr)) ks = Some e' /\ entry_le e e'.
Proof.
  induction fuel as [|fuel IH]; intros g name id is_attr ks e He; [exists e; split; [exact He | apply entry_le_refl]|].
  assert (exists e', find g ks = Some e' /\ entry_le e e') as Hsame by (exists e; split; [exact He | apply entry_le_refl]).
  destruct g as [attrs dsets groups]. cbn [add_block]. destruct (split_path name) as [[h|] t].
  - assert (forall sub sub' : group, (get h groups = Some sub /\ (forall cs e, find sub cs = Some e -> exists e', find sub' cs = Some e' /\ entry_le e e')) \/ (get h groups = None /\ get h dsets = None) ->
      exists e', find (Group attrs dsets (put h sub' groups)) ks = Some e' /\ entry_le e e') as Hput.
    { intros sub sub' Hcase. destruct ks as [|c cs]; [discriminate|]. rewrite find_cons_group in He |- *. rewrite get_put. destruct (str_eqb c h) eqn:Ech.
      - apply str_eqb_eq in Ech. subst c. destruct cs as [|c' cs].
        + destruct Hcase as [[Hg _]|[Hg Hd]]; [rewrite Hg in He; injection He as <-; eexists; split; [reflexivity | exact I]|]. rewrite Hg, Hd in He. discriminate.
        + destruct Hcase as [[Hg Hs]|[Hg Hd]]; [rewrite Hg in He; apply Hs; exact He | rewrite Hg in He; discriminate].
      - exists e. split; [exact He | apply entry_le_refl]. }
    destruct (if is_attr then get h dsets else None) as [[did dattrs]|] eqn:Ed.
    + destruct (has t dattrs) eqn:Eh; [exact Hsame|]. cbn [fst]. destruct ks as [|c cs]; [discriminate|]. rewrite find_cons_group in He |- *. rewrite get_put. destruct cs as [|c' cs]; [|exists e; split; [exact He | apply entry_le_refl]].
      destruct (get c groups); [exists e; split; [exact He | apply entry_le_refl]|]. destruct (str_eqb c h) eqn:Ech; [|exists e; split; [exact He | apply entry_le_refl]].
      apply str_eqb_eq in Ech. subst c. destruct is_attr; [|discriminate]. rewrite Ed in He. injection He as <-. eexists. split; [reflexivity|]. cbn. split; [reflexivity|]. intros k v Hk. rewrite get_put. destruct (str_eqb k t) eqn:Ekt; [|exact Hk]. apply str_eqb_eq in Ekt. subst k. unfold has in Eh. rewrite Hk in Eh. discriminate.
    + destruct (get h groups) as [sub|] eqn:Eg.
      * specialize (IH sub t id is_attr). destruct (add_block fuel sub t id is_attr) as [sub' r]. apply (Hput sub sub'). left. split; [reflexivity|]. intros cs e0 He0. apply (IH cs e0 He0).
      * destruct (has h dsets) eqn:Eh; [exact Hsame|]. destruct (add_block fuel empty_group t id is_attr) as [sub' r]. apply (Hput sub' sub'). right. split; [reflexivity|]. unfold has in Eh. destruct (get h dsets); [discriminate | reflexivity].
  - destruct is_attr.
    + destruct (has t attrs); [exact Hsame|]. cbn [fst]. destruct ks as [|c cs]; [discriminate|]. rewrite find_cons_group in He |- *. exists e. split; [exact He | apply entry_le_refl].
    + destruct (has t dsets) eqn:Ed; [exact Hsame|]. destruct (has t groups); [exact Hsame|]. cbn [fst]. destruct ks as [|c cs]; [discriminate|]. rewrite find_cons_group in He |- *. rewrite get_put. exists e. split; [|apply entry_le_refl].
      destruct cs; [|exact He]. destruct (get c groups); [exact He|]. destruct (str_eqb c t) eqn:Ect; [|exact He]. apply str_eqb_eq in Ect. subst c. unfold has in Ed. destruct (get t dsets); discriminate.
Qed.

(** an error leaves everything as it was *)
Lemma add_empty fuel : forall name id is_attr, (length name < fuel)%nat -> exists b, snd (add_block fuel empty_group name id is_attr) = Ok b.
Proof.
  induction fuel as [|fuel IH]; intros name id is_attr H; [lia|]. cbn [add_block empty_group]. pose proof (split_path_spec name) as S. destruct (split_path name) as [[h|] t].
  - destruct S as (_ & _ & _ & Hlen). destruct (IH t id is_attr ltac:(lia)) as (b & Hb). assert ((if is_attr then get (V := nat * list (str * nat)) h [] else None) = None) as -> by (destruct is_attr; reflexivity). cbn [get has]. destruct (add_block fuel empty_group t id is_attr). exists b. exact Hb.
  - destruct is_attr; cbn; eauto.
Qed.
Lemma add_error fuel : forall g name id is_attr e, (length name < fuel)%nat -> snd (add_block fuel g name id is_attr) = Err e -> fst (add_block fuel g name id is_attr) = g /\ e = EKey.
Proof.
  induction fuel as [|fuel IH]; intros [attrs dsets groups] name id is_attr e H; [lia|]. cbn [add_block]. pose proof (split_path_spec name) as S. destruct (split_path name) as [[h|] t].
  - destruct S as (_ & _ & _ & Hlen). destruct (if is_attr then get h dsets else None) as [[did dattrs]|].
    + destruct (has t dattrs); [|discriminate]. cbn. intro E. injection E as <-. auto.
    + destruct (get h groups) as [sub|] eqn:Eg.
      * specialize (IH sub t id is_attr e ltac:(lia)). destruct (add_block fuel sub t id is_attr) as [sub' r]. cbn [fst snd] in *. intro E. destruct (IH E) as [-> ->]. split; [|reflexivity]. now rewrite put_same.
      * destruct (has h dsets); [cbn; intro E; injection E as <-; auto|]. destruct (add_empty fuel t id is_attr ltac:(lia)) as (b & Hb). destruct (add_block fuel empty_group t id is_attr) as [sub' r]. cbn [fst snd] in *. intro E. rewrite Hb in E. discriminate.
  - destruct is_attr; [destruct (has t attrs) | destruct (has t dsets); [|destruct (has t groups)]]; cbn; intro E; try discriminate; injection E as <-; auto.
Qed.

(** *** exactly when a dataset can be added *)
Fixpoint free (g : group) (cs : list str) : Prop :=
  match g, cs with
  | _, [] => False
  | Group _ dsets groups, c :: cs' =>
    match cs' with
    | [] => get c groups = None /\ get c dsets = None
    | _ => match get c groups with Some sub => free sub cs' | None => get c dsets = None end
    end
  end.
(** nothing is there and no dataset is on the way *)
Lemma free_iff : forall cs g, cs <> [] -> (free g cs <-> find g cs = None /\ forall n, (0 < n < length cs)%nat -> match find g (firstn n cs) with Some (EDset _ _) => False | _ => True end).
Proof.
  induction cs as [|c cs IH]; intros [attrs dsets groups] Hne; [contradiction|]. destruct cs as [|c' cs].
  - cbn [free find]. split.
    + intros [-> ->]. split; [reflexivity|]. intros n Hn. cbn in Hn. lia.
    + intros [H _]. destruct (get c groups); [discriminate|]. destruct (get c dsets) as [[i a]|]; [discriminate | auto].
  - cbn [free find]. destruct (get c groups) as [sub|] eqn:Eg.
    + rewrite (IH sub) by discriminate. split; intros [H1 H2]; (split; [exact H1|]).
      * intros [|[|n]] Hn; [lia | cbn; now rewrite Eg|]. specialize (H2 (S n)). change (firstn (S (S n)) (c :: c' :: cs)) with (c :: firstn (S n) (c' :: cs)). cbn [firstn find]. rewrite Eg. apply H2. cbn in Hn |- *. lia.
      * intros n Hn. specialize (H2 (S n)). destruct n as [|n]; [lia|]. change (firstn (S (S n)) (c :: c' :: cs)) with (c :: firstn (S n) (c' :: cs)) in H2. cbn [firstn find] in H2. rewrite Eg in H2. apply H2. cbn in Hn |- *. lia.
    + split.
      * intro H. split; [reflexivity|]. intros [|[|n]] Hn; [lia | cbn; now rewrite Eg, H|]. change (firstn (S (S n)) (c :: c' :: cs)) with (c :: firstn (S n) (c' :: cs)). cbn [firstn find]. now rewrite Eg.
      * intros [_ H]. specialize (H 1%nat ltac:(cbn; lia)). cbn in H. rewrite Eg in H. destruct (get c dsets) as [[i a]|]; [contradiction | reflexivity].
Qed.
Lemma free_empty cs : cs <> [] -> free empty_group cs.
Proof. destruct cs as [|c [|c' cs]]; [contradiction | cbn; auto | cbn; auto]. Qed.
Lemma keys_ne s : keys s <> [].
Proof. unfold keys. destruct (comps s); discriminate. Qed.
Lemma add_dataset_iff fuel : forall g name id, (length name < fuel)%nat ->
  (free g (keys name) -> snd (add_block fuel g name id false) = Ok false /\ find (fst (add_block fuel g name id false)) (keys name) = Some (EDset id [])) /\
  (~ free g (keys name) -> snd (add_block fuel g name id false) = Err EKey).
Proof.
  induction fuel as [|fuel IH]; intros [attrs dsets groups] name id H; [lia|]. cbn [add_block]. pose proof (split_path_spec name) as S. destruct (split_path name) as [[h|] t].
  - destruct S as (-> & _ & _ & Hlen). pose proof (keys_ne t) as Hk. destruct (keys t) as [|c cs] eqn:Ek; [contradiction|]. cbn [free]. destruct (get h groups) as [sub|] eqn:Eg.
    + destruct (IH sub t id ltac:(lia)) as [I1 I2]. rewrite Ek in I1, I2. destruct (add_block fuel sub t id false) as [sub' r]. cbn [fst snd] in *. split; [|exact I2]. intro Hf. destruct (I1 Hf) as [J1 J2]. split; [exact J1|]. rewrite find_cons_group, get_put, str_eqb_refl. exact J2.
    + unfold has. destruct (get h dsets) as [x|]; [split; [intro E; discriminate E | intros _; reflexivity]|]. destruct (IH empty_group t id ltac:(lia)) as [I1 _]. rewrite Ek in I1. destruct (I1 (free_empty (c :: cs) ltac:(discriminate))) as [J1 J2]. destruct (add_block fuel empty_group t id false) as [sub' r]. cbn [fst snd] in *. split; [|intro Hn; contradiction Hn; reflexivity]. intros _. split; [exact J1|]. rewrite find_cons_group, get_put, str_eqb_refl. exact J2.
  - rewrite S. cbn [free]. unfold has. destruct (get t dsets) as [x|] eqn:Ed; [split; [intros [_ E]; discriminate E | intros _; reflexivity]|]. destruct (get t groups) as [y|] eqn:Eg; [split; [intros [E _]; discriminate E | intros _; reflexivity]|]. cbn [fst snd]. split; [|intro Hn; contradiction Hn; auto]. intros _. split; [reflexivity|]. rewrite find_cons_group, Eg, get_put, str_eqb_refl. reflexivity.
Qed.

(** *** the file *)
Lemma f_add_tree name d shape is_attr f : f_tree (fst (f_add name d shape is_attr f)) = fst (add_block (fuel_for name) (f_tree f) name (length (f_blocks f)) is_attr).
Proof. unfold f_add. destruct (add_block _ _ _ _ _) as [g [b|e]]; reflexivity. Qed.
Lemma f_add_error name d shape is_attr f e : snd (f_add name d shape is_attr f) = Err e -> fst (f_add name d shape is_attr f) = f /\ e = EKey.
Proof.
  pose proof (add_error (fuel_for name) (f_tree f) name (length (f_blocks f)) is_attr) as H. unfold f_add. destruct (add_block _ _ _ _ _) as [g [b|e0]]; cbn [fst snd] in *; intro E; [discriminate|]. injection E as <-. destruct (H e0) as [-> ->]; [unfold fuel_for; lia | reflexivity|]. split; [destruct f; reflexivity | reflexivity].
Qed.
(** there is a dataset at a proper prefix of the path *)
Definition through_dataset (g : group) (cs : list str) : Prop := exists n id a, (0 < n < length cs)%nat /\ find g (firstn n cs) = Some (EDset id a).
Lemma f_add_dataset name d shape f :
  (find (f_tree f) (keys name) = None /\ ~ through_dataset (f_tree f) (keys name) ->
    snd (f_add name d shape false f) = Ok tt /\
    forall name', keys name' = keys name -> g_getitem (f_tree (fst (f_add name d shape false f))) name' = Ok (EDset (length (f_blocks f)) [])) /\
  (find (f_tree f) (keys name) <> None \/ through_dataset (f_tree f) (keys name) ->
    snd (f_add name d shape false f) = Err EKey /\ fst (f_add name d shape false f) = f).
Proof.
  destruct (add_dataset_iff (fuel_for name) (f_tree f) name (length (f_blocks f)) ltac:(unfold fuel_for; lia)) as [H1 H2].
  pose proof (free_iff (keys name) (f_tree f) (keys_ne name)) as F. split.
  - intros [Hn Ht]. assert (free (f_tree f) (keys name)) as Hf. { apply F. split; [exact Hn|]. intros n Hlt. destruct (find (f_tree f) (firstn n (keys name))) as [[id a|g]|] eqn:E; auto. apply Ht. exists n, id, a. auto. }
    destruct (H1 Hf) as [J1 J2]. split.
    + unfold f_add. destruct (add_block _ _ _ _ _) as [g r]. cbn [snd] in J1. subst r. reflexivity.
    + intros name' Ek. rewrite getitem_find, f_add_tree, Ek, J2. reflexivity.
  - intro Hbad. assert (snd (f_add name d shape false f) = Err EKey) as E.
    { assert (~ free (f_tree f) (keys name)) as Hf. { intro Hf. apply F in Hf. destruct Hf as [Hf1 Hf2]. destruct Hbad as [Hb|(n & id & a & Hn & Hb)]; [exact (Hb Hf1)|]. specialize (Hf2 n Hn). rewrite Hb in Hf2. exact Hf2. }
      specialize (H2 Hf). unfold f_add. destruct (add_block _ _ _ _ _) as [g r]. cbn [snd] in H2. subst r. reflexivity. }
    split; [exact E|]. now apply f_add_error in E.
Qed.
Lemma f_add_keeps name d shape is_attr f key e : g_getitem (f_tree f) key = Ok e -> exists e', g_getitem (f_tree (fst (f_add name d shape is_attr f))) key = Ok e' /\ entry_le e e'.
Proof.
  rewrite !getitem_find, f_add_tree. destruct (find (f_tree f) (keys key)) as [e0|] eqn:E; [|discriminate]. intro H. injection H as <-.
  destruct (add_keeps (fuel_for name) (f_tree f) name (length (f_blocks f)) is_attr (keys key) e0 E) as (e' & -> & Hle). exists e'. auto.
Qed.
Lemma keys_slashes a b s : keys (repeat slash a ++ s ++ repeat slash b) = keys s.
Proof. unfold keys. rewrite comps_slash_l, comps_slash_r. reflexivity. Qed.
