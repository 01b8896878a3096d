(** What a new dataset or attribute does, and does not do, to the other names in a file. *)
From Coq Require Import Ascii.
From Verif.Base Require Import Prelude ListLemmas Order.
From Verif.Binary Require Import BinModel NameProofs LayoutProofs EndianProofs.
From Coq Require Import ZifyBool ZifyNat.
Local Open Scope Z_scope.

(** the attribute at a path through groups *)
Fixpoint attr_at (g : group) (cs : list str) : option nat :=
  match g, cs with
  | _, [] => None
  | Group attrs _ groups, c :: cs' =>
    match cs' with
    | [] => get c attrs
    | _ => match get c groups with Some sub => attr_at sub cs' | None => None end
    end
  end.
Lemma attr_cons g c cs : attr_at g (c :: cs) = match g with Group attrs _ groups => match cs with [] => get c attrs | _ => match get c groups with Some sub => attr_at sub cs | None => None end end end.
Proof. destruct g. reflexivity. Qed.

Definition prefix_of (a b : list str) : Prop := exists t, b = a ++ t.
Lemma prefix_cons x a y b : prefix_of (x :: a) (y :: b) <-> x = y /\ prefix_of a b.
Proof. split; [intros (t & E); injection E as <- E; split; [reflexivity | exists t; exact E] | intros [<- (t & ->)]; exists t; reflexivity]. Qed.
Lemma prefix_nil b : prefix_of [] b. Proof. exists b. reflexivity. Qed.
Lemma prefix_nil_inv a : prefix_of a [] -> a = [].
Proof. intros (t & E). symmetry in E. now apply app_eq_nil in E. Qed.

(** the same entry, except that a group may have got more in it *)
Definition like (a b : option entry) : Prop :=
  match a, b with
  | None, None => True
  | Some (EDset i at1), Some (EDset j at2) => i = j /\ at1 = at2
  | Some (EGroup _), Some (EGroup _) => True
  | _, _ => False
  end.
Lemma like_refl a : like a a. Proof. destruct a as [[]|]; cbn; auto. Qed.
Lemma like_trans a b c : like a b -> like b c -> like a c.
Proof. destruct a as [[]|], b as [[]|], c as [[]|]; cbn; intuition congruence. Qed.

(** after a successful addition that did not go to a dataset's attributes *)
Lemma add_find fuel : forall g name id is_attr, (length name < fuel)%nat -> snd (add_block fuel g name id is_attr) = Ok false ->
  let g' := fst (add_block fuel g name id is_attr) in
  forall ks, ks <> [] ->
  (ks = keys name -> is_attr = false -> find g' ks = Some (EDset id [])) /\
  (prefix_of ks (keys name) -> ks <> keys name -> exists sub, find g' ks = Some (EGroup sub)) /\
  (~ prefix_of ks (keys name) \/ (ks = keys name /\ is_attr = true) -> like (find g ks) (find g' ks)).
Proof.
  induction fuel as [|fuel IH]; intros [attrs dsets groups] name id is_attr H; [lia|]. cbn [add_block]. pose proof (split_path_spec name) as S. destruct (split_path name) as [[h|] t].
  - destruct S as (Ek & _ & _ & Hlen). rewrite Ek. destruct (keys t) as [|k0 ks0] eqn:Ekt; [exfalso; exact (keys_ne t Ekt)|].
    assert (forall sub, get h groups = Some sub \/ (get h groups = None /\ get h dsets = None /\ sub = empty_group) ->
      snd (let (sub', r) := add_block fuel sub t id is_attr in (Group attrs dsets (put h sub' groups), r)) = Ok false ->
      let g' := fst (let (sub', r) := add_block fuel sub t id is_attr in (Group attrs dsets (put h sub' groups), r)) in
      forall ks, ks <> [] ->
      (ks = h :: k0 :: ks0 -> is_attr = false -> find g' ks = Some (EDset id [])) /\
      (prefix_of ks (h :: k0 :: ks0) -> ks <> h :: k0 :: ks0 -> exists sub, find g' ks = Some (EGroup sub)) /\
      (~ prefix_of ks (h :: k0 :: ks0) \/ (ks = h :: k0 :: ks0 /\ is_attr = true) -> like (find (Group attrs dsets groups) ks) (find g' ks))) as Hput.
    { intros sub Hsub. specialize (IH sub t id is_attr ltac:(lia)). rewrite Ekt in IH. destruct (add_block fuel sub t id is_attr) as [sub' r]. cbn [fst snd] in IH |- *. intro Er. specialize (IH Er).
      intros [|c cs] Hks; [contradiction|]. rewrite !find_cons_group, get_put.
      destruct (str_eqb c h) eqn:Ech.
      - apply str_eqb_eq in Ech. subst c. destruct cs as [|c' cs].
        + split; [intro E; discriminate|]. split; [intros _ _; eexists; reflexivity|]. intros [Hn|[E _]]; [contradiction Hn; apply prefix_cons; split; [reflexivity | apply prefix_nil] | discriminate].
        + destruct (IH (c' :: cs) ltac:(discriminate)) as (I1 & I2 & I3). split; [intros E Ha; injection E as E1 E2; apply I1; [congruence | exact Ha]|]. split.
          * intros Hp Hn. apply I2; [now apply prefix_cons in Hp | intro E; apply Hn; now rewrite E].
          * intro Hor. assert (like (find sub (c' :: cs)) (find sub' (c' :: cs))) as Hl.
            { apply I3. destruct Hor as [Hn|[E Ha]]; [left; intro Hp; apply Hn; apply prefix_cons; auto | right; split; [congruence | exact Ha]]. }
            destruct Hsub as [->|(-> & _ & ->)]; [exact Hl|]. refine (like_trans _ _ _ _ Hl). destruct cs; exact I.
      - split; [intros E; injection E as E1 _; subst c; rewrite str_eqb_refl in Ech; discriminate|]. split; [intros Hp; apply prefix_cons in Hp; destruct Hp as [<- _]; rewrite str_eqb_refl in Ech; discriminate|].
        intros _. apply like_refl. }
    destruct (if is_attr then get h dsets else None) as [[did dattrs]|] eqn:Ed; [destruct (has t dattrs); discriminate|].
    destruct (get h groups) as [sub|] eqn:Eg; [apply Hput; auto|]. destruct (has h dsets) eqn:Eh; [discriminate|]. apply Hput. right. split; [reflexivity|]. split; [|reflexivity]. unfold has in Eh. destruct (get h dsets); [discriminate | reflexivity].
  - rewrite S. destruct is_attr.
    + destruct (has t attrs); [discriminate|]. cbn [fst snd]. intros _ [|c cs] Hks; [contradiction|]. split; [discriminate|]. split.
      * intros Hp Hn. apply prefix_cons in Hp. destruct Hp as [-> Hp]. apply prefix_nil_inv in Hp. subst cs. contradiction.
      * intros _. rewrite !find_cons_group. apply like_refl.
    + destruct (has t dsets) eqn:E1; [discriminate|]. destruct (has t groups) eqn:E2; [discriminate|]. cbn [fst snd]. intros _ [|c cs] Hks; [contradiction|]. unfold has in E1, E2. destruct (get t groups) eqn:Eg; [discriminate|]. split; [|split].
      * intros E _. injection E as -> ->. rewrite find_cons_group, Eg, get_put, str_eqb_refl. reflexivity.
      * intros Hp Hn. apply prefix_cons in Hp. destruct Hp as [-> Hp]. apply prefix_nil_inv in Hp. subst cs. contradiction.
      * intros [Hn|[_ E]]; [|discriminate]. rewrite !find_cons_group, get_put. destruct cs; [|apply like_refl]. destruct (str_eqb c t) eqn:Ect; [apply str_eqb_eq in Ect; subst c; contradiction Hn; apply prefix_cons; split; [reflexivity | apply prefix_nil] | apply like_refl].
Qed.
Lemma add_attr fuel : forall g name id is_attr, (length name < fuel)%nat -> snd (add_block fuel g name id is_attr) = Ok false ->
  let g' := fst (add_block fuel g name id is_attr) in
  (is_attr = true -> attr_at g' (keys name) = Some id) /\
  forall ks, ks <> keys name \/ is_attr = false -> attr_at g' ks = attr_at g ks.
Proof.
  induction fuel as [|fuel IH]; intros [attrs dsets groups] name id is_attr H; [lia|]. cbn [add_block]. pose proof (split_path_spec name) as S. destruct (split_path name) as [[h|] t].
  - destruct S as (Ek & _ & _ & Hlen). rewrite Ek. destruct (keys t) as [|k0 ks0] eqn:Ekt; [exfalso; exact (keys_ne t Ekt)|].
    assert (forall sub, get h groups = Some sub \/ (get h groups = None /\ sub = empty_group) ->
      snd (let (sub', r) := add_block fuel sub t id is_attr in (Group attrs dsets (put h sub' groups), r)) = Ok false ->
      let g' := fst (let (sub', r) := add_block fuel sub t id is_attr in (Group attrs dsets (put h sub' groups), r)) in
      (is_attr = true -> attr_at g' (h :: k0 :: ks0) = Some id) /\ forall ks, ks <> h :: k0 :: ks0 \/ is_attr = false -> attr_at g' ks = attr_at (Group attrs dsets groups) ks) as Hput.
    { intros sub Hsub. specialize (IH sub t id is_attr ltac:(lia)). rewrite Ekt in IH. destruct (add_block fuel sub t id is_attr) as [sub' r]. cbn [fst snd] in IH |- *. intro Er. destruct (IH Er) as [I1 I2]. split.
      - intro Ha. rewrite attr_cons, get_put, str_eqb_refl. apply I1, Ha.
      - intros [|c cs] Hor; [reflexivity|]. rewrite !attr_cons, get_put. destruct cs as [|c' cs]; [reflexivity|]. destruct (str_eqb c h) eqn:Ech; [|reflexivity]. apply str_eqb_eq in Ech. subst c. rewrite I2 by (destruct Hor as [Hn|Ha]; [left; intro E; apply Hn; now rewrite E | right; exact Ha]).
        destruct Hsub as [->|[-> ->]]; [reflexivity|]. destruct cs; reflexivity. }
    destruct (if is_attr then get h dsets else None) as [[did dattrs]|] eqn:Ed; [destruct (has t dattrs); discriminate|].
    destruct (get h groups) as [sub|] eqn:Eg; [apply Hput; auto|]. destruct (has h dsets) eqn:Eh; [discriminate|]. apply Hput. auto.
  - rewrite S. destruct is_attr.
    + destruct (has t attrs); [discriminate|]. cbn [fst snd]. intros _. split; [intros _; rewrite attr_cons, get_put, str_eqb_refl; reflexivity|]. intros [|c cs] Hor; [reflexivity|]. rewrite !attr_cons. destruct cs; [|reflexivity]. rewrite get_put. destruct (str_eqb c t) eqn:Ect; [apply str_eqb_eq in Ect; subst c; destruct Hor as [Hn|E]; [contradiction | discriminate] | reflexivity].
    + destruct (has t dsets); [discriminate|]. destruct (has t groups); [discriminate|]. cbn [fst snd]. intros _. split; [discriminate|]. intros [|c cs] _; [reflexivity|]. rewrite !attr_cons. reflexivity.
Qed.
(** an attribute can be added to a group if it has no attribute of that name yet and no dataset is on the way *)
Lemma add_attr_ok fuel : forall g name id, wf g -> (length name < fuel)%nat -> attr_at g (keys name) = None -> ~ through_dataset g (keys name) ->
  snd (add_block fuel g name id true) = Ok false.
Proof.
  induction fuel as [|fuel IH]; intros [attrs dsets groups] name id W H; [lia|]. destruct (wf_inv _ _ _ W) as [W1 W2]. cbn [add_block]. pose proof (split_path_spec name) as S. destruct (split_path name) as [[h|] t].
  - destruct S as (Ek & _ & _ & Hlen). rewrite Ek. destruct (keys t) as [|k0 ks0] eqn:Ekt; [exfalso; exact (keys_ne t Ekt)|]. intros Ha Ht. rewrite attr_cons in Ha.
    destruct (get h dsets) as [[did dattrs]|] eqn:Ed.
    + exfalso. apply Ht. exists 1%nat, did, dattrs. split; [cbn; lia|]. cbn [firstn]. rewrite find_cons_group, (W1 _ _ Ed), Ed. reflexivity.
    + unfold has. rewrite Ed. destruct (get h groups) as [sub|] eqn:Eg.
      * assert (~ through_dataset sub (k0 :: ks0)) as Hs.
        { intros (n & i & a & Hn & Hf). apply Ht. exists (Datatypes.S n), i, a. split; [cbn [length] in *; lia|]. cbn [firstn]. rewrite find_cons_group, Eg. destruct n as [|n]; [lia|]. exact Hf. }
        specialize (IH sub t id (W2 _ _ Eg) ltac:(lia)). rewrite Ekt in IH. specialize (IH Ha Hs). destruct (add_block fuel sub t id true) as [sub' r]. exact IH.
      * assert (snd (add_block fuel empty_group t id true) = Ok false) as E.
        { apply IH; [apply wf_empty | lia | destruct (keys t) as [|x [|y l]]; reflexivity|]. intros (n & i & a & Hn & Hf). destruct (firstn n (keys t)) as [|c [|c' cs]]; cbn in Hf; discriminate. }
        destruct (add_block fuel empty_group t id true) as [sub' r]. exact E.
  - rewrite S. intros Ha _. rewrite attr_cons in Ha. unfold has. rewrite Ha. reflexivity.
Qed.
