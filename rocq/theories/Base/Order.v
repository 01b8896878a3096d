(** Total orders, the numpy sorting and searching primitives. *)
From Verif.Base Require Import Prelude ListLemmas.
From Coq Require Import ZifyBool ZifyNat.

(** A totally ordered element type: numpy's [<=] on the values of a dtype
    without NaN. *)
Record TOrd (A : Type) : Type := {
  leb : A -> A -> bool;
  leb_refl : forall a, leb a a = true;
  leb_antisym : forall a b, leb a b = true -> leb b a = true -> a = b;
  leb_trans : forall a b c, leb a b = true -> leb b c = true -> leb a c = true;
  leb_total : forall a b, leb a b = true \/ leb b a = true
}.
Arguments leb {A} t a b.

Section Defs.
  Context {A : Type} (O : TOrd A).
  Definition ltb (a b : A) : bool := negb (leb O b a).
  Definition eqb (a b : A) : bool := leb O a b && leb O b a.

  (** non-decreasing *)
  Definition sorted (l : list A) : Prop := StronglySorted (fun a b => leb O a b = true) l.

  (** np.searchsorted(l, v, side="left"): for sorted [l] the index of the first
      element that is not less than [v] *)
  Fixpoint searchsorted_left (l : list A) (v : A) : Z :=
    match l with
    | [] => 0
    | x :: l' => if ltb x v then 1 + searchsorted_left l' v else 0
    end.

  (** np.searchsorted(l, v, side="right"): for sorted [l] the index of the first
      element that is greater than [v] *)
  Fixpoint searchsorted_right (l : list A) (v : A) : Z :=
    match l with
    | [] => 0
    | x :: l' => if leb O x v then 1 + searchsorted_right l' v else 0
    end.

  (** Stable sort of records by a key (reference definition of mergesort). *)
  Fixpoint insert_by {B} (key : B -> A) (x : B) (l : list B) : list B :=
    match l with
    | [] => [x]
    | y :: l' => if leb O (key x) (key y) then x :: y :: l' else y :: insert_by key x l'
    end.
  Fixpoint sort_by {B} (key : B -> A) (l : list B) : list B :=
    match l with [] => [] | x :: l' => insert_by key x (sort_by key l') end.

  (** np.argsort(l, kind='mergesort'): the stable sorting permutation *)
  Definition argsort (l : list A) : list Z :=
    map snd (sort_by fst (combine l (zseq 0 (length l)))).

  (** number of elements of [l] satisfying a test *)
  Definition count (p : A -> bool) (l : list A) : Z := zlen (filter p l).
  Definition count_lt (v : A) (l : list A) : Z := count (fun x => ltb x v) l.
  Definition count_le (v : A) (l : list A) : Z := count (fun x => leb O x v) l.
  Definition count_eq (v : A) (l : list A) : Z := count (fun x => eqb x v) l.

  (** [idx] is a permutation that sorts [l] (the contract of np.argsort for any kind) *)
  Definition is_argsort (l : list A) (idx : list Z) : Prop :=
    Permutation idx (zseq 0 (length l)) /\
    StronglySorted (fun i j => forall a b, nth_error l (Z.to_nat i) = Some a ->
                                nth_error l (Z.to_nat j) = Some b -> leb O a b = true) idx.

  (** ... and keeps equal elements in their original order *)
  Definition is_stable_argsort (l : list A) (idx : list Z) : Prop :=
    Permutation idx (zseq 0 (length l)) /\
    StronglySorted (fun i j => forall a b, nth_error l (Z.to_nat i) = Some a ->
                                nth_error l (Z.to_nat j) = Some b ->
                                ltb a b = true \/ (a = b /\ i < j)) idx.
End Defs.

(** ** Instances *)
Definition ZOrd : TOrd Z.
Proof.
  refine {| leb := Z.leb |}; intros; lia.
Defined.

(** lexicographic order on pairs (numpy's order on structured dtypes) *)
Definition pair_leb {A B} (O : TOrd A) (Q : TOrd B) (x y : A * B) : bool :=
  if eqb O (fst x) (fst y) then leb Q (snd x) (snd y) else leb O (fst x) (fst y).

Section OrdLemmas.
  Context {A : Type} (O : TOrd A).
  Lemma ltb_leb a b : ltb O a b = true -> leb O a b = true.
  Proof. unfold ltb. destruct (leb_total _ O a b); [auto|]. rewrite H. discriminate. Qed.
  Lemma ltb_irrefl a : ltb O a a = false.
  Proof. unfold ltb. now rewrite leb_refl. Qed.
  Lemma leb_false_ltb a b : leb O a b = false -> ltb O b a = true.
  Proof. unfold ltb. now intros ->. Qed.
  Lemma ltb_false_leb a b : ltb O a b = false -> leb O b a = true.
  Proof. unfold ltb. destruct (leb O b a); auto. Qed.
  Lemma ltb_not_leb a b : ltb O a b = true -> leb O b a = false.
  Proof. unfold ltb. destruct (leb O b a); auto. Qed.
  Lemma leb_not_ltb a b : leb O a b = true -> ltb O b a = false.
  Proof. unfold ltb. now intros ->. Qed.
  Lemma leb_ltb_trans a b c : leb O a b = true -> ltb O b c = true -> ltb O a c = true.
  Proof.
    unfold ltb. intros H1 H2. destruct (leb O c a) eqn:E; [|reflexivity].
    rewrite (leb_trans _ O c a b E H1) in H2. discriminate.
  Qed.
  Lemma ltb_leb_trans a b c : ltb O a b = true -> leb O b c = true -> ltb O a c = true.
  Proof.
    unfold ltb. intros H1 H2. destruct (leb O c a) eqn:E; [|reflexivity].
    rewrite (leb_trans _ O b c a H2 E) in H1. discriminate.
  Qed.
  Lemma ltb_trans a b c : ltb O a b = true -> ltb O b c = true -> ltb O a c = true.
  Proof. intros H1 H2. eapply leb_ltb_trans; [apply ltb_leb|]; eassumption. Qed.
  Lemma eqb_eq a b : eqb O a b = true <-> a = b.
  Proof.
    unfold eqb. split.
    - intro H. apply andb_true_iff in H. destruct H. now apply (leb_antisym _ O).
    - intros ->. now rewrite leb_refl.
  Qed.
  Lemma eqb_refl a : eqb O a a = true.
  Proof. now apply eqb_eq. Qed.
  Lemma eqb_neq a b : eqb O a b = false <-> a <> b.
  Proof.
    split.
    - intros H ->. now rewrite eqb_refl in H.
    - intro H. destruct (eqb O a b) eqn:E; [|reflexivity]. now apply eqb_eq in E.
  Qed.
  Lemma leb_ltb_or_eq a b : leb O a b = true -> ltb O a b = true \/ a = b.
  Proof.
    intro H. unfold ltb. destruct (leb O b a) eqn:E; [right | left; reflexivity].
    now apply (leb_antisym _ O).
  Qed.
  Lemma trichotomy a b : ltb O a b = true \/ a = b \/ ltb O b a = true.
  Proof.
    destruct (leb O a b) eqn:E.
    - apply leb_ltb_or_eq in E. destruct E; auto.
    - right. right. now apply leb_false_ltb.
  Qed.
End OrdLemmas.

Definition PairOrd {A B} (O : TOrd A) (Q : TOrd B) : TOrd (A * B).
Proof.
  refine {| leb := pair_leb O Q |}; unfold pair_leb.
  - intros [a b]; cbn [fst snd]. now rewrite eqb_refl, leb_refl.
  - intros [a b] [a' b']; cbn [fst snd].
    destruct (eqb O a a') eqn:E.
    + apply eqb_eq in E. subst. rewrite eqb_refl. intros H1 H2. f_equal. now apply (leb_antisym _ Q).
    + intros H1. destruct (eqb O a' a) eqn:E'.
      * apply eqb_eq in E'. subst. now rewrite eqb_refl in E.
      * intro H2. apply eqb_neq in E. exfalso. apply E. now apply (leb_antisym _ O).
  - intros [a b] [a' b'] [a'' b'']; cbn [fst snd].
    destruct (eqb O a a') eqn:E1; destruct (eqb O a' a'') eqn:E2.
    + apply eqb_eq in E1, E2. subst. rewrite eqb_refl. apply leb_trans.
    + apply eqb_eq in E1. subst. rewrite E2. auto.
    + apply eqb_eq in E2. subst. rewrite E1. auto.
    + intros H1 H2. destruct (eqb O a a'') eqn:E3.
      * apply eqb_eq in E3. subst. apply eqb_neq in E1. exfalso. apply E1.
        now apply (leb_antisym _ O).
      * eapply leb_trans; eassumption.
  - intros [a b] [a' b']; cbn [fst snd].
    destruct (eqb O a a') eqn:E1.
    + apply eqb_eq in E1. subst. rewrite eqb_refl. apply leb_total.
    + destruct (eqb O a' a) eqn:E2.
      * apply eqb_eq in E2. subst. now rewrite eqb_refl in E1.
      * apply leb_total.
Defined.

(** ** Generic facts about StronglySorted *)
Lemma StronglySorted_app {B} (R : B -> B -> Prop) l m :
  StronglySorted R (l ++ m) <->
  StronglySorted R l /\ StronglySorted R m /\ (forall x y, In x l -> In y m -> R x y).
Proof.
  induction l as [|a l IH]; cbn [app].
  - split; [intro H; repeat split; [constructor | assumption | intros x y []]|tauto].
  - split.
    + intro H. inversion H as [|a' l' Hs Hf]; subst. apply IH in Hs. destruct Hs as (Hl & Hm & Hlm).
      rewrite Forall_app in Hf. destruct Hf as [Hfl Hfm].
      repeat split; [constructor; assumption | assumption|].
      intros x y [->|Hx] Hy; [|auto]. rewrite Forall_forall in Hfm. auto.
    + intros (Hl & Hm & Hlm). inversion Hl as [|a' l' Hs Hf]; subst.
      constructor.
      * apply IH. repeat split; auto. intros; apply Hlm; [now right | assumption].
      * rewrite Forall_app. split; [assumption|]. apply Forall_forall. intros y Hy. apply Hlm; [now left|assumption].
Qed.

Lemma StronglySorted_weaken {B} (R T : B -> B -> Prop) l :
  (forall x y, In x l -> In y l -> R x y -> T x y) -> StronglySorted R l -> StronglySorted T l.
Proof.
  induction l as [|a l IH]; intros H Hs; constructor; inversion Hs as [|a' l' Hs' Hf]; subst.
  - apply IH; [|assumption]. intros; apply H; try (now right); assumption.
  - rewrite Forall_forall in *. intros x Hx. apply H; [now left | now right | auto].
Qed.

Lemma StronglySorted_map {B C} (f : B -> C) (R : C -> C -> Prop) l :
  StronglySorted R (map f l) <-> StronglySorted (fun x y => R (f x) (f y)) l.
Proof.
  induction l as [|a l IH]; cbn [map]; split; intro H; try constructor;
    inversion H as [|a' l' Hs Hf]; subst; try (apply IH; assumption).
  - rewrite Forall_forall in *. intros x Hx. apply Hf, in_map, Hx.
  - rewrite Forall_forall in *. intros y Hy. apply in_map_iff in Hy. destruct Hy as (x & <- & Hx). auto.
Qed.

Lemma StronglySorted_nth {B} (R : B -> B -> Prop) l i j d :
  StronglySorted R l -> (i < j)%nat -> (j < length l)%nat -> R (nth i l d) (nth j l d).
Proof.
  revert i j; induction l as [|a l IH]; intros i j Hs Hij Hj; [cbn in Hj; lia|].
  inversion Hs as [|a' l' Hs' Hf]; subst.
  destruct j as [|j]; [lia|]. cbn in Hj.
  destruct i as [|i]; cbn [nth].
  - rewrite Forall_forall in Hf. apply Hf, nth_In. lia.
  - apply IH; auto; lia.
Qed.

Lemma StronglySorted_of_nth {B} (R : B -> B -> Prop) l d :
  (forall i j, (i < j)%nat -> (j < length l)%nat -> R (nth i l d) (nth j l d)) -> StronglySorted R l.
Proof.
  induction l as [|a l IH]; intro H; constructor.
  - apply IH. intros i j Hij Hj. apply (H (S i) (S j)); cbn; lia.
  - apply Forall_forall. intros x Hx. apply In_nth with (d := d) in Hx.
    destruct Hx as (k & Hk & <-). apply (H O (S k)); cbn; lia.
Qed.

Lemma StronglySorted_firstn {B} (R : B -> B -> Prop) l n : StronglySorted R l -> StronglySorted R (firstn n l).
Proof.
  intro H. rewrite <- (firstn_skipn n l) in H. apply StronglySorted_app in H. tauto.
Qed.
Lemma StronglySorted_skipn {B} (R : B -> B -> Prop) l n : StronglySorted R l -> StronglySorted R (skipn n l).
Proof.
  intro H. rewrite <- (firstn_skipn n l) in H. apply StronglySorted_app in H. tauto.
Qed.
Lemma StronglySorted_zslice {B} (R : B -> B -> Prop) l a b : StronglySorted R l -> StronglySorted R (zslice l a b).
Proof. intro H. unfold zslice. now apply StronglySorted_firstn, StronglySorted_skipn. Qed.

(** a strict order has at most one sorted arrangement of a multiset *)
Lemma StronglySorted_unique {B} (R : B -> B -> Prop) :
  (forall x y, R x y -> R y x -> False) ->
  forall l m, StronglySorted R l -> StronglySorted R m -> Permutation l m -> l = m.
Proof.
  intros Hasym. induction l as [|a l IH]; intros m Hl Hm HP.
  - symmetry. now apply Permutation_nil.
  - destruct m as [|b m]; [symmetry in HP; apply Permutation_nil in HP; discriminate|].
    inversion Hl as [|a' l' Hl' Hfl]; inversion Hm as [|b' m' Hm' Hfm]; subst.
    rewrite Forall_forall in Hfl, Hfm.
    assert (a = b) as ->.
    { assert (In a (b :: m)) as Ha by (eapply Permutation_in; [exact HP | now left]).
      assert (In b (a :: l)) as Hb by (eapply Permutation_in; [symmetry; exact HP | now left]).
      destruct Ha as [Ha|Ha]; [auto|]. destruct Hb as [Hb|Hb]; [auto|].
      exfalso. eapply Hasym; [apply Hfl, Hb | apply Hfm, Ha]. }
    f_equal. apply IH; auto. now apply Permutation_cons_inv in HP.
Qed.

(** ** Stable sorting *)
Section Sorting.
  Context {A : Type} (O : TOrd A) {B : Type} (key : B -> A).

  Lemma insert_by_perm x l : Permutation (insert_by O key x l) (x :: l).
  Proof.
    induction l as [|y l IH]; cbn [insert_by]; [reflexivity|].
    destruct (leb O (key x) (key y)); [reflexivity|].
    rewrite IH. apply perm_swap.
  Qed.
  Lemma sort_by_perm l : Permutation (sort_by O key l) l.
  Proof.
    induction l as [|x l IH]; cbn [sort_by]; [reflexivity|].
    rewrite insert_by_perm. now constructor.
  Qed.
  Lemma sort_by_length l : length (sort_by O key l) = length l.
  Proof. apply Permutation_length, sort_by_perm. Qed.

  (** result of the stable sort: ordered by (key, position in the input), where
      [T x y] is any relation holding between earlier and later input elements *)
  Definition lexT (T : B -> B -> Prop) (x y : B) : Prop :=
    ltb O (key x) (key y) = true \/ (key x = key y /\ T x y).

  Lemma insert_by_sorted T x l :
    StronglySorted (lexT T) l -> (forall y, In y l -> T x y) ->
    StronglySorted (lexT T) (insert_by O key x l).
  Proof.
    induction l as [|y l IH]; intros Hs HT; cbn [insert_by].
    - constructor; constructor.
    - inversion Hs as [|y' l' Hs' Hf]; subst.
      destruct (leb O (key x) (key y)) eqn:E.
      + constructor; [assumption|]. apply Forall_forall. intros z Hz.
        assert (leb O (key x) (key z) = true) as Hxz.
        { destruct Hz as [<-|Hz]; [assumption|]. rewrite Forall_forall in Hf.
          destruct (Hf z Hz) as [H|[H _]].
          - eapply leb_trans; [exact E|]. now apply ltb_leb.
          - now rewrite <- H. }
        apply leb_ltb_or_eq in Hxz. destruct Hxz as [H|H]; [left; assumption|].
        right. split; [assumption|]. now apply HT.
      + constructor.
        * apply IH; [assumption|]. intros z Hz. apply HT. now right.
        * apply Forall_forall. intros z Hz.
          apply (Permutation_in _ (insert_by_perm x l)) in Hz. destruct Hz as [<-|Hz].
          -- left. now apply leb_false_ltb.
          -- rewrite Forall_forall in Hf. auto.
  Qed.

  Lemma sort_by_sorted T l : StronglySorted T l -> StronglySorted (lexT T) (sort_by O key l).
  Proof.
    induction l as [|x l IH]; intro H; cbn [sort_by]; [constructor|].
    inversion H as [|x' l' Hs Hf]; subst.
    apply insert_by_sorted; [auto|]. intros y Hy. rewrite Forall_forall in Hf. apply Hf.
    eapply Permutation_in; [apply sort_by_perm | exact Hy].
  Qed.
  Lemma sort_by_sorted_keys l : sorted O (map key (sort_by O key l)).
  Proof.
    unfold sorted. rewrite StronglySorted_map.
    eapply StronglySorted_weaken; [|apply sort_by_sorted with (T := fun _ _ => True)].
    - intros x y _ _ [H|[H _]]; [now apply ltb_leb | rewrite H; apply leb_refl].
    - clear. induction l; constructor; auto. apply Forall_forall; auto.
  Qed.
End Sorting.

(** ** searchsorted on sorted arrays *)
Section Search.
  Context {A : Type} (O : TOrd A).

  Lemma count_nil p : count p (@nil A) = 0. Proof. reflexivity. Qed.
  Lemma count_cons p x (l : list A) : count p (x :: l) = (if p x then 1 else 0) + count p l.
  Proof. unfold count; cbn [filter]. destruct (p x); [apply zlen_cons | lia]. Qed.
  Lemma count_app p (l m : list A) : count p (l ++ m) = count p l + count p m.
  Proof. unfold count. rewrite filter_app. apply zlen_app. Qed.
  Lemma count_nonneg p (l : list A) : 0 <= count p l.
  Proof. apply zlen_nonneg. Qed.
  Lemma count_le_zlen p (l : list A) : count p l <= zlen l.
  Proof. induction l as [|x l IH]; [reflexivity|]. rewrite count_cons, zlen_cons. destruct (p x); lia. Qed.
  Lemma count_perm p (l m : list A) : Permutation l m -> count p l = count p m.
  Proof. induction 1; rewrite ?count_cons; lia. Qed.
  Lemma count_concat p (d : list (list A)) : count p (concat d) = sumZ (map (count p) d).
  Proof. induction d as [|l d IH]; cbn [concat map sumZ]; [reflexivity|]. rewrite count_app. lia. Qed.
  Lemma count_ext_in p q (l : list A) : (forall x, In x l -> p x = q x) -> count p l = count q l.
  Proof.
    induction l as [|x l IH]; intro H; [reflexivity|]. rewrite !count_cons.
    rewrite (H x) by (now left). rewrite IH; [reflexivity|]. intros; apply H; now right.
  Qed.
  Lemma count_all p (l : list A) : (forall x, In x l -> p x = true) -> count p l = zlen l.
  Proof.
    induction l as [|x l IH]; intro H; [reflexivity|]. rewrite count_cons, zlen_cons.
    rewrite (H x) by (now left). rewrite IH; [lia|]. intros; apply H; now right.
  Qed.
  Lemma count_none p (l : list A) : (forall x, In x l -> p x = false) -> count p l = 0.
  Proof.
    induction l as [|x l IH]; intro H; [reflexivity|]. rewrite count_cons.
    rewrite (H x) by (now left). rewrite IH; [lia|]. intros; apply H; now right.
  Qed.
  Lemma count_pos p (l : list A) x : In x l -> p x = true -> 0 < count p l.
  Proof.
    induction l as [|y l IH]; intros Hin H; [destruct Hin|]. rewrite count_cons. destruct Hin as [->|Hin].
    - rewrite H. pose proof (count_nonneg p l). lia.
    - specialize (IH Hin H). destruct (p y); lia.
  Qed.
  Lemma count_pos_inv p (l : list A) : 0 < count p l -> exists x, In x l /\ p x = true.
  Proof.
    unfold count. destruct (filter p l) as [|x m] eqn:E; [unfold zlen; cbn; lia|].
    intros _. exists x. apply filter_In. rewrite E. now left.
  Qed.
  Lemma count_zero_inv p (l : list A) x : count p l = 0 -> In x l -> p x = false.
  Proof.
    intros H Hx. destruct (p x) eqn:E; [|reflexivity].
    pose proof (count_pos p l x Hx E). lia.
  Qed.

  Lemma ssl_count l v : sorted O l -> searchsorted_left O l v = count_lt O v l.
  Proof.
    unfold count_lt. induction l as [|x l IH]; intro H; [reflexivity|].
    inversion H as [|x' l' Hs Hf]; subst. cbn [searchsorted_left]. rewrite count_cons.
    destruct (ltb O x v) eqn:E.
    - rewrite IH by assumption. lia.
    - symmetry. rewrite count_none; [lia|]. intros y Hy. rewrite Forall_forall in Hf.
      apply leb_not_ltb. apply leb_trans with x; [now apply ltb_false_leb | auto].
  Qed.
  Lemma ssr_count l v : sorted O l -> searchsorted_right O l v = count_le O v l.
  Proof.
    unfold count_le. induction l as [|x l IH]; intro H; [reflexivity|].
    inversion H as [|x' l' Hs Hf]; subst. cbn [searchsorted_right]. rewrite count_cons.
    destruct (leb O x v) eqn:E.
    - rewrite IH by assumption. lia.
    - symmetry. rewrite count_none; [lia|]. intros y Hy. rewrite Forall_forall in Hf.
      destruct (leb O y v) eqn:E2; [|reflexivity].
      rewrite (leb_trans _ O x y v) in E; auto.
  Qed.
  Lemma ssl_bounds l v : 0 <= searchsorted_left O l v <= zlen l.
  Proof.
    induction l as [|x l IH]; cbn [searchsorted_left]; [unfold zlen; cbn; lia|].
    rewrite zlen_cons. destruct (ltb O x v); lia.
  Qed.
  Lemma ssr_bounds l v : 0 <= searchsorted_right O l v <= zlen l.
  Proof.
    induction l as [|x l IH]; cbn [searchsorted_right]; [unfold zlen; cbn; lia|].
    rewrite zlen_cons. destruct (leb O x v); lia.
  Qed.
  (** elements before position ssl are < v, those from it on are >= v *)
  Lemma ssl_before l v k d : Z.of_nat k < searchsorted_left O l v -> ltb O (nth k l d) v = true.
  Proof.
    revert k; induction l as [|x l IH]; intros k H; cbn [searchsorted_left] in H; [lia|].
    destruct (ltb O x v) eqn:E; [|lia]. destruct k as [|k]; cbn [nth]; [assumption|].
    apply IH. lia.
  Qed.
  Lemma ssl_after l v k d : sorted O l -> searchsorted_left O l v <= Z.of_nat k -> (k < length l)%nat ->
    ltb O (nth k l d) v = false.
  Proof.
    revert k; induction l as [|x l IH]; intros k Hs H Hk; cbn [searchsorted_left length] in *; [lia|].
    inversion Hs as [|x' l' Hs' Hf]; subst.
    pose proof (ssl_bounds l v).
    destruct (ltb O x v) eqn:E.
    - destruct k as [|k]; [lia|]. cbn [nth]. apply IH; [assumption | lia | lia].
    - destruct k as [|k]; cbn [nth]; [assumption|].
      apply leb_not_ltb. apply leb_trans with x; [now apply ltb_false_leb|].
      rewrite Forall_forall in Hf. apply Hf, nth_In. lia.
  Qed.
  Lemma ssr_before l v k d : Z.of_nat k < searchsorted_right O l v -> leb O (nth k l d) v = true.
  Proof.
    revert k; induction l as [|x l IH]; intros k H; cbn [searchsorted_right] in H; [lia|].
    destruct (leb O x v) eqn:E; [|lia]. destruct k as [|k]; cbn [nth]; [assumption|].
    apply IH. lia.
  Qed.
  Lemma ssr_after l v k d : sorted O l -> searchsorted_right O l v <= Z.of_nat k -> (k < length l)%nat ->
    leb O (nth k l d) v = false.
  Proof.
    revert k; induction l as [|x l IH]; intros k Hs H Hk; cbn [searchsorted_right length] in *; [lia|].
    inversion Hs as [|x' l' Hs' Hf]; subst.
    pose proof (ssr_bounds l v).
    destruct (leb O x v) eqn:E.
    - destruct k as [|k]; [lia|]. cbn [nth]. apply IH; [assumption | lia | lia].
    - destruct k as [|k]; cbn [nth]; [assumption|].
      destruct (leb O (nth k l d) v) eqn:E2; [|reflexivity].
      rewrite (leb_trans _ O x (nth k l d) v) in E; auto.
      rewrite Forall_forall in Hf. apply Hf, nth_In. lia.
  Qed.
  Lemma count_le_lt_eq v (l : list A) : count_le O v l = count_lt O v l + count_eq O v l.
  Proof.
    unfold count_le, count_lt, count_eq. induction l as [|x l IH]; [reflexivity|].
    rewrite !count_cons, IH. unfold eqb, ltb.
    destruct (leb O x v) eqn:E1, (leb O v x) eqn:E2; cbn [negb andb]; try lia.
    destruct (leb_total _ O x v); congruence.
  Qed.
  Lemma ssl_le_ssr l v : searchsorted_left O l v <= searchsorted_right O l v.
  Proof.
    induction l as [|x l IH]; cbn [searchsorted_left searchsorted_right]; [lia|].
    destruct (ltb O x v) eqn:E.
    - apply ltb_leb in E. rewrite E. lia.
    - pose proof (ssr_bounds l v). destruct (leb O x v); lia.
  Qed.
  Lemma count_lt_mono u v (l : list A) : leb O u v = true -> count_lt O u l <= count_lt O v l.
  Proof.
    intro H. unfold count_lt. induction l as [|x l IH]; [reflexivity|]. rewrite !count_cons.
    destruct (ltb O x u) eqn:E.
    - rewrite (ltb_leb_trans O x u v E H). lia.
    - destruct (ltb O x v); lia.
  Qed.
  Lemma count_le_mono u v (l : list A) : leb O u v = true -> count_le O u l <= count_le O v l.
  Proof.
    intro H. unfold count_le. induction l as [|x l IH]; [reflexivity|]. rewrite !count_cons.
    destruct (leb O x u) eqn:E.
    - rewrite (leb_trans _ O x u v E H). lia.
    - destruct (leb O x v); lia.
  Qed.
  Lemma count_le_lt_mono u v (l : list A) : ltb O u v = true -> count_le O u l <= count_lt O v l.
  Proof.
    intro H. unfold count_le, count_lt. induction l as [|x l IH]; [reflexivity|]. rewrite !count_cons.
    destruct (leb O x u) eqn:E.
    - rewrite (leb_ltb_trans O x u v E H). lia.
    - destruct (ltb O x v); lia.
  Qed.
  Lemma sorted_nth_leb l i j d : sorted O l -> (i <= j)%nat -> (j < length l)%nat ->
    leb O (nth i l d) (nth j l d) = true.
  Proof.
    intros Hs Hij Hj. destruct (Nat.eq_dec i j) as [->|Hne]; [apply leb_refl|].
    apply (StronglySorted_nth (fun a b => leb O a b = true)); auto; lia.
  Qed.
End Search.

(** ** argsort *)
Section Argsort.
  Context {A : Type} (O : TOrd A).

  Lemma combine_zseq_sorted (l : list A) s :
    StronglySorted (fun x y : A * Z => snd x < snd y) (combine l (zseq s (length l))).
  Proof.
    revert s; induction l as [|a l IH]; intro s; cbn [length zseq combine]; constructor; auto.
    apply Forall_forall. intros [b j] Hb. apply in_combine_r in Hb. apply In_zseq in Hb. cbn [snd]. lia.
  Qed.
  Lemma combine_zseq_nth (l : list A) s x i :
    In (x, i) (combine l (zseq s (length l))) -> s <= i < s + zlen l /\ nth_error l (Z.to_nat (i - s)) = Some x.
  Proof.
    revert s; induction l as [|a l IH]; intros s H; cbn [length zseq combine In] in H; [contradiction|].
    rewrite zlen_cons. destruct H as [H|H].
    - injection H as -> ->. pose proof (zlen_nonneg l). split; [lia|].
      replace (Z.to_nat (i - i)) with 0%nat by lia. reflexivity.
    - apply IH in H. destruct H as [H1 H2]. split; [lia|].
      replace (Z.to_nat (i - s)) with (S (Z.to_nat (i - (s + 1)))) by lia. exact H2.
  Qed.
  Lemma map_fst_combine_zseq (l : list A) s : map fst (combine l (zseq s (length l))) = l.
  Proof. revert s; induction l as [|a l IH]; intro s; cbn [length zseq combine map fst]; [reflexivity|]. now rewrite IH. Qed.
  Lemma map_snd_combine_zseq (l : list A) s : map snd (combine l (zseq s (length l))) = zseq s (length l).
  Proof. revert s; induction l as [|a l IH]; intro s; cbn [length zseq combine map snd]; [reflexivity|]. now rewrite IH. Qed.

  Lemma argsort_perm l : Permutation (argsort O l) (zseq 0 (length l)).
  Proof.
    unfold argsort. rewrite (Permutation_map snd (sort_by_perm O fst _)).
    now rewrite map_snd_combine_zseq.
  Qed.
  Lemma argsort_length l : length (argsort O l) = length l.
  Proof. rewrite (Permutation_length (argsort_perm l)). apply zseq_length. Qed.
  Lemma argsort_In l i : In i (argsort O l) -> 0 <= i < zlen l.
  Proof.
    intro H. apply (Permutation_in _ (argsort_perm l)) in H. apply In_zseq in H. unfold zlen. lia.
  Qed.
  Lemma argsort_stable l : is_stable_argsort O l (argsort O l).
  Proof.
    split; [apply argsort_perm|].
    unfold argsort. rewrite StronglySorted_map.
    eapply StronglySorted_weaken; [|apply sort_by_sorted, combine_zseq_sorted].
    intros [x i] [y j] Hx Hy HR a b Ha Hb. cbn [snd fst] in *.
    apply (Permutation_in _ (sort_by_perm O fst _)) in Hx, Hy.
    apply combine_zseq_nth in Hx, Hy. rewrite !Z.sub_0_r in *.
    destruct Hx as [_ Hx], Hy as [_ Hy].
    assert (x = a) by congruence. assert (y = b) by congruence. subst.
    destruct HR as [H|[H1 H2]]; cbn [fst snd] in *; auto.
  Qed.
  Lemma is_stable_argsort_is_argsort l idx : is_stable_argsort O l idx -> is_argsort O l idx.
  Proof.
    intros [H1 H2]. split; [assumption|]. eapply StronglySorted_weaken; [|exact H2].
    intros i j _ _ H a b Ha Hb. destruct (H a b Ha Hb) as [H3|[-> _]]; [now apply ltb_leb | apply leb_refl].
  Qed.
  Lemma argsort_is_argsort l : is_argsort O l (argsort O l).
  Proof. apply is_stable_argsort_is_argsort, argsort_stable. Qed.

  (** fancy indexing with a sorting permutation *)
  Lemma is_argsort_In l idx i : is_argsort O l idx -> In i idx -> 0 <= i < zlen l.
  Proof. intros [H _] Hi. apply (Permutation_in _ H) in Hi. apply In_zseq in Hi. unfold zlen. lia. Qed.
  Lemma is_argsort_length l idx : is_argsort O l idx -> length idx = length l.
  Proof. intros [H _]. rewrite (Permutation_length H). apply zseq_length. Qed.
  Lemma is_argsort_sorted l idx d : is_argsort O l idx ->
    sorted O (map (fun i => nth (Z.to_nat i) l d) idx).
  Proof.
    intros H. unfold sorted. rewrite StronglySorted_map. destruct H as [HP HS].
    eapply StronglySorted_weaken; [|exact HS].
    intros i j Hi Hj Hij. apply Hij.
    - apply nth_error_nth'. apply (Permutation_in _ HP) in Hi. apply In_zseq in Hi. lia.
    - apply nth_error_nth'. apply (Permutation_in _ HP) in Hj. apply In_zseq in Hj. lia.
  Qed.
  Lemma map_nth_zseq (l : list A) d : map (fun i => nth (Z.to_nat i) l d) (zseq 0 (length l)) = l.
  Proof.
    apply list_ext_nth with (d := d).
    - now rewrite map_length, zseq_length.
    - intros k Hk. rewrite map_length, zseq_length in Hk.
      rewrite nth_indep with (d' := (fun i => nth (Z.to_nat i) l d) 0) by (rewrite map_length, zseq_length; lia).
      rewrite map_nth with (f := fun i => nth (Z.to_nat i) l d). rewrite nth_zseq by lia. f_equal. lia.
  Qed.
  Lemma is_argsort_perm l idx d : is_argsort O l idx ->
    Permutation (map (fun i => nth (Z.to_nat i) l d) idx) l.
  Proof.
    intros [HP _]. rewrite (Permutation_map _ HP). now rewrite map_nth_zseq.
  Qed.
End Argsort.
