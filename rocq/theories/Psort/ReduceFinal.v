(** The lemmas about reduce_elements in the vocabulary of ReduceSpec. *)
From Coq Require Import QArith.
From Verif.Base Require Import Prelude ListLemmas Order.
From Verif.Mpi Require Import CommModel CommProofs.
From Verif.Psort Require Import MoveModel MoveSpec MoveProofs SortSpec SortProofs SortFinal UniqueFinal MatchProofs ReduceModel ReduceSpec ReduceProofs.
From Coq Require Import ZifyBool ZifyNat.
Local Open Scope Z_scope.

Lemma layout_nth {A B} (d : list (list A)) (e : list (list B)) r : layout d = layout e -> length (nth r d []) = length (nth r e []).
Proof.
  unfold layout. intro H. change (length (nth r d [])) with ((fun l => length l) (nth r d [])).
  pose proof (map_nth (@length A) d [] r) as H1. pose proof (map_nth (@length B) e [] r) as H2. cbn [length] in *. congruence.
Qed.
Lemma layout_length {A B} (d : list (list A)) (e : list (list B)) : layout d = layout e -> length d = length e.
Proof. unfold layout. intro H. rewrite <- (map_length (@length A) d), H. apply map_length. Qed.

Lemma global_at_local {A} (d : list (list A)) g a : global_at d g a ->
  exists j k, (j < length d)%nat /\ (k < length (nth j d []))%nat /\ g = goff (nperproc d) j + Z.of_nat k /\ nth_error (nth j d []) k = Some a.
Proof.
  unfold global_at. intros [Hg H].
  assert (forall n g, nth_error (concat d) n = Some a -> g = Z.of_nat n ->
    exists j k, (j < length d)%nat /\ (k < length (nth j d []))%nat /\ g = goff (nperproc d) j + Z.of_nat k /\ nth_error (nth j d []) k = Some a) as HH.
  { clear. induction d as [|l d IH]; intros n g H E; [destruct n; discriminate|]. cbn [concat] in H.
    destruct (Nat.lt_ge_cases n (length l)) as [Hl|Hl].
    - exists 0%nat, n. rewrite nth_error_app1 in H by assumption. cbn [nth length]. rewrite goff_0. repeat split; auto; lia.
    - rewrite nth_error_app2 in H by assumption. destruct (IH _ (g - zlen l) H) as (j & k & H1 & H2 & H3 & H4).
      + unfold zlen. lia.
      + exists (S j), k. cbn [nth length]. repeat split; auto; [lia|]. unfold goff in *. cbn [nperproc map firstn sumZ] in *.
        unfold nperproc in H3. lia. }
  apply (HH (Z.to_nat g)); [assumption | lia].
Qed.
Lemma local_global_at {A} (d : list (list A)) j k a : (j < length d)%nat -> nth_error (nth j d []) k = Some a ->
  global_at d (goff (nperproc d) j + Z.of_nat k) a.
Proof.
  intros Hj Hk. assert (k < length (nth j d []))%nat as Hlt by (apply nth_error_Some; congruence).
  assert (0 <= goff (nperproc d) j) as Hnn by (rewrite <- (goff_0 (nperproc d)); apply goff_mono; [apply nperproc_nonneg | lia]).
  split; [lia|].
  pose proof (nth_concat d j k a Hj Hlt) as H.
  replace (Z.to_nat (goff (nperproc d) j + Z.of_nat k)) with (Z.to_nat (sumZ (firstn j (map zlen d))) + k)%nat
    by (unfold goff, nperproc in *; lia).
  rewrite (nth_error_nth _ _ _ Hk) in H. rewrite <- H. apply nth_error_nth'.
  assert (zlen (concat d) = goff (nperproc d) (length d)) as Hl by (rewrite goff_all by (rewrite nperproc_length; lia); now rewrite sum_nperproc).
  assert (goff (nperproc d) (S j) <= goff (nperproc d) (length d)) as Hm by (apply goff_mono; [apply nperproc_nonneg | lia]).
  rewrite goff_S, nth_nperproc in Hm by (rewrite ?nperproc_length; assumption). unfold goff, nperproc, zlen in *. lia.
Qed.
Lemma goff_layout {A B} (d : list (list A)) (e : list (list B)) : layout d = layout e -> nperproc d = nperproc e.
Proof. unfold nperproc. intro H. rewrite !map_zlen_layout. now rewrite H. Qed.

Lemma combine_concat_layout {A B} (d : list (list A)) (e : list (list B)) : layout d = layout e ->
  concat (spmd (length d) (fun r => combine (nth r d []) (nth r e []))) = combine (concat d) (concat e).
Proof.
  revert e; induction d as [|l d IH]; intros [|m e] H; try discriminate; [reflexivity|]. unfold layout in H. cbn [map] in H. injection H as H1 H2.
  cbn [length concat]. unfold spmd. cbn [seq map concat nth]. rewrite <- seq_shift, map_map. cbn [nth].
  rewrite combine_app' by assumption. f_equal. rewrite <- IH by exact H2. reflexivity.
Qed.

Lemma nth_ranks {A} (d : list (list A)) (p : A -> Prop) : Forall (Forall p) d -> forall r i, In i (nth r d []) -> p i.
Proof.
  intros H r i Hi. destruct (Nat.lt_ge_cases r (length d)) as [Hr|Hr]; [|rewrite nth_overflow in Hi by lia; destruct Hi].
  rewrite Forall_forall in H. specialize (H _ (nth_In d [] Hr)). rewrite Forall_forall in H. auto.
Qed.
Lemma nth_ranks2 {A B} (d : list (list A)) (e : list (list B)) (R : list A -> list B -> Prop) : Forall2 R d e ->
  forall r, (r < length d)%nat -> R (nth r d []) (nth r e []).
Proof. induction 1 as [|x y d e H _ IH]; intros r Hr; [cbn in Hr; lia|]. destruct r as [|r]; cbn [nth]; [assumption|]. apply IH. cbn in Hr. lia. Qed.

Lemma reduce_elements_spec {A B} (op : A -> B -> A) (junk : B) orders (arr : list (list A)) (updates : list (list B)) index :
  length index = length arr -> layout index = layout updates -> Forall2 (is_argsort ZOrd) index orders ->
  Forall (Forall (fun i => 0 <= i < total arr)) index ->
  exists out, reduce_elements op junk orders arr updates index = Ok out /\ layout out = layout arr /\
    forall g a, global_at arr g a -> exists us,
      Permutation us (updates_for g index updates) /\ global_at out g (fold_left op us a).
Proof.
  intros Hl Hlay Hord Hrng.
  destruct (reduce_elements_ok op arr updates index orders junk) with (junk := junk) as (out & E1 & E2 & E3 & E4).
  - intros r _. now apply layout_nth.
  - intros r Hr. apply nth_ranks2; [assumption | lia].
  - intros r i _ Hi. apply (nth_ranks _ _ Hrng) in Hi. lia.
  - intros r i _ Hi. apply (nth_ranks _ _ Hrng) in Hi. unfold total, zlen in *. lia.
  - exists out. split; [exact E1|].
    assert (layout out = layout arr) as Elay.
    { unfold layout. apply list_ext_nth with (d := 0%nat); rewrite !map_length; [assumption|]. intros k Hk.
      change 0%nat with (@length A []). rewrite !map_nth. apply E3. lia. }
    split; [exact Elay|]. intros g a Hg. apply global_at_local in Hg. destruct Hg as (j & k & Hj & Hk & -> & Ha).
    destruct (E4 j k a Hj Ha) as (us & HP & Hn). exists us. split.
    + unfold updates_for. rewrite <- combine_concat_layout by assumption. rewrite Hl. exact HP.
    + rewrite <- (goff_layout _ _ Elay). apply local_global_at; [lia | exact Hn].
Qed.

Lemma fold_left_perm {A B} (op : A -> B -> A) : (forall a u v, op (op a u) v = op (op a v) u) ->
  forall us vs, Permutation us vs -> forall a, fold_left op us a = fold_left op vs a.
Proof.
  intros H us vs HP. induction HP; intro a; cbn [fold_left]; auto.
  - now rewrite H.
  - now rewrite IHHP1.
Qed.

Lemma reduce_elements_commuting {A B} (op : A -> B -> A) (junk : B) orders (arr : list (list A)) (updates : list (list B)) index :
  length index = length arr -> layout index = layout updates -> Forall2 (is_argsort ZOrd) index orders ->
  Forall (Forall (fun i => 0 <= i < total arr)) index ->
  (forall a u v, op (op a u) v = op (op a v) u) ->
  exists out, reduce_elements op junk orders arr updates index = Ok out /\ layout out = layout arr /\
    forall g a, global_at arr g a -> global_at out g (fold_left op (updates_for g index updates) a).
Proof.
  intros H1 H2 H3 H4 Hc. destruct (reduce_elements_spec op junk orders arr updates index H1 H2 H3 H4) as (out & E1 & E2 & E3).
  exists out. split; [exact E1|]. split; [exact E2|]. intros g a Hg. destruct (E3 g a Hg) as (us & HP & Ho).
  now rewrite (fold_left_perm op Hc _ _ HP) in Ho.
Qed.

Lemma reduce_elements_untouched {A B} (op : A -> B -> A) (junk : B) orders (arr : list (list A)) (updates : list (list B)) index out :
  length index = length arr -> layout index = layout updates -> Forall2 (is_argsort ZOrd) index orders ->
  Forall (Forall (fun i => 0 <= i < total arr)) index -> reduce_elements op junk orders arr updates index = Ok out ->
  forall g a, global_at arr g a -> ~ In g (concat index) -> global_at out g a.
Proof.
  intros H1 H2 H3 H4 E g a Hg Hn. destruct (reduce_elements_spec op junk orders arr updates index H1 H2 H3 H4) as (out' & E1 & _ & E3).
  rewrite E in E1. injection E1 as <-. destruct (E3 g a Hg) as (us & HP & Ho).
  assert (updates_for g index updates = []) as E0.
  { unfold updates_for. rewrite filter_none; [reflexivity|]. intros [i u] Hin. cbn [fst]. apply in_combine_l in Hin.
    destruct (Z.eqb_spec i g); [subst; contradiction | reflexivity]. }
  rewrite E0 in HP. apply Permutation_sym, Permutation_nil in HP. now rewrite HP in Ho.
Qed.

Lemma reduce_elements_rejects {A B} (op : A -> B -> A) (junk : B) orders (arr : list (list A)) (updates : list (list B)) index i :
  length index = length arr -> layout index = layout updates -> Forall2 (is_argsort ZOrd) index orders ->
  In i (concat index) -> ~ (0 <= i < total arr) ->
  exists e, reduce_elements op junk orders arr updates index = Err e.
Proof.
  intros Hl Hlay Hord Hi Hout.
  assert (forall r, (r < length arr)%nat -> length (nth r index []) = length (nth r updates [])) as A1 by (intros r _; now apply layout_nth).
  assert (forall r, (r < length arr)%nat -> is_argsort ZOrd (nth r index []) (nth r orders [])) as A2
    by (intros r Hr; apply nth_ranks2; [assumption | lia]).
  destruct (existsb (fun j => j <? 0) (concat index)) eqn:Ex.
  - apply existsb_exists in Ex. destruct Ex as (j & Hj & Hneg). apply in_concat in Hj. destruct Hj as (l & Hlx & Hj).
    apply In_nth with (d := []) in Hlx. destruct Hlx as (r & Hr & <-).
    exists EAssert. apply (reduce_elements_negative op arr updates index orders junk A1 A2 junk r j); [lia | assumption | lia].
  - assert (forall j, In j (concat index) -> 0 <= j) as Hnn.
    { intros j Hj. destruct (Z.ltb_spec j 0) as [H|H]; [|assumption].
      assert (existsb (fun j => j <? 0) (concat index) = true) as Hx by (apply existsb_exists; exists j; split; [assumption | lia]). congruence. }
    pose proof (Hnn i Hi) as Hi0. apply in_concat in Hi. destruct Hi as (l & Hlx & Hi).
    apply In_nth with (d := []) in Hlx. destruct Hlx as (r & Hr & <-).
    apply (reduce_elements_beyond op arr updates index orders junk A1 A2) with (r := r) (i := i); [|lia | assumption | unfold total, zlen in *; lia].
    intros q j Hq Hj. apply Hnn. apply in_concat. exists (nth q index []). split; [apply nth_In; lia | assumption].
Qed.

Lemma reduce_elements_rows {A B} (op : A -> list B -> A) (junk : B) (junkr : list B) nv orders (arr : list (list A)) (updates : list (list (list B))) index :
  0 <= nv -> row_width nv updates ->
  length index = length arr -> layout index = layout updates -> Forall2 (is_argsort ZOrd) index orders ->
  Forall (Forall (fun i => 0 <= i < total arr)) index ->
  reduce_elements_nd op junk nv orders arr updates index = reduce_elements op junkr orders arr updates index.
Proof.
  intros Hnv Hrow Hl Hlay Hord Hrng. apply reduce_elements_nd_eq; auto.
  - intros r row _ Hin. exact (nth_ranks _ _ Hrow r row Hin).
  - intros r _. now apply layout_nth.
  - intros r Hr. apply nth_ranks2; [assumption | lia].
  - intros r i _ Hi. apply (nth_ranks _ _ Hrng) in Hi. lia.
Qed.
