(** Proofs about parallel_match. *)
From Coq Require Import QArith.
From Verif.Base Require Import Prelude ListLemmas Order.
From Verif.Mpi Require Import CommModel CommProofs CutProofs.
From Verif.Psort Require Import MoveModel MoveProofs FetchProofs SplitModel SplitProofs SortModel SortProofs MatchModel MatchSpec.
From Coq Require Import ZifyBool ZifyNat.
Local Open Scope Z_scope.

(** *** first_position has exactly one solution *)
Lemma In_combine_zseq {A} (l : list A) k x : nth_error l k = Some x -> In (x, Z.of_nat k) (combine l (zseq 0 (length l))).
Proof.
  assert (forall s, nth_error l k = Some x -> In (x, s + Z.of_nat k) (combine l (zseq s (length l)))) as H.
  { revert k. induction l as [|a l IH]; intros k s H; [destruct k; discriminate|]. cbn [length zseq combine].
    destruct k as [|k]; cbn [nth_error] in H.
    - injection H as ->. left. f_equal. lia.
    - right. specialize (IH k (s + 1) H). replace (s + Z.of_nat (S k)) with (s + 1 + Z.of_nat k) by lia. exact IH. }
  intro Hk. specialize (H 0 Hk). exact H.
Qed.

Section FirstPos.
  Context {A : Type} (Od : TOrd A).
  Fixpoint find_first (l : list A) (x : A) : Z :=
    match l with
    | [] => -1
    | y :: l' => if eqb Od y x then 0 else let i := find_first l' x in if i =? -1 then -1 else i + 1
    end.
  Lemma first_position_unique (l : list A) x i j : first_position l x i -> first_position l x j -> i = j.
  Proof.
    intros [[H1 H2]|(H1 & H2 & H3)] [[H4 H5]|(H4 & H5 & H6)].
    - lia.
    - exfalso. apply H2. eapply nth_error_In; eassumption.
    - exfalso. apply H5. eapply nth_error_In; eassumption.
    - destruct (Z.lt_trichotomy i j) as [H|[H|H]]; [exfalso|assumption|exfalso].
      + apply (H6 (Z.to_nat i)); [lia | assumption].
      + apply (H3 (Z.to_nat j)); [lia | assumption].
  Qed.
  Lemma find_first_spec (l : list A) x : first_position l x (find_first l x).
  Proof.
    induction l as [|y l IH]; cbn [find_first].
    - left. split; [reflexivity | intros []].
    - destruct (eqb Od y x) eqn:E.
      + apply eqb_eq in E. subst y. right. split; [lia|]. split; [reflexivity|]. intros j Hj. lia.
      + apply eqb_neq in E. destruct IH as [[H1 H2]|(H1 & H2 & H3)].
        * rewrite H1. left. split; [reflexivity|]. intros [H|H]; auto.
        * destruct (Z.eqb_spec (find_first l x) (-1)); [lia|]. right. split; [lia|]. split.
          -- replace (Z.to_nat (find_first l x + 1)) with (S (Z.to_nat (find_first l x))) by lia. exact H2.
          -- intros [|j] Hj; cbn [nth_error]; [congruence|]. apply H3. lia.
  Qed.
End FirstPos.

(** *** writing consecutive blocks from an offset; empty blocks may have any offset *)
Lemma fold_write_from {A} (data : nat -> list A) (off : nat -> Z) (o : Z) n buf :
  0 <= o ->
  (forall i, (i < n)%nat -> data i = [] \/ off i = o + sumZ (spmd i (fun k => zlen (data k)))) ->
  o + sumZ (spmd n (fun k => zlen (data k))) <= zlen buf ->
  fold_left (fun b i => write_at b (off i) (data i)) (seq 0 n) buf =
  firstn (Z.to_nat o) buf ++ concat (spmd n data) ++ skipn (Z.to_nat (o + sumZ (spmd n (fun k => zlen (data k))))) buf.
Proof.
  intro Ho. induction n as [|n IH]; intros Hoff Hlen.
  - cbn [seq fold_left spmd map concat app sumZ]. rewrite Z.add_0_r. symmetry. apply firstn_skipn.
  - rewrite seq_S, fold_left_app. cbn [fold_left Nat.add].
    rewrite spmd_S, sumZ_app in Hlen. cbn [sumZ] in Hlen.
    pose proof (zlen_nonneg (data n)).
    rewrite IH; [|intros i Hi; apply Hoff; lia | lia].
    assert (zlen (concat (spmd n data)) = sumZ (spmd n (fun k => zlen (data k)))) as Hc.
    { rewrite zlen_concat. now rewrite map_spmd. }
    rewrite concat_spmd_app, spmd_S, sumZ_app. cbn [sumZ].
    set (s := sumZ (spmd n (fun k => zlen (data k)))) in *.
    pose proof (zlen_nonneg (concat (spmd n data))) as Hnn.
    destruct (Hoff n ltac:(lia)) as [He|He].
    + rewrite He, write_at_nil. unfold zlen at 1. cbn [length]. rewrite app_nil_r. do 4 f_equal. lia.
    + rewrite He. fold s. rewrite app_assoc. unfold write_at.
      assert (length (firstn (Z.to_nat o) buf ++ concat (spmd n data)) = Z.to_nat (o + s)) as Hl.
      { rewrite app_length, firstn_length. unfold zlen in *. lia. }
      rewrite firstn_app, <- Hl, firstn_all, Nat.sub_diag, firstn_O, app_nil_r.
      rewrite skipn_app, skipn_all2 by lia. cbn [app].
      rewrite skipn_skipn', <- !app_assoc. do 3 f_equal. f_equal. unfold zlen in *. lia.
Qed.

Lemma fold_left_ext_in {A B} (f g : A -> B -> A) l a : (forall x b, In b l -> f x b = g x b) -> fold_left f l a = fold_left g l a.
Proof.
  revert a; induction l as [|b l IH]; intros a H; [reflexivity|]. cbn [fold_left]. rewrite H by (now left).
  apply IH. intros; apply H; now right.
Qed.
Lemma firstn_repeat' {A} (x : A) n k : firstn k (repeat x n) = repeat x (Nat.min k n).
Proof. revert n; induction k as [|k IH]; intros [|n]; cbn [firstn repeat Nat.min]; try reflexivity. now rewrite IH. Qed.
Lemma skipn_repeat' {A} (x : A) n k : skipn k (repeat x n) = repeat x (n - k).
Proof. revert n; induction k as [|k IH]; intros [|n]; cbn [skipn repeat Nat.sub]; try reflexivity. now rewrite IH. Qed.
Lemma zslice_block {B} P (h : nat -> list B) (c : nat -> Z) i : (i < P)%nat -> (forall k, (k < P)%nat -> zlen (h k) = c k) ->
  zslice (concat (spmd P h)) (sumZ (spmd i c)) (sumZ (spmd i c) + c i) = h i.
Proof.
  intros Hi Hc. unfold spmd at 1. replace P with (i + (1 + (P - S i)))%nat at 1 by lia.
  rewrite seq_app, map_app, concat_app. cbn [seq map concat Nat.add].
  assert (zlen (concat (map h (seq 0 i))) = sumZ (spmd i c)) as Hl.
  { rewrite zlen_concat. fold (spmd i h). rewrite map_spmd. f_equal. apply spmd_ext. intros k Hk. apply Hc. lia. }
  assert (zlen (h i) = c i) as Hl2 by (now apply Hc).
  pose proof (zlen_nonneg (concat (map h (seq 0 i)))).
  rewrite zslice_app, Hl. rewrite zslice_past by lia. cbn [app].
  rewrite zslice_app. rewrite (zslice_all (h i)) by lia. rewrite zslice_neg by lia. apply app_nil_r.
Qed.

(** *** mask assignment *)
Lemma np_mask_length_true {A} (l : list A) m : length l = length m -> length (np_mask l m) = length (filter id m).
Proof.
  revert m; induction l as [|a l IH]; intros [|b m] H; try discriminate; [reflexivity|]. injection H as H.
  destruct b; cbn [np_mask filter id length]; [f_equal|]; now apply IH.
Qed.
Lemma np_mask_put_length {A} (l : list A) m v : length (np_mask_put l m v) = length l.
Proof.
  revert m v; induction l as [|a l IH]; intros [|b m] v; cbn [np_mask_put]; try reflexivity.
  destruct b; [destruct v|]; cbn [length]; now rewrite IH.
Qed.
Lemma np_mask_put_firstn {A} (l : list A) m v n : (length (filter id m) <= n)%nat -> np_mask_put l m (firstn n v) = np_mask_put l m v.
Proof.
  revert m v n; induction l as [|a l IH]; intros [|b m] v n H; cbn [np_mask_put]; try reflexivity.
  destruct b; cbn [filter id length] in H.
  - destruct n as [|n]; [lia|]. destruct v as [|x v]; cbn [firstn]; [reflexivity|]. f_equal. apply IH. lia.
  - f_equal. now apply IH.
Qed.

Section Plan.
  Context {A : Type} (f : A -> Z).
  (** cut positions from the start value [s] and the flags and maxima of the tasks *)
  Fixpoint Bnd (s : Z) (hv : list bool) (mx : list A) (j : nat) : Z :=
    match j, hv, mx with
    | S j', h :: hv', m :: mx' => Bnd (if h then f m else s) hv' mx' j'
    | _, _, _ => s
    end.
  Lemma Bnd_S s hv mx j d : length mx = length hv -> (j < length hv)%nat ->
    Bnd s hv mx (S j) = if nth j hv false then f (nth j mx d) else Bnd s hv mx j.
  Proof.
    revert s mx j; induction hv as [|h hv IH]; intros s [|m mx] j Hl Hj; try discriminate; [cbn in Hj; lia|].
    injection Hl as Hl. destruct j as [|j].
    - cbn [Bnd nth]. destruct hv, mx; try discriminate; reflexivity.
    - cbn [nth]. change (Bnd s (h :: hv) (m :: mx) (S (S j))) with (Bnd (if h then f m else s) hv mx (S j)).
      rewrite IH by (assumption || (cbn in Hj; lia)). reflexivity.
  Qed.
  Lemma put_displ hv : forall s mx j, length mx = length hv -> (j < length hv)%nat ->
    nth j (np_mask_put (repeat 0 (length hv)) hv (s :: map f (np_mask mx hv))) 0 =
    if nth j hv false then Bnd s hv mx j else 0.
  Proof.
    induction hv as [|h hv IH]; intros s [|m mx] j Hl Hj; try discriminate; [cbn in Hj; lia|]. injection Hl as Hl.
    cbn [length repeat np_mask]. destruct h; cbn [np_mask_put map]; destruct j as [|j]; cbn [nth]; try reflexivity;
      rewrite IH by (assumption || (cbn in Hj; lia)); reflexivity.
  Qed.
  Lemma put_cnt (g : Z -> Z) hv : forall s mx j d, length mx = length hv -> (j < length hv)%nat ->
    nth j (np_mask_put (repeat 0 (length hv)) hv (map g (zipwith Z.sub (map f (np_mask mx hv)) (s :: map f (np_mask mx hv))))) 0 =
    if nth j hv false then g (f (nth j mx d) - Bnd s hv mx j) else 0.
  Proof.
    induction hv as [|h hv IH]; intros s [|m mx] j d Hl Hj; try discriminate; [cbn in Hj; lia|]. injection Hl as Hl.
    cbn [length repeat np_mask]. destruct h; cbn [np_mask_put map zipwith]; destruct j as [|j]; cbn [nth]; try reflexivity;
      rewrite IH with (d := d) by (assumption || (cbn in Hj; lia)); reflexivity.
  Qed.
End Plan.

Lemma zipwith_sub_removelast v s : zipwith Z.sub v (removelast (s :: v)) = zipwith Z.sub v (s :: v).
Proof.
  revert s; induction v as [|x v IH]; intro s; [reflexivity|]. change (removelast (s :: x :: v)) with (s :: removelast (x :: v)).
  cbn [zipwith]. f_equal. apply IH.
Qed.
Lemma steps_sum v s n : StronglySorted Z.le (s :: v) -> (forall x, In x (s :: v) -> x <= n) ->
  sumZ (map (fun c => if c <? 0 then 0 else c) (zipwith Z.sub v (s :: v))) <= n - s.
Proof.
  revert s; induction v as [|x v IH]; intros s Hs Hn.
  - cbn. specialize (Hn s ltac:(now left)). lia.
  - inversion Hs as [|? ? Hs' Hf]; subst. inversion Hf; subst. cbn [zipwith map sumZ].
    specialize (IH x Hs' ltac:(intros; apply Hn; now right)). destruct (Z.ltb_spec (x - s) 0); lia.
Qed.
Lemma steps_add v s : StronglySorted Z.le (s :: v) ->
  zipwith Z.add (removelast (s :: v)) (map (fun c => if c <? 0 then 0 else c) (zipwith Z.sub v (s :: v))) = v.
Proof.
  revert s; induction v as [|x v IH]; intros s Hs; [reflexivity|].
  inversion Hs as [|? ? Hs' Hf]; subst. inversion Hf; subst. change (removelast (s :: x :: v)) with (s :: removelast (x :: v)).
  cbn [zipwith map]. rewrite IH by assumption. f_equal. destruct (Z.ltb_spec (x - s) 0); lia.
Qed.
Lemma StronglySorted_mask {A} (R : A -> A -> Prop) (l : list A) m d : length l = length m ->
  (forall i j, (i < j)%nat -> (j < length l)%nat -> nth i m false = true -> nth j m false = true -> R (nth i l d) (nth j l d)) ->
  StronglySorted R (np_mask l m).
Proof.
  revert m; induction l as [|a l IH]; intros [|b m] Hl H; try discriminate; [constructor|]. injection Hl as Hl.
  assert (StronglySorted R (np_mask l m)) as HS.
  { apply IH; [assumption|]. intros i j Hij Hj Hi Hj'. apply (H (S i) (S j)); auto; cbn; lia. }
  destruct b; cbn [np_mask]; [|exact HS]. constructor; [exact HS|]. apply Forall_forall. intros x Hx.
  assert (exists j, (j < length l)%nat /\ nth j m false = true /\ x = nth j l d) as (j & Hj & Hm & ->).
  { clear -Hx Hl. revert m Hl Hx. induction l as [|a l IH]; intros [|b m] Hl Hx; try discriminate; [destruct Hx|].
    injection Hl as Hl. destruct b; cbn [np_mask] in Hx.
    - destruct Hx as [->|Hx]; [exists 0%nat; cbn; auto with arith|].
      destruct (IH m Hl Hx) as (j & ? & ? & ?). exists (S j). cbn. auto with arith.
    - destruct (IH m Hl Hx) as (j & ? & ? & ?). exists (S j). cbn. auto with arith. }
  apply (H 0%nat (S j)); cbn; auto; lia.
Qed.
Lemma np_mask_In {A} (l : list A) m x d : length l = length m -> In x (np_mask l m) <->
  exists j, (j < length l)%nat /\ nth j m false = true /\ x = nth j l d.
Proof.
  revert m; induction l as [|a l IH]; intros [|b m] Hl; try discriminate; [cbn; split; [intros [] | intros (j & H & _); lia]|].
  injection Hl as Hl. split.
  - intro Hx. destruct b; cbn [np_mask] in Hx.
    + destruct Hx as [->|Hx]; [exists 0%nat; cbn; auto with arith|].
      apply IH in Hx; [|assumption]. destruct Hx as (j & ? & ? & ?). exists (S j). cbn. auto with arith.
    + apply IH in Hx; [|assumption]. destruct Hx as (j & ? & ? & ?). exists (S j). cbn. auto with arith.
  - intros (j & Hj & Hm & ->). destruct j as [|j]; cbn [nth] in *.
    + subst b. now left.
    + assert (In (nth j l d) (np_mask l m)) by (apply IH; [assumption|]; exists j; cbn in Hj; auto with arith).
      destruct b; [now right | assumption].
Qed.

Section Ends.
  Context {A : Type} (Od : TOrd A) (zero : A).
  Lemma amin_sorted x l : sorted Od (x :: l) -> amin Od zero (x :: l) = x.
  Proof.
    intro H. inversion H as [|? ? _ Hf]; subst. cbn [amin]. clear H. induction l as [|y l IH]; [reflexivity|].
    inversion Hf; subst. cbn [fold_left]. rewrite H1. now apply IH.
  Qed.
  Lemma amax_sorted x l : sorted Od (x :: l) -> amax Od zero (x :: l) = last (x :: l) zero.
  Proof.
    intro H. cbn [amax]. revert x H. induction l as [|y l IH]; intros x H; [reflexivity|].
    inversion H as [|? ? Hs Hf]; subst. inversion Hf; subst. cbn [fold_left].
    assert ((if leb Od y x then x else y) = y) as ->.
    { destruct (leb Od y x) eqn:E; [|reflexivity]. now apply (leb_antisym _ Od). }
    rewrite IH by assumption. reflexivity.
  Qed.
  Lemma amin_In l : l <> [] -> sorted Od l -> In (amin Od zero l) l /\ (forall y, In y l -> leb Od (amin Od zero l) y = true).
  Proof.
    destruct l as [|x l]; [congruence|]. intros _ H. rewrite amin_sorted by assumption. split; [now left|].
    inversion H as [|? ? _ Hf]; subst. intros y [->|Hy]; [apply leb_refl|]. rewrite Forall_forall in Hf. auto.
  Qed.
  Lemma amax_In l : l <> [] -> sorted Od l -> In (amax Od zero l) l /\ (forall y, In y l -> leb Od y (amax Od zero l) = true).
  Proof.
    destruct l as [|x l]; [congruence|]. intros _ H. rewrite amax_sorted by assumption. clear -H.
    revert x H. induction l as [|z l IH]; intros x H.
    - split; [now left|]. intros y [->|[]]. apply leb_refl.
    - inversion H as [|? ? Hs Hf]; subst. destruct (IH z Hs) as [H1 H2].
      change (last (x :: z :: l) zero) with (last (z :: l) zero). split; [now right|].
      intros y [->|Hy]; [|auto]. rewrite Forall_forall in Hf. apply Hf. exact H1.
  Qed.
End Ends.

Section MatchP.
  Context {A : Type} (Od : TOrd A) (zero junk : A) (P : nat) (G : list A) (L : nat -> list (A * Z)) (arr1 : list (list A)).
  Hypothesis HlenP : length arr1 = P.
  Hypothesis HX : StronglySorted (lexlt Od) (concat (spmd P L)).
  Hypothesis HPerm : Permutation (concat (spmd P L)) (combine G (zseq 0 (length G))).
  Hypothesis HG : G <> [].
  Set Default Proof Using "All".

  Let Kk (j : nat) : list A := map fst (L j).
  Let Ik (j : nat) : list Z := map snd (L j).
  Let hv := map (fun a : list A => 0 <? zlen a) (spmd P Kk).
  Let mns := map (amin Od zero) (spmd P Kk).
  Let mxs := map (amax Od zero) (spmd P Kk).
  Let mn j := amin Od zero (Kk j).
  Let mx j := amax Od zero (Kk j).
  Let Al (i : nat) : list A := map (fun k => nth (Z.to_nat k) (nth i arr1 []) zero) (argsort Od (nth i arr1 [])).

  Lemma X_In x j : (j < P)%nat -> In x (L j) -> In x (concat (spmd P L)).
  Proof. intros Hj Hx. apply in_concat. exists (L j). split; [apply In_spmd; eauto | assumption]. Qed.
  Lemma X_split j : (j < P)%nat -> concat (spmd P L) = concat (spmd j L) ++ L j ++ concat (map L (seq (S j) (P - S j))).
  Proof.
    intro Hj. unfold spmd at 1. replace P with (j + (1 + (P - S j)))%nat at 1 by lia.
    rewrite seq_app, map_app, concat_app. cbn [seq map concat Nat.add]. reflexivity.
  Qed.
  Lemma L_cross i j x y : (i < j)%nat -> (j < P)%nat -> In x (L i) -> In y (L j) -> lexlt Od x y.
  Proof.
    intros Hij Hj Hx Hy. pose proof HX as H. rewrite (X_split j Hj) in H. apply StronglySorted_app in H.
    destruct H as (_ & _ & H). apply H; [|apply in_or_app; now left].
    apply in_concat. exists (L i). split; [apply In_spmd; eauto | assumption].
  Qed.
  Lemma lexlt_leb x y : lexlt Od x y -> leb Od (fst x) (fst y) = true.
  Proof. intros [H|[H _]]; [now apply ltb_leb | rewrite H; apply leb_refl]. Qed.
  Lemma L_lex j : (j < P)%nat -> StronglySorted (lexlt Od) (L j).
  Proof.
    intro Hj. pose proof HX as H. rewrite (X_split j Hj) in H. apply StronglySorted_app in H.
    destruct H as (_ & H & _). apply StronglySorted_app in H. apply H.
  Qed.
  Lemma Kk_sorted j : (j < P)%nat -> sorted Od (Kk j).
  Proof.
    intro Hj. unfold sorted, Kk. rewrite StronglySorted_map. eapply StronglySorted_weaken; [|now apply L_lex].
    intros x y _ _. apply lexlt_leb.
  Qed.
  Lemma nth_hv j : (j < P)%nat -> nth j hv false = (0 <? zlen (Kk j)).
  Proof. intro Hj. unfold hv. rewrite map_spmd, nth_spmd by assumption. reflexivity. Qed.
  Lemma hv_ne j : (j < P)%nat -> nth j hv false = true -> Kk j <> [].
  Proof. intros Hj H E. rewrite nth_hv, E in H by assumption. discriminate. Qed.
  Lemma ne_hv j : (j < P)%nat -> Kk j <> [] -> nth j hv false = true.
  Proof.
    intros Hj H. rewrite nth_hv by assumption. destruct (Kk j) as [|a l]; [congruence|]. rewrite zlen_cons.
    pose proof (zlen_nonneg l). lia.
  Qed.
  Lemma hv_len : length hv = P. Proof. unfold hv. now rewrite map_length, spmd_length. Qed.
  Lemma mxs_len : length mxs = length hv. Proof. rewrite hv_len. unfold mxs. now rewrite map_length, spmd_length. Qed.
  Lemma mns_len : length mns = length hv. Proof. rewrite hv_len. unfold mns. now rewrite map_length, spmd_length. Qed.
  Lemma nth_mxs j d : (j < P)%nat -> nth j mxs d = mx j.
  Proof. intro Hj. unfold mxs. rewrite map_spmd, nth_spmd by assumption. reflexivity. Qed.
  Lemma nth_mns j d : (j < P)%nat -> nth j mns d = mn j.
  Proof. intro Hj. unfold mns. rewrite map_spmd, nth_spmd by assumption. reflexivity. Qed.
  Lemma Kk_In j y : In y (Kk j) -> exists p, In p (L j) /\ fst p = y.
  Proof. unfold Kk. intro H. apply in_map_iff in H. destruct H as (p & H1 & H2). eauto. Qed.
  Lemma K_cross i j x y : (i < j)%nat -> (j < P)%nat -> In x (Kk i) -> In y (Kk j) -> leb Od x y = true.
  Proof.
    intros Hij Hj Hx Hy. apply Kk_In in Hx, Hy. destruct Hx as (p & Hp & <-). destruct Hy as (q & Hq & <-).
    apply lexlt_leb. now apply (L_cross i j).
  Qed.
  Lemma mx_In j : (j < P)%nat -> nth j hv false = true -> In (mx j) (Kk j).
  Proof. intros Hj H. apply amax_In; [now apply hv_ne | now apply Kk_sorted]. Qed.
  Lemma mx_ge j y : (j < P)%nat -> In y (Kk j) -> leb Od y (mx j) = true.
  Proof. intros Hj H. apply amax_In; [|now apply Kk_sorted | assumption]. intro E. rewrite E in H. destruct H. Qed.
  Lemma mn_In j : (j < P)%nat -> nth j hv false = true -> In (mn j) (Kk j).
  Proof. intros Hj H. apply amin_In; [now apply hv_ne | now apply Kk_sorted]. Qed.
  Lemma mn_le j y : (j < P)%nat -> In y (Kk j) -> leb Od (mn j) y = true.
  Proof. intros Hj H. apply amin_In; [|now apply Kk_sorted | assumption]. intro E. rewrite E in H. destruct H. Qed.

  Lemma G_In x : In x G <-> exists j, (j < P)%nat /\ In x (Kk j).
  Proof.
    rewrite <- (map_fst_combine_zseq G 0). rewrite <- (Permutation_map fst HPerm). rewrite concat_map, map_spmd.
    rewrite in_concat. split.
    - intros (l & Hl & Hx). apply In_spmd in Hl. destruct Hl as (j & Hj & ->). exists j. auto.
    - intros (j & Hj & Hx). exists (Kk j). split; [apply In_spmd; exists j; auto | assumption].
  Qed.
  (** the first rank with data *)
  Lemma first_have : exists q, (q < P)%nat /\ nth q hv false = true /\ (forall j, (j < q)%nat -> nth j hv false = false) /\
    forall (f : A -> Z), hd 0 (map f (np_mask mns hv)) = f (mn q).
  Proof.
    assert (exists q, (q < P)%nat /\ nth q hv false = true) as (q0 & Hq0 & Hh0).
    { assert (exists x, In x G) as (x & HxG).
      { clear -HG. destruct G as [|x G']; [congruence|]. exists x. now left. }
      destruct (proj1 (G_In x) HxG) as (j & Hj & Hx).
      exists j. split; [assumption|]. apply ne_hv; [assumption|]. intro E'. rewrite E' in Hx. destruct Hx. }
    assert (forall (h : list bool) (m : list A) q, length m = length h -> (q < length h)%nat -> nth q h false = true ->
              exists q', (q' < length h)%nat /\ nth q' h false = true /\ (forall j, (j < q')%nat -> nth j h false = false) /\
              forall (f : A -> Z), hd 0 (map f (np_mask m h)) = f (nth q' m zero)) as Hgen.
    { clear. induction h as [|b h IH]; intros [|a m] q Hl Hq Hh; try discriminate; [cbn in Hq; lia|]. injection Hl as Hl.
      destruct b.
      - exists 0%nat. cbn. repeat split; lia.
      - destruct q as [|q]; [discriminate|]. destruct (IH m q Hl) as (q' & H1 & H2 & H3 & H4); [cbn in Hq; lia | exact Hh|].
        exists (S q'). cbn [length nth np_mask]. repeat split; auto; [lia|]. intros [|j] Hj; [reflexivity|]. apply H3. lia. }
    destruct (Hgen hv mns q0 mns_len ltac:(now rewrite hv_len) Hh0) as (q & H1 & H2 & H3 & H4). rewrite hv_len in H1.
    exists q. repeat split; auto. intro f. rewrite H4, nth_mns by assumption. reflexivity.
  Qed.

  (** everything before [X1] is smaller: the next element decides *)
  Lemma first_geq X1 a i X2 x : concat (spmd P L) = X1 ++ (a, i) :: X2 ->
    (forall p, In p X1 -> ltb Od (fst p) x = true) -> leb Od x a = true ->
    first_position G x (if eqb Od a x then i else -1).
  Proof.
    intros E H1 H2. pose proof HX as HS. rewrite E in HS. apply StronglySorted_app in HS. destruct HS as (_ & HS & _).
    apply StronglySorted_inv in HS. destruct HS as [_ Hf]. rewrite Forall_forall in Hf.
    assert (forall k, nth_error G k = Some x -> In (x, Z.of_nat k) (X1 ++ (a, i) :: X2)) as Hpos.
    { intros k Hk. rewrite <- E. apply (Permutation_in _ (Permutation_sym HPerm)).
      now apply In_combine_zseq. }
    destruct (eqb Od a x) eqn:Ea.
    - apply eqb_eq in Ea. subst a. right.
      assert (In (x, i) (combine G (zseq 0 (length G)))) as Hin.
      { apply (Permutation_in _ HPerm). rewrite E. apply in_or_app. right. now left. }
      apply combine_zseq_nth in Hin. rewrite Z.sub_0_r in Hin. destruct Hin as [Hr Hn]. split; [lia|]. split; [exact Hn|].
      intros k Hk Hnk. apply Hpos in Hnk. apply in_app_or in Hnk. destruct Hnk as [Hnk|[Hnk|Hnk]].
      + specialize (H1 _ Hnk). cbn [fst] in H1. rewrite ltb_irrefl in H1. discriminate.
      + injection Hnk as Hnk. lia.
      + destruct (Hf _ Hnk) as [H'|[_ H']]; cbn [fst snd] in H'; [rewrite ltb_irrefl in H'; discriminate | lia].
    - apply eqb_neq in Ea. left. split; [reflexivity|]. intro Hin. apply In_nth_error in Hin. destruct Hin as (k & Hk).
      apply Hpos in Hk. apply in_app_or in Hk. destruct Hk as [Hk|[Hk|Hk]].
      + specialize (H1 _ Hk). cbn [fst] in H1. rewrite ltb_irrefl in H1. discriminate.
      + injection Hk as Hk _. congruence.
      + apply Ea. apply (leb_antisym _ Od); [|assumption]. exact (lexlt_leb _ _ (Hf _ Hk)).
  Qed.

  Lemma lookup_ok j x : (j < P)%nat -> nth j hv false = true -> leb Od x (mx j) = true ->
    (forall q, (q < j)%nat -> nth q hv false = true -> ltb Od (mx q) x = true) ->
    match_lookup Od (Kk j) (Ik j) x = Ok (find_first Od G x).
  Proof.
    intros Hj Hh Hle Hbefore.
    assert (forall k, first_position G x k -> find_first Od G x = k) as Hun
      by (intros; eapply first_position_unique; [apply find_first_spec | assumption]).
    pose proof (Kk_sorted j Hj) as Hs. pose proof (hv_ne j Hj Hh) as Hne.
    pose proof (ssl_bounds Od (Kk j) x) as Hb. set (p := searchsorted_left Od (Kk j) x) in *.
    assert (p < zlen (Kk j)) as Hp.
    { destruct (Z.lt_ge_cases p (zlen (Kk j))) as [H|H]; [assumption|]. exfalso.
      pose proof (mx_In j Hj Hh) as Hin. apply In_nth with (d := zero) in Hin. destruct Hin as (k & Hk & Hkm).
      pose proof (ssl_before Od (Kk j) x k zero ltac:(fold p; unfold zlen in *; lia)) as Hlt. rewrite Hkm in Hlt.
      apply ltb_not_leb in Hlt. congruence. }
    unfold match_lookup. fold p. destruct (Z.ltb_spec p 0); [lia|]. destruct (Z.leb_spec (zlen (Kk j)) p); [lia|].
    rewrite py_nth_ok with (d := zero) by lia. cbn [bind].
    assert (length (L j) = length (Kk j)) as HlL by (unfold Kk; now rewrite map_length).
    assert (Z.to_nat p < length (L j))%nat as Hpl by (unfold zlen in *; lia).
    destruct (nth_split (L j) (zero, 0) Hpl) as (l1 & l2 & El & Ell).
    set (e := nth (Z.to_nat p) (L j) (zero, 0)) in *.
    assert (nth (Z.to_nat p) (Kk j) zero = fst e) as -> by (unfold Kk, e; change zero with (fst (zero, 0)); now rewrite map_nth).
    assert (nth (Z.to_nat p) (Ik j) 0 = snd e) as Hse by (unfold Ik, e; change 0 with (snd (zero, 0)) at 1; now rewrite map_nth).
    assert (first_position G x (if eqb Od (fst e) x then snd e else -1)) as HF.
    { apply (first_geq (concat (spmd j L) ++ l1) (fst e) (snd e) (l2 ++ concat (map L (seq (S j) (P - S j))))).
      - rewrite (X_split j Hj), El. destruct e as [a i]. cbn [fst snd]. now rewrite <- !app_assoc.
      - intros q Hq. apply in_app_or in Hq. destruct Hq as [Hq|Hq].
        + apply in_concat in Hq. destruct Hq as (l & Hl & Hq). apply In_spmd in Hl. destruct Hl as (t & Ht & ->).
          assert (In (fst q) (Kk t)) as Hin by (unfold Kk; now apply in_map).
          eapply leb_ltb_trans; [apply (mx_ge t); [lia | exact Hin]|]. apply Hbefore; [assumption|].
          apply ne_hv; [lia|]. intro E. rewrite E in Hin. destruct Hin.
        + apply In_nth with (d := (zero, 0)) in Hq. destruct Hq as (k & Hk & <-).
          assert (fst (nth k l1 (zero, 0)) = nth k (Kk j) zero) as ->.
          { unfold Kk. rewrite El, map_app, app_nth1 by (rewrite map_length; lia). change zero with (fst (zero, 0)) at 2. now rewrite map_nth. }
          apply ssl_before. fold p. lia.
      - apply ltb_false_leb. assert (fst e = nth (Z.to_nat p) (Kk j) zero) as ->.
        { unfold Kk, e. change zero with (fst (zero, 0)) at 2. now rewrite map_nth. }
        apply ssl_after; [assumption | fold p; lia | unfold zlen in *; lia]. }
    rewrite (Hun _ HF). destruct (eqb Od (fst e) x); cbn [negb].
    - destruct (Z.leb_spec 0 p); [|lia]. rewrite py_nth_ok with (d := 0).
      + now rewrite Hse.
      + unfold Ik, zlen. rewrite map_length. unfold zlen in *. lia.
    - reflexivity.
  Qed.

  (** *** the cuts on rank i *)
  Lemma Al_sorted i : (i < P)%nat -> sorted Od (Al i).
  Proof.
    intro Hi. unfold Al, sorted. rewrite StronglySorted_map. pose proof (argsort_is_argsort Od (nth i arr1 [])) as [HP' HS].
    eapply StronglySorted_weaken; [|exact HS]. intros a b Ha Hb H. apply argsort_In in Ha, Hb. unfold zlen in *.
    apply H; apply nth_error_nth'; lia.
  Qed.
  Lemma Al_take i : np_take (nth i arr1 []) (argsort Od (nth i arr1 [])) = Ok (Al i).
  Proof. apply np_take_ok. intros k Hk. now apply argsort_In in Hk. Qed.
  Lemma Al_len i : length (Al i) = length (nth i arr1 []).
  Proof. unfold Al. rewrite map_length. pose proof (argsort_perm Od (nth i arr1 [])) as H. rewrite (Permutation_length H). apply zseq_length. Qed.

  Let f (i : nat) : A -> Z := searchsorted_right Od (Al i).
  Let s (i : nat) : Z := hd 0 (map (searchsorted_left Od (Al i)) (np_mask mns hv)).
  Let B (i j : nat) : Z := Bnd (f i) (s i) hv mxs j.

  Lemma B_0 i : B i 0 = s i.
  Proof. unfold B. destruct hv; reflexivity. Qed.
  Lemma B_S i j : (j < P)%nat -> B i (S j) = if nth j hv false then f i (mx j) else B i j.
  Proof.
    intro Hj. unfold B. rewrite (Bnd_S (f i) (s i) hv mxs j zero) by (rewrite ?mxs_len, ?hv_len; auto).
    rewrite nth_mxs by assumption. reflexivity.
  Qed.
  Lemma f_mono i x y : (i < P)%nat -> leb Od x y = true -> f i x <= f i y.
  Proof. intros Hi H. unfold f. rewrite !ssr_count by (now apply Al_sorted). now apply count_le_mono. Qed.
  Lemma s_le i j : (i < P)%nat -> (j < P)%nat -> nth j hv false = true -> s i <= f i (mx j).
  Proof.
    intros Hi Hj Hh. destruct first_have as (q & Hq & Hhq & Hbefore & Hhd). unfold s. rewrite Hhd.
    assert (q <= j)%nat as Hqj.
    { destruct (Nat.le_gt_cases q j); [assumption|]. rewrite Hbefore in Hh by assumption. discriminate. }
    assert (leb Od (mn q) (mx j) = true) as Hle.
    { destruct (Nat.eq_dec q j) as [->|Hne].
      - apply mn_le; [assumption|]. now apply mx_In.
      - apply (K_cross q j); [lia | assumption | now apply mn_In | now apply mx_In]. }
    etransitivity; [|apply f_mono; [assumption | exact Hle]]. apply ssl_le_ssr.
  Qed.
  Lemma B_form i j : (j <= P)%nat -> B i j = s i \/ exists q, (q < j)%nat /\ nth q hv false = true /\ B i j = f i (mx q).
  Proof.
    induction j as [|j IH]; intro Hj.
    - left. apply B_0.
    - rewrite B_S by lia. destruct (nth j hv false) eqn:E; [right; exists j; auto|].
      destruct IH as [IH|(q & H1 & H2 & H3)]; [lia | now left|]. right. exists q. auto.
  Qed.
  Lemma mx_mono i j : (i <= j)%nat -> (j < P)%nat -> nth i hv false = true -> nth j hv false = true -> leb Od (mx i) (mx j) = true.
  Proof.
    intros Hij Hj H1 H2. destruct (Nat.eq_dec i j) as [->|Hne]; [apply leb_refl|].
    apply (K_cross i j); [lia | assumption | apply mx_In; [lia | assumption] | now apply mx_In].
  Qed.
  Lemma B_mono i j : (i < P)%nat -> (j < P)%nat -> B i j <= B i (S j).
  Proof.
    intros Hi Hj. rewrite B_S by assumption. destruct (nth j hv false) eqn:E; [|lia].
    destruct (B_form i j ltac:(lia)) as [->|(q & Hq & Hh & ->)]; [now apply s_le|].
    apply f_mono; [assumption|]. apply mx_mono; auto; lia.
  Qed.
  Lemma s_range i : 0 <= s i <= zlen (Al i).
  Proof. destruct first_have as (q & _ & _ & _ & Hhd). unfold s. rewrite Hhd. apply ssl_bounds. Qed.
  Lemma B_range i j : (i < P)%nat -> (j <= P)%nat -> 0 <= B i j <= zlen (Al i).
  Proof.
    intros Hi Hj. destruct (B_form i j Hj) as [->|(q & Hq & Hh & ->)]; [apply s_range | apply ssr_bounds].
  Qed.
  Lemma B_le i j k : (i < P)%nat -> (j <= k)%nat -> (k <= P)%nat -> B i j <= B i k.
  Proof. intros Hi H1 H2. apply (mono_le (B i) P); auto. intros; now apply B_mono. Qed.

  Definition gcnt (i j : nat) : Z := B i (S j) - B i j.
  Definition gdis (i j : nat) : Z := if nth j hv false then B i j else 0.

  Lemma plan_ok i : (i < P)%nat ->
    match_plan Od P hv mns mxs (Al i) = Ok (spmd P (gcnt i), spmd P (gdis i)).
  Proof.
    intro Hi. unfold match_plan. fold (f i).
    set (next := map (f i) (np_mask mxs hv)).
    set (displ0 := map (searchsorted_left Od (Al i)) (np_mask mns hv)).
    assert (length next = length (filter id hv)) as Hln by (unfold next; rewrite map_length; apply np_mask_length_true, mxs_len).
    assert (length displ0 = length (filter id hv)) as Hld by (unfold displ0; rewrite map_length; apply np_mask_length_true, mns_len).
    destruct first_have as (q & Hq & Hhq & _ & _).
    assert (0 < length (filter id hv))%nat as Hpos.
    { assert (In true (filter id hv)) as Hin.
      { apply filter_In. split; [|reflexivity]. rewrite <- Hhq. apply nth_In. now rewrite hv_len. }
      destruct (filter id hv); [destruct Hin | cbn; lia]. }
    assert ((if (1 <? length (filter id hv))%nat then hd 0 displ0 :: removelast next else displ0) = removelast (s i :: next)) as ->.
    { destruct next as [|n0 next']; [cbn in Hln; lia|]. change (removelast (s i :: n0 :: next')) with (s i :: removelast (n0 :: next')).
      destruct (Nat.ltb_spec 1 (length (filter id hv))); [reflexivity|].
      destruct next' as [|]; [|cbn in Hln; lia]. cbn [removelast]. unfold s. fold displ0.
      destruct displ0 as [|d0 [|]]; cbn in Hld; try lia. reflexivity. }
    rewrite zipwith_sub_removelast.
    assert (StronglySorted Z.le next) as Hsn.
    { unfold next. rewrite StronglySorted_map. apply StronglySorted_mask with (d := zero); [apply mxs_len|].
      intros a b Hab Hb H1 H2. rewrite mxs_len, hv_len in Hb. rewrite !nth_mxs by lia. apply f_mono; [assumption|].
      apply mx_mono; auto; lia. }
    assert (forall x, In x next -> s i <= x <= zlen (Al i)) as Hrn.
    { intros x Hx. unfold next in Hx. apply in_map_iff in Hx. destruct Hx as (m & <- & Hm).
      apply np_mask_In with (d := zero) in Hm; [|apply mxs_len]. destruct Hm as (j & Hj & Hh & ->).
      rewrite mxs_len, hv_len in Hj. rewrite nth_mxs by assumption. split; [now apply s_le | apply ssr_bounds]. }
    assert (StronglySorted Z.le (s i :: next)) as Hss by (constructor; [assumption|]; apply Forall_forall; intros x Hx; now apply Hrn).
    pose proof (s_range i) as Hsr.
    pose proof (steps_sum next (s i) (zlen (Al i)) Hss) as Hsum.
    rewrite (proj2 (Z.leb_le _ _)) by (specialize (Hsum ltac:(intros x [<-|Hx]; [lia | now apply Hrn])); lia). cbn [check bind].
    rewrite (proj2 (forallb_forall (fun x => 0 <=? x) (removelast (s i :: next)))).
    2:{ intros x Hx. assert (In x (s i :: next)) as Hin.
        { clear -Hx. revert Hx. generalize (s i :: next). induction l as [|a l IH]; [intros []|]. destruct l as [|b l]; [intros []|].
          change (removelast (a :: b :: l)) with (a :: removelast (b :: l)). intros [<-|Hx]; [now left|]. right. now apply IH. }
        destruct Hin as [<-|Hin]; [lia|]. specialize (Hrn x Hin). lia. }
    cbn [check bind]. rewrite steps_add by assumption.
    rewrite (proj2 (forallb_forall _ next)) by (intros x Hx; specialize (Hrn x Hx); lia). cbn [check bind].
    f_equal. f_equal.
    - apply list_ext_nth with (d := 0); rewrite np_mask_put_length, repeat_length; [now rewrite spmd_length|].
      intros j Hj. rewrite nth_spmd by assumption. unfold gcnt. rewrite B_S by assumption.
      rewrite <- hv_len at 1. unfold next.
      rewrite put_cnt with (d := zero) by (rewrite ?mxs_len, ?hv_len; auto).
      rewrite nth_mxs by assumption. fold (B i j). destruct (nth j hv false) eqn:E; [|lia].
      pose proof (B_mono i j Hi Hj) as Hm. rewrite B_S, E in Hm by assumption.
      destruct (Z.ltb_spec (f i (mx j) - B i j) 0); lia.
    - apply list_ext_nth with (d := 0); rewrite np_mask_put_length, repeat_length; [now rewrite spmd_length|].
      intros j Hj. rewrite nth_spmd by assumption. unfold gdis.
      assert (removelast (s i :: next) = firstn (length next) (s i :: next)) as ->.
      { generalize (s i) as s0. clear. induction next as [|x l IH]; intro s0; [reflexivity|].
        change (removelast (s0 :: x :: l)) with (s0 :: removelast (x :: l)). cbn [length firstn]. f_equal. apply IH. }
      rewrite np_mask_put_firstn by lia. rewrite <- hv_len at 1. unfold next.
      rewrite put_displ by (rewrite ?mxs_len, ?hv_len; auto). reflexivity.
  Qed.

  Lemma gcnt_nonneg i j : (i < P)%nat -> (j < P)%nat -> 0 <= gcnt i j.
  Proof. intros Hi Hj. unfold gcnt. pose proof (B_mono i j Hi Hj). lia. Qed.
  Lemma gdis_cases i j : (i < P)%nat -> (j < P)%nat -> gcnt i j = 0 \/ gdis i j = B i j.
  Proof. intros Hi Hj. unfold gcnt, gdis. rewrite B_S by assumption. destruct (nth j hv false); [now right | left; lia]. Qed.

  Let sc := spmd P (fun i => spmd P (gcnt i)).
  Let sd := spmd P (fun i => spmd P (gdis i)).
  Lemma mat_sc i j : (i < P)%nat -> (j < P)%nat -> mat sc i j = gcnt i j.
  Proof. intros Hi Hj. unfold sc. rewrite mat_spmd by assumption. now rewrite nth_spmd. Qed.
  Lemma mat_sd i j : (i < P)%nat -> (j < P)%nat -> mat sd i j = gdis i j.
  Proof. intros Hi Hj. unfold sd. rewrite mat_spmd by assumption. now rewrite nth_spmd. Qed.

  Definition part (i j : nat) : list A := zslice (Al i) (B i j) (B i (S j)).
  Lemma part_len i j : (i < P)%nat -> (j < P)%nat -> zlen (part i j) = gcnt i j.
  Proof.
    intros Hi Hj. unfold part, gcnt. pose proof (B_mono i j Hi Hj). pose proof (B_range i j Hi ltac:(lia)).
    pose proof (B_range i (S j) Hi ltac:(lia)). rewrite zlen_zslice; lia.
  Qed.
  Lemma recv_ok : exchange junk P (spmd P Al) sc sd = Ok (spmd P (fun j => concat (spmd P (fun i => part i j)))).
  Proof.
    rewrite exchange_ok.
    - f_equal. apply spmd_ext. intros j Hj. f_equal. apply spmd_ext. intros i Hi. rewrite nth_spmd, mat_sc, mat_sd by assumption.
      unfold part. destruct (gdis_cases i j Hi Hj) as [H|H].
      + rewrite H. rewrite zslice_empty by lia. unfold gcnt in H. rewrite zslice_empty by lia. reflexivity.
      + rewrite H. f_equal. unfold gcnt. lia.
    - intros i j Hi Hj. rewrite nth_spmd, mat_sc, mat_sd by assumption. split; [now apply gcnt_nonneg|].
      destruct (gdis_cases i j Hi Hj) as [H|H]; [now left|]. right. rewrite H.
      pose proof (B_range i j Hi ltac:(lia)). pose proof (B_range i (S j) Hi ltac:(lia)). unfold gcnt. lia.
  Qed.

  Lemma part_In i j x : (i < P)%nat -> (j < P)%nat -> In x (part i j) -> match_lookup Od (Kk j) (Ik j) x = Ok (find_first Od G x).
  Proof.
    intros Hi Hj Hx. unfold part in Hx. apply zslice_In_nth with (d := zero) in Hx; [|apply B_range; lia].
    destruct Hx as (k & Hk & Hr & ->).
    assert (nth j hv false = true) as Hh.
    { destruct (nth j hv false) eqn:E; [reflexivity|]. rewrite B_S, E in Hr by assumption. lia. }
    apply lookup_ok; auto.
    - rewrite B_S, Hh in Hr by assumption. apply ssr_before. unfold f in Hr. lia.
    - intros q Hq Hhq. apply leb_false_ltb. apply ssr_after; [now apply Al_sorted | | assumption].
      pose proof (B_le i (S q) j Hi ltac:(lia) ltac:(lia)) as H. rewrite B_S, Hhq in H by lia. unfold f in H. lia.
  Qed.
  Lemma before_ok i x : (i < P)%nat -> In x (zslice (Al i) 0 (B i 0)) -> find_first Od G x = -1.
  Proof.
    intros Hi Hx. apply zslice_In_nth with (d := zero) in Hx; [|lia]. destruct Hx as (k & Hk & Hr & ->).
    eapply first_position_unique; [apply find_first_spec|]. left. split; [reflexivity|]. intro Hin.
    apply G_In in Hin. destruct Hin as (j & Hj & Hin). rewrite B_0 in Hr.
    destruct first_have as (q & Hq & Hhq & Hbefore & Hhd). unfold s in Hr. rewrite Hhd in Hr.
    pose proof (ssl_before Od (Al i) (mn q) k zero ltac:(lia)) as Hlt.
    assert (leb Od (mn q) (nth k (Al i) zero) = true) as Hge.
    { assert (nth j hv false = true) as Hh by (apply ne_hv; [assumption|]; intro E; rewrite E in Hin; destruct Hin).
      destruct (Nat.lt_trichotomy q j) as [H|[->|H]].
      - apply (K_cross q j); auto. now apply mn_In.
      - now apply mn_le.
      - rewrite Hbefore in Hh by assumption. discriminate. }
    apply ltb_not_leb in Hlt. congruence.
  Qed.
  Lemma after_ok i x : (i < P)%nat -> In x (zslice (Al i) (B i P) (zlen (Al i))) -> find_first Od G x = -1.
  Proof.
    intros Hi Hx. apply zslice_In_nth with (d := zero) in Hx; [|apply B_range; lia]. destruct Hx as (k & Hk & Hr & ->).
    eapply first_position_unique; [apply find_first_spec|]. left. split; [reflexivity|]. intro Hin.
    apply G_In in Hin. destruct Hin as (j & Hj & Hin).
    assert (nth j hv false = true) as Hh by (apply ne_hv; [assumption|]; intro E; rewrite E in Hin; destruct Hin).
    pose proof (mx_ge j _ Hj Hin) as Hle. pose proof (B_le i (S j) P Hi ltac:(lia) ltac:(lia)) as H.
    rewrite B_S, Hh in H by assumption. unfold f in H.
    rewrite (ssr_after Od (Al i) (mx j) k zero (Al_sorted i Hi)) in Hle; [discriminate | lia | assumption].
  Qed.

  Let ans := find_first Od G.
  Lemma back_ok :
    alltoallv P (spmd P (fun j => concat (spmd P (fun i => map ans (part i j))))) (alltoall P sc) (map excl_cumsum (alltoall P sc))
      (map (fun a : list A => repeat (-1) (length a)) arr1) sc sd = Ok (spmd P (fun i => map ans (Al i))).
  Proof.
    assert (forall i j, (i < P)%nat -> (j < P)%nat -> mat (alltoall P sc) j i = gcnt i j) as Hrc
      by (intros i j Hi Hj; rewrite mat_alltoall, mat_sc by assumption; reflexivity).
    assert (forall i j, (i < P)%nat -> (j < P)%nat -> mat (map excl_cumsum (alltoall P sc)) j i = sumZ (spmd i (fun k => gcnt k j))) as Hrd.
    { intros i j Hi Hj. rewrite mat_excl_cumsum.
      - rewrite nth_alltoall, sumZ_firstn_spmd by lia. f_equal. apply spmd_ext. intros k Hk. apply mat_sc; lia.
      - rewrite nth_alltoall, spmd_length by assumption. lia.
      - unfold alltoall. rewrite spmd_length. assumption. }
    assert (forall j, (j < P)%nat -> zlen (concat (spmd P (fun i => map ans (part i j)))) = sumZ (spmd P (fun k => gcnt k j))) as Hlv.
    { intros j Hj. rewrite zlen_concat, map_spmd. f_equal. apply spmd_ext. intros i Hi. rewrite zlen_map. now apply part_len. }
    assert (forall i, (i < P)%nat -> nth i (map (fun a : list A => repeat (-1) (length a)) arr1) [] = repeat (-1) (length (Al i))) as Hbuf.
    { intros i Hi. rewrite nth_map_dflt with (d' := []) by lia. now rewrite Al_len. }
    unfold alltoallv. rewrite (proj2 (a2av_valid_spec _ _ _ _ _ _ _)).
    - f_equal. apply spmd_ext. intros i Hi. rewrite Hbuf by assumption.
      rewrite (fold_left_ext_in _ (fun buf j => write_at buf (gdis i j) (map ans (part i j)))).
      + rewrite fold_write_from with (o := B i 0).
        * assert (B i 0 + sumZ (spmd P (fun k => zlen (map ans (part i k)))) = B i P) as ->.
          { rewrite (spmd_ext P _ (fun k => B i (S k) - B i k)).
            - rewrite sumZ_telescope. lia.
            - intros k Hk. rewrite zlen_map, part_len by assumption. reflexivity. }
          pose proof (B_range i 0 Hi ltac:(lia)) as R0. pose proof (B_range i P Hi ltac:(lia)) as RP.
          assert (Al i = zslice (Al i) 0 (B i 0) ++ concat (spmd P (part i)) ++ zslice (Al i) (B i P) (zlen (Al i))) as EA.
          { unfold part. rewrite (concat_zslices (Al i) (B i)) by (intros; now apply B_mono).
            rewrite <- zslice_split by (try lia; apply B_le; auto; lia). rewrite <- zslice_split by lia.
            symmetry. apply zslice_all; lia. }
          rewrite EA at 3. rewrite !map_app.
          assert (forall l, (forall x, In x l -> ans x = -1) -> map ans l = repeat (-1) (length l)) as Hrep.
          { induction l as [|x l IH]; intro H; [reflexivity|]. cbn [map length repeat]. rewrite H by (now left). f_equal. apply IH. intros; apply H; now right. }
          f_equal; [|f_equal].
          -- rewrite (Hrep (zslice (Al i) 0 (B i 0))) by (intros x Hx; now apply (before_ok i)).
             rewrite zslice_length. rewrite firstn_repeat'. f_equal. unfold zlen in *. lia.
          -- rewrite concat_map, map_spmd. reflexivity.
          -- rewrite (Hrep (zslice (Al i) (B i P) (zlen (Al i)))) by (intros x Hx; now apply (after_ok i)).
             rewrite zslice_length. rewrite skipn_repeat'. f_equal. unfold zlen in *. lia.
        * apply B_range; lia.
        * intros j Hj. destruct (gdis_cases i j Hi Hj) as [H|H].
          -- left. apply zlen_0_nil. rewrite zlen_map, part_len by assumption. exact H.
          -- right. rewrite H. rewrite (spmd_ext j _ (fun k => B i (S k) - B i k)).
             ++ rewrite sumZ_telescope. lia.
             ++ intros k Hk. rewrite zlen_map, part_len by lia. reflexivity.
        * rewrite (spmd_ext P _ (fun k => B i (S k) - B i k)).
          -- rewrite sumZ_telescope. pose proof (B_range i P Hi ltac:(lia)). unfold zlen. rewrite repeat_length. unfold zlen in *. lia.
          -- intros k Hk. rewrite zlen_map, part_len by assumption. reflexivity.
      + intros buf j Hj. apply in_seq in Hj. rewrite mat_sd, Hrc, Hrd, nth_spmd by lia. f_equal.
        rewrite pyslice_zslice.
        * rewrite (zslice_block P (fun i => map ans (part i j)) (fun i => gcnt i j) i) by (assumption || (intros; rewrite zlen_map; apply part_len; lia)).
          reflexivity.
        * apply sumZ_nonneg. apply Forall_forall. intros z Hz. apply In_spmd in Hz. destruct Hz as (k & Hk & ->). apply gcnt_nonneg; lia.
        * assert (0 <= sumZ (spmd i (fun k => gcnt k j))) by (apply sumZ_nonneg; apply Forall_forall; intros z Hz; apply In_spmd in Hz; destruct Hz as (k & Hk & ->); apply gcnt_nonneg; lia).
          pose proof (gcnt_nonneg i j Hi ltac:(lia)). lia.
    - split.
      + intros a b Ha Hb. rewrite (Hrc b a), !mat_sc, (Hrd b a), mat_sd, nth_spmd, Hlv, Hbuf by assumption.
        pose proof (gcnt_nonneg b a Hb Ha) as Hg. split; [reflexivity|]. split; [assumption|].
        split.
        * right. split.
          -- apply sumZ_nonneg. apply Forall_forall. intros z Hz. apply In_spmd in Hz. destruct Hz as (k & Hk & ->). apply gcnt_nonneg; lia.
          -- pose proof (sumZ_spmd_mono (fun k => gcnt k a) (S b) P ltac:(lia) ltac:(intros; now apply gcnt_nonneg)) as H.
             rewrite spmd_S, sumZ_app in H. cbn [sumZ] in H. lia.
        * destruct (gdis_cases a b Ha Hb) as [H|H]; [now left|]. right. rewrite H. unfold gcnt.
          pose proof (B_range a b Ha ltac:(lia)). pose proof (B_range a (S b) Ha ltac:(lia)).
          unfold zlen. rewrite repeat_length. unfold zlen in *. lia.
      + intros r a b Hr Ha Hb Hab. rewrite !mat_sc, !mat_sd by assumption.
        destruct (gdis_cases r a Hr Ha) as [H|H]; [left; lia|]. destruct (gdis_cases r b Hr Hb) as [H'|H']; [right; left; lia|].
        rewrite H, H'. unfold gcnt. right. right. destruct (Nat.lt_ge_cases a b).
        * left. pose proof (B_le r (S a) b Hr ltac:(lia) ltac:(lia)). lia.
        * right. pose proof (B_le r (S b) a Hr ltac:(lia) ltac:(lia)). lia.
  Qed.

  Lemma match_ordered_ok : match_ordered Od zero junk arr1 (spmd P Kk) (spmd P Ik) = Ok (map (map ans) arr1).
  Proof.
    unfold match_ordered. rewrite HlenP. fold mns mxs hv.
    rewrite (mapM_seq_ok _ Al).
    2:{ intros r Hr. rewrite nth_map_dflt with (d' := []) by lia. apply Al_take. }
    cbn [bind].
    rewrite (mapM_seq_ok _ (fun i => (spmd P (gcnt i), spmd P (gdis i)))).
    2:{ intros r Hr. rewrite nth_spmd by assumption. now apply plan_ok. }
    cbn [bind]. rewrite !map_spmd. cbn [fst snd]. fold sc sd. rewrite recv_ok. cbn [bind].
    rewrite (mapM_seq_ok _ (fun j => concat (spmd P (fun i => map ans (part i j))))).
    2:{ intros j Hj. rewrite !nth_spmd by assumption. rewrite (mapM_map_ok _ ans).
        - f_equal. now rewrite concat_map, map_spmd.
        - intros x Hx. apply in_concat in Hx. destruct Hx as (l & Hl & Hx). apply In_spmd in Hl. destruct Hl as (i & Hi & ->).
          now apply (part_In i). }
    cbn [bind]. rewrite back_ok. cbn [bind]. f_equal.
    transitivity (spmd P (fun r => map ans (nth r arr1 []))).
    - apply spmd_ext. intros r Hr. rewrite nth_spmd by assumption. rewrite nth_map_dflt with (d' := []) by lia.
      unfold Al. rewrite map_map. rewrite np_put_perm.
      + rewrite repeat_length, map_length.
        pose proof (argsort_perm Od (nth r arr1 [])) as H. rewrite (Permutation_length H), zseq_length.
        rewrite <- (map_map (fun k => nth (Z.to_nat k) (nth r arr1 []) zero) ans). now rewrite map_nth_zseq.
      + rewrite repeat_length, map_length.
        pose proof (argsort_perm Od (nth r arr1 [])) as H. rewrite (Permutation_length H), zseq_length. exact H.
    - rewrite <- HlenP, <- (map_spmd _ (fun r => nth r arr1 [])). f_equal. apply spmd_nth.
  Qed.
End MatchP.

(** *** the global positions of a distributed array *)
Lemma positions_concat {A} (d : list (list A)) n : (n <= length d)%nat ->
  concat (spmd n (fun r => zseq (goff (nperproc d) r) (length (nth r d [])))) = zseq 0 (length (concat (firstn n d))) /\
  zlen (concat (firstn n d)) = goff (nperproc d) n.
Proof.
  induction n as [|n IH]; intro Hn; [split; reflexivity|].
  destruct IH as [IH1 IH2]; [lia|]. rewrite concat_spmd_app, IH1.
  assert (firstn (S n) d = firstn n d ++ [nth n d []]) as Hf.
  { clear -Hn. revert n Hn. induction d as [|l d IH]; intros n Hn; [cbn in Hn; lia|]. destruct n as [|n]; [reflexivity|].
    cbn [firstn nth app]. f_equal. apply IH. cbn in Hn. lia. }
  rewrite Hf, concat_app. cbn [concat]. rewrite app_nil_r, zlen_app, app_length, zseq_app, IH2.
  rewrite goff_S by (rewrite nperproc_length; lia). rewrite nth_nperproc by lia. split; [|reflexivity].
  do 2 f_equal. unfold zlen in IH2. lia.
Qed.
Lemma positions_all {A} (d : list (list A)) :
  concat (spmd (length d) (fun r => zseq (goff (nperproc d) r) (length (nth r d [])))) = zseq 0 (length (concat d)).
Proof. rewrite (proj1 (positions_concat d (length d) ltac:(lia))). now rewrite firstn_all. Qed.
Lemma index_in_eq {A} (d : list (list A)) :
  spmd (length d) (fun r => map (fun i => i + nth r (excl_cumsum (nperproc d)) 0) (zseq 0 (length (nth r d [])))) =
  spmd (length d) (fun r => zseq (goff (nperproc d) r) (length (nth r d []))).
Proof.
  apply spmd_ext. intros r Hr. rewrite nth_excl_goff by (now rewrite nperproc_length).
  rewrite (map_ext _ (Z.add (goff (nperproc d) r))) by (intros; lia). rewrite map_add_zseq. f_equal. lia.
Qed.
Lemma concat_combine {A B} P (f : nat -> list A) (g : nat -> list B) : (forall r, (r < P)%nat -> length (f r) = length (g r)) ->
  concat (spmd P (fun r => combine (f r) (g r))) = combine (concat (spmd P f)) (concat (spmd P g)).
Proof.
  induction P as [|P IH]; intro H; [reflexivity|]. rewrite !concat_spmd_app, IH by (intros; apply H; lia).
  rewrite combine_app'; [reflexivity|]. assert (forall n, (n <= P)%nat -> length (concat (spmd n f)) = length (concat (spmd n g))) as Hl.
  { induction n as [|n IHn]; intro Hn; [reflexivity|]. rewrite !concat_spmd_app, !app_length, IHn by lia. rewrite H by lia. reflexivity. }
  now apply Hl.
Qed.

Lemma parallel_match_ok {A} (Od : TOrd A) (zero junk : A) fuel (srt : bool) (arr1 arr2 : list (list A)) :
  length arr1 = length arr2 -> (srt = true -> sorted Od (concat arr2)) -> zlen (concat arr2) <= Z.of_nat fuel ->
  parallel_match Od zero fuel junk srt arr1 arr2 = Ok (map (map (find_first Od (concat arr2))) arr1).
Proof.
  intros Hlen Hsrt Hfuel. unfold parallel_match. set (P := length arr2) in *.
  rewrite !sum_nperproc. destruct (Z.eqb_spec (zlen (concat arr1)) 0) as [H1|H1].
  { f_equal. apply map_ext_in. intros l Hl. apply zlen_0_nil in H1.
    destruct l as [|x l]; [reflexivity|]. exfalso. assert (In x (concat arr1)) as H by (apply in_concat; exists (x :: l); split; [assumption | now left]).
    rewrite H1 in H. destruct H. }
  destruct (Z.eqb_spec (zlen (concat arr2)) 0) as [H2|H2].
  { apply zlen_0_nil in H2. rewrite H2. f_equal. apply map_ext. intro l. induction l as [|x l IH]; [reflexivity|]. cbn. now f_equal. }
  fold P. rewrite (index_in_eq arr2 : spmd P _ = _). fold P.
  assert (concat arr2 <> []) as Hne by (intro E; apply H2; now rewrite E).
  destruct srt.
  - set (L := fun r => combine (nth r arr2 []) (zseq (goff (nperproc arr2) r) (length (nth r arr2 [])))).
    assert (concat (spmd P L) = combine (concat arr2) (zseq 0 (length (concat arr2)))) as HL.
    { unfold L. rewrite concat_combine by (intros; now rewrite zseq_length). unfold P. rewrite positions_all.
      now rewrite (spmd_nth arr2 []). }
    pose proof (match_ordered_ok Od zero junk P (concat arr2) L arr1 Hlen) as H.
    assert (spmd P (fun j => map fst (L j)) = arr2) as E1.
    { transitivity (spmd P (fun j => nth j arr2 [])); [|apply spmd_nth]. apply spmd_ext. intros r Hr. apply map_fst_combine_zseq. }
    assert (spmd P (fun j => map snd (L j)) = spmd P (fun r => zseq (goff (nperproc arr2) r) (length (nth r arr2 [])))) as E2.
    { apply spmd_ext. intros r Hr. apply map_snd_combine_zseq. }
    rewrite E1, E2 in H. apply H; auto.
    + rewrite HL. pose proof (combine_zseq_sorted (concat arr2) 0) as HZ. specialize (Hsrt eq_refl).
      apply StronglySorted_of_nth with (d := (zero, 0)). intros i j Hij Hj.
      pose proof (StronglySorted_nth _ _ i j (zero, 0) HZ Hij Hj) as Hz.
      rewrite combine_length, zseq_length, Nat.min_id in Hj.
      pose proof (StronglySorted_nth _ _ i j zero Hsrt Hij Hj) as Hs.
      rewrite !combine_nth in * by (now rewrite zseq_length). cbn [fst snd] in *. unfold lexlt. cbn [fst snd].
      apply leb_ltb_or_eq in Hs. destruct Hs as [Hs|Hs]; [now left | right; now split].
    + now rewrite HL.
  - destruct (parallel_sort_ok Od zero Q 0%Q q_weight (weighted_median Od) fuel junk arr2) as (out & index & E1 & E2 & E3 & E4 & E5).
    { apply exact_median_ok. } { exact Hfuel. }
    unfold parallel_sort_exact. rewrite E1. cbn [bind fst snd].
    assert (length out = P /\ length index = P) as [Hlo Hli].
    { split; [rewrite <- (map_length (@length A) out), E2 | rewrite <- (map_length (@length Z) index), E3]; apply map_length. }
    pose proof E4 as [HP4 HS4].
    assert (forall i, In i (concat index) -> 0 <= i < zlen (concat arr2)) as Hr.
    { intros i Hi. apply (Permutation_in _ HP4) in Hi. apply In_zseq in Hi. unfold zlen. lia. }
    set (ii := spmd P (fun r => zseq (goff (nperproc arr2) r) (length (nth r arr2 [])))).
    assert (concat ii = zseq 0 (length (concat arr2))) as Hii by apply positions_all.
    rewrite (fetch_elements_ok 0 0 ii index None).
    2:{ unfold ii. rewrite spmd_length. assumption. }
    2:{ intros r i _ Hi. unfold global. rewrite Hii, zlen_zseq. apply Hr. apply in_concat. exists (nth r index []). split; [|assumption].
        apply nth_In. destruct (Nat.lt_ge_cases r (length index)); [assumption|]. rewrite nth_overflow in Hi by assumption. destruct Hi. }
    2:{ exact Logic.I. }
    cbn [bind]. unfold global. rewrite Hii.
    assert (map (map (fun i => nth (Z.to_nat i) (zseq 0 (length (concat arr2))) 0)) index = index) as ->.
    { rewrite <- (map_id index) at 2. apply map_ext_in. intros l Hl. rewrite <- (map_id l) at 2. apply map_ext_in. intros i Hi.
      specialize (Hr i ltac:(apply in_concat; eauto)). rewrite nth_zseq by (unfold zlen in *; lia). lia. }
    set (L := fun r => combine (nth r out []) (nth r index [])).
    assert (forall r, length (nth r out []) = length (nth r index [])) as Hll.
    { intro r. change (length (nth r out [])) with ((fun l : list A => length l) (nth r out [])).
      rewrite <- (map_nth (@length A)). change (length (nth r index [])) with ((fun l : list Z => length l) (nth r index [])).
      rewrite <- (map_nth (@length Z)). cbn [length]. now rewrite E2, E3. }
    assert (concat (spmd P L) = combine (concat out) (concat index)) as HL.
    { unfold L. rewrite concat_combine by (intros; apply Hll).
      assert (spmd P (fun r => nth r out []) = out) as -> by (rewrite <- Hlo; apply spmd_nth).
      assert (spmd P (fun r => nth r index []) = index) as -> by (rewrite <- Hli; apply spmd_nth). reflexivity. }
    assert (concat (spmd P L) = map (fun i => (nth (Z.to_nat i) (concat arr2) zero, i)) (concat index)) as HL2.
    { rewrite HL, E5. clear. induction (concat index) as [|i l IH]; [reflexivity|]. cbn [map combine]. now rewrite IH. }
    pose proof (match_ordered_ok Od zero junk P (concat arr2) L arr1 Hlen) as H.
    assert (spmd P (fun j => map fst (L j)) = out) as F1.
    { rewrite <- Hlo. transitivity (spmd (length out) (fun j => nth j out [])); [|apply spmd_nth]. apply spmd_ext. intros r _.
      apply map_fst_combine'. apply Hll. }
    assert (spmd P (fun j => map snd (L j)) = index) as F2.
    { rewrite <- Hli. transitivity (spmd (length index) (fun j => nth j index [])); [|apply spmd_nth]. apply spmd_ext. intros r _.
      apply map_snd_combine'. apply Hll. }
    rewrite F1, F2 in H. apply H; auto.
    + rewrite HL2, StronglySorted_map. eapply StronglySorted_weaken; [|exact HS4]. intros i j Hi Hj Hij. unfold lexlt. cbn [fst snd].
      apply Hij; apply nth_error_nth'; [specialize (Hr i Hi) | specialize (Hr j Hj)]; unfold zlen in *; lia.
    + rewrite HL2. rewrite (Permutation_map _ HP4).
      assert (forall (l m : list A) s, (forall k, (k < length l)%nat -> nth (Z.to_nat s + k) m zero = nth k l zero) -> 0 <= s ->
               map (fun i => (nth (Z.to_nat i) m zero, i)) (zseq s (length l)) = combine l (zseq s (length l))) as Hg.
      { clear. induction l as [|a l IH]; intros m s Hk Hs; [reflexivity|]. cbn [length zseq map combine].
        rewrite <- (IH m (s + 1)).
        - f_equal. f_equal. specialize (Hk 0%nat ltac:(cbn; lia)). rewrite Nat.add_0_r in Hk. exact Hk.
        - intros k Hk'. specialize (Hk (S k) ltac:(cbn; lia)). replace (Z.to_nat (s + 1) + k)%nat with (Z.to_nat s + S k)%nat by lia. exact Hk.
        - lia. }
      rewrite Hg; [reflexivity | | lia]. intros k Hk. reflexivity.
Qed.
