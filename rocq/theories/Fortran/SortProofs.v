(** sort_index sorts. *)
From Verif.Base Require Import Prelude ListLemmas Order.
From Verif.Fortran Require Import SortModel.
From Coq Require Import Permutation Sorted ZifyBool ZifyNat.
Local Open Scope Z_scope.
Ltac Zify.zify_post_hook ::= Z.div_mod_to_equations.

(** *** arrays *)
Definition g (l : list Z) (i : Z) : Z := nth (Z.to_nat i) l 0.
Lemma fget_ok l i : 0 <= i < zlen l -> fget l i = Ok (g l i).
Proof. intro H. unfold fget, zlen in *. replace (0 <=? i) with true by lia. rewrite (nth_error_nth' l 0) by lia. reflexivity. Qed.
Lemma fset_ok {B} (l : list B) i v : 0 <= i < zlen l -> fset l i v = Ok (set_nth l (Z.to_nat i) v).
Proof. intro H. unfold fset. replace ((0 <=? i) && (i <? zlen l)) with true by lia. reflexivity. Qed.
Lemma zlen_set {B} (l : list B) i v : zlen (set_nth l i v) = zlen l.
Proof. unfold zlen. now rewrite set_nth_length. Qed.
Lemma g_set l i v k : 0 <= i < zlen l -> 0 <= k -> g (set_nth l (Z.to_nat i) v) k = if k =? i then v else g l k.
Proof.
  intros Hi Hk. unfold g, zlen in *. rewrite nth_set_nth by lia. destruct (Nat.eqb_spec (Z.to_nat k) (Z.to_nat i)); destruct (Z.eqb_spec k i); try lia; reflexivity.
Qed.
Lemma g_ext l l' : zlen l = zlen l' -> (forall i, 0 <= i < zlen l -> g l i = g l' i) -> l = l'.
Proof.
  intros Hl H. unfold zlen in *. apply (nth_ext l l' 0 0); [lia|]. intros k Hk. specialize (H (Z.of_nat k) ltac:(lia)). unfold g in H. now rewrite Nat2Z.id in H.
Qed.
Definition swap (l : list Z) (i j : Z) : list Z := set_nth (set_nth l (Z.to_nat i) (g l j)) (Z.to_nat j) (g l i).
Lemma swap_len l i j : zlen (swap l i j) = zlen l.
Proof. unfold swap. now rewrite !zlen_set. Qed.
Lemma g_swap l i j k : 0 <= i < zlen l -> 0 <= j < zlen l -> 0 <= k -> g (swap l i j) k = if k =? j then g l i else if k =? i then g l j else g l k.
Proof. intros Hi Hj Hk. unfold swap. rewrite g_set by (rewrite ?zlen_set; lia). rewrite g_set by lia. reflexivity. Qed.
Lemma set_nth_app {B} (a : list B) x b v : set_nth (a ++ x :: b) (length a) v = a ++ v :: b.
Proof. induction a as [|y a IH]; cbn; [reflexivity | now rewrite IH]. Qed.
Lemma swap_perm_lt l i j : 0 <= i -> i < j -> j < zlen l -> Permutation (swap l i j) l.
Proof.
  intros Hi Hij Hj. unfold zlen in Hj.
  destruct (nth_split l 0 (n := Z.to_nat i) ltac:(lia)) as (a & r & El & Ha).
  assert (length r = length l - S (Z.to_nat i))%nat as Hr by (apply (f_equal (@length Z)) in El; rewrite app_length in El; cbn in El; lia).
  destruct (nth_split r 0 (n := Z.to_nat j - S (Z.to_nat i)) ltac:(lia)) as (b & c & Er & Hb).
  set (x := nth (Z.to_nat i) l 0) in *. set (y := nth (Z.to_nat j - S (Z.to_nat i)) r 0) in *.
  assert (g l i = x) as Ex by reflexivity. assert (g l j = y) as Ey.
  { unfold g. rewrite El. rewrite app_nth2 by lia. rewrite Ha. replace (Z.to_nat j - Z.to_nat i)%nat with (S (Z.to_nat j - S (Z.to_nat i))) by lia. reflexivity. }
  unfold swap. rewrite Ex, Ey. rewrite El, Er. rewrite <- Ha, set_nth_app.
  replace (a ++ y :: b ++ y :: c) with ((a ++ y :: b) ++ y :: c) by (rewrite <- app_assoc; reflexivity).
  replace (Z.to_nat j) with (length (a ++ y :: b)) by (rewrite app_length; cbn; lia). rewrite set_nth_app, <- app_assoc. apply Permutation_app_head. cbn.
  rewrite <- !Permutation_middle. apply perm_swap.
Qed.
Lemma swap_sym l i j : 0 <= i < zlen l -> 0 <= j < zlen l -> swap l i j = swap l j i.
Proof.
  intros Hi Hj. apply g_ext; [now rewrite !swap_len|]. intros k Hk. rewrite swap_len in Hk. rewrite !g_swap by lia. destruct (Z.eqb_spec k j), (Z.eqb_spec k i); subst; congruence.
Qed.
Lemma swap_perm l i j : 0 <= i < zlen l -> 0 <= j < zlen l -> Permutation (swap l i j) l.
Proof.
  intros Hi Hj. destruct (Z.lt_trichotomy i j) as [H|[H|H]].
  - apply swap_perm_lt; lia.
  - subst j. replace (swap l i i) with l; [reflexivity|]. apply g_ext; [now rewrite swap_len|]. intros k Hk. rewrite g_swap by lia. destruct (Z.eqb_spec k i); subst; reflexivity.
  - rewrite swap_sym by assumption. apply swap_perm_lt; lia.
Qed.

(** a sequence of swaps in [0, hi] *)
Inductive sw (hi : Z) : list Z -> list Z -> Prop :=
| sw_refl l : sw hi l l
| sw_step l i j l' : 0 <= i <= hi -> 0 <= j <= hi -> hi < zlen l -> sw hi (swap l i j) l' -> sw hi l l'.
Lemma sw_trans hi a b c : sw hi a b -> sw hi b c -> sw hi a c.
Proof. intros H1 H2. induction H1 as [|l i j l' Hi Hj Hl _ IH]; [assumption|]. exact (sw_step hi l i j c Hi Hj Hl (IH H2)). Qed.
Lemma sw_mono hi hi' a b : sw hi a b -> hi <= hi' -> hi' < zlen a -> sw hi' a b.
Proof. intros H Hh. induction H as [l|l i j l' Hi Hj Hl H IH]; intro Hz; [apply sw_refl|]. apply (sw_step hi' l i j); [lia | lia | lia |]. apply IH. now rewrite swap_len. Qed.
Lemma sw_one hi l i j : 0 <= i <= hi -> 0 <= j <= hi -> hi < zlen l -> sw hi l (swap l i j).
Proof. intros. apply (sw_step hi l i j); try assumption. apply sw_refl. Qed.
Lemma sw_len hi a b : sw hi a b -> zlen b = zlen a.
Proof. induction 1; [reflexivity|]. now rewrite IHsw, swap_len. Qed.
Lemma sw_perm hi a b : sw hi a b -> Permutation b a.
Proof. induction 1 as [|l i j l' Hi Hj Hl H IH]; [reflexivity|]. rewrite IH. apply swap_perm; lia. Qed.
Lemma sw_above hi a b : sw hi a b -> forall k, hi < k -> g b k = g a k.
Proof.
  induction 1 as [|l i j l' Hi Hj Hl H IH]; intros k Hk; [reflexivity|]. rewrite IH by assumption. rewrite g_swap by lia. replace (k =? j) with false by lia. replace (k =? i) with false by lia. reflexivity.
Qed.
Lemma sw_from hi a b : sw hi a b -> forall k, 0 <= k <= hi -> exists k', 0 <= k' <= hi /\ g b k = g a k'.
Proof.
  induction 1 as [|l i j l' Hi Hj Hl H IH]; intros k Hk; [exists k; auto|]. destruct (IH k Hk) as (k' & Hk' & E). rewrite E, g_swap by lia.
  destruct (k' =? j); [exists i; auto|]. destruct (k' =? i); [exists j; auto|]. exists k'; auto.
Qed.

Section Sort.
  Context {A : Type} (Od : TOrd A).
  Variable arr : list A.
  Variable d : A.
  Notation n := (zlen arr).
  Notation le := (fun a b => leb Od a b = true).
  Definition kv (l : list Z) (i : Z) : A := nth (Z.to_nat (g l i)) arr d.
  (** the index array is long enough and its first n elements are indexes *)
  Definition valid (l : list Z) : Prop := n <= zlen l /\ forall i, 0 <= i < n -> 0 <= g l i < n.
  Lemma sw_valid hi a b : sw hi a b -> hi < n -> valid a -> valid b.
  Proof.
    intros H Hh [V1 V2]. split; [now rewrite (sw_len _ _ _ H)|]. intros i Hi. destruct (Z.le_gt_cases i hi) as [Hle|Hgt].
    - destruct (sw_from _ _ _ H i ltac:(lia)) as (k & Hk & ->). apply V2. lia.
    - rewrite (sw_above _ _ _ H) by lia. now apply V2.
  Qed.
  Lemma aget_ok l i : valid l -> 0 <= i < n -> fget arr (g l i) = Ok (kv l i).
  Proof. intros [_ V] Hi. specialize (V i Hi). unfold fget, kv, zlen in *. replace (0 <=? g l i) with true by lia. rewrite (nth_error_nth' arr d) by lia. reflexivity. Qed.
  Lemma le_trans a b c : le a b -> le b c -> le a c. Proof. apply leb_trans. Qed.
  Lemma le_refl a : le a a. Proof. apply leb_refl. Qed.
  Lemma not_le a b : leb Od a b = false -> le b a.
  Proof. intro H. destruct (leb_total _ Od a b); [congruence|assumption]. Qed.
  Lemma ltb_le a b : ltb Od a b = true -> le a b.
  Proof. unfold ltb. intro H. destruct (leb_total _ Od a b) as [|E]; [assumption|]. rewrite E in H. discriminate. Qed.
  Lemma ltb_ge a b : ltb Od a b = false -> le b a.
  Proof. unfold ltb. destruct (leb Od b a); [reflexivity|discriminate]. Qed.
  Lemma kv_swap l i j k : 0 <= i < zlen l -> 0 <= j < zlen l -> 0 <= k -> kv (swap l i j) k = if k =? j then kv l i else if k =? i then kv l j else kv l k.
  Proof. intros Hi Hj Hk. unfold kv. rewrite g_swap by assumption. destruct (k =? j); [reflexivity|]. destruct (k =? i); reflexivity. Qed.

  (** *** insertion *)
  (** the array with the saved element put back *)
  Definition full (l : list Z) (j tmp : Z) : list Z := set_nth l (Z.to_nat j) tmp.
  Lemma g_full l j tmp k : 0 <= j < zlen l -> 0 <= k -> g (full l j tmp) k = if k =? j then tmp else g l k.
  Proof. intros. unfold full. now apply g_set. Qed.
  Definition sorted_to (i : Z) (l : list Z) : Prop := forall a b, 0 <= a -> a < b -> b <= i -> le (kv l a) (kv l b).
  Definition sorted_but (i j : Z) (l : list Z) : Prop := forall a b, 0 <= a -> a < b -> b <= i -> b <> j -> le (kv l a) (kv l b).
  Lemma shift_down_ok i inc tmp : 1 <= inc -> i < n -> forall fuel l j, (Z.to_nat j < fuel)%nat -> 0 <= j <= i -> valid (full l j tmp) ->
    exists l' j', shift_down Od arr fuel inc tmp l j = Ok (l', j') /\ 0 <= j' <= i /\ zlen l' = zlen l /\ sw i (full l j tmp) (full l' j' tmp) /\
      (inc = 1 -> sorted_but i j (full l j tmp) -> sorted_to i (full l' j' tmp)).
  Proof using.
    intros Hinc Hi. induction fuel as [|fuel IH]; intros l j Hf Hj Hv; [lia|]. cbn [shift_down].
    assert (zlen (full l j tmp) = zlen l) as Hlen by apply zlen_set. assert (n <= zlen l) as Hn by (destruct Hv; lia).
    destruct (Z.leb_spec inc j) as [Hle|Hgt].
    - assert (g l (j - inc) = g (full l j tmp) (j - inc)) as E1 by (rewrite g_full by lia; replace (j - inc =? j) with false by lia; reflexivity).
      assert (tmp = g (full l j tmp) j) as E2 by (rewrite g_full by lia; now rewrite Z.eqb_refl).
      rewrite fget_ok by lia. cbn [bind]. assert (fget arr (g l (j - inc)) = Ok (kv (full l j tmp) (j - inc))) as -> by (rewrite E1; apply aget_ok; [assumption | lia]). cbn [bind].
      assert (fget arr tmp = Ok (kv (full l j tmp) j)) as -> by (rewrite E2 at 1; apply aget_ok; [assumption | lia]). cbn [bind].
      destruct (leb Od (kv (full l j tmp) (j - inc)) (kv (full l j tmp) j)) eqn:C.
      + exists l, j. repeat split; try lia; [apply sw_refl|]. intros -> S a b Ha Hab Hb. destruct (Z.eq_dec b j) as [->|Hne]; [|now apply S]. destruct (Z.eq_dec a (j - 1)) as [->|Hne]; [assumption|]. apply le_trans with (kv (full l j tmp) (j - 1)); [|assumption]. apply S; lia.
      + cbn [bind]. rewrite fset_ok by lia. cbn [bind]. set (l2 := set_nth l (Z.to_nat j) (g l (j - inc))).
        assert (zlen l2 = zlen l) as Hl2 by apply zlen_set.
        assert (full l2 (j - inc) tmp = swap (full l j tmp) j (j - inc)) as Esw.
        { apply g_ext; [unfold full; rewrite swap_len, !zlen_set; exact Hl2|]. intros k Hk. rewrite g_swap by lia. unfold full in Hk. rewrite zlen_set in Hk. rewrite g_full by lia. unfold l2 at 1. rewrite g_set by lia. rewrite !g_full by lia. rewrite Z.eqb_refl. replace (j - inc =? j) with false by lia. destruct (k =? j - inc); [reflexivity|]. destruct (k =? j); reflexivity. }
        assert (sw i (full l j tmp) (full l2 (j - inc) tmp)) as Hs by (rewrite Esw; apply sw_one; lia).
        destruct (IH l2 (j - inc) ltac:(lia) ltac:(lia) (sw_valid _ _ _ Hs Hi Hv)) as (l' & j' & E & Hj' & Hl' & Hs' & HS). exists l', j'. split; [exact E|]. split; [lia|]. split; [lia|]. split; [exact (sw_trans _ _ _ _ Hs Hs')|].
        intros -> S. apply HS; [reflexivity|]. rewrite Esw. apply not_le in C. intros a b Ha Hab Hb Hne. rewrite !kv_swap by lia.
        destruct (Z.eqb_spec b (j - 1)); [lia|]. destruct (Z.eqb_spec b j) as [->|Hbj].
        * destruct (Z.eqb_spec a (j - 1)); [assumption|]. replace (a =? j) with false by lia. apply S; lia.
        * destruct (Z.eqb_spec a (j - 1)) as [->|]; [destruct (Z.lt_ge_cases j b); [apply S; lia | lia]|]. destruct (Z.eqb_spec a j) as [->|]; apply S; lia.
    - exists l, j. repeat split; try lia; [apply sw_refl|]. intros -> S a b Ha Hab Hb. apply S; lia.
  Qed.
  Lemma shell_pass_ok inc : 1 <= inc -> forall count i l, valid l -> 0 <= i -> i + Z.of_nat count <= n ->
    exists l', shell_pass Od arr count inc i l = Ok l' /\ sw (n - 1) l l' /\ (inc = 1 -> 1 <= i -> sorted_to (i - 1) l -> sorted_to (i + Z.of_nat count - 1) l').
  Proof using.
    intro Hinc. induction count as [|count IH]; intros i l Hv Hi Hc.
    - exists l. split; [reflexivity|]. split; [apply sw_refl|]. intros _ _ S. now rewrite Z.add_0_r.
    - cbn [shell_pass]. pose proof (proj1 Hv) as Hn. rewrite fget_ok by lia. cbn [bind].
      assert (full l i (g l i) = l) as Ef. { apply g_ext; [apply zlen_set|]. intros k Hk. unfold full in Hk. rewrite zlen_set in Hk. rewrite g_full by lia. destruct (Z.eqb_spec k i); subst; reflexivity. }
      destruct (shift_down_ok i inc (g l i) Hinc ltac:(lia) (S (length l)) l i) as (l1 & j1 & E & Hj & Hl1 & Hs & HS); [unfold zlen in *; lia | lia | now rewrite Ef |].
      rewrite E. cbn [bind]. rewrite fset_ok by lia. cbn [bind]. fold (full l1 j1 (g l i)). rewrite Ef in *.
      assert (valid (full l1 j1 (g l i))) as Hv1 by (apply (sw_valid _ _ _ Hs); [lia|assumption]).
      destruct (IH (i + 1) _ Hv1 ltac:(lia) ltac:(lia)) as (l2 & E2 & Hs2 & HS2). exists l2. split; [exact E2|]. split; [apply (sw_trans _ _ (full l1 j1 (g l i))); [apply (sw_mono i); [assumption | lia | lia] | assumption]|].
      intros -> H1 S. replace (i + Z.of_nat (Datatypes.S count) - 1) with (i + 1 + Z.of_nat count - 1) by lia. apply HS2; [reflexivity | lia |]. replace (i + 1 - 1) with i by lia. apply HS; [reflexivity|]. intros a b Ha Hab Hb Hne. apply S; lia.
  Qed.
  Section Shell.
  Variable shrink : Z -> Z.
  Hypothesis shrink_1 : shrink 1 <= 0.
  Hypothesis shrink_ok : forall inc, 3 <= inc < 50 -> 1 <= shrink inc < inc.
  Lemma shell_ok : forall fuel inc l, valid l -> 1 <= inc < 50 -> inc <= n -> (Z.to_nat inc < fuel)%nat -> exists l', shell Od shrink arr fuel n inc l = Ok l' /\ sw (n - 1) l l' /\ sorted_to (n - 1) l'.
  Proof using shrink_1 shrink_ok.
    induction fuel as [|fuel IH]; intros inc l Hv Hi Hn Hf; [lia|]. cbn [shell]. replace (0 <? inc) with true by lia.
    destruct (shell_pass_ok inc ltac:(lia) (Z.to_nat (n - inc)) inc l Hv ltac:(lia) ltac:(lia)) as (l1 & E & Hs & HS). rewrite E. cbn [bind].
    assert (valid l1) as Hv1 by (apply (sw_valid _ _ _ Hs); [lia|assumption]).
    destruct (Z.eq_dec inc 1) as [->|Hne].
    - change (if 1 =? 2 then 1 else shrink 1) with (shrink 1). exists l1. destruct fuel as [|fuel]; [lia|]. cbn [shell]. replace (0 <? shrink 1) with false by lia. split; [reflexivity|]. split; [assumption|].
      replace (n - 1) with (1 + Z.of_nat (Z.to_nat (n - 1)) - 1) by lia. apply HS; [reflexivity | lia |]. intros a b Ha Hab Hb. lia.
    - assert (1 <= (if inc =? 2 then 1 else shrink inc) < inc) as Hb by (destruct (Z.eqb_spec inc 2); [lia | apply shrink_ok; lia]).
      destruct (IH (if inc =? 2 then 1 else shrink inc) l1 Hv1 ltac:(lia) ltac:(lia) ltac:(lia)) as (l2 & E2 & Hs2 & S). exists l2. split; [exact E2|]. split; [exact (sw_trans _ _ _ _ Hs Hs2) | exact S].
  Qed.
  End Shell.

  (** *** heaps *)
  Definition par (i : Z) : Z := (i - 1) / 2.
  Definition heap (start finish : Z) (l : list Z) : Prop := forall i, 1 <= i <= finish -> start <= par i -> le (kv l i) (kv l (par i)).
  Definition almost (start root finish : Z) (l : list Z) : Prop :=
    (forall i, 1 <= i <= finish -> start <= par i -> par i <> root -> le (kv l i) (kv l (par i))) /\
    (forall i, 1 <= i <= finish -> par i = root -> 1 <= root -> start <= par root -> le (kv l i) (kv l (par root))).
  Lemma sift_ok start finish : 0 <= start -> finish < n -> forall fuel root l, (Z.to_nat (finish + 1 - root) < fuel)%nat -> start <= root -> valid l -> almost start root finish l ->
    exists l', sift Od arr fuel finish root l = Ok l' /\ sw finish l l' /\ heap start finish l'.
  Proof using.
    intros Hst Hfn. induction fuel as [|fuel IH]; intros root l Hf Hr Hv [H1 H2]; [lia|]. cbn [sift]. cbv zeta. pose proof (proj1 Hv) as Hn. destruct (Z.leb_spec (2 * root + 1) finish) as [Hle|Hgt].
    - set (m := if root * 2 + 1 <? finish then _ else _).
      assert (exists c, m = Ok c /\ 1 <= c <= finish /\ par c = root /\ forall i, 1 <= i <= finish -> par i = root -> le (kv l i) (kv l c)) as (c & Em & Hc & Hp & Hmax).
      { unfold m. destruct (Z.ltb_spec (root * 2 + 1) finish) as [Hlt|Hge].
        - rewrite fget_ok by lia. cbn [bind]. rewrite aget_ok by (assumption || lia). cbn [bind]. rewrite fget_ok by lia. cbn [bind]. rewrite aget_ok by (assumption || lia). cbn [bind].
          destruct (ltb Od (kv l (root * 2 + 1)) (kv l (root * 2 + 1 + 1))) eqn:C.
          + exists (root * 2 + 1 + 1). apply ltb_le in C. split; [reflexivity|]. split; [lia|]. split; [unfold par; lia|]. intros i Hi Hpi. unfold par in Hpi. assert (i = root * 2 + 1 \/ i = root * 2 + 1 + 1) as [-> | ->] by lia; [assumption | apply le_refl].
          + exists (root * 2 + 1). apply ltb_ge in C. split; [reflexivity|]. split; [lia|]. split; [unfold par; lia|]. intros i Hi Hpi. unfold par in Hpi. assert (i = root * 2 + 1 \/ i = root * 2 + 1 + 1) as [-> | ->] by lia; [apply le_refl | assumption].
        - exists (root * 2 + 1). split; [reflexivity|]. split; [lia|]. split; [unfold par; lia|]. intros i Hi Hpi. unfold par in Hpi. assert (i = root * 2 + 1) as -> by lia. apply le_refl. }
      rewrite Em. cbn [bind]. clear m Em. assert (root < c) as Hrc by (unfold par in Hp; lia).
      rewrite fget_ok by lia. cbn [bind]. rewrite aget_ok by (assumption || lia). cbn [bind]. rewrite fget_ok by lia. cbn [bind]. rewrite aget_ok by (assumption || lia). cbn [bind].
      destruct (ltb Od (kv l root) (kv l c)) eqn:C.
      + cbn [bind]. rewrite fset_ok by lia. cbn [bind]. rewrite fset_ok by (rewrite zlen_set; lia). cbn [bind]. fold (swap l root c).
        assert (sw finish l (swap l root c)) as Hs by (apply sw_one; lia). apply ltb_le in C.
        destruct (IH c (swap l root c) ltac:(lia) ltac:(lia)) as (l' & E & Hs' & Hh).
        * apply (sw_valid _ _ _ Hs); assumption.
        * split.
          -- intros i Hi Hpi Hpc. rewrite !kv_swap by (unfold par in *; lia). replace (par i =? c) with false by lia.
             destruct (Z.eqb_spec i c) as [->|Hic].
             ++ replace (par c =? root) with true by lia. assumption.
             ++ destruct (Z.eqb_spec i root) as [->|Hir].
                ** destruct (Z.eqb_spec (par root) root); [unfold par in *; lia|]. apply H2; try assumption; lia.
                ** destruct (Z.eqb_spec (par i) root) as [Epr|Epr]; [apply Hmax; [lia | exact Epr] | apply H1; assumption].
          -- intros i Hi Hpi Hc1 Hpc. rewrite Hp. rewrite !kv_swap by (unfold par in *; lia). replace (root =? c) with false by lia. rewrite Z.eqb_refl.
             replace (i =? c) with false by (unfold par in *; lia). replace (i =? root) with false by (unfold par in *; lia). rewrite <- Hpi. apply H1; [lia | lia | lia].
        * exists l'. split; [exact E|]. split; [exact (sw_trans _ _ _ _ Hs Hs') | exact Hh].
      + apply ltb_ge in C. exists l. split; [reflexivity|]. split; [apply sw_refl|]. intros i Hi Hpi. destruct (Z.eq_dec (par i) root) as [Ep|Ep]; [|now apply H1]. rewrite Ep. apply le_trans with (kv l c); [|assumption]. now apply Hmax.
    - exists l. split; [reflexivity|]. split; [apply sw_refl|]. intros i Hi Hpi. apply H1; [assumption | assumption |]. unfold par in *. lia.
  Qed.
  Lemma build_ok : forall fuel start l, (Z.to_nat (start + 1) < fuel)%nat -> -1 <= start -> valid l -> heap (start + 1) (n - 1) l ->
    exists l', build Od arr fuel n start l = Ok l' /\ sw (n - 1) l l' /\ heap 0 (n - 1) l'.
  Proof using.
    induction fuel as [|fuel IH]; intros start l Hf Hst Hv Hh; [lia|]. cbn [build]. destruct (Z.leb_spec 0 start) as [Hle|Hgt].
    - destruct (sift_ok start (n - 1) Hle ltac:(lia) (S (Z.to_nat n)) start l) as (l1 & E & Hs & Hh1); [lia | lia | assumption | |].
      + split; [intros i Hi Hp Hne; apply Hh; lia|]. intros i Hi Hp H1 Hs. unfold par in *. lia.
      + rewrite E. cbn [bind]. destruct (IH (start - 1) l1 ltac:(lia) ltac:(lia)) as (l2 & E2 & Hs2 & Hh2).
        * apply (sw_valid _ _ _ Hs); [lia|assumption].
        * now replace (start - 1 + 1) with start by lia.
        * exists l2. split; [exact E2|]. split; [exact (sw_trans _ _ _ _ Hs Hs2) | exact Hh2].
    - exists l. split; [reflexivity|]. split; [apply sw_refl|]. now replace (start + 1) with 0 in Hh by lia.
  Qed.
  Lemma heap_max finish l : heap 0 finish l -> forall i, 0 <= i <= finish -> le (kv l i) (kv l 0).
  Proof using.
    intros Hh. assert (forall k i, 0 <= i <= finish -> i <= Z.of_nat k -> le (kv l i) (kv l 0)) as H.
    { induction k as [|k IH]; intros i Hi Hk; [replace i with 0 by lia; apply le_refl|]. destruct (Z.eq_dec i 0) as [->|Hne]; [apply le_refl|]. apply le_trans with (kv l (par i)); [apply Hh; [lia | unfold par; lia]|]. apply IH; unfold par; lia. }
    intros i Hi. apply (H (Z.to_nat i)); lia.
  Qed.
  Definition done_above (f : Z) (l : list Z) : Prop := forall i j, 0 <= i -> i < j -> j < n -> f < j -> le (kv l i) (kv l j).
  Lemma extract_ok : forall fuel finish l, (Z.to_nat finish < fuel)%nat -> 0 <= finish < n -> valid l -> heap 0 finish l -> done_above finish l ->
    exists l', extract Od arr fuel finish l = Ok l' /\ sw (n - 1) l l' /\ sorted_to (n - 1) l'.
  Proof using.
    induction fuel as [|fuel IH]; intros f l Hf Hfn Hv Hh Hd; [lia|]. cbn [extract]. pose proof (proj1 Hv) as Hn. destruct (Z.ltb_spec 0 f) as [Hlt|Hge].
    - rewrite !fget_ok by lia. cbn [bind]. rewrite fset_ok by lia. cbn [bind]. rewrite fset_ok by (rewrite zlen_set; lia). cbn [bind]. fold (swap l 0 f). cbv zeta.
      assert (sw (n - 1) l (swap l 0 f)) as Hs0 by (apply sw_one; lia). assert (valid (swap l 0 f)) as Hv1 by (apply (sw_valid _ _ _ Hs0); [lia|assumption]).
      destruct (sift_ok 0 (f - 1) ltac:(lia) ltac:(lia) (S (S (Z.to_nat (f - 1)))) 0 (swap l 0 f)) as (l1 & E & Hs & Hh1); [lia | lia | assumption | |].
      + split; [|intros i Hi Hp H1; lia]. intros i Hi Hp Hne. rewrite !kv_swap by (unfold par in *; lia). replace (i =? f) with false by lia. replace (i =? 0) with false by lia. replace (par i =? f) with false by (unfold par; lia). replace (par i =? 0) with false by lia. apply Hh; lia.
      + rewrite E. cbn [bind]. assert (sw (n - 1) (swap l 0 f) l1) as Hs1 by (apply (sw_mono (f - 1)); [assumption | lia | rewrite swap_len; lia]).
        assert (valid l1) as Hv2 by (apply (sw_valid _ _ _ Hs1); [lia|assumption]).
        assert (done_above f (swap l 0 f) /\ forall i, 0 <= i -> i < f -> le (kv (swap l 0 f) i) (kv (swap l 0 f) f)) as [D1 D2].
        { split.
          - intros i j Hi Hij Hj Hfj. rewrite !kv_swap by lia. replace (j =? f) with false by lia. replace (j =? 0) with false by lia. destruct (i =? f); [apply Hd; lia|]. destruct (i =? 0); apply Hd; lia.
          - intros i Hi Hif. rewrite !kv_swap by lia. rewrite Z.eqb_refl. replace (i =? f) with false by lia. destruct (i =? 0); apply (heap_max f l Hh); lia. }
        destruct (IH (f - 1) l1 ltac:(lia) ltac:(lia) Hv2 Hh1) as (l2 & E2 & Hs2 & S2).
        * intros i j Hi Hij Hj Hfj. assert (kv l1 j = kv (swap l 0 f) j) as -> by (unfold kv; now rewrite (sw_above _ _ _ Hs) by lia).
          destruct (Z.le_gt_cases i (f - 1)) as [Hif|Hif].
          -- destruct (sw_from _ _ _ Hs i ltac:(lia)) as (k & Hk & Ek). assert (kv l1 i = kv (swap l 0 f) k) as -> by (unfold kv; now rewrite Ek). destruct (Z.eq_dec j f) as [->|Hne]; [apply D2; lia | apply D1; lia].
          -- assert (kv l1 i = kv (swap l 0 f) i) as -> by (unfold kv; now rewrite (sw_above _ _ _ Hs) by lia). apply D1; lia.
        * exists l2. split; [exact E2|]. split; [|exact S2]. exact (sw_trans _ _ _ _ Hs0 (sw_trans _ _ _ _ Hs1 Hs2)).
    - exists l. split; [reflexivity|]. split; [apply sw_refl|]. intros a b Ha Hab Hb. apply Hd; lia.
  Qed.

  (** *** the whole *)
  Lemma init_valid idx : n <= zlen idx -> valid (zseq 0 (length arr) ++ skipn (length arr) idx).
  Proof using.
    intro H. unfold zlen in *. split; [unfold zlen; rewrite app_length, zseq_length, skipn_length; lia|]. intros i Hi. unfold g, zlen in *. rewrite app_nth1 by (rewrite zseq_length; lia). pose proof (nth_In (zseq 0 (length arr)) 0 (n := Z.to_nat i)) as Hin. rewrite zseq_length in Hin. specialize (Hin ltac:(lia)). apply In_zseq in Hin. lia.
  Qed.
  Lemma sorted_SS l : (forall i j, 0 <= i -> i < j -> j < zlen l -> le (kv l i) (kv l j)) -> StronglySorted (fun i j => le (nth (Z.to_nat i) arr d) (nth (Z.to_nat j) arr d)) l.
  Proof using.
    induction l as [|x l IH]; intro H; [constructor|]. unfold zlen in H. cbn [length] in H. constructor.
    - apply IH. intros i j Hi Hij Hj. unfold zlen in Hj. specialize (H (i + 1) (j + 1) ltac:(lia) ltac:(lia) ltac:(lia)). unfold kv, g in *. replace (Z.to_nat (i + 1)) with (S (Z.to_nat i)) in H by lia. replace (Z.to_nat (j + 1)) with (S (Z.to_nat j)) in H by lia. exact H.
    - apply Forall_forall. intros y Hy. destruct (In_nth _ _ 0 Hy) as (k & Hk & Ek). specialize (H 0 (Z.of_nat k + 1) ltac:(lia) ltac:(lia) ltac:(lia)). unfold kv, g in H. replace (Z.to_nat (Z.of_nat k + 1)) with (S k) in H by lia. cbn [nth] in H. rewrite Ek in H. exact H.
  Qed.
  Lemma final idx l : n <= zlen idx -> sw (n - 1) (zseq 0 (length arr) ++ skipn (length arr) idx) l -> sorted_to (n - 1) l ->
    zlen l = zlen idx /\ skipn (length arr) l = skipn (length arr) idx /\ is_argsort Od arr (firstn (length arr) l).
  Proof using.
    intros Hn Hs S. pose proof (sw_len _ _ _ Hs) as Hl. assert (zlen (zseq 0 (length arr) ++ skipn (length arr) idx) = zlen idx) as Hl0 by (unfold zlen in *; rewrite app_length, zseq_length, skipn_length; lia).
    assert (zlen l = zlen idx) as Hlen by lia. unfold zlen in Hn, Hlen.
    assert (skipn (length arr) l = skipn (length arr) idx) as Etail.
    { apply (nth_ext _ _ 0 0); [rewrite !skipn_length; lia|]. intros k Hk. rewrite !nth_skipn. pose proof (sw_above _ _ _ Hs (zlen arr + Z.of_nat k) ltac:(lia)) as E. unfold g, zlen in E. replace (Z.to_nat (Z.of_nat (length arr) + Z.of_nat k)) with (length arr + k)%nat in E by lia. rewrite E. rewrite app_nth2 by (rewrite zseq_length; lia). rewrite zseq_length, nth_skipn. f_equal. lia. }
    split; [unfold zlen; lia|]. split; [exact Etail|].
    assert (Permutation (firstn (length arr) l) (zseq 0 (length arr))) as HP.
    { apply (Permutation_app_inv_r (skipn (length arr) idx)). rewrite <- Etail at 1. rewrite firstn_skipn. exact (sw_perm _ _ _ Hs). }
    split; [exact HP|]. assert (length (firstn (length arr) l) = length arr) as Hfl by (rewrite firstn_length; lia).
    assert (StronglySorted (fun i j => le (nth (Z.to_nat i) arr d) (nth (Z.to_nat j) arr d)) (firstn (length arr) l)) as SS.
    { apply sorted_SS. intros i j Hi Hij Hj. unfold zlen in Hj. rewrite Hfl in Hj. specialize (S i j Hi Hij ltac:(unfold zlen; lia)). unfold kv, g in *. rewrite !nth_firstn by lia. exact S. }
    revert SS. generalize (firstn (length arr) l). clear. induction 1 as [|x m Hm IH Hx]; constructor; [assumption|]. rewrite Forall_forall in *. intros y Hy a b Ea Eb. specialize (Hx y Hy). now rewrite (nth_error_nth _ _ d Ea), (nth_error_nth _ _ d Eb) in Hx.
  Qed.
End Sort.

Section Main.
  Context {A : Type} (Od : TOrd A).
  Variable shrink : Z -> Z.
  Hypothesis shrink_1 : shrink 1 <= 0.
  Hypothesis shrink_ok : forall inc, 3 <= inc < 50 -> 1 <= shrink inc < inc.
  Lemma sort_index_ok arr idx : zlen arr <= zlen idx -> exists idx', sort_index Od shrink arr idx = Ok idx' /\ zlen idx' = zlen idx /\
    is_argsort Od arr (map (fun v => v - 1) (firstn (length arr) idx')) /\
    skipn (length arr) idx' = (if zlen arr <? 2 then skipn (length arr) idx else map (fun v => v + 1) (skipn (length arr) idx)).
  Proof using shrink_1 shrink_ok.
    intro Hn. unfold sort_index. cbv zeta. replace (zlen idx <? zlen arr) with false by lia.
    destruct (Z.eqb_spec (zlen arr) 0) as [H0|H0].
    { assert (arr = []) as -> by (destruct arr; [reflexivity | unfold zlen in H0; cbn in H0; lia]). exists idx. split; [reflexivity|]. split; [reflexivity|]. split; [|reflexivity]. split; [reflexivity | constructor]. }
    destruct (Z.eqb_spec (zlen arr) 1) as [H1|H1].
    { assert (exists a, arr = [a]) as (a & ->) by (destruct arr as [|a [|b r]]; unfold zlen in H1; cbn in H1; try lia; now exists a).
      destruct idx as [|x idx]; [unfold zlen in Hn; cbn in Hn; lia|]. exists (1 :: idx). rewrite fset_ok by (unfold zlen; cbn [length]; lia). split; [reflexivity|]. split; [reflexivity|]. split; [|reflexivity]. split; [reflexivity|]. repeat constructor. }
    destruct arr as [|d arr0]; [unfold zlen in H0; cbn in H0; lia|]. set (arr := d :: arr0) in *. pose proof (zlen_nonneg arr) as Hp. replace (zlen arr <? 2) with false by lia.
    assert (forall l, sw (zlen arr - 1) (zseq 0 (length arr) ++ skipn (length arr) idx) l -> sorted_to Od arr d (zlen arr - 1) l ->
      exists idx', Ok (map (fun v => v + 1) l) = Ok idx' /\ zlen idx' = zlen idx /\ is_argsort Od arr (map (fun v => v - 1) (firstn (length arr) idx')) /\ skipn (length arr) idx' = map (fun v => v + 1) (skipn (length arr) idx)) as Fin.
    { intros l Hs S. destruct (final Od arr d idx l Hn Hs S) as (E1 & E2 & E3). exists (map (fun v => v + 1) l). split; [reflexivity|]. split; [unfold zlen in *; now rewrite map_length|].
      split; [|now rewrite <- E2, skipn_map]. rewrite firstn_map, map_map. replace (map (fun x => x + 1 - 1) (firstn (length arr) l)) with (firstn (length arr) l); [exact E3|]. rewrite <- (map_id (firstn (length arr) l)) at 1. apply map_ext. intro v. lia. }
    pose proof (init_valid arr idx Hn) as Hv. destruct (Z.ltb_spec (zlen arr) nswitch) as [Hs|Hb]; unfold nswitch in *.
    - destruct (shell_ok Od arr d shrink shrink_1 shrink_ok (S (Z.to_nat (zlen arr))) (zlen arr / 2) _ Hv ltac:(lia) ltac:(lia) ltac:(lia)) as (l & -> & Hsw & S). cbn [bind]. now apply Fin.
    - destruct (build_ok Od arr d (S (S (Z.to_nat (zlen arr)))) ((zlen arr - 1) / 2) _ ltac:(lia) ltac:(lia) Hv) as (l1 & -> & Hs1 & Hh); [intros i Hi Hpi; unfold par in Hpi; lia|]. cbn [bind].
      assert (valid arr l1) as Hv1 by (apply (sw_valid arr _ _ _ Hs1); [lia | assumption]).
      destruct (extract_ok Od arr d (S (Z.to_nat (zlen arr))) (zlen arr - 1) l1 ltac:(lia) ltac:(lia) Hv1 Hh) as (l2 & -> & Hs2 & S); [intros i j Hi Hij Hj Hf; lia|]. cbn [bind]. apply Fin; [exact (sw_trans _ _ _ _ Hs1 Hs2) | exact S].
  Qed.
  Lemma sort_index_small arr idx : zlen idx < zlen arr -> sort_index Od shrink arr idx = Err EAbort.
  Proof using. intro H. unfold sort_index. cbv zeta. now replace (zlen idx <? zlen arr) with true by lia. Qed.
End Main.
