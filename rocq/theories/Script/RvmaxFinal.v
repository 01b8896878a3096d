(** Proofs about compute_rvmax.py (C102). *)
From Coq Require Import Reals Lra.
From Verif Require Import Base.Prelude Base.ListLemmas Util.UMatchModel Script.RvmaxModel Script.RvmaxSpec.
From Coq Require Import ZifyBool ZifyNat.
Local Open Scope Z_scope.
Local Open Scope list_scope.

(** *** distances *)
Lemma rmod_range x y : (0 < y)%R -> (0 <= rmod x y < y)%R.
Proof.
  intro H. unfold rmod. destruct (base_Int_part (x / y)) as [A B]. assert (y * (x / y) = x)%R as E by (field; lra).
  set (f := IZR (Int_part (x / y))) in *. split; [|].
  - assert (y * f <= y * (x / y))%R by (apply Rmult_le_compat_l; lra). lra.
  - assert (y * (x / y) < y * (f + 1))%R by (apply Rmult_lt_compat_l; lra). lra.
Qed.
Lemma wrapped box d : (0 < box)%R -> nearest box d (rmod (d + box / 2) box - box / 2)%R.
Proof.
  intro H. pose proof (rmod_range (d + box / 2) box H) as A. split; [lra|]. exists (- Int_part ((d + box / 2) / box))%Z. unfold rmod. rewrite opp_IZR. lra.
Qed.
Lemma nearest_unique box d c c' : (0 < box)%R -> nearest box d c -> nearest box d c' -> c = c'.
Proof.
  intros H [A [k Ek]] [B [k' Ek']]. destruct (Z.eq_dec k k') as [-> |N]; [lra|]. exfalso.
  assert (c - c' = box * IZR (k - k'))%R as E by (rewrite minus_IZR; lra). assert (- box < c - c' < box)%R as D by lra. rewrite E in D.
  assert (k - k' <= -1 \/ 1 <= k - k') as [C|C] by lia; apply IZR_le in C.
  - assert (box * IZR (k - k') <= box * -1)%R by (apply Rmult_le_compat_l; lra). lra.
  - assert (box * 1 <= box * IZR (k - k'))%R by (apply Rmult_le_compat_l; lra). lra.
Qed.
Definition radius_of (box : R) (centre p : vec) : R := let '(x, y, z) := vmap (fun x => rmod (x + box / 2) box - box / 2)%R (vsub p centre) in sqrt (x ^ 2 + y ^ 2 + z ^ 2).
Lemma radius_distance box centre p r : (0 < box)%R -> distance box centre p r -> r = radius_of box centre p.
Proof.
  intros H (x & y & z & A & B & C & ->). destruct p as [[p1 p2] p3]. destruct centre as [[c1 c2] c3]. cbn [fst snd] in *. unfold radius_of, vsub, vmap.
  rewrite <- (nearest_unique _ _ _ _ H A (wrapped box _ H)), <- (nearest_unique _ _ _ _ H B (wrapped box _ H)), <- (nearest_unique _ _ _ _ H C (wrapped box _ H)). f_equal. ring.
Qed.
Lemma has_distance box centre p : (0 < box)%R -> distance box centre p (radius_of box centre p).
Proof.
  intro H. destruct p as [[p1 p2] p3]. destruct centre as [[c1 c2] c3]. unfold radius_of, vsub, vmap. do 3 eexists. cbn [fst snd]. split; [exact (wrapped box _ H)|]. split; [exact (wrapped box _ H)|]. split; [exact (wrapped box _ H)|]. f_equal. ring.
Qed.
Lemma mask_members : forall pos subnr isub, zlen pos = zlen subnr -> np_mask pos (map (fun n => n =? isub) subnr) = members pos subnr isub.
Proof.
  unfold members. induction pos as [|p pos IH]; intros [|n subnr] isub E; unfold zlen in *; cbn [length] in E; try lia; [reflexivity|].
  cbn [map combine filter snd]. specialize (IH subnr isub ltac:(lia)). unfold np_mask in *. cbn [combine filter snd map]. destruct (n =? isub); cbn [map fst]; [f_equal|]; exact IH.
Qed.
Lemma mask_map {A B} (f : A -> B) : forall l m, np_mask (map f l) m = map f (np_mask l m).
Proof. unfold np_mask. induction l as [|x l IH]; intros [|b m]; try reflexivity. cbn [map combine filter snd]. destruct b; cbn [map fst]; [f_equal|]; apply IH. Qed.
Lemma radii_ok pos subnr isub centre box rs : (0 < box)%R -> zlen pos = zlen subnr -> Forall2 (distance box centre) (members pos subnr isub) rs -> radii pos subnr isub centre box = Ok rs.
Proof.
  intros H E D. unfold radii. rewrite !zlen_map. replace (zlen subnr =? zlen pos) with true by lia. cbn [check bind]. rewrite map_map, mask_map, map_map, mask_members by exact E. f_equal.
  induction D as [|p r ps rs Hp HF IH]; [reflexivity|]. cbn [map]. f_equal; [|exact IH]. rewrite (radius_distance box centre p r H Hp). reflexivity.
Qed.

(** *** the largest *)
Lemma argmax_ok : forall l pre x best, (nth_error pre best = Some x) -> (forall k y, nth_error pre k = Some y -> (y <= x)%R) -> (forall k, (k < best)%nat -> forall y, nth_error pre k = Some y -> (y < x)%R) ->
  exists k x', argmax_from (Z.of_nat best) (zlen pre) x l = Z.of_nat k /\ nth_error (pre ++ l) k = Some x' /\ (forall j y, nth_error (pre ++ l) j = Some y -> (y <= x')%R) /\ (forall j y, (j < k)%nat -> nth_error (pre ++ l) j = Some y -> (y < x')%R).
Proof.
  induction l as [|y l IH]; intros pre x best E M Fi; cbn [argmax_from].
  - rewrite app_nil_r. exists best, x. repeat split; [exact E | exact M|]. intros j y Hj Ey. exact (Fi j Hj y Ey).
  - assert (best < length pre)%nat as Lb by (apply nth_error_Some; congruence).
    assert (forall k z, nth_error (pre ++ [y]) k = Some z -> nth_error pre k = Some z \/ k = length pre /\ z = y) as Sp.
    { intros k z Ez. destruct (Nat.lt_ge_cases k (length pre)) as [C|C]; [left; now rewrite nth_error_app1 in Ez|]. right. rewrite nth_error_app2 in Ez by lia. destruct (k - length pre)%nat eqn:Ek; [|cbn in Ez; destruct n; discriminate]. cbn in Ez. split; [lia | congruence]. }
    replace (zlen pre + 1) with (zlen (pre ++ [y])) by (rewrite zlen_app; reflexivity). replace (pre ++ y :: l) with ((pre ++ [y]) ++ l) by (now rewrite <- app_assoc). destruct (Rlt_dec x y) as [C|C].
    + unfold zlen at 1. apply IH.
      * rewrite nth_error_app2, Nat.sub_diag by lia. reflexivity.
      * intros k z Ez. destruct (Sp k z Ez) as [Ep|[_ ->]]; [specialize (M k z Ep); lra | lra].
      * intros k Hk z Ez. destruct (Sp k z Ez) as [Ep|[-> _]]; [specialize (M k z Ep); lra | lia].
    + apply IH.
      * now rewrite nth_error_app1.
      * intros k z Ez. destruct (Sp k z Ez) as [Ep|[_ ->]]; [exact (M k z Ep) | lra].
      * intros k Hk z Ez. destruct (Sp k z Ez) as [Ep|[-> _]]; [exact (Fi k Hk z Ep) | lia].
Qed.
Lemma argmax_spec l : l <> [] -> exists k x, np_argmax l = Ok (Z.of_nat k) /\ nth_error l k = Some x /\ (forall j y, nth_error l j = Some y -> (y <= x)%R) /\ (forall j y, (j < k)%nat -> nth_error l j = Some y -> (y < x)%R).
Proof.
  destruct l as [|x l]; [congruence|]. intros _. destruct (argmax_ok l [x] x 0%nat eq_refl) as (k & x' & A & B & C & D).
  - intros [|[|k]] y Ey; cbn in Ey; try discriminate. injection Ey as ->. lra.
  - intros k Hk. lia.
  - exists k, x'. cbn [np_argmax]. change (zlen [x]) with 1 in A. change (Z.of_nat 0) with 0 in A. rewrite A. now repeat split.
Qed.

(** *** the profile *)
Notation le_b r := (fun x => if Rle_dec x r then true else false).
Lemma sorted_prefix r : forall s, StronglySorted Rle s -> filter (le_b r) s = firstn (length (filter (le_b r) s)) s.
Proof.
  induction s as [|x s IH]; intro St; [reflexivity|]. apply StronglySorted_inv in St as [St Fx]. cbn [filter]. destruct (Rle_dec x r) as [C|C]; [cbn [length firstn]; f_equal; now apply IH|].
  assert (filter (le_b r) s = []) as ->; [|reflexivity]. rewrite Forall_forall in Fx. destruct (filter (le_b r) s) as [|y t] eqn:E; [reflexivity|]. assert (In y (y :: t)) as Hy by now left. rewrite <- E in Hy. apply filter_In in Hy as [Hy L]. destruct (Rle_dec y r) as [C'|]; [|discriminate]. specialize (Fx y Hy). lra.
Qed.
Lemma sorted_nth s : StronglySorted Rle s -> forall i j x y, (i <= j)%nat -> nth_error s i = Some x -> nth_error s j = Some y -> (x <= y)%R.
Proof.
  induction 1 as [|a s St IH Fa]; intros i j x y Hij Ei Ej; [destruct i; discriminate|]. destruct i as [|i]; destruct j as [|j]; cbn in Ei, Ej; [injection Ei as <-; injection Ej as <-; lra | | lia | apply (IH i j); (lia || assumption)].
  injection Ei as <-. rewrite Forall_forall in Fa. apply Fa. now apply nth_error_In with j.
Qed.
Lemma within_ge s i r : StronglySorted Rle s -> nth_error s i = Some r -> Z.of_nat i + 1 <= within s r.
Proof.
  intros St E. unfold within, zlen. destruct (Nat.lt_ge_cases i (length (filter (le_b r) s))) as [C|C]; [lia|exfalso].
  assert (nth_error (filter (le_b r) s) i = None) as N by (apply nth_error_None; lia). 
  assert (forall k x, nth_error s k = Some x -> (k <= i)%nat -> In x (filter (le_b r) s)) as A. { intros k x Ex Hk. apply filter_In. split; [now apply nth_error_In with k|]. pose proof (sorted_nth s St k i x r Hk Ex E). destruct (Rle_dec x r); [reflexivity | contradiction]. }
  assert (firstn (Datatypes.S i) s = filter (le_b r) (firstn (Datatypes.S i) s)) as Q.
  { symmetry. assert (forall x, In x (firstn (Datatypes.S i) s) -> (le_b r) x = true) as Al. { intros x Hx. apply In_nth_error in Hx as [k Ek]. assert (k < Datatypes.S i)%nat as Hk. { assert (k < length (firstn (Datatypes.S i) s))%nat as L by (apply nth_error_Some; congruence). rewrite firstn_length in L. lia. }
      rewrite <- (firstn_skipn (Datatypes.S i) s) in E. assert (nth_error s k = Some x) as Ex. { rewrite <- (firstn_skipn (Datatypes.S i) s). rewrite nth_error_app1 by (apply nth_error_Some; congruence). exact Ek. }
      rewrite firstn_skipn in E. pose proof (sorted_nth s St k i x r ltac:(lia) Ex E). destruct (Rle_dec x r); [reflexivity | contradiction]. }
    clear -Al. revert Al. induction (firstn (Datatypes.S i) s) as [|y l IH]; intro Al; [reflexivity|]. cbn [filter]. rewrite (Al y (or_introl eq_refl)). f_equal. apply IH. intros x Hx. apply Al. now right. }
  assert (length (filter (le_b r) s) = length (filter (le_b r) (firstn (Datatypes.S i) s)) + length (filter (le_b r) (skipn (Datatypes.S i) s)))%nat as L by (rewrite <- app_length, <- filter_app; now rewrite firstn_skipn).
  rewrite <- Q, firstn_length in L. assert (i < length s)%nat by (apply nth_error_Some; congruence). lia.
Qed.
Lemma within_last s r : StronglySorted Rle s -> In r s -> exists j, nth_error s j = Some r /\ within s r = Z.of_nat j + 1.
Proof.
  intros St Hr. apply In_nth_error in Hr as [k Ek]. pose proof (within_ge s k r St Ek) as G. unfold within, zlen in *. set (m := length (filter (le_b r) s)) in *. exists (m - 1)%nat. split; [|lia].
  assert (m <= length s)%nat as Lm. { unfold m. rewrite (sorted_prefix r s St), firstn_length. lia. } 
  destruct (nth_error s (m - 1)) as [x|] eqn:Ex; [|apply nth_error_None in Ex; lia]. f_equal.
  assert (In x (filter (le_b r) s)) as Hx. { rewrite (sorted_prefix r s St). fold m. rewrite <- (firstn_skipn m s), nth_error_app1 in Ex by (rewrite firstn_length; lia). now apply nth_error_In with (m - 1)%nat. }
  apply filter_In in Hx as [_ Hx]. destruct (Rle_dec x r) as [C|]; [|discriminate]. pose proof (sorted_nth s St k (m - 1)%nat r x ltac:(lia) Ek Ex). lra.
Qed.
Lemma within_perm l s r : Permutation l s -> within l r = within s r.
Proof. intro H. unfold within, zlen. f_equal. apply Permutation_length. induction H as [|x l s H IH|x y l|l s t H1 IH1 H2 IH2]; cbn [filter]; [constructor | destruct (Rle_dec x r); [now constructor | exact IH] | destruct (Rle_dec x r), (Rle_dec y r); (apply perm_swap || apply Permutation_refl) | exact (Permutation_trans IH1 IH2)]. Qed.

Lemma constants : (0 < G_SI)%R /\ (0 < MPC_IN_M)%R /\ (0 < MSOLAR_IN_KG)%R.
Proof. unfold G_SI, MPC_IN_M, MSOLAR_IN_KG. assert (0 < 10 ^ 16)%R by (apply pow_lt; lra). assert (0 < 10 ^ 19)%R by (apply pow_lt; lra). assert (0 < 10 ^ 25)%R by (apply pow_lt; lra). repeat split; [apply Rdiv_lt_0_compat; lra | lra | lra]. Qed.
Lemma vcirc_mono mpart a i j r : (0 <= mpart)%R -> (0 < a)%R -> i <= j -> (vcirc_of mpart a i r <= vcirc_of mpart a j r)%R.
Proof.
  intros Hm Ha Hij. unfold vcirc_of. destruct (Rlt_dec 0 r) as [C|C]; [|lra]. apply Rmult_le_compat_r; [lra|]. apply sqrt_le_1_alt. destruct constants as (A & B & D). assert (0 < r * a * MPC_IN_M)%R as P by (repeat apply Rmult_lt_0_compat; lra).
  apply Rmult_le_compat_r; [left; now apply Rinv_0_lt_compat|]. apply Rmult_le_compat_l; [lra|]. assert (0 <= 10 ^ 10)%R by (apply pow_le; lra). do 3 (apply Rmult_le_compat_r; [lra|]). now apply IZR_le.
Qed.
Lemma vcirc_profile rs mpart a r : vcirc_of mpart a (within rs r - 1) r = profile rs mpart a r.
Proof. unfold vcirc_of, profile, circular. destruct (Rlt_dec 0 r); [|reflexivity]. unfold G_SI, MPC_IN_M, MSOLAR_IN_KG. f_equal. f_equal. f_equal; [|f_equal]; ring. Qed.

Section Script.
  Variable np_argsort : list R -> list Z.
  Hypothesis Hsort : sorts np_argsort.
  Variables (pos : list vec) (subnr : list Z) (isub : Z) (centre : vec) (box mpart redshift : R) (rs : list R).
  Hypothesis Hbox : (0 < box)%R.
  Hypothesis Hlen : zlen pos = zlen subnr.
  Hypothesis Hrs : Forall2 (distance box centre) (members pos subnr isub) rs.
  Let a := (1 / (1 + redshift))%R.
  Let s := map (fun i => nth (Z.to_nat i) rs 0%R) (np_argsort rs).
  Lemma s_sorted : StronglySorted Rle s.
  Proof using Hsort. exact (proj2 (Hsort rs)). Qed.
  Lemma s_perm : Permutation s rs.
  Proof using Hsort.
    unfold s. destruct (Hsort rs) as [P _]. apply (Permutation_map (fun i => nth (Z.to_nat i) rs 0%R)) in P. rewrite P. 
    assert (forall l k pre, length pre = k -> map (fun i => nth (Z.to_nat i) (pre ++ l) 0%R) (zseq (Z.of_nat k) (length l)) = l) as Q.
    { induction l as [|x l IH]; intros k pre E; [reflexivity|]. cbn [length zseq map]. f_equal; [rewrite Nat2Z.id, app_nth2, E, Nat.sub_diag by lia; reflexivity|]. replace (Z.of_nat k + 1) with (Z.of_nat (Datatypes.S k)) by lia. rewrite <- (IH (Datatypes.S k) (pre ++ [x])) at 2 by (rewrite app_length; cbn [length]; lia). apply map_ext. intro i. now rewrite <- app_assoc. }
    specialize (Q rs 0%nat [] eq_refl). cbn [app] in Q. change (Z.of_nat 0) with 0 in Q. rewrite Q. reflexivity.
  Qed.
  Lemma s_take : np_take rs (np_argsort rs) = Ok s.
  Proof using Hsort.
    destruct (Hsort rs) as [P _]. unfold np_take, s. assert (forall i, In i (np_argsort rs) -> 0 <= i < zlen rs) as A. { intros i Hi. apply (Permutation_in _ P) in Hi. apply In_zseq in Hi. unfold zlen. lia. }
    clear P. revert A. clear s. induction (np_argsort rs) as [|i l IH]; intro A; [reflexivity|]. cbn [mapM map]. pose proof (A i (or_introl eq_refl)) as Hi. assert (py_nth rs i = Ok (nth (Z.to_nat i) rs 0%R)) as ->.
    { unfold py_nth. replace (i <? 0) with false by lia. cbn zeta. replace ((i <? 0) || (zlen rs <=? i)) with false by lia. unfold zlen in Hi. destruct (nth_error rs (Z.to_nat i)) as [x|] eqn:E; [erewrite nth_error_nth by exact E; reflexivity | apply nth_error_None in E; lia]. }
    cbn [bind]. rewrite IH by (intros; apply A; now right). reflexivity.
  Qed.
  Let vc := zipwith (vcirc_of mpart a) (zseq 0 (length s)) s.
  Lemma vc_nth : forall (l : list R) o k, nth_error (zipwith (vcirc_of mpart a) (zseq o (length l)) l) k = match nth_error l k with Some r => Some (vcirc_of mpart a (o + Z.of_nat k) r) | None => None end.
  Proof.
    induction l as [|x l IH]; intros o [|k]; cbn [length zseq zipwith nth_error]; try reflexivity; [do 2 f_equal; lia|]. rewrite IH. destruct (nth_error l k); [|reflexivity]. do 2 f_equal. lia.
  Qed.
  Lemma rvmax_top : rs <> [] -> (0 <= mpart)%R -> (-1 < redshift)%R ->
    exists r0, In r0 rs /\ compute_rvmax np_argsort pos subnr isub centre box mpart redshift = Ok (a * r0, profile rs mpart a r0)%R /\
      (forall r, In r rs -> (profile rs mpart a r <= profile rs mpart a r0)%R) /\ (forall r, In r rs -> profile rs mpart a r = profile rs mpart a r0 -> (r0 <= r)%R).
  Proof using All.
    intros Ne Hm Hz. assert (0 < a)%R as Ha by (unfold a; apply Rdiv_lt_0_compat; lra).
    assert (vc <> []) as Nv. { intro E. assert (length vc = 0%nat) as L by now rewrite E. pose proof (Permutation_length s_perm) as LP. destruct s as [|x s'] eqn:Es; [destruct rs; [congruence | discriminate]|]. unfold vc in E. cbn in E. discriminate. }
    destruct (argmax_spec vc Nv) as (k & v & Ek & Ev & Max & First). unfold vc in Ev. rewrite vc_nth in Ev. destruct (nth_error s k) as [r0|] eqn:Er; [|discriminate]. rewrite Z.add_0_l in Ev. assert (vcirc_of mpart a (Z.of_nat k) r0 = v) as Ev0 by congruence. clear Ev. rename Ev0 into Ev.
    assert (forall r, In r rs -> exists j, nth_error s j = Some r /\ nth_error vc j = Some (profile rs mpart a r)) as Last.
    { intros r Hr. apply (Permutation_in _ (Permutation_sym s_perm)) in Hr. destruct (within_last s r s_sorted Hr) as (j & Ej & W). exists j. split; [exact Ej|]. unfold vc. rewrite vc_nth, Ej. f_equal. rewrite <- vcirc_profile, (within_perm rs s r (Permutation_sym s_perm)), W. f_equal. lia. }
    assert (In r0 rs) as H0 by (apply (Permutation_in _ s_perm); now apply nth_error_In with k).
    assert (v = profile rs mpart a r0) as Ep.
    { apply Rle_antisym; [|destruct (Last r0 H0) as (j & _ & Ej); exact (Max j _ Ej)]. rewrite <- Ev, <- vcirc_profile. apply vcirc_mono; [lra | exact Ha|]. pose proof (within_ge s k r0 s_sorted Er). rewrite (within_perm rs s r0 (Permutation_sym s_perm)). lia. }
    exists r0. split; [exact H0|]. split; [|split].
    - unfold compute_rvmax. rewrite (radii_ok pos subnr isub centre box rs Hbox Hlen Hrs). cbn [bind]. cbn zeta. rewrite s_take. cbn [bind]. fold a. fold vc. rewrite Ek. cbn [bind]. rewrite Nat2Z.id. rewrite (nth_error_nth _ _ _ Er).
      assert (nth_error vc k = Some v) as Ev' by (unfold vc; rewrite vc_nth, Er; f_equal; rewrite Z.add_0_l; exact Ev). rewrite (nth_error_nth _ _ _ Ev'). rewrite Ep. do 2 f_equal. ring.
    - intros r Hr. destruct (Last r Hr) as (j & _ & Ej). rewrite <- Ep. exact (Max j _ Ej).
    - intros r Hr E. destruct (Last r Hr) as (j & Esj & Ej). destruct (Nat.lt_ge_cases j k) as [C|C]; [specialize (First j _ C Ej); rewrite E, <- Ep in First; lra|]. exact (sorted_nth s s_sorted k j r0 r C Er Esj).
  Qed.
  Lemma rvmax_none : rs = [] -> compute_rvmax np_argsort pos subnr isub centre box mpart redshift = Err EValue.
  Proof using All.
    intro E. unfold compute_rvmax. rewrite (radii_ok pos subnr isub centre box rs Hbox Hlen Hrs). cbn [bind]. cbn zeta. rewrite s_take. cbn [bind]. pose proof (Permutation_length s_perm) as L. rewrite E in L. destruct s; [reflexivity | discriminate].
  Qed.
End Script.

(** *** there is such a function, and an example *)
Section Isort.
  Variable l : list R.
  Notation key i := (nth (Z.to_nat i) l 0%R).
  Fixpoint put (i : Z) (t : list Z) : list Z := match t with [] => [i] | j :: t' => if Rle_dec (key i) (key j) then i :: t else j :: put i t' end.
  Lemma put_perm i t : Permutation (put i t) (i :: t).
  Proof. induction t as [|j t IH]; cbn [put]; [apply Permutation_refl|]. destruct (Rle_dec _ _); [apply Permutation_refl|]. rewrite IH. apply perm_swap. Qed.
  Lemma put_sorted i t : StronglySorted (fun i j => (key i <= key j)%R) t -> StronglySorted (fun i j => (key i <= key j)%R) (put i t).
  Proof.
    induction 1 as [|j t St IH Fj]; cbn [put]; [repeat constructor|]. destruct (Rle_dec (key i) (key j)) as [C|C].
    - constructor; [now constructor|]. constructor; [exact C|]. rewrite Forall_forall in *. intros x Hx. specialize (Fj x Hx). lra.
    - constructor; [exact IH|]. rewrite Forall_forall in *. intros x Hx. apply (Permutation_in _ (put_perm i t)) in Hx. destruct Hx as [<- |Hx]; [lra | exact (Fj x Hx)].
  Qed.
End Isort.
Definition isort (l : list R) : list Z := fold_right (put l) [] (zseq 0 (length l)).
Lemma isort_sorts : sorts isort.
Proof.
  intro l. unfold isort. split.
  - induction (zseq 0 (length l)) as [|i t IH]; cbn [fold_right]; [apply Permutation_refl|]. rewrite put_perm. now constructor.
  - assert (StronglySorted (fun i j => (nth (Z.to_nat i) l 0 <= nth (Z.to_nat j) l 0)%R) (fold_right (put l) [] (zseq 0 (length l)))) as St. { induction (zseq 0 (length l)) as [|i t IH]; cbn [fold_right]; [constructor|]. now apply put_sorted. }
    induction St as [|i t St IH Fi]; cbn [map]; constructor; [exact IH|]. now rewrite Forall_map.
Qed.
Lemma ex_distance x : (-5 <= x < 5)%R -> distance 10 (1, 2, 3)%R (x + 1, 2, 3)%R (sqrt (x * x)).
Proof. intro H. exists x, 0%R, 0%R. unfold nearest. cbn [fst snd]. repeat split; try lra; [exists 0; lra | exists 0; lra | exists 0; lra|]. f_equal. ring. Qed.
Lemma itself_refuted : ~ (forall np_argsort pos subnr isub centre box mpart redshift rs, sorts np_argsort -> (0 < box)%R -> zlen pos = zlen subnr -> Forall2 (distance box centre) (members pos subnr isub) rs -> rs <> [] -> (0 <= mpart)%R -> (-1 < redshift)%R ->
  exists r0, In r0 rs /\ compute_rvmax np_argsort pos subnr isub centre box mpart redshift = Ok (1 / (1 + redshift) * r0, with_itself rs mpart (1 / (1 + redshift)) r0)%R).
Proof.
  intro C. set (pos := [(1 + 1, 2, 3)%R]). assert (Forall2 (distance 10 (1, 2, 3)%R) (members pos [7] 7) [sqrt (1 * 1)]) as D. { unfold members, pos. cbn. constructor; [|constructor]. apply ex_distance. lra. }
  replace (1 * 1)%R with 1%R in D by ring. rewrite sqrt_1 in D.
  destruct (C isort pos [7] 7 (1, 2, 3)%R 10%R 1%R 0%R _ isort_sorts ltac:(lra) eq_refl D ltac:(discriminate) ltac:(lra) ltac:(lra)) as (r & [<- |[]] & E).
  destruct (rvmax_top isort isort_sorts pos [7] 7 (1, 2, 3)%R 10%R 1%R 0%R _ ltac:(lra) eq_refl D ltac:(discriminate) ltac:(lra) ltac:(lra)) as (r1 & [<- |[]] & E1 & _).
  rewrite E in E1. injection E1 as E1. unfold with_itself, profile in E1. destruct (Rlt_dec 0 1) as [_|N]; [|lra].
  assert (within [1%R] 1 = 1) as W. { unfold within. cbn [filter]. destruct (Rle_dec 1 1); [reflexivity | lra]. } rewrite W in E1. change (1 - 1) with 0 in E1. unfold circular in E1.
  assert (forall x y, 667408 / 10 ^ 16 * (IZR 0 * x) / y = 0)%R as Z0 by (intros; unfold Rdiv; ring). rewrite Z0, sqrt_0 in E1.
  assert (0 < sqrt (667408 / 10 ^ 16 * (1 * (1 * (10 ^ 10 * (198855 * 10 ^ 25)))) / (1 / (1 + 0) * 1 * (3086 * 10 ^ 19))))%R as P.
  { apply sqrt_lt_R0. assert (0 < 10 ^ 10)%R by (apply pow_lt; lra). assert (0 < 10 ^ 16)%R by (apply pow_lt; lra). assert (0 < 10 ^ 19)%R by (apply pow_lt; lra). assert (0 < 10 ^ 25)%R by (apply pow_lt; lra).
    apply Rdiv_lt_0_compat; [apply Rmult_lt_0_compat; [apply Rdiv_lt_0_compat; lra|]|]; [rewrite !Rmult_1_l; apply Rmult_lt_0_compat; lra|]. replace (1 / (1 + 0) * 1)%R with 1%R by field. lra. }
  lra.
Qed.
