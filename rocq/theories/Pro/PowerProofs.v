(** Proofs about the bands of the power spectrum (for C107). *)
From Coq Require Import QArith Qround Lqa.
From Verif Require Import Base.Prelude Base.ListLemmas Pro.PowerSpec Pro.PowerModel.
From Coq Require Import ZifyBool ZifyNat.
Local Open Scope Z_scope. Local Open Scope list_scope.

Lemma sum_from l : forall a, (fold_left Qplus l a == a + added l)%Q.
Proof. induction l as [|x l IH]; intro a; cbn [fold_left added]; [ring|]. rewrite IH. ring. Qed.
Lemma sum_added l : (sum l == added l)%Q.
Proof. unfold sum. rewrite sum_from. ring. Qed.
Lemma added_app l m : (added (l ++ m) == added l + added m)%Q.
Proof. induction l as [|x l IH]; cbn [added app]; [ring|]. rewrite IH. ring. Qed.
Lemma maxq_from l : forall x, let m := fold_left (fun a b => if Qle_bool b a then a else b) l x in In m (x :: l) /\ Forall (fun y => y <= m)%Q (x :: l).
Proof.
  induction l as [|y l IH]; intro x; cbn [fold_left]; [cbn; split; [now left | constructor; [apply Qle_refl | constructor]]|].
  destruct (Qle_bool y x) eqn:E.
  - apply Qle_bool_iff in E. destruct (IH x) as [H1 H2]. split; [destruct H1 as [H1|H1]; [now left | now right; right]|]. inversion_clear H2 as [|? ? A B]. constructor; [exact A|]. constructor; [|exact B]. now apply (Qle_trans _ x).
  - assert (x <= y)%Q as L. { apply Qlt_le_weak, Qnot_le_lt. intro Q. apply Qle_bool_iff in Q. congruence. }
    destruct (IH y) as [H1 H2]. split; [now right|]. inversion_clear H2 as [|? ? A B]. constructor; [now apply (Qle_trans _ y)|]. now constructor.
Qed.
Lemma minq_from l : forall x, let m := fold_left (fun a b => if Qle_bool a b then a else b) l x in In m (x :: l) /\ Forall (fun y => m <= y)%Q (x :: l).
Proof.
  induction l as [|y l IH]; intro x; cbn [fold_left]; [cbn; split; [now left | constructor; [apply Qle_refl | constructor]]|].
  destruct (Qle_bool x y) eqn:E.
  - apply Qle_bool_iff in E. destruct (IH x) as [H1 H2]. split; [destruct H1 as [H1|H1]; [now left | now right; right]|]. inversion_clear H2 as [|? ? A B]. constructor; [exact A|]. constructor; [|exact B]. now apply (Qle_trans _ x).
  - assert (y <= x)%Q as L. { apply Qlt_le_weak, Qnot_le_lt. intro Q. apply Qle_bool_iff in Q. congruence. }
    destruct (IH y) as [H1 H2]. split; [now right|]. inversion_clear H2 as [|? ? A B]. constructor; [now apply (Qle_trans _ y)|]. now constructor.
Qed.
Lemma maxq_ok l : l <> [] -> In (maxq l) l /\ Forall (fun y => y <= maxq l)%Q l.
Proof. destruct l as [|x l]; [congruence|]. intros _. exact (maxq_from l x). Qed.
Lemma minq_ok l : l <> [] -> In (minq l) l /\ Forall (fun y => minq l <= y)%Q l.
Proof. destruct l as [|x l]; [congruence|]. intros _. exact (minq_from l x). Qed.
Lemma bounds_ok l : l <> [] -> Forall (fun y => minq l <= y <= maxq l)%Q l.
Proof. intro H. destruct (maxq_ok l H) as [_ A], (minq_ok l H) as [_ B]. rewrite Forall_forall in *. intros y Hy. split; auto. Qed.
Lemma bounds_unique l hi lo : l <> [] -> In hi l -> In lo l -> Forall (fun y => lo <= y <= hi)%Q l -> (hi == maxq l /\ lo == minq l)%Q.
Proof.
  intros H Hh Hl F. destruct (maxq_ok l H) as [A1 A2], (minq_ok l H) as [B1 B2]. rewrite Forall_forall in *. split; apply Qle_antisym.
  - now apply A2. - now apply F. - now apply F. - now apply B2.
Qed.

Lemma pick_slice c done p q : pick (column c (done ++ p ++ q)) (zseq (zlen done) (length p)) = map (fun r => nth c r 0%Q) p.
Proof.
  unfold pick, column. apply nth_ext with (d := 0%Q) (d' := 0%Q); [now rewrite !map_length, zseq_length|]. intros i Hi. rewrite map_length, zseq_length in Hi.
  match goal with |- nth i (map ?g ?l) _ = _ => rewrite (nth_indep (map g l) 0%Q (g 0)), (map_nth g) by (rewrite map_length, zseq_length; exact Hi) end.
  assert (nth i (zseq (zlen done) (length p)) 0 = zlen done + Z.of_nat i) as ->. { apply nth_zseq. exact Hi. }
  rewrite !map_app. assert (zlen (map (fun r => nth c r 0%Q) done ++ map (fun r => nth c r 0%Q) p ++ map (fun r => nth c r 0%Q) q) = zlen done + zlen p + zlen q) as ->. { unfold zlen. rewrite !app_length, !map_length. lia. }
  replace (Z.to_nat (Z.min (zlen done + zlen p + zlen q - 1) (Z.max 0 (zlen done + Z.of_nat i)))) with (length (map (fun r => nth c r 0%Q) done) + i)%nat by (rewrite map_length; unfold zlen in *; lia).
  rewrite app_nth2_plus, app_nth1 by (rewrite map_length; exact Hi). reflexivity.
Qed.
Lemma moment_sum p : forall a, (sum (map (fun x => inject_Z (fst x) * snd x)%Q (combine (zseq a (length p)) (map modes_of p))) == moment a p)%Q.
Proof. intro a. rewrite sum_added. revert a. induction p as [|r p IH]; intro a; cbn [length zseq map combine added moment fst snd]; [reflexivity|]. now rewrite IH. Qed.
Lemma moment_shift p : forall a b, (moment (a + b) p == inject_Z a * added (map modes_of p) + moment b p)%Q.
Proof.
  induction p as [|r p IH]; intros a b; cbn [moment map added]; [ring|]. rewrite <- Z.add_assoc, IH, inject_Z_plus. ring.
Qed.
Lemma moment_range p : some_modes p -> p <> [] -> (0 <= moment 0 p /\ moment 0 p <= inject_Z (zlen p - 1) * added (map modes_of p))%Q.
Proof.
  intros H Hn. assert (forall a, 0 <= a -> (inject_Z a * added (map modes_of p) <= moment a p /\ moment a p <= inject_Z (a + zlen p - 1) * added (map modes_of p))%Q) as G.
  { clear Hn. induction H as [|r p Hr H IH]; intros a Ha; cbn [moment map added]; [split; lra|].
    destruct (IH (a + 1) ltac:(lia)) as [L U]. rewrite zlen_cons. replace (a + 1 + zlen p - 1) with (a + (1 + zlen p) - 1) in U by lia.
    assert (0 <= added (map modes_of p))%Q as P. { clear - H. induction H as [|x l Hx H IH]; cbn; lra. }
    assert (inject_Z a <= inject_Z (a + (1 + zlen p) - 1))%Q as V by (rewrite <- Zle_Qle; unfold zlen; lia).
    rewrite inject_Z_plus in L. change (inject_Z 1) with 1%Q in L. split; [nra|].
    assert (inject_Z a * modes_of r <= inject_Z (a + (1 + zlen p) - 1) * modes_of r)%Q by (apply Qmult_le_compat_r; assumption). lra. }
  destruct (G 0 ltac:(lia)) as [L U]. split; [|exact U]. change (inject_Z 0) with 0%Q in L. lra.
Qed.
Lemma floor_range q a b : (inject_Z a <= q)%Q -> (q < inject_Z b)%Q -> a <= Qfloor q < b.
Proof.
  intros A B. pose proof (Qfloor_le q) as L. pose proof (Qlt_floor q) as U. split.
  - apply Zle_Qle in A || idtac. assert (inject_Z a < inject_Z (Qfloor q + 1))%Q as X by lra. rewrite <- Zlt_Qlt in X. lia.
  - assert (inject_Z (Qfloor q) < inject_Z b)%Q as X by lra. now rewrite <- Zlt_Qlt in X.
Qed.
Lemma floor_shift a q : Qfloor (inject_Z a + q) = a + Qfloor q.
Proof.
  pose proof (Qfloor_le q). pose proof (Qlt_floor q). assert (a + Qfloor q <= Qfloor (inject_Z a + q) < a + Qfloor q + 1); [|lia].
  rewrite inject_Z_plus in *. change (inject_Z 1) with 1%Q in *. apply floor_range; rewrite ?inject_Z_plus; change (inject_Z 1) with 1%Q; lra.
Qed.
(** the row whose number is the mean *)
Lemma central_ok a p : 0 <= a -> some_modes p -> p <> [] -> (0 < added (map modes_of p))%Q ->
  exists j r, 0 <= j < zlen p /\ nth_error p (Z.to_nat j) = Some r /\ central p r /\ trunc (sum (map (fun x => inject_Z (fst x) * snd x)%Q (combine (zseq a (length p)) (map modes_of p))) / sum (map modes_of p)) = a + j.
Proof.
  intros Ha Hs Hn Hp. set (n := added (map modes_of p)) in *. destruct (moment_range p Hs Hn) as [L U]. fold n in U. set (m := (moment 0 p / n)%Q).
  assert (m * n == moment 0 p)%Q as Em by (unfold m; field; lra).
  assert (0 <= m)%Q as M0 by (apply Qle_shift_div_l; lra).
  assert (m <= inject_Z (zlen p - 1))%Q as M1 by (apply Qle_shift_div_r; assumption).
  assert (0 <= Qfloor m < zlen p) as R. { apply floor_range; [exact M0|]. apply (Qle_lt_trans _ _ _ M1). rewrite <- Zlt_Qlt. lia. }
  destruct (nth_error p (Z.to_nat (Qfloor m))) as [r|] eqn:Er; [|apply nth_error_None in Er; unfold zlen in R; lia].
  exists (Qfloor m), r. split; [exact R|]. split; [exact Er|]. split.
  - exists (Qfloor m). split; [lia|]. split; [exact Er|]. fold n. cbn zeta. rewrite <- Em. pose proof (Qfloor_le m). pose proof (Qlt_floor m). split; [apply Qmult_le_compat_r; lra | apply Qmult_lt_r; assumption].
  - set (x := (sum (map (fun x => inject_Z (fst x) * snd x)%Q (combine (zseq a (length p)) (map modes_of p))) / sum (map modes_of p))%Q).
    assert (x == inject_Z a + m)%Q as Ex. { unfold x, m. rewrite moment_sum, sum_added. fold n. rewrite <- (Z.add_0_r a) at 1. rewrite moment_shift. fold n. field. lra. }
    unfold trunc. assert (0 <= inject_Z a)%Q by (change 0%Q with (inject_Z 0); rewrite <- Zle_Qle; exact Ha).
    assert (Qle_bool 0 x = true) as -> by (apply Qle_bool_iff; lra). rewrite Ex. apply floor_shift.
Qed.
Lemma int16_small v : - 2 ^ 15 <= v < 2 ^ 15 -> int16 v = v.
Proof. intro H. unfold int16. rewrite Z.mod_small; lia. Qed.
Lemma elem_ok c done p q j r : 0 <= j -> nth_error p (Z.to_nat j) = Some r -> elem (column c (done ++ p ++ q)) (zlen done + j) = Ok (nth c r 0%Q).
Proof.
  intros Hj E. unfold elem, column. assert (Z.to_nat j < length p)%nat as L by (apply nth_error_Some; congruence).
  assert (zlen (map (fun r => nth c r 0%Q) (done ++ p ++ q)) = zlen done + zlen p + zlen q) as -> by (unfold zlen; rewrite map_length, !app_length; lia).
  replace ((0 <=? zlen done + j) && (zlen done + j <? zlen done + zlen p + zlen q)) with true by (unfold zlen in *; lia). f_equal. apply nth_error_nth.
  rewrite nth_error_map. replace (Z.to_nat (zlen done + j)) with (length done + Z.to_nat j)%nat by (unfold zlen; lia). rewrite nth_error_app2, (Nat.add_comm (length done)), Nat.add_sub, nth_error_app1, E by lia. reflexivity.
Qed.

Section Bands.
  Variable alog10 : Q -> Q.
  Hypothesis log_eq : forall x y, (x == y)%Q -> (alog10 x == alog10 y)%Q.
  Variables least width : Q.
  Hypothesis least_pos : (0 < least)%Q.
  Notation isfull := (full alog10 least width).

  Lemma full_dec p : p <> [] ->
    (if Qle_bool width (alog10 (maxq (map k_of p)) - alog10 (minq (map k_of p))) && Qle_bool least (sum (map modes_of p)) then isfull p else ~ isfull p).
  Proof using log_eq.
    intro Hn. assert (map k_of p <> []) as Hm by (destruct p; [congruence | discriminate]). destruct (Qle_bool width _) eqn:E1; cbn [andb].
    - destruct (Qle_bool least _) eqn:E2.
      + apply Qle_bool_iff in E1, E2. rewrite sum_added in E2. split; [exact E2|]. exists (maxq (map k_of p)), (minq (map k_of p)). split; [now apply maxq_ok|]. split; [now apply minq_ok|]. split; [now apply bounds_ok | exact E1].
      + intros [F _]. rewrite <- sum_added in F. apply Qle_bool_iff in F. congruence.
    - intros [_ (hi & lo & Hh & Hl & F & W)]. destruct (bounds_unique _ _ _ Hm Hh Hl F) as [A B]. rewrite (log_eq _ _ A), (log_eq _ _ B) in W. apply Qle_bool_iff in W. congruence.
  Qed.
  Lemma proper_prefix {A} (p x y : list A) r : p ++ [r] = x ++ y -> y <> [] -> exists y', p = x ++ y'.
  Proof.
    intros E Hy. destruct (exists_last Hy) as (y' & z & ->). rewrite app_assoc in E. apply app_inj_tail in E as [E _]. now exists y'.
  Qed.
  Lemma first_full_one r : first_full isfull [r].
  Proof. intros x y E Hx Hy. destruct x as [|a x]; [congruence|]. destruct x, y; try discriminate; congruence. Qed.
  Lemma first_full_more p r : first_full isfull p -> ~ isfull p -> first_full isfull (p ++ [r]).
  Proof.
    intros F N x y E Hx Hy. destruct (proper_prefix _ _ _ _ E Hy) as (y' & ->). destruct y' as [|a y']; [rewrite app_nil_r in N; exact N|]. apply (F x (a :: y')); [reflexivity | exact Hx | discriminate].
  Qed.

  Lemma bands_ok after : forall steps q done p, p <> [] -> some_modes (p ++ q) -> (length q < steps)%nat -> zlen (done ++ p ++ q) < 2 ^ 15 -> first_full isfull p ->
    exists points bs rest, bands alog10 least steps (done ++ p ++ q ++ after) width (zlen (done ++ p ++ q)) (zlen done + zlen p - 1) (zseq (zlen done) (length p)) = Ok points /\
      banded isfull (p ++ q) bs rest /\ Forall2 point_of bs points.
  Proof using log_eq least_pos.
    induction steps as [|steps IH]; intros q done p Hn Hs Hq Hz Hf; [lia|]. cbn [bands]. rewrite !pick_slice.
    change (fun r : list Q => nth 0 r 0%Q) with k_of. change (fun r : list Q => nth 4 r 0%Q) with modes_of. change (fun r : list Q => nth 8 r 0%Q) with power_of.
    assert (some_modes p) as Hp by (apply Forall_app in Hs; apply Hs). assert (some_modes q) as Hq' by (apply Forall_app in Hs; apply Hs).
    assert (1 <= zlen p) as Lp by (destruct p; [congruence | rewrite zlen_cons; unfold zlen; lia]).
    assert (zlen (done ++ p ++ q) = zlen done + zlen p + zlen q) as Lz by (unfold zlen; rewrite !app_length; lia).
    assert (int16 (zlen done + zlen p - 1 + 1) = zlen done + zlen p) as Ei by (rewrite int16_small; unfold zlen in *; lia). rewrite Ei.
    pose proof (full_dec p Hn) as D. destruct (Qle_bool width _ && Qle_bool least _).
    - assert (0 < added (map modes_of p))%Q as Pos. { destruct D as [D _]. lra. }
      destruct (central_ok (zlen done) p) as (j & r & Hj & Er & Hc & ->); [unfold zlen; lia | exact Hp | exact Hn | exact Pos|].
      assert (int16 (zlen done + j) = zlen done + j) as -> by (rewrite int16_small; unfold zlen in *; lia).
      rewrite !(elem_ok _ done p (q ++ after) j r) by (exact Er || lia). cbn [bind].
      set (point := (nth 0 r 0%Q, _, _)). assert (point_of p point) as Pt. { unfold point, point_of. split; [apply sum_added|]. exists r. split; [exact Hc|]. split; [reflexivity|]. unfold conv_of, shape_of. rewrite !sum_added. field. lra. }
      destruct q as [|s q].
      + assert (zlen (done ++ p ++ []) <=? zlen done + zlen p = true) as -> by (unfold zlen in *; cbn [length] in *; lia). exists [point], [p], []. split; [reflexivity|]. split; [|constructor; [exact Pt | constructor]].
        apply one_band; [exact Hn | exact D | exact Hf|]. apply no_band. intros x y E Hx. destruct x; [congruence | discriminate].
      + assert (zlen (done ++ p ++ s :: q) <=? zlen done + zlen p = false) as -> by (rewrite zlen_cons in Lz; unfold zlen in *; lia).
        destruct (IH q (done ++ p) [s]) as (points & bs & rest & E & B & F); [discriminate | exact Hq' | cbn [length] in Hq; lia | now rewrite <- app_assoc | apply first_full_one|].
        rewrite <- !app_assoc in E. cbn [app length] in E. assert (zlen (done ++ p) = zlen done + zlen p) as Ed by (unfold zlen; rewrite app_length; lia). rewrite Ed in E.
        assert (zlen done + zlen p + zlen [s] - 1 = zlen done + zlen p) as Ee by (unfold zlen; cbn [length]; lia). rewrite Ee in E. cbn [zseq] in E. cbn [app]. rewrite E. cbn [bind].
        exists (point :: points), (p :: bs), rest. split; [reflexivity|]. split; [apply one_band; assumption | now constructor].
    - destruct q as [|s q].
      + assert (zlen (done ++ p ++ []) <=? zlen done + zlen p = true) as -> by (unfold zlen in *; cbn [length] in *; lia). exists [], [], p. split; [reflexivity|]. split; [|constructor]. rewrite app_nil_r. apply no_band.
        intros x y E Hx. destruct y as [|a y]; [rewrite app_nil_r in E; now subst x|]. apply (Hf x (a :: y) E Hx). discriminate.
      + assert (zlen (done ++ p ++ s :: q) <=? zlen done + zlen p = false) as -> by (rewrite zlen_cons in Lz; unfold zlen in *; lia).
        destruct (IH q done (p ++ [s])) as (points & bs & rest & E & B & F); [destruct p; discriminate | now rewrite <- app_assoc | cbn [length] in Hq; lia | now rewrite <- app_assoc | now apply first_full_more|].
        rewrite <- !app_assoc in E. cbn [app] in E. assert (zlen done + zlen (p ++ [s]) - 1 = zlen done + zlen p) as Ee by (unfold zlen; rewrite app_length; cbn [length]; lia). rewrite Ee in E.
        assert (zseq (zlen done) (length (p ++ [s])) = zseq (zlen done) (length p) ++ [zlen done + zlen p]) as Es. { rewrite app_length. cbn [length]. rewrite zseq_app. reflexivity. }
        rewrite Es in E. cbn [app]. rewrite E. exists points, bs, rest. split; [reflexivity|]. split; [|exact F]. rewrite <- app_assoc in B. exact B.
  Qed.
End Bands.
