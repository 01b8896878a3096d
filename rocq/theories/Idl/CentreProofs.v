(** Proofs about get_group_coordinates (C86): the positions relative to the centre of mass. *)
From Coq Require Import QArith Lqa Qround.
From Verif Require Import Base.Prelude Base.ListLemmas Fortran.FofSpec Idl.LibModel Idl.GroupSpec Idl.StdioProofs Idl.HashProofs Idl.GroupProofs.
From Coq Require Import ZifyBool ZifyNat.
Local Open Scope Z_scope. Local Open Scope list_scope.

Lemma fold_plus l : forall a, (fold_left Qplus l a == a + total l)%Q.
Proof. induction l as [|x l IH]; intro a; cbn; [lra|]. rewrite IH. unfold total. lra. Qed.
Lemma sum_total l : (sumQ l == total l)%Q.
Proof. unfold sumQ. rewrite fold_plus. lra. Qed.
Lemma total_shift s l : (total (map (fun v => v - s) l) == total l - inject_Z (zlen l) * s)%Q.
Proof.
  induction l as [|x l IH]; [cbn; unfold zlen; cbn; ring|]. cbn [map]. unfold total in *. cbn [fold_right]. rewrite IH, zlen_cons, inject_Z_plus. change (inject_Z 1) with 1%Q. ring.
Qed.
Lemma periodic_ok (box x : Q) : (0 < box -> - box < x < box ->
  - ((1 # 2) * box) <= fof_periodic box x < (1 # 2) * box /\ exists k : Z, fof_periodic box x == x + inject_Z k * box)%Q.
Proof.
  intros Hb Hx. unfold fof_periodic.
  destruct (Qle_bool ((1 # 2) * box) x) eqn:E1; [apply Qle_bool_iff in E1 | assert (~ ((1 # 2) * box <= x)%Q) as N1 by (rewrite <- Qle_bool_iff; congruence); apply Qnot_le_lt in N1].
  - destruct (Qle_bool (- (1 # 2) * box) (x - box)) eqn:E2; cbn [negb].
    + apply Qle_bool_iff in E2. split; [lra|]. exists (-1). change (inject_Z (-1)) with (-1)%Q. lra.
    + exfalso. assert (~ (- (1 # 2) * box <= x - box)%Q) as N by (rewrite <- Qle_bool_iff; congruence). apply N. lra.
  - destruct (Qle_bool (- (1 # 2) * box) x) eqn:E2; cbn [negb].
    + apply Qle_bool_iff in E2. split; [lra|]. exists 0. change (inject_Z 0) with 0%Q. lra.
    + assert (~ (- (1 # 2) * box <= x)%Q) as N by (rewrite <- Qle_bool_iff; congruence). apply Qnot_le_lt in N. split; [lra|]. exists 1. change (inject_Z 1) with 1%Q. lra.
Qed.
Lemma wrap_ok fuel (box x : Q) : (2 <= fuel)%nat -> (0 < box)%Q -> (- box <= x < 2 * box)%Q -> exists c k, fof_periodic_wrap fuel box x = Ok c /\ (0 <= c < box)%Q /\ (c == x + inject_Z k * box)%Q.
Proof.
  intros Hf Hb Hx. destruct fuel as [|[|f]]; try lia. unfold fof_periodic_wrap. cbn [wrap_down].
  destruct (Qle_bool box x) eqn:E1.
  - apply Qle_bool_iff in E1. replace (Qle_bool box (x - box)) with false by (symmetry; apply not_true_iff_false; rewrite Qle_bool_iff; lra). cbn [bind wrap_up].
    replace (Qle_bool 0 (x - box)) with true by (symmetry; apply Qle_bool_iff; lra). cbn [negb]. exists (x - box)%Q, (-1). split; [reflexivity|]. change (inject_Z (-1)) with (-1)%Q. split; lra.
  - assert (~ (box <= x)%Q) as N by (rewrite <- Qle_bool_iff; congruence). apply Qnot_le_lt in N. cbn [bind wrap_up]. destruct (Qle_bool 0 x) eqn:E2; cbn [negb].
    + apply Qle_bool_iff in E2. exists x, 0. split; [reflexivity|]. change (inject_Z 0) with 0%Q. split; lra.
    + assert (~ (0 <= x)%Q) as N2 by (rewrite <- Qle_bool_iff; congruence). apply Qnot_le_lt in N2. replace (Qle_bool 0 (x + box)) with true by (symmetry; apply Qle_bool_iff; lra). cbn [negb]. exists (x + box)%Q, 1. split; [reflexivity|]. change (inject_Z 1) with 1%Q. split; lra.
Qed.
Lemma total_bound lo hi l : (Forall (fun v => lo <= v < hi) l -> inject_Z (zlen l) * lo <= total l /\ (l <> nil -> total l < inject_Z (zlen l) * hi))%Q.
Proof.
  induction 1 as [|x l Hx HL IH]; [split; [change (inject_Z (zlen nil)) with 0%Q; unfold total; cbn [fold_right]; lra | congruence]|]. rewrite zlen_cons, inject_Z_plus. change (inject_Z 1) with 1%Q. unfold total in *. cbn [fold_right]. destruct IH as [I1 I2]. split; [lra|]. intros _. destruct l as [|y l]; [change (inject_Z (zlen nil)) with 0%Q; cbn [fold_right]; lra|]. specialize (I2 ltac:(discriminate)). lra.
Qed.
Lemma recentre_ok fuel box x : (2 <= fuel)%nat -> (0 < box)%Q -> x <> [] -> Forall (fun v => 0 <= v < box)%Q x -> exists y c, recentre fuel box x = Ok (y, c) /\ about_centre box x y c.
Proof.
  intros Hf Hb Hx HB. destruct x as [|ref x]; [congruence|]. clear Hx. set (l := ref :: x) in *. unfold recentre. assert (rd l 0 = Ok ref) as -> by reflexivity. cbn [bind].
  assert (0 <= ref < box)%Q as HR by (unfold l in HB; now apply Forall_cons_iff in HB). set (y := map (fun v => fof_periodic box (v - ref)) l). set (s := (sumQ y / inject_Z (zlen l))%Q).
  assert (zlen y = zlen l) as EL by (unfold y; apply zlen_map). assert (0 < inject_Z (zlen l))%Q as P by (change 0%Q with (inject_Z 0); rewrite <- Zlt_Qlt; unfold l; rewrite zlen_cons; pose proof (zlen_nonneg x); lia).
  assert (Forall (fun v => - ((1 # 2) * box) <= v < (1 # 2) * box)%Q y) as HY.
  { unfold y. apply Forall_map. eapply Forall_impl; [|exact HB]. cbn. intros v Hv. apply periodic_ok; [exact Hb | lra]. }
  assert (inject_Z (zlen l) * s == total y)%Q as ES by (unfold s; rewrite sum_total; field; lra).
  assert (- ((1 # 2) * box) <= s < (1 # 2) * box)%Q as HS.
  { destruct (total_bound _ _ y HY) as [B1 B2]. specialize (B2 ltac:(unfold y, l; discriminate)). rewrite EL in B1, B2. rewrite <- ES in B1, B2. split; [apply Qmult_lt_0_le_reg_r with (z := inject_Z (zlen l)); [exact P|]; lra | apply Qmult_lt_r with (z := inject_Z (zlen l)); [exact P|]; lra]. }
  destruct (wrap_ok fuel box (s + ref) Hf Hb ltac:(lra)) as (c & k & EW & HC & EK). rewrite EW. cbn [bind]. exists (map (fun v => (v - s)%Q) y), c. split; [reflexivity|].
  split; [|split; [exact HC | split]].
  - unfold y. rewrite map_map. clearbody s. clear - HB HR Hb EK. induction HB as [|v l Hv HL IH]; [constructor|]. cbn [map]. constructor; [|exact IH]. destruct (periodic_ok box (v - ref)%Q Hb ltac:(lra)) as [_ (k' & E)]. exists (k' + k). rewrite inject_Z_plus, EK, E. ring.
  - rewrite total_shift, EL, ES. lra.
  - assert (nth 0 (map (fun v => (v - s)%Q) y) 0%Q = (fof_periodic box (ref - ref) - s)%Q) as E0 by reflexivity. rewrite E0.
    assert (fof_periodic box (ref - ref) == 0)%Q as EF.
    { unfold fof_periodic. replace (Qle_bool ((1 # 2) * box) (ref - ref)) with false by (symmetry; apply not_true_iff_false; rewrite Qle_bool_iff; lra). replace (Qle_bool (- (1 # 2) * box) (ref - ref)) with true by (symmetry; apply Qle_bool_iff; lra). cbn [negb]. lra. }
    apply Forall_map. eapply Forall_impl; [|exact HY]. cbn. intros v Hv. lra.
Qed.
Lemma recentre_len fuel box x y c : recentre fuel box x = Ok (y, c) -> List.length y = List.length x.
Proof.
  unfold recentre. destruct (rd x 0); [|discriminate]. cbn [bind]. destruct (fof_periodic_wrap _ _ _); [|discriminate]. cbn [bind]. intro H. injection H as <- _. now rewrite !map_length.
Qed.
Lemma interleave_flat x : forall y z, interleave x y z = flat (combine (combine x y) z).
Proof. induction x as [|a x IH]; intros [|b y] [|c z]; try reflexivity. cbn. now rewrite IH. Qed.
Lemma combine_parts x : forall y z, List.length y = List.length x -> List.length z = List.length x -> map (fun q => fst (fst q)) (combine (combine x y) z) = x /\ map (fun q => snd (fst q)) (combine (combine x y) z) = y /\ map (@snd (Q * Q) Q) (combine (combine x y) z) = z.
Proof. induction x as [|a x IH]; intros [|b y] [|c z] H1 H2; try discriminate; [now repeat split|]. cbn in *. destruct (IH y z ltac:(lia) ltac:(lia)) as (-> & -> & ->). now repeat split. Qed.
Lemma flat_len l : zlen (flat l) = 3 * zlen l.
Proof. unfold flat. apply triple_len. apply Forall_forall. now intros [[a b] c] _. Qed.
Lemma component_ok value4 (sel : list particle) tail (k : nat) : Forall (fun p => zlen (fst (fst p)) = 3) sel -> (k < 3)%nat ->
  component (concat (map (pos_vals value4) sel) ++ tail) (Z.of_nat k) (zlen sel) = map (coordinate value4 k) sel.
Proof.
  intros H3 Hk. unfold component, zlen. rewrite Nat2Z.id.
  assert (forall from pre, zlen pre = 3 * from -> 0 <= from -> map (fun i => nth (Z.to_nat (3 * i + Z.of_nat k)) (pre ++ concat (map (pos_vals value4) sel) ++ tail) 0%Q) (zseq from (List.length sel)) = map (coordinate value4 k) sel) as G; [|apply (G 0 []); [reflexivity | lia]].
  induction H3 as [|p sel Hp H3 IH]; intros from pre Hpre Hf; [reflexivity|]. cbn [List.length zseq map concat]. f_equal.
  - rewrite app_nth2 by (unfold zlen in Hpre; lia). replace (Z.to_nat (3 * from + Z.of_nat k) - List.length pre)%nat with k by (unfold zlen in Hpre; lia). rewrite <- app_assoc, app_nth1 by (unfold pos_vals; rewrite map_length; unfold zlen in Hp; lia).
    unfold pos_vals, coordinate. rewrite (nth_indep _ 0%Q (value4 0)) by (rewrite map_length; unfold zlen in Hp; lia). apply map_nth.
  - rewrite <- (IH (from + 1) (pre ++ pos_vals value4 p)) by (rewrite ?zlen_app; unfold pos_vals; rewrite ?zlen_map; lia). apply map_ext. intro i. now rewrite <- !app_assoc.
Qed.
