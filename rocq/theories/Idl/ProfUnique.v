(** The positions of a group and its sphere are determined by its particles. *)
From Coq Require Import QArith Lqa.
From Coq Require Import Ascii String.
From Coq Require Import Sorting.Permutation Sorting.Sorted.
From Verif Require Import Base.Prelude Base.ListLemmas Base.Order Text.StrModel Snap.ReadSpec Fortran.FofSpec.
From Verif Require Import Idl.LibSpec Idl.SnapSpec Idl.GroupSpec Idl.SphereSpec Idl.ProgSpec Idl.ProfSpec.
From Coq Require Import ZifyBool ZifyNat.
Local Open Scope Z_scope. Local Open Scope list_scope.

Lemma same_sym a b : same a b -> same b a.
Proof. destruct a as [[x y] z], b as [[u v] w]. intros (H1 & H2 & H3). repeat split; now symmetry. Qed.
Lemma same_trans a b c : same a b -> same b c -> same a c.
Proof. destruct a as [[x y] z], b as [[u v] w], c as [[r s] t]. intros (H1 & H2 & H3) (K1 & K2 & K3). repeat split; [now rewrite H1 | now rewrite H2 | now rewrite H3]. Qed.
Lemma norm2_minus a b c d : same a b -> same c d -> (norm2 (minus a c) == norm2 (minus b d))%Q.
Proof. destruct a as [[x y] z], b as [[u v] w], c as [[r s] t], d as [[e f] g]. intros (H1 & H2 & H3) (K1 & K2 & K3). cbn. now rewrite H1, H2, H3, K1, K2, K3. Qed.
Lemma Qle_bool_same a b c d : (a == b)%Q -> (c == d)%Q -> Qle_bool a c = Qle_bool b d.
Proof. intros H K. apply Bool.eq_iff_eq_true. rewrite !Qle_bool_iff. now rewrite H, K. Qed.
Lemma nearer_same pts pts' c c' r2 r2' : Forall2 same pts pts' -> same c c' -> (r2 == r2')%Q -> Forall2 same (nearer pts c r2) (nearer pts' c' r2').
Proof.
  intros H Hc Hr. unfold nearer. induction H as [|p q l m H F IH]; [constructor|]. cbn [filter]. rewrite (Qle_bool_same r2 r2' (norm2 (minus p c)) (norm2 (minus q c')) Hr (norm2_minus p q c c' H Hc)).
  destruct (negb _); [now constructor | exact IH].
Qed.
Lemma zlen_same {A B} (R : A -> B -> Prop) l m : Forall2 R l m -> zlen l = zlen m.
Proof. intro H. unfold zlen. now rewrite (Forall2_len _ _ _ H). Qed.
Lemma total_same l m : Forall2 Qeq l m -> (total l == total m)%Q.
Proof. unfold total. induction 1 as [|a b l m H F IH]; [reflexivity|]. cbn [fold_right]. now rewrite H, IH. Qed.
Lemma Forall2_map {A B} (R : A -> A -> Prop) (S : B -> B -> Prop) (f : A -> B) l m : (forall a b, R a b -> S (f a) (f b)) -> Forall2 R l m -> Forall2 S (map f l) (map f m).
Proof. intros H. induction 1; constructor; auto. Qed.
Lemma mean_same l m c c' : Forall2 same l m -> 0 < zlen l -> is_mean l c -> is_mean m c' -> same c c'.
Proof.
  intros H Hl Hc Hc'. unfold is_mean in *. rewrite <- (zlen_same _ _ _ H) in Hc'. destruct c as [[x y] z], c' as [[u v] w]. destruct Hc as (X & Y & Z), Hc' as (U & V & W).
  assert (~ inject_Z (zlen l) == 0)%Q as HN by (intro HH; assert (inject_Z 0 < inject_Z (zlen l))%Q as HL by (now rewrite <- Zlt_Qlt); change (inject_Z 0) with 0%Q in HL; lra).
  assert (forall f : vec -> Q, (forall a b, same a b -> f a == f b)%Q -> total (map f l) == total (map f m))%Q as K by (intros f Hf; apply total_same, (Forall2_map same Qeq f); [exact Hf | exact H]).
  repeat split; apply (Qmult_inj_l _ _ _ HN).
  - rewrite X, U. apply (K (fun p => fst (fst p))). intros [[a1 a2] a3] [[b1 b2] b3] (E1 & E2 & E3). exact E1.
  - rewrite Y, V. apply (K (fun p => snd (fst p))). intros [[a1 a2] a3] [[b1 b2] b3] (E1 & E2 & E3). exact E2.
  - rewrite Z, W. apply (K snd). intros [[a1 a2] a3] [[b1 b2] b3] (E1 & E2 & E3). exact E3.
Qed.
Lemma settles_unique least pts pts' : 0 < least -> Forall2 same pts pts' -> forall c r2 e, settles least pts c r2 e -> forall c' r2' e', same c c' -> (r2 == r2')%Q -> settles least pts' c' r2' e' -> same e e'.
Proof.
  intros Hl HP. induction 1 as [c r2 H | c r2 d e H HM HS IH]; intros c' r2' e' Hc Hr HS'.
  - pose proof (nearer_same pts pts' c c' r2 r2' HP Hc Hr) as HN. inversion HS' as [? ? K | ? ? d' ? K KM KS]; subst; [exact Hc|]. rewrite (zlen_same _ _ _ HN) in H. lia.
  - pose proof (nearer_same pts pts' c c' r2 r2' HP Hc Hr) as HN. inversion HS' as [? ? K | ? ? d' ? K KM KS]; subst; [rewrite (zlen_same _ _ _ HN) in H; lia|].
    apply (IH d' ((81 # 100) * r2')%Q e'); [|now rewrite Hr | exact KS]. exact (mean_same _ _ d d' HN ltac:(lia) HM KM).
Qed.
Lemma distances_unique pts pts' c c' ds ds' : Forall2 same pts pts' -> same c c' -> distances2 pts c ds -> distances2 pts' c' ds' -> Forall2 Qeq ds ds'.
Proof.
  intros HP Hc H. revert pts' ds' HP. induction H as [|p d l m H F IH]; intros pts' ds' HP K; inversion HP as [|? q ? pts2 HE HP2]; subst; inversion K as [|? d' ? ds2 HK K2]; subst; constructor; [rewrite H, HK; now apply norm2_minus | eapply IH; eassumption].
Qed.
Lemma largest_unique l m x y : Forall2 Qeq l m -> largest l x -> largest m y -> (x == y)%Q.
Proof.
  intros H [E F] [E' F']. apply Exists_exists in E as (a & Ia & Ea), E' as (b & Ib & Eb). rewrite Forall_forall in F, F'.
  assert (exists a', In a' m /\ (a == a')%Q) as (a' & Ia' & Ea') by (clear - H Ia; induction H as [|u v l m H K IH]; [destruct Ia|]; destruct Ia as [<- | Ia]; [exists v; split; [now left | exact H]|]; destruct (IH Ia) as (w & ? & ?); exists w; split; [now right | assumption]).
  assert (exists b', In b' l /\ (b == b')%Q) as (b' & Ib' & Eb') by (clear - H Ib; induction H as [|u v l m H K IH]; [destruct Ib|]; destruct Ib as [<- | Ib]; [exists u; split; [now left | now symmetry]|]; destruct (IH Ib) as (w & ? & ?); exists w; split; [now right | assumption]).
  specialize (F b' Ib'). specialize (F' a' Ia'). lra.
Qed.
(** the sphere of a group is determined by the positions *)
Lemma sphere_unique least pts pts' s s' c c' rad2 rad2' : 0 < least -> Forall2 same pts pts' -> same s s' -> sphere_of least s pts c rad2 -> sphere_of least s' pts' c' rad2' -> same c c' /\ (rad2 == rad2')%Q.
Proof.
  intros Hl HP Hs (ds0 & m & off & ds & A1 & A2 & A3 & A4 & A5 & A6) (ds0' & m' & off' & ds' & B1 & B2 & B3 & B4 & B5 & B6).
  assert (same origin origin) as HO by (repeat split; reflexivity).
  assert (m == m')%Q as Em by (exact (largest_unique _ _ _ _ (distances_unique _ _ _ _ _ _ HP HO A1 B1) A2 B2)). pose proof (settles_unique least pts pts' Hl HP _ _ _ A3 _ _ _ HO Em B3) as Eo.
  split; [|exact (largest_unique _ _ _ _ (distances_unique _ _ _ _ _ _ HP Eo A4 B4) A5 B5)].
  eapply same_trans; [exact A6|]. apply same_sym. eapply same_trans; [exact B6|]. destruct s as [[x y] z], s' as [[u v] w], off as [[p q] r], off' as [[f g] h]. destruct Hs as (S1 & S2 & S3), Eo as (O1 & O2 & O3). cbn. repeat split; [rewrite S1, O1 | rewrite S2, O2 | rewrite S3, O3]; reflexivity.
Qed.

(** an integer number of boxes which is less than one box *)
Lemma same_image box a b k : (0 < box)%Q -> (- box < a - b < box)%Q -> (a == b + inject_Z k * box)%Q -> k = 0.
Proof.
  intros Hb H E. assert (forall k : Z, (inject_Z k * box < box)%Q -> k <= 0) as L.
  { intros j Hj. destruct (Z.le_gt_cases j 0) as [H0|H0]; [exact H0|]. exfalso. assert (inject_Z 1 <= inject_Z j)%Q as HL by (rewrite <- Zle_Qle; lia). change (inject_Z 1) with 1%Q in HL. assert (0 <= (inject_Z j - 1) * box)%Q as HH by (apply Qmult_le_0_compat; lra).
    assert ((inject_Z j - 1) * box == inject_Z j * box - box)%Q as EE by ring. lra. }
  pose proof (L k ltac:(lra)) as L1. pose proof (L (- k)) as L2. rewrite inject_Z_opp in L2. specialize (L2 ltac:(setoid_replace (- inject_Z k * box)%Q with (- (inject_Z k * box))%Q by ring; lra)). lia.
Qed.
Lemma about_unique box x y c y' c' : (0 < box)%Q -> x <> [] -> about_centre box x y c -> about_centre box x y' c' -> (c == c')%Q /\ Forall2 Qeq y y'.
Proof.
  intros Hb Hne (F & C & T & W) (F' & C' & T' & W').
  destruct x as [|x0 x]; [contradiction|]. inversion F as [|a b0 la lb K0 KF]; subst. inversion F' as [|a' b0' la' lb' K0' KF']; subst. cbn [nth] in W, W'.
  set (e := (b0' - b0)%Q).
  assert (forall u v w, Forall2 (fun a b => exists k : Z, (b + c == a + inject_Z k * box)%Q) u v -> Forall2 (fun a b => exists k : Z, (b + c' == a + inject_Z k * box)%Q) u w ->
    Forall (fun b => (- ((1 # 2) * box) <= b - b0 < (1 # 2) * box)%Q) v -> Forall (fun b => (- ((1 # 2) * box) <= b - b0' < (1 # 2) * box)%Q) w -> Forall2 (fun b b' => b' == b + e)%Q v w) as G.
  { destruct K0 as (k0 & K0), K0' as (k0' & K0'). induction u as [|a u IH]; intros v w F1 F2 F3 F4; inversion F1 as [|? y0 ? v2 A1 A2]; subst; inversion F2 as [|? y1 ? w2 B1 B2]; subst; [constructor|]. inversion F3 as [|? ? V1 V2]; subst. inversion F4 as [|? ? W1 W2]; subst. constructor; [|now apply IH].
    destruct A1 as (k1 & E1), B1 as (k2 & E2). assert (k2 - k1 - k0' + k0 = 0) as EZ.
    { apply (same_image box (y1 - b0') (y0 - b0) _ Hb); [lra|]. unfold Zminus. rewrite !inject_Z_plus, !inject_Z_opp. lra. }
    assert (k2 = k1 + k0' + - k0) as EZ' by lia. unfold e. setoid_replace y1 with (a + inject_Z k2 * box - c')%Q by lra. setoid_replace y0 with (a + inject_Z k1 * box - c)%Q by lra.
    setoid_replace b0' with (x0 + inject_Z k0' * box - c')%Q by lra. setoid_replace b0 with (x0 + inject_Z k0 * box - c)%Q by lra. rewrite EZ', !inject_Z_plus, inject_Z_opp. ring. }
  pose proof (G (x0 :: x) (b0 :: lb) (b0' :: lb') F F' W W') as FG. clear G.
  assert (forall v w, Forall2 (fun b b' => b' == b + e)%Q v w -> (total w == total v + inject_Z (zlen v) * e)%Q) as GT.
  { unfold total. induction 1 as [|b b' v w H K IH]; [cbn; ring|]. cbn [fold_right]. rewrite IH, H, zlen_cons, inject_Z_plus. ring. }
  specialize (GT _ _ FG). rewrite T, T' in GT. rewrite zlen_cons in GT.
  assert (e == 0)%Q as He. { pose proof (zlen_nonneg lb) as Hz. assert (inject_Z 0 < inject_Z (1 + zlen lb))%Q as HL by (rewrite <- Zlt_Qlt; lia). change (inject_Z 0) with 0%Q in HL. apply (Qmult_inj_l _ _ (inject_Z (1 + zlen lb))); [lra | rewrite Qmult_0_r; lra]. }
  split; [|clear - FG He; induction FG; constructor; [rewrite H, He; ring | assumption]].
  destruct K0 as (k0 & K0), K0' as (k0' & K0'). assert (k0 - k0' = 0) as EZ; [|assert (k0 = k0') as -> by lia; unfold e in He; lra].
  apply (same_image box c c' _ Hb); [lra|]. unfold Zminus. rewrite inject_Z_plus, inject_Z_opp. unfold e in He. lra.
Qed.
Lemma arranged_unique value4 box members s s' pts pts' : (0 < box)%Q -> members <> [] -> NoDup (map (fun p => plain_id (id_of p)) members) -> arranged value4 box members s pts -> arranged value4 box members s' pts' -> same s s' /\ Forall2 same pts pts'.
Proof.
  intros Hb Hne HD. destruct s as [[cx cy] cz], s' as [[ex ey] ez]. intros (sel & HP & HS & X & Y & Z) (sel' & HP' & HS' & X' & Y' & Z').
  assert (sel = sel') as <-.
  { assert (forall l, Permutation members l -> in_id_order l -> StronglySorted (fun p q => plain_id (id_of p) < plain_id (id_of q)) l) as K.
    { intros l HL HO. apply (Permutation_map (fun p => plain_id (id_of p))) in HL. assert (NoDup (map (fun p => plain_id (id_of p)) l)) as HN by (now apply (Permutation_NoDup HL)). clear - HO HN. induction HO as [|p l HO IH HF]; [constructor|].
      cbn [map] in HN. inversion HN as [|? ? N1 N2]; subst. constructor; [now apply IH|]. rewrite Forall_forall in *. intros q Hq. specialize (HF q Hq). assert (plain_id (id_of p) <> plain_id (id_of q)) by (intro HE; apply N1; rewrite HE; exact (in_map (fun p => plain_id (id_of p)) _ _ Hq)). lia. }
    apply (StronglySorted_unique (fun p q => plain_id (id_of p) < plain_id (id_of q))); [intros; lia | now apply K | now apply K | now transitivity members; [symmetry|]]. }
  assert (forall k, map (coordinate value4 k) sel <> []) as HM by (intros k HE; apply map_eq_nil in HE; subst sel; apply Permutation_sym, Permutation_nil in HP; contradiction).
  destruct (about_unique _ _ _ _ _ _ Hb (HM _) X X') as [E1 F1], (about_unique _ _ _ _ _ _ Hb (HM _) Y Y') as [E2 F2], (about_unique _ _ _ _ _ _ Hb (HM _) Z Z') as [E3 F3]. split; [repeat split; assumption|].
  clear - F1 F2 F3. revert pts' F1 F2 F3. induction pts as [|p pts IH]; intros [|q pts'] F1 F2 F3; cbn [map] in *; inversion F1; inversion F2; inversion F3; subst; constructor; [destruct p as [[a b] c], q as [[d e] f]; repeat split; assumption | now apply IH].
Qed.
