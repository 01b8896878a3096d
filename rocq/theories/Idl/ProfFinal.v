(** The IDL programs for profiles: final lemmas (C106). *)
From Coq Require Import QArith Lqa.
From Coq Require Import Ascii String.
From Coq Require Import Sorting.Permutation Sorting.Sorted.
From Verif Require Import Base.Prelude Base.ListLemmas Base.Order Binary.BinModel Formats.FileSpec Formats.CatSpec.
From Verif Require Import Text.StrModel Text.StrSpec Text.PathSpec Text.PathProofs Snap.ReadSpec Fortran.RegionSpec Fortran.GroupTabSpec Fortran.FofSpec.
From Verif Require Import Idl.LibModel Idl.LibSpec Idl.SnapSpec Idl.GroupSpec Idl.HashFinal Idl.GroupFinal Idl.SphereSpec Idl.SphereFinal Idl.ProgSpec Idl.ProgModel Idl.ProgProofs Idl.ProgFinal Idl.ProfSpec Idl.ProfModel Idl.ProfProofs.
From Coq Require Import ZifyBool ZifyNat.
Local Open Scope Z_scope. Local Open Scope list_scope.

(** *** what is done with the radii *)
Lemma rank_le (a b : list Q) x : StronglySorted Qle (a ++ x :: b) -> zlen a + 1 <= zlen (filter (fun y => Qle_bool y x) (a ++ x :: b)).
Proof.
  intro H. rewrite filter_app, zlen_app. assert (filter (fun y => Qle_bool y x) a = a) as ->.
  { apply filter_every. apply Forall_forall. intros y Hy. apply Qle_bool_iff. apply in_split in Hy as (a1 & a2 & ->). rewrite <- app_assoc in H. cbn [app] in H. clear - H. induction a1 as [|z a1 IH]; cbn [app] in H; inversion H; subst; [|now apply IH]. rewrite Forall_forall in H3. apply H3. apply in_app_iff. right. now left. }
  cbn [filter]. assert (Qle_bool x x = true) as -> by (apply Qle_bool_iff; lra). rewrite zlen_cons. pose proof (zlen_nonneg (filter (fun y => Qle_bool y x) b)). lia.
Qed.
Lemma last_rank (l : list Q) x : StronglySorted Qle l -> Exists (fun y => y == x)%Q l -> exists a y b, l = a ++ y :: b /\ (y == x)%Q /\ zlen a + 1 = zlen (filter (fun z => Qle_bool z x) l).
Proof.
  induction 1 as [|z l Hl IH HF]; intro Hin; [inversion Hin|]. rewrite Forall_forall in HF. cbn [filter].
  destruct (existsb (fun y => Qle_bool y x) l) eqn:E.
  - apply existsb_exists in E as (y & Hy & Hyx). apply Qle_bool_iff in Hyx. specialize (HF y Hy). assert (Qle_bool z x = true) as -> by (apply Qle_bool_iff; lra).
    destruct IH as (a & w & b & E1 & E2 & E3); [inversion Hin; subst; [apply Exists_exists; exists y; split; [exact Hy | lra] | assumption]|].
    exists (z :: a), w, b. rewrite E1 at 1. split; [reflexivity|]. split; [exact E2|]. rewrite !zlen_cons. lia.
  - assert (forall y, In y l -> Qle_bool y x = false) as NE by (intros y Hy; destruct (Qle_bool y x) eqn:C; [|reflexivity]; assert (existsb (fun y => Qle_bool y x) l = true) by (apply existsb_exists; exists y; split; assumption); congruence).
    assert (z == x)%Q as Ez. { inversion Hin; subst; [assumption|]. apply Exists_exists in H0 as (y & Hy & Ey). specialize (NE y Hy). assert (Qle_bool y x = true) by (apply Qle_bool_iff; lra). congruence. }
    assert (Qle_bool z x = true) as -> by (apply Qle_bool_iff; lra). exists [], z, l. split; [reflexivity|]. split; [exact Ez|]. rewrite (filter_none _ l) by (apply Forall_forall; exact NE). reflexivity.
Qed.
Lemma combine_zseq_nth {B} (f : Z -> Q) (a : list B) y b s : In (f (s + zlen a), y) (combine (map f (zseq s (List.length (a ++ y :: b)))) (a ++ y :: b)).
Proof.
  revert s. induction a as [|w a IH]; intro s; cbn [app List.length zseq map combine]; [left; f_equal; f_equal; change (zlen (@nil B)) with 0; lia|]. right. rewrite zlen_cons. replace (s + (1 + zlen a)) with (s + 1 + zlen a) by lia. apply IH.
Qed.
Lemma In_combine_zseq {B} (f : Z -> Q) (l : list B) m y s : In (m, y) (combine (map f (zseq s (List.length l))) l) -> exists a b, l = a ++ y :: b /\ m = f (s + zlen a).
Proof.
  revert s. induction l as [|w l IH]; intros s H; [destruct H|]. cbn [List.length zseq map combine] in H. destruct H as [H | H].
  - injection H as <- <-. exists [], l. split; [reflexivity|]. f_equal. change (zlen (@nil B)) with 0. lia.
  - destruct (IH _ H) as (a & b & -> & ->). exists (w :: a), b. split; [reflexivity|]. f_equal. rewrite zlen_cons. lia.
Qed.
Lemma bins_ok bins (bin : Q -> Z) r : forall arr, zlen arr = bins -> let out := fold_left (fun countarr r => let b := bin r in if (0 <=? b) && (b <? bins) then set_nth countarr (Z.to_nat b) (nth (Z.to_nat b) countarr 0 + 1) else countarr) r arr in
  zlen out = bins /\ forall k : Z, 0 <= k < bins -> nth (Z.to_nat k) out 0 = nth (Z.to_nat k) arr 0 + zlen (filter (fun x => bin x =? k) r).
Proof.
  induction r as [|x r IH]; intros arr Ha; cbn [fold_left filter]; [split; [exact Ha | intros; change (zlen (@nil Q)) with 0; lia]|]. set (b := bin x). destruct ((0 <=? b) && (b <? bins)) eqn:E.
  - destruct (IH (set_nth arr (Z.to_nat b) (nth (Z.to_nat b) arr 0 + 1))) as [H1 H2]; [unfold zlen in *; now rewrite set_nth_length|]. split; [exact H1|]. intros k Hk. rewrite H2 by exact Hk. rewrite nth_set_nth by (unfold zlen in Ha; lia).
    destruct (Nat.eqb_spec (Z.to_nat k) (Z.to_nat b)) as [C|C]; destruct (Z.eqb_spec b k) as [D|D]; try lia; [rewrite zlen_cons; rewrite C; lia].
  - destruct (IH arr Ha) as [H1 H2]. split; [exact H1|]. intros k Hk. rewrite H2 by exact Hk. destruct (Z.eqb_spec b k); [lia | reflexivity].
Qed.
Section R200.
  Variables (partmass : Q) (mean_mass : Q -> Q) (r : list Q).
  Hypothesis Hpm : (0 <= partmass)%Q.
  Hypothesis Hmm : forall x y, (x == y)%Q -> (mean_mass x == mean_mass y)%Q.
  Let ind := filter (fun '(m, r) => Qle_bool (mean_mass r) m) (combine (map (fun i => partmass * inject_Z i)%Q (zseq 1 (List.length (sorted r)))) (sorted r)).
  Lemma count_sorted x : zlen (filter (fun y => Qle_bool y x) r) = zlen (filter (fun y => Qle_bool y x) (sorted r)).
  Proof using. apply filter_len_perm, sorted_perm. Qed.
  Lemma ind_enough m x : In (m, x) ind -> In x r /\ dense partmass mean_mass r x.
  Proof using All.
    intro H. apply filter_In in H as [H HM]. apply Qle_bool_iff in HM. apply (In_combine_zseq (fun i => partmass * inject_Z i)%Q) in H as (a & b & E & ->). split; [apply (Permutation_in _ (Permutation_sym (sorted_perm r))); rewrite E; apply in_app_iff; right; now left|].
    unfold dense. rewrite count_sorted. pose proof (rank_le a b x) as HR. rewrite <- E in HR. specialize (HR (sorted_sorted r)). eapply Qle_trans; [exact HM|].
    rewrite Zle_Qle in HR. replace (1 + zlen a) with (zlen a + 1) by lia. nra.
  Qed.
  Lemma enough_ind x : In x r -> dense partmass mean_mass r x -> exists m y, In (m, y) ind /\ (y == x)%Q.
  Proof using All.
    intros Hin HE. destruct (last_rank (sorted r) x (sorted_sorted r)) as (a & y & b & E1 & E2 & E3); [apply Exists_exists; exists x; split; [apply (Permutation_in _ (sorted_perm r) Hin) | reflexivity]|].
    exists (partmass * inject_Z (1 + zlen a))%Q, y. split; [|exact E2]. apply filter_In. split; [rewrite E1; apply (combine_zseq_nth (fun i => partmass * inject_Z i)%Q)|].
    apply Qle_bool_iff. unfold dense in HE. rewrite count_sorted, <- E3 in HE. rewrite (Hmm y x E2). replace (1 + zlen a) with (zlen a + 1) by lia. exact HE.
  Qed.
  Lemma r200_found x : r200 partmass mean_mass r = Ok x -> In x r /\ dense partmass mean_mass r x /\ forall y, In y r -> dense partmass mean_mass r y -> (y <= x)%Q.
  Proof using All.
    unfold r200. fold ind. intro E. destruct (0 <? zlen ind) eqn:EZ; cbn [check bind] in E; [|discriminate]. injection E as <-.
    assert (map snd ind <> []) as Hne by (destruct ind; [discriminate EZ | discriminate]). destruct (max_in _ Hne) as [H1 H2]. apply in_map_iff in H1 as ([m z] & E1 & Hz). cbn [snd] in E1. destruct (ind_enough m z Hz) as [K1 K2]. rewrite <- E1. split; [exact K1|]. split; [exact K2|].
    intros y Hy HE. destruct (enough_ind y Hy HE) as (m' & y' & Iy & Ey). rewrite Forall_forall in H2. specialize (H2 y' (in_map snd _ (m', y') Iy)). rewrite E1. lra.
  Qed.
  Lemma r200_none : (forall x, In x r -> ~ dense partmass mean_mass r x) <-> r200 partmass mean_mass r = Err EIndex.
  Proof using All.
    unfold r200. fold ind. split.
    - intro H. destruct ind as [|[m x] l] eqn:E; [reflexivity|]. exfalso. destruct (ind_enough m x) as [K1 K2]; [rewrite E; now left|]. exact (H x K1 K2).
    - intros E x Hx HE. destruct (enough_ind x Hx HE) as (m & y & Iy & _). destruct ind as [|i l]; [destruct Iy|]. rewrite zlen_cons in E. pose proof (zlen_nonneg l). replace (0 <? 1 + zlen l) with true in E by lia. discriminate E.
  Qed.
  Lemma r200_ok : (exists x, In x r /\ dense partmass mean_mass r x) -> exists x, r200 partmass mean_mass r = Ok x /\ In x r /\ dense partmass mean_mass r x /\ forall y, In y r -> dense partmass mean_mass r y -> (y <= x)%Q.
  Proof using All.
    intros (x & Hx & HE). destruct (r200 partmass mean_mass r) as [y|e] eqn:E; [exists y; split; [reflexivity | now apply r200_found]|]. exfalso. assert (e = EIndex) as -> by (unfold r200 in E; destruct (0 <? _); [discriminate E | now injection E as <-]).
    exact (proj2 r200_none E x Hx HE).
  Qed.
End R200.
Lemma countarr_ok bins bin r : 0 <= bins -> countarr bins bin r = map (fun k => k + in_bin bin r k) (zseq 0 (Z.to_nat bins)).
Proof.
  intro Hb. destruct (bins_ok bins bin r (zseq 0 (Z.to_nat bins))) as [H1 H2]; [unfold zlen; rewrite zseq_length; lia|]. change (zlen (countarr bins bin r) = bins) in H1. change (forall k : Z, 0 <= k < bins -> nth (Z.to_nat k) (countarr bins bin r) 0 = nth (Z.to_nat k) (zseq 0 (Z.to_nat bins)) 0 + in_bin bin r k) in H2. apply (nth_ext _ _ 0 0).
  - rewrite map_length, zseq_length. unfold zlen in H1. lia.
  - intros n Hn. assert (n < Z.to_nat bins)%nat as Hn' by (unfold zlen in H1; lia). specialize (H2 (Z.of_nat n) ltac:(lia)). rewrite Nat2Z.id in H2. rewrite H2. symmetry. apply nth_error_nth. rewrite nth_error_map, nth_error_zseq by exact Hn'. cbn [option_map]. rewrite Z.add_0_l.
    f_equal. rewrite (nth_error_nth _ _ 0 (nth_error_zseq 0 (Z.to_nat bins) n Hn')). rewrite Z.add_0_l. reflexivity.
Qed.

(** *** positions *)
Lemma sq_pos (x : Q) : (0 <= x * x)%Q.
Proof. nra. Qed.
Lemma member_in files gids members p : members_are files gids members -> In p members -> In p (concat (cells files)).
Proof.
  intros H. induction H as [|gid q gids l [_ H] F IH]; [intros []|]. intros [<- | Hp]; [|now apply IH]. unfold cell_of in H. apply in_concat. exists (nth (Z.to_nat (hash_key gid)) (cells files) []). split; [|exact H].
  apply nth_In. destruct (Nat.lt_ge_cases (Z.to_nat (hash_key gid)) (List.length (cells files))) as [L|L]; [exact L|]. rewrite nth_overflow in H by exact L. destruct H.
Qed.
Lemma within_axis (d r r2 : Q) : (d * d <= r2)%Q -> (0 <= r)%Q -> (r2 <= r * r)%Q -> (- r <= d <= r)%Q.
Proof. intros H1 H2 H3. split; nra. Qed.
(** a particle of the group is in its sphere or on it *)
Lemma member_near value4 box members s pts centre rad rad2 : pts <> [] -> arranged value4 box members s pts -> sphere_of 25 s pts centre rad2 -> (0 <= rad)%Q -> (rad2 <= rad * rad)%Q -> exists p, In p members /\ near_point value4 box rad centre p.
Proof.
  intros Hne HA (ds0 & m & off & ds & _ & _ & _ & HD & [_ HL] & HS) H0 HR. destruct s as [[cx cy] cz], centre as [[ex ey] ez], off as [[ox oy] oz]. destruct HA as (sel & HP & _ & (X & _) & (Y & _) & (Z & _)).
  destruct pts as [|[[x y] z] pts]; [contradiction|]. inversion HD as [|? d ? ds' Hd HD']; subst. inversion HL as [|? ? Hd2 _]; subst. cbn [map fst snd] in X, Y, Z. destruct sel as [|p sel]; [inversion X|]. cbn [map] in X, Y, Z.
  inversion X as [|? ? ? ? (k1 & K1) _]; inversion Y as [|? ? ? ? (k2 & K2) _]; inversion Z as [|? ? ? ? (k3 & K3) _]; subst. exists p. split; [apply (Permutation_in _ (Permutation_sym HP)); now left|].
  destruct HS as (S1 & S2 & S3). cbn [minus norm2] in Hd. pose proof (sq_pos (x - ox)) as Q1. pose proof (sq_pos (y - oy)) as Q2. pose proof (sq_pos (z - oz)) as Q3.
  destruct (within_axis (x - ox) rad rad2 ltac:(lra) H0 HR) as [A1 A2]. destruct (within_axis (y - oy) rad rad2 ltac:(lra) H0 HR) as [B1 B2]. destruct (within_axis (z - oz) rad rad2 ltac:(lra) H0 HR) as [C1 C2].
  cbn. split; [exists k1; lra | split; [exists k2; lra | exists k3; lra]].
Qed.
Lemma apart_together value4 box least members s pts : (0 < box)%Q -> Forall (in_box value4 box) members -> apart value4 least members -> arranged value4 box members s pts -> not_together least pts.
Proof.
  intros Hb HI HA HR. destruct s as [[cx cy] cz]. destruct HR as (sel & HP & _ & (X & _) & (Y & _) & (Z & _)). intros l c HL HS.
  assert (forall (R1 R2 R3 : Q -> Q -> Prop) u v, Forall2 R1 (map (coordinate value4 0) u) (map (fun q : vec => fst (fst q)) v) -> Forall2 R2 (map (coordinate value4 1) u) (map (fun q : vec => snd (fst q)) v) ->
    Forall2 R3 (map (coordinate value4 2) u) (map (fun q : vec => snd q) v) -> Forall2 (fun q p => R1 (coordinate value4 0 p) (fst (fst q)) /\ R2 (coordinate value4 1 p) (snd (fst q)) /\ R3 (coordinate value4 2 p) (snd q)) v u) as K.
  { intros R1 R2 R3. induction u as [|a u IH]; intros [|b v] F1 F2 F3; cbn [map] in *; inversion F1; inversion F2; inversion F3; subst; constructor; [repeat split; assumption | now apply IH]. }
  pose proof (K _ _ _ sel pts X Y Z) as F. clear K X Y Z. apply (Permutation_Forall2 HL) in F as (sel' & HP' & F). apply Forall2_app_inv_l in F as (l' & c' & F1 & _ & ->).
  assert (Permutation members (l' ++ c')) as HM by (now transitivity sel). pose proof (Forall2_len _ _ _ F1) as EL. unfold zlen. rewrite EL. apply (HA l' c' HM).
  assert (Forall (in_box value4 box) l') as HI' by (apply (Permutation_Forall HM), Forall_app in HI; tauto). rewrite Forall_forall in HI'.
  assert (forall p, In p l' -> exists q, In q l /\ (exists k : Z, (fst (fst q) + cx == coordinate value4 0 p + inject_Z k * box)%Q) /\ (exists k : Z, (snd (fst q) + cy == coordinate value4 1 p + inject_Z k * box)%Q) /\ (exists k : Z, (snd q + cz == coordinate value4 2 p + inject_Z k * box)%Q)) as G.
  { clear - F1. induction F1 as [|q p l l' H F IH]; [intros p []|]. intros x [<- | Hx]; [exists q; split; [now left | exact H]|]. destruct (IH x Hx) as (q' & H1 & H2). exists q'. split; [now right | exact H2]. }
  assert (forall a b k1 k2 u, (0 <= a < box)%Q -> (0 <= b < box)%Q -> (u == a + inject_Z k1 * box)%Q -> (u == b + inject_Z k2 * box)%Q -> (a == b)%Q) as U.
  { assert (forall a b k1 k2 u, (0 <= a < box)%Q -> (0 <= b < box)%Q -> (u == a + inject_Z k1 * box)%Q -> (u == b + inject_Z k2 * box)%Q -> ~ k1 < k2) as L.
    { intros a b k1 k2 u Ha Hb' E1 E2 H. assert (inject_Z (k1 + 1) <= inject_Z k2)%Q as HL' by (rewrite <- Zle_Qle; lia). rewrite inject_Z_plus in HL'. change (inject_Z 1) with 1%Q in HL'.
      assert (0 <= (inject_Z k2 - inject_Z k1 - 1) * box)%Q by (apply Qmult_le_0_compat; lra). assert ((inject_Z k2 - inject_Z k1 - 1) * box == inject_Z k2 * box - inject_Z k1 * box - box)%Q by ring. lra. }
    intros a b k1 k2 u Ha Hb' E1 E2. assert (k1 = k2) as ->; [|lra]. pose proof (L a b k1 k2 u Ha Hb' E1 E2). pose proof (L b a k2 k1 u Hb' Ha E2 E1). lia. }
  rewrite Forall_forall in HS. intros p q k Hp Hq Hk. destruct (G p Hp) as (p' & Ip & (k1 & P1) & (k2 & P2) & (k3 & P3)), (G q Hq) as (q' & Iq & (m1 & Q1) & (m2 & Q2) & (m3 & Q3)).
  pose proof (HS p' Ip q' Iq) as HE. destruct p' as [[px py] pz], q' as [[qx qy] qz]. cbn [fst snd] in *. destruct HE as (E1 & E2 & E3).
  pose proof (HI' p Hp k Hk) as B1. pose proof (HI' q Hq k Hk) as B2.
  destruct k as [|[|[|k]]]; [apply (U _ _ k1 m1 (px + cx)%Q B1 B2 P1); rewrite E1; exact Q1 | apply (U _ _ k2 m2 (py + cy)%Q B1 B2 P2); rewrite E2; exact Q2 | apply (U _ _ k3 m3 (pz + cz)%Q B1 B2 P3); rewrite E3; exact Q3 | lia].
Qed.

(** *** spheres *)
Lemma relative_unique box s x d d' : (0 < box)%Q -> relative box s x d -> relative box s x d' -> (d == d')%Q.
Proof.
  intros Hb [H1 (k & E1)] [H2 (k' & E2)]. assert (k = k') as ->; [|lra]. destruct (Z.lt_trichotomy k k') as [C | [C | C]]; [exfalso | exact C | exfalso].
  - assert (inject_Z k + 1 <= inject_Z k')%Q by (change 1%Q with (inject_Z 1); rewrite <- inject_Z_plus, <- Zle_Qle; lia). nra.
  - assert (inject_Z k' + 1 <= inject_Z k)%Q by (change 1%Q with (inject_Z 1); rewrite <- inject_Z_plus, <- Zle_Qle; lia). nra.
Qed.
Lemma relative_point_unique value4 box s p d d' : (0 < box)%Q -> relative_point value4 box s p d -> relative_point value4 box s p d' -> (norm2 d == norm2 d')%Q.
Proof.
  destruct s as [[sx sy] sz], d as [[x y] z], d' as [[u v] w]. intros Hb (H1 & H2 & H3) (K1 & K2 & K3). cbn. rewrite (relative_unique box sx _ x u Hb H1 K1), (relative_unique box sy _ y v Hb H2 K2), (relative_unique box sz _ z w Hb H3 K3). reflexivity.
Qed.
(** a position in the sphere is near on all axes *)
Lemma near_axis box s x d rad rad2 : relative box s x d -> (d * d <= rad2)%Q -> (0 <= rad)%Q -> (rad2 <= rad * rad)%Q -> near box rad s x.
Proof. intros [_ (k & E)] H1 H2 H3. exists k. assert (x + inject_Z k * box - s == d)%Q as -> by lra. split; nra. Qed.
Lemma near_sphere value4 box s p d rad rad2 : relative_point value4 box s p d -> (norm2 d <= rad2)%Q -> (0 <= rad)%Q -> (rad2 <= rad * rad)%Q -> near_point value4 box rad s p.
Proof.
  destruct s as [[sx sy] sz], d as [[x y] z]. intros (H1 & H2 & H3) HN Hr Hr2. cbn in HN. pose proof (sq_pos x). pose proof (sq_pos y). pose proof (sq_pos z).
  split; [|split]; eapply near_axis; try eassumption; lra.
Qed.
Lemma concat_perm {A} (l m : list (list A)) : Permutation l m -> Permutation (concat l) (concat m).
Proof. induction 1; cbn [concat]; [reflexivity | now apply Permutation_app_head | rewrite !app_assoc; apply Permutation_app_tail, Permutation_app_comm | etransitivity; eassumption]. Qed.
Lemma all_cells files : concat (cells files) = concat (map (cell_of files) (zseq 0 (List.length (cells files)))).
Proof.
  f_equal. unfold cell_of. apply nth_error_ext. intro i. rewrite nth_error_map. destruct (Nat.lt_ge_cases i (List.length (cells files))) as [C|C].
  - rewrite nth_error_zseq by exact C. cbn [option_map]. rewrite Z.add_0_l, Nat2Z.id. now apply nth_error_nth'.
  - rewrite (proj2 (nth_error_None _ _) C). rewrite (proj2 (nth_error_None (zseq 0 _) i)) by now rewrite zseq_length. reflexivity.
Qed.
Lemma of_cells_split files sel : of_cells files sel -> exists rest, Permutation (concat (cells files)) (sel ++ rest).
Proof.
  intros (keys & HN & HF & ->). set (all := zseq 0 (List.length (cells files))). exists (concat (map (cell_of files) (filter (fun c => negb (existsb (Z.eqb c) keys)) all))).
  rewrite all_cells, <- concat_app, <- map_app. apply concat_perm, Permutation_map. fold all. rewrite (filter_split_perm (fun c => existsb (Z.eqb c) keys) all) at 1. apply Permutation_app_tail.
  apply NoDup_Permutation; [apply NoDup_filter, NoDup_zseq | exact HN|]. intro c. rewrite filter_In. split.
  - intros [_ H]. apply existsb_exists in H as (k & Hk & E). apply Z.eqb_eq in E. now subst k.
  - intro H. rewrite Forall_forall in HF. specialize (HF c H). split; [apply In_zseq; unfold zlen in HF; lia | apply existsb_exists; exists c; split; [exact H | apply Z.eqb_refl]].
Qed.
(** of the particles which are read, those in the sphere are all particles in the sphere *)
Lemma sphere_ok files value4 box s rad rad2 sel new : (0 < box)%Q -> different_ids files -> of_cells files sel -> (forall p, In p (concat (cells files)) -> near_point value4 box rad s p -> In p sel) ->
  (0 <= rad)%Q -> (rad2 <= rad * rad)%Q -> Forall2 (relative_point value4 box s) sel new -> in_sphere files value4 box s rad2 (filter (fun r2 => q_lt r2 rad2) (map r2_of new)).
Proof.
  intros Hb HD HC HN Hr Hr2 HR. destruct (of_cells_split files sel HC) as (rest & HP).
  assert (NoDup (sel ++ rest)) as ND by (eapply Permutation_NoDup; [exact HP | eapply NoDup_map_inv; exact HD]).
  assert (Forall (fun p => forall d, relative_point value4 box s p d -> (rad2 <= norm2 d)%Q) rest) as HF.
  { apply Forall_forall. intros p Hp d Hd. destruct (Qlt_le_dec (norm2 d) rad2) as [C|C]; [exfalso | exact C]. assert (In p sel) as Hs.
    - apply HN; [apply (Permutation_in _ (Permutation_sym HP)), in_app_iff; now right|]. eapply near_sphere; try eassumption. lra.
    - apply in_split in Hs as (a & b & ->). rewrite <- app_assoc in ND. cbn [app] in ND. apply NoDup_remove_2 in ND. apply ND. rewrite !in_app_iff. right. now right. }
  assert (exists sel1 rest1 new1, Permutation sel (sel1 ++ rest1) /\ Forall2 (relative_point value4 box s) sel1 new1 /\ filter (fun r2 => q_lt r2 rad2) (map r2_of new) = map norm2 new1 /\
    Forall (fun d => d < rad2)%Q (map norm2 new1) /\ Forall (fun p => forall d, relative_point value4 box s p d -> (rad2 <= norm2 d)%Q) rest1) as (sel1 & rest1 & new1 & P1 & P2 & P3 & P4 & P5).
  { clear HC HN HP ND HF. induction HR as [|p d sel new Hpd HR (sel1 & rest1 & new1 & P1 & P2 & P3 & P4 & P5)]; [exists [], [], []; repeat split; constructor|]. cbn [map filter]. change (r2_of d) with (norm2 d). destruct (q_lt (norm2 d) rad2) eqn:E.
    - apply q_lt_spec in E. exists (p :: sel1), rest1, (d :: new1). split; [cbn [app]; now constructor|]. split; [now constructor|]. split; [cbn [map]; now f_equal|]. split; [cbn [map]; now constructor | exact P5].
    - apply q_lt_false in E. exists sel1, (p :: rest1), new1. split; [rewrite <- Permutation_middle; now constructor|]. split; [exact P2|]. split; [exact P3|]. split; [exact P4|]. constructor; [|exact P5].
      intros d' Hd'. rewrite <- (relative_point_unique value4 box s p d d' Hb Hpd Hd'). exact E. }
  exists sel1, (rest1 ++ rest), new1. split; [rewrite HP, P1, app_assoc; reflexivity|]. split; [exact P2|]. split; [exact P3|]. split; [rewrite P3; exact P4|]. apply Forall_app. split; assumption.
Qed.

Section Program.
  Variable little : bool.
  Variable fs : str -> option (list Z).
  Variable qsort : forall A : Type, (A -> A -> Z) -> list A -> list A.
  Variable limit : Z.
  Variables basedir snapbase : str.
  Variable num : Z.
  Variable dir : str.
  Hypothesis Hdir : snapdir basedir num dir.
  Variable fuel : nat.
  Variables (nhash box : Z) (files : list (cellfile (list Z))).
  Hypothesis Hsnap : whole_snapshot little fs dir snapbase num nhash box files.
  Hypothesis Hfuel : (List.length files < fuel)%nat.
  Hypothesis Hlimit : nhash <= limit /\ zlen files <= limit.
  Variables value4 value8 : Z -> Q.
  Variable cats : list catalogue.
  Hypothesis Hsort : sorts qsort.
  Hypothesis Hcat : whole_catalogue little fs dir num cats.
  Hypothesis Hcfuel : (List.length cats < fuel)%nat.
  Hypothesis Hids : different_ids files.
  Hypothesis Hbox : (0 < value8 box)%Q.
  Let all := all_groups cats.
  Hypothesis Hall : 0 < zlen all <= limit.
  Hypothesis Hfuel2 : (2 <= fuel)%nat.
  Let B := value8 box.

  Lemma positions_ok least table g n t box0 group members : by_length cats table -> g_len g = map (fun t => fst (fst t)) table -> g_file g = map (fun t => snd (fst t)) table -> g_nr g = map snd table ->
    0 <= n -> nth_error table (Z.to_nat n) = Some group -> good_group little fs dir num files value4 B limit least group members -> holds files t -> exists cx cy cz pts ret,
    placed little fs dir num files value4 B table n (fst (fst group)) (cx, cy, cz) pts /\ arranged value4 B members (cx, cy, cz) pts /\ not_together least pts /\ pts <> [] /\ zlen pts <= limit /\ zlen pts < 2 ^ 31 /\
    group_positions little fs qsort limit basedir snapbase num fuel value4 value8 g nhash t box0 n = Ok (fst (fst group), {| c_ret := ret; c_file := Filetable t; c_pos := flat pts; c_centre := [cx; cy; cz]; c_box := B |}).
  Proof using All.
    intros [HP HS] E1 E2 E3 Hn EG HGG HH. destruct (dir_ok _ _ _ Hdir) as [Hnum ED]. destruct Hsnap as (Hne & HF & HC & HSn & H30 & Hh). unfold group_positions.
    assert (In group all) as HI by (apply (Permutation_in _ (Permutation_sym HP)), (nth_error_In _ _ EG)). pose proof (file_number cats group HI) as Hfi.
    rewrite (subscript_nth _ n (snd (fst group))) by (try lia; rewrite E2; now apply (map_nth_error (fun t => snd (fst t)))).
    rewrite (subscript_nth _ n (snd group)) by (try lia; rewrite E3; now apply map_nth_error). rewrite (subscript_nth _ n (fst (fst group))) by (try lia; rewrite E1; now apply (map_nth_error (fun t => fst (fst t)))). cbn [bind].
    destruct HGG as (gids & HM & Hg1 & Hg2 & HL & Hg3 & Hg4 & Hg5). destruct group as [[len filenr] nr]. destruct HM as (HM1 & HM2 & HM3). cbn [fst snd] in *.
    assert (0 < zlen gids) as Hpos by (destruct gids; [contradiction | rewrite zlen_cons; pose proof (zlen_nonneg gids); lia]).
    unfold new. replace (0 <? 3 * len) with true by lia. replace (3 * len <=? limit) with true by lia. cbn [check bind]. rewrite ED, long_small by lia. rewrite <- HM2.
    destruct (group_final little fs qsort dir snapbase num (zlen files) nhash box files t value4 value8 nr filenr gids members fuel (repeat 0%Q (Z.to_nat (3 * zlen gids))) [0%Q; 0%Q; 0%Q] box0) as (sel & nw & cx & cy & cz & EC & C1 & C2 & C3 & C4 & C5); try assumption; [rewrite zlen_zeros by lia; lia|].
    assert (zlen nw = zlen gids) as EN. { destruct C3 as [C3 _]. apply Forall2_len in C3. rewrite !map_length in C3. apply Permutation_length in C1. apply Forall2_len in HM3. unfold zlen. lia. }
    rewrite EC. cbn [bind]. rewrite skipn_all2 by (rewrite repeat_length; unfold zlen; lia). rewrite app_nil_r.
    assert (arranged value4 B members (cx, cy, cz) nw) as HAr by (exists sel; split; [exact C1|]; split; [exact C2|]; exact (conj C3 (conj C4 C5))).
    exists cx, cy, cz, nw, 0. split; [|split; [exact HAr | split; [exact (apart_together value4 B least members (cx, cy, cz) nw Hbox Hg4 Hg5 HAr) | split; [intros ->; unfold zlen in *; cbn in EN; lia | split; [lia | split; [lia | reflexivity]]]]]].
    exists (len, filenr, nr), gids, members. split; [exact EG|]. split; [exact HM2|]. split; [exact (conj HM1 (conj HM2 HM3)) | exact HAr].
  Qed.

  Lemma nonempty_map {A C} (f : A -> C) l : l <> [] -> map f l <> [].
  Proof using. clear. destruct l; [contradiction | discriminate]. Qed.
  Lemma around_nonempty pts c l : around pts c l -> pts <> [] -> l <> [].
  Proof using. clear. destruct 1; [contradiction | discriminate]. Qed.

  Lemma table_nth table n : by_length cats table -> (n < List.length all)%nat -> exists group, nth_error table n = Some group.
  Proof using. clear. intros [HP _] Hn. destruct (nth_error table n) as [x|] eqn:EX; [now exists x|]. apply nth_error_None in EX. apply Permutation_length in HP. fold all in HP. lia. Qed.
  Lemma show_ok : (forall table group, by_length cats table -> nth_error table 0 = Some group -> exists members, good_group little fs dir num files value4 B limit 15 group members) ->
    exists N, forall steps, (N <= steps)%nat -> exists table len s pts points, by_length cats table /\ placed little fs dir num files value4 B table 0 len s pts /\
      show_profile little fs qsort limit basedir snapbase num fuel value4 value8 steps = Ok points /\ profile_of 15 pts points.
  Proof using All.
    intro HT. destruct (load_ok little fs qsort limit basedir num dir Hdir fuel cats Hsort Hcat Hcfuel Hall) as (table & g & E & HB & E1 & E2 & E3). destruct (hash_ok little fs limit basedir snapbase num dir Hdir fuel nhash box files Hsnap Hfuel Hlimit) as (t & EH & HH).
    assert (exists group, nth_error table 0 = Some group) as [group EG] by (apply table_nth; [exact HB | unfold zlen in Hall; lia]). destruct (HT table group HB EG) as [members HM].
    destruct (positions_ok 15 table g 0 t 0%Q group members HB E1 E2 E3 ltac:(lia) EG HM HH) as (cx & cy & cz & pts & ret & HPl & _ & HN & Hne & HL1 & HL2 & EP). set (len := fst (fst group)) in *. destruct (shrink_total 15 pts ltac:(lia) HN) as (N & HN').
    exists N. intros steps Hs. exists table, len, (cx, cy, cz), pts. unfold show_profile. rewrite E. cbn [bind]. rewrite EH. cbn [bind fst]. rewrite EP. cbn [bind c_pos]. rewrite columns_flat.
    destruct (HN' steps (max_of (map r2_of pts)) pts origin Hs (Qle_refl _) (around_origin pts)) as ([l off] & EO). change (0, 0, 0)%Q with origin. rewrite EO. cbn [bind].
    destruct (shrink_ok 15 pts ltac:(lia) steps pts _ origin (l, off) (around_origin pts) EO) as [S1 S2]. cbn [fst snd] in S1, S2.
    pose proof (around_len _ _ _ S2) as HLen. destruct (plot_ok limit (map r2_of l)) as (points & EQ & HR); [unfold zlen in *; rewrite map_length; destruct pts; [contradiction | cbn [List.length] in *; lia] | unfold zlen in *; rewrite map_length; lia|].
    exists points. split; [exact HB|]. split; [exact HPl|]. split; [exact EQ|]. exists (map r2_of pts), (max_of (map r2_of pts)), off, (map r2_of l). split; [apply around_distances, around_origin|].
    split; [now apply max_largest, nonempty_map|]. split; [exact S1|]. split; [now apply around_distances | exact HR].
  Qed.

  Variable root : Q -> Q.
  Hypothesis Hroot : forall q, (0 <= q)%Q -> (0 <= root q /\ q <= root q * root q)%Q.
  Variable b : Z.
  Hypothesis Hb : 1 <= b <= 10.
  Hypothesis Hnhash : nhash = 8 ^ b.
  Hypothesis Hits : in_its_cell value4 B b files.
  Hypothesis Htotal : 3 * zlen (concat (cells files)) <= limit /\ 3 * zlen (concat (cells files)) < 2 ^ 31.
  (** what is needed of the groups which are shown; [W] is anything else which is known of their particles *)
  Variable W : Z -> list particle -> Prop.
  Variable ns : list Z.
  Hypothesis Hns : Forall (fun n => 0 <= n < zlen all) ns.
  Hypothesis Hgood : forall table n group, by_length cats table -> In n ns -> nth_error table (Z.to_nat n) = Some group -> exists members, good_group little fs dir num files value4 B limit 25 group members /\ W n members /\
    forall s pts centre rad2, arranged value4 B members s pts -> sphere_of 25 s pts centre rad2 -> point_in_box B centre /\ (root rad2 + cell_size B b < (1 # 2) * B)%Q.

  Lemma profile_ok table g n t box0 : by_length cats table -> g_len g = map (fun t => fst (fst t)) table -> g_file g = map (fun t => snd (fst t)) table -> g_nr g = map snd table ->
    In n ns -> holds files t -> exists N members, W n members /\ forall steps, (N <= steps)%nat -> exists len s pts centre rad2 ds, placed little fs dir num files value4 B table n len s pts /\ arranged value4 B members s pts /\ sphere_of 25 s pts centre rad2 /\
      in_sphere files value4 B centre rad2 ds /\ zlen ds <= limit /\ zlen ds < 2 ^ 31 /\
      profile little fs qsort limit basedir snapbase num fuel value4 value8 root steps g nhash t box0 n = if 0 <? zlen ds then
        Ok (n, len, centre, ds, {| Hashtable := Hashtable t; Filetable := Filetable t; LastHashCell := LastHashCell t; NInFiles := NInFiles t |}, B) else Err EIndex.
  Proof using All.
    intros HB E1 E2 E3 Hin HH. rewrite Forall_forall in Hns. destruct (table_nth table (Z.to_nat n) HB) as [group EG]; [specialize (Hns n Hin); unfold zlen in Hns; lia|].
    destruct (Hgood table n group HB Hin EG) as (members & HM & HW & Hspheres).
    destruct (positions_ok 25 table g n t box0 group members HB E1 E2 E3 (proj1 (Hns n Hin)) EG HM HH) as (cx & cy & cz & pts & ret & HPl & HAr & HN & Hne & HL1 & HL2 & EP). set (len := fst (fst group)) in *.
    destruct (shrink_total 25 pts ltac:(lia) HN) as (N & HN'). exists N, members. split; [exact HW|]. intros steps Hs. unfold profile. rewrite EP. cbn [bind c_file c_pos c_centre c_box]. rewrite columns_flat.
    destruct (HN' steps (max_of (map r2_of pts)) pts origin Hs (Qle_refl _) (around_origin pts)) as ([l off] & EO). change (0, 0, 0)%Q with origin. rewrite EO. cbn [bind].
    destruct (shrink_ok 25 pts ltac:(lia) steps pts _ origin (l, off) (around_origin pts) EO) as [S1 S2]. cbn [fst snd] in S1, S2. destruct off as [[ox oy] oz].
    change (subscript [cx; cy; cz] 0) with (Ok cx : res Q). change (subscript [cx; cy; cz] 1) with (Ok cy : res Q). change (subscript [cx; cy; cz] 2) with (Ok cz : res Q). cbn [bind].
    set (rad2 := max_of (map r2_of l)). set (centre := (cx + ox, cy + oy, cz + oz)%Q). assert (map r2_of l <> []) as Hne2 by (apply nonempty_map; eapply around_nonempty; eassumption). pose proof (max_in _ Hne2) as [HI _]. fold rad2 in HI.
    assert (sphere_of 25 (cx, cy, cz) pts centre rad2) as HSp.
    { exists (map r2_of pts), (max_of (map r2_of pts)), (ox, oy, oz), (map r2_of l). split; [apply around_distances, around_origin|]. split; [now apply max_largest, nonempty_map|]. split; [exact S1|]. split; [now apply around_distances|]. split; [now apply max_largest | apply same_refl]. }
    destruct (Hspheres (cx, cy, cz) pts centre rad2 HAr HSp) as (K1 & K2). assert (0 <= rad2)%Q as Hr0 by (apply in_map_iff in HI as (p & <- & _); exact (norm2_pos p)). destruct (Hroot rad2 Hr0) as [R1 R2].
    destruct (dir_ok _ _ _ Hdir) as [Hnum ED]. destruct Hsnap as (Hne' & HF & HC & HSn & H30 & Hh). rewrite Hnhash in HF, HC. rewrite long_small by lia. rewrite ED.
    set (t' := {| Hashtable := Hashtable t; Filetable := Filetable t; LastHashCell := LastHashCell t; NInFiles := NInFiles t |}). assert (holds files t') as HH' by exact HH.
    pose proof (fun pos bx => region_final little fs dir snapbase num (zlen files) b box files t' value4 value8 centre (root rad2) pos bx Hb Hnum HF HC HH' Hbox Hits K1 R1 K2) as RG. fold B in RG.
    assert (forall sel, of_cells files sel -> 3 * zlen sel <= limit /\ 3 * zlen sel < 2 ^ 31) as HZ.
    { intros sel0 HO. destruct (of_cells_split files sel0 HO) as (rest & HPm). apply Permutation_length in HPm. rewrite app_length in HPm. clear - HPm Htotal. unfold zlen in *. lia. }
    destruct (RG [] B) as (sel0 & D1 & _ & _ & D4 & _). specialize (HZ _ D1) as HZ0. specialize (D4 ltac:(lia)). change (fst (fst centre)) with (cx + ox)%Q in D4; change (snd (fst centre)) with (cy + oy)%Q in D4; change (snd centre) with (cz + oz)%Q in D4.
    destruct (RG (repeat 0%Q (Z.to_nat (3 * zlen sel0))) B) as (sel & C1 & C2 & C3 & C4 & C5). specialize (HZ _ C1). specialize (C4 ltac:(lia)). change (fst (fst centre)) with (cx + ox)%Q in C4; change (snd (fst centre)) with (cy + oy)%Q in C4; change (snd centre) with (cz + oz)%Q in C4. assert (zlen sel0 = zlen sel) as EZ by congruence.
    pose proof (zlen_nonneg sel0) as Hz0. specialize (C5 ltac:(lia)). rewrite zlen_zeros in C5 by lia. destruct (C5 ltac:(lia)) as (new & C6 & C7). change (fst (fst centre)) with (cx + ox)%Q in C7; change (snd (fst centre)) with (cy + oy)%Q in C7; change (snd centre) with (cz + oz)%Q in C7. rewrite Hnhash. rewrite D4. cbn [bind].
    pose proof (sphere_ok files value4 B centre (root rad2) rad2 sel new Hbox Hids C1 C2 R1 R2 C6) as HIS. set (ds := filter (fun r2 => q_lt r2 rad2) (map r2_of new)) in *.
    assert (0 < zlen sel) as Hds.
    { destruct (member_near value4 B members (cx, cy, cz) pts centre (root rad2) rad2 Hne HAr HSp R1 R2) as (p & Ip & Np). assert (In p sel) as Is; [|destruct sel; [destruct Is | rewrite zlen_cons; pose proof (zlen_nonneg sel); lia]].
      apply C2; [|exact Np]. destruct HM as (gids & HM1 & _). apply (member_in files gids members); [|exact Ip]. clear - HM1. destruct group as [[? ?] ?]. exact (proj2 (proj2 HM1)). }
    assert (zlen ds <= zlen sel) as Hds2. { unfold ds. etransitivity; [apply filter_len_le|]. unfold zlen. rewrite map_length. apply Forall2_len in C6. lia. }
    rewrite ulong_small by lia. unfold ProgModel.new. replace (0 <? 3 * zlen sel0) with true by lia. replace (3 * zlen sel0 <=? limit) with true by lia. cbn [check bind]. rewrite C7. cbn [bind snd].
    rewrite skipn_all2 by (rewrite repeat_length; unfold zlen in *; lia). rewrite app_nil_r, columns_flat. fold ds.
    exists len, (cx, cy, cz), pts, centre, rad2, ds. split; [exact HPl|]. split; [exact HAr|]. split; [exact HSp|]. split; [exact HIS|]. split; [lia|]. split; [lia|]. now destruct (0 <? zlen ds).
  Qed.
  Lemma profiles_ok table g : (forall n members s pts centre rad2, W n members -> arranged value4 B members s pts -> sphere_of 25 s pts centre rad2 -> ~ in_sphere files value4 B centre rad2 []) ->
    by_length cats table -> g_len g = map (fun t => fst (fst t)) table -> g_file g = map (fun t => snd (fst t)) table -> g_nr g = map snd table ->
    forall ms, incl ms ns -> forall t box0, holds files t -> exists N, forall steps, (N <= steps)%nat -> exists out,
      profiles little fs qsort limit basedir snapbase num fuel value4 value8 root steps g nhash t box0 ms = Ok out /\ Forall2 (profiled little fs dir num files value4 B table) ms out.
  Proof using All.
    intros HW HB E1 E2 E3. induction ms as [|n ms IH]; intros Hi t box0 HH; [exists 0%nat; intros steps _; exists []; split; [reflexivity | constructor]|].
    destruct (profile_ok table g n t box0 HB E1 E2 E3 (Hi n (or_introl eq_refl)) HH) as (N1 & members & HWm & H1). set (t' := {| Hashtable := Hashtable t; Filetable := Filetable t; LastHashCell := LastHashCell t; NInFiles := NInFiles t |}) in *.
    destruct (IH (fun m Hm => Hi m (or_intror Hm)) t' B HH) as (N2 & H2). exists (Nat.max N1 N2). intros steps Hs. destruct (H1 steps ltac:(lia)) as (len & s & pts & centre & rad2 & ds & P1 & PA & P2 & P3 & P4 & P5 & EP). destruct (H2 steps ltac:(lia)) as (out & EO & HO).
    assert (0 < zlen ds) as Hds by (destruct ds; [exfalso; exact (HW n members s pts centre rad2 HWm PA P2 P3) | rewrite zlen_cons; pose proof (zlen_nonneg ds); lia]). replace (0 <? zlen ds) with true in EP by lia.
    cbn [profiles]. rewrite EP. cbn [bind]. destruct (plot_ok limit ds (conj Hds P4) P5) as (points & EQ & HR). rewrite EQ. cbn [bind]. fold t'. rewrite EO. cbn [bind]. eexists. split; [reflexivity|]. constructor; [|exact HO].
    exists len, s, pts, centre, rad2, ds, points. split; [reflexivity|]. split; [exact P1|]. split; [exact P2|]. split; [exact P3 | exact HR].
  Qed.
  Lemma vmax_ok : ns = zseq 0 9 -> (forall n members s pts centre rad2, W n members -> arranged value4 B members s pts -> sphere_of 25 s pts centre rad2 -> ~ in_sphere files value4 B centre rad2 []) ->
    exists N, forall steps, (N <= steps)%nat -> exists table out, by_length cats table /\
    plot_profile_vmax little fs qsort limit basedir snapbase num fuel value4 value8 root steps = Ok out /\ Forall2 (profiled little fs dir num files value4 B table) (zseq 0 9) out.
  Proof using All.
    intros En HW. destruct (load_ok little fs qsort limit basedir num dir Hdir fuel cats Hsort Hcat Hcfuel Hall) as (table & g & E & HB & E1 & E2 & E3). destruct (hash_ok little fs limit basedir snapbase num dir Hdir fuel nhash box files Hsnap Hfuel Hlimit) as (t & EH & HH).
    destruct (profiles_ok table g HW HB E1 E2 E3 (zseq 0 9) ltac:(rewrite <- En; apply incl_refl) t 0%Q HH) as (N & HN). exists N. intros steps Hs. destruct (HN steps Hs) as (out & EO & HO). exists table, out. split; [exact HB|]. split; [|exact HO].
    unfold plot_profile_vmax. rewrite E. cbn [bind]. rewrite EH. cbn [bind fst]. exact EO.
  Qed.
  Lemma sphere_none centre rad2 ds : in_sphere files value4 B centre rad2 ds -> in_sphere files value4 B centre rad2 [] -> ds = [].
  Proof using All.
    intros (sel & rest & new & P1 & F1 & E1 & L1 & _) (sel' & rest' & new' & P2 & F2 & E2 & _ & G2). symmetry in E2. apply map_eq_nil in E2. subst new'. inversion F2; subst sel'. cbn [app] in P2.
    destruct F1 as [|p d sel new H F]; [exact E1|]. exfalso. subst ds. cbn [map] in L1. inversion L1; subst. rewrite Forall_forall in G2. assert (In p rest') as Ip by (apply (Permutation_in _ P2), (Permutation_in _ (Permutation_sym P1)); now left).
    specialize (G2 p Ip d H). lra.
  Qed.
  (** an empty sphere *)
  Lemma vmax_none : ns = [0] -> (forall members s pts centre rad2, W 0 members -> arranged value4 B members s pts -> sphere_of 25 s pts centre rad2 -> in_sphere files value4 B centre rad2 []) ->
    exists N, forall steps, (N <= steps)%nat -> plot_profile_vmax little fs qsort limit basedir snapbase num fuel value4 value8 root steps = Err EIndex.
  Proof using All.
    intros En HW. destruct (load_ok little fs qsort limit basedir num dir Hdir fuel cats Hsort Hcat Hcfuel Hall) as (table & g & E & HB & E1 & E2 & E3). destruct (hash_ok little fs limit basedir snapbase num dir Hdir fuel nhash box files Hsnap Hfuel Hlimit) as (t & EH & HH).
    destruct (profile_ok table g 0 t 0%Q HB E1 E2 E3 ltac:(rewrite En; now left) HH) as (N & members & HWm & H1). exists N. intros steps Hs. destruct (H1 steps Hs) as (len & s & pts & centre & rad2 & ds & P1 & PA & P2 & P3 & P4 & P5 & EP).
    assert (ds = []) as -> by (apply (sphere_none centre rad2 ds P3), (HW members s pts centre rad2 HWm PA P2)). change (0 <? zlen (@nil Q)) with false in EP. cbn iota in EP.
    unfold plot_profile_vmax. rewrite E. cbn [bind]. rewrite EH. cbn [bind fst]. change (zseq 0 9) with (0 :: zseq 1 8). cbn [profiles]. rewrite EP. reflexivity.
  Qed.
End Program.
Lemma vmax_prog little fs qsort limit basedir snapbase num dir fuel box files value4 value8 cats root b (nhash := 8 ^ b) (B := value8 box) : snapdir basedir num dir -> whole_snapshot little fs dir snapbase num nhash box files -> (List.length files < fuel)%nat ->
  nhash <= limit /\ zlen files <= limit -> sorts qsort -> whole_catalogue little fs dir num cats -> (List.length cats < fuel)%nat -> different_ids files -> (0 < B)%Q -> 9 <= zlen (all_groups cats) <= limit -> (2 <= fuel)%nat ->
  (forall q, (0 <= q)%Q -> (0 <= root q /\ q <= root q * root q)%Q) -> 1 <= b <= 10 -> in_its_cell value4 B b files -> 3 * zlen (concat (cells files)) <= limit /\ 3 * zlen (concat (cells files)) < 2 ^ 31 ->
  (forall table n group, by_length cats table -> 0 <= n < 9 -> nth_error table (Z.to_nat n) = Some group -> exists members, good_group little fs dir num files value4 B limit 25 group members /\
    forall s pts centre rad2, arranged value4 B members s pts -> sphere_of 25 s pts centre rad2 -> point_in_box B centre /\ (root rad2 + cell_size B b < (1 # 2) * B)%Q /\ ~ in_sphere files value4 B centre rad2 []) ->
  exists N, forall steps, (N <= steps)%nat -> exists table out, by_length cats table /\
    plot_profile_vmax little fs qsort limit basedir snapbase num fuel value4 value8 root steps = Ok out /\ Forall2 (profiled little fs dir num files value4 B table) [0; 1; 2; 3; 4; 5; 6; 7; 8] out.
Proof.
  intros Hd Hs Hf Hl Ht Hc Hcf Hi Hb Ha Hf2 Hroot Hbb Hits Htot HG. refine (vmax_ok little fs qsort limit basedir snapbase num dir Hd fuel nhash box files Hs Hf Hl value4 value8 cats Ht Hc Hcf Hi Hb ltac:(lia) Hf2 root Hroot b Hbb eq_refl Hits Htot
    (fun _ members => forall s pts centre rad2, arranged value4 B members s pts -> sphere_of 25 s pts centre rad2 -> ~ in_sphere files value4 B centre rad2 []) (zseq 0 9) _ _ eq_refl (fun _ members s pts centre rad2 H => H s pts centre rad2)).
  - apply Forall_forall. intros n Hn. apply In_zseq in Hn. lia.
  - intros table n group HB Hn HE. apply In_zseq in Hn. destruct (HG table n group HB ltac:(lia) HE) as (members & HM & HS). exists members. split; [exact HM|]. split; intros s pts centre rad2 A S; destruct (HS s pts centre rad2 A S) as (K1 & K2 & K3); [exact K3 | split; assumption].
Qed.
Lemma none_prog little fs qsort limit basedir snapbase num dir fuel box files value4 value8 cats root b (nhash := 8 ^ b) (B := value8 box) : snapdir basedir num dir -> whole_snapshot little fs dir snapbase num nhash box files -> (List.length files < fuel)%nat ->
  nhash <= limit /\ zlen files <= limit -> sorts qsort -> whole_catalogue little fs dir num cats -> (List.length cats < fuel)%nat -> different_ids files -> (0 < B)%Q -> 0 < zlen (all_groups cats) <= limit -> (2 <= fuel)%nat ->
  (forall q, (0 <= q)%Q -> (0 <= root q /\ q <= root q * root q)%Q) -> 1 <= b <= 10 -> in_its_cell value4 B b files -> 3 * zlen (concat (cells files)) <= limit /\ 3 * zlen (concat (cells files)) < 2 ^ 31 ->
  (forall table group, by_length cats table -> nth_error table 0 = Some group -> exists members, good_group little fs dir num files value4 B limit 25 group members /\
    forall s pts centre rad2, arranged value4 B members s pts -> sphere_of 25 s pts centre rad2 -> point_in_box B centre /\ (root rad2 + cell_size B b < (1 # 2) * B)%Q /\ in_sphere files value4 B centre rad2 []) ->
  exists N, forall steps, (N <= steps)%nat -> plot_profile_vmax little fs qsort limit basedir snapbase num fuel value4 value8 root steps = Err EIndex.
Proof.
  intros Hd Hs Hf Hl Ht Hc Hcf Hi Hb Ha Hf2 Hroot Hbb Hits Htot HG. refine (vmax_none little fs qsort limit basedir snapbase num dir Hd fuel nhash box files Hs Hf Hl value4 value8 cats Ht Hc Hcf Hi Hb Ha Hf2 root Hroot b Hbb eq_refl Hits Htot
    (fun _ members => forall s pts centre rad2, arranged value4 B members s pts -> sphere_of 25 s pts centre rad2 -> in_sphere files value4 B centre rad2 []) [0] _ _ eq_refl (fun members s pts centre rad2 H => H s pts centre rad2)).
  - constructor; [lia | constructor].
  - intros table n group HB [<- | []] HE. destruct (HG table group HB HE) as (members & HM & HS). exists members. split; [exact HM|]. split; intros s pts centre rad2 A S; destruct (HS s pts centre rad2 A S) as (K1 & K2 & K3); [exact K3 | split; assumption].
Qed.
