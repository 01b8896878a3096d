(** plot_profile_dens: R200 and the loop over groups: proofs (C110). *)
From Coq Require Import Reals QArith Qreals Lra.
From Coq Require Import Ascii String.
From Coq Require Import Sorting.Permutation Sorting.Sorted.
From Verif Require Import Base.Prelude Base.ListLemmas Base.Order Binary.BinModel Formats.FileSpec Formats.CatSpec.
From Verif Require Import Text.StrModel Text.StrSpec Text.PathSpec Text.PathProofs Snap.ReadSpec Fortran.RegionSpec Fortran.GroupTabSpec Fortran.FofSpec.
From Verif Require Import Idl.LibModel Idl.LibSpec Idl.SnapSpec Idl.GroupSpec Idl.HashFinal Idl.GroupFinal Idl.SphereSpec Idl.SphereFinal Idl.ProgSpec Idl.ProgModel Idl.ProgProofs Idl.ProgFinal Idl.ProfSpec Idl.ProfModel Idl.ProfProofs Idl.ProfFinal.
From Verif Require Import Idl.NfwModel Idl.NfwSpec Idl.NfwFinal Idl.DensModel Idl.DensSpec Fortran.GroupTabModel Pro.ProModel Pro.ProSpec Pro.NameProofs.
From Verif Require Pro.SingleProofs.
From Coq Require Import ZifyBool ZifyNat.
Local Open Scope R_scope. Local Open Scope list_scope.

(** *** R200 *)
Definition leb (x y : R) : bool := if Rle_dec y x then true else false.
Definition cnt (l : list R) (x : R) : Z := zlen (filter (leb x) l).
Lemma leb_true x y : leb x y = true <-> y <= x.
Proof. unfold leb. destruct (Rle_dec y x); split; intro; (assumption || reflexivity || discriminate || contradiction). Qed.
Lemma cnt_number l x : number_with (fun y => y <= x) l (cnt l x).
Proof.
  unfold cnt. induction l as [|y l IH]; [constructor|]. cbn [filter]. destruct (leb x y) eqn:E.
  - rewrite zlen_cons. rewrite Z.add_comm. apply one_with; [now apply leb_true|exact IH].
  - apply not_with; [|exact IH]. intro H. apply leb_true in H. congruence.
Qed.
Lemma cnt_perm l l' x : Permutation l l' -> cnt l x = cnt l' x.
Proof. intro H. unfold cnt, zlen. f_equal. apply Permutation_length. induction H; cbn; [constructor|destruct (leb x x0); auto|destruct (leb x y), (leb x x0); auto; constructor|etransitivity; eassumption]. Qed.
Lemma rank_ge a x b : StronglySorted Rle (a ++ x :: b) -> (zlen a + 1 <= cnt (a ++ x :: b) x)%Z.
Proof.
  unfold cnt. induction a as [|y a IH]; intro H.
  - cbn [app filter]. rewrite (proj2 (leb_true x x)) by lra. rewrite zlen_cons. change (zlen (@nil R)) with 0%Z. pose proof (zlen_nonneg (filter (leb x) b)). lia.
  - cbn [app] in *. inversion H; subst. rewrite Forall_forall in H3. assert (y <= x) by (apply H3; apply in_app_iff; right; now left). cbn [filter]. rewrite (proj2 (leb_true x y)) by assumption. rewrite !zlen_cons. specialize (IH H2). lia.
Qed.
Lemma rank_last l x : StronglySorted Rle l -> In x l -> exists a b, l = a ++ x :: b /\ (zlen a + 1 = cnt l x)%Z.
Proof.
  unfold cnt. induction 1 as [|y l Hl IH HF]; intro Hin; [destruct Hin|]. rewrite Forall_forall in HF. cbn [filter].
  destruct (in_dec Req_EM_T x l) as [Hx|Hx].
  - destruct (IH Hx) as (a & b & E & EN). exists (y :: a), b. split; [cbn [app]; now rewrite <- E|]. rewrite (proj2 (leb_true x y)) by (now apply HF). rewrite !zlen_cons. lia.
  - destruct Hin as [->|Hin]; [|contradiction]. exists [], l. split; [reflexivity|]. rewrite (proj2 (leb_true x x)) by lra. rewrite zlen_cons.
    assert (filter (leb x) l = []) as ->; [|reflexivity]. destruct (filter (leb x) l) as [|z zs] eqn:E; [reflexivity|exfalso]. assert (In z (filter (leb x) l)) as Hz by (rewrite E; now left). apply filter_In in Hz as [Hz1 Hz2]. apply leb_true in Hz2. pose proof (HF z Hz1). assert (z = x) by lra. subst z. contradiction.
Qed.
Lemma In_ranks (f : Z -> R) (l : list R) : forall s m x, In (m, x) (combine (map f (zseq s (List.length l))) l) <-> exists a b, l = a ++ x :: b /\ m = f (s + zlen a)%Z.
Proof.
  induction l as [|y l IH]; intros s m x.
  - split; [intros []|]. intros (a & b & E & _). destruct a; discriminate.
  - cbn [List.length zseq map combine]. split.
    + intros [E|H].
      * injection E as <- <-. exists [], l. split; [reflexivity|]. change (zlen (@nil R)) with 0%Z. now rewrite Z.add_0_r.
      * apply IH in H as (a & b & -> & ->). exists (y :: a), b. split; [reflexivity|]. rewrite zlen_cons. f_equal. lia.
    + intros ([|z a] & b & E & ->).
      * injection E as -> ->. left. change (zlen (@nil R)) with 0%Z. now rewrite Z.add_0_r.
      * injection E as -> ->. right. apply IH. exists a, b. split; [reflexivity|]. rewrite zlen_cons. f_equal. lia.
Qed.
Lemma rmax_ok l : l <> [] -> In (rmax l) l /\ forall y, In y l -> y <= rmax l.
Proof.
  assert (H : forall l x, (fold_left Rmax l x = x \/ In (fold_left Rmax l x) l) /\ x <= fold_left Rmax l x /\ forall y, In y l -> y <= fold_left Rmax l x).
  { clear l. induction l as [|z l IH]; intro x; cbn [fold_left].
    - split; [now left|]. split; [lra|intros y []].
    - destruct (IH (Rmax x z)) as (I1 & I2 & I3). pose proof (Rmax_l x z). pose proof (Rmax_r x z). split; [|split; [lra|]].
      + destruct I1 as [I1|I1]; [|right; now right]. rewrite I1. unfold Rmax. destruct (Rle_dec x z); [right; now left|now left].
      + intros y [<-|Hy]; [lra|now apply I3]. }
  destruct l as [|x l]; [congruence|]. intros _. cbn [rmax]. destruct (H l x) as (I1 & I2 & I3). split; [destruct I1 as [->|I1]; [now left|now right]|]. intros y [<-|Hy]; [exact I2|now apply I3].
Qed.
Lemma radius_mono time a b : 0 <= time -> (a <= b)%Q -> radius time a <= radius time b.
Proof. intros Ht H. unfold radius. apply Rmult_le_compat_r; [exact Ht|]. apply sqrt_le_1_alt. now apply Qle_Rle. Qed.
Lemma radii_sorted time r2 : 0 <= time -> StronglySorted Rle (map (radius time) (sorted r2)).
Proof.
  intro Ht. pose proof (sorted_sorted r2) as H. induction H as [|q l H IH HF]; cbn [map]; constructor; [exact IH|]. apply Forall_forall. intros y Hy. apply in_map_iff in Hy as (q' & <- & Hq). rewrite Forall_forall in HF. apply radius_mono; [exact Ht|now apply HF].
Qed.
Lemma delta_iff m r d : 0 <= r -> 0 <= m -> delta_ge m r d = true <-> d * (4 / 3 * PI * r ^ 3) <= m.
Proof.
  intros Hr Hm. pose proof PI_RGT_0. unfold delta_ge, c. destruct (Req_EM_T r 0) as [->|Hn].
  - unfold odiv. destruct (Req_EM_T (4 * PI / 3 * 0 ^ 3) 0) as [_|C]; [|exfalso; apply C; ring]. split; [intros _|reflexivity]. replace (d * (4 / 3 * PI * 0 ^ 3)) with 0 by ring. exact Hm.
  - assert (0 < r ^ 3) as P by (apply pow_lt; lra). assert (0 < 4 * PI / 3 * r ^ 3) as V by nra. rewrite odiv_some by lra. replace (4 / 3 * PI * r ^ 3) with (4 * PI / 3 * r ^ 3) by field. set (v := 4 * PI / 3 * r ^ 3) in *.
    assert (m / v * v = m) as E by (field; lra). destruct (Rle_dec d (m / v)) as [L|L]; split; intro K; try reflexivity; try discriminate.
    + apply (Rmult_le_compat_r v) in L; lra.
    + exfalso. apply L. apply (Rmult_le_reg_r v); lra.
Qed.
Section R200.
  Variables (m time : R) (r2 : list Q).
  Hypothesis (Hm : 0 <= m) (Ht : 0 < time).
  Let rs := map (radius time) r2.
  Let srt := map (radius time) (sorted r2).
  Let ind := filter (fun '(m, r) => delta_ge m r (200 * RhoCrit time)) (combine (map (fun i => m * IZR i) (zseq 1 (List.length srt))) srt).
  Lemma radii_perm : Permutation rs srt.
  Proof using All. apply Permutation_map, sorted_perm. Qed.
  Lemma srt_nonneg x : In x srt -> 0 <= x.
  Proof using All. intro H. apply in_map_iff in H as (q & <- & _). apply radius_nonneg. lra. Qed.
  Lemma over_cnt x : over_200 m time rs x <-> 200 * critical time * (4 / 3 * PI * x ^ 3) <= m * IZR (cnt srt x).
  Proof using All.
    rewrite <- (cnt_perm rs srt x radii_perm). split.
    - intros (n & Hn & H). rewrite (number_unique _ _ _ _ (cnt_number rs x) Hn). exact H.
    - intro H. exists (cnt rs x). split; [apply cnt_number|exact H].
  Qed.
  Lemma ind_over m' x : In (m', x) ind -> In x rs /\ over_200 m time rs x.
  Proof using All.
    intro H. apply filter_In in H as [H HB]. apply In_ranks in H as (a & b & E & ->). assert (In x srt) as Hx by (rewrite E; apply in_app_iff; right; now left).
    split; [exact (Permutation_in _ (Permutation_sym radii_perm) Hx)|]. apply over_cnt. assert (0 <= IZR (1 + zlen a)) as Hz by (apply IZR_le; pose proof (zlen_nonneg a); lia).
    apply delta_iff in HB; [|now apply srt_nonneg|now apply Rmult_le_pos]. rewrite crit_ok in HB by exact Ht. eapply Rle_trans; [exact HB|]. apply Rmult_le_compat_l; [exact Hm|]. apply IZR_le.
    pose proof (rank_ge a x b) as RG. rewrite <- E in RG. specialize (RG (radii_sorted time r2 ltac:(lra))). lia.
  Qed.
  Lemma over_ind x : In x rs -> over_200 m time rs x -> exists m', In (m', x) ind.
  Proof using All.
    intros Hx HO. apply over_cnt in HO. apply (Permutation_in _ radii_perm) in Hx. destruct (rank_last srt x (radii_sorted time r2 ltac:(lra)) Hx) as (a & b & E & EN). exists (m * IZR (1 + zlen a)). apply filter_In. split; [apply In_ranks; exists a, b; split; [exact E|reflexivity]|].
    apply delta_iff; [now apply srt_nonneg|apply Rmult_le_pos; [exact Hm|apply IZR_le; pose proof (zlen_nonneg a); lia]|]. rewrite crit_ok by exact Ht. rewrite Z.add_comm, EN. exact HO.
  Qed.
  Lemma R200_eq : R200 m time r2 = if (0 <? zlen ind)%Z then Ok (rmax (map snd ind)) else Err EIndex.
  Proof using All. unfold R200. fold srt. fold ind. destruct (0 <? zlen ind)%Z; reflexivity. Qed.
  Lemma R200_ok x : R200 m time r2 = Ok x <-> is_r200 m time rs x.
  Proof using All.
    rewrite R200_eq. assert (F : ind <> [] -> is_r200 m time rs (rmax (map snd ind))).
    { intro Hn. destruct (rmax_ok (map snd ind)) as [M1 M2]; [destruct ind; [congruence|discriminate]|]. apply in_map_iff in M1 as ([m' y] & E & Hi). cbn [snd] in E. rewrite <- E in *. destruct (ind_over m' y Hi) as [I1 I2]. split; [exact I1|]. split; [exact I2|].
      intros z Hz HO. destruct (over_ind z Hz HO) as (m'' & Hi'). apply M2. apply in_map_iff. exists (m'', z). auto. }
    split.
    - destruct (0 <? zlen ind)%Z eqn:E; [|discriminate]. intro EQ. injection EQ as <-. apply F. intro C. rewrite C in E. discriminate.
    - intros (H1 & H2 & H3). destruct (over_ind x H1 H2) as (m' & Hi). assert (ind <> []) as Hn by (intro C; rewrite C in Hi; destruct Hi). destruct (F Hn) as (G1 & G2 & G3).
      replace (0 <? zlen ind)%Z with true by (destruct ind; [congruence|rewrite zlen_cons; pose proof (zlen_nonneg l); lia]). f_equal. apply Rle_antisym; [now apply H3|now apply G3].
  Qed.
  Lemma R200_none : R200 m time r2 = Err EIndex <-> forall x, In x rs -> ~ over_200 m time rs x.
  Proof using All.
    rewrite R200_eq. split.
    - destruct (0 <? zlen ind)%Z eqn:E; [discriminate|]. intros _ x Hx HO. destruct (over_ind x Hx HO) as (m' & Hi). destruct ind as [|y l]; [destruct Hi|]. rewrite zlen_cons in E. pose proof (zlen_nonneg l). lia.
    - intro H. destruct (0 <? zlen ind)%Z eqn:E; [|reflexivity]. exfalso. destruct ind as [|[m' y] l] eqn:EI; [discriminate|]. destruct (ind_over m' y) as [I1 I2]; [fold ind; rewrite EI; now left|]. exact (H y I1 I2).
  Qed.
End R200.
Lemma M200_ok time x : 0 < time -> M200 time x = 200 * critical time * (4 / 3 * PI * x ^ 3).
Proof. intro H. unfold M200. rewrite crit_ok by exact H. field. Qed.

(** *** the program *)
Local Open Scope Z_scope.
Definition shown (partmass time : R) (newton_steps : nat) (r : Z * Z * (Q * Q * Q) * list Q) : res (Z * Z * (Q * Q * Q) * (R * R * list R * (num * num))) :=
  let '(n, len, centre, ds) := r in do d <- dens partmass time ds newton_steps; Ok (n, len, centre, d).
Lemma dens_prog little fs qsort lim basedir snapbase num dir fuel box files value4 value8 cats root b (nhash := 8 ^ b) (B := value8 box) : snapdir basedir num dir -> whole_snapshot little fs dir snapbase num nhash box files -> (List.length files < fuel)%nat ->
  nhash <= lim /\ zlen files <= lim -> sorts qsort -> whole_catalogue little fs dir num cats -> (List.length cats < fuel)%nat -> different_ids files -> (0 < B)%Q -> 109 <= zlen (all_groups cats) <= lim -> (2 <= fuel)%nat ->
  (forall q, (0 <= q)%Q -> (0 <= root q /\ q <= root q * root q)%Q) -> 1 <= b <= 10 -> in_its_cell value4 B b files -> 3 * zlen (concat (cells files)) <= lim /\ 3 * zlen (concat (cells files)) < 2 ^ 31 ->
  (forall table n group, by_length cats table -> 100 <= n < 109 -> nth_error table (Z.to_nat n) = Some group -> exists members, good_group little fs dir num files value4 B lim 25 group members /\
    forall s pts centre rad2, arranged value4 B members s pts -> sphere_of 25 s pts centre rad2 -> point_in_box B centre /\ (root rad2 + cell_size B b < (1 # 2) * B)%Q /\ ~ in_sphere files value4 B centre rad2 []) ->
  exists N, forall steps, (N <= steps)%nat -> exists table groups, by_length cats table /\ Forall2 (spherical little fs dir num files value4 B table) (zseq 100 9) groups /\
    forall newton_steps partmass time, plot_profile_dens little fs qsort lim basedir snapbase num fuel value4 value8 root steps newton_steps partmass time = mapM (shown partmass time newton_steps) groups.
Proof.
  intros Hd Hs Hf Hl Ht Hc Hcf Hi Hb Ha Hf2 Hroot Hbb Hits Htot HG.
  set (W := fun (_ : Z) members => forall s pts centre rad2, arranged value4 B members s pts -> sphere_of 25 s pts centre rad2 -> ~ in_sphere files value4 B centre rad2 []).
  assert (Hns : Forall (fun n => 0 <= n < zlen (all_groups cats)) (zseq 100 9)) by (apply Forall_forall; intros n Hn; apply In_zseq in Hn; lia).
  assert (Hgood : forall table n group, by_length cats table -> In n (zseq 100 9) -> nth_error table (Z.to_nat n) = Some group -> exists members, good_group little fs dir num files value4 B lim 25 group members /\ W n members /\
    forall s pts centre rad2, arranged value4 B members s pts -> sphere_of 25 s pts centre rad2 -> point_in_box B centre /\ (root rad2 + cell_size B b < (1 # 2) * B)%Q).
  { intros table n group HB Hn HE. apply In_zseq in Hn. destruct (HG table n group HB ltac:(lia) HE) as (members & HM & HS). exists members. split; [exact HM|]. split; intros s pts centre rad2 A S; destruct (HS s pts centre rad2 A S) as (K1 & K2 & K3); [exact K3 | split; assumption]. }
  assert (HA0 : 0 < zlen (all_groups cats) <= lim) by lia.
  destruct (load_ok little fs qsort lim basedir num dir Hd fuel cats Ht Hc Hcf HA0) as (table & g & E & HB & E1 & E2 & E3). destruct (hash_ok little fs lim basedir snapbase num dir Hd fuel nhash box files Hs Hf Hl) as (t & EH & HH).
  assert (L : forall ms, incl ms (zseq 100 9) -> forall t box0, holds files t -> exists N, forall steps, (N <= steps)%nat -> exists groups, Forall2 (spherical little fs dir num files value4 B table) ms groups /\
    forall newton_steps partmass time, dens_loop little fs qsort lim basedir snapbase num fuel value4 value8 root steps newton_steps partmass time g nhash t box0 ms = mapM (shown partmass time newton_steps) groups).
  { clear t EH HH. induction ms as [|n ms IH]; intros Hin t box0 HH; [exists 0%nat; intros steps _; exists []; split; [constructor|reflexivity]|].
    destruct (profile_ok little fs qsort lim basedir snapbase num dir Hd fuel nhash box files Hs Hf Hl value4 value8 cats Ht Hc Hcf Hi Hb HA0 Hf2 root Hroot b Hbb eq_refl Hits Htot W (zseq 100 9) Hns Hgood table g n t box0 HB E1 E2 E3 (Hin n (or_introl eq_refl)) HH) as (N1 & members & HWm & H1).
    set (t' := {| Hashtable := Hashtable t; Filetable := Filetable t; LastHashCell := LastHashCell t; NInFiles := NInFiles t |}) in *.
    destruct (IH (fun m Hm => Hin m (or_intror Hm)) t' B HH) as (N2 & H2). exists (Nat.max N1 N2). intros steps Hst. destruct (H1 steps ltac:(lia)) as (len & s & pts & centre & rad2 & ds & P1 & PA & P2 & P3 & P4 & P5 & EP). destruct (H2 steps ltac:(lia)) as (out & HO & EO).
    assert (0 < zlen ds) as Hds by (destruct ds; [exfalso; exact (HWm s pts centre rad2 PA P2 P3) | rewrite zlen_cons; pose proof (zlen_nonneg ds); lia]). replace (0 <? zlen ds) with true in EP by lia.
    exists ((n, len, centre, ds) :: out). split; [constructor; [|exact HO]; exists len, s, pts, centre, rad2, ds; auto|]. intros newton_steps partmass time. cbn [dens_loop]. rewrite EP. cbn [bind mapM shown]. destruct (dens partmass time ds newton_steps) as [d|e]; cbn [bind]; [|reflexivity]. fold t'. rewrite EO. reflexivity. }
  destruct (L (zseq 100 9) (incl_refl _) t 0%Q HH) as (N & HN). exists N. intros steps Hst. destruct (HN steps Hst) as (groups & HF & EO). exists table, groups. split; [exact HB|]. split; [exact HF|]. intros newton_steps partmass time. unfold plot_profile_dens. rewrite E. cbn [bind]. rewrite EH. cbn [bind fst]. apply EO.
Qed.
Lemma dens_ok m time r2 steps : (0 <= m)%R -> (0 < time)%R -> dens m time r2 steps =
  do r200 <- R200 m time r2; do fit <- nfw_fit (fit_bins time (rho_bins m time r2)) steps; Ok (r200, (200 * critical time * (4 / 3 * PI * r200 ^ 3))%R, rho_bins m time r2, fit).
Proof. intros Hm Ht. unfold dens. destruct (R200 m time r2) as [x|e]; [|reflexivity]. cbn [bind]. now rewrite M200_ok. Qed.
(** *** what is shown of a group *)
Local Open Scope R_scope.
Lemma number_map {A B} (f : A -> B) (P : B -> Prop) l n : number_with P (map f l) n <-> number_with (fun x => P (f x)) l n.
Proof.
  split.
  - revert n. induction l as [|x l IH]; intros n H; cbn [map] in H; inversion H; subst; [constructor|apply one_with; auto|apply not_with; auto].
  - induction 1; cbn [map]; [constructor|apply one_with; auto|apply not_with; auto].
Qed.
Lemma shells_are m time r2 : 0 < time -> shell_densities m (radii time r2) (rho_bins m time r2).
Proof.
  intro Ht. split; [rewrite rho_map; unfold zlen; rewrite map_length, zseq_length; reflexivity|]. intros k n Hk H. apply density_ok; [lra|exact Hk|]. exact (proj1 (number_map (radius time) (in_shell k) r2 n) H).
Qed.
Lemma shells_unique m time r2 rho : 0 < time -> shell_densities m (radii time r2) rho -> rho = rho_bins m time r2.
Proof.
  intros Ht [L H]. destruct (shells_are m time r2 Ht) as [L' H']. apply nth_error_ext. intro i. destruct (Nat.lt_ge_cases i 25) as [Hi|Hi]; [|rewrite !(proj2 (nth_error_None _ _)); [reflexivity| |]; unfold zlen in *; lia]. assert (0 <= Z.of_nat i < 25)%Z as Hk by lia.
  pose proof (proj2 (number_map (radius time) (in_shell (Z.of_nat i)) r2 _) (in_bin_number time r2 (Z.of_nat i) ltac:(lra) ltac:(lia))) as N. specialize (H _ _ Hk N). specialize (H' _ _ Hk N). rewrite Nat2Z.id in *. congruence.
Qed.
Lemma points_are m time r2 : 0 < time -> fit_points m time (radii time r2) (fit_bins time (rho_bins m time r2)).
Proof.
  intro Ht. destruct (bins_are m time r2 Ht) as (n & ks & H1 & H2 & H3 & H4). exists n, ks. split; [intros k Hk; exact (proj2 (number_map (radius time) (in_shell k) r2 (n k)) (H1 k Hk))|]. auto.
Qed.
Lemma increasing_same l l' : StronglySorted Z.lt l -> StronglySorted Z.lt l' -> (forall x, In x l <-> In x l') -> l = l'.
Proof.
  assert (forall l, StronglySorted Z.lt l -> NoDup l) as ND. { induction 1 as [|x m H IH HF]; [constructor|]. constructor; [|exact IH]. intro C. rewrite Forall_forall in HF. specialize (HF x C). lia. }
  intros H H' HI. apply (StronglySorted_unique Z.lt); [intros x y; lia|exact H|exact H'|]. apply NoDup_Permutation; auto.
Qed.
Lemma points_unique m time rs pts pts' : fit_points m time rs pts -> fit_points m time rs pts' -> pts = pts'.
Proof.
  intros (n & ks & H1 & H2 & -> & H4) (n' & ks' & H1' & H2' & -> & H4'). assert (forall k, (0 <= k < 25)%Z -> n k = n' k) as E by (intros k Hk; exact (number_unique _ _ _ _ (H1 k Hk) (H1' k Hk))).
  assert (ks = ks') as <-. { apply increasing_same; auto. intro k. rewrite H4, H4'. split; intros (Hk & HR); rewrite ?(E k Hk) in *; rewrite <- ?(E k Hk) in *; auto. }
  apply map_ext_in. intros k Hk. apply H4 in Hk as [Hk _]. now rewrite (E k Hk).
Qed.
Lemma dens_only m time r2 steps d : 0 <= m -> 0 < time -> dens m time r2 steps = Ok d -> shown_of m time (radii time r2) d.
Proof.
  intros Hm Ht H. rewrite dens_ok in H by assumption. destruct (R200 m time r2) as [x|] eqn:ER; [|discriminate]. cbn [bind] in H. destruct (nfw_fit _ _) as [fit|] eqn:EF; [|discriminate]. injection H as <-.
  assert (fit_bins time (rho_bins m time r2) <> []) as Hn by (intro C; rewrite C in EF; discriminate). destruct (fit_only _ _ _ (bins_positive m time r2 Ht) Hn EF) as (l & s & -> & F & _).
  exists x, (rho_bins m time r2), (fit_bins time (rho_bins m time r2)), l, s. split; [reflexivity|]. split; [exact (proj1 (R200_ok m time r2 Hm Ht x) ER)|]. split; [now apply shells_are|]. split; [now apply points_are|]. split; assumption.
Qed.
Lemma dens_shown m time r2 d : 0 <= m -> 0 < time -> (exists N, forall steps, (N <= steps)%nat -> dens m time r2 steps = Ok d) <-> shown_of m time (radii time r2) d.
Proof.
  intros Hm Ht. split; [intros (N & H); exact (dens_only m time r2 N d Hm Ht (H N (le_n N)))|]. intros (x & rho & pts & l & s & -> & HR & HS & HP & Hn & HF).
  apply (shells_unique m time r2 rho Ht) in HS as ->. rewrite (points_unique _ _ _ _ _ HP (points_are m time r2 Ht)) in *. apply (fit_ok _ l s (bins_positive m time r2 Ht) Hn) in HF as (N & HN).
  exists N. intros steps Hs. rewrite dens_ok by assumption. rewrite (proj2 (R200_ok m time r2 Hm Ht x) HR). cbn [bind]. rewrite (HN steps Hs). reflexivity.
Qed.
Lemma groups_only m time steps : 0 <= m -> 0 < time -> forall groups out, mapM (shown m time steps) groups = Ok out -> Forall2 (group_shown m time) groups out.
Proof.
  intros Hm Ht groups out H. apply mapM_ok in H. induction H as [|r o groups out Hr HF IH]; [constructor|]. constructor; [|exact IH]. destruct r as [[[n len] centre] ds]. unfold shown in Hr. destruct (dens m time ds steps) as [d|] eqn:E; [|discriminate]. cbn [bind] in Hr. injection Hr as <-.
  exists d. split; [reflexivity|]. exact (dens_only m time ds steps d Hm Ht E).
Qed.
Lemma groups_shown m time : 0 <= m -> 0 < time -> forall groups out, Forall2 (group_shown m time) groups out -> exists N, forall steps, (N <= steps)%nat -> mapM (shown m time steps) groups = Ok out.
Proof.
  intros Hm Ht. induction 1 as [|r o groups out Hr HF IH]; [exists O; reflexivity|]. destruct IH as (N & HN). destruct r as [[[n len] centre] ds]. destruct Hr as (d & -> & HS). apply (dens_shown m time ds d Hm Ht) in HS as (N' & HN').
  exists (N + N')%nat. intros steps Hs. cbn [mapM]. unfold shown at 1. rewrite HN' by lia. cbn [bind]. rewrite HN by lia. reflexivity.
Qed.
Local Open Scope Z_scope.
Lemma dens_whole little fs qsort lim basedir snapbase num dir fuel box files value4 value8 cats root b (nhash := 8 ^ b) (B := value8 box) : snapdir basedir num dir -> whole_snapshot little fs dir snapbase num nhash box files -> (List.length files < fuel)%nat ->
  nhash <= lim /\ zlen files <= lim -> sorts qsort -> whole_catalogue little fs dir num cats -> (List.length cats < fuel)%nat -> different_ids files -> (0 < B)%Q -> 109 <= zlen (all_groups cats) <= lim -> (2 <= fuel)%nat ->
  (forall q, (0 <= q)%Q -> (0 <= root q /\ q <= root q * root q)%Q) -> 1 <= b <= 10 -> in_its_cell value4 B b files -> 3 * zlen (concat (cells files)) <= lim /\ 3 * zlen (concat (cells files)) < 2 ^ 31 ->
  (forall table n group, by_length cats table -> 100 <= n < 109 -> nth_error table (Z.to_nat n) = Some group -> exists members, good_group little fs dir num files value4 B lim 25 group members /\
    forall s pts centre rad2, arranged value4 B members s pts -> sphere_of 25 s pts centre rad2 -> point_in_box B centre /\ (root rad2 + cell_size B b < (1 # 2) * B)%Q /\ ~ in_sphere files value4 B centre rad2 []) ->
  exists N, forall steps, (N <= steps)%nat -> exists table groups, by_length cats table /\ Forall2 (spherical little fs dir num files value4 B table) [100; 101; 102; 103; 104; 105; 106; 107; 108] groups /\
    forall partmass time out, (0 <= partmass)%R -> (0 < time)%R ->
      (forall newton_steps, plot_profile_dens little fs qsort lim basedir snapbase num fuel value4 value8 root steps newton_steps partmass time = Ok out -> Forall2 (group_shown partmass time) groups out) /\
      (Forall2 (group_shown partmass time) groups out -> exists M, forall newton_steps, (M <= newton_steps)%nat -> plot_profile_dens little fs qsort lim basedir snapbase num fuel value4 value8 root steps newton_steps partmass time = Ok out).
Proof.
  intros Hd Hs Hf Hl Ht Hc Hcf Hi Hb Ha Hf2 Hroot Hbb Hits Htot HG. destruct (dens_prog little fs qsort lim basedir snapbase num dir fuel box files value4 value8 cats root b Hd Hs Hf Hl Ht Hc Hcf Hi Hb Ha Hf2 Hroot Hbb Hits Htot HG) as (N & HN).
  exists N. intros steps Hst. destruct (HN steps Hst) as (table & groups & HB & HS & E). exists table, groups. split; [exact HB|]. split; [exact HS|]. intros m time out Hm Htm. split.
  - intros ns H. rewrite E in H. exact (groups_only m time ns Hm Htm groups out H).
  - intro H. destruct (groups_shown m time Hm Htm groups out H) as (M & HM). exists M. intros ns Hns. rewrite E. now apply HM.
Qed.

(** *** the header *)
Lemma header_name_ok basedir snapbase num : no_blanks basedir -> no_blanks snapbase -> three_digits num -> header_name basedir snapbase num = snapshot_path basedir snapbase num 0.
Proof.
  intros Hb Hs Hn. destruct (names_final basedir num 0 Hb Hn) as (_ & _ & _ & _ & _ & H). rewrite <- (H snapbase Hs). unfold header_name, snapshot_name. cbn zeta. rewrite string_compressed. rewrite <- (string_compressed 8 num). reflexivity.
Qed.
Lemma header_ok little fs basedir snapbase num cat extra content k : no_blanks basedir -> no_blanks snapbase -> three_digits num -> snapshot_file little cat extra content -> fs (snapshot_path basedir snapbase num 0) = Some (firstn k content) ->
  dens_header little fs basedir snapbase num = if Z.of_nat k <? 264 then Err EIO else Ok (nth 1 (cat "Header/MassTable"%string) 0, scalar cat "Header/Time").
Proof.
  intros Hb Hs Hn HF HC. unfold dens_header, openr. rewrite header_name_ok by assumption. rewrite HC. cbn [bind]. rewrite (SingleProofs.some_header little cat extra content HF 10 k single_items eq_refl). destruct (Z.of_nat k <? 264); reflexivity.
Qed.
Lemma dens_all little fs qsort lim basedir snapbase num dir fuel box files value4 value8 cats root b cat extra content (nhash := 8 ^ b) (B := value8 box) : snapdir basedir num dir -> whole_snapshot little fs dir snapbase num nhash box files -> (List.length files < fuel)%nat ->
  nhash <= lim /\ zlen files <= lim -> sorts qsort -> whole_catalogue little fs dir num cats -> (List.length cats < fuel)%nat -> different_ids files -> (0 < B)%Q -> 109 <= zlen (all_groups cats) <= lim -> (2 <= fuel)%nat ->
  (forall q, (0 <= q)%Q -> (0 <= root q /\ q <= root q * root q)%Q) -> 1 <= b <= 10 -> in_its_cell value4 B b files -> 3 * zlen (concat (cells files)) <= lim /\ 3 * zlen (concat (cells files)) < 2 ^ 31 ->
  (forall table n group, by_length cats table -> 100 <= n < 109 -> nth_error table (Z.to_nat n) = Some group -> exists members, good_group little fs dir num files value4 B lim 25 group members /\
    forall s pts centre rad2, arranged value4 B members s pts -> sphere_of 25 s pts centre rad2 -> point_in_box B centre /\ (root rad2 + cell_size B b < (1 # 2) * B)%Q /\ ~ in_sphere files value4 B centre rad2 []) ->
  no_blanks basedir -> no_blanks snapbase -> snapshot_file little cat extra content -> fs (snapshot_path basedir snapbase num 0) = Some content ->
  let partmass := Q2R (value8 (nth 1 (cat "Header/MassTable"%string) 0)) in let time := Q2R (value8 (scalar cat "Header/Time")) in (0 <= partmass)%R -> (0 < time)%R ->
  exists N, forall steps, (N <= steps)%nat -> exists table groups, by_length cats table /\ Forall2 (spherical little fs dir num files value4 B table) [100; 101; 102; 103; 104; 105; 106; 107; 108] groups /\ forall out,
    (forall newton_steps, dens_program little fs qsort lim basedir snapbase num fuel value4 value8 root steps newton_steps = Ok out -> Forall2 (group_shown partmass time) groups out) /\
    (Forall2 (group_shown partmass time) groups out -> exists M, forall newton_steps, (M <= newton_steps)%nat -> dens_program little fs qsort lim basedir snapbase num fuel value4 value8 root steps newton_steps = Ok out).
Proof.
  intros Hd Hs Hf Hl Ht Hc Hcf Hi Hb Ha Hf2 Hroot Hbb Hits Htot HG B1 B2 HF HC m time Hm Htm. destruct (dens_whole little fs qsort lim basedir snapbase num dir fuel box files value4 value8 cats root b Hd Hs Hf Hl Ht Hc Hcf Hi Hb Ha Hf2 Hroot Hbb Hits Htot HG) as (N & HN).
  assert (three_digits num) as H3 by (unfold three_digits; destruct Hd as [Hd _]; lia). rewrite <- (firstn_all content) in HC. pose proof (header_ok little fs basedir snapbase num cat extra content _ B1 B2 H3 HF HC) as EH.
  assert (forall P Q : res (Z * Z), (if Z.of_nat (List.length content) <? 264 then P else Q) = Q) as E264.
  { intros P Q. destruct (Z.ltb_spec (Z.of_nat (List.length content)) 264) as [C|C]; [exfalso|reflexivity].
    destruct (SingleProofs.split3 little cat extra content HF) as (rest & Er). destruct (SingleProofs.rb_lens little cat extra content HF) as (L & _). apply (f_equal zlen) in Er. rewrite !zlen_app, L in Er. unfold zlen in *. lia. }
  rewrite E264 in EH. exists N. intros steps Hst. destruct (HN steps Hst) as (table & groups & HB & HS & E). exists table, groups. split; [exact HB|]. split; [exact HS|]. intro out. destruct (E m time out Hm Htm) as [E1 E2]. unfold dens_program. rewrite EH. cbn [bind]. split; [exact E1|exact E2].
Qed.
