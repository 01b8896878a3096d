(** What the programs for the power spectrum show (for C107). *)
From Coq Require Import QArith Qround Lqa.
From Coq Require Import Sorting.Sorted.
From Verif Require Import Base.Prelude Base.ListLemmas Pro.PowerSpec Pro.PowerModel Pro.PowerProofs.
From Coq Require Import ZifyBool ZifyNat.
Local Open Scope Z_scope. Local Open Scope list_scope.

Lemma readf_rows cols f : forall table, (0 < cols)%nat -> table <> [] -> Forall (fun r => length r = cols) table -> readf (cols * length table) (table ++ f) = Ok (concat table, f).
Proof.
  induction table as [|r table IH]; intros Hc Hn H; [congruence|]. inversion_clear H as [|? ? Hr Ht]. cbn [readf app concat length].
  destruct table as [|s table].
  - cbn [length concat app]. rewrite Nat.mul_1_r, Hr, Nat.leb_refl, app_nil_r. now rewrite firstn_all2 by lia.
  - destruct (Nat.leb_spec (cols * S (length (s :: table))) (length r)) as [L|L]; [cbn [length] in L; nia|].
    replace (cols * S (length (s :: table)) - length r)%nat with (cols * length (s :: table))%nat by (rewrite Hr; cbn [length]; nia).
    rewrite IH by (assumption || discriminate). reflexivity.
Qed.
Lemma rows_concat cols table : Forall (fun r => length r = cols) table -> rows cols (length table) (concat table) = table.
Proof.
  induction 1 as [|r table Hr H IH]; [reflexivity|]. cbn [rows concat length]. rewrite firstn_app, skipn_app, Hr, Nat.sub_diag, firstn_O, skipn_O, app_nil_r, firstn_all2, skipn_all2 by lia. cbn [app]. now rewrite IH.
Qed.
Lemma read_array_ok cols table f : (0 < cols)%nat -> table <> [] -> Forall (fun r => length r = cols) table -> read_array cols (zlen table) (table ++ f) = Ok (table, f).
Proof.
  intros Hc Hn H. unfold read_array, check. replace (0 <? zlen table) with true by (destruct table; [congruence | rewrite zlen_cons; unfold zlen; lia]). cbn [bind].
  replace (Z.to_nat (zlen table)) with (length table) by (unfold zlen; lia). rewrite readf_rows by assumption. cbn [bind]. now rewrite rows_concat.
Qed.
Lemma read_table_ok cols time table lines f : (0 < cols)%nat -> table_lines cols time table lines -> read_table cols (lines ++ f) = Ok (time, zlen table, table, f).
Proof.
  intros Hc (H & Hz & ->). unfold read_table. cbn [app readf length Nat.leb firstn bind hd]. unfold trunc. assert (Qle_bool 0 (inject_Z (zlen table)) = true) as ->. { apply Qle_bool_iff. change 0%Q with (inject_Z 0). rewrite <- Zle_Qle. lia. }
  rewrite Qfloor_Z. unfold int32. rewrite Z.mod_small by lia. replace (zlen table + 2 ^ 31 - 2 ^ 31) with (zlen table) by lia.
  rewrite read_array_ok; [reflexivity | exact Hc | destruct table; [unfold zlen in Hz; cbn in Hz; lia | discriminate] | exact H].
Qed.
Lemma correl_ok time table lines f : table_lines 4 time table lines -> plot_correl (Some (lines ++ f)) = Ok (map (fun r => (nth 0 r 0%Q, nth 1 r 0%Q)) table).
Proof.
  intro H. unfold plot_correl. rewrite (read_table_ok 4 time table) by (lia || exact H). cbn [bind snd]. f_equal. unfold column. clear. induction table as [|r t IH]; [reflexivity|]. cbn [map combine]. now rewrite IH.
Qed.

Lemma banded_split isfull l bs rest : banded isfull l bs rest -> l = concat bs ++ rest.
Proof. induction 1 as [|band more bs rest Hn Hf Hm H IH]; [reflexivity|]. cbn [concat]. now rewrite <- app_assoc, <- IH. Qed.
Lemma banded_unique isfull l bs rest : banded isfull l bs rest -> forall bs' rest', banded isfull l bs' rest' -> bs = bs' /\ rest = rest'.
Proof.
  assert (forall (x y m n : list row), x ++ m = y ++ n -> exists d, x = y ++ d \/ y = x ++ d) as Comp.
  { induction x as [|a x IH]; intros y m n E; [exists y; now right|]. destruct y as [|b y]; [exists (a :: x); now left|]. cbn in E. injection E as -> E. destruct (IH y m n E) as (d & [-> | ->]); exists d; [now left | now right]. }
  induction 1 as [rest H|band more bs rest Hn Hf Hm H IH]; intros bs' rest' H'.
  - inversion H' as [r G|band more bs2 r Gn Gf Gm G]; subst; [split; reflexivity|]. exfalso. exact (H band more eq_refl Gn Gf).
  - inversion H' as [r G E1 E2 E3|band2 more2 bs2 r Gn Gf Gm G E1 E2 E3].
    + subst. exfalso. exact (G band more eq_refl Hn Hf).
    + symmetry in E1. assert (band = band2) as Eb.
      { destruct (Comp _ _ _ _ E1) as (d & [-> | ->]).
        - destruct d as [|a d]; [apply app_nil_r|]. exfalso. apply (Hm band2 (a :: d)); [reflexivity | exact Gn | discriminate | exact Gf].
        - destruct d as [|a d]; [symmetry; apply app_nil_r|]. exfalso. apply (Gm band (a :: d)); [reflexivity | exact Hn | discriminate | exact Hf]. }
      subst band2. apply app_inv_head in E1. subst more2. destruct (IH _ _ G) as [-> ->]. now split.
Qed.
(** the modes of all points, and of the rows which remain, are all modes *)
Lemma binned_modes isfull l bs rest points : banded isfull l bs rest -> Forall2 point_of bs points -> (added (map modes_of l) == added (map snd points) + added (map modes_of rest))%Q.
Proof.
  intro H. revert points. induction H as [|band more bs rest Hn Hf Hm H IH]; intros points F; inversion_clear F as [|? p ? ps P Q]; cbn [map added]; [ring|].
  rewrite map_app, added_app, (IH _ Q). destruct p as [[k d2] count]. destruct P as [P _]. cbn [snd]. rewrite P. ring.
Qed.
Lemma Forall2_right {X Y} (R : X -> Y -> Prop) l m y : Forall2 R l m -> In y m -> exists x, In x l /\ R x y.
Proof. induction 1 as [|a b l m Hab H IH]; [intros []|]. intros [<- | Hy]; [exists a; split; [now left | exact Hab]|]. destruct (IH Hy) as (x & Hx & Hr). exists x. split; [now right | exact Hr]. Qed.
Lemma central_in band r : central band r -> In r band.
Proof. intros (j & _ & E & _). exact (nth_error_In _ _ E). Qed.
Lemma rising_app l m : rising (l ++ m) -> rising l /\ rising m /\ forall r s, In r l -> In s m -> (k_of r <= k_of s)%Q.
Proof.
  unfold rising. induction l as [|a l IH]; intro H; [split; [constructor|]; split; [exact H | intros r s []]|]. cbn [app] in H. apply StronglySorted_inv in H as [H F]. destruct (IH H) as (A & B & C). apply Forall_app in F as [F1 F2].
  split; [now constructor|]. split; [exact B|]. intros r s [<- | Hr] Hs; [rewrite Forall_forall in F2; now apply F2 | now apply C].
Qed.
Lemma points_rising isfull l bs rest points : banded isfull l bs rest -> rising l -> Forall2 point_of bs points -> StronglySorted Qle (map (fun p => fst (fst p)) points).
Proof.
  intros H. revert points. induction H as [|band more bs rest Hn Hf Hm H IH]; intros points R F; inversion_clear F as [|? p ? ps P Q]; [constructor|].
  apply rising_app in R as (_ & R & C). cbn [map]. constructor; [now apply IH|]. rewrite Forall_map. rewrite Forall_forall. intros p' Hp'.
  apply banded_split in H. destruct (Forall2_right _ _ _ _ Q Hp') as (band' & Eb & P').
  destruct p as [[k d2] count], p' as [[k' d2'] count']. destruct P as (_ & r & Hc & -> & _), P' as (_ & r' & Hc' & -> & _). cbn [fst]. apply C; [now apply central_in|].
  rewrite H. apply in_app_iff. left. apply in_concat. exists band'. split; [exact Eb | now apply central_in].
Qed.
Section Few.
  Variable alog10 : Q -> Q.
  Hypothesis log_mono : forall x y, (x <= y)%Q -> (alog10 x <= alog10 y)%Q.
  Lemma few_from least w l bs rest : banded (full alog10 least w) l bs rest -> rising l -> forall lo hi, (lo <= hi)%Q -> Forall (fun k => lo <= k <= hi)%Q (map k_of l) -> (inject_Z (zlen bs) * w <= alog10 hi - alog10 lo)%Q.
  Proof using log_mono.
    induction 1 as [|band more bs rest Hn Hf Hm H IH]; intros R lo hi L F.
    - change (inject_Z (zlen (@nil (list row)))) with 0%Q. pose proof (log_mono _ _ L). lra.
    - apply rising_app in R as (_ & R & C). destruct Hf as (_ & h & l & Hh & Hl & _ & W). rewrite map_app in F. apply Forall_app in F as [F1 F2].
      assert (lo <= l <= hi)%Q as [Bl _] by (rewrite Forall_forall in F1; now apply F1). assert (lo <= h <= hi)%Q as [_ Bh] by (rewrite Forall_forall in F1; now apply F1).
      specialize (IH R h hi Bh). assert (inject_Z (zlen bs) * w <= alog10 hi - alog10 h)%Q as X.
      { apply IH. rewrite Forall_forall in *. intros k Hk. split; [|now apply F2]. apply in_map_iff in Hk as (s & <- & Hs). apply in_map_iff in Hh as (r & <- & Hr). now apply C. }
      rewrite zlen_cons, inject_Z_plus. change (inject_Z 1) with 1%Q. pose proof (log_mono _ _ Bl). lra.
  Qed.
  Lemma few_bands least target table w bs rest : rising table -> (0 < target)%Q -> is_width alog10 target table w -> (0 < w)%Q -> banded (full alog10 least w) table bs rest -> (inject_Z (zlen bs) <= target)%Q.
  Proof using log_mono.
    intros R Ht (hi & lo & Hh & Hl & F & W) Hw B. assert (lo <= hi)%Q as L by (rewrite Forall_forall in F; now apply F). pose proof (few_from _ _ _ _ _ B R lo hi L F) as X.
    assert (alog10 hi - alog10 lo == w * target)%Q as E by (rewrite W; field; lra). rewrite E in X. rewrite (Qmult_comm w) in X. apply Qmult_le_r in X; assumption.
  Qed.
End Few.

Section Program.
  Variables alog alog10 exp : Q -> Q.
  Variable interpol : list Q -> list Q -> Q -> Q.
  Variables least target : Q.

  Lemma never_ends bins : 2 ^ 15 <= bins -> forall steps da w istart ind l, bands alog10 least steps da w bins istart ind <> Ok l.
  Proof.
    intro Hb. induction steps as [|steps IH]; intros da w istart ind l; [discriminate|]. cbn [bands].
    assert (bins <=? int16 (istart + 1) = false) as ->. { unfold int16. pose proof (Z.mod_pos_bound (istart + 1 + 2 ^ 15) (2 ^ 16)). lia. }
    destruct (_ && _); [|apply IH]. destruct (elem _ _); [|discriminate]. cbn [bind]. destruct (elem _ _); [|discriminate]. cbn [bind]. destruct (elem _ _); [|discriminate]. cbn [bind].
    destruct (bands _ _ _ _ _ _ _ _) eqn:E; cbn [bind]; [|discriminate]. now apply IH in E.
  Qed.
  Lemma many_bins steps fa fb rest ta tb A B growthfile inputfile newlines : table_lines 10 ta A fa -> table_lines 10 tb B fb -> 2 ^ 15 <= zlen B ->
    forall out, plot_spectrum alog alog10 exp interpol least target steps (Some (fa ++ fb ++ rest)) growthfile inputfile newlines <> Ok out.
  Proof.
    intros HA HB Hz out. unfold plot_spectrum. rewrite (read_table_ok 10 ta A) by (lia || exact HA). cbn [bind]. rewrite (read_table_ok 10 tb B) by (lia || exact HB). cbn [bind snd]. unfold binning.
    destruct (bands _ _ _ _ _ _ _ _) eqn:E; cbn [bind]; [|discriminate]. now apply never_ends in E.
  Qed.

  Hypothesis log_eq : forall x y, (x == y)%Q -> (alog10 x == alog10 y)%Q.
  Hypothesis least_pos : (0 < least)%Q.
  Lemma binning_ok steps table after w : table <> [] -> some_modes table -> zlen table < 2 ^ 15 -> (length table <= steps)%nat ->
    exists points, binned alog10 least w table points /\ binning alog10 least steps (table ++ after) w (zlen table) = if 0 <? zlen points then Ok points else Err EIndex.
  Proof using log_eq least_pos.
    clear alog exp interpol target. intros Hn Hs Hz Hl. destruct table as [|r table]; [congruence|]. destruct (bands_ok alog10 log_eq least w least_pos after steps table [] [r]) as (points & bs & rest & E & B & F); [discriminate | exact Hs | cbn [length] in Hl; lia | exact Hz | apply first_full_one|].
    exists points. split; [exists bs, rest; now split|]. unfold binning. cbn [app] in E |- *. change (zlen (@nil row) + zlen [r] - 1) with 0 in E. change (zseq (zlen (@nil row)) (length [r])) with [0] in E. rewrite E. cbn [bind]. unfold check. destruct (0 <? zlen points); reflexivity.
  Qed.
  Lemma width_ok table : table <> [] -> is_width alog10 target table (min_dlogk alog10 target (column 0 table)).
  Proof.
    intro H. unfold min_dlogk, column. change (fun r : list Q => nth 0 r 0%Q) with k_of. assert (map k_of table <> []) as Hm by (destruct table; [congruence | discriminate]).
    exists (maxq (map k_of table)), (minq (map k_of table)). split; [now apply maxq_ok|]. split; [now apply minq_ok|]. split; [now apply bounds_ok | reflexivity].
  Qed.

  Lemma growth_ok table more a : growth_table table -> growth alog exp interpol (Some (table ++ more)) a = Ok (exp (interpol (map alog (growth_factors table)) (map alog (growth_times table)) (alog a))).
  Proof.
    intros [H Hz]. unfold growth. rewrite <- Hz. rewrite read_array_ok; [reflexivity | lia | destruct table; discriminate | exact H].
  Qed.
  Lemma elem_last2 (l : list Q) x y : elem (l ++ [x; y]) (zlen (l ++ [x; y]) - 2) = Ok x /\ elem (l ++ [x; y]) (zlen (l ++ [x; y]) - 1) = Ok y.
  Proof.
    clear. assert (zlen (l ++ [x; y]) = zlen l + 2) as E by (unfold zlen; rewrite app_length; cbn [length]; lia). unfold elem. rewrite E. unfold zlen.
    split.
    - replace ((0 <=? Z.of_nat (length l) + 2 - 2) && (Z.of_nat (length l) + 2 - 2 <? Z.of_nat (length l) + 2)) with true by lia. replace (Z.to_nat (Z.of_nat (length l) + 2 - 2)) with (length l + 0)%nat by lia. now rewrite app_nth2_plus.
    - replace ((0 <=? Z.of_nat (length l) + 2 - 1) && (Z.of_nat (length l) + 2 - 1 <? Z.of_nat (length l) + 2)) with true by lia. replace (Z.to_nat (Z.of_nat (length l) + 2 - 1)) with (length l + 1)%nat by lia. now rewrite app_nth2_plus.
  Qed.
  Lemma linear_ok first table more g l k1 d1 k2 d2 : length first = 2%nat -> Forall (fun r => length r = 4%nat) table -> table <> [] -> ~ (g == 0)%Q -> positive table = l ++ [(k1, d1); (k2, d2)] ->
    ~ (alog k1 == alog k2)%Q -> (alog (d2 / d1) == alog d2 - alog d1 /\ alog (k2 / k1) == alog k2 - alog k1 /\ alog (400 / k2) == alog 400 - alog k2)%Q ->
    exists out, linear alog exp (Some (first :: table ++ more)) (1 + zlen table) g = Ok out /\ linear_shown alog exp g table out.
  Proof.
    intros Hf Ht Hn Hg Hp Hd (A1 & A2 & A3). unfold linear. assert (1 <= zlen table) as L by (destruct table; [congruence | rewrite zlen_cons; unfold zlen; lia]).
    replace (1 + zlen table - 1) with (zlen table) by lia. unfold check. replace (0 <? zlen table) with true by lia. cbn [bind readf]. rewrite Hf. cbn [Nat.leb bind]. rewrite read_array_ok by (lia || assumption). cbn [bind].
    assert (combine (column 0 table) (column 1 table) = map (fun r => (nth 0 r 0, nth 1 r 0))%Q table) as ->. { unfold column. clear. induction table as [|r t IH]; [reflexivity|]. cbn [map combine]. now rewrite IH. }
    unfold chosen, check. unfold positive in Hp. rewrite Hp.
    assert (existsb (fun p : Q * Q => negb (Qle_bool (snd p) 0)) (map (fun r : list Q => (nth 0 r 0%Q, nth 1 r 0%Q)) table) = true) as ->.
    { apply existsb_exists. exists (k1, d1). apply (filter_In (fun p : Q * Q => negb (Qle_bool (snd p) 0))). rewrite Hp. apply in_app_iff. right. now left. }
    cbn [bind]. assert (zlen (l ++ [(k1, d1); (k2, d2)]) = zlen (map fst l ++ [k1; k2]) /\ zlen (l ++ [(k1, d1); (k2, d2)]) = zlen (map snd l ++ [d1; d2])) as [Z1 Z2] by (unfold zlen; rewrite !app_length, !map_length; cbn [length]; lia).
    rewrite !(map_app fst l), !(map_app snd l). cbn [map fst snd]. destruct (elem_last2 (map fst l) k1 k2) as [E1 E2], (elem_last2 (map snd l) d1 d2) as [E3 E4]. rewrite <- Z1 in E1, E2. rewrite <- Z2 in E3, E4. rewrite E1. cbn [bind]. rewrite E2. cbn [bind]. rewrite E3. cbn [bind]. rewrite E4. cbn [bind].
    eexists. split; [reflexivity|]. exists l, (k1, d1), (k2, d2), (alog (d2 / d1) / alog (k2 / k1) * alog (400 / k2) + alog d2)%Q. split; [unfold positive; exact Hp|]. split.
    - unfold on_line. cbn [fst snd]. rewrite A1, A2, A3. field. intro X. apply Hd. lra.
    - rewrite <- app_assoc. cbn [app]. generalize (l ++ [(k1, d1); (k2, d2); (400%Q, exp (alog (d2 / d1) / alog (k2 / k1) * alog (400 / k2) + alog d2)%Q)]). clear - Hg.
      induction l as [|p l IH]; cbn [map]; constructor; [|exact IH]. cbn [fst snd]. split; [reflexivity|]. field. exact Hg.
  Qed.

  Lemma bars_ok points : with_bars points (filter (fun p => negb (Qle_bool 10000 (snd p))) (map (fun p : Q * Q * Q => (fst p, snd p / 2)%Q) points)).
  Proof.
    clear. eexists. split; [|reflexivity]. induction points as [|p l IH]; cbn [map]; constructor; [|exact IH]. cbn [fst snd]. split; [reflexivity|]. field.
  Qed.
  Lemma chosen_ok {X} (p : X -> bool) l : chosen p l = if existsb p l then Ok (filter p l) else Err EIndex.
  Proof. unfold chosen, check. now destruct (existsb p l). Qed.
  Lemma spectrum_ok ta tb A B fa fb rest G first table more steps l k1 d1 k2 d2 : table_lines 10 ta A fa -> table_lines 10 tb B fb -> zlen B <= zlen A -> zlen B < 2 ^ 15 -> some_modes A -> some_modes B -> (length B <= steps)%nat ->
    growth_table G -> length first = 2%nat -> Forall (fun r => length r = 4%nat) table -> table <> [] -> (forall x, 0 < exp x)%Q -> positive table = l ++ [(k1, d1); (k2, d2)] ->
    ~ (alog k1 == alog k2)%Q -> (alog (d2 / d1) == alog d2 - alog d1 /\ alog (k2 / k1) == alog k2 - alog k1 /\ alog (400 / k2) == alog 400 - alog k2)%Q ->
    let r growthmore := plot_spectrum alog alog10 exp interpol least target steps (Some (fa ++ fb ++ rest)) (Some (G ++ growthmore)) (Some (first :: table ++ more)) (1 + zlen table) in
    exists w la lb, is_width alog10 target A w /\ binned alog10 least w (firstn (length B) A) la /\ binned alog10 least w B lb /\
      (forall growthmore, existsb small_scale la = true -> existsb large_scale lb = true -> exists out, r growthmore = Ok out /\
         linear_shown alog exp (exp (interpol (map alog (growth_factors G)) (map alog (growth_times G)) (alog tb))) table (p_linear out) /\
         p_shot out = map (fun x => (k_of x, shot_of x)) B /\ with_bars lb (p_bars out) /\ p_b out = map fst (filter large_scale lb) /\ p_a out = map fst (filter small_scale la)) /\
      (forall growthmore, existsb small_scale la && existsb large_scale lb = false -> r growthmore = Err EIndex).
  Proof using log_eq least_pos.
    intros HA HB Hl Hz MA MB Hst HG Hf Ht Hn He Hp Hk Ha r. assert (0 < zlen B) as HB0 by (destruct HB as (_ & H & _); lia). assert (0 < zlen A) as HA0 by (destruct HA as (_ & H & _); lia).
    assert (A <> []) as NA by (intros ->; discriminate HA0). assert (B <> []) as NB by (intros ->; discriminate HB0).
    set (w := min_dlogk alog10 target (column 0 A)). set (A' := firstn (length B) A). assert (A = A' ++ skipn (length B) A) as EA by (symmetry; apply firstn_skipn).
    assert (zlen A' = zlen B) as LA by (unfold A', zlen in *; rewrite firstn_length; lia).
    destruct (binning_ok steps A' (skipn (length B) A) w) as (la & Bla & Ela); [intro X; rewrite X in LA; unfold zlen in *; cbn in LA; lia | rewrite EA in MA; apply Forall_app in MA; apply MA | lia | unfold zlen in *; lia|].
    destruct (binning_ok steps B [] w NB MB Hz Hst) as (lb & Blb & Elb). rewrite app_nil_r in Elb. rewrite <- EA, LA in Ela.
    exists w, la, lb. split; [now apply width_ok|]. split; [exact Bla|]. split; [exact Blb|].
    assert (forall growthmore, r growthmore = do list_a <- (if 0 <? zlen la then Ok la else Err EIndex); do list_b <- (if 0 <? zlen lb then Ok lb else Err EIndex);
      do lin <- linear alog exp (Some (first :: table ++ more)) (1 + zlen table) (exp (interpol (map alog (growth_factors G)) (map alog (growth_times G)) (alog tb)));
      do b <- chosen (fun p => negb (Qle_bool 5 (fst (fst p))) && Qle_bool (1 # 100) (fst (fst p))) list_b;
      do a <- chosen (fun p => Qle_bool 5 (fst (fst p)) && Qle_bool (fst (fst p)) 200) list_a;
      Ok {| p_linear := lin; p_shot := combine (column 0 B) (column 2 B); p_bars := filter (fun p => negb (Qle_bool 10000 (snd p))) (map (fun p => (fst p, snd p / 2)%Q) list_b); p_b := map fst b; p_a := map fst a |}) as Er.
    { intro growthmore. unfold r, plot_spectrum. rewrite (read_table_ok 10 ta A) by (lia || exact HA). cbn [bind]. rewrite (read_table_ok 10 tb B) by (lia || exact HB). cbn [bind snd]. fold w. rewrite Ela, Elb, (growth_ok G growthmore tb HG). reflexivity. }
    destruct (linear_ok first table more (exp (interpol (map alog (growth_factors G)) (map alog (growth_times G)) (alog tb))) l k1 d1 k2 d2 Hf Ht Hn) as (lin & El & Sl); [specialize (He (interpol (map alog (growth_factors G)) (map alog (growth_times G)) (alog tb))); lra | exact Hp | exact Hk | exact Ha|].
    assert (forall lb, existsb (fun p : Q * Q * Q => negb (Qle_bool 5 (fst (fst p))) && Qle_bool (1 # 100) (fst (fst p))) lb = existsb large_scale lb) as X1 by (clear; induction lb as [|p lb IH]; [reflexivity|]; cbn [existsb]; rewrite IH; unfold large_scale; now rewrite andb_comm).
    assert (forall lb, filter (fun p : Q * Q * Q => negb (Qle_bool 5 (fst (fst p))) && Qle_bool (1 # 100) (fst (fst p))) lb = filter large_scale lb) as X2 by (clear; intro lb; apply filter_ext; intro p; unfold large_scale; apply andb_comm).
    assert (forall X (p : X -> bool) m, existsb p m = true -> 0 <? zlen m = true) as X3. { clear. intros X p m H. destruct m; [discriminate|]. rewrite zlen_cons. unfold zlen. lia. }
    split; intros growthmore.
    - intros H1 H2. rewrite Er, (X3 _ _ _ H1), (X3 _ _ _ H2). cbn [bind]. rewrite El. cbn [bind]. rewrite !chosen_ok, X1, X2. change (fun p : Q * Q * Q => Qle_bool 5 (fst (fst p)) && Qle_bool (fst (fst p)) 200) with small_scale. rewrite H1, H2. cbn [bind].
      eexists. split; [reflexivity|]. cbn [p_linear p_shot p_bars p_b p_a]. split; [exact Sl|]. split; [|split; [apply bars_ok | now split]].
      unfold column, k_of, shot_of. clear. induction B as [|x B IH]; [reflexivity|]. cbn [map combine]. now rewrite IH.
    - intro H. rewrite Er. destruct (0 <? zlen la); [|reflexivity]. cbn [bind]. destruct (0 <? zlen lb); [|reflexivity]. cbn [bind]. rewrite El. cbn [bind]. rewrite !chosen_ok, X1, X2.
      change (fun p : Q * Q * Q => Qle_bool 5 (fst (fst p)) && Qle_bool (fst (fst p)) 200) with small_scale. destruct (existsb large_scale lb); [|reflexivity]. cbn [bind]. rewrite andb_true_r in H. now rewrite H.
  Qed.
End Program.
