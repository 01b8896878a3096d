(** C107: what the IDL programs PlotSpectrum and PlotCorrel show. *)
From Coq Require Import QArith Qround Lqa.
From Coq Require Import Sorting.Sorted.
From Verif Require Import Base.Prelude Base.ListLemmas Pro.PowerSpec Pro.PowerModel Pro.PowerProofs Pro.PowerFinal.
Local Open Scope Z_scope. Local Open Scope list_scope.

(** PlotSpectrum shows one point for each band of modes of the two tables (of the first one as many
    rows as there are in the second), on large scales from the second table and on small scales
    from the first; the linear spectrum for the time of the second table; shot noise and error
    bars. Without points on large or on small scales there is an error.
    [more] are lines which are not read: wc counts the ends of lines, so that a last line without
    end is one of them. *)
Theorem C107_spectrum alog alog10 exp interpol least target ta tb A B fa fb rest G first table more steps l k1 d1 k2 d2 : (forall x y, (x == y)%Q -> (alog10 x == alog10 y)%Q) -> (0 < least)%Q ->
  table_lines 10 ta A fa -> table_lines 10 tb B fb -> zlen B <= zlen A -> zlen B < 2 ^ 15 -> some_modes A -> some_modes B -> (length B <= steps)%nat ->
  growth_table G -> length first = 2%nat -> Forall (fun r => length r = 4%nat) table -> table <> [] -> (forall x, 0 < exp x)%Q -> positive table = l ++ [(k1, d1); (k2, d2)] ->
  ~ (alog k1 == alog k2)%Q -> (alog (d2 / d1) == alog d2 - alog d1 /\ alog (k2 / k1) == alog k2 - alog k1 /\ alog (400 / k2) == alog 400 - alog k2)%Q ->
  let r growthmore := plot_spectrum alog alog10 exp interpol least target steps (Some (fa ++ fb ++ rest)) (Some (G ++ growthmore)) (Some (first :: table ++ more)) (1 + zlen table) in
  exists w la lb, is_width alog10 target A w /\ binned alog10 least w (firstn (length B) A) la /\ binned alog10 least w B lb /\
    (forall growthmore, existsb small_scale la = true -> existsb large_scale lb = true -> exists out, r growthmore = Ok out /\
       linear_shown alog exp (exp (interpol (map alog (growth_factors G)) (map alog (growth_times G)) (alog tb))) table (p_linear out) /\
       p_shot out = map (fun x => (k_of x, shot_of x)) B /\ with_bars lb (p_bars out) /\ p_b out = map fst (filter large_scale lb) /\ p_a out = map fst (filter small_scale la)) /\
    (forall growthmore, existsb small_scale la && existsb large_scale lb = false -> r growthmore = Err EIndex).
Proof. exact (fun Hl Hp => spectrum_ok alog alog10 exp interpol least target Hl Hp ta tb A B fa fb rest G first table more steps l k1 d1 k2 d2). Qed.
Print Assumptions C107_spectrum.
Definition ex_row (k shot modes shape power conv : Q) : row := [k; 0; shot; 0; modes; 0; 0; shape; power; conv]%Q.
Definition ex_A : list row := [ex_row 4 1 2 1 3 1; ex_row 6 1 2 1 5 1; ex_row 8 1 2 2 7 3; ex_row 10 1 4 1 9 1; ex_row 12 1 2 1 1 1; ex_row 14 1 2 1 1 1]%Q.
Definition ex_B : list row := [ex_row 1 2 1 1 3 1; ex_row 3 2 1 1 5 7; ex_row 7 2 1 2 7 3; ex_row 8 2 4 1 9 1; ex_row 9 2 2 1 1 1; ex_row 20 2 30000 2 60000 1]%Q.
Definition ex_lines (time : Q) (t : list row) : list (list Q) := [time] :: [inject_Z (zlen t)] :: t.
Definition ex_alog (q : Q) : Q := (if Qeq_bool q 200 || Qeq_bool q 2 then 1 else if Qeq_bool q 400 then 2 else 0)%Q.
Definition ex_exp (q : Q) : Q := (if Qle_bool 3 q then 5 else 2)%Q.
Definition ex_growth : list row := repeat [1; 1]%Q 110.
Definition ex_linear : list row := [[100; 8; 0; 0]; [200; 4; 0; 0]; [300; 0; 0; 0]]%Q.
Example C107_spectrum_case : table_lines 10 1 ex_A (ex_lines 1 ex_A) /\ table_lines 10 1 ex_B (ex_lines 1 ex_B) /\ some_modes ex_A /\ some_modes ex_B /\ growth_table ex_growth /\ positive ex_linear = [] ++ [(100, 8); (200, 4)]%Q /\
  ~ (ex_alog 100 == ex_alog 200)%Q /\ (ex_alog (4 / 8) == ex_alog 4 - ex_alog 8 /\ ex_alog (200 / 100) == ex_alog 200 - ex_alog 100 /\ ex_alog (400 / 200) == ex_alog 400 - ex_alog 200)%Q /\ (forall x, 0 < ex_exp x)%Q /\
  match plot_spectrum ex_alog (fun x => x) ex_exp (fun _ _ _ => 0%Q) 3 2 9 (Some (ex_lines 1 ex_A ++ ex_lines 1 ex_B ++ [])) (Some ex_growth) (Some ([127; 95]%Q :: ex_linear ++ [])) 4 with
  | Ok out => map (fun p => (Qred (fst p), Qred (snd p))) (p_linear out) = [(100, 2); (200, 1); (400, 1 # 2)]%Q /\ p_shot out = [(1, 2); (3, 2); (7, 2); (8, 2); (9, 2); (20, 2)]%Q /\
      map (fun p => (fst (fst p), Qred (snd (fst p)), Qred (snd p))) (p_bars out) = [(3, 35, 3 # 2)]%Q /\ map (fun p => (fst p, Qred (snd p))) (p_b out) = [(3, 35)]%Q /\ map (fun p => (fst p, Qred (snd p))) (p_a out) = [(6, 12 # 5)]%Q
  | Err _ => False
  end.
Proof.
  assert (forall t, Forall (fun r : row => length r = 10%nat) t -> 0 < zlen t < 2 ^ 31 -> table_lines 10 1 t (ex_lines 1 t)) as T by (intros t H1 H2; repeat split; assumption || apply H2).
  split; [apply T; [repeat constructor | split; reflexivity]|]. split; [apply T; [repeat constructor | split; reflexivity]|]. split; [repeat constructor; discriminate|]. split; [repeat constructor; discriminate|].
  split; [split; [unfold ex_growth; apply Forall_forall; intros x Hx; apply repeat_spec in Hx; now subst | reflexivity]|]. split; [reflexivity|]. split; [discriminate|]. split; [repeat split; reflexivity|].
  split; [intro x; unfold ex_exp; destruct (Qle_bool 3 x); reflexivity|]. vm_compute. repeat split; reflexivity.
Qed.

(** The bands are determined by the table; all their modes, and those of the rows which remain at
    the end, are the modes of the table. *)
Theorem C107_unique isfull table bs bs' rest rest' : banded isfull table bs rest -> banded isfull table bs' rest' -> bs = bs' /\ rest = rest' /\ table = concat bs ++ rest.
Proof. intros H H'. destruct (banded_unique isfull table bs rest H bs' rest' H') as [E1 E2]. exact (conj E1 (conj E2 (banded_split isfull table bs rest H))). Qed.
Print Assumptions C107_unique.
Theorem C107_modes isfull table bs rest points : banded isfull table bs rest -> Forall2 point_of bs points -> (added (map modes_of table) == added (map snd points) + added (map modes_of rest))%Q.
Proof. exact (binned_modes isfull table bs rest points). Qed.
Print Assumptions C107_modes.
(** With the rows in the order of k the points are, too, and for the first table there are not more
    of them than wanted. *)
Theorem C107_rising isfull table bs rest points : banded isfull table bs rest -> rising table -> Forall2 point_of bs points -> StronglySorted Qle (map (fun p => fst (fst p)) points).
Proof. exact (points_rising isfull table bs rest points). Qed.
Print Assumptions C107_rising.
Theorem C107_few alog10 least target table w bs rest : (forall x y, (x <= y)%Q -> (alog10 x <= alog10 y)%Q) -> rising table -> (0 < target)%Q -> is_width alog10 target table w -> (0 < w)%Q -> banded (full alog10 least w) table bs rest -> (inject_Z (zlen bs) <= target)%Q.
Proof. exact (fun Hm => few_bands alog10 Hm least target table w bs rest). Qed.
Print Assumptions C107_few.
Example C107_bands_case : rising ex_A /\ is_width (fun x => x) 2 ex_A 5 /\ exists bs rest, banded (full (fun x => x) 3 5) ex_A bs rest /\ map (map k_of) bs = [[4; 6; 8; 10]]%Q /\ map k_of rest = [12; 14]%Q.
Proof.
  split; [repeat constructor; discriminate|]. split.
  - exists 14%Q, 4%Q. split; [cbn; tauto|]. split; [cbn; tauto|]. split; [repeat constructor; discriminate | reflexivity].
  - destruct (binning_ok (fun x => x) 3 (fun x y E => E) eq_refl 9 ex_A [] 5) as (points & (bs & rest & B & F) & _); [discriminate | repeat constructor; discriminate | reflexivity | repeat constructor|]. exists bs, rest. split; [exact B|].
    assert (banded (full (fun x => x) 3 5) ex_A [firstn 4 ex_A] (skipn 4 ex_A)) as B'.
    { change ex_A with (firstn 4 ex_A ++ skipn 4 ex_A) at 1. apply one_band; [discriminate | | |].
      - split; [discriminate|]. exists 10%Q, 4%Q. split; [cbn; tauto|]. split; [cbn; tauto|]. split; [repeat constructor; discriminate | discriminate].
      - intros p q E Hp Hq [_ (hi & lo & Hh & Hl & _ & W)]. assert (forall x, In x (map k_of p) -> (4 <= x <= 8)%Q) as R.
        { destruct p as [|r1 [|r2 [|r3 [|r4 p]]]]; cbn in E; [congruence | | | |]; injection E; intros; subst; try (destruct p; [|discriminate]; cbn in *; congruence);
            match goal with H : In _ _ |- _ => cbn in H; repeat destruct H as [<- | H]; try contradiction; split; discriminate end. }
        apply R in Hh, Hl. lra.
      - apply no_band. intros p q E Hp [_ (hi & lo & Hh & Hl & _ & W)]. assert (forall x, In x (map k_of p) -> (12 <= x <= 14)%Q) as R.
        { intros x Hx. assert (In x (map k_of (skipn 4 ex_A))) as Hy by (rewrite E, map_app; apply in_app_iff; now left). cbn in Hy. repeat destruct Hy as [<- | Hy]; try contradiction; split; discriminate. }
        apply R in Hh, Hl. lra. }
    destruct (banded_unique _ _ _ _ B _ _ B') as [-> ->]. split; reflexivity.
Qed.
(** Rows at the end which do not make up a band are not shown. *)
Theorem C107_last_refuted : exists points, binning (fun x => x) 3 9 ex_A 5 (zlen ex_A) = Ok points /\ (added (map snd points) == 10)%Q /\ (added (map modes_of ex_A) == 14)%Q.
Proof. eexists. split; [vm_compute; reflexivity|]. split; vm_compute; reflexivity. Qed.
Print Assumptions C107_last_refuted.
(** If the first table has fewer rows than the second, its last row is taken several times. *)
Theorem C107_shorter_refuted : exists da points, (added (map modes_of da) == 3)%Q /\ binning (fun x => x) 4 9 da 0 2 = Ok points /\ (added (map snd points) == 6)%Q.
Proof. exists [ex_row 5 1 3 1 3 1]%Q. eexists. split; [reflexivity|]. split; vm_compute; reflexivity. Qed.
Print Assumptions C107_shorter_refuted.
(** With 32768 rows or more the program never shows anything: the number of a row is an integer of
    16 bits. *)
Theorem C107_many alog alog10 exp interpol least target steps fa fb rest ta tb A B growthfile inputfile newlines : table_lines 10 ta A fa -> table_lines 10 tb B fb -> 2 ^ 15 <= zlen B ->
  forall out, plot_spectrum alog alog10 exp interpol least target steps (Some (fa ++ fb ++ rest)) growthfile inputfile newlines <> Ok out.
Proof. exact (many_bins alog alog10 exp interpol least target steps fa fb rest ta tb A B growthfile inputfile newlines). Qed.
Print Assumptions C107_many.
Example C107_many_case : let t := repeat (ex_row 1 1 1 1 1 1) (Z.to_nat 40000) in table_lines 10 1 t (ex_lines 1 t) /\ 2 ^ 15 <= zlen t.
Proof.
  intro t. assert (zlen t = 40000) as E by (unfold t, zlen; rewrite repeat_length; apply Z2Nat.id; discriminate). split; [|rewrite E; discriminate].
  split; [unfold t; apply Forall_forall; intros x Hx; apply repeat_spec in Hx; now subst|]. split; [rewrite E; split; reflexivity | reflexivity].
Qed.

(** PlotCorrel shows r and xi of all rows. *)
Theorem C107_correl time table lines rest : table_lines 4 time table lines -> plot_correl (Some (lines ++ rest)) = Ok (map (fun r => (nth 0 r 0%Q, nth 1 r 0%Q)) table).
Proof. exact (correl_ok time table lines rest). Qed.
Print Assumptions C107_correl.
Example C107_correl_case : let t := [[1; 10; 3; 4]; [2; 5; 6; 7]]%Q in table_lines 4 1 t (ex_lines 1 t) /\ plot_correl (Some (ex_lines 1 t)) = Ok [(1, 10); (2, 5)]%Q.
Proof. split; [split; [repeat constructor | split; [split; reflexivity | reflexivity]] | vm_compute; reflexivity]. Qed.
