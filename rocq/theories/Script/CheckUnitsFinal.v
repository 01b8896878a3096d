(** check_units.py: proofs for C98. *)
From Coq Require Import QArith Qcanon Qround.
From Verif Require Import Base.Prelude Base.ListLemmas Base.Order Psort.MatchModel Util.UMatchModel Util.UMatchProofs Util.RangesModel Util.RangesSpec Util.RangesProofs.
From Verif Require Import Script.CheckUnitsModel Script.CheckUnitsSpec Script.CheckUnitsAlg.
From Coq Require Import ZifyBool ZifyNat.
Local Open Scope Z_scope.
Local Open Scope list_scope.

Notation row := (Z * (vec * vec))%type.
Definition keyed (i : Z) (rows : list row) : list row := filter (fun r => fst r =? i) rows.

(** *** columns of a table *)
Lemma zipwith_map {A B C D} (f : B -> C -> D) (g : A -> B) (h : A -> C) l : zipwith f (map g l) (map h l) = map (fun x => f (g x) (h x)) l.
Proof. induction l as [|x l IH]; cbn [map zipwith]; congruence. Qed.
Lemma mask_map {A B} (f : A -> B) (p : A -> bool) l : np_mask (map f l) (map p l) = map f (filter p l).
Proof. induction l as [|x l IH]; cbn [map np_mask filter]; [reflexivity|]. destruct (p x); cbn [map]; congruence. Qed.
Lemma take_map {A B} (f : A -> B) l idx d : (forall i, In i idx -> 0 <= i < zlen l) -> np_take (map f l) idx = Ok (map f (map (fun i => nth (Z.to_nat i) l d) idx)).
Proof.
  intro H. rewrite np_take_ok with (d := f d) by (intros; unfold zlen in *; rewrite map_length; auto). rewrite map_map. f_equal. apply map_ext. intro i. now rewrite map_nth.
Qed.
Lemma elements_map {A B} (f : A -> B) l r : elements (map f l) r = map f (elements l r).
Proof. unfold elements. now rewrite skipn_map, firstn_map. Qed.

(** *** means over ranges *)
Lemma ordered_length {A} (l : list A) rs r : forall c, 0 <= c -> ordered c rs (zlen l) -> In r rs -> 0 <= fst r /\ 0 <= snd r /\ zlen (elements l r) = snd r.
Proof.
  assert (forall c n, ordered c rs n -> c <= n) as Hle. { induction rs as [|[o k] rs IH]; intros c n H; cbn in H; [exact H|]. destruct H as (H1 & H2 & H3). apply IH in H3. lia. }
  clear Hle. assert (forall rs c n, ordered c rs n -> c <= n) as Hle. { intro rs'; induction rs' as [|[o k] rs' IH]; intros c n H; cbn in H; [exact H|]. destruct H as (H1 & H2 & H3). apply IH in H3. lia. }
  induction rs as [|[o k] rs IH]; intros c Hc H Hin; [easy|]. cbn in H. destruct H as (H1 & H2 & H3). destruct Hin as [<-|Hin].
  - apply Hle in H3. cbn [fst snd]. split; [lia|]. split; [lia|]. unfold elements, zlen in *. rewrite firstn_length, skipn_length. cbn [fst snd]. lia.
  - apply (IH (o + k)); [lia | exact H3 | exact Hin].
Qed.
Lemma mean_ranges_ok array off len : length off = length len -> ordered 0 (combine off len) (zlen array) ->
  mean_ranges array off len = Ok (map (fun r => vmean (elements array r)) (combine off len)).
Proof.
  intros E H. unfold mean_ranges. rewrite sum_mean by assumption. f_equal. apply map_ext_in. intros r Hr. destruct (ordered_length array _ r 0 ltac:(lia) H Hr) as (_ & H0 & H1).
  destruct (0 <? snd r) eqn:Ep.
  - destruct (elements array r) as [|u l] eqn:El; [unfold zlen in H1; cbn in H1; lia|]. unfold nsum. rewrite fold_vadd. rewrite <- H1. unfold vmean, mean. cbn [map vmap]. unfold of_Z, zlen, total. cbn [fold_right length]. rewrite !map_length. reflexivity.
  - destruct (elements array r) as [|u l] eqn:El; [reflexivity|]. unfold zlen in H1. cbn in H1. lia.
Qed.

(** *** rows in order of their key *)
Lemma elements_filter (rows : list row) i : sorted ZOrd (map fst rows) ->
  elements rows (searchsorted_left ZOrd (map fst rows) i, searchsorted_right ZOrd (map fst rows) i - searchsorted_left ZOrd (map fst rows) i) = keyed i rows.
Proof.
  unfold elements. cbn [fst snd]. induction rows as [|r rows IH]; intro Srt; [reflexivity|]. cbn [map] in Srt. inversion Srt as [|x l S' F E]; subst. specialize (IH S'). cbn [map searchsorted_left searchsorted_right].
  pose proof (ssl_bounds ZOrd (map fst rows) i) as B1. pose proof (ssr_bounds ZOrd (map fst rows) i) as B2. pose proof (ssl_le_ssr ZOrd (map fst rows) i) as B3. unfold ltb. cbn [leb ZOrd].
  unfold keyed. cbn [filter]. fold (keyed i rows). destruct (Z.leb_spec i (fst r)) as [L|L]; cbn [negb].
  - destruct (Z.leb_spec (fst r) i) as [L'|L'].
    + replace (fst r =? i) with true by lia. assert (searchsorted_left ZOrd (map fst rows) i = 0) as Z0.
      { destruct rows as [|r' rows']; [reflexivity|]. cbn [map searchsorted_left]. unfold ltb. cbn [leb ZOrd]. cbn [map] in F. inversion F as [|? ? F1 _]; subst. cbn [leb ZOrd] in F1. replace (i <=? fst r') with true by lia. reflexivity. }
      rewrite Z0 in IH, B3. replace (Z.to_nat (1 + searchsorted_right ZOrd (map fst rows) i - 0)) with (S (Z.to_nat (searchsorted_right ZOrd (map fst rows) i - 0))) by lia. cbn [Z.to_nat skipn firstn]. f_equal. exact IH.
    + replace (fst r =? i) with false by lia. cbn. assert (forall r', In r' rows -> (fst r' =? i) = false) as N.
      { intros r' Hr'. rewrite Forall_forall in F. specialize (F (fst r') ltac:(now apply in_map)). cbn [leb ZOrd] in F. lia. }
      symmetry. unfold keyed. clear -N. induction rows as [|x rows IH]; [reflexivity|]. cbn [filter]. rewrite N by now left. apply IH. intros r' Hr'. apply N. now right.
  - replace (fst r =? i) with false by lia. replace (fst r <=? i) with true by lia.
    replace (Z.to_nat (1 + searchsorted_left ZOrd (map fst rows) i)) with (S (Z.to_nat (searchsorted_left ZOrd (map fst rows) i))) by lia. cbn [skipn].
    replace (1 + searchsorted_right ZOrd (map fst rows) i - (1 + searchsorted_left ZOrd (map fst rows) i)) with (searchsorted_right ZOrd (map fst rows) i - searchsorted_left ZOrd (map fst rows) i) by lia. exact IH.
Qed.
Lemma ssr_next l i : sorted ZOrd l -> searchsorted_right ZOrd l i = searchsorted_left ZOrd l (i + 1).
Proof.
  intro S. rewrite ssr_count, ssl_count by exact S. unfold count_le, count_lt, count. f_equal. apply filter_ext. intro x. unfold ltb. cbn [leb ZOrd]. lia.
Qed.
Lemma ordered_keys l n : sorted ZOrd l -> forall s, ordered (searchsorted_left ZOrd l s)
  (combine (map (searchsorted_left ZOrd l) (zseq s n)) (zipwith Z.sub (map (searchsorted_right ZOrd l) (zseq s n)) (map (searchsorted_left ZOrd l) (zseq s n)))) (zlen l).
Proof.
  intro S. induction n as [|n IH]; intro s; cbn [zseq map zipwith combine ordered].
  - apply ssl_bounds.
  - split; [lia|]. split; [pose proof (ssl_le_ssr ZOrd l s); lia|]. replace (searchsorted_left ZOrd l s + (searchsorted_right ZOrd l s - searchsorted_left ZOrd l s)) with (searchsorted_left ZOrd l (s + 1)) by (rewrite <- ssr_next by exact S; lia).
    apply IH.
Qed.
Lemma ordered_weaken rs n : forall c c', c' <= c -> ordered c rs n -> ordered c' rs n.
Proof. destruct rs as [|[o k] rs]; cbn; intros; [lia|]. destruct H0 as (H1 & H2 & H3). split; [lia|]. now split. Qed.
Lemma combine_map {A B C} (f : A -> B) (g : A -> C) l : combine (map f l) (map g l) = map (fun x => (f x, g x)) l.
Proof. induction l; cbn; congruence. Qed.
Lemma amax_ok l m : amax l = Ok m -> In m l /\ forall x, In x l -> x <= m.
Proof.
  destruct l as [|x l]; [discriminate|]. cbn [amax]. intro E. injection E as <-. revert x. induction l as [|y l IH]; intro x; cbn [fold_left].
  - split; [now left|]. intros z [<-|[]]. lia.
  - destruct (IH (Z.max x y)) as (H1 & H2). split.
    + destruct H1 as [H1|H1]; [|right; now right]. rewrite <- H1. destruct (Z.max_spec x y) as [[_ E]|[_ E]]; rewrite E; [right; left | left]; reflexivity.
    + intros z [<-|[<-|Hz]]; [| |apply H2; now right]; specialize (H2 (Z.max x y) (or_introl eq_refl)); lia.
Qed.

Section Means.
  Variables (box a s : Qc) (rows : list row).
  Hypothesis Hs : sorted ZOrd (map fst rows).
  Hypothesis Hp : forall r, In r rows -> 0 <= fst r.
  Let d : row := (0, (vzero, vzero)).
  Definition ref_pos (i : Z) : vec := fst (snd (hd d (keyed i rows))).
  Definition wrapped (r : row) : vec := vadd (vmap (wrap box) (vsub (fst (snd r)) (ref_pos (fst r)))) (ref_pos (fst r)).
  Lemma first_ok r : In r rows -> let k := searchsorted_left ZOrd (map fst rows) (fst r) in 0 <= k < zlen rows /\ fst (snd (nth (Z.to_nat k) rows d)) = ref_pos (fst r).
  Proof using Hs Hp.
    intro Hr. cbv zeta. pose proof (elements_filter rows (fst r) Hs) as E. unfold elements in E. cbn [fst snd] in E. set (k := searchsorted_left ZOrd (map fst rows) (fst r)) in *. set (k' := searchsorted_right ZOrd (map fst rows) (fst r)) in *.
    assert (In r (keyed (fst r) rows)) as Hin by (apply filter_In; split; [exact Hr | lia]).
    pose proof (ssl_bounds ZOrd (map fst rows) (fst r)) as B. fold k in B. unfold zlen in *. rewrite map_length in B.
    assert (Z.to_nat k < length rows)%nat as L. { destruct (Nat.lt_ge_cases (Z.to_nat k) (length rows)) as [L|L]; [exact L|]. rewrite skipn_all2 in E by lia. rewrite firstn_nil in E. rewrite <- E in Hin. destruct Hin. }
    split; [lia|]. unfold ref_pos. rewrite <- E. f_equal. f_equal. rewrite <- (firstn_skipn (Z.to_nat k) rows) at 1. rewrite app_nth2 by (rewrite firstn_length; lia). rewrite firstn_length. replace (Z.to_nat k - Nat.min (Z.to_nat k) (length rows))%nat with 0%nat by lia.
    destruct (skipn (Z.to_nat k) rows) as [|x l] eqn:Es; [rewrite firstn_nil in E; rewrite <- E in Hin; destruct Hin|]. destruct (Z.to_nat (k' - k)) as [|n]; [rewrite <- E in Hin; destruct Hin|]. reflexivity.
  Qed.
  Lemma sub_means_ok : rows <> [] -> exists n, 0 < n /\ In (n - 1) (map fst rows) /\ (forall r, In r rows -> fst r < n) /\
    sub_means box a s (map (fun r => fst (snd r)) rows) (map (fun r => snd (snd r)) rows) (map fst rows) =
    Ok (map (fun i => vmean (map wrapped (keyed i rows))) (zseq 0 (Z.to_nat n)),
        map (fun i => vscale (vmean (map (fun r => snd (snd r)) (keyed i rows))) s) (zseq 0 (Z.to_nat n)),
        map (fun i => spin a s (map (fun r => (wrapped r, snd (snd r))) (keyed i rows))) (zseq 0 (Z.to_nat n))).
  Proof using Hs Hp.
    intro Hne. destruct (amax (map fst rows)) as [m|e] eqn:Em; [|destruct rows; [easy|discriminate]]. destruct (amax_ok _ _ Em) as (M1 & M2). exists (m + 1).
    assert (0 <= m) as Hm by (apply in_map_iff in M1; destruct M1 as (r & <- & Hr); now apply Hp).
    split; [lia|]. split; [now replace (m + 1 - 1) with m by lia|]. split; [intros r Hr; specialize (M2 (fst r) ltac:(now apply in_map)); lia|].
    unfold sub_means. rewrite Em. cbn [bind]. set (Z0 := zseq 0 (Z.to_nat (m + 1))). set (keys := map fst rows) in *.
    set (fp := map (searchsorted_left ZOrd keys) Z0). set (np := zipwith Z.sub (map (searchsorted_right ZOrd keys) Z0) fp).
    assert (forall r, In r rows -> 0 <= fst r < zlen Z0) as Hk. { intros r Hr. unfold Z0. rewrite zlen_zseq. specialize (Hp r Hr). specialize (M2 (fst r) ltac:(now apply in_map)). lia. }
    assert (forall B (g : Z -> B), np_take (map g Z0) keys = Ok (map (fun r => g (fst r)) rows)) as Take.
    { intros B g. rewrite take_map with (d := 0). - unfold keys. rewrite !map_map. f_equal. apply map_ext_in. intros r Hr. specialize (Hk r Hr). unfold Z0 in *. rewrite zlen_zseq in Hk. rewrite nth_zseq by lia. f_equal. lia. - intros i Hi. unfold keys in Hi. apply in_map_iff in Hi. destruct Hi as (r & <- & Hr). now apply Hk. }
    unfold fp at 1. rewrite Take. cbn [bind].
    rewrite take_map with (d := d) by (intros i Hi; apply in_map_iff in Hi; destruct Hi as (r & <- & Hr); now apply (first_ok r Hr)). cbn [bind]. rewrite !map_map.
    assert (map (fun r : row => fst (snd (nth (Z.to_nat (searchsorted_left ZOrd keys (fst r))) rows d))) rows = map (fun r => ref_pos (fst r)) rows) as Ef by (apply map_ext_in; intros r Hr; now apply (first_ok r Hr)).
    rewrite Ef. rewrite zipwith_map, map_map, zipwith_map. fold (wrap box).
    change (map _ rows) with (map wrapped rows) at 1.
    assert (np = map (fun i => searchsorted_right ZOrd keys i - searchsorted_left ZOrd keys i) Z0) as Enp by (unfold np, fp; apply zipwith_map).
    assert (length fp = length np) as El by (rewrite Enp; unfold fp; now rewrite !map_length).
    assert (forall B (l : list B), length l = length rows -> ordered 0 (combine fp np) (zlen l)) as Ho.
    { intros B l Hl. apply ordered_weaken with (c := searchsorted_left ZOrd keys 0); [apply ssl_bounds|]. replace (zlen l) with (zlen keys) by (unfold zlen, keys; rewrite map_length; lia). unfold np, fp, Z0. now apply ordered_keys. }
    assert (forall g : row -> vec, mean_ranges (map g rows) fp np = Ok (map (fun i => vmean (map g (keyed i rows))) Z0)) as Mean.
    { intro g. rewrite mean_ranges_ok by (auto; apply Ho; now rewrite map_length). f_equal. rewrite Enp. unfold fp. rewrite combine_map, map_map. apply map_ext. intro i. rewrite elements_map. unfold keys. now rewrite elements_filter. }
    rewrite Mean. cbn [bind]. rewrite Mean. cbn [bind]. rewrite map_map. rewrite Take. cbn [bind]. rewrite Take. cbn [bind]. rewrite !zipwith_map, !map_map, zipwith_map.
    rewrite Mean. cbn [bind]. apply (f_equal Ok). apply f_equal2; [reflexivity|]. apply map_ext. intro i. rewrite <- (script_spin a s (vscale (vmean (map (fun r : row => snd (snd r)) (keyed i rows))) s)). rewrite !map_map. cbn [fst snd].
    f_equal. apply map_ext_in. intros r Hr. apply filter_In in Hr. destruct Hr as (_ & Hr). apply Z.eqb_eq in Hr. subst i. unfold script_cross. cbn [fst snd]. reflexivity.
  Qed.
End Means.

Lemma filter_all {A} (p : A -> bool) l : (forall x, In x l -> p x = true) -> filter p l = l.
Proof. induction l as [|x l IH]; intro H; [reflexivity|]. cbn [filter]. rewrite H by now left. f_equal. apply IH. intros y Hy. apply H. now right. Qed.
Lemma filter_none {A} (p : A -> bool) l : (forall x, In x l -> p x = false) -> filter p l = [].
Proof. induction l as [|x l IH]; intro H; [reflexivity|]. cbn [filter]. rewrite H by now left. apply IH. intros y Hy. apply H. now right. Qed.
Lemma filter_range {A} (p : A -> bool) (l : list A) (o n : nat) : (forall k x, nth_error l k = Some x -> p x = true <-> (o <= k < o + n)%nat) -> filter p l = firstn n (skipn o l).
Proof.
  intro H. rewrite <- (firstn_skipn o l) at 1. rewrite filter_app. rewrite <- (firstn_skipn n (skipn o l)) at 1. rewrite filter_app.
  assert (forall k x, nth_error l k = Some x -> ~ (o <= k < o + n)%nat -> p x = false) as H'.
  { intros k x E N. destruct (p x) eqn:Ep; [|reflexivity]. apply (H k x E) in Ep. contradiction. }
  rewrite (filter_none p (firstn o l)), (filter_all p (firstn n (skipn o l))), (filter_none p (skipn n (skipn o l))).
  - now rewrite app_nil_r.
  - intros x Hx. apply In_nth_error in Hx. destruct Hx as (k & E). rewrite !nth_error_skipn' in E. apply (H' _ x E). lia.
  - intros x Hx. apply In_nth_error in Hx. destruct Hx as (k & E). rewrite nth_error_firstn' in E. destruct (k <? n)%nat eqn:Ek; [|discriminate]. rewrite nth_error_skipn' in E. apply (H _ x E). lia.
  - intros x Hx. apply In_nth_error in Hx. destruct Hx as (k & E). rewrite nth_error_firstn' in E. destruct (k <? o)%nat eqn:Ek; [|discriminate]. apply (H' _ x E). lia.
Qed.
Lemma keyed_perm i l m : Permutation l m -> Permutation (keyed i l) (keyed i m).
Proof.
  unfold keyed. induction 1; cbn [filter]; auto; try (now transitivity (filter (fun r => fst r =? i) l')).
  - destruct (fst x =? i); [now constructor | assumption].
  - destruct (fst x =? i), (fst y =? i); try reflexivity. constructor.
Qed.
Lemma Forall2_map_eq {A B C} (R : A -> B -> Prop) (f : A -> C) (g : B -> C) l m : Forall2 R l m -> (forall x y, In x l -> In y m -> R x y -> f x = g y) -> map f l = map g m.
Proof.
  induction 1 as [|x y l m H F IH]; intro E; [reflexivity|]. cbn [map]. f_equal; [apply E; [now left | now left | exact H]|]. apply IH. intros u v Hu Hv. apply E; now right.
Qed.
Lemma Forall2_In_r {A B} (R : A -> B -> Prop) l m y : Forall2 R l m -> In y m -> exists x, In x l /\ R x y.
Proof. induction 1 as [|x y' l m H F IH]; intros []; [subst; exists x; split; [now left | exact H]|]. destruct IH as (x' & H1 & H2); [assumption|]. exists x'. split; [now right | exact H2]. Qed.
Lemma Forall2_nth {A B} (R : A -> B -> Prop) l m k x y : Forall2 R l m -> nth_error l k = Some x -> nth_error m k = Some y -> R x y.
Proof. intro F. revert k; induction F as [|x' y' l m H F IH]; intros [|k] E1 E2; try discriminate; cbn in *; [congruence|]. eauto. Qed.
Lemma Forall2_intro {A B} (R : A -> B -> Prop) l m : length l = length m -> (forall k x y, nth_error l k = Some x -> nth_error m k = Some y -> R x y) -> Forall2 R l m.
Proof.
  revert m; induction l as [|x l IH]; intros [|y m] E H; try discriminate; constructor; [apply (H O); reflexivity|]. apply IH; [now injection E|]. intros k u v. apply (H (S k)).
Qed.

Section Script.
  Variables (np_argsort : list Z -> list Z) (box a s : Qc) (pos vel : list vec) (ids sublen suboffset gids : list Z).
  Hypothesis Hsort : forall l, is_argsort ZOrd l (np_argsort l).
  Hypothesis Hids : NoDup ids.
  Hypothesis Hpos : length pos = length ids.
  Hypothesis Hvel : length vel = length ids.
  Hypothesis Hg : incl gids ids.
  Hypothesis Hlen : length suboffset = length sublen.
  Hypothesis Hord : ordered 0 (combine suboffset sublen) (zlen gids).
  Let d : row := (0, (vzero, vzero)).

  (** the particle of an id *)
  Definition is_row (g : Z) (r : row) : Prop := exists k, nth_error ids k = Some g /\ nth_error pos k = Some (fst (snd r)) /\ nth_error vel k = Some (snd (snd r)).
  Lemma rows_ok : exists rows rows0,
    sub_particles np_argsort pos vel ids sublen suboffset gids = Ok (map (fun r => fst (snd r)) rows, map (fun r => snd (snd r)) rows, map fst rows) /\
    sorted ZOrd (map fst rows) /\ (forall r, In r rows -> 0 <= fst r) /\ (forall i, 0 <= i -> Permutation (keyed i rows) (keyed i rows0)) /\
    Forall2 is_row gids rows0 /\ assigned (map (fun _ => -1) gids) (combine suboffset sublen) (zseq 0 (length sublen)) (map fst rows0).
  Proof using All.
    unfold sub_particles. replace (Z.to_nat (zlen sublen)) with (length sublen) by (unfold zlen; lia).
    destruct (assign_assigned (map (fun _ => -1) gids) suboffset sublen (zseq 0 (length sublen))) as (subnr & Es & As); [exact Hlen | now rewrite zseq_length | unfold zlen in *; now rewrite map_length|].
    rewrite Es. cbn [bind]. destruct (match_main ZOrd (np_argsort ids) false None gids ids) as (ptr & Ep & Fp); [apply Hsort|]. rewrite Ep. cbn [bind].
    assert (Forall2 (fun g j => 0 <= j /\ nth_error ids (Z.to_nat j) = Some g) gids ptr) as Fq.
    { clear -Fp Hg. induction Fp as [|g j gids' ptr H F IH]; constructor.
      - destruct H as [[_ N]|H]; [|exact H]. exfalso. apply N. apply Hg. now left.
      - apply IH. intros x Hx. apply Hg. now right. }
    assert (forall j, In j ptr -> 0 <= j < zlen ids) as Rp.
    { intros j Hj. destruct (Forall2_In_r _ _ _ j Fq Hj) as (g & _ & H1 & H2). assert (Z.to_nat j < length ids)%nat by (apply nth_error_Some; congruence). unfold zlen. lia. }
    assert (length ptr = length gids) as Lp by (symmetry; eapply Forall2_len; exact Fq).
    assert (length subnr = length gids) as Ls by (destruct As as (H & _); now rewrite map_length in H).
    set (gat := fun j => (nth (Z.to_nat j) pos vzero, nth (Z.to_nat j) vel vzero)). set (rows0 := combine subnr (map gat ptr)).
    assert (map fst rows0 = subnr) as E0 by (apply map_fst_combine'; rewrite map_length; congruence).
    assert (map snd rows0 = map gat ptr) as E1 by (apply map_snd_combine'; rewrite map_length; congruence).
    assert (length rows0 = length gids) as L0 by (rewrite <- (map_length fst), E0; exact Ls).
    rewrite (np_take_ok pos ptr vzero) by (unfold zlen in *; rewrite Hpos; exact Rp). cbn [bind]. rewrite (np_take_ok vel ptr vzero) by (unfold zlen in *; rewrite Hvel; exact Rp). cbn [bind]. rewrite (np_take_ok ids ptr 0) by exact Rp. cbn [bind].
    assert (map (fun i => nth (Z.to_nat i) pos vzero) ptr = map (fun r : row => fst (snd r)) rows0) as Ec1 by (rewrite <- (map_map snd fst), E1, map_map; reflexivity).
    assert (map (fun i => nth (Z.to_nat i) vel vzero) ptr = map (fun r : row => snd (snd r)) rows0) as Ec2 by (rewrite <- (map_map snd snd), E1, map_map; reflexivity).
    rewrite Ec1, Ec2. pose proof (Hsort subnr) as Hi. set (idx := np_argsort subnr) in *.
    assert (forall i, In i idx -> 0 <= i < zlen rows0) as Ri by (intros i Hin; apply (is_argsort_In ZOrd _ _ _ Hi) in Hin; unfold zlen in *; lia).
    rewrite (take_map _ rows0 idx d) by exact Ri. cbn [bind]. rewrite (take_map _ rows0 idx d) by exact Ri. cbn [bind].
    rewrite (np_take_ok (map _ ptr) idx 0) by (intros i Hin; apply Ri in Hin; unfold zlen in *; rewrite map_length; lia). cbn [bind].
    rewrite <- E0. rewrite (take_map fst rows0 idx d) by exact Ri. cbn [bind]. set (rows1 := map (fun i => nth (Z.to_nat i) rows0 d) idx).
    rewrite (map_map fst (fun n => 0 <=? n)), !mask_map. exists (filter (fun r => 0 <=? fst r) rows1), rows0. split; [reflexivity|].
    assert (Permutation rows1 rows0) as P1.
    { unfold rows1. destruct Hi as [HP _]. rewrite (Permutation_map _ HP). rewrite Ls, <- L0. now rewrite map_nth_zseq. }
    assert (sorted ZOrd (map fst rows1)) as S1.
    { unfold rows1. rewrite map_map. pose proof (is_argsort_sorted ZOrd subnr idx 0 Hi) as S. erewrite map_ext_in in S; [exact S|]. intros i Hin. cbn beta. rewrite <- E0. change 0 with (fst d). now rewrite map_nth. }
    split; [|split; [|split; [|split]]].
    - clear -S1. induction rows1 as [|r l IH]; [constructor|]. cbn [map] in S1. inversion S1 as [|? ? S2 F]; subst. cbn [filter]. destruct (0 <=? fst r); [|now apply IH]. cbn [map]. constructor; [now apply IH|].
      rewrite Forall_forall in *. intros x Hx. apply F. apply in_map_iff in Hx. destruct Hx as (r' & <- & Hr'). apply filter_In in Hr'. apply in_map. tauto.
    - intros r Hr. apply filter_In in Hr. lia.
    - intros i Hi0. rewrite <- (keyed_perm i _ _ P1). assert (keyed i (filter (fun r => 0 <=? fst r) rows1) = keyed i rows1) as ->; [|reflexivity].
      clear -Hi0. unfold keyed. induction rows1 as [|r l IH]; [reflexivity|]. cbn [filter]. destruct (0 <=? fst r) eqn:E; cbn [filter]; destruct (fst r =? i) eqn:E'; try (f_equal; exact IH); try exact IH. lia.
    - apply Forall2_intro; [now symmetry|]. intros k g r Eg Er. assert (nth_error ptr k <> None) as N by (apply nth_error_Some; rewrite Lp; apply nth_error_Some; congruence). destruct (nth_error ptr k) as [j|] eqn:Ej; [|congruence].
      destruct (Forall2_nth _ _ _ _ _ _ Fq Eg Ej) as (J1 & J2). exists (Z.to_nat j). assert (snd r = gat j) as ->.
      { apply (map_nth_error snd) in Er. rewrite E1 in Er. apply (map_nth_error gat) in Ej. congruence. }
      assert (Z.to_nat j < length ids)%nat by (apply nth_error_Some; congruence). split; [exact J2|]. cbn [gat fst snd]. split; apply nth_error_nth'; congruence.
    - now rewrite E0.
  Qed.

  (** *** which rows have a key *)
  Lemma range_nth i o l : nth_error suboffset i = Some o -> nth_error sublen i = Some l -> nth_error (combine suboffset sublen) i = Some (o, l).
  Proof using. clear. revert i sublen; induction suboffset as [|x m IH]; intros [|i] [|y n] E1 E2; try discriminate; cbn in *; [congruence|]. now apply IH. Qed.
  Lemma range_inv i r : nth_error (combine suboffset sublen) i = Some r -> nth_error suboffset i = Some (fst r) /\ nth_error sublen i = Some (snd r).
  Proof using. clear. revert i sublen; induction suboffset as [|x m IH]; intros [|i] [|y n] E; try discriminate; cbn in *; [injection E as <-; now split|]. now apply IH. Qed.
  Lemma subnr_key subnr k v : assigned (map (fun _ => -1) gids) (combine suboffset sublen) (zseq 0 (length sublen)) subnr -> nth_error subnr k = Some v -> 0 <= v ->
    exists o l, nth_error suboffset (Z.to_nat v) = Some o /\ nth_error sublen (Z.to_nat v) = Some l /\ o <= Z.of_nat k < o + l.
  Proof using All.
    intros (A1 & A2 & A3) E Hv. destruct (Exists_dec (fun r => in_range r k) (combine suboffset sublen)) as [X|X].
    { intro r. unfold in_range. destruct (Z_le_dec (fst r) (Z.of_nat k)); [|right; lia]. destruct (Z_lt_dec (Z.of_nat k) (fst r + snd r)); [left|right]; lia. }
    - apply Exists_exists in X. destruct X as (r & Hr & Rr). apply In_nth_error in Hr. destruct Hr as (i & Ei). destruct (range_inv i r Ei) as (E1 & E2). assert (i < length sublen)%nat as Li by (apply nth_error_Some; congruence).
      specialize (A2 i r (Z.of_nat i) k Ei). rewrite nth_error_zseq in A2 by exact Li. specialize (A2 eq_refl Rr). assert (v = Z.of_nat i) as -> by congruence. rewrite Nat2Z.id. exists (fst r), (snd r). split; [exact E1|]. split; [exact E2|]. exact Rr.
    - rewrite A3 in E; [|intros r Hr N; apply X; apply Exists_exists; exists r; now split]. rewrite nth_error_map in E. destruct (nth_error gids k); [|discriminate]. injection E as <-. lia.
  Qed.
  Lemma keyed_slice rows0 i o l : assigned (map (fun _ => -1) gids) (combine suboffset sublen) (zseq 0 (length sublen)) (map fst rows0) ->
    nth_error suboffset i = Some o -> nth_error sublen i = Some l -> keyed (Z.of_nat i) rows0 = zslice rows0 o (o + l).
  Proof using All.
    intros A E1 E2. pose proof (range_nth i o l E1 E2) as Er. destruct (ordered_length gids _ (o, l) 0 ltac:(lia) Hord (nth_error_In _ _ Er)) as (H1 & H2 & _). cbn [fst snd] in H1, H2.
    assert (i < length sublen)%nat as Li by (apply nth_error_Some; congruence).
    unfold zslice. replace (Z.to_nat (o + l) - Z.to_nat o)%nat with (Z.to_nat l) by lia. unfold keyed. apply filter_range. intros k r E. apply (map_nth_error fst) in E. split.
    - intro Ef. apply Z.eqb_eq in Ef. destruct (subnr_key _ k (fst r) A E) as (o' & l' & E1' & E2' & R); [lia|]. rewrite Ef, Nat2Z.id in E1', E2'. assert (o' = o) by congruence. assert (l' = l) by congruence. subst. lia.
    - intro R. destruct A as (_ & A2 & _). specialize (A2 i (o, l) (Z.of_nat i) k Er). rewrite nth_error_zseq in A2 by exact Li. specialize (A2 eq_refl). unfold in_range in A2. cbn [fst snd] in A2. specialize (A2 ltac:(lia)). rewrite A2 in E. injection E as ->. lia.
  Qed.
  Lemma Forall2_zslice {A B} (R : A -> B -> Prop) l m x y : Forall2 R l m -> Forall2 R (zslice l x y) (zslice m x y).
  Proof using.
    intro F. unfold zslice. assert (forall n l m, Forall2 R l m -> Forall2 R (skipn n l) (skipn n m)) as Hskip by (clear; intro n; induction n as [|n IH]; intros l m F; [exact F|]; destruct F; [constructor|]; now apply IH).
    assert (forall n l m, Forall2 R l m -> Forall2 R (firstn n l) (firstn n m)) as Hfirst by (clear; intro n; induction n as [|n IH]; intros l m F; [constructor|]; destruct F; [constructor|]; constructor; auto). auto.
  Qed.

  (** *** one subhalo *)
  Definition same (m : vec * vec) (r : row) : Prop := image box (fst (snd r)) (fst m) /\ snd (snd r) = snd m.
  Lemma same_rows ms rs g : Forall2 is_row g rs -> particles_of box pos vel ids g ms -> Forall2 same ms rs.
  Proof using All.
    intros F1 F2. revert rs F1. induction F2 as [|x m g ms (k & p & E1 & E2 & E3 & I) F2 IH]; intros rs F1; inversion F1 as [|? r ? rs' (k' & E1' & E2' & E3') F1']; subst; constructor; [|now apply IH].
    assert (k = k') as <-. { apply (proj1 (NoDup_nth_error ids) Hids); [apply nth_error_Some; congruence | congruence]. }
    assert (fst (snd r) = p) by congruence. assert (snd (snd r) = snd m) by congruence. split; [now subst p | assumption].
  Qed.
  Lemma vec_eq (u v : vec) : x_of u = x_of v -> y_of u = y_of v -> z_of u = z_of v -> u = v.
  Proof using. destruct u as [[? ?] ?], v as [[? ?] ?]. cbn. congruence. Qed.
  Lemma image_opp p u : image box p u -> exists i j k : Z, vsub p u = (box * Q2Qc (inject_Z i), box * Q2Qc (inject_Z j), box * Q2Qc (inject_Z k))%Qc.
  Proof using.
    intros (i & j & k & ->). exists (- i), (- j), (- k). destruct p as [[x y] z]. cbn. rewrite !of_Z_opp. f_equal; [f_equal|]; ring.
  Qed.
  Lemma wrap_shift m r m' r' : (0 < box)%Qc -> same m r -> same m' r' -> near box (fst m) (fst m') ->
    vadd (vmap (wrap box) (vsub (fst (snd r)) (fst (snd r')))) (fst (snd r')) = vadd (fst m) (vsub (fst (snd r')) (fst m')).
  Proof using.
    intros Hb ((i & j & k & I) & _) ((i' & j' & k' & I') & _) N. destruct r as [? [[[x y] z] ?]], r' as [? [[[x' y'] z'] ?]]. cbn [fst snd] in *. unfold near in N. cbn [In] in N.
    pose proof (N x_of (or_introl eq_refl)) as (Nx & Nx'). pose proof (N y_of (or_intror (or_introl eq_refl))) as (Ny & Ny'). pose proof (N z_of (or_intror (or_intror (or_introl eq_refl)))) as (Nz & Nz').
    rewrite I, I' in *. unfold x_of, y_of, z_of in *. cbn [fst snd vsub vadd vmap] in *. fold (half box) in *.
    assert (forall x x' (i i' : Z), (- half box < x + box * Q2Qc (inject_Z i) - (x' + box * Q2Qc (inject_Z i')))%Qc -> (x + box * Q2Qc (inject_Z i) - (x' + box * Q2Qc (inject_Z i')) < half box)%Qc ->
      (wrap box (x - x') + x' = x + box * Q2Qc (inject_Z i) + (x' - (x' + box * Q2Qc (inject_Z i'))))%Qc) as W.
    { clear -Hb. intros x x' i i' L U. assert (x + box * Q2Qc (inject_Z i) - (x' + box * Q2Qc (inject_Z i')) = (x - x') + box * Q2Qc (inject_Z (i - i')))%Qc as E by (unfold Z.sub; rewrite of_Z_add, of_Z_opp; ring).
      rewrite E in L, U. rewrite (wrap_image box (x - x') (i - i') Hb L U), <- E. ring. }
    f_equal; [f_equal|]; apply W; assumption.
  Qed.
  Lemma vscale_times v : vscale v s = times s v.
  Proof using. destruct v as [[x y] z]. unfold vscale, vmap, times, x_of, y_of, z_of. cbn [fst snd]. now rewrite (Qcmult_comm x), (Qcmult_comm y), (Qcmult_comm z). Qed.
  Lemma vmean_shift t ms : ms <> [] -> vmean (map (fun m : vec * vec => vadd (fst m) t) ms) = vadd (vmean (map fst ms)) t.
  Proof using.
    intro N. unfold vmean. rewrite !map_map. destruct t as [[tx ty] tz]. cbn [vadd]. f_equal; [f_equal|].
    - etransitivity; [|exact (M_shift (fun m => x_of (fst m)) tx ms N)]. apply M_ext. intros [[[? ?] ?] ?] _. reflexivity.
    - etransitivity; [|exact (M_shift (fun m => y_of (fst m)) ty ms N)]. apply M_ext. intros [[[? ?] ?] ?] _. reflexivity.
    - etransitivity; [|exact (M_shift (fun m => z_of (fst m)) tz ms N)]. apply M_ext. intros [[[? ?] ?] ?] _. reflexivity.
  Qed.
  Lemma one_subhalo rows rs i ms : (0 < box)%Qc -> Permutation (keyed i rows) rs -> Forall2 same ms rs -> compact box ms ->
    spin a s (map (fun r => (wrapped box rows r, snd (snd r))) (keyed i rows)) = spin a s ms /\
    vmean (map (fun r : row => snd (snd r)) (keyed i rows)) = vmean (map snd ms) /\
    image box (vmean (map fst ms)) (vmean (map (wrapped box rows) (keyed i rows))).
  Proof using.
    intros Hb P F C. assert (forall u v : vec, u = v -> image box u v) as Refl.
    { intros u v ->. exists 0, 0, 0. destruct v as [[? ?] ?]. cbn. change (Q2Qc (inject_Z 0)) with 0%Qc. f_equal; [f_equal|]; ring. }
    destruct ms as [|m0 ms'].
    { inversion F; subst. apply Permutation_sym, Permutation_nil in P. rewrite P. cbn [map]. split; [reflexivity|]. split; [reflexivity|]. now apply Refl. }
    set (ms := m0 :: ms') in *. assert (ms <> []) as Ne by easy. clearbody ms.
    set (r' := hd d (keyed i rows)). assert (In r' rs) as Hr'.
    { apply (Permutation_in _ P). unfold r'. destruct (keyed i rows) as [|x l] eqn:E; [|now left]. apply Permutation_nil in P. subst rs. inversion F; subst; easy. }
    destruct (Forall2_In_r _ _ _ r' F Hr') as (m' & Hm' & S'). set (t := vsub (fst (snd r')) (fst m')).
    assert (forall r, In r (keyed i rows) -> wrapped box rows r = vadd (vmap (wrap box) (vsub (fst (snd r)) (fst (snd r')))) (fst (snd r'))) as W.
    { intros r Hr. apply filter_In in Hr. destruct Hr as (_ & Hr). apply Z.eqb_eq in Hr. unfold wrapped, ref_pos. rewrite Hr. reflexivity. }
    set (w := fun r : row => vadd (vmap (wrap box) (vsub (fst (snd r)) (fst (snd r')))) (fst (snd r'))) in *.
    assert (map (fun m => (vadd (fst m) t, snd m)) ms = map (fun r => (w r, snd (snd r))) rs) as E.
    { apply (Forall2_map_eq same); [exact F|]. intros m r Hm Hr Sm. unfold w, t. rewrite (wrap_shift m r m' r') by (auto; now apply C). destruct Sm as (_ & ->). reflexivity. }
    split; [|split].
    - rewrite <- (spin_shift a s t ms). unfold shift. rewrite E. apply spin_perm. rewrite <- P. apply eq_ind with (P := fun l => Permutation _ l) (x := map (fun r => (wrapped box rows r, snd (snd r))) (keyed i rows)); [reflexivity|].
      apply map_ext_in. intros r Hr. now rewrite W.
    - assert (map snd ms = map (fun r : row => snd (snd r)) rs) as ->; [|apply vmean_perm; now apply Permutation_map].
      apply (f_equal (map snd)) in E. rewrite !map_map in E. exact E.
    - assert (vmean (map (wrapped box rows) (keyed i rows)) = vadd (vmean (map fst ms)) t) as ->.
      { rewrite <- vmean_shift by exact Ne. apply (f_equal (map fst)) in E. rewrite !map_map in E. cbn [fst] in E. rewrite E. rewrite (map_ext_in _ w) by exact W. apply vmean_perm. now apply Permutation_map. }
      destruct S' as (I & _). destruct (image_opp _ _ I) as (p & q & n & Et). unfold t. rewrite Et. exists p, q, n. destruct (vmean (map fst ms)) as [[? ?] ?]. reflexivity.
  Qed.

  Theorem spin_ok : (0 < box)%Qc -> (exists l, In l sublen /\ 0 < l) -> exists mp mv am n, check_units np_argsort box a s pos vel ids sublen suboffset gids = Ok (mp, mv, am) /\
    last_nonempty sublen n /\ zlen mp = n /\ zlen mv = n /\ zlen am = n /\
    forall i o l ms, Z.of_nat i < n -> nth_error suboffset i = Some o -> nth_error sublen i = Some l -> particles_of box pos vel ids (zslice gids o (o + l)) ms -> compact box ms ->
      nth_error am i = Some (spin a s ms) /\ nth_error mv i = Some (times s (vmean (map snd ms))) /\ exists p, nth_error mp i = Some p /\ image box (vmean (map fst ms)) p.
  Proof using All.
    intros Hb Hne. destruct rows_ok as (rows & rows0 & E & S & Hp & P & F & A).
    assert (forall i o l, nth_error suboffset i = Some o -> nth_error sublen i = Some l -> 0 < l -> exists r, In r rows /\ fst r = Z.of_nat i) as Hrow.
    { intros i o l E1 E2 L. pose proof (P (Z.of_nat i) ltac:(lia)) as Pi. rewrite (keyed_slice rows0 i o l A E1 E2) in Pi.
      pose proof (range_nth i o l E1 E2) as Er. destruct (ordered_length rows0 _ (o, l) 0 ltac:(lia) ltac:(unfold zlen in *; rewrite <- (Forall2_len _ _ _ F); exact Hord) (nth_error_In _ _ Er)) as (H1 & H2 & H3). cbn [fst snd] in *. unfold elements in H3. cbn [fst snd] in H3.
      assert (zslice rows0 o (o + l) = firstn (Z.to_nat l) (skipn (Z.to_nat o) rows0)) as Ez by (unfold zslice; f_equal; lia). rewrite Ez in Pi. destruct (firstn (Z.to_nat l) (skipn (Z.to_nat o) rows0)) as [|r rr]; [unfold zlen in H3; cbn in H3; lia|].
      exists r. assert (In r (keyed (Z.of_nat i) rows)) as Hr by (apply (Permutation_in _ (Permutation_sym Pi)); now left). apply filter_In in Hr. split; [tauto|]. lia. }
    assert (rows <> []) as Rne.
    { destruct Hne as (l & Hl & Lp). apply In_nth_error in Hl. destruct Hl as (i & E2). assert (nth_error suboffset i <> None) as N by (apply nth_error_Some; rewrite Hlen; apply nth_error_Some; congruence). destruct (nth_error suboffset i) as [o|] eqn:E1; [|congruence].
      destruct (Hrow i o l E1 E2 Lp) as (r & Hr & _). intros ->. destruct Hr. }
    destruct (sub_means_ok box a s rows S Hp Rne) as (n & Hn & Nin & Nle & Em). unfold check_units. rewrite E. cbn [bind]. rewrite Em. do 3 eexists. exists n. split; [reflexivity|].
    split; [|unfold zlen; rewrite ?map_length, ?zseq_length].
    - split.
      + apply in_map_iff in Nin. destruct Nin as (r & Er & Hr). assert (In r (keyed (n - 1) rows)) as Hk by (apply filter_In; split; [exact Hr | lia]). apply (Permutation_in _ (P (n - 1) ltac:(lia))) in Hk. apply filter_In in Hk. destruct Hk as (Hk & _).
        apply In_nth_error in Hk. destruct Hk as (k & Ek). apply (map_nth_error fst) in Ek. destruct (subnr_key _ k (fst r) A Ek) as (o & l & E1 & E2 & R); [lia|]. rewrite Er in E2. exists l. split; [lia|]. split; [exact E2 | lia].
      + intros k l E2 Hk. assert (nth_error suboffset k <> None) as N by (apply nth_error_Some; rewrite Hlen; apply nth_error_Some; congruence). destruct (nth_error suboffset k) as [o|] eqn:E1; [|congruence].
        destruct (ordered_length gids _ (o, l) 0 ltac:(lia) Hord (nth_error_In _ _ (range_nth k o l E1 E2))) as (_ & H2 & _). cbn [snd] in H2. destruct (Z.eq_dec l 0) as [|L]; [assumption|]. destruct (Hrow k o l E1 E2 ltac:(lia)) as (r & Hr & Er). specialize (Nle r Hr). lia.
    - split; [lia|]. split; [lia|]. split; [lia|]. intros i o l ms Hi E1 E2 Pm C.
      assert (forall B (g : Z -> B), nth_error (map g (zseq 0 (Z.to_nat n))) i = Some (g (Z.of_nat i))) as Nth by (intros B g; rewrite nth_error_map, nth_error_zseq by lia; reflexivity).
      rewrite !Nth. destruct (one_subhalo rows (zslice rows0 o (o + l)) (Z.of_nat i) ms Hb) as (H1 & H2 & H3).
      + rewrite <- (keyed_slice rows0 i o l A E1 E2). apply P. lia.
      + eapply same_rows; [|exact Pm]. now apply Forall2_zslice.
      + exact C.
      + rewrite H1, H2, vscale_times. split; [reflexivity|]. split; [reflexivity|]. eexists. split; [reflexivity|]. exact H3.
  Qed.
  (** without particles in any subhalo np.amax fails *)
  Theorem none_fails : (forall l, In l sublen -> l = 0) -> check_units np_argsort box a s pos vel ids sublen suboffset gids = Err EValue.
  Proof using All.
    intro H0. destruct rows_ok as (rows & rows0 & E & S & Hp & P & F & A). unfold check_units. rewrite E. cbn [bind]. destruct rows as [|r rows]; [reflexivity|]. exfalso.
    specialize (Hp r (or_introl eq_refl)). assert (In r (keyed (fst r) (r :: rows))) as Hk by (apply filter_In; split; [now left | lia]). apply (Permutation_in _ (P (fst r) Hp)) in Hk. apply filter_In in Hk. destruct Hk as (Hk & _).
    apply In_nth_error in Hk. destruct Hk as (k & Ek). apply (map_nth_error fst) in Ek. destruct (subnr_key _ k (fst r) A Ek Hp) as (o & l & E1 & E2 & R). apply nth_error_In in E2. apply H0 in E2. lia.
  Qed.
End Script.
