From Coq Require Import String.
From Verif Require Import Base.Prelude Base.ListLemmas Util.RangesModel Index.IndexModel.
From Verif Require Import Snap.ReadModel Snap.ReadSpec Snap.RangeProofs Snap.FofProofs.
From Coq Require Import ZifyBool ZifyNat.
Local Open Scope Z_scope.

Lemma mapM_Forall2 {X Y} (f : X -> res Y) (R : X -> Y -> Prop) l : (forall x, In x l -> exists y, f x = Ok y /\ R x y) ->
  exists ys, mapM f l = Ok ys /\ Forall2 R l ys.
Proof.
  induction l as [|x l IH]; intro H; [exists []; split; [reflexivity|constructor]|].
  destruct (H x (or_introl eq_refl)) as (y & E & HR). destruct IH as (ys & E2 & F); [intros; apply H; now right|].
  exists (y :: ys). cbn. rewrite E. cbn. rewrite E2. split; [reflexivity|now constructor].
Qed.
Lemma mapM_map {X Y Z'} (f : Y -> res Z') (g : X -> Y) l : mapM f (map g l) = mapM (fun x => f (g x)) l.
Proof. induction l as [|x l IH]; [reflexivity|]. cbn. now rewrite IH. Qed.
Lemma mapM_ext_in {X Y} (f g : X -> res Y) l : (forall x, In x l -> f x = g x) -> mapM f l = mapM g l.
Proof. induction l as [|x l IH]; intro H; [reflexivity|]. cbn. rewrite H by (now left). rewrite IH; [reflexivity|]. intros; apply H; now right. Qed.

Section Final.
  Context {A : Type}.
  Variables (c : fofcat) (xs : list (@finfo A)) (i : Z).
  Hypothesis Hc : cat_ok c.
  Hypothesis Hx : Forall finfo_ok xs.
  Hypothesis Hi : 0 <= i < zlen (foflentype c).
  Hypothesis Hin : forall t, In t types -> group_start c i t + group_len c i t <= tot xs t.
  Let gs := map f_rows xs.

  (** one type's result when [lost t] particles were not read *)
  Definition type_out (lost : Z -> Z) (t : Z) : res (@fof_result A) :=
    let n := group_len c i t - lost t in
    if n =? 0 then Ok None
    else do s <- sub_nr c i t n; Ok (Some (map (fun nm => firstn (Z.to_nat n) (group_rows c gs i t nm)) three, s)).

  Lemma in_types t : In t types -> 0 <= t < 6. Proof. clear. unfold types. cbn. lia. Qed.
  Lemma len_nonneg t : In t types -> 0 <= group_len c i t.
  Proof. clear Hin Hx gs xs.
    intro Ht. destruct Hc as (C1 & _). rewrite Forall_forall in C1. unfold group_len.
    destruct (C1 (nth (Z.to_nat i) (foflentype c) [])) as [L P]; [apply nth_In; unfold zlen in Hi; lia|].
    rewrite Forall_forall in P. apply P, nth_In. rewrite L. pose proof (in_types t Ht). lia.
  Qed.
  Lemma start_nonneg t : In t types -> 0 <= group_start c i t.
  Proof. clear Hin Hx gs xs.
    intro Ht. unfold group_start. apply sumZ_nonneg. apply Forall_map. destruct Hc as (C1 & _). rewrite Forall_forall in *. intros r Hr.
    destruct (C1 r) as [L P]; [rewrite <- (firstn_skipn (Z.to_nat i)); apply in_or_app; now left|].
    rewrite Forall_forall in P. apply P, nth_In. rewrite L. pose proof (in_types t Ht). lia.
  Qed.
  Lemma tot_split m t : tot xs t = tot (firstn m xs) t + tot (skipn m xs) t.
  Proof. clear. unfold tot. rewrite <- sumZ_app, <- map_app, firstn_skipn. reflexivity. Qed.
  Lemma rows_split m t nm : all_rows xs t nm = all_rows (firstn m xs) t nm ++ all_rows (skipn m xs) t nm.
  Proof. clear. unfold all_rows. rewrite <- concat_app, <- map_app, firstn_skipn. reflexivity. Qed.
  Lemma group_rows_all t nm : group_rows c gs i t nm = zslice (all_rows xs t nm) (group_start c i t) (group_start c i t + group_len c i t).
  Proof. unfold group_rows, gs, all_rows. now rewrite map_map. Qed.

  (** the files read stop short of at most one particle of each type *)
  Lemma read_part (lastp : Z -> Z) m t nm : In t types -> In nm three -> lastp t = group_start c i t + group_len c i t - 1 ->
    (m = length xs \/ lastp t <= tot (firstn m xs) t) ->
    let lost := if (0 <? group_len c i t) && (tot (firstn m xs) t <? group_start c i t + group_len c i t) then 1 else 0 in
    zslice (all_rows (firstn m xs) t nm) (group_start c i t) (lastp t + 1) = firstn (Z.to_nat (group_len c i t - lost)) (group_rows c gs i t nm) /\
    zlen (group_rows c gs i t nm) = group_len c i t.
  Proof.
    intros Ht Hn El Hm lost. rewrite El. replace (group_start c i t + group_len c i t - 1 + 1) with (group_start c i t + group_len c i t) by lia.
    pose proof (len_nonneg t Ht) as Gl. pose proof (start_nonneg t Ht) as Gs. specialize (Hin t Ht).
    assert (Lall : zlen (group_rows c gs i t nm) = group_len c i t).
    { rewrite group_rows_all, zlen_zslice; [lia|lia|lia|]. rewrite all_rows_len by easy. lia. }
    split; [|exact Lall].
    assert (Fm : Forall finfo_ok (firstn m xs)).
    { rewrite Forall_forall in *. intros x Hxx. apply Hx. rewrite <- (firstn_skipn m). apply in_or_app. now left. }
    pose proof (all_rows_len (firstn m xs) t nm Fm Ht Hn) as Lp.
    assert (T : m = length xs -> tot (firstn m xs) t = tot xs t) by (intros ->; now rewrite firstn_all).
    rewrite group_rows_all, (rows_split m), zslice_app, Lp.
    set (a := zslice (all_rows (firstn m xs) t nm) _ _). set (b := zslice (all_rows (skipn m xs) t nm) _ _).
    assert (La : zlen a = group_len c i t - lost).
    { unfold a, lost. destruct (0 <? group_len c i t) eqn:E0; cbn [andb].
      - destruct (tot (firstn m xs) t <? group_start c i t + group_len c i t) eqn:E.
        + rewrite zslice_clip, Lp, zlen_zslice by lia. lia.
        + rewrite zlen_zslice; lia.
      - rewrite zslice_empty by lia. unfold zlen. cbn. lia. }
    rewrite <- La, to_nat_zlen, firstn_app, firstn_all, Nat.sub_diag. cbn. now rewrite app_nil_r.
  Qed.

  Lemma fof_core grnr cache : fof_index c grnr = Ok i -> Forall2 row_ok xs cache ->
    let r := g4_read_fof_group c (map f_file xs) cache grnr in
    Forall2 row_ok xs (fst r) /\
    exists m, (m <= length xs)%nat /\
      (let last t := group_start c i t + group_len c i t - 1 in
       (m = length xs \/ reached last (fun _ => 0) xs m) /\ (forall j, (0 < j < m)%nat -> ~ reached last (fun _ => 0) xs j) /\ (xs <> [] -> (0 < m)%nat)) /\
      snd r = mapM (type_out (fun t => if (0 <? group_len c i t) && (tot (firstn m xs) t <? group_start c i t + group_len c i t) then 1 else 0)) types.
  Proof.
    intros Eg Hcache r. unfold r, g4_read_fof_group. rewrite Eg. cbn [bind].
    assert (C1 := proj1 Hc).
    assert (C6 : Forall (fun r => length r = 6%nat) (foflentype c)) by (eapply Forall_impl; [|exact C1]; cbn; easy).
    assert (Li : (Z.to_nat i < length (foflentype c))%nat) by (unfold zlen in Hi; lia).
    assert (Eo : py_nth (fof_offset c) i = Ok (vec (group_start c i))).
    { rewrite <- (Z2Nat.id i) at 1 by lia. apply py_nth_error. unfold fof_offset. rewrite zero_vec, offsets_nth by easy. f_equal. }
    assert (El : py_nth (foflentype c) i = Ok (vec (group_len c i))).
    { rewrite (py_nth_ok _ _ []) by easy. f_equal. rewrite (vec_of (nth (Z.to_nat i) (foflentype c) [])) at 1; [reflexivity|].
      rewrite Forall_forall in C6. apply C6. now apply nth_In. }
    rewrite Eo. cbn [bind]. rewrite El. cbn [bind]. rewrite last_vec, zero_vec, empty_tab.
    destruct (fof_loop_ok (group_start c i) (fun t => group_start c i t + group_len c i t - 1) xs cache (fun _ => 0) (fun _ _ => []) Hx Hcache)
      as (c2 & p2 & m & E & V & M1 & M2 & M3 & M4 & R).
    rewrite E. cbn [fst snd bind]. split; [exact V|]. exists m. split; [exact M1|]. split; [cbn zeta; easy|].
    rewrite types_zseq. change (combine types (tab p2)) with (map (fun t => (t, map (fun nm => p2 t nm) three)) types).
    rewrite mapM_map. apply mapM_ext_in. intros t Ht. unfold type_out.
    set (lost := if (0 <? group_len c i t) && (tot (firstn m xs) t <? group_start c i t + group_len c i t) then 1 else 0).
    assert (Q : forall nm, In nm three -> concat (p2 t nm) = firstn (Z.to_nat (group_len c i t - lost)) (group_rows c gs i t nm) /\
       zlen (concat (p2 t nm)) = group_len c i t - lost /\ (p2 t nm = [] <-> group_len c i t - lost = 0)).
    { intros nm Hn. destruct (R t nm Ht Hn) as (P & EP & CP & NP). cbn in EP. rewrite EP. rewrite !Z.sub_0_r in CP.
      destruct (read_part (fun t => group_start c i t + group_len c i t - 1) m t nm Ht Hn eq_refl) as [K1 K2].
      { destruct M2 as [M2|M2]; [now left|right]. specialize (M2 t Ht). cbn in M2. lia. }
      fold lost in K1. rewrite CP, K1. split; [reflexivity|].
      assert (Lz : zlen (firstn (Z.to_nat (group_len c i t - lost)) (group_rows c gs i t nm)) = group_len c i t - lost).
      { unfold zlen. rewrite firstn_length. pose proof (len_nonneg t Ht). unfold zlen in K2. unfold lost in *. destruct ((0 <? group_len c i t) && _) eqn:E0; lia. }
      split; [exact Lz|]. rewrite NP, CP, K1. split; [intro Z0; rewrite Z0 in Lz; cbn in Lz; lia|].
      intro Z0. rewrite Z0. reflexivity. }
    assert (Ex : existsb (fun p : list (list A) => match p with [] => false | _ => true end) (map (fun nm => p2 t nm) three) = negb (group_len c i t - lost =? 0)).
    { destruct (group_len c i t - lost =? 0) eqn:E0; cbn [negb].
      - assert (forall nm, In nm three -> p2 t nm = []) as Z0 by (intros nm Hn; apply Q; [easy|lia]).
        unfold three in *. cbn [map existsb]. rewrite !Z0 by (cbn; tauto). reflexivity.
      - unfold three. cbn [map existsb]. assert (p2 t "Coordinates"%string <> []) as Nz.
        { intro Z0. apply Q in Z0; [lia|unfold three; now left]. }
        now destruct (p2 t "Coordinates"%string). }
    rewrite Ex. destruct (group_len c i t - lost =? 0) eqn:E0; cbn [negb]; [reflexivity|].
    rewrite map_map.
    assert (E3 : nth 2 (map (fun x => concat (p2 t x)) three) [] = concat (p2 t "ParticleIDs"%string)) by reflexivity.
    rewrite E3. destruct (Q "ParticleIDs"%string) as (_ & Lp & _); [unfold three; cbn; tauto|]. rewrite Lp.
    destruct (sub_nr c i t (group_len c i t - lost)) as [s|e]; [|reflexivity]. cbn [bind]. do 3 f_equal.
    apply map_ext_in. intros nm Hn. now apply Q.
  Qed.

  Lemma fof_complete grnr cache : fof_index c grnr = Ok i -> Forall2 row_ok xs cache ->
    (forall j, (0 < j < length xs)%nat ->
       (forall t, In t types -> group_start c i t + group_len c i t - 1 <= tot (firstn j xs) t) ->
       forall t, In t types -> 0 < group_len c i t -> group_start c i t + group_len c i t <= tot (firstn j xs) t) ->
    exists out, snd (g4_read_fof_group c (map f_file xs) cache grnr) = Ok out /\ Forall2 (type_complete c gs i) types out.
  Proof.
    intros Eg Hcache Hb. destruct (fof_core grnr cache Eg Hcache) as (_ & m & M1 & (M2 & M3 & M4) & E). rewrite E. clear E.
    apply mapM_Forall2. intros t Ht. unfold type_out.
    assert (L0 : ((0 <? group_len c i t) && (tot (firstn m xs) t <? group_start c i t + group_len c i t)) = false).
    { destruct (0 <? group_len c i t) eqn:E0; [|reflexivity]. cbn [andb]. specialize (Hin t Ht).
      destruct M2 as [->|M2]; [rewrite firstn_all; lia|].
      destruct (Nat.eq_dec m (length xs)) as [->|Hne]; [rewrite firstn_all; lia|].
      destruct xs as [|x0 xs'] eqn:Exs; [cbn in *; lia|]. rewrite <- Exs in *.
      specialize (Hb m ltac:(split; [apply M4; congruence|lia])). apply Z.ltb_ge. apply Hb; [|easy|lia].
      intros t' Ht'. specialize (M2 t' Ht'). cbn in M2. lia. }
    rewrite L0, Z.sub_0_r. pose proof (len_nonneg t Ht) as Gl.
    destruct (group_len c i t =? 0) eqn:E0.
    - exists None. split; [reflexivity|]. split; [reflexivity|lia].
    - destruct (sub_nr_ok c i t (group_len c i t) Hc Hi Ht ltac:(lia)) as [S1 _].
      destruct S1 as (s & Es & Ls & Hs). { pose proof (proj2 (proj2 (proj2 (proj2 Hc))) i Hi) as C5. cbn zeta in C5. now apply C5. }
      rewrite Es. cbn [bind]. eexists. split; [reflexivity|]. split; [lia|]. intros _. exists s. split; [|easy]. do 2 f_equal.
      apply map_ext_in. intros nm Hn.
      destruct (read_part (fun t => group_start c i t + group_len c i t - 1) (length xs) t nm Ht Hn eq_refl) as [_ K2]; [now left|].
      rewrite <- K2. rewrite to_nat_zlen. apply firstn_all.
  Qed.

  Lemma fof_short grnr cache : fof_index c grnr = Ok i -> Forall2 row_ok xs cache ->
    (exists out, snd (g4_read_fof_group c (map f_file xs) cache grnr) = Ok out /\ Forall2 (type_short c gs i) types out) \/
    snd (g4_read_fof_group c (map f_file xs) cache grnr) = Err EValue.
  Proof.
    intros Eg Hcache. destruct (fof_core grnr cache Eg Hcache) as (_ & m & M1 & _ & E). rewrite E. clear E.
    set (lost := fun t => if (0 <? group_len c i t) && (tot (firstn m xs) t <? group_start c i t + group_len c i t) then 1 else 0).
    assert (K : forall t, In t types -> (exists y, type_out lost t = Ok y /\ type_short c gs i t y) \/ type_out lost t = Err EValue).
    { intros t Ht. unfold type_out. pose proof (len_nonneg t Ht) as Gl.
      assert (Hl : lost t = 0 \/ lost t = 1 /\ 0 < group_len c i t).
      { unfold lost. destruct (0 <? group_len c i t) eqn:E0; cbn [andb]; [|now left]. destruct (tot (firstn m xs) t <? group_start c i t + group_len c i t); [right; split; [reflexivity|lia]|now left]. }
      destruct (group_len c i t - lost t =? 0) eqn:E0.
      - left. exists None. split; [reflexivity|]. exists (lost t). split; [easy|]. split; [reflexivity|lia].
      - set (n := group_len c i t - lost t) in *. assert (Hn : 0 < n) by lia.
        destruct (sub_nr_ok c i t n Hc Hi Ht ltac:(lia)) as [S1 S2]. cbn zeta in S1, S2.
        destruct (Z_le_gt_dec (sub_total c (nth (Z.to_nat i) (fof_firstsub c) 0) t (Z.to_nat (nth (Z.to_nat i) (fof_nsubs c) 0))) n) as [D|D].
        + left. destruct (S1 D) as (s & Es & Ls & Hs). rewrite Es. cbn [bind]. eexists. split; [reflexivity|].
          exists (lost t). split; [easy|]. fold n. split; [lia|]. intros _. exists s. easy.
        + right. rewrite S2 by lia. reflexivity. }
    clearbody lost. revert K. generalize types as l. induction l as [|t l IH]; intro K.
    - left. exists []. split; [reflexivity|constructor].
    - destruct (K t (or_introl eq_refl)) as [(y & Ey & Hy)|Ey]; cbn [mapM]; rewrite Ey; cbn [bind]; [|now right].
      destruct IH as [(out & Eo & Ho)|Eo]; [intros; apply K; now right| |].
      + left. exists (y :: out). rewrite Eo. split; [reflexivity|now constructor].
      + right. now rewrite Eo.
  Qed.
End Final.

Lemma fof_index_nr c i : fof_index c (GrNr i) = Ok i. Proof. reflexivity. Qed.
Lemma fof_index_pair c f k : (f < length (nfof_file c))%nat ->
  fof_index c (GrPair (Z.of_nat f) k) = Ok (sumZ (firstn f (nfof_file c)) + k).
Proof.
  intro H. unfold fof_index. rewrite (py_nth_ok _ _ 0) by (unfold zlen; rewrite excl_cumsum_length; lia). cbn [bind].
  rewrite Nat2Z.id, nth_excl_cumsum by easy. reflexivity.
Qed.

Lemma fof_bad_index {A} c (files : list (sfile A)) cache g :
  (match fof_index c g with Ok i => ~ - zlen (foflentype c) <= i < zlen (foflentype c) | Err _ => True end) ->
  exists e, g4_read_fof_group c files cache g = (cache, Err e).
Proof.
  intro H. unfold g4_read_fof_group. destruct (fof_index c g) as [i|e]; cbn [bind]; [|now exists e].
  assert (E : py_nth (fof_offset c) i = Err EIndex).
  { unfold py_nth, fof_offset. assert (L : zlen (offsets_from (repeat 0 6) (foflentype c)) = zlen (foflentype c)) by (unfold zlen; now rewrite offsets_len).
    rewrite L. destruct (i <? 0) eqn:E; replace (_ || _) with true; try reflexivity; lia. }
  rewrite E. now exists EIndex.
Qed.

(** the cache is right after any calls, whatever they returned *)
Lemma fof_keeps {A} c (xs : list (@finfo A)) cache g : cat_ok c -> Forall finfo_ok xs -> Forall2 row_ok xs cache ->
  Forall2 row_ok xs (fst (g4_read_fof_group c (map f_file xs) cache g)).
Proof.
  intros Hc Hx Hv. unfold g4_read_fof_group. destruct (fof_index c g) as [i|e]; cbn [bind]; [|exact Hv].
  assert (C6 : Forall (fun r => length r = 6%nat) (foflentype c)) by (eapply Forall_impl; [|exact (proj1 Hc)]; cbn; easy).
  destruct (py_nth (fof_offset c) i) as [o|e] eqn:Eo; cbn [bind]; [|exact Hv].
  destruct (py_nth (foflentype c) i) as [l|e] eqn:El; cbn [bind]; [|exact Hv].
  assert (O6 : forall rows acc, length acc = 6%nat -> Forall (fun r => length r = 6%nat) rows -> Forall (fun r => length r = 6%nat) (offsets_from acc rows)).
  { clear. induction rows as [|r rows IH]; intros acc Ha F; cbn; [constructor|]. inversion F; subst. constructor; [easy|]. apply IH; [|easy].
    rewrite (vec_of acc Ha), (vec_of r H1). reflexivity. }
  assert (Lo : length o = 6%nat).
  { pose proof (O6 (foflentype c) (repeat 0 6) eq_refl C6) as F. rewrite Forall_forall in F. apply F. fold (fof_offset c).
    unfold py_nth in Eo. destruct (_ || _) in Eo; [discriminate|]. destruct (nth_error _ _) eqn:E in Eo; [|discriminate]. injection Eo as <-. eapply nth_error_In; eauto. }
  assert (Ll : length l = 6%nat).
  { rewrite Forall_forall in C6. apply C6.
    unfold py_nth in El. destruct (_ || _) in El; [discriminate|]. destruct (nth_error _ _) eqn:E in El; [|discriminate]. injection El as <-. eapply nth_error_In; eauto. }
  rewrite (vec_of o Lo), (vec_of l Ll), last_vec, zero_vec, empty_tab.
  destruct (fof_loop_ok (at_type o) (fun t => at_type o t + at_type l t - 1) xs cache (fun _ => 0) (fun _ _ => []) Hx Hv)
      as (c2 & p2 & m & E & V & _). rewrite E. exact V.
Qed.
Lemma fof_history_ok {A} c (xs : list (@finfo A)) calls : cat_ok c -> Forall finfo_ok xs ->
  Forall2 row_ok xs (fof_history c (map f_file xs) calls).
Proof.
  intros Hc Hx. unfold fof_history.
  assert (H0 : Forall2 row_ok xs (new_npart6 (map f_file xs))).
  { clear. unfold new_npart6. rewrite map_map. induction xs; cbn; constructor; [now left|assumption]. }
  revert H0. generalize (new_npart6 (map f_file xs)) as s. induction calls as [|g calls IH]; intros s Hs; cbn; [exact Hs|].
  apply IH. now apply fof_keeps.
Qed.
