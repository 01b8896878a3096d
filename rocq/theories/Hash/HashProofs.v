From Verif Require Import Base.Prelude Base.ListLemmas Base.Order Hash.HashModel Hash.HashSpec.
From Coq Require Import ZifyBool ZifyNat.
Local Open Scope Z_scope.

Section Dict.
  Context {K V : Type} (Od : TOrd K).
  Lemma dset_new (d : list (K * V)) k v : ~ In k (map fst d) -> dset Od d k v = d ++ [(k, v)].
  Proof.
    induction d as [|[k' v'] d IH]; cbn; intro H; [reflexivity|]. destruct (eqb Od k' k) eqn:E.
    - apply eqb_eq in E. subst. exfalso. apply H. now left.
    - rewrite IH; [reflexivity|]. intro. apply H. now right.
  Qed.
  Lemma dupdate_new (e d : list (K * V)) : NoDup (map fst (d ++ e)) -> dupdate Od d e = d ++ e.
  Proof.
    revert d. unfold dupdate. induction e as [|[k v] e IH]; intros d H; cbn; [now rewrite app_nil_r|].
    rewrite map_app in H. cbn in H. rewrite dset_new.
    - rewrite IH; [now rewrite <- app_assoc|]. rewrite <- app_assoc, map_app. exact H.
    - apply NoDup_remove_2 in H. intro. apply H. apply in_or_app. now left.
  Qed.
  Lemma dget_In (d : list (K * V)) k v : dget Od d k = Some v -> In (k, v) d.
  Proof.
    induction d as [|[k' v'] d IH]; cbn; [discriminate|]. destruct (eqb Od k' k) eqn:E; intro H.
    - apply eqb_eq in E. left. congruence.
    - right. now apply IH.
  Qed.
  Lemma dget_None (d : list (K * V)) k : dget Od d k = None <-> ~ In k (map fst d).
  Proof.
    induction d as [|[k' v'] d IH]; cbn; [easy|]. destruct (eqb Od k' k) eqn:E.
    - apply eqb_eq in E. subst. split; [discriminate|]. intro H. exfalso. apply H. now left.
    - apply eqb_neq in E. rewrite IH. intuition.
  Qed.
  Lemma din_In (d : list (K * V)) k : din Od d k = true <-> In k (map fst d).
  Proof.
    unfold din. destruct (dget Od d k) eqn:E.
    - split; [intros _|easy]. apply dget_In in E. now apply (in_map fst) in E.
    - apply dget_None in E. split; [discriminate|]. intro; now exfalso.
  Qed.
End Dict.

Lemma NoDup_app_l {A} (l m : list A) : NoDup (l ++ m) -> NoDup l.
Proof.
  induction l as [|x l IH]; intro N; [constructor|]. cbn in N. inversion N as [|? ? N1 N2]; subst. constructor; [|now apply IH].
  intro I. apply N1. apply in_or_app. now left.
Qed.
Lemma NoDup_app_r {A} (l m : list A) : NoDup (l ++ m) -> NoDup m.
Proof. induction l as [|x l IH]; intro N; [exact N|]. cbn in N. inversion N as [|? ? N1 N2]; subst. now apply IH. Qed.

(** the elements of a list of options *)
Definition opt {A} (o : option A) : list A := match o with Some x => [x] | None => [] end.
Definition opts {A} (l : list (option A)) : list A := flat_map opt l.

Lemma opts_set {A} (l : list (option A)) k o o' : nth_error l k = Some o ->
  Permutation (opts (set_nth l k o') ++ opt o) (opts l ++ opt o').
Proof.
  revert k. induction l as [|x l IH]; intros [|k] H; try discriminate.
  - injection H as ->. cbn. rewrite <- !app_assoc.
    rewrite (Permutation_app_comm (opts l) (opt o)), (Permutation_app_comm (opts l) (opt o')), !app_assoc.
    apply Permutation_app_tail, Permutation_app_comm.
  - cbn in *. rewrite <- !app_assoc. apply Permutation_app_head. now apply IH.
Qed.
Lemma Forall2_set {A B} (R : A -> B -> Prop) l m k x y : Forall2 R l m -> R x y -> Forall2 R (set_nth l k x) (set_nth m k y).
Proof.
  intro H. revert k. induction H; intros k Hr; [destruct k; constructor|]. destruct k; cbn; constructor; auto.
Qed.
Lemma Forall2_nth_l {A B} (R : A -> B -> Prop) l m k x : Forall2 R l m -> nth_error l k = Some x -> exists y, nth_error m k = Some y /\ R x y.
Proof.
  intro H. revert k. induction H; intros [|k] E; try discriminate; cbn in *; [injection E as <-; eauto|eauto].
Qed.
Lemma filter_set {A} (f : A -> bool) l k x y : nth_error l k = Some x ->
  zlen (filter f (set_nth l k y)) = zlen (filter f l) - (if f x then 1 else 0) + (if f y then 1 else 0).
Proof.
  revert k. induction l as [|z l IH]; intros [|k] H; try discriminate; cbn in *.
  - injection H as ->. destruct (f x), (f y); rewrite ?zlen_cons; lia.
  - specialize (IH k H). destruct (f z); rewrite ?zlen_cons; lia.
Qed.

Section Proofs.
  Context {Name Path Hsh Pat Base : Type} (NOd : TOrd Name) (POd : TOrd Path) (BOd : TOrd Base).
  Variable fnmatch : Path -> Pat -> bool.
  Variable hash_file : Path -> option Hsh.
  Notation dir := (list (Name * Path)).
  Variables (a : @args Name Path Pat Base) (cache : list (Path * Hsh)).
  Notation act := (act NOd POd fnmatch hash_file a cache).
  Notation hash_dir := (hash_dir NOd POd fnmatch hash_file a cache).

  (** ** hash_dir *)
  Definition keep (np : Name * Path) : bool := negb (is_out_file NOd POd a np) && do_file fnmatch a (snd np).
  Lemma keep_chosen n p : keep (n, p) = true <-> chosen fnmatch a n p.
  Proof.
    unfold keep, chosen, is_out_file, do_file. cbn [fst snd]. rewrite andb_true_iff, negb_true_iff, orb_false_iff.
    assert (E1 : (match a_all_dirs a with Some f => eqb POd p f | None => false end = false) <-> a_all_dirs a <> Some p).
    { destruct (a_all_dirs a) as [f|]; [rewrite eqb_neq; split; congruence|]. split; congruence. }
    assert (E2 : (match a_per_dir a with Some f => eqb NOd n f | None => false end = false) <-> a_per_dir a <> Some n).
    { destruct (a_per_dir a) as [f|]; [rewrite eqb_neq; split; congruence|]. split; congruence. }
    rewrite E1, E2.
    set (b := match a_include a with None => true | Some inc => existsb (fnmatch p) inc end).
    assert (E3 : b = true <-> forall inc, a_include a = Some inc -> exists pat, In pat inc /\ fnmatch p pat = true).
    { unfold b. destruct (a_include a) as [inc|]; [|split; [discriminate|reflexivity]]. rewrite existsb_exists.
      split; [intros H ? [= <-]; exact H|intro H; now apply H]. }
    assert (E4 : (match a_exclude a with None => b | Some exc => if existsb (fnmatch p) exc then false else b end = true) <->
       b = true /\ forall exc, a_exclude a = Some exc -> forall pat, In pat exc -> fnmatch p pat = false).
    { destruct (a_exclude a) as [exc|]; [|split; [intro H; split; [exact H|discriminate]|tauto]].
      destruct (existsb (fnmatch p) exc) eqn:E.
      - split; [discriminate|]. intros [_ H]. apply existsb_exists in E. destruct E as (x & Hx & E). rewrite (H exc eq_refl x Hx) in E. discriminate.
      - split; [|tauto]. intro Hb. split; [exact Hb|]. intros ? [= <-] pat Hp. destruct (fnmatch p pat) eqn:F; [|reflexivity].
        rewrite (proj2 (existsb_exists _ _)) in E; [discriminate|]. eauto. }
    rewrite E4, E3. tauto.
  Qed.

  Definition val (p : Path) : option Hsh := match dget POd cache p with Some h => Some h | None => hash_file p end.
  Definition H (d : dir) : list (Path * option Hsh) := map (fun np => (snd np, val (snd np))) (filter keep d).
  Definition HN (d : dir) : list (Name * option Hsh) := map (fun np => (fst np, val (snd np))) (filter keep d).

  Lemma filter_keys {X Y} (f : X -> bool) (g : X -> Y) l : NoDup (map g l) -> NoDup (map g (filter f l)).
  Proof.
    induction l as [|x l IH]; cbn; intro N; [constructor|]. inversion N as [|? ? N1 N2]; subst. destruct (f x); cbn; [|now apply IH].
    constructor; [|now apply IH]. intro I. apply N1. apply in_map_iff in I. destruct I as (y & <- & Iy). apply in_map. now apply filter_In in Iy.
  Qed.

  Definition hstep := (fun (acc : list (Name * option Hsh) * list (Path * option Hsh)) (np : Name * Path) =>
      if is_out_file NOd POd a np then acc
      else if do_file fnmatch a (snd np) then
        let this := match dget POd cache (snd np) with Some h => Some h | None => hash_file (snd np) end in
        (dset NOd (fst acc) (fst np) this, dset POd (snd acc) (snd np) this)
      else acc).
  Lemma fold_snd d : forall acc, NoDup (map fst (snd acc ++ H d)) -> snd (fold_left hstep d acc) = snd acc ++ H d.
  Proof.
    induction d as [|np d IH]; intros acc N; cbn [fold_left]; [cbn; now rewrite app_nil_r|].
    unfold hstep at 2, H. unfold H in N. cbn [filter] in *. unfold keep at 1. unfold keep at 1 in N.
    destruct (is_out_file NOd POd a np); cbn [negb andb] in *; [now apply IH|].
    destruct (do_file fnmatch a (snd np)); [|now apply IH]. cbn zeta. fold (val (snd np)). cbn [map] in *.
    rewrite map_app in N. cbn [map fst] in N.
    assert (E : dset POd (snd acc) (snd np) (val (snd np)) = snd acc ++ [(snd np, val (snd np))]).
    { apply dset_new. apply NoDup_remove_2 in N. intro I. apply N. apply in_or_app. now left. }
    rewrite IH; cbn [snd]; rewrite E, <- app_assoc; [reflexivity|]. rewrite map_app. cbn [map fst app]. exact N.
  Qed.
  Lemma fold_fst d : forall acc, NoDup (map fst (fst acc ++ HN d)) -> fst (fold_left hstep d acc) = fst acc ++ HN d.
  Proof.
    induction d as [|np d IH]; intros acc N; cbn [fold_left]; [cbn; now rewrite app_nil_r|].
    unfold hstep at 2, HN. unfold HN in N. cbn [filter] in *. unfold keep at 1. unfold keep at 1 in N.
    destruct (is_out_file NOd POd a np); cbn [negb andb] in *; [now apply IH|].
    destruct (do_file fnmatch a (snd np)); [|now apply IH]. cbn zeta. fold (val (snd np)). cbn [map] in *.
    rewrite map_app in N. cbn [map fst] in N.
    assert (E : dset NOd (fst acc) (fst np) (val (snd np)) = fst acc ++ [(fst np, val (snd np))]).
    { apply dset_new. apply NoDup_remove_2 in N. intro I. apply N. apply in_or_app. now left. }
    rewrite IH; cbn [fst]; rewrite E, <- app_assoc; [reflexivity|]. rewrite map_app. cbn [map fst app]. exact N.
  Qed.
  Lemma H_keys d : map fst (H d) = map snd (filter keep d). Proof. unfold H. now rewrite map_map. Qed.
  Lemma hash_dir_snd d : NoDup (map snd d) -> snd (hash_dir d) = H d.
  Proof. intro N. unfold HashModel.hash_dir. fold hstep. rewrite fold_snd; [reflexivity|]. cbn. rewrite H_keys. now apply filter_keys. Qed.
  Lemma hash_dir_fst d : NoDup (map fst d) -> fst (hash_dir d) = HN d.
  Proof. intro N. unfold HashModel.hash_dir. fold hstep. rewrite fold_fst; [reflexivity|]. cbn. unfold HN. rewrite map_map. cbn. now apply filter_keys. Qed.

  (** ** the invariant *)
  Variable all : list dir.
  Variable rows0 : option (list (Base * Path * Hsh)).
  Hypothesis Htree : tree_ok all.

  Lemma dir_keys d : In d all -> NoDup (map snd d).
  Proof.
    unfold tree_ok in Htree. clear - Htree. induction all as [|e l IH]; [intros []|]. cbn in Htree. rewrite map_app in Htree.
    intros [->|I]; [eapply NoDup_app_l; exact Htree|]. apply IH; [|exact I]. eapply NoDup_app_r; exact Htree.
  Qed.
  Lemma all_keys : NoDup (map fst (concat (map H all))).
  Proof.
    unfold tree_ok in Htree. replace (map fst (concat (map H all))) with (map snd (filter keep (concat all))).
    - now apply filter_keys.
    - clear. induction all as [|d l IH]; [reflexivity|]. cbn. rewrite filter_app, !map_app, IH, H_keys. reflexivity.
  Qed.
  Lemma part_keys stored rest : Permutation all (stored ++ rest) -> NoDup (map fst (concat (map H stored))).
  Proof.
    intro P. assert (Q : NoDup (map fst (concat (map H (stored ++ rest))))).
    { eapply Permutation_NoDup; [|exact all_keys]. apply Permutation_map. rewrite <- !flat_map_concat_map. now apply Permutation_flat_map. }
    rewrite map_app, concat_app, map_app in Q. eapply NoDup_app_l; exact Q.
  Qed.

  Definition hrel (h : option (list (Path * option Hsh))) (o : option dir) : Prop :=
    match o with None => h = None | Some d => h = Some (H d) end.
  Definition wrel (w : wstate) (o : option dir) : Prop :=
    match w with
    | WAsk h | WSent h => hrel h o
    | WReply d => o = d
    | WWork d => o = Some d
    | WStop => o = None
    end.
  Definition rrel (r : r0state) (o : option dir) : Prop :=
    match r with RAsk h => hrel h o | RWork d => o = Some d | RDrain | RDone => o = None end.
  Definition told (w : @wstate Name Path Hsh) : bool := match w with WReply None | WStop => true | _ => false end.
  Definition leaving (r : @r0state Name Path Hsh) : Prop := match r with RDrain | RDone => True | _ => False end.

  Record inv (s : st Name Path Hsh Base) (pd : list (option dir)) (p0 : option dir) (stored : list dir) : Prop := {
    i_log : map snd (s_log s) ++ s_dirs s = all;
    i_perm : Permutation (map snd (s_log s)) (stored ++ opts pd ++ opt p0);
    i_ws : Forall2 wrel (s_ws s) pd;
    i_r0 : rrel (s_r0 s) p0;
    i_hashes : s_hashes s = concat (map H stored);
    i_db : s_db s = match rows0 with Some rows => Some (rows ++ flat_map (fun d => new_rows POd a cache (H d)) stored) | None => None end;
    i_fin : s_fin s = zlen (filter told (s_ws s));
    i_end : (0 < s_fin s \/ leaving (s_r0 s)) -> s_dirs s = [];
    i_done : s_r0 s = RDone -> zlen (s_ws s) <= s_fin s }.

  Lemma store_ok s pd p0 stored h o rest : inv s pd p0 stored -> hrel h o -> Permutation all (stored ++ opt o ++ rest) ->
    store_hashes POd a cache h (s_hashes s) (s_db s) =
    (concat (map H (stored ++ opt o)), match rows0 with Some rows => Some (rows ++ flat_map (fun d => new_rows POd a cache (H d)) (stored ++ opt o)) | None => None end).
  Proof.
    intros I Hh P. unfold store_hashes. rewrite (i_hashes _ _ _ _ I), (i_db _ _ _ _ I). destruct o as [d|]; cbn in Hh; subst h; cbn [opt].
    - f_equal.
      + rewrite dupdate_new.
        * rewrite map_app, concat_app. cbn. now rewrite app_nil_r.
        * replace (concat (map H stored) ++ H d) with (concat (map H (stored ++ [d]))) by (rewrite map_app, concat_app; cbn; now rewrite app_nil_r).
          apply (part_keys _ rest). cbn in P. now rewrite <- app_assoc.
      + destruct rows0; [|reflexivity]. rewrite flat_map_app. cbn. now rewrite app_nil_r, app_assoc.
    - now rewrite app_nil_r.
  Qed.

  Lemma handed_in s pd p0 stored d : inv s pd p0 stored -> In d (stored ++ opts pd ++ opt p0) -> In d all.
  Proof.
    intros I Hd. rewrite <- (i_log _ _ _ _ I). apply in_or_app. left. eapply Permutation_in; [|exact Hd]. symmetry. apply (i_perm _ _ _ _ I).
  Qed.
  Lemma in_opts {X} (l : list (option X)) k x : nth_error l k = Some (Some x) -> In x (opts l).
  Proof. intro E. apply in_flat_map. exists (Some x). split; [eapply nth_error_In; eauto|now left]. Qed.

  Lemma set_perm (pd : list (option dir)) k o o' st l p0 : nth_error pd k = Some o ->
    Permutation l (st ++ opts pd ++ p0) -> Permutation (l ++ opt o') ((st ++ opt o) ++ opts (set_nth pd k o') ++ p0).
  Proof.
    intros E P. rewrite P. pose proof (opts_set pd k o o' E) as Q. rewrite <- !app_assoc. apply Permutation_app_head.
    rewrite (Permutation_app_comm p0 (opt o')), app_assoc, <- Q, <- app_assoc.
    rewrite app_assoc, (Permutation_app_comm (opts (set_nth pd k o')) (opt o)), <- app_assoc. reflexivity.
  Qed.

  Ltac fields := cbn [s_dirs s_hashes s_db s_fin s_r0 s_ws s_log].

  (** a worker step that changes no dirs, hashes or log, and hands over nothing *)
  Lemma move s pd p0 stored k w w' o : inv s pd p0 stored -> nth_error (s_ws s) k = Some w -> nth_error pd k = Some o ->
    wrel w' o -> told w' = told w ->
    inv {| s_dirs := s_dirs s; s_hashes := s_hashes s; s_db := s_db s; s_fin := s_fin s; s_r0 := s_r0 s; s_ws := set_nth (s_ws s) k w'; s_log := s_log s |} pd p0 stored.
  Proof.
    intros I Ew Eo Hw Ht. destruct I as [I1 I2 I3 I4 I5 I6 I7 I8 I9]. constructor; fields; try assumption.
    - rewrite <- (set_nth_same pd k o Eo). now apply Forall2_set.
    - rewrite (filter_set told _ _ w) by exact Ew. rewrite Ht. destruct (told w); lia.
    - intro E. unfold zlen in *. rewrite set_nth_length. now apply I9.
  Qed.

  Lemma act_inv l s s' pd p0 stored : inv s pd p0 stored -> act l s = Some s' -> exists pd' p0' stored', inv s' pd' p0' stored'.
  Proof.
    intros I E. pose proof I as I0. destruct I0 as [I1 I2 I3 I4 I5 I6 I7 I8 I9]. destruct l as [k|k|k|k| | |]; cbn in E.
    - destruct (nth_error (s_ws s) k) as [[h|h|d|d|]|] eqn:Ek; try discriminate. injection E as <-.
      destruct (Forall2_nth_l _ _ _ _ _ I3 Ek) as (o & Eo & Ho). exists pd, p0, stored.
      eapply move; eauto.
    - assert (Hr : (match s_r0 s with RWork _ | RDrain => True | _ => False end)) by (destruct (s_r0 s); try discriminate; exact Logic.I).
      assert (E' : match nth_error (s_ws s) k with Some (WSent h) =>
            let '(hashes, db) := store_hashes POd a cache h (s_hashes s) (s_db s) in
            match s_dirs s with
            | d :: dirs => Some {| s_dirs := dirs; s_hashes := hashes; s_db := db; s_fin := s_fin s; s_r0 := s_r0 s;
                                   s_ws := set_nth (s_ws s) k (WReply (Some d)); s_log := s_log s ++ [(S k, d)] |}
            | [] => Some {| s_dirs := []; s_hashes := hashes; s_db := db; s_fin := s_fin s + 1; s_r0 := s_r0 s;
                            s_ws := set_nth (s_ws s) k (WReply None); s_log := s_log s |}
            end | _ => None end = Some s') by (destruct (s_r0 s); try discriminate; exact E).
      clear E. destruct (nth_error (s_ws s) k) as [[h|h|d|d|]|] eqn:Ek; try discriminate.
      destruct (Forall2_nth_l _ _ _ _ _ I3 Ek) as (o & Eo & Ho). cbn in Ho.
      pose proof (set_perm pd k o None stored _ (opt p0) Eo I2) as P0. cbn [opt] in P0. rewrite app_nil_r in P0.
      assert (PA : Permutation all (stored ++ opt o ++ (opts (set_nth pd k None) ++ opt p0) ++ s_dirs s)).
      { rewrite <- I1. rewrite P0. now rewrite <- !app_assoc. }
      rewrite (store_ok s pd p0 stored h o _ I Ho PA) in E'.
      destruct (s_dirs s) as [|d dirs] eqn:Ed; injection E' as <-.
      + exists (set_nth pd k None), p0, (stored ++ opt o). constructor; fields; try reflexivity; try assumption.
        * now apply Forall2_set.
        * rewrite (filter_set told _ _ (WSent h)) by exact Ek. cbn. lia.
        * intro E. rewrite E in Hr. destruct Hr.
      + exists (set_nth pd k (Some d)), p0, (stored ++ opt o). constructor; fields; try reflexivity; try assumption.
        * rewrite map_app. cbn. now rewrite <- app_assoc.
        * rewrite map_app. cbn. now apply (set_perm pd k o (Some d)).
        * now apply Forall2_set.
        * rewrite (filter_set told _ _ (WSent h)) by exact Ek. cbn. lia.
        * intro E. specialize (I8 E). discriminate.
        * intro E. rewrite E in Hr. destruct Hr.
    - destruct (nth_error (s_ws s) k) as [[h|h|d|d|]|] eqn:Ek; try discriminate. injection E as <-.
      destruct (Forall2_nth_l _ _ _ _ _ I3 Ek) as (o & Eo & Ho). cbn in Ho. subst o. exists pd, p0, stored.
      eapply move; eauto; destruct d; reflexivity.
    - destruct (nth_error (s_ws s) k) as [[h|h|d|d|]|] eqn:Ek; try discriminate. injection E as <-.
      destruct (Forall2_nth_l _ _ _ _ _ I3 Ek) as (o & Eo & Ho). cbn in Ho. subst o. exists pd, p0, stored.
      assert (Hd : In d all) by (eapply handed_in; [exact I|]; apply in_or_app; right; apply in_or_app; left; eapply in_opts; eauto).
      eapply move; eauto. cbn. now rewrite hash_dir_snd by (now apply dir_keys).
    - destruct (s_r0 s) as [h| | |] eqn:Er; try discriminate. cbn in I4.
      assert (PA : Permutation all (stored ++ opt p0 ++ opts pd ++ s_dirs s)).
      { rewrite <- I1, I2, <- !app_assoc. apply Permutation_app_head. rewrite !app_assoc. apply Permutation_app_tail, Permutation_app_comm. }
      rewrite (store_ok s pd p0 stored h p0 _ I I4 PA) in E.
      assert (P0 : Permutation (map snd (s_log s)) ((stored ++ opt p0) ++ opts pd)).
      { rewrite I2, <- app_assoc. apply Permutation_app_head, Permutation_app_comm. }
      destruct (s_dirs s) as [|d dirs] eqn:Ed; injection E as <-.
      + exists pd, None, (stored ++ opt p0). constructor; fields; try reflexivity; try assumption.
        * cbn. now rewrite app_nil_r.
        * discriminate.
      + exists pd, (Some d), (stored ++ opt p0). constructor; fields; try reflexivity; try assumption.
        * rewrite map_app. cbn. now rewrite <- app_assoc.
        * rewrite map_app. cbn. rewrite P0, <- !app_assoc. reflexivity.
        * intros [E|E]; [|destruct E]. specialize (I8 (or_introl E)). discriminate.
        * discriminate.
    - destruct (s_r0 s) as [|d| |] eqn:Er; try discriminate. injection E as <-. cbn in I4. subst p0. exists pd, (Some d), stored.
      assert (Hd : In d all) by (eapply handed_in; [exact I|]; apply in_or_app; right; apply in_or_app; right; now left).
      constructor; fields; try assumption.
      + cbn. now rewrite hash_dir_snd by (now apply dir_keys).
      + discriminate.
    - destruct (s_r0 s) as [| | |] eqn:Er; try discriminate. destruct (s_fin s <? zlen (s_ws s)) eqn:Ef; [discriminate|]. injection E as <-.
      exists pd, p0, stored. constructor; fields; try assumption.
      + intros _. lia.
  Qed.
End Proofs.
