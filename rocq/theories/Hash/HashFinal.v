From Verif Require Import Base.Prelude Base.ListLemmas Base.Order Hash.HashModel Hash.HashSpec Hash.HashProofs.
From Coq Require Import ZifyBool ZifyNat.
Local Open Scope Z_scope.

Lemma NoDup_app' {A} (l m : list A) : NoDup l -> NoDup m -> (forall x, In x l -> ~ In x m) -> NoDup (l ++ m).
Proof.
  induction l as [|x l IH]; intros N M D; [exact M|]. inversion N as [|? ? N1 N2]; subst. cbn. constructor.
  - intro I. apply in_app_or in I. destruct I as [I|I]; [easy|]. apply (D x); [now left|exact I].
  - apply IH; [assumption..|]. intros y Iy. apply D. now right.
Qed.

Section Final.
  Context {Name Path Hsh Pat Base : Type} (NOd : TOrd Name) (POd : TOrd Path) (BOd : TOrd Base).
  Variable fnmatch : Path -> Pat -> bool.
  Variable hash_file : Path -> option Hsh.
  Notation dir := (list (Name * Path)).
  Notation run := (run NOd POd fnmatch hash_file).
  Notation act := (act NOd POd fnmatch hash_file).
  Notation start := (start POd BOd).
  Notation H := (H NOd POd fnmatch hash_file).

  Section Run.
    Variables (a : @args Name Path Pat Base) (n : nat) (dirs : list dir) (db : option (list (Base * Path * Hsh))).
    Variables (cache : list (Path * Hsh)) (s0 : st Name Path Hsh Base).
    Hypothesis Htree : tree_ok dirs.
    Hypothesis Hstart : start a n dirs db = Ok (cache, s0).
    Let rows0 := match db with Some rows => Some (if a_resume a then rows else []) | None => None end.
    Notation inv := (inv NOd POd fnmatch hash_file a cache dirs rows0).

    Lemma start_inv : inv s0 (repeat None n) None [] /\ length (s_ws s0) = n /\
      cache = match db with
      | Some rows => if a_resume a then dupdate POd [] (map (fun r => (snd (fst r), snd r)) (filter (fun r => eqb BOd (fst (fst r)) (a_base a)) rows)) else []
      | None => [] end /\ s0 = {| s_dirs := dirs; s_hashes := []; s_db := rows0; s_fin := 0; s_r0 := RAsk None; s_ws := repeat (WAsk None) n; s_log := [] |}.
    Proof using Hstart.
      clear Htree. unfold HashModel.start in Hstart. destruct (check _ _) in Hstart; [|discriminate]. cbn [bind] in Hstart. injection Hstart as E1 E2.
      fold rows0 in E2. rewrite <- E2. split; [|split; [cbn; apply repeat_length|split; [symmetry; exact E1|reflexivity]]].
      assert (Eo : forall m, opts (repeat (@None dir) m) = []) by (clear; induction m; [reflexivity|assumption]).
      assert (Ef : forall m, filter told (repeat (@WAsk Name Path Hsh None) m) = []) by (clear; induction m; [reflexivity|assumption]).
      constructor; cbn.
      - reflexivity.
      - rewrite Eo. reflexivity.
      - clear. induction n; cbn; constructor; [reflexivity|assumption].
      - reflexivity.
      - reflexivity.
      - unfold rows0. destruct db as [rows|]; [now rewrite app_nil_r|reflexivity].
      - now rewrite Ef.
      - intros [X|[]]; lia.
      - discriminate.
    Qed.

    Lemma run_inv : forall ls s s', (exists pd p0 stored, inv s pd p0 stored) -> run a cache ls s = Some s' -> exists pd p0 stored, inv s' pd p0 stored.
    Proof using Htree.
      clear Hstart. induction ls as [|l ls IH]; intros s s' I E; cbn in E; [injection E as <-; exact I|].
      destruct (act a cache l s) as [s1|] eqn:E1; [|discriminate]. apply (IH s1); [|exact E].
      destruct I as (pd & p0 & stored & I). eapply act_inv; eauto.
    Qed.
    Lemma reach ls s : run a cache ls s0 = Some s -> exists pd p0 stored, inv s pd p0 stored.
    Proof using Htree Hstart. apply run_inv. destruct start_inv as (I & _). eauto. Qed.

    Lemma set_len (l : list (@wstate Name Path Hsh)) k w : zlen (set_nth l k w) = zlen l.
    Proof. unfold zlen. now rewrite set_nth_length. Qed.
    Lemma run_ws : forall ls s s', run a cache ls s = Some s' -> zlen (s_ws s') = zlen (s_ws s).
    Proof using.
      clear. induction ls as [|l ls IH]; intros s s' E; cbn in E; [injection E as <-; reflexivity|].
      destruct (act a cache l s) as [s1|] eqn:E1; [|discriminate]. rewrite (IH s1 s' E). clear E IH.
      destruct l as [k|k|k|k| | |]; cbn in E1;
        repeat match type of E1 with
        | context [match nth_error ?l ?k with _ => _ end] => destruct (nth_error l k) as [[| | | |]|]; try discriminate
        | context [match s_r0 ?s with _ => _ end] => destruct (s_r0 s); try discriminate
        | context [store_hashes ?a ?b ?c ?d ?e ?f] => destruct (store_hashes a b c d e f)
        | context [match s_dirs ?s with _ => _ end] => destruct (s_dirs s)
        | context [if ?b then _ else _] => destruct b; try discriminate
        end; try discriminate; injection E1 as <-; cbn; rewrite ?set_len; reflexivity.
    Qed.

    (** every directory is handed out once, in order *)
    Lemma handed_once ls s : run a cache ls s0 = Some s -> map snd (s_log s) ++ s_dirs s = dirs.
    Proof using Htree Hstart. intro R. destruct (reach ls s R) as (pd & p0 & stored & I). apply (i_log _ _ _ _ _ _ _ _ _ _ _ _ I). Qed.

    (** the state when rank 0 is done *)
    Lemma told_all (ws : list (@wstate Name Path Hsh)) : zlen ws <= zlen (filter told ws) -> Forall (fun w => told w = true) ws.
    Proof.
      induction ws as [|w ws IH]; intro L; [constructor|]. cbn [filter] in L. destruct (told w) eqn:E; rewrite ?zlen_cons in L.
      - constructor; [exact E|]. apply IH. lia.
      - exfalso. assert (zlen (filter told ws) <= zlen ws); [|lia]. clear. induction ws as [|w ws IH]; cbn [filter]; [lia|].
        destruct (told w); rewrite ?zlen_cons; lia.
    Qed.
    Lemma done_state ls s : run a cache ls s0 = Some s -> s_r0 s = RDone ->
      s_dirs s = [] /\ Forall (fun w => w = WStop \/ w = WReply None) (s_ws s) /\
      exists stored, Permutation stored dirs /\ s_hashes s = concat (map (H a cache) stored) /\
        s_db s = match rows0 with Some rows => Some (rows ++ flat_map (fun d => new_rows POd a cache (H a cache d)) stored) | None => None end.
    Proof using Htree Hstart.
      intros R E. destruct (reach ls s R) as (pd & p0 & stored & [I1 I2 I3 I4 I5 I6 I7 I8 I9]).
      assert (D : s_dirs s = []) by (apply I8; right; rewrite E; exact Logic.I). split; [exact D|].
      assert (T : Forall (fun w => told w = true) (s_ws s)) by (apply told_all; rewrite <- I7; now apply I9).
      split.
      { eapply Forall_impl; [|exact T]. intros w Hw. destruct w as [| |[|]| |]; try discriminate; auto. }
      exists stored. split; [|split; [exact I5|exact I6]].
      assert (O : opts pd = []).
      { revert T I3. clear. generalize (s_ws s) as ws. induction pd as [|o pd IH]; intros ws T F; [reflexivity|]. inversion F as [|w ? ws' ? W1 W2]; subst.
        inversion T as [|? ? T1 T2]; subst. change (opts (o :: pd)) with (opt o ++ opts pd). rewrite (IH ws') by assumption. rewrite app_nil_r.
        destruct w as [| |[|]| |]; try discriminate; cbn in W1; subst; reflexivity. }
      rewrite E in I4. cbn in I4. subst p0. rewrite O in I2. cbn in I2. rewrite app_nil_r in I2.
      rewrite <- I1, D, app_nil_r. now symmetry.
    Qed.

    (** ** progress and termination *)
    Lemma progress ls s : run a cache ls s0 = Some s -> finished s \/ exists l s', act a cache l s = Some s'.
    Proof using Htree Hstart.
      intro R. destruct (reach ls s R) as (pd & p0 & stored & [I1 I2 I3 I4 I5 I6 I7 I8 I9]).
      (* a worker that can move by itself, a worker waiting to be served, or all stopped *)
      assert (C : (exists k w, nth_error (s_ws s) k = Some w /\ match w with WAsk _ | WReply _ | WWork _ => True | _ => False end) \/
                  (exists k h, nth_error (s_ws s) k = Some (WSent h)) \/ Forall (fun w => w = WStop) (s_ws s)).
      { clear. induction (s_ws s) as [|w ws IH]; [right; right; constructor|]. destruct w as [h|h|d|d|].
        - left. exists 0%nat. eexists. split; [reflexivity|exact Logic.I].
        - right. left. exists 0%nat, h. reflexivity.
        - left. exists 0%nat. eexists. split; [reflexivity|exact Logic.I].
        - left. exists 0%nat. eexists. split; [reflexivity|exact Logic.I].
        - destruct IH as [(k & w & E & W)|[(k & h & E)|F]].
          + left. exists (S k), w. easy.
          + right. left. exists (S k), h. exact E.
          + right. right. now constructor. }
      destruct C as [(k & w & E & W)|C].
      { right. destruct w as [h|h|d|d|]; try contradiction.
        - exists (LSend k). cbn. rewrite E. eauto.
        - exists (LTake k). cbn. rewrite E. eauto.
        - exists (LHash k). cbn. rewrite E. eauto. }
      destruct (s_r0 s) as [h|d| |] eqn:Er.
      - right. exists L0Ask. cbn. rewrite Er. destruct (store_hashes _ _ _ _ _ _). destruct (s_dirs s); eauto.
      - right. exists L0Hash. cbn. rewrite Er. eauto.
      - destruct C as [(k & h & E)|F].
        + right. exists (LServe k). cbn. rewrite Er, E. destruct (store_hashes _ _ _ _ _ _). destruct (s_dirs s); eauto.
        + right. exists L0Exit. cbn. rewrite Er. assert (L : zlen (filter told (s_ws s)) = zlen (s_ws s)).
          { revert F. clear. induction (s_ws s) as [|w ws IH]; intro F; [reflexivity|]. inversion F as [|? ? F1 F2]; subst. cbn [filter told]. rewrite !zlen_cons, IH by assumption. reflexivity. }
          rewrite I7, L, Z.ltb_irrefl. eauto.
      - left. split; [exact Er|]. destruct C as [(k & h & E)|F]; [|exact F]. exfalso.
        assert (T : Forall (fun w => told w = true) (s_ws s)) by (apply told_all; rewrite <- I7; now apply I9).
        rewrite Forall_forall in T. specialize (T _ (nth_error_In _ _ E)). discriminate.
    Qed.

    Definition wt (w : @wstate Name Path Hsh) : Z := match w with WStop => 0 | WReply None => 1 | WSent _ => 2 | WAsk _ => 3 | WWork _ => 4 | WReply (Some _) => 5 end.
    Definition rt (r : @r0state Name Path Hsh) : Z := match r with RDone => 0 | RDrain => 1 | RAsk _ => 2 | RWork _ => 3 end.
    Definition mu (s : st Name Path Hsh Base) : Z := 4 * zlen (s_dirs s) + sumZ (map wt (s_ws s)) + rt (s_r0 s).
    Lemma sum_set (l : list (@wstate Name Path Hsh)) k w w' : nth_error l k = Some w -> sumZ (map wt (set_nth l k w')) = sumZ (map wt l) - wt w + wt w'.
    Proof using.
      clear. revert k. induction l as [|x l IH]; intros [|k] E; try discriminate; cbn in *; [injection E as ->; lia|]. rewrite (IH k) by assumption. lia.
    Qed.
    Lemma act_mu l s s' : act a cache l s = Some s' -> mu s' <= mu s - 1.
    Proof using.
      clear. intro E. unfold mu. destruct l as [k|k|k|k| | |]; cbn in E.
      - destruct (nth_error (s_ws s) k) as [[h|h|d|d|]|] eqn:Ek; try discriminate. injection E as <-. cbn [s_dirs s_ws s_r0]. rewrite (sum_set _ _ _ _ Ek). cbn. lia.
      - assert (E' : match nth_error (s_ws s) k with Some (WSent h) =>
            let '(hashes, db) := store_hashes POd a cache h (s_hashes s) (s_db s) in
            match s_dirs s with
            | d :: dirs => Some {| s_dirs := dirs; s_hashes := hashes; s_db := db; s_fin := s_fin s; s_r0 := s_r0 s;
                                   s_ws := set_nth (s_ws s) k (WReply (Some d)); s_log := s_log s ++ [(S k, d)] |}
            | [] => Some {| s_dirs := []; s_hashes := hashes; s_db := db; s_fin := s_fin s + 1; s_r0 := s_r0 s;
                            s_ws := set_nth (s_ws s) k (WReply None); s_log := s_log s |}
            end | _ => None end = Some s') by (destruct (s_r0 s); try discriminate; exact E).
        clear E. destruct (nth_error (s_ws s) k) as [[h|h|d|d|]|] eqn:Ek; try discriminate.
        destruct (store_hashes _ _ _ _ _ _). destruct (s_dirs s); injection E' as <-; cbn [s_dirs s_ws s_r0]; rewrite (sum_set _ _ _ _ Ek); rewrite ?zlen_cons; cbn [wt]; lia.
      - destruct (nth_error (s_ws s) k) as [[h|h|d|d|]|] eqn:Ek; try discriminate. injection E as <-. cbn [s_dirs s_ws s_r0]. rewrite (sum_set _ _ _ _ Ek). destruct d; cbn; lia.
      - destruct (nth_error (s_ws s) k) as [[h|h|d|d|]|] eqn:Ek; try discriminate. injection E as <-. cbn [s_dirs s_ws s_r0]. rewrite (sum_set _ _ _ _ Ek). cbn. lia.
      - destruct (s_r0 s) eqn:Er; try discriminate. destruct (store_hashes _ _ _ _ _ _). destruct (s_dirs s); injection E as <-; cbn [s_dirs s_ws s_r0 rt]; rewrite ?zlen_cons; lia.
      - destruct (s_r0 s) eqn:Er; try discriminate. injection E as <-. cbn [s_dirs s_ws s_r0 rt]. lia.
      - destruct (s_r0 s) eqn:Er; try discriminate. destruct (_ <? _); [discriminate|]. injection E as <-. cbn [s_dirs s_ws s_r0 rt]. lia.
    Qed.
    Lemma mu_nonneg s : 0 <= mu s.
    Proof using.
      clear. unfold mu. pose proof (zlen_nonneg (s_dirs s)). assert (0 <= sumZ (map wt (s_ws s))).
      { apply sumZ_nonneg. apply Forall_map, Forall_forall. intros w _. destruct w as [| |[|]| |]; cbn; lia. }
      destruct (s_r0 s); cbn [rt]; lia.
    Qed.
    Lemma run_mu : forall ls s s', run a cache ls s = Some s' -> mu s' <= mu s - zlen ls.
    Proof using.
      clear. induction ls as [|l ls IH]; intros s s' E; cbn in E; [injection E as <-; unfold zlen; cbn; lia|].
      destruct (act a cache l s) as [s1|] eqn:E1; [|discriminate]. specialize (IH _ _ E). apply act_mu in E1. rewrite zlen_cons. lia.
    Qed.
    Lemma bounded ls s : run a cache ls s0 = Some s -> zlen ls <= 4 * zlen dirs + 3 * Z.of_nat n + 2.
    Proof using Hstart.
      intro R. apply run_mu in R. pose proof (mu_nonneg s).
      assert (S : forall m, sumZ (map wt (repeat (@WAsk Name Path Hsh None) m)) = 3 * Z.of_nat m).
      { clear. induction m as [|m IH]; [reflexivity|]. cbn [repeat map sumZ wt]. rewrite IH. lia. }
      assert (E : mu s0 = 4 * zlen dirs + 3 * Z.of_nat n + 2).
      { destruct start_inv as (_ & _ & _ & ->). unfold mu. cbn [s_dirs s_ws s_r0 rt]. rewrite S. reflexivity. }
      lia.
    Qed.

    (** ** the output *)
    Lemma val_ok : cache_ok POd hash_file cache -> forall p, val POd hash_file cache p = hash_file p.
    Proof using.
      clear. intros C p. unfold val. destruct (dget POd cache p) as [h|] eqn:E; [|reflexivity]. symmetry. now apply C.
    Qed.
    Lemma H_In d p v : In (p, v) (H a cache d) <-> exists nm, In (nm, p) d /\ chosen fnmatch a nm p /\ v = val POd hash_file cache p.
    Proof using.
      clear. unfold HashProofs.H. rewrite in_map_iff. split.
      - intros ([nm q] & E & I). cbn in E. injection E as -> <-. apply filter_In in I. destruct I as [I K]. exists nm. split; [exact I|]. split; [|reflexivity].
        now apply (keep_chosen NOd POd fnmatch hash_file).
      - intros (nm & I & C & ->). exists (nm, p). split; [reflexivity|]. apply filter_In. split; [exact I|]. now apply (keep_chosen NOd POd fnmatch hash_file).
    Qed.
    Lemma all_In stored p v : In (p, v) (concat (map (H a cache) stored)) <-> (to_hash fnmatch a stored p /\ v = val POd hash_file cache p).
    Proof using.
      clear. rewrite in_concat. split.
      - intros (l & Il & I). apply in_map_iff in Il. destruct Il as (d & <- & Id). apply H_In in I. destruct I as (nm & I & C & E).
        split; [|exact E]. exists nm. split; [|exact C]. apply in_concat. eauto.
      - intros [(nm & I & C) E]. apply in_concat in I. destruct I as (d & Id & I). exists (H a cache d). split; [now apply in_map|]. apply H_In. eauto.
    Qed.

    Lemma lines_ok ls s : cache_ok POd hash_file cache -> run a cache ls s0 = Some s -> s_r0 s = RDone ->
      StronglySorted (fun x y => ltb POd (fst x) (fst y) = true) (all_dirs_lines POd s) /\
      forall p v, In (p, v) (all_dirs_lines POd s) <-> (to_hash fnmatch a dirs p /\ v = hash_file p).
    Proof using Htree Hstart.
      intros C R E. destruct (done_state ls s R E) as (_ & _ & stored & P & Eh & _). unfold all_dirs_lines.
      assert (N : NoDup (map fst (s_hashes s))).
      { rewrite Eh. apply (part_keys NOd POd fnmatch hash_file a cache dirs Htree stored []). rewrite app_nil_r. now symmetry. }
      split.
      - assert (S := sort_by_sorted_keys POd fst (s_hashes s)). assert (N2 : NoDup (map fst (sort_by POd fst (s_hashes s)))).
        { eapply Permutation_NoDup; [|exact N]. symmetry. apply Permutation_map, sort_by_perm. }
        unfold sorted in S. revert S N2. clear. generalize (sort_by POd fst (s_hashes s)) as l. induction l as [|x l IH]; intros S N; [constructor|].
        cbn in S, N. inversion S as [|? ? S1 S2]; subst. inversion N as [|? ? N1 N2]; subst. constructor; [now apply IH|].
        rewrite Forall_forall in *. intros y Iy. specialize (S2 (fst y) (in_map fst _ _ Iy)). destruct (leb_ltb_or_eq POd _ _ S2) as [L|L]; [exact L|].
        exfalso. apply N1. rewrite L. now apply in_map.
      - intros p v. rewrite <- (val_ok C p).
        assert (Q : In (p, v) (sort_by POd fst (s_hashes s)) <-> In (p, v) (s_hashes s)).
        { split; apply Permutation_in; [apply sort_by_perm|symmetry; apply sort_by_perm]. }
        rewrite Q, Eh, all_In. unfold to_hash.
        assert (W : forall x, In x (concat stored) <-> In x (concat dirs)).
        { intro x. split; apply Permutation_in; rewrite <- (map_id stored), <- (map_id dirs), <- !flat_map_concat_map; apply Permutation_flat_map; [exact P|now symmetry]. }
        split; intros [(nm & I & X) Y]; (split; [|exact Y]); exists nm; (split; [|exact X]); now apply W.
    Qed.

    (** ** the database *)
    Lemma new_rows_app (x y : list (Path * option Hsh)) : new_rows POd a cache (x ++ y) = new_rows POd a cache x ++ new_rows POd a cache y.
    Proof using. clear. unfold new_rows. now rewrite flat_map_app. Qed.
    Lemma new_rows_all stored : flat_map (fun d => new_rows POd a cache (H a cache d)) stored = new_rows POd a cache (concat (map (H a cache) stored)).
    Proof using. clear. induction stored as [|d l IH]; [reflexivity|]. cbn [flat_map map concat]. now rewrite new_rows_app, IH. Qed.
    Lemma new_rows_In h b p v : In (b, p, v) (new_rows POd a cache h) <-> b = a_base a /\ In (p, Some v) h /\ ~ In p (map fst cache).
    Proof using.
      clear. unfold new_rows. rewrite in_flat_map. split.
      - intros ([q w] & I & J). cbn in J. destruct (din POd cache q) eqn:E; [destruct J|]. destruct w as [w|]; [|destruct J].
        destruct J as [J|[]]. injection J as <- -> ->. split; [reflexivity|]. split; [exact I|]. intro K. apply (din_In POd) in K. congruence.
      - intros (-> & I & N). exists (p, Some v). split; [exact I|]. cbn. destruct (din POd cache p) eqn:E; [|now left].
        exfalso. apply N. now apply (din_In POd).
    Qed.
    Lemma new_rows_keys h : NoDup (map fst h) -> NoDup (map (fun r : Base * Path * Hsh => snd (fst r)) (new_rows POd a cache h)).
    Proof using.
      clear. induction h as [|[p v] h IH]; intro N; [constructor|]. cbn [map fst] in N. inversion N as [|? ? N1 N2]; subst.
      change (new_rows POd a cache ((p, v) :: h)) with ((if din POd cache p then [] else match v with Some v => [(a_base a, p, v)] | None => [] end) ++ new_rows POd a cache h).
      destruct (din POd cache p); [now apply IH|]. destruct v as [v|]; [|now apply IH]. cbn. constructor; [|now apply IH].
      intro I. apply in_map_iff in I. destruct I as ([[b q] w] & E & I). cbn in E. subst q. apply new_rows_In in I. destruct I as (_ & I & _).
      apply N1. apply in_map_iff. exists (p, Some w). easy.
    Qed.
    Lemma mine_new h : mine BOd a (new_rows POd a cache h) = new_rows POd a cache h.
    Proof using.
      clear. unfold mine. assert (F : Forall (fun r => eqb BOd (fst (fst r)) (a_base a) = true) (new_rows POd a cache h)).
      { apply Forall_forall. intros [[b p] v] I. apply new_rows_In in I. destruct I as (-> & _). apply eqb_refl. }
      induction (new_rows POd a cache h) as [|r l IH]; [reflexivity|]. inversion F as [|? ? F1 F2]; subst. cbn. rewrite F1. now rewrite IH.
    Qed.
    Lemma mine_app (x y : list (Base * Path * Hsh)) : mine BOd a (x ++ y) = mine BOd a x ++ mine BOd a y.
    Proof using. clear. unfold mine. apply filter_app. Qed.

    (** the rows the run starts from *)
    Definition base_rows : list (Base * Path * Hsh) := match rows0 with Some r => mine BOd a r | None => [] end.
    Lemma cache_keys : good_start hash_file BOd a db -> cache = map (fun r => (snd (fst r), snd r)) base_rows /\ NoDup (map (fun r => snd (fst r)) base_rows) /\
      (forall r, In r base_rows -> hash_file (snd (fst r)) = Some (snd r)).
    Proof.
      intro G. destruct start_inv as (_ & _ & E & _). unfold base_rows, rows0. unfold good_start in G. destruct db as [rows|]; [|subst cache; split; [reflexivity|split; [constructor|intros r []]]].
      destruct (a_resume a); [|subst cache; split; [reflexivity|split; [constructor|intros r []]]].
      destruct (G rows eq_refl eq_refl) as [N C]. split; [|now split]. rewrite E. apply dupdate_new. cbn [app]. rewrite map_map. exact N.
    Qed.
    Lemma cache_good : good_start hash_file BOd a db -> cache_ok POd hash_file cache.
    Proof.
      intros G p h D. destruct (cache_keys G) as (E & N & C). apply dget_In in D. rewrite E in D. apply in_map_iff in D.
      destruct D as (r & R & I). injection R as <- <-. now apply C.
    Qed.

    Lemma reach_rows ls s rows : run a cache ls s0 = Some s -> s_db s = Some rows ->
      exists stored rest r0, Permutation dirs (stored ++ rest) /\ rows0 = Some r0 /\ rows = r0 ++ new_rows POd a cache (concat (map (H a cache) stored)).
    Proof.
      intros R D. destruct (reach ls s R) as (pd & p0 & stored & [I1 I2 I3 I4 I5 I6 I7 I8 I9]). rewrite I6 in D.
      destruct rows0 as [r0|]; [|discriminate]. injection D as <-. exists stored, ((opts pd ++ opt p0) ++ s_dirs s), r0.
      split; [|split; [reflexivity|now rewrite new_rows_all]]. rewrite <- I1, I2. now rewrite <- !app_assoc.
    Qed.

    Lemma db_rows_ok ls s rows : good_start hash_file BOd a db -> run a cache ls s0 = Some s -> s_db s = Some rows -> rows_ok hash_file BOd a rows.
    Proof.
      intros G R D. destruct (reach_rows ls s rows R D) as (stored & rest & r0 & P & E0 & ->).
      destruct (cache_keys G) as (Ec & N & C). unfold base_rows in *. rewrite E0 in *.
      assert (K := part_keys NOd POd fnmatch hash_file a cache dirs Htree stored rest P).
      unfold rows_ok. rewrite mine_app, mine_new. split.
      - rewrite map_app. apply NoDup_app'.
        + exact N.
        + now apply new_rows_keys.
        + intros p I J. apply in_map_iff in J. destruct J as ([[b q] v] & Eq & J). cbn in Eq. subst q. apply new_rows_In in J. destruct J as (_ & _ & J).
          apply J. rewrite Ec, map_map. exact I.
      - intros r I. apply in_app_or in I. destruct I as [I|I]; [now apply C|]. destruct r as [[b p] v]. apply new_rows_In in I. destruct I as (_ & I & _).
        apply all_In in I. destruct I as [_ I]. cbn. rewrite I. symmetry. apply val_ok. now apply cache_good.
    Qed.

    Lemma db_complete ls s rows : good_start hash_file BOd a db -> run a cache ls s0 = Some s -> s_r0 s = RDone -> s_db s = Some rows ->
      (forall p h, to_hash fnmatch a dirs p -> hash_file p = Some h -> In (a_base a, p, h) rows) /\
      (forall b p h, In (b, p, h) rows -> b <> a_base a -> exists rows1, db = Some rows1 /\ a_resume a = true /\ In (b, p, h) rows1) /\
      (forall rows1 r, db = Some rows1 -> a_resume a = true -> In r rows1 -> In r rows).
    Proof.
      intros G R E D. pose proof (cache_good G) as CG. destruct (done_state ls s R E) as (_ & _ & stored & P & _ & Ed). rewrite Ed in D.
      destruct (cache_keys G) as (Ec & N & C). unfold base_rows in *. unfold rows0 in *. destruct db as [rows1|]; [|discriminate]. injection D as <-.
      rewrite new_rows_all. split; [|split].
      - intros p h T Hh. apply in_or_app. destruct (dget POd cache p) as [h'|] eqn:Dg.
        + left. assert (h' = h) as -> by (pose proof (CG p h' Dg); congruence).
          apply dget_In in Dg. rewrite Ec in Dg. apply in_map_iff in Dg. destruct Dg as ([[b q] v] & Eq & I). cbn in Eq. injection Eq as -> ->.
          apply filter_In in I. destruct I as [I B]. cbn in B. apply eqb_eq in B. now subst b.
        + right. apply new_rows_In. split; [reflexivity|]. apply dget_None in Dg. split; [|exact Dg]. apply all_In. split.
          * destruct T as (nm & I & X). exists nm. split; [|exact X]. revert I. apply Permutation_in.
            rewrite <- (map_id stored), <- (map_id dirs), <- !flat_map_concat_map. apply Permutation_flat_map. now symmetry.
          * rewrite <- Hh. symmetry. now apply val_ok.
      - intros b p h I Nb. apply in_app_or in I. destruct I as [I|I].
        + destruct (a_resume a); [eauto|destruct I].
        + apply new_rows_In in I. now destruct I.
      - intros rows2 r [= <-] Er I. rewrite Er. apply in_or_app. now left.
    Qed.
  End Run.

  (** two complete runs write the same file *)
  Lemma lines_unique (l m : list (Path * option Hsh)) :
    StronglySorted (fun x y => ltb POd (fst x) (fst y) = true) l -> StronglySorted (fun x y => ltb POd (fst x) (fst y) = true) m ->
    (forall x, In x l <-> In x m) -> l = m.
  Proof.
    revert m. induction l as [|x l IH]; intros m S T E.
    - destruct m as [|y m]; [reflexivity|]. exfalso. apply (E y). now left.
    - destruct m as [|y m]; [exfalso; apply (E x); now left|].
      inversion S as [|? ? S1 S2]; subst. inversion T as [|? ? T1 T2]; subst. rewrite Forall_forall in S2, T2.
      assert (x = y) as ->.
      { destruct (proj1 (E x) (or_introl eq_refl)) as [<-|I]; [reflexivity|]. destruct (proj2 (E y) (or_introl eq_refl)) as [->|J]; [reflexivity|].
        specialize (S2 y J). specialize (T2 x I). pose proof (ltb_trans POd _ _ _ S2 T2) as B. rewrite ltb_irrefl in B. discriminate. }
      f_equal. apply IH; [assumption..|]. intro z. split; intro I.
      + destruct (proj1 (E z) (or_intror I)) as [<-|J]; [|exact J]. specialize (S2 y I). rewrite ltb_irrefl in S2. discriminate.
      + destruct (proj2 (E z) (or_intror I)) as [<-|J]; [|exact J]. specialize (T2 y I). rewrite ltb_irrefl in T2. discriminate.
  Qed.
  Lemma two_runs a b n m dirs db db' c c' s0 t0 ls ms s t :
    tree_ok dirs -> start a n dirs db = Ok (c, s0) -> start b m dirs db' = Ok (c', t0) ->
    a_include b = a_include a -> a_exclude b = a_exclude a -> a_per_dir b = a_per_dir a -> a_all_dirs b = a_all_dirs a ->
    good_start hash_file BOd a db -> good_start hash_file BOd b db' ->
    run a c ls s0 = Some s -> run b c' ms t0 = Some t -> s_r0 s = RDone -> s_r0 t = RDone ->
    all_dirs_lines POd s = all_dirs_lines POd t.
  Proof.
    intros T S1 S2 E1 E2 E3 E4 G1 G2 R1 R2 D1 D2.
    destruct (lines_ok a n dirs db c s0 T S1 ls s (cache_good a n dirs db c s0 S1 G1) R1 D1) as [L1 M1].
    destruct (lines_ok b m dirs db' c' t0 T S2 ms t (cache_good b m dirs db' c' t0 S2 G2) R2 D2) as [L2 M2].
    apply lines_unique; [exact L1|exact L2|]. intros [p v]. rewrite M1, M2. unfold to_hash, chosen. rewrite E1, E2, E3, E4. tauto.
  Qed.
  (** a first run, interrupted anywhere, and a second that resumes it *)
  Lemma resumed a b n m dirs rows c c' s0 t0 ls ms s t rows1 :
    tree_ok dirs -> a_resume a = false -> b = {| a_base := a_base a; a_include := a_include a; a_exclude := a_exclude a; a_per_dir := a_per_dir a; a_all_dirs := a_all_dirs a; a_resume := true |} ->
    start a n dirs (Some rows) = Ok (c, s0) -> run a c ls s0 = Some s -> s_db s = Some rows1 ->
    start b m dirs (Some rows1) = Ok (c', t0) -> run b c' ms t0 = Some t -> s_r0 t = RDone ->
    (forall p v, In (p, v) (all_dirs_lines POd t) <-> (to_hash fnmatch a dirs p /\ v = hash_file p)) /\
    exists rows2, s_db t = Some rows2 /\ rows_ok hash_file BOd a rows2 /\
      forall p h, to_hash fnmatch a dirs p -> hash_file p = Some h -> In (a_base a, p, h) rows2.
  Proof.
    intros T Ra Eb S1 R1 D1 S2 R2 D2.
    assert (G1 : good_start hash_file BOd a (Some rows)) by (intros ? _ X; congruence).
    assert (K : rows_ok hash_file BOd a rows1) by (eapply (db_rows_ok a n dirs (Some rows) c s0 T S1); eauto).
    assert (G2 : good_start hash_file BOd b (Some rows1)).
    { intros ? [= <-] _. subst b. exact K. }
    destruct (lines_ok b m dirs (Some rows1) c' t0 T S2 ms t (cache_good b m dirs (Some rows1) c' t0 S2 G2) R2 D2) as [_ L].
    split. { intros p v. rewrite L. subst b. reflexivity. }
    destruct (done_state b m dirs (Some rows1) c' t0 T S2 ms t R2 D2) as (_ & _ & stored & _ & _ & Ed).
    eexists. split; [exact Ed|]. split.
    - pose proof (db_rows_ok b m dirs (Some rows1) c' t0 T S2 ms t _ G2 R2 Ed) as X. subst b. exact X.
    - destruct (db_complete b m dirs (Some rows1) c' t0 T S2 ms t _ G2 R2 D2 Ed) as (X & _). subst b. exact X.
  Qed.

  (** the file written in each directory *)
  Lemma per_dir_ok a cache d : NoDup (map fst d) -> cache_ok POd hash_file cache ->
    forall nm v, In (nm, v) (sort_by NOd fst (fst (hash_dir NOd POd fnmatch hash_file a cache d))) <->
      exists p, In (nm, p) d /\ @chosen Name Path Pat Base fnmatch a nm p /\ v = hash_file p.
  Proof.
    intros N C nm v. rewrite hash_dir_fst by exact N.
    assert (Q : forall l : list (Name * option Hsh), In (nm, v) (sort_by NOd fst l) <-> In (nm, v) l).
    { intro l. split; apply Permutation_in; [apply sort_by_perm|symmetry; apply sort_by_perm]. }
    rewrite Q. unfold HN. rewrite in_map_iff. split.
    - intros ([k p] & E & I). cbn in E. injection E as -> <-. apply filter_In in I. destruct I as [I K]. exists p. split; [exact I|].
      split; [now apply (keep_chosen NOd POd fnmatch hash_file)|now apply val_ok].
    - intros (p & I & Ch & ->). exists (nm, p). cbn. rewrite val_ok by exact C. split; [reflexivity|]. apply filter_In. split; [exact I|].
      now apply (keep_chosen NOd POd fnmatch hash_file).
  Qed.
End Final.
