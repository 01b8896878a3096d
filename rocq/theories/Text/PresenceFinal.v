(** C79: the programs. *)
From Coq Require Import Ascii String.
From Verif Require Import Base.Prelude Base.ListLemmas Base.NdArray Formats.ReaderModel Formats.FileSpec Formats.CatSpec Formats.CatFinal Multi.GroupCatModel Multi.GroupCatProofs Binary.FortranProofs.
From Verif Require Import Text.StrModel Text.StrProofs Text.EagleModel Text.EagleSpec Text.EagleProofs Text.EagleFinal Text.PresenceModel Text.PresenceSpec Text.PresenceProofs.
From Coq Require Import ZifyBool ZifyNat.
Local Open Scope char_scope.
Local Open Scope Z_scope.
Local Open Scope list_scope.

(** *** counting *)
Definition tally_of (ev : list (str * bool)) (t : tally) : tally := fold_left (fun t e => count t (fst e) (snd e)) ev t.
Fixpoint get (t : tally) (n : str) : Z * Z := match t with [] => (0, 0) | (n', c) :: t' => if str_eqb n' n then c else get t' n end.
Lemma str_eqb_refl s : str_eqb s s = true. Proof. now apply str_eqb_eq. Qed.
Lemma str_eqb_ne s t : s <> t -> str_eqb s t = false.
Proof. intro H. apply not_true_iff_false. rewrite str_eqb_eq. exact H. Qed.
Lemma get_count t n ok n' : get (count t n ok) n' = if str_eqb n n' then let '(m, e) := get t n' in (if ok then m else m + 1, e + 1) else get t n'.
Proof.
  induction t as [|[a [m e]] t IH]; cbn.
  - destruct (str_eqb n n'); [|reflexivity]. now destruct ok.
  - destruct (str_eqb a n) eqn:E; cbn.
    + apply str_eqb_eq in E. subst a. now destruct (str_eqb n n').
    + destruct (str_eqb a n') eqn:E2; [|exact IH]. apply str_eqb_eq in E2. subst a. rewrite (str_eqb_ne n n'); [reflexivity|]. intros ->. rewrite str_eqb_refl in E. discriminate.
Qed.
Lemma names_count t n ok x : In x (map fst (count t n ok)) <-> x = n \/ In x (map fst t).
Proof.
  induction t as [|[a [m e]] t IH]; cbn; [intuition|]. destruct (str_eqb a n) eqn:E; cbn.
  - apply str_eqb_eq in E. subst a. intuition.
  - rewrite IH. intuition.
Qed.
Lemma NoDup_count t n ok : NoDup (map fst t) -> NoDup (map fst (count t n ok)).
Proof.
  induction t as [|[a [m e]] t IH]; cbn; intro H; [repeat constructor; auto|]. inversion H as [|? ? H1 H2]; subst. destruct (str_eqb a n) eqn:E; cbn; constructor; auto.
  rewrite names_count. intros [->|N]; [rewrite str_eqb_refl in E; discriminate | contradiction].
Qed.
Definition missing (ev : list (str * bool)) (n : str) : Z := zlen (filter (fun e => str_eqb (fst e) n && negb (snd e)) ev).
Definition expected (ev : list (str * bool)) (n : str) : Z := zlen (filter (fun e => str_eqb (fst e) n) ev).
Lemma get_tally ev : forall t n, get (tally_of ev t) n = (fst (get t n) + missing ev n, snd (get t n) + expected ev n).
Proof.
  unfold tally_of, missing, expected. induction ev as [|[a ok] ev IH]; intros t n; cbn [fold_left filter fst snd].
  - destruct (get t n). cbn. f_equal; lia.
  - rewrite IH, get_count. destruct (str_eqb a n); cbn [andb]; [|reflexivity]. destruct (get t n) as [m e]. destruct ok; cbn [negb fst snd]; rewrite !zlen_cons; f_equal; lia.
Qed.
Lemma NoDup_tally ev : forall t, NoDup (map fst t) -> NoDup (map fst (tally_of ev t)).
Proof. induction ev as [|e ev IH]; intros t H; [exact H|]. apply IH. now apply NoDup_count. Qed.
Lemma get_In t n m e : NoDup (map fst t) -> 0 < m -> (In (n, (m, e)) t <-> get t n = (m, e)).
Proof.
  intros H Hm. induction t as [|[a [m' e']] t IH]; cbn; [split; [contradiction | intro E; injection E; lia]|]. inversion H as [|? ? H1 H2]; subst. destruct (str_eqb a n) eqn:E.
  - apply str_eqb_eq in E. subst a. split; [intros [Q|Q]; [congruence|] | intro Q; left; congruence]. exfalso. apply H1. apply in_map_iff. now exists (n, (m, e)).
  - rewrite <- IH by assumption. split; [intros [Q|Q]; [|exact Q] | now right]. injection Q as -> -> ->. rewrite str_eqb_refl in E. discriminate.
Qed.
Lemma summary_In t n m e : In (n, m, e) (summary t) <-> In (n, (m, e)) t /\ 0 < m.
Proof.
  unfold summary. rewrite in_flat_map. split.
  - intros ([a [m' e']] & H & H2). destruct (Z.ltb_spec 0 m'); [|contradiction]. destruct H2 as [H2|[]]. injection H2 as -> -> ->. now split.
  - intros [H H2]. exists (n, (m, e)). split; [exact H|]. destruct (Z.ltb_spec 0 m); [now left | lia].
Qed.
Lemma summary_ok ev n m e : In (n, m, e) (summary (tally_of ev [])) <-> 0 < m /\ m = missing ev n /\ e = expected ev n.
Proof.
  rewrite summary_In. split.
  - intros [H Hm]. apply (get_In _ n m e) in H; [|apply NoDup_tally; constructor | exact Hm]. rewrite get_tally in H. cbn [get fst snd] in H. injection H as <- <-. repeat split; lia.
  - intros (Hm & -> & ->). split; [|exact Hm]. apply get_In; [apply NoDup_tally; constructor | exact Hm|]. rewrite get_tally. cbn [get fst snd]. reflexivity.
Qed.
Lemma summary_once ev : NoDup (map (fun x => fst (fst x)) (summary (tally_of ev []))).
Proof.
  assert (forall t, NoDup (map fst t) -> NoDup (map (fun x => fst (fst x)) (summary t))) as H; [|apply H, NoDup_tally; constructor].
  induction t as [|[a [m e]] t IH]; cbn; intro H; [constructor|]. inversion H as [|? ? H1 H2]; subst. rewrite map_app. destruct (0 <? m); cbn; [|now apply IH]. constructor; [|now apply IH].
  intro N. apply H1. apply in_map_iff in N. destruct N as ([[b m'] e'] & <- & N). apply summary_In in N. apply in_map_iff. exists (b, (m', e')). tauto.
Qed.

(** the checks of all outputs of each snapshot *)
Section Checks.
  Context {K : Type}.
  Variable name : K -> str.
  Variable ok : Z -> K -> bool.
  Definition checks (snaps : list Z) (kinds : list K) : list (Z * K) := flat_map (fun i => map (fun k => (i, k)) kinds) snaps.
  Definition events (l : list (Z * K)) : list (str * bool) := map (fun x => (name (snd x), ok (fst x) (snd x))) l.
  Lemma events_app a b : events (a ++ b) = events a ++ events b. Proof. apply map_app. Qed.
  Lemma filter_other kinds i n (p : str * bool -> bool) : ~ In n (map name kinds) -> filter (fun e => str_eqb (fst e) n && p e) (events (map (fun k => (i, k)) kinds)) = [].
  Proof.
    intro H. induction kinds as [|k kinds IH]; [reflexivity|]. cbn. rewrite str_eqb_ne; [|intro E; apply H; now left]. apply IH. intro N. apply H. now right.
  Qed.
  Lemma filter_one kinds i k (p : str * bool -> bool) : NoDup (map name kinds) -> In k kinds ->
    filter (fun e => str_eqb (fst e) (name k) && p e) (events (map (fun k => (i, k)) kinds)) = if p (name k, ok i k) then [(name k, ok i k)] else [].
  Proof.
    induction kinds as [|k' kinds IH]; intros Hn Hin; [contradiction|]. inversion Hn as [|? ? H1 H2]; subst. cbn. destruct Hin as [->|Hin].
    - rewrite str_eqb_refl. cbn [andb]. pose proof (filter_other kinds i (name k) p H1) as E. unfold events in E. rewrite E. now destruct (p _).
    - rewrite str_eqb_ne; [|intro E; apply H1; rewrite E; now apply in_map]. cbn [andb]. now apply IH.
  Qed.
  Lemma missing_checks snaps kinds k : NoDup (map name kinds) -> In k kinds ->
    missing (events (checks snaps kinds)) (name k) = zlen (filter (fun i => negb (ok i k)) snaps) /\ expected (events (checks snaps kinds)) (name k) = zlen snaps.
  Proof.
    intros Hn Hin. unfold missing, expected, checks. induction snaps as [|i snaps [IH1 IH2]]; [split; reflexivity|]. cbn [flat_map]. rewrite !events_app, !filter_app, !zlen_app, IH1, IH2. split.
    - rewrite (filter_one kinds i k (fun e => negb (snd e)) Hn Hin). cbn [filter snd]. destruct (negb (ok i k)); rewrite ?zlen_cons; reflexivity.
    - erewrite filter_ext_in' with (g := fun e => str_eqb (fst e) (name k) && (fun _ => true) e); [|intro; now rewrite andb_true_r]. rewrite (filter_one kinds i k (fun _ => true) Hn Hin), !zlen_cons. unfold zlen. cbn [length]. lia.
  Qed.
  Lemma no_event snaps kinds n : ~ In n (map name kinds) -> missing (events (checks snaps kinds)) n = 0 /\ expected (events (checks snaps kinds)) n = 0.
  Proof.
    intro H. unfold missing, expected, checks. induction snaps as [|i snaps [IH1 IH2]]; [split; reflexivity|]. cbn [flat_map]. rewrite !events_app, !filter_app, !zlen_app, IH1, IH2. split.
    - now rewrite (filter_other kinds i n (fun e => negb (snd e)) H).
    - erewrite filter_ext_in' with (g := fun e => str_eqb (fst e) n && (fun _ => true) e); [|intro; now rewrite andb_true_r]. now rewrite (filter_other kinds i n (fun _ => true) H).
  Qed.
End Checks.

(** *** p-gadget3 *)
Section Pg.
  Variable listing : str -> option (list str).
  Variable little : bool.
  Variable contents : str -> option (list Z).
  Variable snap_nfiles : str -> res Z.
  Variables basedir snapbase : str.
  Let kinds := pg_kinds little contents snap_nfiles snapbase.
  Let one (i : Z) (k : str * str * str * (str -> res Z)) : str * bool := let '(dirbase, filebase, _, g) := k in pg_check_dir listing basedir dirbase filebase i g.
  Let nam (k : str * str * str * (str -> res Z)) : str := snd (fst k).

  Lemma pg_fold l : forall lines t, fold_left (fun (st : list str * tally) x => let '(i, kind) := (x : Z * _) in
      let '(lines, t) := st in let '(dirbase, filebase, outtype, g) := kind in
      let '(line, ok) := pg_check_dir listing basedir dirbase filebase i g in (lines ++ [line], count t outtype ok)) l (lines, t) =
    (lines ++ map (fun x => fst (one (fst x) (snd x))) l, tally_of (events nam (fun i k => snd (one i k)) l) t).
  Proof.
    induction l as [|[i [[[d f] n] g]] l IH]; intros lines t; [cbn; now rewrite app_nil_r|].
    cbn [fold_left]. destruct (pg_check_dir listing basedir d f i g) as [line ok] eqn:E. rewrite IH, <- app_assoc. unfold events, tally_of. cbn [map fold_left fst snd app].
    assert (one i (d, f, n, g) = (line, ok)) as -> by exact E. reflexivity.
  Qed.
  Lemma fold_checks {S K} (f : S -> Z * K -> S) snaps (ks : list K) : forall s, fold_left (fun st i => fold_left (fun st k => f st (i, k)) ks st) snaps s = fold_left f (checks snaps ks) s.
  Proof.
    unfold checks. induction snaps as [|i snaps IH]; intro s; cbn; [reflexivity|]. rewrite fold_left_app, IH. f_equal. clear IH. revert s. induction ks as [|k ks IH]; intro s; cbn; [reflexivity | apply IH].
  Qed.
  Lemma pg_run_eq max_num first_num step : pg_run listing little contents snap_nfiles basedir snapbase max_num first_num step =
    (do snaps <- py_range first_num (max_num + 1) step;
     Ok (map (fun x => fst (one (fst x) (snd x))) (checks snaps kinds), summary (tally_of (events nam (fun i k => snd (one i k)) (checks snaps kinds)) []))).
  Proof.
    unfold pg_run. destruct (py_range first_num (max_num + 1) step) as [snaps|e]; [|reflexivity]. cbn [bind].
    pose proof (fold_checks (fun (st : list str * tally) x => let '(i, kind) := (x : Z * _) in
      let '(lines, t) := st in let '(dirbase, filebase, outtype, g) := kind in
      let '(line, ok) := pg_check_dir listing basedir dirbase filebase i g in (lines ++ [line], count t outtype ok)) snaps kinds ([], [])) as E.
    cbn beta iota in E. unfold kinds in E at 1. rewrite E, pg_fold. reflexivity.
  Qed.

  Lemma pg_kind_names : NoDup (map nam kinds).
  Proof. cbn. repeat constructor; cbn; intro H; repeat destruct H as [H|H]; try discriminate; contradiction. Qed.
  Lemma pg_kind_slash d f n g : ~ In "/" snapbase -> In (d, f, n, g) kinds -> ~ In "/" f.
  Proof. intros Hs H. cbn in H. repeat destruct H as [H|H]; try contradiction; injection H as <- <- <- <-; try exact Hs; intro N; cbn in N; repeat destruct N as [N|N]; try discriminate; contradiction. Qed.

  Lemma pg_run_ok max_num first_num step : ~ In "/" snapbase -> step <> 0 ->
    exists snaps lines s, pg_run listing little contents snap_nfiles basedir snapbase max_num first_num step = Ok (lines, s) /\ steps first_num max_num step snaps /\ NoDup snaps /\
      Forall2 (fun x line => let '(i, (dirbase, filebase, _, g)) := x in let dir := pg_dir basedir dirbase i in
        says dirbase filebase i (g (dir ++ "/" :: pg_file filebase i 0)) (listing dir) (pg_file filebase i) line) (flat_map (fun i => map (fun k => (i, k)) kinds) snaps) lines /\
      NoDup (map (fun x => fst (fst x)) s) /\ (forall n m e, In (n, m, e) s -> In n (map nam kinds)) /\
      forall dirbase filebase n g, In (dirbase, filebase, n, g) kinds -> exists ok : Z -> bool,
        (forall i, ok i = true <-> let dir := pg_dir basedir dirbase i in complete (g (dir ++ "/" :: pg_file filebase i 0)) (listing dir) (pg_file filebase i)) /\
        forall m e, In (n, m, e) s <-> 0 < m /\ m = zlen (filter (fun i => negb (ok i)) snaps) /\ e = zlen snaps.
  Proof.
    intros Hs Hstep. rewrite pg_run_eq. pose proof (range_ok first_num max_num step) as R. destruct (py_range first_num (max_num + 1) step) as [snaps|e]; [|lia]. destruct R as (_ & R1 & R2).
    exists snaps. do 2 eexists. split; [reflexivity|]. split; [exact R1|]. split; [exact R2|]. split; [|split; [apply summary_once|split]].
    - fold (checks snaps kinds). assert (Forall (fun x : Z * _ => In (snd x) kinds) (checks snaps kinds)) as Hk. { apply Forall_forall. intros x Hx. unfold checks in Hx. apply in_flat_map in Hx. destruct Hx as (i & _ & Hx). apply in_map_iff in Hx. now destruct Hx as (k & <- & Hx). }
      induction Hk as [|[i [[[d f] n] g]] l Hin Hl IH]; cbn [map]; constructor; [|exact IH]. cbn [fst snd one]. apply pg_check. now apply (pg_kind_slash d f n g).
    - intros n m e H. apply summary_ok in H. destruct H as (H1 & H2 & _). destruct (in_dec (list_eq_dec ascii_dec) n (map nam kinds)) as [|N]; [assumption|]. rewrite (proj1 (no_event nam _ snaps kinds n N)) in H2. lia.
    - intros d f n g Hin. exists (fun i => snd (one i (d, f, n, g))). split.
      + intro i. cbv zeta. cbn [one]. apply pg_check. now apply (pg_kind_slash d f n g).
      + intros m e. rewrite summary_ok. destruct (missing_checks nam (fun i k => snd (one i k)) snaps kinds (d, f, n, g) pg_kind_names Hin) as [E1 E2]. cbn [nam fst snd] in E1, E2. rewrite E1, E2. tauto.
  Qed.
  Lemma pg_run_zero max_num first_num : pg_run listing little contents snap_nfiles basedir snapbase max_num first_num 0 = Err EValue.
  Proof. reflexivity. Qed.

  (** the number of files from the bytes of the first one *)
  Lemma ntask_ok p l cat lf rest fname : reads p "NTask" l -> consistent cat l -> 1 <= scalar cat "NTask" <= 65535 -> contents fname = Some (file_bytes lf (pieces_of cat l) ++ rest) ->
    ntask little contents p fname = Ok (scalar cat "NTask").
  Proof.
    intros Hr Hc Hn Hf. pose proof (catalogue_opens p "NTask" l cat little lf rest Hr Hc Hn) as Ho.
    destruct (opened little (fun _ => contents fname) p (pieces_of cat l) lf rest 0 Ho Hf) as (f & Hopen & Hd & _). unfold open_nr in Hopen. unfold ntask. rewrite Hf in *.
    destruct (open_file little (file_bytes lf (pieces_of cat l) ++ rest) p) as [ff [u|e]]; [|discriminate]. injection Hopen as <-.
    assert (In (Data (nm "NTask") false 4 [] (cat "NTask"%string)) (pieces_of cat l)) as Hin.
    { destruct Hr; cbn; repeat (first [left; reflexivity | right]). }
    rewrite (Hd _ _ _ _ Hin). cbn [bind data]. unfold i32. f_equal. unfold scalar in *. rewrite signed32_small; lia.
  Qed.
End Pg.

(** *** eagle *)
Section Pattern.
  Variables (dirbase : str) (isnap : Z).
  Hypothesis Hok : ok_name dirbase = true.
  Let pre : str := dirbase ++ "_" :: fmt_0d 3 isnap ++ ["_"].
  Lemma sub_pre' z : sub_name dirbase isnap z = pre ++ z.
  Proof. unfold sub_name, pre. rewrite <- app_assoc. cbn [app]. now rewrite <- app_assoc. Qed.
  Lemma sub_match' n : fnmatch (sub_name dirbase isnap (lit "z???p???")) n = true <-> exists q, like_label q /\ n = sub_name dirbase isnap q.
  Proof.
    rewrite sub_pre', <- (app_nil_r (lit "z???p???")), fnmatch_around; [|apply pre_magic, Hok|reflexivity]. split; intros (q & Hq & H); exists q; (split; [assumption|]); rewrite H, sub_pre', ?app_nil_r; reflexivity.
  Qed.
  Lemma sub_hd' z : exists c t, sub_name dirbase isnap z = c :: t /\ c <> "." /\ c <> "/".
  Proof. destruct (ok_name_spec dirbase Hok) as (_ & _ & c & t & E & H). exists c, (t ++ "_" :: fmt_0d 3 isnap ++ "_" :: z). split; [|exact H]. unfold sub_name. rewrite E. reflexivity. Qed.
  Lemma sub_noslash' z : ~ In "/" z -> ~ In "/" (sub_name dirbase isnap z).
  Proof. intro H. rewrite sub_pre', in_app_iff. intros [N|N]; [revert N; apply pre_magic, Hok | contradiction]. Qed.
  Lemma sub_inj q z : sub_name dirbase isnap q = sub_name dirbase isnap z -> q = z.
  Proof. rewrite !sub_pre'. apply app_inv_head. Qed.

  Variable F : fs.
  Variable basedir : str.
  Hypothesis Hplain : plain basedir.
  Lemma glob_dirs : exists root, root_of basedir root /\ glob F (basedir ++ "/" :: dirbase ++ "_" :: fmt_0d 3 isnap ++ lit "_z???p???") = map (path_join root) (glob1 F root (sub_name dirbase isnap (lit "z???p???")) false).
  Proof.
    change (lit "_z???p???") with ("_" :: lit "z???p???"). fold (sub_name dirbase isnap (lit "z???p???")).
    destruct (path_split_root basedir (sub_name dirbase isnap (lit "z???p???")) (sub_noslash' _ pat_noslash) Hplain) as (root & Hr & Hsp).
    exists root. split; [exact Hr|]. set (D := sub_name dirbase isnap (lit "z???p???")) in *.
    assert (has_magic D = true) as MD. { unfold D. rewrite sub_pre', magic_app. change (has_magic (lit "z???p???")) with true. now rewrite orb_true_r. }
    assert (has_magic root = false) as MR.
    { destruct Hplain as (P1 & P2 & P3 & _). assert (has_magic basedir = false) by now apply magic_In. destruct Hr as [[_ ->]|[_ ->]]; [rewrite magic_app; now rewrite H|assumption]. }
    assert (has_magic (basedir ++ "/" :: D) = true) as M1. { rewrite magic_app. change ("/" :: D) with (["/"] ++ D). rewrite magic_app, MD. now rewrite !orb_true_r. }
    unfold glob. cbn [iglob]. rewrite Hsp, M1, MR, MD, andb_false_r. cbn [negb flat_map]. rewrite app_nil_r. destruct root as [|c root]; [|reflexivity].
    exfalso. now apply (root_nonempty basedir [] Hr).
  Qed.
  Lemma join_sub' root q : root_of basedir root -> path_join root (sub_name dirbase isnap q) = basedir ++ "/" :: sub_name dirbase isnap q.
  Proof. intro Hr. destruct (sub_hd' q) as (c & t & E & _ & Hc). rewrite E. now apply (path_join_root basedir root _ c t). Qed.
  Lemma in_dirs root n : In n (glob1 F root (sub_name dirbase isnap (lit "z???p???")) false) <-> exists q, like_label q /\ n = sub_name dirbase isnap q /\ In n (map fst (listdir F root)).
  Proof.
    rewrite in_glob1, sub_match'. split.
    - intros ((b & H & _) & _ & q & Hq & ->). exists q. split; [exact Hq|]. split; [reflexivity|]. apply in_map_iff. now exists (sub_name dirbase isnap q, b).
    - intros (q & Hq & -> & H). apply in_map_iff in H. destruct H as ([n b] & E & H). cbn in E. subst n. split; [exists b; split; [exact H | discriminate]|]. split; [right; apply not_hidden, sub_hd'|]. now exists q.
  Qed.
  Lemma last8_label p z : like_label z -> last8 (p ++ z) = z.
  Proof.
    intros (a & b & c & d & e & f & ->). unfold last8. rewrite app_length. cbn [length]. rewrite Nat.add_sub, skipn_app, skipn_all, Nat.sub_diag. reflexivity.
  Qed.
  Lemma sub_last8 z : like_label z -> last8 (basedir ++ "/" :: sub_name dirbase isnap z) = z.
  Proof. intro H. rewrite sub_pre'. change ("/" :: pre ++ z) with (("/" :: pre) ++ z). rewrite app_assoc. now apply last8_label. Qed.

  (** there is one such directory, or glob does not give exactly one name *)
  Lemma glob_label : proper F -> (exists z, only_label F basedir dirbase isnap z /\ glob F (basedir ++ "/" :: dirbase ++ "_" :: fmt_0d 3 isnap ++ lit "_z???p???") = [basedir ++ "/" :: sub_name dirbase isnap z]) \/
    ((forall z, ~ only_label F basedir dirbase isnap z) /\ forall d, glob F (basedir ++ "/" :: dirbase ++ "_" :: fmt_0d 3 isnap ++ lit "_z???p???") <> [d]).
  Proof.
    intro Hp. destruct glob_dirs as (root & Hr & ->). set (l := glob1 F root (sub_name dirbase isnap (lit "z???p???")) false).
    assert (NoDup l) as Hn. { unfold l, glob1. apply NoDup_filter. apply NoDup_filter_map, (Hp root). }
    destruct l as [|n [|n2 l2]] eqn:E.
    - right. split; [|discriminate]. intros z [Hz H]. destruct (H root Hr) as [H1 _]. assert (In (sub_name dirbase isnap z) []) as []. rewrite <- E. unfold l. apply in_dirs. now exists z.
    - left. assert (In n [n]) as Hin by now left. rewrite <- E in Hin. apply in_dirs in Hin. destruct Hin as (q & Hq & -> & Hin). exists q. split; [|cbn; now rewrite join_sub'].
      split; [exact Hq|]. intros root' Hr'. rewrite (root_unique basedir root' root Hr' Hr). split; [exact Hin|]. intros q' Hq' H'. assert (In (sub_name dirbase isnap q') [sub_name dirbase isnap q]) as Q. { rewrite <- E. apply in_dirs. now exists q'. }
      destruct Q as [Q|[]]. symmetry. now apply sub_inj.
    - right. split; [|discriminate]. intros z [Hz H]. destruct (H root Hr) as [_ Hu].
      assert (forall x, In x (n :: n2 :: l2) -> x = sub_name dirbase isnap z) as Ha. { intros x Hx. rewrite <- E in Hx. apply in_dirs in Hx. destruct Hx as (q & Hq & -> & Hx). f_equal. now apply Hu. }
      inversion Hn as [|? ? Q _]. apply Q. left. rewrite (Ha n2), (Ha n); [reflexivity | now left | right; now left].
  Qed.
  Lemma label_slash z : proper F -> only_label F basedir dirbase isnap z -> ~ In "/" z.
  Proof.
    intros Hp [_ H] N. destruct glob_dirs as (root & Hr & _). destruct (H root Hr) as [H1 _]. destruct (Hp root) as [_ Hs]. apply (Hs _ H1). rewrite sub_pre'. apply in_or_app. now right.
  Qed.
  Lemma label_unique z z' : only_label F basedir dirbase isnap z -> only_label F basedir dirbase isnap z' -> z = z'.
  Proof. intros [Hz H] [Hz' H']. destruct glob_dirs as (root & Hr & _). destruct (H root Hr) as [H1 H2]. destruct (H' root Hr) as [H1' _]. symmetry. now apply H2. Qed.
End Pattern.

Section Eg.
  Variable F : fs.
  Variable listing : str -> option (list str).
  Variable attribute : str -> str -> res Z.
  Hypothesis Hproper : proper F.

  (** the cache holds what glob gives *)
  Definition right_cache (c : cache) : Prop := forall simdir dirbase isnap z, lookup c (simdir, dirbase, isnap) = Some z ->
    exists d, glob F (simdir ++ "/" :: dirbase ++ "_" :: fmt_0d 3 isnap ++ lit "_z???p???") = [d] /\ z = last8 d.
  Lemma filename_right c simdir dirbase filebase isnap i : right_cache c -> right_cache (snd (eg_filename F c simdir dirbase filebase isnap i)).
  Proof.
    intro H. unfold eg_filename. destruct (lookup c (simdir, dirbase, isnap)) as [z|] eqn:E; [exact H|]. destruct (glob F _) as [|d [|d2 l]] eqn:G; try exact H. cbn [snd].
    intros s' d' i' z. unfold lookup. cbn [find fst]. destruct (key_eqb (simdir, dirbase, isnap) (s', d', i')) eqn:K.
    - apply key_eqb_eq in K. injection K as <- <- <-. intro Q. cbn in Q. injection Q as <-. now exists d.
    - apply H.
  Qed.
  Lemma filename_same c simdir dirbase filebase isnap i : right_cache c -> fst (eg_filename F c simdir dirbase filebase isnap i) = fst (eg_filename F [] simdir dirbase filebase isnap i).
  Proof.
    intro H. unfold eg_filename. change (lookup [] (simdir, dirbase, isnap)) with (@None str). destruct (lookup c (simdir, dirbase, isnap)) as [z|] eqn:E.
    - apply H in E. destruct E as (d & -> & ->). reflexivity.
    - now destruct (glob F _) as [|d [|d2 l]].
  Qed.
  Lemma count_right basedir dirbase filebase isnap fnames l : forall c n, right_cache c ->
    right_cache (snd (eg_count F c basedir dirbase filebase isnap fnames l n)) /\ fst (eg_count F c basedir dirbase filebase isnap fnames l n) = fst (eg_count F [] basedir dirbase filebase isnap fnames l n).
  Proof.
    assert (right_cache []) as H0 by (intros ? ? ? ? E; discriminate).
    induction l as [|i l IH]; intros c n H; cbn [eg_count]; [split; [exact H | reflexivity]|].
    pose proof (filename_right c basedir dirbase filebase isnap i H) as H1. pose proof (filename_same c basedir dirbase filebase isnap i H) as H2. pose proof (filename_right [] basedir dirbase filebase isnap i H0) as H3.
    destruct (eg_filename F c basedir dirbase filebase isnap i) as [[f|e] c1], (eg_filename F [] basedir dirbase filebase isnap i) as [[f'|e'] c2]; cbn [fst snd] in *; try discriminate; [|injection H2 as ->; split; [exact H1 | reflexivity]].
    injection H2 as ->. split; [apply IH, H1|]. rewrite (proj2 (IH c1 _ H1)), (proj2 (IH c2 _ H3)). reflexivity.
  Qed.
  Lemma check_right c basedir dirbase filebase attr isnap : right_cache c ->
    right_cache (snd (eg_check_dir F listing attribute c basedir dirbase filebase attr isnap)) /\ fst (eg_check_dir F listing attribute c basedir dirbase filebase attr isnap) = fst (eg_check_dir F listing attribute [] basedir dirbase filebase attr isnap).
  Proof.
    assert (right_cache []) as H0 by (intros ? ? ? ? E; discriminate).
    intro H. unfold eg_check_dir. pose proof (filename_right c basedir dirbase filebase isnap 0 H) as H1. pose proof (filename_same c basedir dirbase filebase isnap 0 H) as H2. pose proof (filename_right [] basedir dirbase filebase isnap 0 H0) as H3.
    destruct (eg_filename F c basedir dirbase filebase isnap 0) as [[f|e] c1], (eg_filename F [] basedir dirbase filebase isnap 0) as [[f'|e'] c2]; cbn [fst snd] in *; try discriminate; injection H2 as ->.
    - destruct (attribute f' attr) as [n|e]; [|destruct e; cbn; tauto]. destruct (listing (dirname f')) as [fnames|]; [|cbn; tauto].
      destruct (count_right basedir dirbase filebase isnap fnames (zseq 0 (Z.to_nat n)) c1 0 H1) as [A1 A2]. destruct (count_right basedir dirbase filebase isnap fnames (zseq 0 (Z.to_nat n)) c2 0 H3) as [_ B2].
      destruct (eg_count F c1 _ _ _ _ _ _ _) as [[k|e] c3], (eg_count F c2 _ _ _ _ _ _ _) as [[k'|e'] c4]; cbn [fst snd] in *; (split; [exact A1|]); congruence.
    - destruct e'; cbn; tauto.
  Qed.

  (** one directory *)
  Section Dir.
    Variables (basedir dirbase filebase attr : str) (isnap : Z).
    Hypothesis Hplain : plain basedir.
    Hypothesis Hok : ok_name dirbase = true.
    Hypothesis Hfile : ~ In "/" filebase.
    Lemma none_dir : (forall z, ~ only_label F basedir dirbase isnap z) -> fst (eg_check_dir F listing attribute [] basedir dirbase filebase attr isnap) = Ok (none_line dirbase filebase isnap, false).
    Proof.
      intro H. destruct (glob_label dirbase isnap Hok F basedir Hplain Hproper) as [(z & Hz & _)|[_ Hg]]; [destruct (H z Hz)|].
      unfold eg_check_dir, eg_filename. change (lookup [] (basedir, dirbase, isnap)) with (@None str). cbv beta iota. destruct (glob F _) as [|d [|d2 l]] eqn:G; [reflexivity | destruct (Hg d eq_refl) | reflexivity].
    Qed.
    Variable z : str.
    Hypothesis Hz : only_label F basedir dirbase isnap z.
    Lemma cached i c : (c = [] \/ c = [((basedir, dirbase, isnap), z)]) ->
      eg_filename F c basedir dirbase filebase isnap i = (Ok (eg_dir basedir dirbase isnap z ++ "/" :: file_name filebase isnap z i), [((basedir, dirbase, isnap), z)]).
    Proof.
      assert (basedir ++ "/" :: dirbase ++ "_" :: fmt_0d 3 isnap ++ "_" :: z ++ "/" :: filebase ++ "_" :: fmt_0d 3 isnap ++ "_" :: z ++ "." :: fmt_d i ++ lit ".hdf5" = eg_dir basedir dirbase isnap z ++ "/" :: file_name filebase isnap z i) as E.
      { unfold eg_dir, sub_name, file_name. rewrite <- app_assoc. cbn [app]. rewrite <- app_assoc. cbn [app]. rewrite <- app_assoc. reflexivity. }
      intros [-> | ->]; unfold eg_filename.
      - change (lookup [] (basedir, dirbase, isnap)) with (@None str). cbv beta iota. destruct (glob_label dirbase isnap Hok F basedir Hplain Hproper) as [(z' & Hz' & Hg)|[H _]]; [|destruct (H z Hz)].
        rewrite (label_unique dirbase isnap Hok F basedir Hplain z' z Hz' Hz) in Hg. rewrite Hg, (sub_last8 dirbase isnap basedir z (proj1 Hz)). cbv zeta. now rewrite E.
      - unfold lookup. cbn [find fst]. replace (key_eqb (basedir, dirbase, isnap) (basedir, dirbase, isnap)) with true by (symmetry; now apply key_eqb_eq). cbn [option_map snd]. now rewrite E.
    Qed.
    Lemma cached0 : eg_filename F [] basedir dirbase filebase isnap 0 = (Ok (eg_dir basedir dirbase isnap z ++ "/" :: file_name filebase isnap z 0), [((basedir, dirbase, isnap), z)]).
    Proof. apply cached. now left. Qed.
    Lemma eg_split i : path_split (eg_dir basedir dirbase isnap z ++ "/" :: file_name filebase isnap z i) = (eg_dir basedir dirbase isnap z, file_name filebase isnap z i).
    Proof.
      pose proof (label_slash dirbase isnap Hok F basedir Hplain z Hproper Hz) as Hs. destruct Hz as [Hl _]. apply split_path.
      - unfold file_name. rewrite in_app_iff. intros [N|[N|N]]; [contradiction | discriminate|]. apply in_app_or in N. destruct N as [N|[N|N]]; [revert N; apply num_no_slash, fmt_0d_num | discriminate|].
        apply in_app_or in N. destruct N as [N|[N|N]]; [contradiction | discriminate|]. apply in_app_or in N. destruct N as [N|N]; [revert N; apply num_no_slash, fmt_d_num|]. cbn in N. repeat destruct N as [N|N]; discriminate || contradiction.
      - destruct Hl as (a & b & c & d & e & f & ->). exists (basedir ++ "/" :: sub_name dirbase isnap ["z"; a; b; c; "p"; d; e]), f. split.
        + unfold eg_dir. unfold sub_name. rewrite <- !app_assoc. cbn [app]. rewrite <- !app_assoc. cbn [app]. rewrite <- !app_assoc. reflexivity.
        + intros ->. apply Hs. cbn. tauto.
    Qed.
    Lemma count_files fnames l : forall c n, (c = [] \/ c = [((basedir, dirbase, isnap), z)]) ->
      fst (eg_count F c basedir dirbase filebase isnap fnames l n) = Ok (n + zlen (filter (fun i => in_names (file_name filebase isnap z i) fnames) l)).
    Proof.
      induction l as [|i l IH]; intros c n Hc; cbn [eg_count filter]; [cbn; f_equal; unfold zlen; cbn; lia|]. rewrite (cached i c Hc). rewrite IH by now right. unfold basename. rewrite eg_split. cbn [snd].
      destruct (in_names _ fnames); rewrite ?zlen_cons; f_equal; lia.
    Qed.
    Let dir := eg_dir basedir dirbase isnap z.
    Let first := attribute (dir ++ "/" :: file_name filebase isnap z 0) attr.
    Lemma one_dir : match first with Err e => e = EIO | Ok _ => True end -> exists r, fst (eg_check_dir F listing attribute [] basedir dirbase filebase attr isnap) = Ok r /\
      (snd r = true <-> complete first (listing dir) (file_name filebase isnap z)) /\ says dirbase filebase isnap first (listing dir) (file_name filebase isnap z) (fst r).
    Proof.
      intro He. unfold eg_check_dir. rewrite cached0. fold dir. fold first. destruct first as [n|e].
      - unfold dirname. pose proof (eg_split 0) as Es. fold dir in Es. rewrite Es. cbn [fst]. destruct (listing dir) as [fnames|].
        + pose proof (count_files fnames (zseq 0 (Z.to_nat n)) [((basedir, dirbase, isnap), z)] 0 (or_intror eq_refl)) as Hc. destruct (eg_count F _ _ _ _ _ _ _ _) as [r c]. cbn [fst] in Hc. subst r. eexists. split; [reflexivity|]. apply verdict_ok. rewrite Z.add_0_l. apply found_present.
        + eexists. split; [reflexivity|]. apply verdict_ok, none_present.
      - subst e. eexists. split; [reflexivity|]. apply verdict_none.
    Qed.
    Lemma one_dir_error e : first = Err e -> e <> EIO -> fst (eg_check_dir F listing attribute [] basedir dirbase filebase attr isnap) = Err e.
    Proof. intros He Hn. unfold eg_check_dir. rewrite cached0. fold dir. fold first. rewrite He. destruct e; congruence || reflexivity. Qed.
  End Dir.
End Eg.
