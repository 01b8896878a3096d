From Coq Require Import Ascii String.
From Verif Require Import Base.Prelude Text.StrModel Text.StrSpec Text.StrProofs Text.EagleModel Text.EagleSpec.
From Coq Require Import ZifyBool ZifyNat.
Local Open Scope Z_scope.
Local Open Scope char_scope.
Local Open Scope list_scope.

(** ** path *)
Lemma rsplit_none t : ~ In "/" t -> rsplit t = ([], t).
Proof.
  induction t as [|c t IH]; intro H; [reflexivity|]. cbn [rsplit]. rewrite IH by (intro; apply H; now right).
  destruct (Ascii.eqb_spec c slash) as [->|]; [exfalso; apply H; now left | reflexivity].
Qed.
Lemma rsplit_slash h t : ~ In "/" t -> rsplit (h ++ "/" :: t) = (h ++ ["/"], t).
Proof.
  intro H. induction h as [|c h IH]; cbn [app rsplit].
  - rewrite rsplit_none by assumption. reflexivity.
  - rewrite IH. destruct h; reflexivity.
Qed.
Lemma rstrip_last s c : c <> "/" -> rstrip (s ++ [c]) = s ++ [c].
Proof. intro H. unfold rstrip. rewrite rev_app_distr. cbn [rev app lstrip]. destruct (Ascii.eqb_spec c slash); [contradiction|]. cbn [rev]. now rewrite rev_involutive. Qed.
Lemma rstrip_slash s : rstrip (s ++ ["/"]) = rstrip s.
Proof. unfold rstrip. rewrite rev_app_distr. reflexivity. Qed.
Lemma slashes_b s : forallb (Ascii.eqb slash) s = true <-> all_slashes s.
Proof.
  unfold all_slashes. rewrite forallb_forall, Forall_forall. split; intros H c Hc; specialize (H c Hc); [apply Ascii.eqb_eq in H; now subst | subst; reflexivity].
Qed.
Lemma slashes_app s t : all_slashes (s ++ t) <-> all_slashes s /\ all_slashes t. Proof. apply Forall_app. Qed.
Lemma slash1 : all_slashes ["/"]. Proof. repeat constructor. Qed.

Lemma last_case (s : str) : s = [] \/ exists b c, s = b ++ [c].
Proof. destruct s as [|x s] using rev_ind; [now left | right; now exists s, x]. Qed.

Lemma path_split_comp h t : ~ In "/" t -> (forall b, h <> b ++ ["/"]) -> ~ all_slashes h -> path_split (h ++ "/" :: t) = (h, t).
Proof.
  intros H1 H2 H3. unfold path_split. rewrite rsplit_slash by assumption.
  assert (forallb (Ascii.eqb slash) (h ++ ["/"]) = false) as ->.
  { apply not_true_iff_false. intro E. apply slashes_b, slashes_app in E. now destruct E. }
  rewrite rstrip_slash. destruct (last_case h) as [->|(b & c & ->)]; [reflexivity|]. rewrite rstrip_last; [reflexivity|]. intros ->. now apply (H2 b).
Qed.
Lemma path_split_root basedir t : ~ In "/" t -> plain basedir -> exists root, root_of basedir root /\ path_split (basedir ++ "/" :: t) = (root, t).
Proof.
  intros Ht (_ & _ & _ & [Hs|Hs]).
  - exists (basedir ++ ["/"]). split; [left; now split|]. unfold path_split. rewrite rsplit_slash by assumption.
    assert (forallb (Ascii.eqb slash) (basedir ++ ["/"]) = true) as ->; [|reflexivity]. apply slashes_b, slashes_app. split; [assumption | apply slash1].
  - destruct (forallb (Ascii.eqb slash) basedir) eqn:E.
    + apply slashes_b in E. destruct (last_case basedir) as [->|(b & c & ->)].
      * exists ["/"]. split; [left; split; [constructor | reflexivity]|]. unfold path_split. now rewrite (rsplit_slash []).
      * apply slashes_app in E. destruct E as [_ E]. inversion E; subst. now contradiction (Hs b).
    + assert (~ all_slashes basedir) as Hn. { intro N. apply slashes_b in N. congruence. } exists basedir. split; [right; now split | now apply path_split_comp].
Qed.
Lemma root_unique basedir r r' : root_of basedir r -> root_of basedir r' -> r = r'.
Proof. intros [[H1 ->]|[H1 ->]] [[H2 ->]|[H2 ->]]; reflexivity || contradiction. Qed.
Lemma root_nonempty basedir r : root_of basedir r -> r <> [].
Proof. intros [[H1 ->]|[H1 ->]]; [now destruct basedir|]. intros ->. apply H1. constructor. Qed.
Lemma path_join_root basedir root t c t' : plain basedir -> root_of basedir root -> t = c :: t' -> c <> "/" -> path_join root t = basedir ++ "/" :: t.
Proof.
  intros (_ & _ & _ & Hs) Hr -> Hc. unfold path_join. destruct (Ascii.eqb_spec c slash); [contradiction|]. destruct Hr as [[H1 ->]|[H1 ->]].
  - rewrite rev_app_distr. cbn [rev app]. change (Ascii.eqb "/" slash) with true. cbn. now rewrite <- app_assoc.
  - destruct (last_case basedir) as [->|(b & d & ->)]; [exfalso; apply H1; constructor|]. rewrite rev_app_distr. cbn [rev app].
    destruct (Ascii.eqb_spec d slash) as [->|]; [|reflexivity]. destruct Hs as [Hs|Hs]; [contradiction | now contradiction (Hs b)].
Qed.
Lemma path_join_comp h b d t c t' : h = b ++ [d] -> d <> "/" -> t = c :: t' -> c <> "/" -> path_join h t = h ++ "/" :: t.
Proof.
  intros -> Hd -> Hc. unfold path_join. destruct (Ascii.eqb_spec c slash); [contradiction|]. rewrite rev_app_distr. cbn [rev app].
  destruct (Ascii.eqb_spec d slash); [contradiction | reflexivity].
Qed.

(** ** fnmatch *)
Lemma magic_In s : has_magic s = false <-> ~ In "*" s /\ ~ In "?" s /\ ~ In "[" s.
Proof. unfold has_magic. rewrite !orb_false_iff, !mem_false. tauto. Qed.
Lemma magic_app s t : has_magic (s ++ t) = has_magic s || has_magic t.
Proof. unfold has_magic. rewrite !mem_app. destruct (mem "*" s), (mem "?" s), (mem "[" s), (mem "*" t), (mem "?" t), (mem "[" t); reflexivity. Qed.
Lemma fnmatch_lit s p t : has_magic s = false -> fnmatch (s ++ p) t = true <-> exists t', t = s ++ t' /\ fnmatch p t' = true.
Proof.
  revert t. induction s as [|c s IH]; intros t H.
  - cbn. split; [intro; now exists t | now intros (? & -> & ?)].
  - assert (has_magic s = false /\ c <> "*" /\ c <> "?") as (H1 & H2 & H3).
    { apply magic_In in H. destruct H as (A & B & C). split; [apply magic_In; repeat split; intro; [apply A | apply B | apply C]; now right|]. split; intros ->; [apply A | apply B]; now left. }
    cbn [app fnmatch]. destruct (Ascii.eqb_spec c "*"); [contradiction|]. destruct (Ascii.eqb_spec c "?"); [contradiction|]. cbn [orb].
    destruct t as [|d t]; [split; [discriminate | now intros (? & ? & _)]|]. rewrite andb_true_iff, IH by assumption. split.
    + intros [E (t' & -> & Ht)]. apply Ascii.eqb_eq in E. subst. now exists t'.
    + intros (t' & [= -> ->] & Ht). split; [apply Ascii.eqb_refl | now exists t'].
Qed.
Lemma fnmatch_lit0 s t : has_magic s = false -> fnmatch s t = true <-> t = s.
Proof.
  intro H. rewrite <- (app_nil_r s) at 1. rewrite fnmatch_lit by assumption. split.
  - intros ([|c t'] & -> & E); [apply app_nil_r | discriminate].
  - intros ->. exists []. now rewrite app_nil_r.
Qed.
Lemma fnmatch_label p t : fnmatch (lit "z???p???" ++ p) t = true <-> exists q t', like_label q /\ t = q ++ t' /\ fnmatch p t' = true.
Proof.
  split.
  - destruct t as [|z [|a [|b [|c [|y [|d [|e [|f t]]]]]]]]; cbn [lit list_ascii_of_string app fnmatch]; change (Ascii.eqb "?" "*") with false; change (Ascii.eqb "z" "*") with false; change (Ascii.eqb "p" "*") with false;
      change (Ascii.eqb "?" "?") with true; change (Ascii.eqb "z" "?") with false; change (Ascii.eqb "p" "?") with false; cbn [orb]; rewrite ?andb_false_r; try discriminate.
    rewrite ?andb_true_iff. intros (H1 & _ & _ & _ & H2 & _ & _ & _ & H3). apply Ascii.eqb_eq in H1, H2. subst. exists ["z"; a; b; c; "p"; d; e; f], t. split; [now exists a, b, c, d, e, f|]. split; [reflexivity | assumption].
  - intros (q & t' & (a & b & c & d & e & f & ->) & -> & H). cbn. assumption.
Qed.
Lemma fnmatch_around s p t : has_magic s = false -> has_magic p = false ->
  fnmatch (s ++ lit "z???p???" ++ p) t = true <-> exists q, like_label q /\ t = s ++ q ++ p.
Proof.
  intros H1 H2. rewrite fnmatch_lit by assumption. split.
  - intros (t' & -> & H). apply fnmatch_label in H. destruct H as (q & u & Hq & -> & H). apply fnmatch_lit0 in H; [|assumption]. subst. now exists q.
  - intros (q & Hq & ->). exists (q ++ p). split; [reflexivity|]. apply fnmatch_label. exists q, p. split; [assumption|]. split; [reflexivity | now apply fnmatch_lit0].
Qed.

(** ** the names *)
Definition ok_name (s : str) : bool := negb (mem "/" s) && negb (has_magic s) && negb (hidden s) && negb (str_eqb s []).
Lemma dir_names_ok : forallb (fun kv => ok_name (fst kv) && ok_name (snd kv)) dir_names = true.
Proof. vm_compute. reflexivity. Qed.
Lemma dir_of_ok base dir : dir_of base = Some dir -> ok_name base = true /\ ok_name dir = true.
Proof.
  unfold dir_of. destruct (find _ dir_names) as [[k v]|] eqn:E; [|discriminate]. intros [= <-]. apply find_some in E. destruct E as [Hi E]. apply str_eqb_eq in E. cbn in E. subst k.
  pose proof dir_names_ok as H. rewrite forallb_forall in H. specialize (H _ Hi). now apply andb_true_iff in H.
Qed.
Lemma dir_of_directory base dir : dir_of base = Some dir <-> directory base dir.
Proof.
  split.
  - unfold dir_of. destruct (find _ dir_names) as [[k v]|] eqn:E; [|discriminate]. intros [= <-]. apply find_some in E. destruct E as [Hi E]. apply str_eqb_eq in E. cbn [fst snd] in *. subst k.
    repeat (destruct Hi as [Hi|Hi]; [injection Hi as <- <-|]); [| | | | | | | |destruct Hi].
    + apply (dir_tab (lit "eagle_subfind") []); cbn; tauto.
    + apply (dir_tab (lit "eagle_subfind") (lit "_snip")); cbn; tauto.
    + apply (dir_tab (lit "group") []); cbn; tauto.
    + apply (dir_tab (lit "group") (lit "_snip")); cbn; tauto.
    + apply (dir_particles []); cbn; tauto.
    + apply (dir_particles (lit "_snip")); cbn; tauto.
    + apply dir_shot; cbn; tauto.
    + apply dir_shot; cbn; tauto.
  - intros [kind snip Hk Hs | snip Hs | name Hn].
    + destruct Hk as [<-|[<-|[]]], Hs as [<-|[<-|[]]]; vm_compute; reflexivity.
    + destruct Hs as [<-|[<-|[]]]; vm_compute; reflexivity.
    + destruct Hn as [<-|[<-|[]]]; vm_compute; reflexivity.
Qed.
Lemma ok_name_spec s : ok_name s = true -> ~ In "/" s /\ has_magic s = false /\ exists c t, s = c :: t /\ c <> "." /\ c <> "/".
Proof.
  unfold ok_name. rewrite !andb_true_iff, !negb_true_iff. intros [[[H1 H2] H3] H4]. apply mem_false in H1. split; [assumption|]. split; [assumption|].
  destruct s as [|c t]; [discriminate|]. exists c, t. split; [reflexivity|]. split; [intros ->; discriminate | intros ->; apply H1; now left].
Qed.
Lemma num_no_slash s : Forall (fun c => num_char c = true) s -> ~ In "/" s. Proof. intros. now apply num_not_in. Qed.
Lemma num_magic s : Forall (fun c => num_char c = true) s -> has_magic s = false.
Proof. intro. apply magic_In. repeat split; now apply num_not_in. Qed.

Section Glob.
  Variable F : fs.
  Variables (basedir base dir : str) (isnap : Z).
  Hypothesis Hplain : plain basedir.
  Hypothesis Hdir : dir_of base = Some dir.

  Definition pre_d : str := dir ++ "_" :: fmt_0d 3 isnap ++ ["_"].
  Definition pre_f : str := base ++ "_" :: fmt_0d 3 isnap ++ ["_"].
  Definition suf (ifile : Z) : str := "." :: fmt_d ifile ++ lit ".hdf5".
  Lemma sub_pre z : sub_name dir isnap z = pre_d ++ z ++ [].
  Proof. unfold sub_name, pre_d. rewrite app_nil_r, <- app_assoc. cbn [app]. now rewrite <- app_assoc. Qed.
  Lemma file_pre z i : file_name base isnap z i = pre_f ++ z ++ suf i.
  Proof. unfold file_name, pre_f, suf. rewrite <- app_assoc. cbn [app]. now rewrite <- app_assoc. Qed.
  Lemma fmt_name_path z z' i : fmt_name basedir dir base isnap z z' i = basedir ++ "/" :: sub_name dir isnap z ++ "/" :: file_name base isnap z' i.
  Proof. unfold fmt_name, sub_name, file_name. cbn [lit list_ascii_of_string app]. rewrite <- !app_assoc. cbn [app]. now rewrite <- !app_assoc. Qed.

  Lemma pre_magic n : ok_name n = true -> has_magic (n ++ "_" :: fmt_0d 3 isnap ++ ["_"]) = false /\ ~ In "/" (n ++ "_" :: fmt_0d 3 isnap ++ ["_"]).
  Proof.
    intro H. apply ok_name_spec in H. destruct H as (H1 & H2 & _). split.
    - change ("_" :: fmt_0d 3 isnap ++ ["_"]) with (["_"] ++ fmt_0d 3 isnap ++ ["_"]). rewrite !magic_app, H2, (num_magic (fmt_0d 3 isnap)) by apply fmt_0d_num. reflexivity.
    - rewrite in_app_iff. intros [H|[H|H]]; [contradiction | discriminate | apply in_app_or in H]. destruct H as [H|[H|[]]]; [|discriminate]. revert H. apply num_no_slash, fmt_0d_num.
  Qed.
  Lemma suf_magic i : has_magic (suf i) = false /\ ~ In "/" (suf i).
  Proof.
    unfold suf. split.
    - change ("." :: fmt_d i ++ lit ".hdf5") with (["."] ++ fmt_d i ++ lit ".hdf5"). rewrite !magic_app, (num_magic (fmt_d i)) by apply fmt_d_num. reflexivity.
    - intros [H|H]; [discriminate|]. apply in_app_or in H. destruct H as [H|H]; [revert H; apply num_no_slash, fmt_d_num|]. cbn in H. repeat destruct H as [H|H]; discriminate || contradiction.
  Qed.

  (** a name made from a pattern or a label *)
  Lemma sub_match n : fnmatch (sub_name dir isnap (lit "z???p???")) n = true <-> exists q, like_label q /\ n = sub_name dir isnap q.
  Proof.
    rewrite sub_pre, fnmatch_around; [|apply pre_magic, (dir_of_ok base dir Hdir)|reflexivity]. split; intros (q & Hq & H); exists q; (split; [assumption|]); rewrite H; [symmetry|]; apply sub_pre.
  Qed.
  Lemma file_match i n : fnmatch (file_name base isnap (lit "z???p???") i) n = true <-> exists r, like_label r /\ n = file_name base isnap r i.
  Proof.
    rewrite file_pre, fnmatch_around; [|apply pre_magic, (dir_of_ok base dir Hdir)|apply suf_magic]. split; intros (q & Hq & H); exists q; (split; [assumption|]); rewrite H; [symmetry|]; apply file_pre.
  Qed.
  Lemma sub_hd z : exists c t, sub_name dir isnap z = c :: t /\ c <> "." /\ c <> "/".
  Proof. destruct (ok_name_spec dir) as (_ & _ & c & t & -> & H); [apply (dir_of_ok base dir Hdir)|]. now exists c, (t ++ "_" :: fmt_0d 3 isnap ++ "_" :: z). Qed.
  Lemma file_hd z i : exists c t, file_name base isnap z i = c :: t /\ c <> "." /\ c <> "/".
  Proof. destruct (ok_name_spec base) as (_ & _ & c & t & -> & H); [apply (dir_of_ok base dir Hdir)|]. now exists c, (t ++ "_" :: fmt_0d 3 isnap ++ "_" :: z ++ "." :: fmt_d i ++ lit ".hdf5"). Qed.
  Lemma not_hidden n : (exists c t, n = c :: t /\ c <> "." /\ c <> "/") -> hidden n = false.
  Proof. intros (c & t & -> & H & _). cbn. destruct (Ascii.eqb_spec c "."); [contradiction | reflexivity]. Qed.
  Lemma sub_noslash z : ~ In "/" z -> ~ In "/" (sub_name dir isnap z).
  Proof. intro H. rewrite sub_pre, app_nil_r, in_app_iff. intros [N|N]; [revert N; apply pre_magic, (dir_of_ok base dir Hdir) | contradiction]. Qed.
  Lemma file_noslash z i : ~ In "/" z -> ~ In "/" (file_name base isnap z i).
  Proof. intro H. rewrite file_pre, !in_app_iff. intros [N|[N|N]]; [revert N; apply pre_magic, (dir_of_ok base dir Hdir) | contradiction | now apply suf_magic in N]. Qed.
  Lemma pat_noslash : ~ In "/" (lit "z???p???").
  Proof. apply mem_false. reflexivity. Qed.

  Lemma glob_ge i : exists root, root_of basedir root /\
    glob F (fmt_name basedir dir base isnap (lit "z???p???") (lit "z???p???") i) =
    flat_map (fun d' => map (path_join d') (glob1 F d' (file_name base isnap (lit "z???p???") i) false))
      (map (path_join root) (glob1 F root (sub_name dir isnap (lit "z???p???")) true)).
  Proof.
    destruct (path_split_root basedir (sub_name dir isnap (lit "z???p???")) (sub_noslash _ pat_noslash) Hplain) as (root & Hr & Hsp).
    exists root. split; [assumption|]. rewrite fmt_name_path. unfold glob. set (D := sub_name dir isnap (lit "z???p???")) in *. set (B := file_name base isnap (lit "z???p???") i).
    assert (has_magic D = true) as MD. { unfold D. rewrite sub_pre, !magic_app. change (has_magic (lit "z???p???")) with true. cbn. now rewrite orb_true_r. }
    assert (has_magic B = true) as MB. { unfold B. rewrite file_pre, !magic_app. change (has_magic (lit "z???p???")) with true. cbn. now rewrite orb_true_r. }
    assert (has_magic root = false) as MR.
    { destruct Hplain as (P1 & P2 & P3 & _). assert (has_magic basedir = false) by now apply magic_In. destruct Hr as [[_ ->]|[_ ->]]; [rewrite magic_app; now rewrite H|assumption]. }
    assert (D <> []) as ND. { destruct (sub_hd (lit "z???p???")) as (c & t & E & _). unfold D. rewrite E. discriminate. }
    assert (~ In "/" D) as SD by apply (sub_noslash _ pat_noslash). assert (~ In "/" B) as SB by apply (file_noslash _ i pat_noslash).
    set (P1 := basedir ++ "/" :: D). replace (basedir ++ "/" :: D ++ "/" :: B) with (P1 ++ "/" :: B) by (unfold P1; rewrite <- app_assoc; reflexivity).
    assert (exists b d, D = b ++ [d] /\ d <> "/") as (b & d & ED & Hd).
    { destruct (last_case D) as [E|(b & d & E)]; [contradiction|]. exists b, d. split; [assumption|]. intros ->. apply SD. rewrite E. apply in_elt. }
    assert (path_split (P1 ++ "/" :: B) = (P1, B)) as S1.
    { apply path_split_comp; [assumption| |].
      - unfold P1. rewrite ED. intros c E. change (basedir ++ "/" :: b ++ [d]) with (basedir ++ ("/" :: b) ++ [d]) in E. rewrite app_assoc in E. apply app_inj_tail in E. destruct E as [_ E]. contradiction.
      - unfold P1. rewrite ED. intro N. apply slashes_app in N. destruct N as [_ N]. inversion N as [|? ? _ N2]; subst. apply slashes_app in N2. destruct N2 as [_ N2]. inversion N2. contradiction. }
    assert (has_magic P1 = true) as M1. { unfold P1. rewrite magic_app. change ("/" :: D) with (["/"] ++ D). rewrite magic_app, MD. now rewrite !orb_true_r. }
    assert (forall T (s : str) (a b : T), s <> [] -> match s with [] => a | _ :: _ => b end = b) as Hm by (intros T [|x s] a0 b0; [contradiction | reflexivity]).
    assert (P1 <> []) as N1 by (unfold P1; now destruct basedir).
    assert (str_eqb P1 (P1 ++ "/" :: B) = false) as EQ. { apply not_true_iff_false. intro E. apply str_eqb_eq in E. apply (f_equal (@length ascii)) in E. rewrite app_length in E. cbn in E. lia. }
    assert (exists n, length (P1 ++ "/" :: B) = S n) as (n & ->) by (rewrite app_length; cbn [length]; eexists; rewrite Nat.add_succ_r; reflexivity).
    assert (iglob F (S n) P1 true = map (path_join root) (glob1 F root D true)) as HI.
    { cbn [iglob]. unfold P1 at 1. rewrite Hsp, M1. cbn [negb]. rewrite Hm by (now apply (root_nonempty basedir)).
      rewrite MR, andb_false_r, MD. cbn [flat_map]. now rewrite app_nil_r. }
    remember (S n) as m eqn:Em. cbn [iglob]. rewrite S1. assert (has_magic (P1 ++ "/" :: B) = true) as -> by (now rewrite magic_app, M1). cbn [negb].
    rewrite Hm by assumption. rewrite EQ, M1, MB. cbn [negb andb]. now rewrite HI.
  Qed.

  Lemma in_glob1 d pat dironly n : In n (glob1 F d pat dironly) <-> (exists b, In (n, b) (listdir F d) /\ (dironly = true -> b = true)) /\ (hidden pat = true \/ hidden n = false) /\ fnmatch pat n = true.
  Proof.
    unfold glob1. rewrite filter_In, in_map_iff, andb_true_iff, orb_true_iff, negb_true_iff. split.
    - intros [([m b] & E & H) ?]. cbn in E. subst m. apply filter_In in H. destruct H as [H E]. cbn in E. split; [|tauto]. exists b. split; [assumption|]. destruct dironly; [now destruct b|discriminate].
    - intros [(b & H & E) ?]. split; [|tauto]. exists (n, b). split; [reflexivity|]. apply filter_In. split; [assumption|]. cbn. destruct dironly; [now rewrite E | reflexivity].
  Qed.

  Lemma sub_last q : like_label q -> exists b d, sub_name dir isnap q = b ++ [d] /\ (d <> "/" \/ d = "/").
  Proof. intros (a & b & c & d & e & f & ->). exists (pre_d ++ ["z"; a; b; c; "p"; d; e]), f. split; [rewrite sub_pre, app_nil_r, <- app_assoc; reflexivity|]. destruct (ascii_dec f "/"); tauto. Qed.

  Lemma join_sub root q : root_of basedir root -> path_join root (sub_name dir isnap q) = basedir ++ "/" :: sub_name dir isnap q.
  Proof. intro Hr. destruct (sub_hd q) as (c & t & E & _ & Hc). rewrite E. now apply (path_join_root basedir root _ c t). Qed.
  Lemma join_file q i r : like_label q -> ~ In "/" q -> path_join (basedir ++ "/" :: sub_name dir isnap q) (file_name base isnap r i) = basedir ++ "/" :: sub_name dir isnap q ++ "/" :: file_name base isnap r i.
  Proof.
    intros (a & b & c & d & e & f & ->) Hs. destruct (file_hd r i) as (x & t & E & _ & Hx). rewrite E.
    rewrite (path_join_comp _ (basedir ++ "/" :: pre_d ++ ["z"; a; b; c; "p"; d; e]) f _ x t).
    - rewrite <- app_assoc. reflexivity.
    - rewrite sub_pre, app_nil_r. rewrite <- app_assoc. cbn [app]. rewrite <- app_assoc. reflexivity.
    - intros ->. apply Hs. cbn. tauto.
    - reflexivity.
    - assumption.
  Qed.
End Glob.
