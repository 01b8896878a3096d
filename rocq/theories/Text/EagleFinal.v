From Coq Require Import Ascii String.
From Verif Require Import Base.Prelude Text.StrModel Text.StrSpec Text.StrProofs Text.EagleModel Text.EagleSpec Text.EagleProofs.
From Coq Require Import ZifyBool ZifyNat.
Local Open Scope Z_scope.
Local Open Scope char_scope.
Local Open Scope list_scope.

(** ** the regular expression *)
Lemma digit_not_z c : is_digit c = true -> c <> "z". Proof. intros H ->. discriminate. Qed.
Lemma digits_no_z s : all_digits s -> ~ In "z" s.
Proof. intros H Hi. unfold all_digits in H. rewrite Forall_forall in H. apply H in Hi. discriminate. Qed.
Lemma take_digits_spec s d r : take_digits s = (d, r) -> s = d ++ r /\ all_digits d.
Proof.
  revert d r. induction s as [|c s IH]; intros d r; cbn; [intros [= <- <-]; split; [reflexivity | constructor]|].
  destruct (is_digit c) eqn:E; [|intros [= <- <-]; split; [reflexivity | constructor]].
  destruct (take_digits s) as [d' r'] eqn:E'. intros [= <- <-]. destruct (IH d' r' eq_refl) as [-> H]. split; [reflexivity | now constructor].
Qed.
Lemma take_digits_app d r : all_digits d -> (forall c r', r = c :: r' -> is_digit c = false) -> take_digits (d ++ r) = (d, r).
Proof.
  intros H Hr. induction H as [|c d Hc H IH]; cbn [app take_digits].
  - destruct r as [|c r']; [reflexivity|]. cbn. now rewrite (Hr c r').
  - now rewrite Hc, IH.
Qed.
Lemma tail_ok_no_z r : tail_ok r = true -> ~ In "z" r.
Proof.
  destruct r as [|c s]; [discriminate|]. cbn [tail_ok]. destruct (take_digits s) as [d r] eqn:E. rewrite !andb_true_iff, orb_true_iff. intros (H1 & _ & H2).
  apply Ascii.eqb_eq in H1. subst c. apply take_digits_spec in E. destruct E as [-> Hd]. intros [N|N]; [discriminate|]. apply in_app_or in N. destruct N as [N|N]; [now apply digits_no_z in N|].
  destruct H2 as [H2|H2]; apply str_eqb_eq in H2; subst r; cbn in N; repeat destruct N as [N|N]; discriminate || contradiction.
Qed.
Lemma label_here_spec s l : label_here s = Some l -> exists l' r, l = "z" :: l' /\ length l' = 7%nat /\ s = "z" :: l' ++ r /\ ~ In "z" (l' ++ r).
Proof.
  unfold label_here. destruct s as [|z [|a [|b [|c [|p [|d [|e [|f r]]]]]]]]; try discriminate.
  match goal with |- context [if ?b then _ else _] => destruct b eqn:E end; [|discriminate]. intros [= <-]. rewrite !andb_true_iff in E. destruct E as [[[[[[[[E1 E2] E3] E4] E5] E6] E7] E8] E9].
  apply Ascii.eqb_eq in E1, E5. subst z p. exists [a; b; c; "p"; d; e; f], r. repeat split. rewrite in_app_iff. apply digit_not_z in E2, E3, E4, E6, E7, E8. apply tail_ok_no_z in E9.
  intros [N|N]; [|contradiction]. cbn in N. repeat destruct N as [N|N]; congruence || contradiction.
Qed.
Lemma re_label_spec s l : re_label s = Some l -> exists pre l' r, l = "z" :: l' /\ length l' = 7%nat /\ s = pre ++ "z" :: l' ++ r /\ ~ In "z" (l' ++ r).
Proof.
  revert l. induction s as [|c s IH]; intros l; cbn [re_label]; [discriminate|].
  destruct (if is_lf c then None else re_label s) as [m|] eqn:E.
  - intros [= <-]. destruct (is_lf c); [discriminate|]. destruct (IH m E) as (pre & l' & r & H1 & H2 & H3 & H4). exists (c :: pre), l', r. repeat split; [assumption..| |assumption]. now rewrite H3.
  - intro H. apply label_here_spec in H. destruct H as (l' & r & H1 & H2 & H3 & H4). now exists [], l', r.
Qed.
Lemma last_occ {A} (c : A) p t p' t' : p ++ c :: t = p' ++ c :: t' -> ~ In c t -> ~ In c t' -> t = t'.
Proof.
  revert p'. induction p as [|x p IH]; intros [|y p'] E H H'; cbn in E.
  - congruence.
  - injection E as -> ->. exfalso. apply H. apply in_elt.
  - injection E as -> <-. exfalso. apply H'. apply in_elt.
  - injection E as _ E. now apply (IH p').
Qed.
Lemma num_no_z s : Forall (fun c => num_char c = true) s -> ~ In "z" s. Proof. intros. now apply num_not_in. Qed.
Lemma suf_no_z i : ~ In "z" (suf i).
Proof. unfold suf. intros [H|H]; [discriminate|]. apply in_app_or in H. destruct H as [H|H]; [revert H; apply num_no_z, fmt_d_num|]. cbn in H. repeat destruct H as [H|H]; discriminate || contradiction. Qed.
(** whatever comes first, the label found is the last one *)
Lemma re_label_is pre z i l : is_label z -> re_label (pre ++ z ++ suf i) = Some l -> l = z.
Proof.
  intros (a & b & c & d & e & f & -> & Hd) H. apply re_label_spec in H. destruct H as (pre' & l' & r & -> & Hl & E & Hz).
  assert (~ In "z" ([a; b; c; "p"; d; e; f] ++ suf i)) as Hz'.
  { rewrite in_app_iff. intros [N|N]; [|now apply suf_no_z in N]. rewrite !Forall_cons_iff in Hd. cbn in N.
    repeat destruct N as [N|N]; subst; try discriminate; try contradiction; destruct Hd as (? & ? & ? & ? & ? & ? & _); discriminate. }
  pose proof (last_occ "z" pre _ pre' _ E Hz' Hz) as E'. f_equal.
  apply (f_equal (firstn 7)) in E'. rewrite firstn_app, Hl, Nat.sub_diag, firstn_O, app_nil_r in E'. rewrite <- Hl, firstn_all in E'. rewrite <- E', Hl. reflexivity.
Qed.
Lemma re_label_found pre z i : is_label z -> Forall (fun c => is_lf c = false) pre -> 0 <= i -> re_label (pre ++ z ++ suf i) = Some z.
Proof.
  intros Hz Hp Hi. assert (label_here (z ++ suf i) = Some z) as Hh.
  { destruct Hz as (a & b & c & d & e & f & -> & Hd). rewrite !Forall_cons_iff in Hd. destruct Hd as (D1 & D2 & D3 & D4 & D5 & D6 & _).
    cbn [app label_here]. rewrite D1, D2, D3, D4, D5, D6. change (Ascii.eqb "z" "z") with true. change (Ascii.eqb "p" "p") with true. cbn [andb].
    assert (tail_ok (suf i) = true) as ->; [|reflexivity]. unfold suf. cbn [tail_ok]. change (Ascii.eqb "." ".") with true. cbn [andb].
    assert (fmt_d i = dec (Z.to_N i)) as -> by (destruct i; [reflexivity..|lia]).
    rewrite take_digits_app; [|apply dec_digits|intros x r' [= <- <-]; reflexivity]. rewrite str_eqb_refl. cbn [orb]. rewrite andb_true_r. apply negb_true_iff, not_true_iff_false. intro E. apply str_eqb_eq in E. now apply dec_nonempty in E. }
  induction pre as [|c pre IH]; cbn [app].
  - destruct (re_label (z ++ suf i)) as [m|] eqn:E.
    + f_equal. now apply (re_label_is [] z i m).
    + exfalso. destruct Hz as (a & b & c & d & e & f & -> & Hd). cbn [app] in E, Hh. remember (a :: b :: c :: "p" :: d :: e :: f :: suf i) as t eqn:Et. cbn [re_label] in E. rewrite Hh in E. change (is_lf "z") with false in E. cbn in E. destruct (re_label t); discriminate.
  - inversion Hp; subst. cbn [re_label]. rewrite H1. now rewrite (IH H2).
Qed.

(** ** one label *)
Section One.
  Variable F : fs.
  Variables (basedir base dir z : str) (isnap : Z).
  Hypothesis Hplain : plain basedir.
  Hypothesis Hdir : dir_of base = Some dir.
  Hypothesis Hone : one_label F basedir base isnap z.

  Lemma label_like : like_label z.
  Proof. destruct Hone as [(a & b & c & d & e & f & E & _) _]. now exists a, b, c, d, e, f. Qed.
  Lemma label_noslash : ~ In "/" z.
  Proof.
    destruct Hone as [(a & b & c & d & e & f & -> & Hd) _]. rewrite !Forall_cons_iff in Hd. cbn. intro N.
    repeat destruct N as [N|N]; subst; try discriminate; try contradiction; destruct Hd as (? & ? & ? & ? & ? & ? & _); discriminate.
  Qed.

  Lemma glob_one i f : In f (glob F (fmt_name basedir dir base isnap (lit "z???p???") (lit "z???p???") i)) -> f = path_name basedir dir base isnap z i.
  Proof.
    destruct (glob_ge F basedir base dir isnap Hplain Hdir i) as (root & Hr & ->). rewrite in_flat_map. intros (d' & Hd & Hf).
    apply in_map_iff in Hd. destruct Hd as (n & <- & Hn). apply in_glob1 in Hn. destruct Hn as ((b & Hn & Hb) & _ & Hm). rewrite (Hb eq_refl) in Hn. clear b Hb.
    apply sub_match with (base := base) in Hm; [|assumption]. destruct Hm as (q & Hq & ->).
    rewrite (join_sub basedir base dir isnap Hplain Hdir root q Hr) in Hf. apply in_map_iff in Hf. destruct Hf as (m & <- & Hm). apply in_glob1 in Hm. destruct Hm as ((b & Hm & _) & _ & Hmm).
    apply file_match with (dir := dir) in Hmm; [|assumption]. destruct Hmm as (r & Hq' & ->).
    destruct (proj2 Hone dir root (proj1 (dir_of_directory base dir) Hdir) Hr q r i b Hq Hq' Hn Hm) as [-> ->].
    unfold path_name. apply (join_file basedir base dir isnap); [assumption | apply label_like | apply label_noslash].
  Qed.
  Lemma all_same {A} (l : list A) x : NoDup l -> In x l -> (forall y, In y l -> y = x) -> l = [x].
  Proof.
    intros Hn Hi Ha. destruct l as [|a l]; [contradiction|]. rewrite (Ha a) in * by now left. f_equal. destruct l as [|b l]; [reflexivity|].
    inversion Hn as [|? ? Hx _]; subst. exfalso. apply Hx. left. apply Ha. right. now left.
  Qed.
  Lemma NoDup_filter_map {A B} (f : A -> B) p l : NoDup (map f l) -> NoDup (map f (filter p l)).
  Proof.
    induction l as [|a l IH]; cbn; intro H; [constructor|]. inversion H as [|? ? H1 H2]; subst. destruct (p a); [|now apply IH]. cbn. constructor; [|now apply IH].
    intro N. apply H1. apply in_map_iff in N. destruct N as (y & <- & N). apply filter_In in N. now apply in_map.
  Qed.
  Lemma NoDup_glob1 d pat o : listing_ok F -> NoDup (glob1 F d pat o).
  Proof. intro H. unfold glob1. apply NoDup_filter. apply NoDup_filter_map, H. Qed.

  Lemma glob_found i : listing_ok F -> file_there F basedir dir base isnap z i ->
    glob F (fmt_name basedir dir base isnap (lit "z???p???") (lit "z???p???") i) = [path_name basedir dir base isnap z i].
  Proof.
    intros Hl Ht. pose proof (glob_one i) as G1. destruct (glob_ge F basedir base dir isnap Hplain Hdir i) as (root & Hr & E). rewrite E in *. clear E.
    destruct (Ht root Hr) as (T1 & b & T2).
    assert (In (sub_name dir isnap z) (glob1 F root (sub_name dir isnap (lit "z???p???")) true)) as I1.
    { apply in_glob1. split; [now exists true|]. split; [right; apply not_hidden, (sub_hd base dir isnap Hdir)|]. apply (sub_match base dir isnap Hdir). exists z. split; [apply label_like | reflexivity]. }
    assert (In (file_name base isnap z i) (glob1 F (basedir ++ "/" :: sub_name dir isnap z) (file_name base isnap (lit "z???p???") i) false)) as I2.
    { apply in_glob1. split; [exists b; split; [assumption | discriminate]|]. split; [right; apply not_hidden, (file_hd base dir isnap Hdir)|]. apply (file_match base dir isnap Hdir). exists z. split; [apply label_like | reflexivity]. }
    assert (glob1 F (basedir ++ "/" :: sub_name dir isnap z) (file_name base isnap (lit "z???p???") i) false = [file_name base isnap z i]) as E2.
    { apply all_same; [now apply NoDup_glob1 | assumption|]. intros y Hy. apply in_glob1 in Hy. destruct Hy as ((b' & Hy & _) & _ & Hm). apply (file_match base dir isnap Hdir) in Hm. destruct Hm as (r & Hr' & ->).
      destruct (proj2 Hone dir root (proj1 (dir_of_directory base dir) Hdir) Hr z r i b' label_like Hr' T1 Hy) as [_ ->]. reflexivity. }
    (* other subdirectories match but hold nothing *)
    assert (forall q, like_label q -> In (sub_name dir isnap q, true) (listdir F root) -> q <> z -> glob1 F (basedir ++ "/" :: sub_name dir isnap q) (file_name base isnap (lit "z???p???") i) false = []) as E3.
    { intros q Hq Hi N. destruct (glob1 _ _ _ _) as [|n l] eqn:E in |- *; [reflexivity|]. assert (In n (glob1 F (basedir ++ "/" :: sub_name dir isnap q) (file_name base isnap (lit "z???p???") i) false)) as Hn by (rewrite E; now left).
      apply in_glob1 in Hn. destruct Hn as ((b' & Hn & _) & _ & Hm). apply (file_match base dir isnap Hdir) in Hm. destruct Hm as (r & Hr' & ->). destruct (proj2 Hone dir root (proj1 (dir_of_directory base dir) Hdir) Hr q r i b' Hq Hr' Hi Hn). contradiction. }
    set (subs := glob1 F root (sub_name dir isnap (lit "z???p???")) true) in *. assert (NoDup subs) as Nd by now apply NoDup_glob1.
    assert (forall n, In n subs -> exists q, like_label q /\ n = sub_name dir isnap q /\ In (n, true) (listdir F root)) as Hsub.
    { intros n Hn. apply in_glob1 in Hn. destruct Hn as ((b' & Hn & Hb) & _ & Hm). rewrite (Hb eq_refl) in Hn. apply (sub_match base dir isnap Hdir) in Hm. destruct Hm as (q & Hq & ->). now exists q. }
    destruct (in_split _ _ I1) as (s1 & s2 & Es). rewrite Es in *. rewrite map_app, flat_map_app. cbn [map flat_map].
    rewrite (join_sub basedir base dir isnap Hplain Hdir root z Hr), E2. cbn [map]. rewrite (join_file basedir base dir isnap Hdir z i z label_like label_noslash).
    assert (forall s, (forall n, In n s -> In n (s1 ++ sub_name dir isnap z :: s2) /\ n <> sub_name dir isnap z) -> flat_map (fun d' => map (path_join d') (glob1 F d' (file_name base isnap (lit "z???p???") i) false)) (map (path_join root) s) = []) as E4.
    { induction s as [|n s IH]; intro H; [reflexivity|]. cbn [map flat_map]. rewrite IH by (intros; apply H; now right). destruct (H n) as [H1 H2]; [now left|]. destruct (Hsub n H1) as (q & Hq & -> & Hi).
      rewrite (join_sub basedir base dir isnap Hplain Hdir root q Hr), E3; [reflexivity|assumption..|]. intros ->. now apply H2. }
    apply NoDup_remove_2 in Nd. rewrite !E4; [reflexivity| |].
    - intros n Hn. split; [apply in_or_app; right; now right|]. intros ->. apply Nd. apply in_or_app. now right.
    - intros n Hn. split; [apply in_or_app; now left|]. intros ->. apply Nd. apply in_or_app. now left.
  Qed.
  Lemma path_pre i : path_name basedir dir base isnap z i = (basedir ++ "/" :: sub_name dir isnap z ++ "/" :: pre_f base isnap) ++ z ++ suf i.
  Proof. unfold path_name. rewrite file_pre. rewrite <- app_assoc. cbn [app]. now rewrite <- app_assoc. Qed.
End One.

(** ** the cache *)
Section Cache.
  Variable F : fs.
  Definition right_labels (c : cache) : Prop := forall basedir base isnap z l,
    plain basedir -> one_label F basedir base isnap z -> dir_of base <> None -> lookup c (basedir, base, isnap) = Some l -> l = z.
  Lemma key_eqb_eq a b : key_eqb a b = true <-> a = b.
  Proof.
    destruct a as [[a1 a2] a3], b as [[b1 b2] b3]. unfold key_eqb. cbn. rewrite !andb_true_iff, !str_eqb_eq, Z.eqb_eq. split; [intros [[-> ->] ->]; reflexivity | intros [= -> -> ->]; auto].
  Qed.
  Lemma call_right c basedir base isnap ifile : right_labels c -> right_labels (snd (eagle_filename F c basedir base isnap ifile)).
  Proof.
    intro H. unfold eagle_filename. destruct (dir_of base) as [dir|] eqn:Ed; [|exact H]. cbv zeta. destruct (lookup c (basedir, base, isnap)); [exact H|].
    destruct (glob F _) as [|fname [|]] eqn:Eg; [exact H| |exact H]. destruct (re_label fname) as [l|] eqn:El; [|exact H]. cbn [snd].
    intros b' n' s' z m Hp Ho Hd. unfold lookup. cbn [find fst]. destruct (key_eqb (basedir, base, isnap) (b', n', s')) eqn:E.
    - apply key_eqb_eq in E. injection E as -> -> ->. cbn. intros [= <-]. assert (In fname [fname]) as Hi by now left. rewrite <- Eg in Hi. apply (glob_one F b' n' dir z s' Hp Ed Ho) in Hi. subst fname.
      rewrite path_pre in El. apply re_label_is in El; [assumption | apply Ho].
    - intro L. now apply (H b' n' s' z m).
  Qed.
  Lemma history_right calls c : right_labels c -> right_labels (history F c calls).
  Proof. revert c. induction calls as [|[[[b n] s] i] calls IH]; intros c H; cbn; [assumption|]. apply IH, call_right, H. Qed.

  Lemma named c basedir base isnap ifile z f : right_labels c -> plain basedir -> one_label F basedir base isnap z ->
    fst (eagle_filename F c basedir base isnap ifile) = Ok f -> exists dir, dir_of base = Some dir /\ f = path_name basedir dir base isnap z ifile.
  Proof.
    intros Hc Hp Ho. unfold eagle_filename. destruct (dir_of base) as [dir|] eqn:Ed; [|discriminate]. cbv zeta. intro H. exists dir. split; [reflexivity|].
    destruct (lookup c (basedir, base, isnap)) as [l|] eqn:El.
    - apply (Hc basedir base isnap z l) in El; [|assumption..|congruence]. subst l. cbn in H. injection H as <-. apply fmt_name_path.
    - destruct (glob F _) as [|fname [|]] eqn:Eg; [discriminate| |discriminate]. destruct (re_label fname); [|discriminate]. cbn in H. injection H as <-.
      apply (glob_one F basedir base dir z isnap Hp Ed Ho). rewrite Eg. now left.
  Qed.
  Lemma after_history calls basedir base isnap ifile z f : plain basedir -> one_label F basedir base isnap z ->
    fst (eagle_filename F (history F [] calls) basedir base isnap ifile) = Ok f -> exists dir, dir_of base = Some dir /\ f = path_name basedir dir base isnap z ifile.
  Proof. intros. apply (named (history F [] calls) basedir base isnap ifile z f); try assumption. apply history_right. intros ? ? ? ? ? _ _ _ H2. discriminate. Qed.
  Lemma transparent calls basedir base isnap ifile z f : plain basedir -> one_label F basedir base isnap z ->
    fst (eagle_filename F [] basedir base isnap ifile) = Ok f -> fst (eagle_filename F (history F [] calls) basedir base isnap ifile) = Ok f.
  Proof.
    intros Hp Ho H. pose proof (after_history [] basedir base isnap ifile z f Hp Ho H) as (dir & Ed & ->). pose proof (after_history calls basedir base isnap ifile z) as Ha.
    unfold eagle_filename in *. rewrite Ed in *. cbv zeta in *. destruct (lookup (history F [] calls) _) as [l|] eqn:El.
    - destruct (Ha _ Hp Ho eq_refl) as (dir' & [= <-] & Ha'). cbn. now rewrite Ha'.
    - cbn [lookup find option_map] in H. destruct (glob F _) as [|fname [|]]; [discriminate| |discriminate]. destruct (re_label fname); [exact H | discriminate].
  Qed.
  Lemma in_directory calls basedir base isnap ifile z f : plain basedir -> one_label F basedir base isnap z ->
    fst (eagle_filename F (history F [] calls) basedir base isnap ifile) = Ok f -> exists dir, directory base dir /\ f = path_name basedir dir base isnap z ifile.
  Proof. intros Hp Ho H. destruct (after_history calls basedir base isnap ifile z f Hp Ho H) as (dir & Ed & E). exists dir. split; [now apply dir_of_directory | exact E]. Qed.
  Lemma other_kinds c basedir base isnap ifile : (forall dir, ~ directory base dir) -> eagle_filename F c basedir base isnap ifile = (Err EKey, c).
  Proof. intro H. unfold eagle_filename. destruct (dir_of base) as [dir|] eqn:E; [|reflexivity]. apply dir_of_directory in E. now apply H in E. Qed.
  (** every file that exists is found, whatever was asked for before *)
  Lemma found calls basedir base isnap ifile z dir : plain basedir -> one_label F basedir base isnap z -> directory base dir ->
    ~ In (ascii_of_nat 10) basedir -> 0 <= ifile -> listing_ok F -> file_there F basedir dir base isnap z ifile ->
    fst (eagle_filename F (history F [] calls) basedir base isnap ifile) = Ok (path_name basedir dir base isnap z ifile).
  Proof.
    intros Hp Ho Ed Hn Hi Hl Ht. apply dir_of_directory in Ed. apply (transparent calls basedir base isnap ifile z); [assumption..|]. unfold eagle_filename. rewrite Ed. cbv zeta. cbn [lookup find option_map].
    rewrite (glob_found F basedir base dir z isnap Hp Ed Ho ifile Hl Ht). rewrite path_pre, re_label_found; [reflexivity | apply Ho | | assumption].
    destruct (dir_of_ok base dir Ed) as [B1 B2]. assert (forall s, ~ In (ascii_of_nat 10) s -> Forall (fun c => is_lf c = false) s) as HF.
    { intros s Hs. apply Forall_forall. intros c Hc. unfold is_lf. destruct (Ascii.eqb_spec c (ascii_of_nat 10)); [subst; contradiction | reflexivity]. }
    assert (forallb (fun kv => negb (mem (ascii_of_nat 10) (fst kv)) && negb (mem (ascii_of_nat 10) (snd kv))) dir_names = true) as Hnl by (vm_compute; reflexivity).
    assert (~ In (ascii_of_nat 10) base /\ ~ In (ascii_of_nat 10) dir) as [N1 N2].
    { unfold dir_of in Ed. destruct (find _ dir_names) as [[k v]|] eqn:E; [|discriminate]. injection Ed as <-. apply find_some in E. destruct E as [Hin E]. apply str_eqb_eq in E. cbn in E. subst k.
      rewrite forallb_forall in Hnl. specialize (Hnl _ Hin). rewrite andb_true_iff, !negb_true_iff, !mem_false in Hnl. exact Hnl. }
    assert (~ In (ascii_of_nat 10) (fmt_0d 3 isnap)) as N3 by (apply num_not_in; [apply fmt_0d_num | reflexivity]).
    assert (~ In (ascii_of_nat 10) z) as N4.
    { destruct Ho as [(a & b & c & d & e & f & -> & Hd) _]. rewrite !Forall_cons_iff in Hd. cbn. intro N.
      repeat destruct N as [N|N]; subst; try discriminate; try contradiction; destruct Hd as (? & ? & ? & ? & ? & ? & _); discriminate. }
    apply HF. unfold sub_name, pre_f. repeat (rewrite in_app_iff; cbn [In]). intuition (try discriminate).
  Qed.
End Cache.

(** a small file system *)
Definition ex_fs : fs := {|
  listdir := fun d =>
    if str_eqb d (lit "/data/L100") then [(lit "readme", false); (lit "groups_003_z012p345", true); (lit "groups_004_z009p000", true); (lit "snapshot_003_z012p345", true)]
    else if str_eqb d (lit "/data/L100/groups_003_z012p345") then
      [(lit "group_tab_003_z012p345.0.hdf5", false); (lit "group_tab_003_z012p345.1.hdf5", false); (lit "eagle_subfind_tab_003_z012p345.0.hdf5", false)]
    else if str_eqb d (lit "/data/L100/groups_004_z009p000") then [(lit "group_tab_004_z009p001.0.hdf5", false); (lit "group_tab_004_z009p001.1.hdf5", false)]
    else [];
  lexists := fun _ => true; isdir := fun _ => true |}.
Definition L100 : str := lit "/data/L100".

Lemma ex_missing_file :
  fst (eagle_filename ex_fs [] L100 (lit "group_tab") 3 2) = Err EIO /\
  fst (eagle_filename ex_fs (history ex_fs [] [(L100, lit "group_tab", 3, 1)]) L100 (lit "group_tab") 3 2)
    = Ok (lit "/data/L100/groups_003_z012p345/group_tab_003_z012p345.2.hdf5").
Proof. vm_compute. split; reflexivity. Qed.
Lemma ex_two_labels :
  fst (eagle_filename ex_fs [] L100 (lit "group_tab") 4 1) = Ok (lit "/data/L100/groups_004_z009p000/group_tab_004_z009p001.1.hdf5") /\
  fst (eagle_filename ex_fs (history ex_fs [] [(L100, lit "group_tab", 4, 0)]) L100 (lit "group_tab") 4 1)
    = Ok (lit "/data/L100/groups_004_z009p001/group_tab_004_z009p001.1.hdf5").
Proof. vm_compute. split; reflexivity. Qed.
Lemma ex_final_slash :
  let dir := L100 ++ ["/"] in
  fst (eagle_filename ex_fs [] dir (lit "group_tab") 3 1) = Ok (lit "/data/L100/groups_003_z012p345/group_tab_003_z012p345.1.hdf5") /\
  fst (eagle_filename ex_fs (history ex_fs [] [(dir, lit "group_tab", 3, 0)]) dir (lit "group_tab") 3 1)
    = Ok (lit "/data/L100//groups_003_z012p345/group_tab_003_z012p345.1.hdf5").
Proof. vm_compute. split; reflexivity. Qed.
