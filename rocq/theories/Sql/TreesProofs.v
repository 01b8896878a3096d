From Verif Require Import Base.Prelude Base.Order Base.NdArray Index.IndexModel Hash.HashModel Hash.HashProofs Multi.MultiModel Multi.MultiSpec Multi.MultiProofs Sql.TreesModel.
From Coq Require Import ZifyBool ZifyNat.
Local Open Scope Z_scope.

Section Trees.
  Context {A Name : Type} (Od : TOrd Name).
  Variable open : Z -> res (treefile A Name).
  Variable F : Z -> Name -> option (nd A).
  (** file [i] opens, and [F i] gives its arrays *)
  Definition tree_ok (i : Z) : Prop :=
    exists f, open i = Ok f /\ NoDup (keys f) /\ (forall n, In n (keys f) <-> F i n <> None) /\ forall n a, F i n = Some a -> getitem f n = Ok a.

  Implicit Types (N : list Name) (L : Name -> list (nd A)).
  Lemma lists_ext N L L' : (forall n, In n N -> L n = L' n) -> lists N L = lists N L'.
  Proof. intro H. unfold lists. apply map_ext_in. intros n Hn. now rewrite H. Qed.
  Lemma dget_lists N L n : In n N -> dget Od (lists N L) n = Some (CList (L n)).
  Proof.
    induction N as [|m N IH]; [easy|]. intro H. cbn [lists map dget]. destruct (eqb Od m n) eqn:E; [apply eqb_eq in E; now subst|]. apply IH. apply eqb_neq in E. destruct H; [contradiction | assumption].
  Qed.
  Lemma dget_lists_none N L n : ~ In n N -> dget Od (lists N L) n = None.
  Proof. intro H. apply dget_None. now rewrite fst_lists. Qed.
  Lemma dset_lists N L n v : NoDup N -> In n N -> dset Od (lists N L) n (CList v) = lists N (fun m => if eqb Od m n then v else L m).
  Proof.
    induction N as [|m N IH]; [easy|]. intros Hn H. inversion Hn as [|? ? H1 H2]; subst. cbn [lists map dset]. destruct (eqb Od m n) eqn:E.
    - apply eqb_eq in E. subst m. rewrite ?eqb_refl. f_equal. apply lists_ext. intros k Hk. assert (eqb Od k n = false) as -> by (apply eqb_neq; intros ->; contradiction). reflexivity.
    - f_equal. apply IH; [assumption|]. apply eqb_neq in E. destruct H; [contradiction | assumption].
  Qed.

  Definition opt' (o : option (nd A)) : list (nd A) := match o with Some a => [a] | None => [] end.

  Lemma later_names f i N : NoDup N -> forall ks L, NoDup ks -> incl ks N -> (forall n, In n ks -> exists a, F i n = Some a /\ getitem f n = Ok a) ->
    foldM (read_array Od false f) ks (lists N L) = Ok (lists N (fun n => L n ++ (if existsb (eqb Od n) ks then opt' (F i n) else []))).
  Proof.
    intro HN. induction ks as [|k ks IH]; intros L Hks Hin Hget; cbn [foldM].
    - f_equal. apply lists_ext. intros. cbn. now rewrite app_nil_r.
    - inversion Hks as [|? ? K1 K2]; subst. unfold read_array at 1. rewrite dget_lists by (apply Hin; now left). destruct (Hget k) as (a & Fa & ->); [now left|]. cbn [bind].
      rewrite dset_lists by (try assumption; apply Hin; now left). rewrite IH; [|assumption|intros x Hx; apply Hin; now right|intros; apply Hget; now right].
      f_equal. apply lists_ext. intros n _. cbn [existsb]. destruct (eqb Od n k) eqn:E; cbn [orb].
      + apply eqb_eq in E. subst n. assert (existsb (eqb Od k) ks = false) as ->. { apply not_true_iff_false. intro X. apply existsb_exists in X. destruct X as (y & Hy & E). apply eqb_eq in E. now subst. }
        rewrite Fa. cbn. now rewrite app_nil_r.
      + reflexivity.
  Qed.
  Lemma first_names f : forall ks done L, NoDup (done ++ ks) -> (forall n, In n ks -> exists a, F 0 n = Some a /\ getitem f n = Ok a) ->
    (forall n, In n (done ++ ks) -> L n = opt' (F 0 n)) ->
    foldM (read_array Od true f) ks (lists done L) = Ok (lists (done ++ ks) L).
  Proof.
    induction ks as [|k ks IH]; intros done L Hn Hget HL; cbn [foldM]; [now rewrite app_nil_r|].
    assert (~ In k done) as Hk. { apply NoDup_remove_2 in Hn. intro. apply Hn. apply in_or_app. now left. }
    unfold read_array at 1. cbv zeta. rewrite dset_new by (now rewrite fst_lists). rewrite (dget_mid Od (lists done L) k (CList []) []) by (now rewrite fst_lists). destruct (Hget k) as (a & Fa & ->); [now left|]. cbn [bind].
    rewrite (dset_mid Od (lists done L) k) by (now rewrite fst_lists). cbn [app].
    assert (lists done L ++ [(k, CList [a])] = lists (done ++ [k]) L) as ->. { unfold lists. rewrite map_app. cbn. rewrite (HL k) by apply in_elt. now rewrite Fa. }
    replace (done ++ k :: ks) with ((done ++ [k]) ++ ks) in * by now rewrite <- app_assoc. apply IH; [assumption | intros; apply Hget; now right | assumption].
  Qed.

  Lemma later_files N : NoDup N -> forall js L, Forall tree_ok js -> (forall i n, In i js -> F i n <> None -> In n N) ->
    foldM (read_tree_file Od open) js (lists N L) = Ok (lists N (fun n => L n ++ arrays_of F js n)).
  Proof.
    intro HN. induction js as [|i js IH]; intros L Hok Hin; cbn [foldM].
    - f_equal. apply lists_ext. intros. unfold arrays_of. cbn. now rewrite app_nil_r.
    - inversion Hok as [|? ? (f & Ho & Hd & Hk & Hg) Hok']; subst. unfold read_tree_file at 1. rewrite Ho. cbn [bind].
      rewrite (later_names f i N HN (keys f) L Hd).
      + cbn [bind]. rewrite IH; [|assumption|intros j n Hj; apply Hin; now right]. f_equal. apply lists_ext. intros n _. rewrite <- app_assoc. f_equal. unfold arrays_of. cbn [flat_map]. f_equal.
        destruct (existsb (eqb Od n) (keys f)) eqn:E; [reflexivity|]. destruct (F i n) as [a|] eqn:Ef; [|reflexivity]. exfalso. apply not_true_iff_false in E. apply E. apply existsb_exists. exists n. split; [apply Hk; congruence | apply eqb_refl].
      + intros n Hn. apply (Hin i); [now left|]. now apply Hk.
      + intros n Hn. apply Hk in Hn. destruct (F i n) as [a|] eqn:Ef; [|contradiction]. exists a. split; [reflexivity | now apply Hg].
  Qed.

  (** the files that make up the tree *)
  Definition tree_files (nfiles : Z) : list Z := 0 :: zseq 1 (Z.to_nat (nfiles - 1)).
  Lemma read_trees f0 nfiles : open 0 = Ok f0 -> number_of_files f0 = Ok nfiles -> Forall tree_ok (tree_files nfiles) ->
    (forall i n, In i (tree_files nfiles) -> F i n <> None -> In n (keys f0)) -> forall d,
    read_dhalo_trees Od open = Ok d <->
    exists outs, Forall2 (fun n out => np_concatenate (Some 0) (arrays_of F (tree_files nfiles) n) = Ok out) (keys f0) outs /\ d = combine (keys f0) (map CArr outs).
  Proof.
    intros H0 Hn Hok Hin d. inversion Hok as [|? ? (f & Ho & Hd & Hk & Hg) Hok']; subst. rewrite H0 in Ho. injection Ho as <-. unfold read_dhalo_trees. rewrite H0. cbn [bind]. rewrite Hn. cbn [bind].
    assert (forall n, In n (keys f0) -> exists a, F 0 n = Some a /\ getitem f0 n = Ok a) as Hget. { intros n Hi. apply Hk in Hi. destruct (F 0 n) as [a|] eqn:Ef; [|contradiction]. exists a. split; [reflexivity | now apply Hg]. }
    change (@nil (Name * @cell A)) with (@lists A Name [] (fun n => opt' (F 0 n))). rewrite (first_names f0 (keys f0) [] (fun n => opt' (F 0 n))) by (cbn; auto). cbn [bind app].
    rewrite later_files; [|assumption..|intros i n Hi; apply Hin; now right]. cbn [bind]. rewrite fst_lists.
    pose proof (concat_spec Od (Some 0) (fun n => opt' (F 0 n) ++ arrays_of F (zseq 1 (Z.to_nat (nfiles - 1))) n) (keys f0) [] Hd d) as C. cbn [app] in C. exact C.
  Qed.

  (** a name that is not in the first file is a KeyError *)
  Lemma new_name f0 nfiles pre i post f n ks1 ks2 : open 0 = Ok f0 -> number_of_files f0 = Ok nfiles -> zseq 1 (Z.to_nat (nfiles - 1)) = pre ++ i :: post ->
    Forall tree_ok (0 :: pre) -> (forall j m, In j (0 :: pre) -> F j m <> None -> In m (keys f0)) ->
    open i = Ok f -> NoDup (keys f) -> keys f = ks1 ++ n :: ks2 -> incl ks1 (keys f0) -> ~ In n (keys f0) -> (forall m, In m ks1 -> exists a, F i m = Some a /\ getitem f m = Ok a) ->
    read_dhalo_trees Od open = Err EKey.
  Proof.
    intros H0 Hn Hz Hok Hin Hi Hd Hks Hk1 Hk2 Hget. inversion Hok as [|? ? (f' & Ho & Hd0 & Hk & Hg) Hok']; subst. rewrite H0 in Ho. injection Ho as <-. unfold read_dhalo_trees. rewrite H0. cbn [bind]. rewrite Hn. cbn [bind].
    assert (forall n, In n (keys f0) -> exists a, F 0 n = Some a /\ getitem f0 n = Ok a) as Hget0. { intros m Hm. apply Hk in Hm. destruct (F 0 m) as [a|] eqn:Ef; [|contradiction]. exists a. split; [reflexivity | now apply Hg]. }
    change (@nil (Name * @cell A)) with (@lists A Name [] (fun n => opt' (F 0 n))). rewrite (first_names f0 (keys f0) [] (fun n => opt' (F 0 n))) by (cbn; auto). cbn [bind app].
    rewrite Hz. assert (forall S X (g : S -> X -> res S) l m s, foldM g (l ++ m) s = do s' <- foldM g l s; foldM g m s') as FA.
    { intros S X g l m. induction l as [|x l IH]; intro s; cbn; [reflexivity|]. destruct (g s x); cbn; [apply IH | reflexivity]. }
    rewrite FA, later_files; [|assumption..|intros j m Hj; apply Hin; now right]. cbn [bind foldM]. unfold read_tree_file at 1. rewrite Hi. cbn [bind]. rewrite Hks, FA.
    rewrite (later_names f i (keys f0) Hd0 ks1); [|rewrite Hks in Hd; clear - Hd; induction ks1 as [|x l IH]; [constructor|]; inversion Hd; subst; constructor; [intro; apply H1; apply in_or_app; now left | now apply IH]|assumption..].
    cbn [bind foldM]. unfold read_array at 1. rewrite dget_lists_none by assumption. reflexivity.
  Qed.
End Trees.
