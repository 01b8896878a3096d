From Verif Require Import Base.Prelude Base.Order Base.NdArray Base.ListLemmas Index.IndexModel Hash.HashModel Hash.HashProofs Multi.MultiModel Multi.MultiSpec.
From Coq Require Import ZifyBool ZifyNat.
Local Open Scope nat_scope.

Section Concat.
  Context {A : Type}.
  Implicit Types (xs : list (nd A)) (k : nat).

  Lemma upd_upd {B} k (f g : B -> B) l : upd k f (upd k g l) = upd k (fun x => f (g x)) l.
  Proof. revert k. induction l as [|x l IH]; intros [|k]; cbn; congruence. Qed.
  Lemma upd_ext {B} k (f g : B -> B) l : (forall x, nth_error l k = Some x -> f x = g x) -> upd k f l = upd k g l.
  Proof. revert k. induction l as [|x l IH]; intros [|k] H; cbn; [reflexivity..|f_equal; now apply H|f_equal; now apply IH]. Qed.
  Lemma upd_id {B} k (f : B -> B) l : (forall x, nth_error l k = Some x -> f x = x) -> upd k f l = l.
  Proof. revert k. induction l as [|x l IH]; intros [|k] H; cbn; [reflexivity..|f_equal; now apply H|f_equal; now apply IH]. Qed.
  Lemma nth_upd k f (l : list nat) : k < length l -> nth k (upd k f l) 0 = f (nth k l 0).
  Proof. revert k. induction l as [|x l IH]; intros [|k] H; cbn in *; try lia. apply IH. lia. Qed.

  Lemma extent_cons k x xs : extent k (x :: xs) = nth k (shape x) 0 + extent k xs. Proof. reflexivity. Qed.
  Lemma extent_nil k : @extent A k [] = 0. Proof. reflexivity. Qed.
  Lemma indices_NoDup s : NoDup (indices s).
  Proof.
    apply NoDup_nth_error. intros i j Hi E.
    assert (forall i, i < length (indices s) -> exists idx, nth_error (indices s) i = Some idx /\ ravel s idx = i) as H; [|destruct (H i Hi) as (a & A1 & A2), (Nat.lt_ge_cases j (length (indices s))) as [L|L]; [destruct (H j L) as (b & B1 & B2); congruence|apply nth_error_None in L; congruence]].
    clear i j Hi E. induction s as [|n s IH]; intros i Hi; [exists []; cbn in *; now replace i with 0 by lia|].
    rewrite indices_length in Hi. cbn [nelem] in Hi. set (m := nelem s) in *. assert (0 < m) as Hm by nia.
    destruct (IH (i mod m)) as (idx & I1 & I2); [rewrite indices_length; fold m; apply Nat.mod_upper_bound; lia|].
    exists (i / m :: idx). cbn [indices ravel]. fold m. pose proof (Nat.div_mod i m ltac:(lia)) as D. split; [|rewrite I2; lia].
    assert (i / m < n) by (apply Nat.div_lt_upper_bound; lia).
    rewrite D at 1. rewrite (Nat.mul_comm m). rewrite nth_error_flat_seq; [|intro; rewrite map_length; apply indices_length|assumption|apply Nat.mod_upper_bound; lia].
    now rewrite nth_error_map, I1.
  Qed.

  Lemma agree_upd k s t : agree_but k s t <-> upd k (fun _ => 0) s = upd k (fun _ => 0) t.
  Proof.
    split.
    - intros [H1 H2]. apply nth_error_ext'. intro j. rewrite !nth_error_upd. destruct (Nat.eqb_spec j k) as [->|N]; [|now apply H2].
      destruct (nth_error s k) eqn:E, (nth_error t k) eqn:E'; try reflexivity.
      + apply nth_error_None in E'. assert (k < length s) by (apply nth_error_Some; congruence). lia.
      + apply nth_error_None in E. assert (k < length t) by (apply nth_error_Some; congruence). lia.
    - intro H. split.
      + apply (f_equal (@length nat)) in H. now rewrite !upd_length in H.
      + intros j N. apply (f_equal (fun l => nth_error l j)) in H. rewrite !nth_error_upd in H. now destruct (Nat.eqb_spec j k).
  Qed.
  Lemma same_but_spec k s t : same_but k s t = true <-> agree_but k s t.
  Proof. rewrite agree_upd. unfold same_but. destruct (list_eq_dec _ _ _); split; congruence. Qed.
  Lemma agree_refl k s : agree_but k s s. Proof. now apply agree_upd. Qed.
  Lemma agree_sym k s t : agree_but k s t -> agree_but k t s. Proof. rewrite !agree_upd. congruence. Qed.
  Lemma agree_trans k s t u : agree_but k s t -> agree_but k t u -> agree_but k s u. Proof. rewrite !agree_upd. congruence. Qed.
  Lemma agree_upd_r k s f : agree_but k s (upd k f s).
  Proof. apply agree_upd. now rewrite upd_upd. Qed.
  Lemma agree_nth k s t n : agree_but k s t -> nth k t 0 = n -> k < length s -> upd k (fun _ => n) s = t.
  Proof.
    intros [H1 H2] Hn Hk. apply nth_error_ext'. intro j. rewrite nth_error_upd. destruct (Nat.eqb_spec j k) as [->|N]; [|now apply H2].
    destruct (nth_error s k) eqn:E; [|apply nth_error_None in E; lia]. cbn. subst n. symmetry. apply nth_error_nth'. lia.
  Qed.

  (** bounds of an index, component [k] apart *)
  Lemma lt_upd k idx s n : k < length s -> Forall2 lt idx (upd k (fun _ => n) s) <->
    length idx = length s /\ nth k idx 0 < n /\ forall j i m, j <> k -> nth_error idx j = Some i -> nth_error s j = Some m -> i < m.
  Proof.
    intro Hk. rewrite Forall2_nth_iff, upd_length. split.
    - intros [H1 H2]. split; [assumption|]. split.
      + apply (H2 k); [apply nth_error_nth'; lia|]. rewrite nth_error_upd, Nat.eqb_refl. now destruct (nth_error s k) eqn:E; [|apply nth_error_None in E; lia].
      + intros j i m N Hi Hm. apply (H2 j); [assumption|]. rewrite nth_error_upd. now destruct (Nat.eqb_spec j k).
    - intros (H1 & H2 & H3). split; [assumption|]. intros j i m Hi. rewrite nth_error_upd. destruct (Nat.eqb_spec j k) as [->|N].
      + destruct (nth_error s k) eqn:E; [|discriminate]. intros [= <-]. erewrite nth_error_nth in H2 by exact Hi. exact H2.
      + intro Hm. now apply (H3 j).
  Qed.

  Lemma cat_at_one k s0 xs : k < length s0 -> Forall (fun x => nd_ok x /\ agree_but k s0 (shape x)) xs ->
    forall idx, Forall2 lt idx (upd k (fun _ => extent k xs) s0) -> exists v, cat_at k idx xs = [v].
  Proof.
    intros Hk H. induction H as [|x xs [Hx Ha] H IH]; intros idx Hi.
    - apply lt_upd in Hi; [|assumption]. destruct Hi as (_ & Hi & _). unfold extent in Hi. cbn in Hi. lia.
    - cbn [cat_at]. cbv zeta. destruct (Nat.ltb_spec (nth k idx 0) (nth k (shape x) 0)) as [L|L].
      + assert (Forall2 lt idx (shape x)) as Hj.
        { rewrite <- (agree_nth k s0 (shape x) _ Ha eq_refl Hk). apply lt_upd in Hi; [|assumption]. apply lt_upd; [assumption|]. destruct Hi as (H1 & _ & H3). now repeat split. }
        apply ravel_lt in Hj. rewrite <- Hx in Hj. apply nth_error_Some in Hj. destruct (nth_error (data x) _) as [v|]; [|congruence]. now exists v.
      + apply IH. apply lt_upd in Hi; [|assumption]. apply lt_upd; [assumption|]. destruct Hi as (H1 & H2 & H3). rewrite upd_length. split; [assumption|]. split.
        * rewrite nth_upd by lia. rewrite extent_cons in H2. lia.
        * intros j i m N. rewrite nth_error_upd. destruct (Nat.eqb_spec j k); [contradiction|]. now apply H3.
  Qed.
  Lemma cat_at_in k s0 : k < length s0 -> forall pre (x : nd A) post, Forall (fun x => agree_but k s0 (shape x)) (pre ++ x :: post) ->
    forall idx v, nd_at x idx v -> cat_at k (upd k (fun i => i + extent k pre) idx) (pre ++ x :: post) = [v].
  Proof.
    intros Hk. induction pre as [|y pre IH]; intros x post H idx v [Hb Hv].
    - cbn [app]. rewrite upd_id by (intros; rewrite extent_nil; lia). cbn [cat_at]. cbv zeta.
      assert (nth k idx 0 < nth k (shape x) 0) as L.
      { inversion H as [|? ? [Hl _] _]; subst. apply Forall2_nth_iff in Hb. destruct Hb as [H1 H2]. apply (H2 k); apply nth_error_nth'; lia. }
      apply Nat.ltb_lt in L. now rewrite L, Hv.
    - inversion H as [|? ? Hy H']; subst. cbn [app cat_at]. cbv zeta.
      assert (k < length idx) as Hi. { apply Forall_app in H'. destruct H' as [_ H']. inversion H' as [|? ? [Hl _] _]; subst. apply Forall2_nth_iff in Hb. lia. }
      rewrite nth_upd by assumption. rewrite extent_cons.
      destruct (Nat.ltb_spec (nth k idx 0 + (nth k (shape y) 0 + extent k pre)) (nth k (shape y) 0)) as [L|L]; [lia|].
      rewrite upd_upd. rewrite (upd_ext k _ (fun i => i + extent k pre)) by (intros; lia). now apply IH.
  Qed.
  Lemma nth_error_flat_one {B C} (f : B -> list C) l : (forall b, In b l -> exists v, f b = [v]) ->
    length (flat_map f l) = length l /\ forall i b, nth_error l i = Some b -> nth_error (flat_map f l) i = hd_error (f b).
  Proof.
    induction l as [|b l IH]; intro H; [split; [reflexivity | intros [|i] c; discriminate]|].
    destruct IH as [I1 I2]; [intros; apply H; now right|]. destruct (H b) as (v & Hv); [now left|]. cbn [flat_map]. rewrite Hv. cbn [app length]. split; [lia|].
    intros [|i] c Hc; cbn in *; [injection Hc as <-; now rewrite Hv | now apply I2].
  Qed.
  Lemma nth_extent k (l : list nat) n : k < length l -> nth_error (upd k (fun _ => n) l) k = Some n.
  Proof. intro Hk. rewrite nth_error_upd, Nat.eqb_refl. destruct (nth_error l k) eqn:E; [reflexivity|]. apply nth_error_None in E. lia. Qed.

  Lemma cat_axis_joined k s0 xs : k < length s0 -> Forall nd_ok xs -> Forall (fun x => agree_but k s0 (shape x)) xs ->
    joined k xs (cat_axis k s0 xs).
  Proof.
    intros Hk Ho Ha. set (s := upd k (fun _ => extent k xs) s0).
    assert (Forall (fun x => nd_ok x /\ agree_but k s0 (shape x)) xs) as Hoa. { rewrite Forall_forall in *. intros x Hx. now split; [apply Ho | apply Ha]. }
    destruct (nth_error_flat_one (fun idx => cat_at k idx xs) (indices s)) as [F1 F2].
    { intros idx Hi. apply In_indices in Hi. now apply (cat_at_one k s0 xs). }
    split; [|split; [|split]].
    - unfold nd_ok. cbn. fold s. rewrite F1. apply indices_length.
    - intros x Hx. cbn. rewrite Forall_forall in Ha. apply agree_trans with (t := s0); [apply agree_sym, Ha, Hx | apply agree_upd_r].
    - cbn. apply nth_extent, Hk.
    - intros pre x post -> idx v Hv. pose proof (cat_at_in k s0 Hk pre x post Ha idx v Hv) as Hc. destruct Hv as [Hb Hv].
      fold (extent k pre).
      assert (Forall2 lt (upd k (fun i => i + extent k pre) idx) s) as Hi.
      { apply lt_upd; [assumption|]. rewrite upd_length. apply Forall_app in Ha. destruct Ha as [_ Ha]. inversion Ha as [|? ? [Hl Hn] _]; subst.
        apply Forall2_nth_iff in Hb. destruct Hb as [B1 B2]. split; [lia|]. split.
        - rewrite nth_upd by lia. unfold extent. rewrite map_app, list_sum_app. cbn [map]. assert (forall a b, list_sum (a :: b) = a + list_sum b) as LS by reflexivity. rewrite LS. assert (nth k idx 0 < nth k (shape x) 0); [|lia]. apply (B2 k); apply nth_error_nth'; lia.
        - intros j i m N. rewrite nth_error_upd. destruct (Nat.eqb_spec j k); [contradiction|]. intros Hi Hm. apply (B2 j); [assumption|]. now rewrite <- Hn. }
      split; [exact Hi|]. cbn. fold s. erewrite F2; [|now apply nth_error_indices]. now rewrite Hc.
  Qed.

  (** there is only one way to join *)
  Lemma locate k xs s0 : k < length s0 -> Forall (fun x => agree_but k s0 (shape x)) xs ->
    forall idx, Forall2 lt idx (upd k (fun _ => extent k xs) s0) ->
    exists pre x post j, xs = pre ++ x :: post /\ Forall2 lt j (shape x) /\ idx = upd k (fun i => i + extent k pre) j.
  Proof.
    intros Hk Ha. induction Ha as [|x xs Hx Ha IH]; intros idx Hi.
    - apply lt_upd in Hi; [|assumption]. unfold extent in Hi. cbn in Hi. lia.
    - pose proof Hi as Hi'. apply lt_upd in Hi; [|assumption]. destruct Hi as (H1 & H2 & H3). destruct (Nat.lt_ge_cases (nth k idx 0) (nth k (shape x) 0)) as [L|L].
      + exists [], x, xs, idx. split; [reflexivity|]. split.
        * rewrite <- (agree_nth k s0 (shape x) _ Hx eq_refl Hk). apply lt_upd; [assumption|]. now repeat split.
        * symmetry. apply upd_id. intros. rewrite extent_nil. lia.
      + destruct (IH (upd k (fun i => i - nth k (shape x) 0) idx)) as (pre & y & post & j & -> & Hj & E).
        { apply lt_upd; [assumption|]. rewrite upd_length. split; [assumption|]. split.
          - rewrite nth_upd by lia. rewrite extent_cons in H2. lia.
          - intros q i m N. rewrite nth_error_upd. destruct (Nat.eqb_spec q k); [contradiction|]. now apply H3. }
        exists (x :: pre), y, post, j. split; [reflexivity|]. split; [assumption|].
        rewrite (upd_ext k _ (fun i => i + extent k pre + nth k (shape x) 0)) by (intros; rewrite extent_cons; lia).
        rewrite <- (upd_upd k (fun i => i + nth k (shape x) 0) (fun i => i + extent k pre)), <- E, upd_upd. symmetry. apply upd_id.
        intros i Ei. rewrite (nth_error_nth idx k 0 Ei) in L. lia.
  Qed.
  Lemma joined_unique k xs a b s0 : k < length s0 -> Forall nd_ok xs -> xs <> [] -> Forall (fun x => agree_but k s0 (shape x)) xs ->
    joined k xs a -> joined k xs b -> a = b.
  Proof.
    intros Hk Ho Hn Ha (A1 & A2 & A3 & A4) (B1 & B2 & B3 & B4).
    assert (forall c : nd A, (forall x, In x xs -> agree_but k (shape x) (shape c)) -> nth_error (shape c) k = Some (extent k xs) -> shape c = upd k (fun _ => extent k xs) s0) as Hs.
    { intros c C1 C2. symmetry. destruct xs as [|x xs]; [contradiction|]. apply agree_nth; [|now apply nth_error_nth|assumption].
      inversion Ha; subst. apply agree_trans with (t := shape x); [assumption|]. apply C1. now left. }
    pose proof (Hs a A2 A3) as Sa. pose proof (Hs b B2 B3) as Sb. destruct a as [sa da], b as [sb db]. cbn [shape] in Sa, Sb. subst sa sb. f_equal.
    unfold nd_ok in A1, B1. cbn [shape data] in A1, B1.
    apply nth_error_ext'. intro i. destruct (Nat.lt_ge_cases i (nelem (upd k (fun _ => extent k xs) s0))) as [L|L].
    - assert (exists idx, nth_error (indices (upd k (fun _ => extent k xs) s0)) i = Some idx /\ ravel (upd k (fun _ => extent k xs) s0) idx = i /\ Forall2 lt idx (upd k (fun _ => extent k xs) s0)) as (idx & E1 & E2 & E3).
      { rewrite <- indices_length in L. destruct (nth_error (indices (upd k (fun _ => extent k xs) s0)) i) as [idx|] eqn:E; [|apply nth_error_None in E; lia].
        exists idx. pose proof (nth_error_In _ _ E) as Hin. apply In_indices in Hin. split; [reflexivity|]. split; [|assumption].
        pose proof (nth_error_indices _ _ Hin) as E'. apply (NoDup_nth_error (indices (upd k (fun _ => extent k xs) s0))); [|apply nth_error_Some; congruence|congruence].
        apply indices_NoDup. }
      destruct (locate k xs s0 Hk Ha idx E3) as (pre & x & post & j & Ex & Hj & Ej).
      assert (exists v, nd_at x j v) as (v & Hv).
      { pose proof (ravel_lt _ _ Hj) as R. assert (nd_ok x) as Ox. { rewrite Forall_forall in Ho. apply Ho. rewrite Ex. apply in_elt. } rewrite <- Ox in R. apply nth_error_Some in R.
        destruct (nth_error (data x) (ravel (shape x) j)) as [v|] eqn:V; [|congruence]. exists v. now split. }
      pose proof (A4 _ _ _ Ex _ _ Hv) as [_ V1]. pose proof (B4 _ _ _ Ex _ _ Hv) as [_ V2]. cbn [shape data] in V1, V2.
      fold (extent k pre) in V1, V2. rewrite <- Ej, E2 in V1, V2. congruence.
    - transitivity (@None A); [|symmetry]; apply nth_error_None; lia.
  Qed.
End Concat.

Local Open Scope Z_scope.
Section ConcatTop.
  Context {A : Type}.
  Implicit Types xs : list (nd A).

  Lemma concatenate_axis ax xs out : Forall nd_ok xs ->
    np_concatenate (Some ax) xs = Ok out <->
    exists k n, axis_of ax n k /\ xs <> [] /\ (forall x, In x xs -> length (shape x) = n) /\
      (forall x y, In x xs -> In y xs -> agree_but k (shape x) (shape y)) /\ joined k xs out.
  Proof.
    intro Ho. unfold np_concatenate. destruct xs as [|x xs]; [split; [discriminate | intros (k & n & _ & H & _); congruence]|].
    cbv zeta. set (nd := zlen (shape x)). assert (nd = Z.of_nat (length (shape x))) as End by reflexivity.
    destruct (Z.eqb_spec nd 0) as [Z0|Z0].
    { split; [discriminate|]. intros (k & n & [H1 H2] & _ & H3 & _). specialize (H3 x (or_introl eq_refl)). lia. }
    destruct ((ax <? - nd) || (nd <=? ax)) eqn:Er.
    { split; [discriminate|]. intros (k & n & [H1 H2] & _ & H3 & _). specialize (H3 x (or_introl eq_refl)). lia. }
    set (k := Z.to_nat (if ax <? 0 then ax + nd else ax)). assert (k < length (shape x))%nat as Hk by (unfold k; destruct (Z.ltb_spec ax 0); lia).
    assert (axis_of ax (length (shape x)) k) as Hax by (split; [assumption|]; unfold k; destruct (Z.ltb_spec ax 0); lia).
    destruct (forallb _ _) eqn:Ef.
    - rewrite forallb_forall in Ef. assert (Forall (fun y => agree_but k (shape x) (shape y)) (x :: xs)) as Ha. { rewrite Forall_forall. intros y Hy. now apply same_but_spec, Ef. }
      pose proof (cat_axis_joined k (shape x) (x :: xs) Hk Ho Ha) as J. split.
      + intros [= <-]. exists k, (length (shape x)). split; [exact Hax|]. split; [discriminate|]. split; [|split; [|exact J]].
        * intros y Hy. rewrite Forall_forall in Ha. specialize (Ha y Hy). now destruct Ha.
        * intros y z Hy Hz. rewrite Forall_forall in Ha. apply agree_trans with (t := shape x); [apply agree_sym|]; now apply Ha.
      + intros (k' & n & [H1 H2] & _ & H3 & _ & J'). specialize (H3 x (or_introl eq_refl)).
        assert (k' = k) as -> by (unfold k; destruct (Z.ltb_spec ax 0); lia). f_equal. now apply (joined_unique k (x :: xs) _ _ (shape x)).
    - split; [discriminate|]. intros (k' & n & [H1 H2] & _ & H3 & H4 & _). specialize (H3 x (or_introl eq_refl)).
      assert (k' = k) as -> by (unfold k; destruct (Z.ltb_spec ax 0); lia). exfalso. enough (true = false) by discriminate. rewrite <- Ef. symmetry. apply forallb_forall.
      intros y Hy. apply same_but_spec, H4; [now left | assumption].
  Qed.
End ConcatTop.

Section Read.
  Context {A Name Idx : Type} (Od : TOrd Name).
  Variable open : Idx -> res (Name -> option (res (nd A))).
  Variable F : Idx -> Name -> option (nd A).
  (** the file opens and the names wanted can be read *)
  Definition good (names : list Name) (i : Idx) : Prop :=
    exists f, open i = Ok f /\ forall n, In n names -> f n = option_map Ok (F i n).

  Notation dict := (list (Name * @cell A)).
  (** the dictionary with the same keys, in order, and the lists [L] *)
  Definition lists (names : list Name) (L : Name -> list (nd A)) : dict := map (fun n => (n, CList (L n))) names.

  Lemma init_spec names : NoDup names -> init Od names = lists names (fun _ => []).
  Proof.
    unfold init, lists. assert (forall d : dict, NoDup (map fst d ++ names) -> fold_left (fun d n => dset Od d n (CList [])) names d = d ++ map (fun n => (n, CList [])) names) as H.
    { induction names as [|n names IH]; intros d Hd; cbn; [now rewrite app_nil_r|]. rewrite dset_new.
      - rewrite IH; [now rewrite <- app_assoc|]. rewrite map_app. cbn. now rewrite <- app_assoc.
      - apply NoDup_remove_2 in Hd. intro. apply Hd. apply in_or_app. now left. }
    intro Hn. now rewrite (H []).
  Qed.
  Lemma dget_mid {V} (d1 : list (Name * V)) n v d2 : ~ In n (map fst d1) -> dget Od (d1 ++ (n, v) :: d2) n = Some v.
  Proof. induction d1 as [|[m w] d1 IH]; cbn; intro H; [now rewrite eqb_refl|]. assert (eqb Od m n = false) as -> by (apply eqb_neq; intro; apply H; now left). apply IH. intro. apply H. now right. Qed.
  Lemma dset_mid {V} (d1 : list (Name * V)) n v w d2 : ~ In n (map fst d1) -> dset Od (d1 ++ (n, v) :: d2) n w = d1 ++ (n, w) :: d2.
  Proof. induction d1 as [|[m u] d1 IH]; cbn; intro H; [now rewrite eqb_refl|]. assert (eqb Od m n = false) as -> by (apply eqb_neq; intro; apply H; now left). f_equal. apply IH. intro. apply H. now right. Qed.
  Lemma fst_lists names L : map fst (lists names L) = names.
  Proof. unfold lists. rewrite map_map. apply map_id. Qed.

  Definition opt {B} (o : option B) : list B := match o with Some b => [b] | None => [] end.
  Lemma names_spec f i L : forall todo done, NoDup (done ++ todo) -> (forall n, In n todo -> f n = option_map Ok (F i n)) ->
    foldM (read_name Od f) todo (lists done (fun n => L n ++ opt (F i n)) ++ lists todo L)
    = Ok (lists (done ++ todo) (fun n => L n ++ opt (F i n))).
  Proof.
    induction todo as [|n todo IH]; intros done Hn Hf.
    - cbn. now rewrite !app_nil_r.
    - cbn [foldM lists map]. fold (lists todo L). unfold read_name at 1. rewrite (Hf n) by now left.
      assert (~ In n (map fst (lists done (fun n => L n ++ opt (F i n))))) as Hni. { rewrite fst_lists. apply NoDup_remove_2 in Hn. intro. apply Hn. apply in_or_app. now left. }
      assert (done ++ n :: todo = (done ++ [n]) ++ todo) as Ed by now rewrite <- app_assoc.
      specialize (IH (done ++ [n])). rewrite <- Ed in IH. specialize (IH Hn (fun m Hm => Hf m (or_intror Hm))).
      assert (lists (done ++ [n]) (fun n => L n ++ opt (F i n)) ++ lists todo L = lists done (fun n => L n ++ opt (F i n)) ++ (n, CList (L n ++ opt (F i n))) :: lists todo L) as El.
      { unfold lists. rewrite map_app. cbn. now rewrite <- app_assoc. }
      rewrite El in IH. destruct (F i n) as [a|] eqn:E; cbn [option_map bind].
      + rewrite dget_mid, dset_mid by assumption. cbn [opt] in IH. exact IH.
      + cbn [opt] in IH. rewrite app_nil_r in IH. exact IH.
  Qed.
  Lemma names_spec0 f i L names : NoDup names -> (forall n, In n names -> f n = option_map Ok (F i n)) ->
    foldM (read_name Od f) names (lists names L) = Ok (lists names (fun n => L n ++ opt (F i n))).
  Proof. intros. now apply (names_spec f i L names []). Qed.

  Lemma files_spec names idx : NoDup names -> Forall (good names) idx -> forall L log,
    foldM (read_file Od open names) idx (lists names L, log) = Ok (lists names (fun n => L n ++ arrays_of F idx n), log ++ idx).
  Proof.
    intros Hn H. induction H as [|i idx (f & Ho & Hf) H IH]; intros L log; cbn [foldM].
    - unfold arrays_of. cbn. rewrite app_nil_r. do 2 f_equal. unfold lists. apply map_ext. intro. now rewrite app_nil_r.
    - unfold read_file at 1. rewrite Ho. cbn [bind fst snd]. rewrite (names_spec0 f i) by assumption. cbn [bind]. rewrite IH. rewrite <- app_assoc. do 2 f_equal.
      unfold lists. apply map_ext. intro n. do 2 f_equal. unfold arrays_of. cbn [flat_map]. rewrite <- app_assoc. reflexivity.
  Qed.

  Lemma concat_spec axis L : forall todo (done : dict), NoDup (map fst done ++ todo) -> forall d',
    foldM (concat_name Od axis) todo (done ++ lists todo L) = Ok d' <->
    exists outs, Forall2 (fun n out => np_concatenate axis (L n) = Ok out) todo outs /\ d' = done ++ combine todo (map CArr outs).
  Proof.
    induction todo as [|n todo IH]; intros done Hn d'.
    - cbn. split.
      + intros [= <-]. exists []. split; [constructor | reflexivity].
      + intros (outs & H & ->). inversion H; subst. reflexivity.
    - cbn [foldM lists map]. fold (lists todo L). unfold concat_name at 1.
      assert (~ In n (map fst done)) as Hni. { apply NoDup_remove_2 in Hn. intro. apply Hn. apply in_or_app. now left. }
      rewrite dget_mid by assumption. destruct (np_concatenate axis (L n)) as [a|e] eqn:E; cbn [bind].
      + rewrite dset_mid by assumption. specialize (IH (done ++ [(n, CArr a)])). rewrite map_app in IH. cbn [map fst] in IH. rewrite <- app_assoc in IH. specialize (IH Hn d').
        rewrite <- app_assoc in IH. cbn [app] in IH. rewrite IH. split.
        * intros (outs & H & ->). exists (a :: outs). split; [now constructor|]. cbn. now rewrite <- app_assoc.
        * intros (outs & H & ->). inversion H as [|? b ? outs' H1 H2]; subst. assert (b = a) as -> by congruence. exists outs'. split; [assumption|]. cbn. now rewrite <- app_assoc.
      + split; [discriminate|]. intros (outs & H & _). inversion H; subst. congruence.
  Qed.

  Lemma read_multi_spec names idx axis : NoDup names -> Forall (good names) idx -> forall d log,
    read_multi Od open idx names axis = Ok (d, log) <->
    exists outs, Forall2 (fun n out => np_concatenate axis (arrays_of F idx n) = Ok out) names outs /\ d = combine names (map CArr outs) /\ log = idx.
  Proof.
    intros Hn Hg d log. unfold read_multi. rewrite init_spec, files_spec by assumption. cbn [bind app].
    pose proof (concat_spec axis (arrays_of F idx) names [] Hn) as C. cbn [app] in C.
    destruct (foldM (concat_name Od axis) names (lists names (arrays_of F idx))) as [d'|e] eqn:E; cbn [bind].
    - split.
      + intros [= <- <-]. destruct (proj1 (C d') eq_refl) as (outs & H1 & H2). now exists outs.
      + intros (outs & H1 & -> & ->). specialize (C (combine names (map CArr outs))). destruct C as [_ C]. assert (Ok d' = Ok (combine names (map CArr outs))) as [= ->] by (apply C; now exists outs). reflexivity.
    - split; [discriminate|]. intros (outs & H1 & -> & ->). specialize (C (combine names (map CArr outs))). destruct C as [_ C]. discriminate C. now exists outs.
  Qed.
  (** a dataset in no file *)
  Lemma read_multi_missing names idx axis n : NoDup names -> Forall (good names) idx -> In n names -> (forall i, In i idx -> F i n = None) ->
    read_multi Od open idx names axis = Err EValue.
  Proof.
    intros Hn Hg Hin Hf. destruct (read_multi Od open idx names axis) as [[d log]|e] eqn:E.
    - apply read_multi_spec in E; [|assumption..]. destruct E as (outs & H & _ & _). exfalso. assert (arrays_of F idx n = []) as Hz.
      { unfold arrays_of. clear - Hf. induction idx as [|i idx IH]; [reflexivity|]. cbn. rewrite (Hf i) by now left. apply IH. intros. apply Hf. now right. }
      revert Hin. clear - H Hz. induction H as [|m out names outs H1 H2 IH]; [easy|]. intros [->|Hin]; [|auto]. rewrite Hz in H1. discriminate.
    - f_equal. revert E. unfold read_multi. rewrite init_spec, files_spec by assumption. cbn [bind app].
      assert (forall todo (d : dict) e, foldM (concat_name Od axis) todo d = Err e -> (forall m, In m todo -> In m (map fst d)) -> e = EValue) as HE.
      { clear. assert (forall xs e, @np_concatenate A axis xs = Err e -> e = EValue) as N.
        { intros xs e. unfold np_concatenate. destruct xs; [congruence|]. destruct axis as [ax|]; [|discriminate]. repeat (match goal with |- context [if ?b then _ else _] => destruct b end); cbn; congruence. }
        induction todo as [|n todo IH]; intros d e; cbn [foldM]; [discriminate|]. unfold concat_name at 1. intros H Hin. destruct (dget Od d n) as [c|] eqn:E.
        - destruct (np_concatenate axis _) as [a|e'] eqn:E'; cbn [bind] in H; [|injection H as <-; now apply N in E']. apply IH in H; [assumption|].
          intros m Hm. apply (din_In Od). unfold din. assert (In m (map fst d)) as Hd by (apply Hin; now right). apply (din_In Od) in Hd. unfold din in Hd.
          clear - Hd. induction d as [|[k v] d IHd]; cbn in *; [discriminate|]. destruct (eqb Od k n) eqn:E1; cbn; destruct (eqb Od k m); try reflexivity; [assumption|now apply IHd].
        - exfalso. apply dget_None in E. apply E. apply Hin. now left. }
      destruct (foldM (concat_name Od axis) names _) as [d|e'] eqn:E; cbn [bind]; [discriminate|]. intros [= <-]. apply HE in E; [assumption|]. intros m Hm. now rewrite fst_lists.
  Qed.
  (** a file that cannot be opened *)
  Lemma read_multi_unreadable names pre i post axis e : NoDup names -> Forall (good names) pre -> open i = Err e ->
    read_multi Od open (pre ++ i :: post) names axis = Err e.
  Proof.
    intros Hn Hp He. unfold read_multi. rewrite init_spec by assumption.
    assert (forall (f : dict * list Idx -> Idx -> res (dict * list Idx)) l m s, foldM f (l ++ m) s = do s' <- foldM f l s; foldM f m s') as Happ.
    { intros f l m. induction l as [|a l IH]; intro s; cbn; [reflexivity|]. destruct (f s a); cbn; [apply IH | reflexivity]. }
    rewrite Happ, files_spec by assumption. cbn [bind foldM]. unfold read_file at 1. now rewrite He.
  Qed.
End Read.

Lemma concatenate_flat {A} (xs : list (nd A)) : xs <> [] ->
  exists out, np_concatenate None xs = Ok out /\ shape out = [length (concat (map data xs))] /\ data out = concat (map data xs).
Proof. intro H. destruct xs as [|x xs]; [contradiction|]. eexists. split; [reflexivity|]. rewrite <- flat_map_concat_map. split; reflexivity. Qed.
