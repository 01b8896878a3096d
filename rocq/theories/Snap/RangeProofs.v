From Coq Require Import String.
From Verif Require Import Base.Prelude Base.ListLemmas Peano.PeanoModel Util.RangesModel Index.IndexModel.
From Verif Require Import Snap.SanitySpec Snap.SanityProofs Snap.ReadModel Snap.ReadSpec.
From Coq Require Import ZifyBool ZifyNat.
Local Open Scope Z_scope.

Lemma Forall2_refl_map {X Y} (R : X -> Y -> Prop) (f : X -> Y) l : (forall x, R x (f x)) -> Forall2 R l (map f l).
Proof. intro H. induction l; constructor; auto. Qed.
Lemma py_nth_error {B} (l : list B) k x : nth_error l k = Some x -> py_nth l (Z.of_nat k) = Ok x.
Proof.
  intro H. assert (Hk : (k < length l)%nat) by (apply nth_error_Some; congruence). unfold py_nth.
  replace (Z.of_nat k <? 0) with false by lia. replace ((Z.of_nat k <? 0) || (zlen l <=? Z.of_nat k)) with false by (unfold zlen; lia).
  now rewrite Nat2Z.id, H.
Qed.
Lemma zslice_clamp {B} (l : list B) a b n : zlen l = n ->
  zslice l (if a <? 0 then 0 else a) ((if b >=? n then n - 1 else b) + 1) = zslice l a (b + 1).
Proof.
  intro Hn. pose proof (zlen_nonneg l). rewrite (zslice_clip l a (b + 1)), (zslice_clip l (if a <? 0 then 0 else a)).
  destruct (a <? 0) eqn:Ea; destruct (b >=? n) eqn:Eb; f_equal; lia.
Qed.
Lemma zslice_nonempty {B} (l : list B) a b : zslice l a b <> [] <-> Z.max 0 a < Z.min b (zlen l).
Proof.
  unfold zlen. split.
  - intro H. destruct (Z_lt_ge_dec (Z.max 0 a) (Z.min b (Z.of_nat (length l)))) as [L|G]; [easy|]. destruct H.
    apply length_zero_iff_nil. rewrite zslice_length. lia.
  - intros H E. apply (f_equal (@length B)) in E. rewrite zslice_length in E. cbn in E. lia.
Qed.

Section Range.
  Context {A : Type}.
  Variable names : list string.
  Hypothesis Hnd : NoDup names.

  (** a file, its contents and its particle number *)
  Definition count_ok (x : @fileinfo A) (c : Z) : Prop := c = -1 \/ c = i_n x.

  Definition dict_of (p : string -> list (list A)) (l : list string) := map (fun nm => (nm, p nm)) l.

  Lemma dict_new_eq : forall l, NoDup l -> dict_new l = dict_of (fun _ => @nil (list A)) l.
  Proof using.
    clear. induction l as [|n l IH]; intro H; [reflexivity|]. inversion H; subst. cbn [dict_new dict_of map]. f_equal.
    rewrite IH by easy. fold (dict_of (fun _ => @nil (list A)) l).
    assert (forall m, (forall x, In x m -> x <> n) -> filter (fun e => negb (String.eqb (fst e) n)) (dict_of (fun _ => @nil (list A)) m) = dict_of (fun _ => []) m) as K.
    { induction m as [|x m IHm]; intro Hm; [reflexivity|]. cbn [dict_of map filter fst].
      destruct (String.eqb_spec x n) as [->|Hx]; [destruct (Hm n); [now left|reflexivity]|]. cbn [negb]. f_equal. apply IHm.
      intros y Hy. apply Hm. now right. }
    apply K. intros x Hx ->. contradiction.
  Qed.

  Lemma dict_append_eq p nm x : NoDup names -> dict_append (dict_of p names) nm x =
    dict_of (fun n => p n ++ (if String.eqb n nm then [x] else [])) names.
  Proof using.
    intros _. unfold dict_append, dict_of. rewrite map_map. apply map_ext. intro n. cbn [fst snd].
    destruct (String.eqb n nm); [reflexivity|now rewrite app_nil_r].
  Qed.

  Definition mem (nm : string) (l : list string) : bool := existsb (String.eqb nm) l.
  Lemma mem_In nm l : mem nm l = true <-> In nm l.
  Proof using. clear. unfold mem. rewrite existsb_exists. split; [intros (x & H & E); apply String.eqb_eq in E; congruence|intro H; exists nm; split; [easy|apply String.eqb_refl]]. Qed.

  Lemma append_all (rd : string -> res (list A)) (row : string -> list A) : forall l p, NoDup l -> (forall nm, In nm l -> rd nm = Ok (row nm)) ->
    foldM (fun d name => do x <- rd name; Ok (dict_append d name x)) l (dict_of p names) =
    Ok (dict_of (fun n => p n ++ (if mem n l then [row n] else [])) names).
  Proof.
    induction l as [|nm l IH]; intros p Hl Hr; cbn [foldM].
    - f_equal. apply map_ext. intro n. cbn. now rewrite app_nil_r.
    - inversion Hl as [|? ? N1 N2]; subst. rewrite Hr by (now left). cbn [bind]. rewrite dict_append_eq by easy. rewrite IH; [|easy|intros; apply Hr; now right].
      f_equal. apply map_ext. intro n. rewrite <- app_assoc. do 2 f_equal. cbn [mem existsb]. fold (mem n l).
      destruct (String.eqb_spec n nm) as [->|Hne]; [|reflexivity]. destruct (mem nm l) eqn:E; [apply mem_In in E; contradiction|reflexivity].
  Qed.

  Variables (first last : Z).

  (** what one file contributes *)
  Definition piece (x : @fileinfo A) (s : Z) (nm : string) : list (list A) :=
    match zslice (i_rows x nm) (first - s) (last + 1 - s) with [] => [] | l => [l] end.

  Lemma from_file_ok x s p : info_ok names x -> exists p',
    range_from_file names first last (i_file x) (i_n x) s (dict_of p names) = Ok (dict_of p' names) /\
    forall nm, In nm names -> p' nm = p nm ++ piece x s nm.
  Proof.
    intros (H1 & H2 & H3). unfold range_from_file.
    set (a := if first - s <? 0 then 0 else first - s). set (b := if last - s >=? i_n x then i_n x - 1 else last - s).
    assert (P : forall nm, In nm names -> zslice (i_rows x nm) a (b + 1) = zslice (i_rows x nm) (first - s) (last + 1 - s) /\
       (zslice (i_rows x nm) (first - s) (last + 1 - s) <> [] <-> a <= b /\ 0 < i_n x)).
    { intros nm Hi. destruct (H3 nm Hi) as [L _]. unfold a, b. rewrite zslice_clamp by exact L.
      replace (last - s + 1) with (last + 1 - s) by lia. split; [reflexivity|]. rewrite zslice_nonempty, L.
      destruct (first - s <? 0) eqn:E1; destruct (last - s >=? i_n x) eqn:E2; lia. }
    assert (N : ~ (a <= b /\ 0 < i_n x) -> exists p', dict_of p names = dict_of p' names /\ forall nm, In nm names -> p' nm = p nm ++ piece x s nm).
    { intro Hc. exists p. split; [reflexivity|]. intros nm Hi. destruct (P nm Hi) as [_ Q]. unfold piece.
      destruct (zslice (i_rows x nm) (first - s) (last + 1 - s)) as [|y l]; [now rewrite app_nil_r|]. destruct Hc. now apply Q. }
    destruct (s + i_n x - 1 >=? s) eqn:E1.
    2: { destruct N as (p' & Ep & Hp); [lia|]. exists p'. now rewrite <- Ep. }
    destruct ((b >=? a) && (i_n x >? 0)) eqn:E2.
    2: { destruct N as (p' & Ep & Hp); [lia|]. exists p'. now rewrite <- Ep. }
    rewrite (append_all (fun name => read_rows (i_file x) 1 name a (b + 1)) (fun nm => zslice (i_rows x nm) (first - s) (last + 1 - s))); [|exact Hnd|].
    - eexists. split; [reflexivity|]. intros nm Hi. cbv beta. rewrite (proj2 (mem_In nm names) Hi). f_equal.
      destruct (P nm Hi) as [_ Q]. unfold piece. destruct (zslice (i_rows x nm) (first - s) (last + 1 - s)) as [|y l]; [destruct (proj2 Q); [lia|reflexivity]|reflexivity].
    - intros nm Hi. destruct (H3 nm Hi) as [L D]. unfold read_rows. rewrite D by lia. assert (Ha : 0 <= a) by (unfold a; destruct (first - s <? 0) eqn:?; lia).
      rewrite pyslice_zslice by (clearbody a b; lia).
      f_equal. now apply P.
  Qed.

  Lemma loop_ok : forall (xs : list (@fileinfo A)) cache s p, Forall (info_ok names) xs -> Forall2 count_ok xs cache ->
    exists cache' p', range_loop names first last (map i_file xs) cache s (dict_of p names) = (cache', Ok (dict_of p' names)) /\
      Forall2 count_ok xs cache' /\
      forall nm, In nm names -> exists P, p' nm = p nm ++ P /\ concat P = zslice (whole (map i_rows xs) nm) (first - s) (last + 1 - s) /\
         (P = [] <-> concat P = []).
  Proof.
    induction xs as [|x xs IH]; intros cache s p Hx Hc; inversion Hc as [|? c ? cache0 C1 C2]; subst.
    { exists [], p. split; [reflexivity|]. split; [constructor|]. intros nm _. exists []. rewrite app_nil_r. cbn. now rewrite zslice_nil. }
    inversion Hx as [|? ? X1 X2]; subst. cbn [map range_loop].
    assert (Ec : (if c =? -1 then py_nth (sf_npart (i_file x)) 1 else Ok c) = Ok (i_n x)).
    { destruct X1 as (_ & X1 & _). destruct C1 as [->| ->]; [cbn; exact (py_nth_error _ 1 _ X1)|].
      destruct (i_n x =? -1) eqn:E; [exact (py_nth_error _ 1 _ X1)|reflexivity]. }
    rewrite Ec. destruct (from_file_ok x s p X1) as (p1 & E1 & Hp1). rewrite E1.
    destruct X1 as (N1 & _ & N3).
    assert (Split : forall nm, In nm names -> zslice (whole (map i_rows (x :: xs)) nm) (first - s) (last + 1 - s) =
        concat (piece x s nm) ++ zslice (whole (map i_rows xs) nm) (first - (s + i_n x)) (last + 1 - (s + i_n x))).
    { intros nm Hi. unfold whole. cbn [map concat]. rewrite zslice_app. destruct (N3 nm Hi) as [L _]. rewrite L. f_equal.
      - unfold piece. destruct (zslice (i_rows x nm) (first - s) (last + 1 - s)); [reflexivity|]. cbn. now rewrite app_nil_r.
      - f_equal; lia. }
    assert (Pe : forall nm, piece x s nm = [] <-> concat (piece x s nm) = []).
    { intro nm. unfold piece. destruct (zslice (i_rows x nm) (first - s) (last + 1 - s)); [easy|]. cbn. split; discriminate. }
    destruct (s + i_n x - 1 >=? last) eqn:Eb.
    - exists (i_n x :: cache0), p1. split; [reflexivity|]. split; [constructor; [now right|easy]|].
      intros nm Hi. exists (piece x s nm). split; [now apply Hp1|]. split; [|apply Pe].
      rewrite Split by easy. rewrite zslice_neg by lia. now rewrite app_nil_r.
    - destruct (IH cache0 (s + i_n x) p1 X2 C2) as (c2 & p2 & E2 & V2 & R2). rewrite E2.
      exists (i_n x :: c2), p2. split; [reflexivity|]. split; [constructor; [now right|easy]|].
      intros nm Hi. destruct (R2 nm Hi) as (P & EP & CP & NP). exists (piece x s nm ++ P).
      split; [rewrite EP, (Hp1 nm Hi); symmetry; apply app_assoc|]. split; [rewrite concat_app, CP; now rewrite Split|].
      rewrite concat_app. split; [intro H; apply app_eq_nil in H; destruct H as [-> ->]; reflexivity|].
      intro H. apply app_eq_nil in H. destruct H as [Ha Hb]. apply Pe in Ha. apply NP in Hb. now rewrite Ha, Hb.
  Qed.

  Lemma whole_len (xs : list (@fileinfo A)) nm : Forall (info_ok names) xs -> In nm names -> zlen (whole (map i_rows xs) nm) = total xs.
  Proof using.
    intros H Hi. unfold whole, total. rewrite zlen_concat, !map_map. f_equal. apply map_ext_in. intros x Hx. rewrite Forall_forall in H.
    destruct (H x Hx) as (_ & _ & H3). now apply H3.
  Qed.

  Lemma concat_ok (p : string -> list (list A)) : forall l, (forall nm, In nm l -> p nm <> []) ->
    mapM (fun e => do x <- np_concat (snd e); Ok (fst e, x)) (dict_of p l) = Ok (map (fun nm => (nm, concat (p nm))) l).
  Proof using.
    clear. induction l as [|n l IH]; intro H; [reflexivity|]. cbn [dict_of map mapM fst snd].
    assert (Hn : np_concat (p n) = Ok (concat (p n))) by (assert (p n <> []) by (apply H; now left); now destruct (p n)).
    rewrite Hn. cbn [bind].
    fold (dict_of p l). rewrite IH by (intros; apply H; now right). reflexivity.
  Qed.

  Lemma range_ok wr (xs : list (@fileinfo A)) cache offset count : Forall (info_ok names) xs -> Forall2 count_ok xs cache ->
    offset = first -> wr (wr (offset + count) - 1) = last ->
    Forall2 count_ok xs (fst (read_particle_range wr (map i_file xs) cache offset count names)) /\
    (Z.max 0 first < Z.min (last + 1) (total xs) ->
       snd (read_particle_range wr (map i_file xs) cache offset count names) =
       Ok (map (fun nm => (nm, zslice (whole (map i_rows xs) nm) first (last + 1))) names)) /\
    (~ Z.max 0 first < Z.min (last + 1) (total xs) -> names <> [] ->
       snd (read_particle_range wr (map i_file xs) cache offset count names) = Err EValue).
  Proof.
    intros Hx Hc Eo El. unfold read_particle_range. rewrite El, Eo. rewrite dict_new_eq by exact Hnd.
    destruct (loop_ok xs cache 0 (fun _ => []) Hx Hc) as (c2 & p2 & E & V & R). rewrite E. cbn [fst snd bind].
    split; [exact V|].
    assert (R' : forall nm, In nm names -> concat (p2 nm) = zslice (whole (map i_rows xs) nm) first (last + 1) /\
        (p2 nm <> [] <-> Z.max 0 first < Z.min (last + 1) (total xs))).
    { intros nm Hi. destruct (R nm Hi) as (P & EP & CP & NP). cbn in EP. rewrite EP. rewrite !Z.sub_0_r in CP. split; [exact CP|].
      rewrite NP, CP. rewrite zslice_nonempty, whole_len by easy. reflexivity. }
    split.
    - intro Hne. rewrite concat_ok by (intros nm Hi; now apply R'). f_equal. apply map_ext_in. intros nm Hi. f_equal. now apply R'.
    - intros Hne Hn. destruct names as [|n l]; [easy|]. cbn [dict_of map mapM fst snd].
      destruct (R' n (or_introl eq_refl)) as [_ Q]. destruct (p2 n) as [|a q]; [reflexivity|]. exfalso. apply Hne. apply Q. discriminate.
  Qed.
End Range.

(** the cache is right after any calls on files that hold every dataset *)
Lemma range_history_ok {A} (all : list string) (xs : list (@fileinfo A)) : Forall (info_ok all) xs ->
  forall calls, (forall c, In c calls -> NoDup (snd c) /\ incl (snd c) all) -> Forall2 count_ok xs (range_history (map i_file xs) calls).
Proof.
  intros Hx calls. unfold range_history, new_npart. rewrite map_map.
  assert (H0 : Forall2 count_ok xs (map (fun _ => -1) xs)) by (apply Forall2_refl_map; intro; now left).
  revert H0. generalize (map (fun _ : fileinfo => -1) xs). induction calls as [|c calls IH]; intros s H0 Hc; [exact H0|].
  cbn [fold_left]. apply IH; [|intros; apply Hc; now right]. destruct (Hc c (or_introl eq_refl)) as [N I].
  destruct c as [[[wr o] n] names]. cbn in N, I.
  apply (range_ok names N o (wr (wr (o + n) - 1)) wr); try easy.
  eapply Forall_impl; [|exact Hx]. intros x (A1 & A2 & A3). split; [easy|]. split; [easy|]. intros nm Hi. apply A3. now apply I.
Qed.

Lemma info_sub {A} all names (xs : list (@fileinfo A)) : incl names all -> Forall (info_ok all) xs -> Forall (info_ok names) xs.
Proof. intros I H. eapply Forall_impl; [|exact H]. intros x (A1 & A2 & A3). split; [easy|]. split; [easy|]. intros nm Hi. apply A3. now apply I. Qed.

Lemma wrap_last o c : - 2 ^ 31 < o + c <= 2 ^ 31 -> wrap32 (wrap32 (o + c) - 1) = o + c - 1.
Proof. intro H. replace (wrap32 (o + c) - 1) with (wrap32 (o + c) + (-1)) by lia. rewrite wrap32_add. apply wrap32_id. unfold int32. lia. Qed.
Lemma wrap_last_over o c : 2 ^ 31 < o + c <= 2 ^ 32 -> wrap32 (wrap32 (o + c) - 1) < 0.
Proof.
  intro H. replace (wrap32 (o + c) - 1) with (wrap32 (o + c) + (-1)) by lia. rewrite wrap32_add. apply wrap32_high. lia.
Qed.
