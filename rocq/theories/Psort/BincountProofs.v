(** Proofs about parallel_bincount. *)
From Coq Require Import QArith.
From Verif.Base Require Import Prelude ListLemmas Order.
From Verif.Mpi Require Import CommModel CommProofs CutProofs.
From Verif.Psort Require Import MoveModel MoveSpec MoveProofs FetchProofs SortSpec SortProofs SortFinal UniqueModel UniqueProofs MatchSpec UniqueFinal ReduceModel ReduceSpec ReduceProofs ReduceFinal.
From Coq Require Import ZifyBool ZifyNat.
Local Open Scope Z_scope.

Lemma updates_for_spmd {C} g (i : list (list Z)) (u : list (list C)) : layout i = layout u ->
    updates_for g i u = concat (spmd (length i) (fun r => map snd (filter (fun p => fst p =? g) (combine (nth r i []) (nth r u []))))).
  Proof.
    intro H. unfold updates_for. rewrite <- combine_concat_layout by assumption. unfold spmd. generalize (seq 0 (length i)) as l.
    induction l as [|r l IH]; [reflexivity|]. cbn [map concat]. now rewrite filter_app, map_app, IH.
  Qed.

Section Local.
  Context {W : Type}.
  Variables (add : W -> W -> W) (zero : W).
  Hypothesis Hcomm : forall a b, add a b = add b a.
  Hypothesis Hassoc : forall a b c, add a (add b c) = add (add a b) c.
  Hypothesis Hunit : forall a, add a zero = a.
  Set Default Proof Using "All".

  Lemma fold_left_total us : forall a, fold_left add us a = add a (fold_right add zero us).
  Proof. induction us as [|u us IH]; intro a; cbn [fold_left fold_right]; [now rewrite Hunit|]. now rewrite IH, Hassoc. Qed.
  Lemma wsum_total us : wsum add zero us = fold_right add zero us.
  Proof. unfold wsum. rewrite fold_left_total, Hcomm. apply Hunit. Qed.
  Lemma total_app us vs : fold_right add zero (us ++ vs) = add (fold_right add zero us) (fold_right add zero vs).
  Proof. induction us as [|u us IH]; cbn [app fold_right]; [now rewrite Hcomm, Hunit|]. now rewrite IH, Hassoc. Qed.
  Lemma total_perm us vs : Permutation us vs -> fold_right add zero us = fold_right add zero vs.
  Proof.
    induction 1 as [|u us vs _ IH|u v us|us vs ws _ IH1 _ IH2]; cbn [fold_right]; [reflexivity | now rewrite IH | rewrite !Hassoc; now rewrite (Hcomm u v) | congruence].
  Qed.
  Lemma total_concat ls : fold_right add zero (concat ls) = fold_right add zero (map (fold_right add zero) ls).
  Proof. induction ls as [|l ls IH]; [reflexivity|]. cbn [concat map fold_right]. now rewrite total_app, IH. Qed.

  Definition here (v : Z) (l : list (Z * W)) := filter (fun p => fst p =? v) l.
  Lemma here_prefix v (l : list (Z * W)) : sorted ZOrd (map fst l) -> (forall p, In p l -> v <= fst p) ->
    firstn (length (here v l)) l = here v l.
  Proof.
    unfold here. induction l as [|[i w] l IH]; intros Hs Hv; [reflexivity|]. cbn [filter fst]. cbn [map fst] in Hs. apply StronglySorted_inv in Hs. destruct Hs as [Hs Hf].
    destruct (Z.eqb_spec i v) as [->|Hn].
    - cbn [length firstn]. f_equal. apply IH; [assumption|]. intros p Hp. apply Hv. now right.
    - rewrite filter_none; [reflexivity|]. intros p Hp. rewrite Forall_forall in Hf. specialize (Hf (fst p) (in_map fst _ _ Hp)).
      pose proof (Hv (i, w) (or_introl eq_refl)). cbn in *. lia.
  Qed.
  Lemma here_slice v (l : list (Z * W)) : sorted ZOrd (map fst l) -> In v (map fst l) ->
    zslice l (first_index (map fst l) v) (first_index (map fst l) v + zlen (here v l)) = here v l /\ 0 <= first_index (map fst l) v.
  Proof.
    induction l as [|[i w] l IH]; intros Hs Hv; [destruct Hv|]. cbn [map fst first_index].
    cbn [map fst] in Hs. pose proof Hs as Hs0. apply StronglySorted_inv in Hs0. destruct Hs0 as [Hs1 Hf].
    destruct (Z.eqb_spec i v) as [->|Hn].
    - split; [|lia]. unfold zslice. cbn [Z.to_nat skipn]. rewrite Nat.sub_0_r, Z.add_0_l. unfold zlen. rewrite Nat2Z.id.
      apply here_prefix; [exact Hs|]. intros p [<-|Hp]; [cbn; lia|]. rewrite Forall_forall in Hf. specialize (Hf (fst p) (in_map fst _ _ Hp)). cbn in Hf. lia.
    - destruct Hv as [Hv|Hv]; [cbn in Hv; congruence|]. destruct (IH Hs1 Hv) as [E1 E2]. split; [|lia].
      unfold here in *. cbn [filter fst]. destruct (Z.eqb_spec i v); [congruence|]. unfold zslice in *. set (q := zlen _) in *. pose proof (zlen_nonneg (filter (fun p => fst p =? v) l)). fold q in H.
      replace (Z.to_nat (1 + first_index (map fst l) v)) with (S (Z.to_nat (first_index (map fst l) v))) by lia. cbn [skipn].
      etransitivity; [|exact E1]. f_equal. lia.
  Qed.
  Lemma count_here v (l : list (Z * W)) : count_eq ZOrd v (map fst l) = zlen (here v l).
  Proof.
    unfold here. induction l as [|[i w] l IH]; [reflexivity|]. unfold count_eq, count in *. cbn [map fst filter]. cbn [eqb ZOrd].
    replace (eqb ZOrd i v) with (i =? v). 2:{ unfold eqb. cbn. lia. }
    destruct (i =? v); [|exact IH]. unfold zlen in *. cbn [length]. lia.
  Qed.

  Lemma keys_filter (h : Z -> W) g ks : NoDup ks ->
    map snd (filter (fun p => fst p =? g) (combine ks (map h ks))) = if existsb (Z.eqb g) ks then [h g] else [].
  Proof using Type.
    induction 1 as [|k ks Hk _ IH]; [reflexivity|]. cbn [map combine filter fst existsb]. rewrite (Z.eqb_sym k g). destruct (Z.eqb_spec g k) as [->|Hn]; cbn [orb].
    - cbn [map snd]. f_equal. rewrite filter_none; [reflexivity|]. intros [i u] Hin. apply in_combine_l in Hin. cbn [fst]. destruct (Z.eqb_spec i k); [subst; contradiction | reflexivity].
    - exact IH.
  Qed.

  Definition h (x : list Z) (w : list W) (v : Z) : W := fold_right add zero (map snd (here v (combine x w))).
  Lemma local_bins_ok x w order : length x = length w -> is_argsort ZOrd x order ->
    exists ks, local_bins add zero x w order = Ok (ks, map (h x w) ks) /\ NoDup ks /\ (forall v, In v ks <-> In v x).
  Proof.
    intros Hlen Ho. unfold local_bins.
    rewrite np_take_ok with (d := 0) by (intros i Hi; now apply (is_argsort_In ZOrd x order)). cbn [bind].
    assert (forall i, In i order -> 0 <= i < zlen w) as Hin by (intros i Hi; apply (is_argsort_In ZOrd x order) in Hi; [unfold zlen in *; lia | assumption]).
    rewrite np_take_ok with (d := zero) by assumption. cbn [bind].
    set (sp := map (fun i => nth (Z.to_nat i) (combine x w) (0, zero)) order).
    assert (Permutation sp (combine x w)) as HP.
    { unfold sp. destruct Ho as [Ho _]. rewrite (Permutation_map _ Ho). replace (length x) with (length (combine x w)) by (rewrite combine_length; lia).
      now rewrite map_nth_zseq. }
    assert (map (fun i => nth (Z.to_nat i) x 0) order = map fst sp) as Ex.
    { unfold sp. rewrite map_map. apply map_ext. intro i. rewrite combine_nth by assumption. reflexivity. }
    assert (map (fun i => nth (Z.to_nat i) w zero) order = map snd sp) as Ew.
    { unfold sp. rewrite map_map. apply map_ext. intro i. rewrite combine_nth by assumption. reflexivity. }
    assert (sorted ZOrd (map fst sp)) as Hs by (rewrite <- Ex; now apply is_argsort_sorted).
    rewrite Ex, Ew. unfold np_unique_index, np_unique. rewrite sort_id_of_sorted by assumption. rewrite !map_map. cbn [fst snd].
    destruct (rle_spec ZOrd (map fst sp) Hs) as [Hss Hin2].
    exists (map fst (rle ZOrd (map fst sp))). split; [|split].
    - f_equal. f_equal. rewrite map_map. apply map_ext_in. intros [v n] Hv. cbn [fst snd]. apply Hin2 in Hv. destruct Hv as [Hv ->].
      rewrite count_here. destruct (here_slice v sp Hs Hv) as [E _]. rewrite wsum_total. unfold h.
      replace (zslice (map snd sp) (first_index (map fst sp) v) (first_index (map fst sp) v + zlen (here v sp))) with (map snd (here v sp)).
      + apply total_perm. apply Permutation_map. unfold here. now apply filter_perm.
      + rewrite <- E at 1. unfold zslice. now rewrite skipn_map, firstn_map.
    - clear - Hss. induction Hss as [|p l _ IH Hf]; [constructor|]. cbn [map]. constructor; [|assumption]. intro Hin. apply in_map_iff in Hin. destruct Hin as (q & Hq & Hin).
      rewrite Forall_forall in Hf. specialize (Hf q Hin). unfold slt in Hf. rewrite Hq in Hf. cbv [ltb leb ZOrd] in Hf. lia.
    - intro v. assert (In v x <-> In v (map fst sp)) as ->.
      { rewrite <- Ex. pose proof (is_argsort_perm ZOrd x order 0 Ho) as HPx. split; apply Permutation_in; [now apply Permutation_sym | assumption]. }
      rewrite in_map_iff. split.
      + intros ([v' n] & <- & Hv). apply Hin2 in Hv. apply Hv.
      + intro Hv. exists (v, count_eq ZOrd v (map fst sp)). split; [reflexivity|]. apply Hin2. now split.
  Qed.
  Lemma h_none x w g : existsb (Z.eqb g) x = false -> h x w g = zero.
  Proof.
    intro H. unfold h, here. rewrite filter_none; [reflexivity|]. intros [i u] Hin. apply in_combine_l in Hin. cbn [fst].
    destruct (Z.eqb_spec i g) as [->|]; [|reflexivity]. exfalso. assert (existsb (Z.eqb g) x = true) as Hx by (apply existsb_exists; exists g; split; [assumption | lia]). congruence.
  Qed.

End Local.

Lemma amaxZ_spec l : (forall i, In i l -> i <= amaxZ l) /\ (l <> [] -> In (amaxZ l) l) /\ (l = [] -> amaxZ l = 0).
Proof.
  destruct l as [|x l]; [split; [intros i []|]; split; [congruence | reflexivity]|]. cbn [amaxZ].
  assert (forall l x, (forall i, i = x \/ In i l -> i <= fold_left Z.max l x) /\ (fold_left Z.max l x = x \/ In (fold_left Z.max l x) l)) as H.
  { clear. induction l as [|y l IH]; intro x; cbn [fold_left]; [split; [intros i [->|[]]; lia | now left]|].
    destruct (IH (Z.max x y)) as [H1 H2]. pose proof (H1 (Z.max x y) (or_introl eq_refl)). split.
    - intros i [->|[->|Hi]]; [lia | lia | apply H1; now right].
    - destruct H2 as [H2|H2]; [|right; now right]. rewrite H2. destruct (Z.max_spec x y) as [[_ ->]|[_ ->]]; [right; now left | now left]. }
  destruct (H l x) as [H1 H2]. split; [|split; [|congruence]].
  - intros i [->|Hi]; apply H1; auto.
  - intros _. destruct H2 as [->|H2]; [now left | now right].
Qed.

Lemma amax_global (x : list (list Z)) : Forall (Forall (fun i => 0 <= i)) x ->
  let m := amaxZ (map amaxZ x) in
  0 <= m /\ (forall i, In i (concat x) -> i <= m) /\ (In m (concat x) \/ m = 0).
Proof.
  intros Hx m. assert (forall l, In l x -> 0 <= amaxZ l) as H0.
  { intros l Hl. rewrite Forall_forall in Hx. specialize (Hx l Hl). rewrite Forall_forall in Hx.
    destruct (amaxZ_spec l) as (_ & H1 & H2). destruct l as [|y l]; [rewrite H2; [lia | reflexivity]|]. apply Hx, H1. congruence. }
  destruct (amaxZ_spec (map amaxZ x)) as (M1 & M2 & M3). fold m in M1, M2, M3.
  assert (x = [] \/ map amaxZ x <> []) as [Ex|Ex] by (destruct x; [now left | now right]).
  { rewrite Ex in M3 |- *. rewrite M3 by reflexivity. split; [lia|]. split; [intros i [] | now right]. }
  assert (In m (map amaxZ x)) as Hm by (now apply M2).
  apply in_map_iff in Hm. destruct Hm as (l & El & Hl). split; [rewrite <- El; now apply H0|]. split.
  - intros i Hi. apply in_concat in Hi. destruct Hi as (l' & Hl' & Hi). destruct (amaxZ_spec l') as (H1 & _). specialize (H1 i Hi).
    specialize (M1 (amaxZ l') (in_map amaxZ _ _ Hl')). lia.
  - destruct (amaxZ_spec l) as (_ & H1 & H2). destruct l as [|y l']; [right; rewrite <- El; now apply H2|]. left. rewrite <- El. apply in_concat.
    exists (y :: l'). split; [assumption|]. apply H1. congruence.
Qed.

Section Global.
  Context {W : Type}.
  Variables (add : W -> W -> W) (zero one : W).
  Hypothesis Hcomm : forall a b, add a b = add b a.
  Hypothesis Hassoc : forall a b c, add a (add b c) = add (add a b) c.
  Hypothesis Hunit : forall a, add a zero = a.
  Variables (junk : W) (sort1 sort2 : nat -> list Z -> list Z) (x : list (list Z)) (w : list (list W)).
  Hypothesis Hs1 : forall r l, is_argsort ZOrd l (sort1 r l).
  Hypothesis Hs2 : forall r l, is_argsort ZOrd l (sort2 r l).
  Hypothesis Hlay : layout x = layout w.
  Set Default Proof Using "All".

  Definition bincount_onto (start : list (list W)) : res (list (list W)) :=
    do bins <- mapM (fun r => local_bins add zero (nth r x []) (nth r w []) (sort1 r (nth r x []))) (seq 0 (length x));
    let unique_x := map fst bins in
    reduce_elements add junk (spmd (length x) (fun r => sort2 r (nth r unique_x []))) start (map snd bins) unique_x.

  Lemma bins_ok : exists ks, length ks = length x /\
    mapM (fun r => local_bins add zero (nth r x []) (nth r w []) (sort1 r (nth r x []))) (seq 0 (length x))
      = Ok (spmd (length x) (fun r => (nth r ks [], map (h add zero (nth r x []) (nth r w [])) (nth r ks [])))) /\
    forall r, (r < length x)%nat -> NoDup (nth r ks []) /\ forall v, In v (nth r ks []) <-> In v (nth r x []).
  Proof.
    assert (forall r, (r < length x)%nat -> exists ks, local_bins add zero (nth r x []) (nth r w []) (sort1 r (nth r x [])) = Ok (ks, map (h add zero (nth r x []) (nth r w [])) ks)
      /\ NoDup ks /\ forall v, In v ks <-> In v (nth r x [])) as H.
    { intros r Hr. apply local_bins_ok; auto. now apply layout_nth. }
    assert (exists f : nat -> list Z, forall r, (r < length x)%nat -> local_bins add zero (nth r x []) (nth r w []) (sort1 r (nth r x [])) = Ok (f r, map (h add zero (nth r x []) (nth r w [])) (f r))
      /\ NoDup (f r) /\ forall v, In v (f r) <-> In v (nth r x [])) as (f & Hf).
    { exists (fun r => match local_bins add zero (nth r x []) (nth r w []) (sort1 r (nth r x [])) with Ok p => fst p | Err _ => [] end).
      intros r Hr. destruct (H r Hr) as (ks & E & Hk). rewrite E. cbn [fst]. split; [reflexivity | exact Hk]. }
    exists (spmd (length x) f). split; [apply spmd_length|]. split.
    - apply mapM_seq_ok. intros r Hr. rewrite nth_spmd by assumption. apply Hf, Hr.
    - intros r Hr. rewrite nth_spmd by assumption. apply Hf, Hr.
  Qed.

  Lemma bincount_onto_ok start : length start = length x -> Forall (Forall (fun i => 0 <= i < total start)) x ->
    exists out, bincount_onto start = Ok out /\ layout out = layout start /\
      forall g a, global_at start g a -> global_at out g (add a (fold_right add zero (updates_for g x w))).
  Proof.
    intros Hl Hr. destruct bins_ok as (ks & K1 & K2 & K3). unfold bincount_onto. rewrite K2. cbn [bind]. cbv zeta.
    assert (map fst (spmd (length x) (fun r => (nth r ks [], map (h add zero (nth r x []) (nth r w [])) (nth r ks [])))) = ks) as E1.
    { rewrite map_spmd. cbn [fst]. rewrite <- K1. apply spmd_nth. }
    rewrite E1. rewrite map_spmd. cbn [snd]. set (us := spmd (length x) (fun r => map _ _)).
    assert (layout ks = layout us) as Hku.
    { unfold layout, us. rewrite map_spmd. rewrite <- (spmd_nth ks []) at 1. rewrite map_spmd, K1. apply spmd_ext. intros r Hr'. now rewrite map_length. }
    destruct (reduce_elements_commuting add junk (spmd (length x) (fun r => sort2 r (nth r ks []))) start us ks) as (out & O1 & O2 & O3).
    - congruence.
    - exact Hku.
    - clear - Hs2 K1. rewrite <- K1. rewrite <- (spmd_nth ks []) at 1. unfold spmd. generalize (seq 0 (length ks)) as l. induction l as [|r l IH]; cbn [map]; constructor; auto.
    - apply Forall_forall. intros l Hlk. apply Forall_forall. intros i Hi. apply In_nth with (d := []) in Hlk. destruct Hlk as (r & Hrk & <-). rewrite K1 in Hrk.
      apply (K3 r Hrk) in Hi. apply (nth_ranks _ _ Hr r i Hi).
    - intros a u v. now rewrite <- !Hassoc, (Hcomm u v).
    - exists out. split; [exact O1|]. split; [exact O2|]. intros g a Hg. specialize (O3 g a Hg). rewrite (fold_left_total add zero Hcomm Hassoc Hunit) in O3.
      replace (fold_right add zero (updates_for g x w)) with (fold_right add zero (updates_for g ks us)); [exact O3|].
      rewrite !updates_for_spmd by assumption. rewrite !(total_concat add zero Hcomm Hassoc Hunit), !map_spmd, K1. f_equal.
      apply spmd_ext. intros r Hr'. unfold us. rewrite nth_spmd by assumption. rewrite keys_filter by (now apply K3).
      assert (existsb (Z.eqb g) (nth r ks []) = existsb (Z.eqb g) (nth r x [])) as Eb.
      { destruct (existsb (Z.eqb g) (nth r x [])) eqn:B.
        - apply existsb_exists in B. destruct B as (v & V1 & V2). apply existsb_exists. exists v. split; [now apply (K3 r Hr') | assumption].
        - destruct (existsb (Z.eqb g) (nth r ks [])) eqn:B2; [|reflexivity]. apply existsb_exists in B2. destruct B2 as (v & V1 & V2).
          assert (existsb (Z.eqb g) (nth r x []) = true) as Hc by (apply existsb_exists; exists v; split; [now apply (K3 r Hr') | assumption]). congruence. }
      rewrite Eb. fold (here (W:=W) g (combine (nth r x []) (nth r w []))). fold (h add zero (nth r x []) (nth r w []) g).
      destruct (existsb (Z.eqb g) (nth r x [])) eqn:B; cbn [fold_right]; [apply Hunit|]. symmetry. now apply h_none.
  Qed.

  Lemma bincount_onto_rejects start i : length start = length x -> In i (concat x) -> ~ (0 <= i < total start) ->
    exists e, bincount_onto start = Err e.
  Proof.
    intros Hl Hi Hout. destruct bins_ok as (ks & K1 & K2 & K3). unfold bincount_onto. rewrite K2. cbn [bind]. cbv zeta.
    assert (map fst (spmd (length x) (fun r => (nth r ks [], map (h add zero (nth r x []) (nth r w [])) (nth r ks [])))) = ks) as E1.
    { rewrite map_spmd. cbn [fst]. rewrite <- K1. apply spmd_nth. }
    rewrite E1. rewrite map_spmd. cbn [snd]. set (us := spmd (length x) (fun r => map _ _)).
    assert (layout ks = layout us) as Hku.
    { unfold layout, us. rewrite map_spmd. rewrite <- (spmd_nth ks []) at 1. rewrite map_spmd, K1. apply spmd_ext. intros r Hr'. now rewrite map_length. }
    apply (reduce_elements_rejects add junk) with (i := i); [congruence | exact Hku | | | exact Hout].
    - clear - Hs2 K1. rewrite <- K1. rewrite <- (spmd_nth ks []) at 1. unfold spmd. generalize (seq 0 (length ks)) as l. induction l as [|r l IH]; cbn [map]; constructor; auto.
    - apply in_concat in Hi. destruct Hi as (l & Hlx & Hi). apply In_nth with (d := []) in Hlx. destruct Hlx as (r & Hr & <-).
      apply in_concat. exists (nth r ks []). split; [apply nth_In; lia | now apply (K3 r Hr)].
  Qed.
End Global.
