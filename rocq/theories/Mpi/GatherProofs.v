(** Proofs about gather_array. *)
From Verif.Base Require Import Prelude ListLemmas NdArray.
From Verif.Mpi Require Import CommModel CommProofs GatherModel GatherSpec.
From Coq Require Import ZifyBool ZifyNat.
Local Open Scope Z_scope.

Lemma write_at_junk {A} (p rest d : list A) : (length d <= length rest)%nat ->
  write_at (p ++ rest) (zlen p) d = (p ++ d) ++ skipn (length d) rest.
Proof.
  intro H. unfold write_at, zlen. rewrite Nat2Z.id. rewrite firstn_app, firstn_all, Nat.sub_diag. cbn [firstn]. rewrite app_nil_r.
  rewrite <- app_assoc. f_equal. f_equal. rewrite skipn_app. rewrite skipn_all2 by lia. cbn [app]. f_equal. lia.
Qed.
Lemma gatherv_ok {A} (out : list A) bufs counts displ :
  length counts = length bufs -> (forall r, (r < length bufs)%nat -> nth r counts 0 = zlen (nth r bufs [])) ->
  (forall r, (r < length bufs)%nat -> nth r displ 0 = zlen (concat (firstn r bufs))) -> length out = length (concat bufs) ->
  gatherv out bufs counts displ = Ok (concat bufs).
Proof.
  intros Hl Hc Hd Ho. unfold gatherv.
  replace (forallb _ _) with true.
  2:{ symmetry. apply forallb_forall. intros [b c] Hin. cbn [fst snd]. apply In_nth_error in Hin. destruct Hin as (r & Hr).
      assert (r < length (combine bufs counts))%nat as Hlt by (apply nth_error_Some; congruence). rewrite combine_length in Hlt.
      apply (nth_error_nth _ _ ([], 0)) in Hr. rewrite combine_nth in Hr by lia. injection Hr as <- <-. rewrite Hc by lia. lia. }
  f_equal.
  assert (forall n, (n <= length bufs)%nat -> exists rest, fold_left (fun buf r => write_at buf (nth r displ 0) (nth r bufs [])) (seq 0 n) out = concat (firstn n bufs) ++ rest /\ length (concat (firstn n bufs) ++ rest) = length out) as H.
  { induction n as [|n IH]; intro Hn; [exists out; split; reflexivity|]. destruct IH as (rest & I1 & I2); [lia|].
    rewrite seq_S, fold_left_app, I1. cbn [fold_left plus]. rewrite Hd by lia.
    assert (firstn (S n) bufs = firstn n bufs ++ [nth n bufs []]) as E.
    { rewrite <- (firstn_skipn n bufs) at 1. rewrite firstn_app. rewrite firstn_firstn, Nat.min_r by lia. rewrite firstn_length, Nat.min_l by lia. replace (S n - n)%nat with 1%nat by lia.
      f_equal. rewrite <- (firstn_skipn n bufs) at 2. rewrite app_nth2 by (rewrite firstn_length; lia). rewrite firstn_length, Nat.min_l, Nat.sub_diag by lia.
      destruct (skipn n bufs) eqn:Es; [|reflexivity]. apply (f_equal (@length _)) in Es. rewrite skipn_length in Es. cbn in Es. lia. }
    assert (length (concat (firstn (S n) bufs)) <= length (concat bufs))%nat as Hle.
    { rewrite <- (firstn_skipn (S n) bufs) at 2. rewrite concat_app, app_length. lia. }
    rewrite E, concat_app, app_length in Hle. cbn [concat] in Hle. rewrite app_nil_r in Hle. rewrite app_length in I2.
    exists (skipn (length (nth n bufs [])) rest). rewrite write_at_junk by lia. rewrite E, concat_app. cbn [concat]. rewrite app_nil_r. split; [reflexivity|].
    rewrite !app_length, skipn_length. lia. }
  destruct (H (length bufs) ltac:(lia)) as (rest & H1 & H2). rewrite H1. rewrite firstn_all in *. rewrite app_length in H2. destruct rest; [apply app_nil_r | cbn in H2; lia].
Qed.

Section Axis0.
  Context {A : Type} (s : list nat).
  (** arrays with trailing shape [s] *)
  Let good (a : nd A) := nd_ok a /\ exists n, shape a = n :: s.
  Let n0 (a : nd A) := extent 0 a.
  Set Default Proof Using "All".
  Lemma good_shape a : good a -> shape a = n0 a :: s.
  Proof. intros [_ [n Hn]]. unfold n0, extent. now rewrite Hn. Qed.
  Lemma good_len a : good a -> length (data a) = (n0 a * nelem s)%nat.
  Proof. intros H. pose proof (good_shape a H) as Hs. destruct H as [H _]. unfold nd_ok in H. rewrite Hs in H. exact H. Qed.
  Lemma concat_len l : Forall good l -> length (concat (map data l)) = (extent_before 0 l (length l) * nelem s)%nat.
  Proof.
    unfold extent_before. rewrite firstn_all. induction 1 as [|a l Ha Hl IH]; [reflexivity|]. cbn [map concat fold_right]. rewrite app_length, IH, good_len by assumption. unfold n0. nia.
  Qed.
  Lemma concat_at l r a i j : Forall good l -> nth_error l r = Some a -> (i < n0 a)%nat -> (j < nelem s)%nat ->
    nth_error (concat (map data l)) ((extent_before 0 l r + i) * nelem s + j) = nth_error (data a) (i * nelem s + j).
  Proof.
    intro Hl. revert r. induction Hl as [|b l Hb Hl IH]; intros r Hr Hi Hj; [destruct r; discriminate|]. cbn [map concat].
    destruct r as [|r].
    - injection Hr as ->. unfold extent_before. cbn [firstn map fold_right plus]. apply nth_error_app1. rewrite good_len by assumption. nia.
    - cbn [nth_error] in Hr. unfold extent_before. cbn [firstn map fold_right]. fold (extent_before 0 l r). fold (n0 b). rewrite nth_error_app2 by (rewrite good_len by assumption; nia).
      rewrite good_len by assumption. rewrite <- (IH r Hr Hi Hj). f_equal. nia.
  Qed.
  Lemma find_row l I : (I < extent_before 0 l (length l))%nat -> exists r a i, nth_error l r = Some a /\ (i < n0 a)%nat /\ I = (extent_before 0 l r + i)%nat.
  Proof.
    unfold extent_before. revert I. induction l as [|a l IH]; intros I H; cbn [length firstn map fold_right] in H; [lia|].
    destruct (Nat.lt_ge_cases I (n0 a)) as [Hlt|Hge].
    - exists 0%nat, a, I. now repeat split.
    - destruct (IH (I - n0 a)%nat) as (r & b & i & R1 & R2 & R3); [unfold n0 in *; lia|]. exists (S r), b, i. repeat split; [assumption..|].
      cbn [firstn map fold_right]. fold (n0 a). lia.
  Qed.
  Lemma concatenation0 l : Forall good l -> concatenation 0 l {| shape := extent_before 0 l (length l) :: s; data := concat (map data l) |}.
  Proof.
    intro Hl. assert (forall r a, nth_error l r = Some a -> good a) as Hg by (intros r a Hr; apply nth_error_In in Hr; rewrite Forall_forall in Hl; now apply Hl).
    repeat split.
    - unfold nd_ok. cbn [data shape nelem]. now apply concat_len.
    - intros a Ha. rewrite Forall_forall in Hl. rewrite (good_shape a) by (now apply Hl). reflexivity.
    - intros. destruct H0 as [H1 H2]. rewrite (good_shape a) in H1 by (now apply (Hg r)). inversion H1 as [|i m t ? Hi Ht]; subst. cbn [shape upd]. constructor; [|assumption].
      assert (forall l r a, nth_error l r = Some a -> (extent_before 0 l r + n0 a <= extent_before 0 l (length l))%nat) as HH.
      { clear. unfold extent_before. induction l as [|b l IH]; intros [|r] a H; try discriminate; cbn [nth_error length firstn map fold_right] in *.
        - injection H as ->. fold (n0 a). lia.
        - specialize (IH r a H). lia. }
      specialize (HH l r a H). lia.
    - destruct H0 as [H1 H2]. rewrite (good_shape a) in H1, H2 by (now apply (Hg r)). inversion H1 as [|i m t ? Hi Ht]; subst. cbn [shape upd data ravel] in *.
      rewrite concat_at with (a := a); [assumption.. | now apply ravel_lt].
    - intros idx x [H1 H2]. cbn [shape data] in *. inversion H1 as [|I m t ? HI Ht]; subst. destruct (find_row l I HI) as (r & a & i & R1 & R2 & ->).
      exists r, a, (i :: t). split; [assumption|]. split; [|reflexivity]. cbn [ravel] in H2. rewrite (concat_at l r a) in H2; [|assumption..|now apply ravel_lt].
      split; rewrite (good_shape a) by (now apply (Hg r)); [now constructor | exact H2].
  Qed.
End Axis0.

(** *** any axis *)
Definition swapped {A} (k : nat) (a p : nd A) : Prop :=
  nd_ok p /\ shape p = swap0 k (shape a) /\ forall idx x, nd_at p (swap0 k idx) x <-> nd_at a idx x.
Lemma swapped_0 {A} (a : nd A) : nd_ok a -> swapped 0 a a.
Proof. intro H. split; [assumption|]. split; [reflexivity|]. intros idx x. reflexivity. Qed.
Lemma swapped_axes {A} (a : nd A) k : nd_ok a -> (k < length (shape a))%nat -> swapped k a (swapaxes k a).
Proof. intros H Hk. split; [now apply swapaxes_ok|]. split; [reflexivity|]. intros idx x. now apply swapaxes_at. Qed.
Lemma nd_at_len {A} (a : nd A) idx x : nd_at a idx x -> length idx = length (shape a).
Proof. intros [H _]. apply Forall2_nth_iff in H. apply H. Qed.

Section AnyAxis.
  Context {A : Type} (k n : nat).
  Hypothesis Hk : (k < n)%nat.
  Set Default Proof Using "All".
  Lemma extent_swapped (a p : nd A) : length (shape a) = n -> swapped k a p -> extent 0 p = extent k a.
  Proof.
    intros Hn (_ & Hs & _). unfold extent. rewrite Hs. pose proof (nth_error_swap0 k (shape a) 0 ltac:(lia)) as H. cbn [Nat.eqb] in H.
    rewrite (nth_error_nth' _ 0%nat) in H by (rewrite swap0_length; lia). rewrite (nth_error_nth' _ 0%nat) in H by lia. now injection H.
  Qed.
  Lemma extent_before_swapped (l ps : list (nd A)) r : Forall (fun a => length (shape a) = n) l -> Forall2 (swapped k) l ps ->
    extent_before 0 ps r = extent_before k l r.
  Proof.
    intros Hn H. unfold extent_before. revert r Hn. induction H as [|a p l ps Hap H IH]; intros [|r] Hn; try reflexivity. apply Forall_cons_iff in Hn. destruct Hn as [Ha Hl]. cbn [firstn map fold_right].
    rewrite (extent_swapped a p) by assumption. f_equal. now apply IH.
  Qed.
  Lemma Forall2_at {B C} (R : B -> C -> Prop) l m r : Forall2 R l m -> (forall b, nth_error l r = Some b -> exists c, nth_error m r = Some c /\ R b c) /\ (forall c, nth_error m r = Some c -> exists b, nth_error l r = Some b /\ R b c).
  Proof using Type.
    intro H. revert r. induction H as [|b c l m Hbc H IH]; intros [|r]; split; intros ? E; try discriminate; cbn [nth_error] in *.
    - injection E as <-. now exists c.
    - injection E as <-. now exists b.
    - now apply (proj1 (IH r)).
    - now apply (proj2 (IH r)).
  Qed.
  Lemma concatenation_swapped (l ps : list (nd A)) out res : l <> [] -> Forall (fun a => length (shape a) = n) l -> Forall2 (swapped k) l ps ->
    concatenation 0 ps out -> swapped k out res -> concatenation k l res.
  Proof.
    intros Hne Hn H2 (C1 & C2 & C3 & C4) (R1 & R2 & R3). pose proof Hn as Hn'. rewrite Forall_forall in Hn'.
    assert (length ps = length l) as Hlen by (apply Forall2_nth_iff in H2; symmetry; apply H2).
    assert (forall a, In a l -> shape out = upd 0 (fun _ => extent_before k l (length l)) (swap0 k (shape a))) as Hso.
    { intros a Ha. apply In_nth_error in Ha. destruct Ha as (r & Hr). destruct (proj1 (Forall2_at _ l ps r H2) a Hr) as (p & P1 & (_ & P2 & _)).
      rewrite (C2 p) by (now apply nth_error_In in P1). rewrite (extent_before_swapped l ps) by assumption. rewrite Hlen. now rewrite P2. }
    assert (length (shape out) = n) as Hno.
    { destruct l as [|a l]; [contradiction|]. rewrite (Hso a) by (now left). rewrite upd_length, swap0_length. apply Hn'. now left. }
    refine (conj R1 (conj _ (conj _ _))).
    - intros a Ha. rewrite R2, (Hso a Ha). rewrite <- swap0_upd by (rewrite Hn' by assumption; assumption). apply swap0_invol. rewrite upd_length, Hn' by assumption. assumption.
    - intros r a idx x Hr Hat. destruct (proj1 (Forall2_at _ l ps r H2) a Hr) as (p & P1 & P2 & P3 & P4). assert (length (shape a) = n) as Ha by (apply Hn'; now apply nth_error_In in Hr).
      pose proof (nd_at_len _ _ _ Hat) as Hi. apply P4 in Hat. apply (C3 r p) in Hat; [|assumption]. rewrite (extent_before_swapped l ps) in Hat by assumption.
      rewrite <- swap0_upd in Hat by lia. apply R3 in Hat. rewrite swap0_invol in Hat by (rewrite upd_length; lia). exact Hat.
    - intros idx x Hat. pose proof (nd_at_len _ _ _ Hat) as Hi. rewrite R2, swap0_length in Hi. rewrite <- (swap0_invol k idx) in Hat by lia. apply R3 in Hat.
      apply C4 in Hat. destruct Hat as (r & p & idx' & Hr & Hp & E). destruct (proj2 (Forall2_at _ l ps r H2) p Hr) as (a & P1 & P2 & P3 & P4).
      assert (length (shape a) = n) as Ha by (apply Hn'; now apply nth_error_In in P1).
      pose proof (nd_at_len _ _ _ Hp) as Hi'. rewrite P3, swap0_length in Hi'. rewrite <- (swap0_invol k idx') in Hp by lia. apply P4 in Hp.
      exists r, a, (swap0 k idx'). split; [assumption|]. split; [assumption|]. rewrite (extent_before_swapped l ps) in E by assumption.
      rewrite <- (swap0_invol k idx) by lia. rewrite E. rewrite <- (swap0_invol k idx') at 1 by lia. rewrite <- swap0_upd by (rewrite swap0_length; lia).
      apply swap0_invol. rewrite upd_length, swap0_length. lia.
  Qed.
End AnyAxis.

Lemma mapM_index {B C} (f : B -> res C) l : forall (Q : nat -> C -> Prop),
  (forall q p, nth_error l q = Some p -> exists o, f p = Ok o /\ Q q o) ->
  exists outs, mapM f l = Ok outs /\ length outs = length l /\ forall q o, nth_error outs q = Some o -> Q q o.
Proof.
  induction l as [|x l IH]; intros Q Hf.
  - exists []. split; [reflexivity|]. split; [reflexivity|]. intros [|q] o; discriminate.
  - destruct (Hf 0%nat x eq_refl) as (o & F1 & F2). destruct (IH (fun q => Q (S q)) (fun q p Hq => Hf (S q) p Hq)) as (outs & O1 & O2 & O3).
    exists (o :: outs). cbn [mapM]. rewrite F1. cbn [bind]. rewrite O1. split; [reflexivity|]. split; [cbn; now rewrite O2|].
    intros [|q] o' Ho; [injection Ho as <-; exact F2 | now apply O3].
Qed.

Section Main.
  Context {A : Type} (junk : A) (axis : Z) (arrs : list (nd A)) (n k : nat).
  Hypothesis Hne : arrs <> [].
  Hypothesis Hok : Forall nd_ok arrs.
  Hypothesis Hn : Forall (fun a => length (shape a) = n) arrs.
  Hypothesis Hn1 : (0 < n)%nat.
  Hypothesis Hax : - Z.of_nat n <= axis < Z.of_nat n.
  Hypothesis Hkdef : Z.of_nat k = if axis <? 0 then axis + Z.of_nat n else axis.
  Hypothesis Hsame : forall a b, In a arrs -> In b arrs -> upd k (fun _ => 0%nat) (shape a) = upd k (fun _ => 0%nat) (shape b).
  Set Default Proof Using "All".

  Lemma k_lt : (k < n)%nat. Proof. destruct (Z.ltb_spec axis 0); lia. Qed.
  Definition unswap (a : nd A) : nd A := if axis =? 0 then a else swapaxes (Z.to_nat (if axis <? 0 then axis + zlen (shape a) else axis)) a.
  Lemma unswap_ok a : nd_ok a -> length (shape a) = n -> swapped k a (unswap a).
  Proof.
    intros H1 H2. unfold unswap. destruct (Z.eqb_spec axis 0) as [H|H].
    - assert (k = 0%nat) as -> by (destruct (Z.ltb_spec axis 0); lia). now apply swapped_0.
    - unfold zlen. rewrite H2. replace (Z.to_nat _) with k by lia. apply swapped_axes; [assumption|]. rewrite H2. apply k_lt.
  Qed.
  Lemma prepare_ok a : length (shape a) = n -> prepare axis a = Ok (unswap a).
  Proof.
    intro H2. unfold prepare, unswap. destruct (Z.eqb_spec axis 0) as [H|H].
    - destruct (shape a); [cbn in H2; lia | reflexivity].
    - unfold zlen. rewrite H2. destruct (Z.ltb_spec axis (- Z.of_nat n)), (Z.leb_spec (Z.of_nat n) axis); try lia. reflexivity.
  Qed.
  Definition ps := map unswap arrs.
  Lemma ps_swapped : Forall2 (swapped k) arrs ps.
  Proof.
    unfold ps. assert (forall l, Forall nd_ok l -> Forall (fun a => length (shape a) = n) l -> Forall2 (swapped k) l (map unswap l)) as H; [|now apply H].
    induction l as [|a l IH]; intros H1 H2; cbn [map]; constructor.
    - apply Forall_cons_iff in H1, H2. destruct H1, H2. now apply unswap_ok.
    - apply Forall_cons_iff in H1, H2. destruct H1, H2. now apply IH.
  Qed.
  Lemma prepare_all : mapM (prepare axis) arrs = Ok ps.
  Proof. unfold ps. apply mapM_map_ok. intros a Ha. apply prepare_ok. rewrite Forall_forall in Hn. now apply Hn. Qed.

  (** common trailing shape *)
  Lemma common : exists s, forall p, In p ps -> nd_ok p /\ shape p = extent 0 p :: s.
  Proof.
    pose proof k_lt as Hk. destruct arrs as [|a0 l] eqn:E; [contradiction|]. rewrite <- E in *. assert (In a0 arrs) as H0 by (rewrite E; now left). clear E l.
    assert (forall a, In a arrs -> length (shape a) = n) as Hn' by (now apply Forall_forall).
    assert (forall a, In a arrs -> nd_ok a) as Hok' by (now apply Forall_forall).
    exists (tl (swap0 k (shape a0))). intros p Hp. unfold ps in Hp. apply in_map_iff in Hp. destruct Hp as (a & <- & Ha).
    destruct (unswap_ok a (Hok' a Ha) (Hn' a Ha)) as (U1 & U2 & U3). split; [assumption|]. unfold extent. rewrite U2.
    specialize (Hsame a a0 Ha H0). apply (f_equal (swap0 k)) in Hsame. rewrite !swap0_upd in Hsame by (rewrite Hn' by assumption; assumption).
    pose proof (swap0_length k (shape a)) as L1. pose proof (swap0_length k (shape a0)) as L2. rewrite Hn' in L1, L2 by assumption.
    destruct (swap0 k (shape a)) as [|x s1], (swap0 k (shape a0)) as [|y s2]; cbn in L1, L2; try lia. cbn [upd] in Hsame. injection Hsame as ->. reflexivity.
  Qed.

  Lemma gather_on_ok p : In p ps -> exists out, gather_on junk axis ps p = Ok out /\ concatenation k arrs out.
  Proof.
    intro Hp. destruct common as (s & Hs). pose proof k_lt as Hk. unfold gather_on.
    rewrite (mapM_map_ok _ (fun q => Z.of_nat (extent 0 q))) by (intros q Hq; destruct (Hs q Hq) as [_ E]; rewrite E; reflexivity). cbn [bind].
    destruct (Hs p Hp) as [_ Ep]. rewrite Ep. cbn [tl].
    assert (Forall (fun a => nd_ok a /\ exists m, shape a = m :: s) ps) as Hgood.
    { apply Forall_forall. intros q Hq. destruct (Hs q Hq) as [Q1 Q2]. split; [assumption|]. now exists (extent 0 q). }
    assert (forall l, sumZ (map (fun q => Z.of_nat (extent 0 q)) l) = Z.of_nat (extent_before (A := A) 0 l (length l))) as Hsum.
    { clear. unfold extent_before. induction l as [|q l IH]; [reflexivity|]. cbn [map sumZ length firstn fold_right]. rewrite IH. lia. }
    rewrite Hsum, Nat2Z.id.
    rewrite gatherv_ok.
    - cbn [bind]. eexists. split; [reflexivity|]. apply (concatenation_swapped k n Hk arrs ps {| shape := extent_before 0 ps (length ps) :: s; data := concat (map data ps) |}); try assumption.
      + apply ps_swapped.
      + now apply concatenation0.
      + apply unswap_ok; [now apply concatenation0|]. cbn [shape length].
        assert (length (shape p) = n) as Hl; [|rewrite Ep in Hl; exact Hl].
        unfold ps in Hp. apply in_map_iff in Hp. destruct Hp as (a & <- & Ha). assert (length (shape a) = n) as Hla by (rewrite Forall_forall in Hn; now apply Hn).
        destruct (unswap_ok a ltac:(rewrite Forall_forall in Hok; now apply Hok) Hla) as (_ & U2 & _). now rewrite U2, swap0_length.
    - unfold scale. now rewrite !map_length.
    - intros r Hr. rewrite map_length in Hr. unfold scale. rewrite nth_map_dflt with (d' := 0) by (now rewrite map_length).
      rewrite nth_map_dflt with (d' := p) by assumption. rewrite nth_map_dflt with (d' := p) by assumption. unfold zlen.
      rewrite (good_len s) by (rewrite Forall_forall in Hgood; apply Hgood; now apply nth_In). lia.
    - intros r Hr. rewrite map_length in Hr. unfold scale. rewrite nth_map_dflt with (d' := 0) by (now rewrite excl_cumsum_length, map_length).
      rewrite nth_excl_cumsum by (now rewrite map_length). rewrite firstn_map, Hsum. unfold zlen. rewrite firstn_map.
      rewrite (concat_len s) by (apply Forall_forall; intros q Hq; rewrite Forall_forall in Hgood; apply Hgood; rewrite <- (firstn_skipn r ps); apply in_or_app; now left). lia.
    - rewrite repeat_length. cbn [nelem]. now rewrite (concat_len s).
  Qed.

  Lemma gather_array_ok root : (match root with Some q => q < length arrs | None => True end)%nat ->
    exists outs, gather_array junk root axis arrs = Ok outs /\ length outs = length arrs /\
      forall q o, nth_error outs q = Some o ->
        if match root with Some r => (q =? r)%nat | None => true end
        then exists out, o = Some out /\ concatenation k arrs out else o = None.
  Proof.
    intro Hroot. unfold gather_array. rewrite prepare_all. cbn [bind].
    replace (check _ _) with (@Ok unit tt) by (destruct root as [q|]; [|reflexivity]; unfold check; now rewrite (proj2 (Nat.ltb_lt _ _) Hroot)). cbn [bind].
    set (f := fun qd : nat * nd A => _).
    assert (length ps = length arrs) as Hlen by (unfold ps; apply map_length).
    assert (forall q p, nth_error (combine (seq 0 (length arrs)) ps) q = Some p -> exists o, f p = Ok o /\
      if match root with Some r => (q =? r)%nat | None => true end then exists out, o = Some out /\ concatenation k arrs out else o = None) as Hf.
    { intros q [q' p] Hq. assert (q' = q /\ In p ps) as [-> Hp].
      { assert (q < length (combine (seq 0 (length arrs)) ps))%nat as Hlt by (apply nth_error_Some; congruence). rewrite combine_length, seq_length in Hlt.
        apply (nth_error_nth _ _ (0%nat, p)) in Hq. rewrite combine_nth in Hq by (rewrite seq_length; lia). injection Hq as E1 E2. rewrite seq_nth in E1 by lia. split; [symmetry; exact E1|]. rewrite <- E2. apply nth_In. lia. }
      unfold f. destruct (gather_on_ok p Hp) as (out & G1 & G2). destruct root as [r|].
      - destruct (q =? r)%nat; [rewrite G1; cbn [bind]; eexists; split; [reflexivity|]; now exists out | now exists None].
      - rewrite G1. cbn [bind]. eexists; split; [reflexivity|]. now exists out. }
    assert (length (combine (seq 0 (length arrs)) ps) = length arrs) as Hcl by (rewrite combine_length, seq_length; lia).
    destruct (mapM_index f (combine (seq 0 (length arrs)) ps) _ Hf) as (outs & O1 & O2 & O3). exists outs. split; [exact O1|]. split; [congruence|]. exact O3.
  Qed.
End Main.
