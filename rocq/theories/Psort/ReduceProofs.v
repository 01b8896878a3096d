(** Proofs about reduce_elements. *)
From Coq Require Import QArith.
From Verif.Base Require Import Prelude ListLemmas Order.
From Verif.Mpi Require Import CommModel CommProofs CutProofs.
From Verif.Psort Require Import MoveModel MoveProofs FetchProofs SortProofs ReduceModel.
From Coq Require Import ZifyBool ZifyNat.
Local Open Scope Z_scope.

Lemma filter_none {B} (p : B -> bool) l : (forall x, In x l -> p x = false) -> filter p l = [].
Proof.
  induction l as [|x l IH]; intro H; [reflexivity|]. cbn [filter]. rewrite H by (now left). apply IH. intros; apply H; now right.
Qed.
Lemma filter_all {B} (p : B -> bool) l : (forall x, In x l -> p x = true) -> filter p l = l.
Proof.
  induction l as [|x l IH]; intro H; [reflexivity|]. cbn [filter]. rewrite H by (now left). f_equal. apply IH. intros; apply H; now right.
Qed.
Lemma filter_concat {B} (p : B -> bool) (d : list (list B)) : filter p (concat d) = concat (map (filter p) d).
Proof. induction d as [|l d IH]; [reflexivity|]. cbn [concat map]. now rewrite filter_app, IH. Qed.
Lemma filter_perm {B} (p : B -> bool) l m : Permutation l m -> Permutation (filter p l) (filter p m).
Proof.
  induction 1; cbn [filter]; auto.
  - destruct (p x); auto.
  - destruct (p x), (p y); auto using perm_swap, Permutation_refl.
  - eapply Permutation_trans; eauto.
Qed.
Lemma filter_concat_one {B} (p : B -> bool) n (f : nat -> list B) j : (j < n)%nat ->
  (forall i x, (i < n)%nat -> In x (f i) -> p x = true -> i = j) -> filter p (concat (spmd n f)) = filter p (f j).
Proof.
  intros Hj H. unfold spmd. replace n with (j + (1 + (n - S j)))%nat by lia. rewrite !seq_app, !map_app, !concat_app, !filter_app.
  cbn [seq map concat Nat.add]. rewrite app_nil_r.
  rewrite (filter_none p (concat (map f (seq 0 j)))), (filter_none p (concat (map f (seq _ (n - S j))))).
  - cbn [app]. now rewrite app_nil_r.
  - intros x Hx. apply in_concat in Hx. destruct Hx as (l & Hl & Hx). apply in_map_iff in Hl. destruct Hl as (i & <- & Hi). apply in_seq in Hi.
    destruct (p x) eqn:E; [|reflexivity]. specialize (H i x ltac:(lia) Hx E). lia.
  - intros x Hx. apply in_concat in Hx. destruct Hx as (l & Hl & Hx). apply in_map_iff in Hl. destruct Hl as (i & <- & Hi). apply in_seq in Hi.
    destruct (p x) eqn:E; [|reflexivity]. specialize (H i x ltac:(lia) Hx E). lia.
Qed.
Lemma combine_map_fst_snd {B C} (l : list (B * C)) : combine (map fst l) (map snd l) = l.
Proof. induction l as [|[x y] l IH]; [reflexivity|]. cbn. now rewrite IH. Qed.

Section At.
  Context {A B : Type} (op : A -> B -> A).
  Lemma nth_error_set_nth {C} (l : list C) i x k : (i < length l)%nat ->
    nth_error (set_nth l i x) k = if (k =? i)%nat then Some x else nth_error l k.
  Proof.
    revert i k; induction l as [|y l IH]; intros i k H; [cbn in H; lia|]. destruct i as [|i], k as [|k]; cbn [set_nth nth_error Nat.eqb]; try reflexivity.
    apply IH. cbn in H. lia.
  Qed.
  Lemma ufunc_at_ok upd : forall (arr : list A), (forall j u, In (j, u) upd -> 0 <= j < zlen arr) ->
    exists out, ufunc_at op arr upd = Ok out /\ length out = length arr /\
      forall k a, nth_error arr k = Some a ->
        nth_error out k = Some (fold_left op (map snd (filter (fun p => fst p =? Z.of_nat k) upd)) a).
  Proof.
    induction upd as [|[j u] upd IH]; intros arr H.
    - exists arr. split; [reflexivity|]. split; [reflexivity|]. intros k a Hk. exact Hk.
    - pose proof (H j u (or_introl eq_refl)) as Hj. unfold zlen in Hj.
      destruct (nth_error arr (Z.to_nat j)) as [a0|] eqn:Ea; [|apply nth_error_None in Ea; lia].
      cbn [ufunc_at]. rewrite py_nth_ok with (d := a0) by (unfold zlen; lia). cbn [bind]. rewrite (nth_error_nth _ _ a0 Ea).
      destruct (Z.ltb_spec j 0); [lia|].
      destruct (IH (set_nth arr (Z.to_nat j) (op a0 u))) as (out & E1 & E2 & E3).
      + intros j' u' Hin. unfold zlen. rewrite set_nth_length. apply (H j' u'). now right.
      + rewrite set_nth_length in *. exists out. split; [exact E1|]. split; [exact E2|].
        intros k a Hk. cbn [filter fst]. destruct (Z.eqb_spec j (Z.of_nat k)) as [Ej|Ej].
        * cbn [map fold_left snd]. apply E3. rewrite nth_error_set_nth by lia.
          replace (k =? Z.to_nat j)%nat with true by (symmetry; apply Nat.eqb_eq; lia).
          replace (Z.to_nat j) with k in Ea by lia. congruence.
        * apply E3. rewrite nth_error_set_nth by lia. replace (k =? Z.to_nat j)%nat with false by (symmetry; apply Nat.eqb_neq; lia). exact Hk.
  Qed.
  Lemma ufunc_at_err upd : forall (arr : list A) j u, In (j, u) upd -> (forall i v, In (i, v) upd -> 0 <= i) ->
    zlen arr <= j -> ufunc_at op arr upd = Err EIndex.
  Proof.
    induction upd as [|[i v] upd IH]; intros arr j u Hin Hnn Hj; [destruct Hin|].
    cbn [ufunc_at]. destruct (py_nth arr i) as [a|e] eqn:E; cbn [bind]; [|apply py_nth_err in E; congruence].
    destruct Hin as [H|H].
    - injection H as -> ->. exfalso. unfold py_nth in E. pose proof (zlen_nonneg arr). destruct (Z.ltb_spec j 0); [lia|].
      destruct ((_ <? 0) || _) eqn:E'; [discriminate | lia].
    - apply (IH _ j u); auto; [intros; eapply Hnn; right; eassumption|]. unfold zlen in *. now rewrite set_nth_length.
  Qed.
End At.

Section ReduceP.
  Context {A B : Type} (op : A -> B -> A) (arr : list (list A)) (updates : list (list B)) (index orders : list (list Z)).
  Variable db : B.
  Let P := length arr.
  Let N := zlen (concat arr).
  Let F k := goff (nperproc arr) k.
  Hypothesis Hlen : forall r, (r < P)%nat -> length (nth r index []) = length (nth r updates []).
  Hypothesis Hord : forall r, (r < P)%nat -> is_argsort ZOrd (nth r index []) (nth r orders []).
  Set Default Proof Using "All".

  Definition pairs (r : nat) : list (Z * B) := combine (nth r index []) (nth r updates []).
  Definition spairs (r : nat) : list (Z * B) := map (fun i => nth (Z.to_nat i) (pairs r) (0, db)) (nth r orders []).

  Lemma map_fst_pairs r : (r < P)%nat -> map fst (pairs r) = nth r index [].
  Proof. intro Hr. unfold pairs. now rewrite map_fst_combine' by auto. Qed.
  Lemma map_snd_pairs r : (r < P)%nat -> map snd (pairs r) = nth r updates [].
  Proof. intro Hr. unfold pairs. now rewrite map_snd_combine' by auto. Qed.
  Lemma len_pairs r : (r < P)%nat -> length (pairs r) = length (nth r index []).
  Proof. intro Hr. rewrite <- (map_fst_pairs r Hr). now rewrite map_length. Qed.
  Lemma spairs_perm r : (r < P)%nat -> Permutation (spairs r) (pairs r).
  Proof.
    intro Hr. unfold spairs. destruct (Hord r Hr) as [HP _].
    rewrite (Permutation_map _ HP), <- len_pairs by assumption. now rewrite map_nth_zseq.
  Qed.
  Lemma take_pairs {C} (f : Z * B -> C) l r : (r < P)%nat -> l = map f (pairs r) ->
    np_take l (nth r orders []) = Ok (map f (spairs r)).
  Proof.
    intros Hr ->. rewrite np_take_ok with (d := f (0, db)).
    - unfold spairs. rewrite map_map. f_equal. apply map_ext. intro i. now rewrite map_nth.
    - intros i Hi. rewrite zlen_map. unfold zlen. rewrite len_pairs by assumption.
      exact (is_argsort_In _ _ _ _ (Hord r Hr) Hi).
  Qed.
  Lemma spairs_sorted r : (r < P)%nat -> sorted ZOrd (map fst (spairs r)).
  Proof.
    intro Hr. pose proof (is_argsort_sorted ZOrd _ _ 0 (Hord r Hr)) as H. unfold spairs. rewrite map_map.
    erewrite map_ext; [exact H|]. intro i. cbn beta. rewrite <- (map_fst_pairs r Hr). symmetry. exact (map_nth fst (pairs r) (0, db) (Z.to_nat i)).
  Qed.
  Definition ucut (r k : nat) : Z := if (k =? P)%nat then zlen (spairs r) else count_lt ZOrd (F k) (map fst (spairs r)).

  Lemma ucut_counts r : (r < P)%nat ->
    reduce_counts (excl_cumsum (nperproc arr)) (map fst (spairs r)) = spmd P (fun k => ucut r (S k) - ucut r k).
  Proof.
    intro Hr. unfold reduce_counts.
    set (so := map (searchsorted_left ZOrd (map fst (spairs r))) (excl_cumsum (nperproc arr))).
    assert (length so = P) as Hso by (unfold so; now rewrite map_length, excl_cumsum_length, nperproc_length).
    assert (forall k, (k < P)%nat -> nth k so 0 = ucut r k) as Hk.
    { intros k Hk. unfold so. rewrite nth_map_dflt with (d' := 0) by (rewrite excl_cumsum_length, nperproc_length; exact Hk).
      rewrite nth_excl_goff by (rewrite nperproc_length; exact Hk). rewrite ssl_count by (now apply spairs_sorted).
      unfold ucut. destruct (Nat.eqb_spec k P); [lia|]. reflexivity. }
    apply list_ext_nth with (d := 0).
    - rewrite zipwith_length, app_length, spmd_length. cbn [length]. destruct so; cbn [tl length] in *; lia.
    - intros k Hk'. rewrite zipwith_length in Hk'.
      assert (k < P)%nat as HkP by lia. rewrite nth_spmd by assumption.
      rewrite nth_zipwith with (da := 0) (db := 0) by lia. rewrite (Hk k HkP). f_equal.
      assert (length (tl so) = P - 1)%nat as Ht by (destruct so; cbn [tl length] in *; lia).
      destruct (Nat.eq_dec (S k) P) as [E|E].
      + rewrite app_nth2 by lia. rewrite Ht. replace (k - (P - 1))%nat with 0%nat by lia. cbn [nth].
        unfold ucut. rewrite E, Nat.eqb_refl. apply zlen_map.
      + rewrite app_nth1 by lia. rewrite nth_tl. apply Hk. lia.
  Qed.

  Lemma reduce_elements_negative junk r i : (r < P)%nat -> In i (nth r index []) -> i < 0 ->
    reduce_elements op junk orders arr updates index = Err EAssert.
  Proof.
    intros Hr Hi Hneg. unfold reduce_elements. fold P.
    assert (forallb (fun r => length (nth r index []) =? length (nth r updates []))%nat (seq 0 P) = true) as ->.
    { apply forallb_forall. intros q Hq. apply in_seq in Hq. apply Nat.eqb_eq. apply Hlen. lia. }
    cbn [check bind].
    rewrite (mapM_seq_ok _ (fun r => map fst (spairs r))) by (intros q Hq; apply take_pairs; [assumption | symmetry; now apply map_fst_pairs]).
    cbn [bind].
    rewrite (mapM_seq_ok _ (fun r => map snd (spairs r))) by (intros q Hq; apply take_pairs; [assumption | symmetry; now apply map_snd_pairs]).
    cbn [bind]. rewrite map_spmd.
    rewrite (spmd_ext P (fun r => reduce_counts _ _) (fun r => spmd P (fun k => ucut r (S k) - ucut r k))) by (intros; now apply ucut_counts).
    destruct (forallb _ _) eqn:E; [exfalso | reflexivity].
    rewrite forallb_forall in E. specialize (E r ltac:(apply in_seq; lia)). rewrite !nth_spmd, (sumZ_telescope (ucut r)), zlen_map in E by assumption.
    assert (ucut r P = zlen (spairs r)) as E1 by (unfold ucut; now rewrite Nat.eqb_refl).
    assert (0 < ucut r 0) as E2; [|lia].
    unfold ucut. destruct (Nat.eqb_spec 0 P); [lia|]. apply count_pos with i.
    - rewrite <- (map_fst_pairs r Hr) in Hi. apply in_map_iff in Hi. destruct Hi as (p & <- & Hp). apply in_map.
      now apply (Permutation_in _ (Permutation_sym (spairs_perm r Hr))).
    - unfold F. rewrite goff_0. unfold ltb. cbn [leb ZOrd]. lia.
  Qed.

  Hypothesis Hpos : forall r i, (r < P)%nat -> In i (nth r index []) -> 0 <= i.
  Lemma spairs_pos r p : (r < P)%nat -> In p (spairs r) -> 0 <= fst p.
  Proof.
    intros Hr Hp. apply (Permutation_in _ (spairs_perm r Hr)) in Hp. apply (in_map fst) in Hp.
    rewrite map_fst_pairs in Hp by assumption. eauto.
  Qed.

  Lemma F_nonneg k : 0 <= F k.
  Proof. unfold F. rewrite <- (goff_0 (nperproc arr)). apply goff_mono; [apply nperproc_nonneg | lia]. Qed.

  Lemma is_cut_f {C} (f : Z * B -> C) :
    is_cut P (spmd P (fun r => map f (spairs r))) (spmd P (fun r => spmd P (fun k => ucut r (S k) - ucut r k))) ucut.
  Proof.
    constructor.
    - intros i Hi. now rewrite nth_spmd.
    - apply spmd_length.
    - intros i Hi. unfold ucut. destruct (Nat.eqb_spec 0 P) as [E|E]; [lia|]. unfold F. rewrite goff_0. apply count_none.
      intros x Hx. apply in_map_iff in Hx. destruct Hx as (p & <- & Hp). apply spairs_pos in Hp; [|assumption].
      unfold ltb. cbn [leb ZOrd]. lia.
    - intros i k Hi Hk. unfold ucut. destruct (Nat.eqb_spec k P) as [E|E]; [lia|]. destruct (Nat.eqb_spec (S k) P) as [E'|E'].
      + rewrite <- (zlen_map fst (spairs i)). apply count_le_zlen.
      + apply count_lt_mono. cbn [leb ZOrd]. apply Z.leb_le. apply goff_mono; [apply nperproc_nonneg | lia].
    - intros i Hi. unfold ucut. rewrite Nat.eqb_refl, nth_spmd by assumption. now rewrite zlen_map.
  Qed.

  Definition upiece (i j : nat) : list (Z * B) := zslice (spairs i) (ucut i j) (ucut i (S j)).
  Definition urecv (j : nat) : list (Z * B) := concat (spmd P (fun i => upiece i j)).

  Lemma exchange_f {C} (f : Z * B -> C) junk :
    let sc := spmd P (fun r => spmd P (fun k => ucut r (S k) - ucut r k)) in
    exchange junk P (spmd P (fun r => map f (spairs r))) sc (map excl_cumsum sc) = Ok (spmd P (fun j => map f (urecv j))).
  Proof.
    cbv zeta. rewrite (ic_exchange _ _ _ _ (is_cut_f f)). f_equal. apply spmd_ext. intros j Hj. unfold urecv.
    rewrite concat_map, map_spmd. f_equal. apply spmd_ext. intros i Hi. rewrite nth_spmd by assumption. unfold upiece. now rewrite map_zslice.
  Qed.

  Lemma upiece_range i j p : (i < P)%nat -> (j < P)%nat -> In p (upiece i j) ->
    F j <= fst p /\ (S j = P \/ fst p < F (S j)).
  Proof.
    intros Hi Hj Hp. unfold upiece in Hp.
    apply zslice_In_nth with (d := (0, db)) in Hp.
    2:{ pose proof (ic_range _ _ _ _ (is_cut_f fst) i j Hi ltac:(lia)). lia. }
    destruct Hp as (k & Hk & Hr & ->).
    assert (fst (nth k (spairs i) (0, db)) = nth k (map fst (spairs i)) 0) as -> by (symmetry; exact (map_nth fst (spairs i) (0, db) k)).
    assert (k < length (map fst (spairs i)))%nat as Hk' by (now rewrite map_length).
    split.
    - pose proof (ssl_after ZOrd (map fst (spairs i)) (F j) k 0 (spairs_sorted i Hi)) as H.
      rewrite ssl_count in H by (now apply spairs_sorted). unfold ucut in Hr. destruct (Nat.eqb_spec j P) as [E|E]; [lia|].
      specialize (H ltac:(lia) Hk'). unfold ltb in H. cbn [leb ZOrd] in H. lia.
    - destruct (Nat.eq_dec (S j) P) as [E|E]; [now left|]. right.
      pose proof (ssl_before ZOrd (map fst (spairs i)) (F (S j)) k 0) as H.
      rewrite ssl_count in H by (now apply spairs_sorted). unfold ucut in Hr. destruct (Nat.eqb_spec (S j) P) as [E'|E']; [lia|].
      specialize (H ltac:(lia)). unfold ltb in H. cbn [leb ZOrd] in H. lia.
  Qed.
  Lemma urecv_range j p : (j < P)%nat -> In p (urecv j) -> F j <= fst p /\ (S j = P \/ fst p < F (S j)).
  Proof.
    intros Hj Hp. unfold urecv in Hp. apply in_concat in Hp. destruct Hp as (l & Hl & Hp). apply In_spmd in Hl. destruct Hl as (i & Hi & ->).
    now apply (upiece_range i j).
  Qed.
  Lemma urecv_perm : Permutation (concat (spmd P urecv)) (concat (spmd P pairs)).
  Proof.
    unfold urecv. rewrite concat_spmd_swap. apply Permutation_concat_spmd. intros i Hi.
    pose proof (ic_concat _ _ _ _ (is_cut_f id) i Hi) as H. rewrite nth_spmd, map_id in H by assumption.
    unfold upiece. rewrite H. now apply spairs_perm.
  Qed.

  Lemma F_P' : F P = N.
  Proof. unfold F. rewrite goff_all by (rewrite nperproc_length; unfold P; lia). apply sum_nperproc. Qed.
  Lemma F_S' p : (p < P)%nat -> F (S p) = F p + zlen (nth p arr []).
  Proof. intro Hp. unfold F. rewrite goff_S by (now rewrite nperproc_length). now rewrite nth_nperproc. Qed.

  (** everything up to the exchange *)
  Lemma reduce_elements_eq junk :
    reduce_elements op junk orders arr updates index =
    mapM (fun r => reduce_local op (nth r arr []) (F r) (map fst (urecv r)) (map snd (urecv r))) (seq 0 P).
  Proof.
    unfold reduce_elements. fold P.
    assert (forallb (fun r => length (nth r index []) =? length (nth r updates []))%nat (seq 0 P) = true) as ->.
    { apply forallb_forall. intros r Hr. apply in_seq in Hr. apply Nat.eqb_eq. apply Hlen. lia. }
    cbn [check bind].
    rewrite (mapM_seq_ok _ (fun r => map fst (spairs r))) by (intros r Hr; apply take_pairs; [assumption | symmetry; now apply map_fst_pairs]).
    cbn [bind].
    rewrite (mapM_seq_ok _ (fun r => map snd (spairs r))) by (intros r Hr; apply take_pairs; [assumption | symmetry; now apply map_snd_pairs]).
    cbn [bind]. rewrite map_spmd.
    rewrite (spmd_ext P (fun r => reduce_counts _ _) (fun r => spmd P (fun k => ucut r (S k) - ucut r k))) by (intros; now apply ucut_counts).
    assert (forallb (fun r => sumZ (nth r (spmd P (fun r => spmd P (fun k => ucut r (S k) - ucut r k))) []) =?
               zlen (nth r (spmd P (fun r => map fst (spairs r))) [])) (seq 0 P) = true) as ->.
    { apply forallb_forall. intros r Hr. apply in_seq in Hr. rewrite !nth_spmd by lia. rewrite (sumZ_telescope (ucut r)).
      rewrite (ic_b0 _ _ _ _ (is_cut_f fst)), (ic_end _ _ _ _ (is_cut_f fst)), nth_spmd by lia. lia. }
    cbn [check bind]. rewrite (exchange_f fst 0). cbn [bind]. rewrite (exchange_f snd junk). cbn [bind].
    assert (forall (f g : nat -> res (list A)), (forall r, (r < P)%nat -> f r = g r) -> mapM f (seq 0 P) = mapM g (seq 0 P)) as Hext.
    { intros f g H. assert (forall l, (forall r, In r l -> (r < P)%nat) -> mapM f l = mapM g l) as H'.
      { induction l as [|r l IH]; intro Hl; [reflexivity|]. cbn [mapM]. rewrite H by (apply Hl; now left). rewrite IH; [reflexivity|].
        intros; apply Hl; now right. }
      apply H'. intros r Hr. apply in_seq in Hr. lia. }
    apply Hext. intros r Hr. rewrite !nth_spmd by assumption. now rewrite nth_excl_goff by (now rewrite nperproc_length).
  Qed.

  Lemma reduce_elements_beyond junk r i : (r < P)%nat -> In i (nth r index []) -> N <= i ->
    exists e, reduce_elements op junk orders arr updates index = Err e.
  Proof.
    intros Hr Hi Hge. rewrite reduce_elements_eq.
    assert (exists j p, (j < P)%nat /\ In p (urecv j) /\ fst p = i) as (j & p & Hj & Hp & Ep).
    { rewrite <- (map_fst_pairs r Hr) in Hi. apply in_map_iff in Hi. destruct Hi as (p & E & Hp).
      assert (In p (concat (spmd P urecv))) as Hin.
      { apply (Permutation_in _ (Permutation_sym urecv_perm)). apply in_concat. exists (pairs r). split; [apply In_spmd; eauto | assumption]. }
      apply in_concat in Hin. destruct Hin as (l & Hl & Hin). apply In_spmd in Hl. destruct Hl as (j & Hj & ->). eauto. }
    assert (forall (f : nat -> res (list A)) l, In j l -> (exists e, f j = Err e) -> exists e, mapM f l = Err e) as Herr.
    { intros f l Hl [e He]. induction l as [|x l IH]; [destruct Hl|]. cbn [mapM]. destruct (f x) as [y|e'] eqn:E; [|now exists e'].
      cbn [bind]. destruct Hl as [->|Hl]; [congruence|]. destruct (IH Hl) as [e' ->]. now exists e'. }
    apply Herr; [apply in_seq; lia|]. unfold reduce_local. rewrite !map_map.
    destruct (forallb (fun i => 0 <=? i) _) eqn:E1; [|now exists EAssert].
    destruct (forallb (fun i => i <=? zlen _) _) eqn:E2; [|now exists EAssert].
    cbn [check bind]. exists EIndex.
    assert (combine (map (fun x => fst x - F j) (urecv j)) (map snd (urecv j)) = map (fun p => (fst p - F j, snd p)) (urecv j)) as ->.
    { clear. induction (urecv j) as [|q l IH]; [reflexivity|]. cbn. now rewrite IH. }
    apply (ufunc_at_err op _ _ (fst p - F j) (snd p)).
    - apply (in_map (fun p => (fst p - F j, snd p)) _ _ Hp).
    - intros k v Hk. apply in_map_iff in Hk. destruct Hk as (q & E & Hq). injection E as <- _. pose proof (urecv_range j q Hj Hq). lia.
    - pose proof (F_S' j Hj). assert (F (S j) <= F P) by (apply goff_mono; [apply nperproc_nonneg | lia]). rewrite F_P' in *. lia.
  Qed.

  Section InRange.
    Hypothesis Hlt : forall r i, (r < P)%nat -> In i (nth r index []) -> i < N.
    Lemma urecv_lt j p : (j < P)%nat -> In p (urecv j) -> F j <= fst p < F (S j).
    Proof.
      intros Hj Hp. destruct (urecv_range j p Hj Hp) as [H1 [H2|H2]]; [|lia]. split; [assumption|]. rewrite H2, F_P'.
      assert (In p (concat (spmd P pairs))) as Hin.
      { apply (Permutation_in _ urecv_perm). apply in_concat. exists (urecv j). split; [apply In_spmd; eauto | assumption]. }
      apply in_concat in Hin. destruct Hin as (l & Hl & Hin). apply In_spmd in Hl. destruct Hl as (i & Hi & ->).
      apply (in_map fst) in Hin. rewrite map_fst_pairs in Hin by assumption. eauto.
    Qed.

    Definition at_target (g : Z) : list B := map snd (filter (fun p => fst p =? g) (concat (spmd P pairs))).

    Lemma reduce_elements_ok junk : exists out, reduce_elements op junk orders arr updates index = Ok out /\
      length out = P /\
      (forall j, (j < P)%nat -> length (nth j out []) = length (nth j arr [])) /\
      (forall j k a, (j < P)%nat -> nth_error (nth j arr []) k = Some a -> exists us,
         Permutation us (at_target (F j + Z.of_nat k)) /\ nth_error (nth j out []) k = Some (fold_left op us a)).
    Proof.
      rewrite reduce_elements_eq.
      assert (forall j, (j < P)%nat -> exists o,
         reduce_local op (nth j arr []) (F j) (map fst (urecv j)) (map snd (urecv j)) = Ok o /\
         length o = length (nth j arr []) /\
         forall k a, nth_error (nth j arr []) k = Some a -> exists us, Permutation us (at_target (F j + Z.of_nat k)) /\
            nth_error o k = Some (fold_left op us a)) as HJ.
      { intros j Hj. unfold reduce_local. rewrite !map_map.
        assert (forallb (fun i => 0 <=? i) (map (fun x => fst x - F j) (urecv j)) = true) as ->.
        { apply forallb_forall. intros i Hi. apply in_map_iff in Hi. destruct Hi as (p & <- & Hp). pose proof (urecv_lt j p Hj Hp). lia. }
        assert (forallb (fun i => i <=? zlen (nth j arr [])) (map (fun x => fst x - F j) (urecv j)) = true) as ->.
        { apply forallb_forall. intros i Hi. apply in_map_iff in Hi. destruct Hi as (p & <- & Hp). pose proof (urecv_lt j p Hj Hp) as H.
          rewrite F_S' in H by assumption. lia. }
        cbn [check bind].
        assert (combine (map (fun x => fst x - F j) (urecv j)) (map snd (urecv j)) = map (fun p => (fst p - F j, snd p)) (urecv j)) as ->.
        { induction (urecv j) as [|p l IH]; [reflexivity|]. cbn. now rewrite IH. }
        destruct (ufunc_at_ok op (map (fun p => (fst p - F j, snd p)) (urecv j)) (nth j arr [])) as (o & E1 & E2 & E3).
        - intros i u Hi. apply in_map_iff in Hi. destruct Hi as (p & E & Hp). injection E as <- <-. pose proof (urecv_lt j p Hj Hp) as H.
          rewrite F_S' in H by assumption. lia.
        - exists o. split; [exact E1|]. split; [exact E2|]. intros k a Ha. assert (k < length (nth j arr []))%nat as Hk by (apply nth_error_Some; congruence).
          eexists. split; [|exact (E3 k a Ha)].
          unfold at_target.
          transitivity (map snd (filter (fun p => fst p =? F j + Z.of_nat k) (urecv j))).
          + apply Permutation_refl'. clear. induction (urecv j) as [|p l IH]; [reflexivity|]. cbn [map filter fst snd].
            destruct (Z.eqb_spec (fst p - F j) (Z.of_nat k)), (Z.eqb_spec (fst p) (F j + Z.of_nat k)); try lia; cbn [map snd]; now rewrite IH.
          + rewrite <- (filter_concat_one (fun p => fst p =? F j + Z.of_nat k) P urecv j Hj).
            * apply Permutation_map, filter_perm, urecv_perm.
            * intros i p Hi Hp E. pose proof (urecv_lt i p Hi Hp) as H1.
              assert (F j <= fst p < F (S j)) as H2 by (rewrite F_S' by assumption; unfold zlen; lia).
              destruct (Nat.lt_total i j) as [Hl|[?|Hl]]; [|assumption|].
              -- assert (F (S i) <= F j) by (apply goff_mono; [apply nperproc_nonneg | lia]). lia.
              -- assert (F (S j) <= F i) by (apply goff_mono; [apply nperproc_nonneg | lia]). lia. }
      assert (exists o : nat -> list A, forall j, (j < P)%nat ->
         reduce_local op (nth j arr []) (F j) (map fst (urecv j)) (map snd (urecv j)) = Ok (o j)) as (o & Ho).
      { exists (fun j => match reduce_local op (nth j arr []) (F j) (map fst (urecv j)) (map snd (urecv j)) with Ok x => x | Err _ => [] end).
        intros j Hj. destruct (HJ j Hj) as (x & -> & _). reflexivity. }
      exists (spmd P o). split; [now apply mapM_seq_ok|]. split; [apply spmd_length|].
      assert (forall j, (j < P)%nat -> length (o j) = length (nth j arr []) /\ forall k a, nth_error (nth j arr []) k = Some a ->
          exists us, Permutation us (at_target (F j + Z.of_nat k)) /\ nth_error (o j) k = Some (fold_left op us a)) as HJ'.
      { intros j Hj. destruct (HJ j Hj) as (x & E1 & E2 & E3). rewrite (Ho j Hj) in E1. injection E1 as <-. auto. }
      split.
      - intros j Hj. rewrite nth_spmd by assumption. now apply HJ'.
      - intros j k a Hj Hk. rewrite nth_spmd by assumption. now apply HJ'.
    Qed.
  End InRange.
End ReduceP.

(** flattening rows for the communication makes no difference *)
Lemma flat_exchange {B} nv P (rows : list (list (list B))) sc b (junk : B) (junkr : list B) :
  0 <= nv -> (forall i row, (i < P)%nat -> In row (nth i rows []) -> zlen row = nv) -> length rows = P -> is_cut P rows sc b ->
  exists flat,
    alltoallv P (map (@concat B) rows) (map (scale nv) sc) (map (scale nv) (map excl_cumsum sc))
      (map (fun c => repeat junk (Z.to_nat (nv * sumZ c))) (alltoall P sc)) (map (scale nv) (alltoall P sc))
      (map (scale nv) (map excl_cumsum (alltoall P sc))) = Ok flat /\
    exchange junkr P rows sc (map excl_cumsum sc) =
      Ok (spmd P (fun r => rows_of nv (sumZ (nth r (alltoall P sc) [])) (nth r flat []))).
Proof.
  intros Hnv Hrow Hl C. rewrite (ic_exchange _ _ _ _ C).
  pose proof (ic_mat _ _ _ _ C) as Hm. pose proof (ic_displ _ _ _ _ C) as Hd.
  assert (forall i j, (i < P)%nat -> (j < P)%nat -> 0 <= b i j <= b i (S j) /\ b i (S j) <= zlen (nth i rows [])) as Hr.
  { intros i j Hi Hj. pose proof (ic_mono _ _ _ _ C i j Hi Hj).
    pose proof (ic_range _ _ _ _ C i j Hi ltac:(lia)). pose proof (ic_range _ _ _ _ C i (S j) Hi ltac:(lia)). lia. }
  eexists. split.
  - apply alltoallv_rows; auto.
    + intros i j Hi Hj. rewrite mat_alltoall, Hm, Hd by assumption. specialize (Hr i j Hi Hj).
      split; [lia|]. split; [reflexivity|]. right. lia.
    + intros i j Hi Hj. rewrite mat_excl_cumsum.
      * rewrite nth_alltoall by assumption. now rewrite sumZ_firstn_spmd by lia.
      * rewrite nth_alltoall, spmd_length; assumption.
      * unfold alltoall. now rewrite spmd_length.
    + intros j Hj. rewrite nth_map_dflt with (d' := []) by (unfold alltoall; now rewrite spmd_length).
      rewrite nth_alltoall by assumption. unfold zlen. rewrite repeat_length.
      assert (0 <= sumZ (spmd P (fun k => mat sc k j))); [|nia].
      apply sumZ_nonneg. apply Forall_forall. intros x Hx. apply In_spmd in Hx. destruct Hx as (k & Hk & ->).
      rewrite Hm by assumption. specialize (Hr k j Hk Hj). lia.
  - f_equal. apply spmd_ext. intros j Hj. rewrite nth_spmd by assumption.
    set (rs := concat (spmd P (fun i => zslice (nth i rows []) (mat (map excl_cumsum sc) i j)
                     (mat (map excl_cumsum sc) i j + mat sc i j)))).
    assert (rs = concat (spmd P (fun i => zslice (nth i rows []) (b i j) (b i (S j))))) as Er.
    { unfold rs. f_equal. apply spmd_ext. intros i Hi. rewrite Hm, Hd by assumption. f_equal. lia. }
    assert (sumZ (nth j (alltoall P sc) []) = zlen rs) as ->.
    { rewrite Er, zlen_concat, map_spmd, nth_alltoall by assumption. f_equal. apply spmd_ext.
      intros i Hi. rewrite Hm by assumption. specialize (Hr i j Hi Hj). rewrite zlen_zslice; lia. }
    rewrite rows_of_concat; [now symmetry|].
    unfold rs. apply concat_spmd_rows. intros i row Hi Hin. apply (Hrow i row Hi). eapply zslice_In. exact Hin.
Qed.

Lemma reduce_elements_nd_eq {A B} (op : A -> list B -> A) (junk : B) (junkr : list B) nv orders arr updates index :
  0 <= nv -> (forall r row, (r < length arr)%nat -> In row (nth r updates []) -> zlen row = nv) ->
  (forall r, (r < length arr)%nat -> length (nth r index []) = length (nth r updates [])) ->
  (forall r, (r < length arr)%nat -> is_argsort ZOrd (nth r index []) (nth r orders [])) ->
  (forall r i, (r < length arr)%nat -> In i (nth r index []) -> 0 <= i) ->
  reduce_elements_nd op junk nv orders arr updates index = reduce_elements op junkr orders arr updates index.
Proof.
  intros Hnv Hrow Hlen Hord Hpos. unfold reduce_elements_nd, reduce_elements. set (P := length arr) in *.
  assert (forallb (fun r => length (nth r index []) =? length (nth r updates []))%nat (seq 0 P) = true) as ->.
  { apply forallb_forall. intros r Hr. apply in_seq in Hr. apply Nat.eqb_eq. apply Hlen. lia. }
  cbn [check bind]. pose (dr := (repeat junk (Z.to_nat nv))).
  rewrite (mapM_seq_ok _ (fun r => map fst (spairs updates index orders dr r))).
  2:{ intros r Hr. apply (take_pairs op arr updates index orders dr Hlen Hord fst); [assumption|]. symmetry.
      eapply map_fst_pairs; eassumption. }
  cbn [bind].
  rewrite (mapM_seq_ok _ (fun r => map snd (spairs updates index orders dr r))).
  2:{ intros r Hr. apply (take_pairs op arr updates index orders dr Hlen Hord snd); [assumption|]. symmetry.
      eapply map_snd_pairs; eassumption. }
  cbn [bind]. rewrite map_spmd.
  rewrite (spmd_ext P (fun r => reduce_counts _ _) (fun r => spmd P (fun k => ucut arr updates index orders dr r (S k) - ucut arr updates index orders dr r k)))
    by (intros; now apply (ucut_counts op arr updates index orders dr Hlen Hord)).
  destruct (forallb _ _); [|reflexivity]. cbn [check bind].
  destruct (exchange 0 P _ _ _) as [ir|e]; [|reflexivity]. cbn [bind].
  set (sc := spmd P (fun r => spmd P _)). set (up := spmd P (fun r => map snd _)).
  destruct (flat_exchange nv P up sc (ucut arr updates index orders dr) junk junkr) as (flat & E1 & E2); auto.
  - intros i row Hi Hin. unfold up in Hin. rewrite nth_spmd in Hin by assumption. apply in_map_iff in Hin. destruct Hin as (p & <- & Hp).
    apply (Permutation_in _ (spairs_perm op arr updates index orders dr Hlen Hord i Hi)) in Hp.
    apply (Hrow i); [assumption|]. rewrite <- (map_snd_pairs op arr updates index orders dr Hlen Hord i Hi). now apply in_map.
  - apply spmd_length.
  - apply (is_cut_f op arr updates index orders dr Hlen Hord Hpos snd).
  - rewrite E1, E2. reflexivity.
Qed.
