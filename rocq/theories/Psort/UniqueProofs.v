(** Proofs about parallel_unique. *)
From Coq Require Import QArith.
From Verif.Base Require Import Prelude ListLemmas Order.
From Verif.Mpi Require Import CommModel CommProofs CutProofs.
From Verif.Psort Require Import MoveModel MoveProofs FetchProofs SplitModel SplitProofs SortModel SortProofs UniqueModel.
From Coq Require Import ZifyBool ZifyNat.
Local Open Scope Z_scope.

Section Rle.
  Context {A : Type} (Od : TOrd A).
  Notation key := (fun x : A => x).

  Lemma sort_id_sorted l : sorted Od (sort_by Od key l).
  Proof. pose proof (sort_by_sorted_keys Od key l) as H. now rewrite map_id in H. Qed.
  Lemma sorted_perm_eq l m : sorted Od l -> sorted Od m -> Permutation l m -> l = m.
  Proof.
    revert m; induction l as [|x l IH]; intros m Hl Hm HP.
    - apply Permutation_nil in HP. now subst.
    - destruct m as [|y m]; [symmetry in HP; now apply Permutation_nil in HP|].
      apply StronglySorted_inv in Hl, Hm. destruct Hl as [Hl Fl], Hm as [Hm Fm]. rewrite Forall_forall in Fl, Fm.
      assert (x = y) as ->.
      { apply (leb_antisym _ Od).
        - assert (In y (x :: l)) as [->|H] by (apply (Permutation_in _ (Permutation_sym HP)); now left); [apply leb_refl | auto].
        - assert (In x (y :: m)) as [->|H] by (apply (Permutation_in _ HP); now left); [apply leb_refl | auto]. }
      f_equal. apply IH; auto. now apply Permutation_cons_inv in HP.
  Qed.
  Lemma sort_id_of_sorted l : sorted Od l -> sort_by Od key l = l.
  Proof. intro H. apply sorted_perm_eq; [apply sort_id_sorted | assumption | apply sort_by_perm]. Qed.

  Definition slt (x y : A * Z) : Prop := ltb Od (fst x) (fst y) = true.
  Lemma rle_spec l : sorted Od l ->
    StronglySorted slt (rle Od l) /\ (forall x n, In (x, n) (rle Od l) <-> In x l /\ n = count_eq Od x l).
  Proof.
    induction l as [|a l IH]; intro Hs.
    - split; [constructor|]. cbn. tauto.
    - apply StronglySorted_inv in Hs. destruct Hs as [Hs Hf]. destruct (IH Hs) as [IH1 IH2]. rewrite Forall_forall in Hf.
      cbn [rle]. destruct (rle Od l) as [|[y n] m] eqn:E.
      + assert (l = []) as ->.
        { destruct l as [|b l']; [reflexivity|]. exfalso. apply (proj2 (IH2 b (count_eq Od b (b :: l')))). split; [now left | reflexivity]. }
        split; [repeat constructor|]. intros x n. cbn [In]. unfold count_eq. rewrite count_cons. cbn [count filter].
        split.
        * intros [H|[]]. injection H as <- <-. rewrite eqb_refl. split; [now left | reflexivity].
        * intros [[->|[]] ->]. rewrite eqb_refl. now left.
      + pose proof (proj1 (IH2 y n) ltac:(now left)) as [Hyl Hyn].
        apply StronglySorted_inv in IH1. destruct IH1 as [IH1 IHf]. rewrite Forall_forall in IHf.
        assert (forall x k, In (x, k) m -> ltb Od y x = true) as Hm by (intros x k H; exact (IHf _ H)).
        destruct (eqb Od a y) eqn:Ea.
        * apply eqb_eq in Ea. subst a. split.
          -- constructor; [assumption|]. apply Forall_forall. intros [x k] H. exact (Hm x k H).
          -- intros x k. cbn [In]. unfold count_eq. rewrite count_cons. destruct (eqb Od y x) eqn:Ex.
             ++ apply eqb_eq in Ex. subst x. fold (count_eq Od y l). rewrite <- Hyn. split.
                ** intros [H|H]; [injection H as <-; split; [now left | lia]|].
                   apply Hm in H. rewrite ltb_irrefl in H. discriminate.
                ** intros [_ ->]. left. f_equal. lia.
             ++ apply eqb_neq in Ex. fold (count_eq Od x l). specialize (IH2 x k). cbn [In] in IH2. rewrite Z.add_0_l. split.
                ** intros [H|H]; [injection H as H _; congruence|]. destruct IH2 as [IH2 _]. destruct IH2 as [H1 H2]; [now right|]. auto.
                ** intros [[H|H] H2]; [congruence|]. destruct IH2 as [_ IH2]. destruct IH2 as [H'|H']; [auto | injection H' as H' _; congruence|].
                   now right.
        * apply eqb_neq in Ea.
          assert (ltb Od a y = true) as Hlt by (destruct (leb_ltb_or_eq Od a y (Hf y Hyl)); [assumption | congruence]).
          split.
          -- constructor; [constructor; [assumption|]; now apply Forall_forall|].
             apply Forall_forall. intros [x k] [H|H]; [injection H as <- <-; exact Hlt|]. unfold slt. cbn [fst].
             eapply ltb_trans; [exact Hlt | exact (Hm x k H)].
          -- assert (~ In a l) as Ha.
             { intro H. pose proof (proj2 (IH2 a (count_eq Od a l)) (conj H eq_refl)) as [H'|H'].
               - injection H' as H' _. congruence.
               - pose proof (ltb_trans Od _ _ _ Hlt (Hm _ _ H')) as H2. rewrite ltb_irrefl in H2. discriminate. }
             intros x k. specialize (IH2 x k). cbn [In] in *. unfold count_eq. rewrite count_cons. fold (count_eq Od x l).
             destruct (eqb Od a x) eqn:Ex.
             ++ apply eqb_eq in Ex. subst x.
                assert (count_eq Od a l = 0) as Hz.
                { apply count_none. intros x Hx. apply eqb_neq. intro Ee. subst x. contradiction. }
                rewrite Hz. split.
                ** intros [H|H]; [injection H as <-; auto|]. apply IH2 in H. tauto.
                ** intros [_ ->]. now left.
             ++ apply eqb_neq in Ex. rewrite Z.add_0_l. split.
                ** intros [H|H]; [injection H as H _; congruence|]. apply IH2 in H. tauto.
                ** intros [[H|H] ->]; [congruence|]. right. apply IH2. auto.
  Qed.
  Lemma count_eq_pos x l : In x l -> 0 < count_eq Od x l.
  Proof. intro H. apply count_pos with x; [assumption | apply eqb_refl]. Qed.
  Lemma count_eq_none x l : ~ In x l -> count_eq Od x l = 0.
  Proof. intro H. apply count_none. intros y Hy. apply eqb_neq. intros ->. contradiction. Qed.
End Rle.


Lemma StronglySorted_filter {B} (R : B -> B -> Prop) p l : StronglySorted R l -> StronglySorted R (filter p l).
Proof.
  induction 1 as [|x l Hl IH Hf]; cbn [filter]; [constructor|]. destruct (p x); [|assumption].
  constructor; [assumption|]. rewrite Forall_forall in *. intros y Hy. apply filter_In in Hy. now apply Hf.
Qed.

Section Ends.
  Context {A : Type} (Od : TOrd A).
  Lemma slt_map u : StronglySorted (slt Od) u <-> StronglySorted (fun x y => ltb Od x y = true) (map fst u).
  Proof. rewrite StronglySorted_map. reflexivity. Qed.
  Lemma add_last_snoc u x n k : add_last (u ++ [(x : A, n)]) k = u ++ [(x, n + k)].
  Proof. unfold add_last. rewrite rev_app_distr. cbn [rev app]. now rewrite rev_involutive. Qed.
  Lemma map_fst_add_last (u : list (A * Z)) k : map fst (add_last u k) = map fst u.
  Proof.
    destruct u as [|p u] using rev_ind; [reflexivity|]. destruct p as [x n]. rewrite add_last_snoc, !map_app. reflexivity.
  Qed.
  Lemma map_fst_zero_first (u : list (A * Z)) : map fst (zero_first u) = map fst u.
  Proof. destruct u as [|[x n] u]; reflexivity. Qed.
  Lemma add_last_In u k x n d : StronglySorted (slt Od) u -> u <> [] ->
    (In (x, n) (add_last u k) <-> exists m, In (x, m) u /\ n = m + if eqb Od x (fst (last u d)) then k else 0).
  Proof.
    intros Hs Hne. destruct u as [|[lv ln] u _] using rev_ind; [congruence|].
    rewrite add_last_snoc, last_last. cbn [fst]. apply StronglySorted_app in Hs. destruct Hs as (_ & _ & Hs).
    split.
    - intro H. apply in_app_or in H. destruct H as [H|[H|[]]].
      + exists n. split; [apply in_or_app; now left|]. assert (eqb Od x lv = false) as ->; [|lia].
        apply eqb_neq. intros ->. specialize (Hs _ _ H (or_introl eq_refl)). unfold slt in Hs. cbn in Hs. now rewrite ltb_irrefl in Hs.
      + injection H as <- <-. exists ln. split; [apply in_or_app; right; now left|]. now rewrite eqb_refl.
    - intros (m & H & ->). apply in_app_or in H. apply in_or_app. destruct H as [H|[H|[]]].
      + left. assert (eqb Od x lv = false) as ->; [|now rewrite Z.add_0_r].
        apply eqb_neq. intros ->. specialize (Hs _ _ H (or_introl eq_refl)). unfold slt in Hs. cbn in Hs. now rewrite ltb_irrefl in Hs.
      + injection H as <- <-. right. left. now rewrite eqb_refl.
  Qed.
  Lemma zero_first_In u x n d : StronglySorted (slt Od) u -> u <> [] ->
    (In (x, n) (zero_first u) <-> (x = fst (hd d u) /\ n = 0) \/ (In (x, n) u /\ x <> fst (hd d u))).
  Proof.
    intros Hs Hne. destruct u as [|[fv fn] u]; [congruence|]. cbn [zero_first hd fst In].
    apply StronglySorted_inv in Hs. destruct Hs as [_ Hs]. rewrite Forall_forall in Hs. split.
    - intros [H|H]; [injection H as <- <-; now left|]. right. split; [now right|]. intros ->.
      specialize (Hs _ H). unfold slt in Hs. cbn in Hs. now rewrite ltb_irrefl in Hs.
    - intros [[-> ->]|[[H|H] Hx]]; [now left | congruence | now right].
  Qed.
  Lemma hd_le u x n d : StronglySorted (slt Od) u -> In (x, n) u -> leb Od (fst (hd d u)) x = true.
  Proof.
    intros Hs Hin. destruct u as [|[fv fn] u]; [destruct Hin|]. cbn [hd fst].
    apply StronglySorted_inv in Hs. destruct Hs as [_ Hs]. rewrite Forall_forall in Hs.
    destruct Hin as [H|H]; [injection H as <- <-; apply leb_refl|]. apply ltb_leb. exact (Hs _ H).
  Qed.
  Lemma le_last u x n d : StronglySorted (slt Od) u -> In (x, n) u -> leb Od x (fst (last u d)) = true.
  Proof.
    intros Hs Hin. destruct u as [|[lv ln] u _] using rev_ind; [destruct Hin|]. rewrite last_last. cbn [fst].
    apply StronglySorted_app in Hs. destruct Hs as (_ & _ & Hs).
    apply in_app_or in Hin. destruct Hin as [H|[H|[]]]; [|injection H as <- <-; apply leb_refl].
    apply ltb_leb. exact (Hs _ _ H (or_introl eq_refl)).
  Qed.
  Lemma hd_In {B} (u : list B) d : u <> [] -> In (hd d u) u.
  Proof. destruct u; [congruence | now left]. Qed.
  Lemma last_In {B} (u : list B) d : u <> [] -> In (last u d) u.
  Proof. destruct u as [|p u _] using rev_ind; [congruence|]. rewrite last_last. intros _. apply in_or_app. right. now left. Qed.
End Ends.

Section UniqueP.
  Context {A : Type} (Od : TOrd A) (P : nat) (Sv : nat -> list A) (d0 : A * Z).
  Hypothesis Hne : forall r, (r < P)%nat -> Sv r <> [].
  Hypothesis Hsorted : sorted Od (concat (spmd P Sv)).
  Set Default Proof Using "All".
  Let G := concat (spmd P Sv).
  Definition U (r : nat) := np_unique Od (Sv r).

  Lemma Sv_split j : (j < P)%nat -> G = concat (spmd j Sv) ++ Sv j ++ concat (map Sv (seq (S j) (P - S j))).
  Proof.
    intro Hj. unfold G, spmd. replace P with (j + (1 + (P - S j)))%nat at 1 by lia.
    rewrite seq_app, map_app, concat_app. cbn [seq map concat Nat.add]. reflexivity.
  Qed.
  Lemma Sv_sorted j : (j < P)%nat -> sorted Od (Sv j).
  Proof.
    intro Hj. pose proof Hsorted as H. fold G in H. rewrite (Sv_split j Hj) in H. apply StronglySorted_app in H.
    destruct H as (_ & H & _). apply StronglySorted_app in H. apply H.
  Qed.
  Lemma Sv_cross i j x y : (i < j)%nat -> (j < P)%nat -> In x (Sv i) -> In y (Sv j) -> leb Od x y = true.
  Proof.
    intros Hij Hj Hx Hy. pose proof Hsorted as H. fold G in H. rewrite (Sv_split j Hj) in H. apply StronglySorted_app in H.
    destruct H as (_ & _ & H). apply H; [|apply in_or_app; now left].
    apply in_concat. exists (Sv i). split; [apply In_spmd; eauto | assumption].
  Qed.
  Lemma U_eq j : (j < P)%nat -> U j = rle Od (Sv j).
  Proof. intro Hj. unfold U, np_unique. now rewrite sort_id_of_sorted by (now apply Sv_sorted). Qed.
  Lemma U_In j x n : (j < P)%nat -> In (x, n) (U j) <-> In x (Sv j) /\ n = count_eq Od x (Sv j).
  Proof. intro Hj. rewrite U_eq by assumption. apply rle_spec. now apply Sv_sorted. Qed.
  Lemma U_slt j : (j < P)%nat -> StronglySorted (slt Od) (U j).
  Proof. intro Hj. rewrite U_eq by assumption. apply rle_spec. now apply Sv_sorted. Qed.
  Lemma U_ne j : (j < P)%nat -> U j <> [].
  Proof.
    intros Hj E. pose proof (Hne j Hj) as H. destruct (Sv j) as [|x l] eqn:ES; [congruence|].
    assert (In (x, count_eq Od x (Sv j)) (U j)) as Hin by (apply U_In; [assumption|]; rewrite ES; split; [now left | reflexivity]).
    rewrite E in Hin. destruct Hin.
  Qed.
  Definition fi (j : nat) : A * Z := hd d0 (U j).
  Definition la (j : nat) : A * Z := last (U j) d0.
  Lemma fi_spec j : (j < P)%nat -> In (fst (fi j)) (Sv j) /\ snd (fi j) = count_eq Od (fst (fi j)) (Sv j) /\
    forall x, In x (Sv j) -> leb Od (fst (fi j)) x = true.
  Proof.
    intro Hj. pose proof (hd_In (U j) d0 (U_ne j Hj)) as H. fold (fi j) in H. rewrite (surjective_pairing (fi j)) in H.
    apply U_In in H; [|assumption]. destruct H as [H1 H2]. split; [assumption|]. split; [assumption|].
    intros x Hx. apply hd_le with (n := count_eq Od x (Sv j)); [now apply U_slt|]. apply U_In; auto.
  Qed.
  Lemma la_spec j : (j < P)%nat -> In (fst (la j)) (Sv j) /\ forall x, In x (Sv j) -> leb Od x (fst (la j)) = true.
  Proof.
    intro Hj. pose proof (last_In (U j) d0 (U_ne j Hj)) as H. fold (la j) in H. rewrite (surjective_pairing (la j)) in H.
    apply U_In in H; [|assumption]. destruct H as [H1 H2]. split; [assumption|].
    intros x Hx. apply le_last with (n := count_eq Od x (Sv j)); [now apply U_slt|]. apply U_In; auto.
  Qed.

  Lemma later_counts_ok x : forall m k, (k + m = P)%nat ->
    (forall q y, (k <= q)%nat -> (q < P)%nat -> In y (Sv q) -> leb Od x y = true) ->
    later_counts Od (map fi (seq k m)) x = count_eq Od x (concat (map Sv (seq k m))).
  Proof.
    induction m as [|m IH]; intros k Hk Hx; [reflexivity|]. cbn [seq map later_counts concat].
    destruct (fi_spec k ltac:(lia)) as (F1 & F2 & F3). destruct (fi k) as [y n] eqn:Ef. cbn [fst snd] in *.
    unfold count_eq. rewrite count_app. fold (count_eq Od x (Sv k)) (count_eq Od x (concat (map Sv (seq (S k) m)))).
    destruct (eqb Od y x) eqn:E.
    - apply eqb_eq in E. subst y. rewrite IH; [lia | lia |]. intros q y Hq. apply Hx. lia.
    - apply eqb_neq in E. assert (ltb Od x y = true) as Hlt.
      { destruct (leb_ltb_or_eq Od x y (Hx k y ltac:(lia) ltac:(lia) F1)); congruence. }
      rewrite !count_eq_none; [reflexivity | |].
      + intro H. apply in_concat in H. destruct H as (l & Hl & H). apply in_map_iff in Hl. destruct Hl as (q & <- & Hq). apply in_seq in Hq.
        pose proof (Sv_cross k q y x ltac:(lia) ltac:(lia) F1 H) as H'. apply ltb_not_leb in Hlt. congruence.
      + intro H. apply F3 in H. apply ltb_not_leb in Hlt. congruence.
  Qed.

  Definition more (j : nat) : Z := later_counts Od (map fi (seq (S j) (P - S j))) (fst (la j)).
  Lemma more_ok j : (j < P)%nat -> more j = count_eq Od (fst (la j)) (concat (map Sv (seq (S j) (P - S j)))).
  Proof.
    intro Hj. apply later_counts_ok; [lia|]. intros q y H1 H2 Hy. destruct (la_spec j Hj) as [Hl _].
    now apply (Sv_cross j q).
  Qed.
  Definition same (j : nat) : bool := if (0 <? j)%nat then eqb Od (fst (fi j)) (fst (la (j - 1))) else false.
  Definition kept (j : nat) : list (A * Z) :=
    filter (fun p => 0 <? snd p) (if same j then zero_first (add_last (U j) (more j)) else add_last (U j) (more j)).

  Lemma last_Sv_bound i j x : (i < j)%nat -> (j < P)%nat -> In x (Sv i) -> leb Od x (fst (la (j - 1))) = true.
  Proof.
    intros Hij Hj Hx. destruct (la_spec (j - 1) ltac:(lia)) as [L1 L2].
    destruct (Nat.eq_dec i (j - 1)) as [->|Hn]; [auto|]. apply (Sv_cross i (j - 1)); auto; lia.
  Qed.

  (** a value of rank j is dropped exactly if an earlier rank holds it *)
  Definition earlier (x : A) (j : nat) : Prop := exists i, (i < j)%nat /\ In x (Sv i).
  Lemma same_iff j x : (j < P)%nat -> In x (Sv j) -> (same j = true /\ x = fst (fi j)) <-> earlier x j.
  Proof.
    intros Hj Hx. destruct (fi_spec j Hj) as (F1 & _ & F3). unfold same. split.
    - intros [H ->]. destruct (Nat.ltb_spec 0 j) as [Hj0|]; [|discriminate]. apply eqb_eq in H. exists (j - 1)%nat.
      split; [lia|]. rewrite H. apply la_spec. lia.
    - intros (i & Hi & Hxi). destruct (Nat.ltb_spec 0 j) as [Hj0|]; [|lia].
      assert (leb Od x (fst (fi j)) = true) as H1 by (now apply (Sv_cross i j)).
      assert (x = fst (fi j)) as Ex by (apply (leb_antisym _ Od); auto). split; [|assumption].
      apply eqb_eq. rewrite <- Ex. apply (leb_antisym _ Od); [now apply (last_Sv_bound i)|].
      destruct (la_spec (j - 1) ltac:(lia)) as [L1 _]. apply (Sv_cross (j - 1) j); auto; lia.
  Qed.

  Lemma add_last_slt j : (j < P)%nat -> StronglySorted (slt Od) (add_last (U j) (more j)) /\ add_last (U j) (more j) <> [].
  Proof.
    intro Hj. split.
    - apply slt_map. rewrite map_fst_add_last. apply slt_map. now apply U_slt.
    - intro E. apply (f_equal (map fst)) in E. rewrite map_fst_add_last in E. pose proof (U_ne j Hj). destruct (U j); [congruence | discriminate].
  Qed.
  Lemma hd_add_last j : (j < P)%nat -> fst (hd d0 (add_last (U j) (more j))) = fst (fi j).
  Proof.
    intro Hj. pose proof (map_fst_add_last (U j) (more j)) as E. pose proof (U_ne j Hj). unfold fi.
    destruct (U j) as [|p u]; [congruence|]. destruct (add_last (p :: u) (more j)) as [|q v]; [discriminate|]. cbn in E |- *. congruence.
  Qed.

  Lemma kept_In j x n : (j < P)%nat -> In (x, n) (kept j) <-> In x (Sv j) /\ ~ earlier x j /\ n = count_eq Od x G.
  Proof.
    intro Hj. destruct (add_last_slt j Hj) as [A1 A2].
    assert (In (x, n) (kept j) <-> 0 < n /\ In (x, n) (add_last (U j) (more j)) /\ ~ (same j = true /\ x = fst (fi j))) as ->.
    { unfold kept. rewrite filter_In. cbn [snd]. destruct (same j).
      - rewrite zero_first_In with (d := d0) (Od := Od) by assumption. rewrite hd_add_last by assumption. split.
        + intros [[[-> ->]|[H1 H2]] H3]; [lia|]. split; [lia|]. tauto.
        + intros (H1 & H2 & H3). split; [right; tauto | lia].
      - split; intros H; [|destruct H as (H1 & H2 & _); split; [assumption | lia]].
        destruct H as [H1 H2]. split; [lia|]. split; [assumption|]. intros [H _]. discriminate. }
    rewrite add_last_In with (d := d0) (Od := Od) by (auto using U_slt, U_ne). fold (la j).
    assert (In x (Sv j) -> ~ earlier x j -> count_eq Od x G = count_eq Od x (Sv j) + if eqb Od x (fst (la j)) then more j else 0) as HC.
    { intros Hx He. rewrite (Sv_split j Hj). unfold count_eq. rewrite !count_app.
      fold (count_eq Od x (concat (spmd j Sv))) (count_eq Od x (Sv j)).
      rewrite (count_eq_none Od x (concat (spmd j Sv))).
      2:{ intro H. apply in_concat in H. destruct H as (l & Hl & H). apply In_spmd in Hl. destruct Hl as (i & Hi & ->). apply He. now exists i. }
      rewrite Z.add_0_l. f_equal. destruct (eqb Od x (fst (la j))) eqn:E.
      - apply eqb_eq in E. subst x. symmetry. now apply more_ok.
      - apply eqb_neq in E. apply count_eq_none. intro H.
        apply in_concat in H. destruct H as (l & Hl & H). apply in_map_iff in Hl. destruct Hl as (q & <- & Hq). apply in_seq in Hq.
        destruct (la_spec j Hj) as [L1 L2]. apply E. apply (leb_antisym _ Od); [auto|]. apply (Sv_cross j q); auto; lia. }
    split.
    - intros (H0 & (m & H1 & H2) & H3). apply U_In in H1; [|assumption]. destruct H1 as [H1 ->].
      rewrite same_iff in H3 by assumption. rewrite HC by assumption. auto.
    - intros (H1 & H2 & ->). split; [|split].
      + apply count_eq_pos. unfold G. apply in_concat. exists (Sv j). split; [apply In_spmd; eauto | assumption].
      + exists (count_eq Od x (Sv j)). split; [apply U_In; auto|]. now apply HC.
      + now rewrite same_iff.
  Qed.

  Lemma first_holder x : In x G -> exists j, (j < P)%nat /\ In x (Sv j) /\ ~ earlier x j.
  Proof.
    intro H. unfold G in H. apply in_concat in H. destruct H as (l & Hl & Hx). apply In_spmd in Hl. destruct Hl as (i & Hi & ->).
    revert Hi Hx. induction i as [i IH] using lt_wf_ind. intros Hi Hx.
    assert (forall k, (k <= i)%nat -> (exists q, (q < k)%nat /\ In x (Sv q)) \/ ~ earlier x k) as Hdec.
    { induction k as [|k IHk]; intro Hk; [right; intros (q & Hq & _); lia|].
      destruct (IHk ltac:(lia)) as [(q & Hq & Hxq)|Hn]; [left; exists q; split; [lia | assumption]|].
      destruct (in_dec (fun a b => match eqb Od a b as e return eqb Od a b = e -> {a = b} + {a <> b} with
                                   | true => fun H => left (proj1 (eqb_eq Od a b) H)
                                   | false => fun H => right (proj1 (eqb_neq Od a b) H) end eq_refl) x (Sv k)) as [H|H].
      - left. exists k. split; [lia | assumption].
      - right. intros (q & Hq & Hxq). destruct (Nat.eq_dec q k) as [->|]; [contradiction|]. apply Hn. exists q. split; [lia | assumption]. }
    destruct (Hdec i ltac:(lia)) as [(q & Hq & Hxq)|Hn]; [apply (IH q Hq); [lia | assumption] | eauto].
  Qed.

  Lemma kept_all x n : In (x, n) (concat (spmd P kept)) <-> In x G /\ n = count_eq Od x G.
  Proof.
    split.
    - intro H. apply in_concat in H. destruct H as (l & Hl & H). apply In_spmd in Hl. destruct Hl as (j & Hj & ->).
      apply kept_In in H; [|assumption]. destruct H as (H1 & _ & H2). split; [|assumption].
      unfold G. apply in_concat. exists (Sv j). split; [apply In_spmd; eauto | assumption].
    - intros [H ->]. destruct (first_holder x H) as (j & Hj & Hx & He). apply in_concat. exists (kept j).
      split; [apply In_spmd; eauto|]. apply kept_In; auto.
  Qed.
  Lemma kept_sorted : StronglySorted (slt Od) (concat (spmd P kept)).
  Proof.
    apply sorted_concat_spmd.
    - intros j Hj. apply StronglySorted_filter. destruct (add_last_slt j Hj) as [H _]. destruct (same j); [|assumption].
      apply slt_map. rewrite map_fst_zero_first. now apply slt_map.
    - intros p q [x n] [y m] Hpq Hq Hx Hy. apply kept_In in Hx; [|lia]. apply kept_In in Hy; [|assumption].
      destruct Hx as (Hx & _ & _), Hy as (Hy & He & _). unfold slt. cbn [fst].
      destruct (leb_ltb_or_eq Od x y (Sv_cross p q x y Hpq Hq Hx Hy)) as [H|H]; [assumption|]. subst y. exfalso. apply He. now exists p.
  Qed.

  Lemma py_nth_hd {B} (l : list B) d : l <> [] -> py_nth l 0 = Ok (hd d l).
  Proof. destruct l as [|x l]; [congruence|]. intros _. rewrite py_nth_ok with (d := d); [reflexivity|]. rewrite zlen_cons. pose proof (zlen_nonneg l). lia. Qed.
  Lemma py_nth_last {B} (l : list B) d : l <> [] -> py_nth l (-1) = Ok (last l d).
  Proof.
    destruct l as [|x l _] using rev_ind; [congruence|]. intros _. rewrite last_last. unfold py_nth.
    rewrite zlen_app. unfold zlen. cbn [length Z.ltb Z.compare].
    destruct ((_ <? 0) || _) eqn:E; [lia|]. replace (Z.to_nat _) with (length l) by lia.
    now rewrite nth_error_app2, Nat.sub_diag by lia.
  Qed.

  Lemma unique_merge_ok r : (r < P)%nat -> unique_merge Od (U r) (spmd P fi) (spmd P la) r = Ok (kept r).
  Proof.
    intro Hr. unfold unique_merge.
    rewrite py_nth_ok with (d := d0) by (unfold zlen; rewrite spmd_length; lia). cbn [bind].
    rewrite Nat2Z.id, nth_spmd by assumption.
    assert (skipn (S r) (spmd P fi) = map fi (seq (S r) (P - S r))) as ->.
    { unfold spmd. rewrite skipn_map. f_equal. replace P with (S r + (P - S r))%nat at 1 by lia. rewrite seq_app, skipn_app, skipn_all2, seq_length.
      - replace (S r - S r)%nat with 0%nat by lia. reflexivity.
      - rewrite seq_length. lia. }
    fold (more r). unfold kept, same. destruct (Nat.ltb_spec 0 r) as [H0|H0]; [|reflexivity].
    rewrite !py_nth_ok with (d := d0) by (unfold zlen; rewrite spmd_length; lia). cbn [bind].
    rewrite Nat2Z.id, nth_spmd by assumption. rewrite nth_spmd by lia. replace (Z.to_nat (Z.of_nat r - 1)) with (r - 1)%nat by lia.
    reflexivity.
  Qed.
End UniqueP.

Section UniqueAll.
  Context {A : Type} (Od : TOrd A) (zero : A).

  Lemma filter_nonempty_ne (d : list (list A)) l : In l (filter nonempty d) -> l <> [].
  Proof. intros H ->. apply filter_In in H. destruct H as [_ H]. discriminate. Qed.

  Lemma nonempty_ok arrs : (forall l, In l arrs -> l <> []) -> sorted Od (concat arrs) ->
    let u := map (np_unique Od) arrs in
    exists out,
    (do firsts <- mapM (fun l => py_nth l 0) u;
     do lasts <- mapM (fun l => py_nth l (-1)) u;
     mapM (fun r => unique_merge Od (nth r u []) firsts lasts r) (seq 0 (length arrs))) = Ok out /\
    length out = length arrs /\
    StronglySorted (slt Od) (concat out) /\
    (forall x n, In (x, n) (concat out) <-> In x (concat arrs) /\ n = count_eq Od x (concat arrs)).
  Proof.
    intros Hne Hs. cbv zeta. set (P := length arrs). set (Sv := fun r => nth r arrs []). set (d0 := (zero, 0)).
    assert (spmd P Sv = arrs) as E by apply spmd_nth.
    assert (forall r, (r < P)%nat -> Sv r <> []) as H1 by (intros r Hr; apply Hne; now apply nth_In).
    assert (sorted Od (concat (spmd P Sv))) as H2 by (now rewrite E).
    assert (map (np_unique Od) arrs = spmd P (U Od Sv)) as Eu.
    { transitivity (map (np_unique Od) (spmd P Sv)); [now rewrite E | now rewrite map_spmd]. }
    exists (spmd P (kept Od P Sv d0)).
    split; [|split; [apply spmd_length | split]].
    - rewrite Eu. rewrite mapM_map_ok with (g := hd d0).
      2:{ intros l Hl. apply In_spmd in Hl. destruct Hl as (r & Hr & ->). eapply py_nth_hd. all: eauto using U_ne. }
      cbn [bind]. rewrite mapM_map_ok with (g := fun l => last l d0).
      2:{ intros l Hl. apply In_spmd in Hl. destruct Hl as (r & Hr & ->). eapply py_nth_last. all: eauto using U_ne. }
      cbn [bind]. rewrite !map_spmd. apply mapM_seq_ok. intros r Hr. rewrite nth_spmd by assumption.
      now apply unique_merge_ok.
    - now apply kept_sorted.
    - intros x n. pose proof (kept_all Od P Sv d0 H1 H2 x n) as H. rewrite E in H. exact H.
  Qed.

  Lemma count_eq_perm x (l m : list A) : Permutation l m -> count_eq Od x l = count_eq Od x m.
  Proof. apply count_perm. Qed.

  Lemma unique_nonempty_ok fuel junk srt arrs : (forall l, In l arrs -> l <> []) ->
    (srt = true -> sorted Od (concat arrs)) -> zlen (concat arrs) <= Z.of_nat fuel ->
    exists out, unique_nonempty Od zero fuel junk srt arrs = Ok out /\ length out = length arrs /\
      StronglySorted (slt Od) (concat out) /\
      (forall x n, In (x, n) (concat out) <-> In x (concat arrs) /\ n = count_eq Od x (concat arrs)).
  Proof.
    intros Hne Hs Hf. unfold unique_nonempty. destruct srt.
    - cbn [bind]. apply nonempty_ok; auto.
    - destruct (parallel_sort_ok Od zero Q 0%Q q_weight (weighted_median Od) fuel junk arrs) as (so & ix & E1 & E2 & E3 & E4 & E5);
        [apply exact_median_ok | exact Hf |].
      unfold parallel_sort_exact. rewrite E1. cbn [bind fst].
      pose proof (is_stable_argsort_is_argsort _ _ _ E4) as E4'.
      assert (Permutation (concat so) (concat arrs)) as HP by (rewrite E5; eapply is_argsort_perm; exact E4').
      assert (length so = length arrs) as Hl by (rewrite <- (map_length (@length A) so), E2; apply map_length).
      destruct (nonempty_ok so) as (out & F1 & F2 & F3 & F4).
      + intros l Hl' ->. assert (In 0%nat (map (@length A) so)) as H0 by (apply in_map_iff; exists []; auto).
        rewrite E2 in H0. apply in_map_iff in H0. destruct H0 as (l & H0 & H1). apply Hne in H1. destruct l; [congruence | discriminate].
      + rewrite E5. eapply is_argsort_sorted; exact E4'.
      + exists out. split; [exact F1|]. split; [congruence|]. split; [assumption|]. intros x n. rewrite F4.
        rewrite (count_eq_perm x _ _ HP). split; intros [H1 H2]; (split; [|assumption]);
          [apply (Permutation_in _ HP) | apply (Permutation_in _ (Permutation_sym HP))]; assumption.
  Qed.

  Lemma sum_even_sizes n P : (0 < P)%nat -> 0 <= n -> sumZ (even_sizes n P) = n.
  Proof.
    intros HP Hn. unfold even_sizes.
    assert (forall k, (k <= P)%nat -> sumZ (spmd k (fun r => n / Z.of_nat P + (if Z.of_nat r <? n mod Z.of_nat P then 1 else 0)))
      = Z.of_nat k * (n / Z.of_nat P) + Z.min (Z.of_nat k) (n mod Z.of_nat P)) as H.
    { induction k as [|k IH]; intro Hk.
      - cbn. pose proof (Z.mod_pos_bound n (Z.of_nat P) ltac:(lia)). lia.
      - rewrite spmd_S, sumZ_app, IH by lia. cbn [sumZ]. destruct (Z.ltb_spec (Z.of_nat k) (n mod Z.of_nat P)); nia. }
    rewrite H by lia. pose proof (Z.mod_pos_bound n (Z.of_nat P) ltac:(lia)). pose proof (Z.div_mod n (Z.of_nat P) ltac:(lia)). lia.
  Qed.
  Lemma even_sizes_nonneg n P : (0 < P)%nat -> 0 <= n -> Forall (fun x => 0 <= x) (even_sizes n P).
  Proof.
    intros HP Hn. apply Forall_forall. intros x Hx. apply In_spmd in Hx. destruct Hx as (r & Hr & ->).
    pose proof (Z.div_pos n (Z.of_nat P) ltac:(lia) ltac:(lia)). destruct (_ <? _); lia.
  Qed.

  Lemma map_concat' {B C} (f : B -> C) (d : list (list B)) : concat (map (map f) d) = map f (concat d).
  Proof. symmetry. apply concat_map. Qed.

  Lemma parallel_unique_ok fuel junk srt rep (d : list (list A)) : d <> [] ->
    (srt = true -> sorted Od (concat d)) -> zlen (concat d) <= Z.of_nat fuel ->
    exists vals counts pairs, parallel_unique Od zero fuel junk srt rep d = Ok (vals, counts) /\
      length vals = length d /\ map zlen counts = map zlen vals /\
      concat vals = map fst pairs /\ concat counts = map snd pairs /\
      StronglySorted (slt Od) pairs /\
      (forall x n, In (x, n) pairs <-> In x (concat d) /\ n = count_eq Od x (concat d)) /\
      (rep = true -> map zlen vals = even_sizes (zlen (concat vals)) (length d)).
  Proof.
    intros Hd Hs Hf. unfold parallel_unique.
    destruct (unique_nonempty_ok fuel junk srt (filter nonempty d)) as (out & E1 & E2 & E3 & E4).
    - intros l. apply filter_nonempty_ne.
    - now rewrite concat_filter_nonempty.
    - now rewrite concat_filter_nonempty.
    - rewrite concat_filter_nonempty in E4. rewrite E1. cbn [bind].
      pose proof (unsplit_concat d out E2) as Hc.
      assert (length (unsplit d out) = length d) as Hl.
      { clear -d out. revert out. induction d as [|l d IH]; intro out; [destruct out; reflexivity|]. cbn [unsplit]. destruct (nonempty l); [destruct out|]; cbn [length]; now rewrite IH. }
      set (w := unsplit d out) in *. rewrite <- Hc in E3, E4.
      assert (map zlen (map (map snd) w) = map zlen (map (map fst) w)) as Hz.
      { rewrite !map_map. apply map_ext. intro l. now rewrite !zlen_map. }
      destruct rep.
      + set (nd := even_sizes _ _).
        assert (0 < length d)%nat as HP by (destruct d; [congruence | cbn; lia]).
        assert (0 <= sumZ (map zlen (map (map fst) w))) as Hn by (apply sumZ_nonneg, Forall_nonneg_zlen).
        assert (sumZ nd = sumZ (map zlen (map (map fst) w))) as Hsum by (now apply sum_even_sizes).
        rewrite Hsum, Z.eqb_refl. cbn [check bind].
        destruct (repartition_ok junk (map (map fst) w) nd) as (v & V1 & V2 & V3).
        { unfold nd, even_sizes. rewrite spmd_length, map_length. now symmetry. }
        { now apply even_sizes_nonneg. }
        { unfold global. now rewrite zlen_concat. }
        destruct (repartition_ok 0 (map (map snd) w) nd) as (c & C1 & C2 & C3).
        { unfold nd, even_sizes. rewrite spmd_length, map_length. now symmetry. }
        { now apply even_sizes_nonneg. }
        { unfold global. rewrite zlen_concat, Hz. exact Hsum. }
        rewrite V1, C1. cbn [bind]. exists v, c, (concat w). unfold global in *. rewrite V2, C2, !map_concat'.
        split; [reflexivity|]. split; [rewrite <- (map_length zlen v), V3; unfold nd, even_sizes; apply spmd_length|].
        split; [congruence|]. split; [reflexivity|]. split; [reflexivity|]. split; [assumption|]. split; [assumption|].
        intros _. rewrite V3. unfold nd. rewrite <- zlen_concat. now rewrite map_concat'.
      + exists (map (map fst) w), (map (map snd) w), (concat w). rewrite !map_concat', map_length.
        split; [reflexivity|]. split; [assumption|]. split; [assumption|]. split; [reflexivity|]. split; [reflexivity|].
        split; [assumption|]. split; [assumption | discriminate].
  Qed.
End UniqueAll.
