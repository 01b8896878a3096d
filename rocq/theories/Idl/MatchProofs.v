(** Proofs about get_group_coordinates (C86): finding the particles of the group by their ids. *)
From Coq Require Import QArith.
From Coq Require Import Sorting.Permutation Sorting.Sorted.
From Verif Require Import Base.Prelude Base.ListLemmas Peano.CPeanoModel Fortran.FofSpec.
From Verif Require Import Index.IndexModel Idl.LibModel Idl.LibSpec Idl.StdioProofs Idl.HashProofs Idl.CellProofs Idl.GroupProofs.
From Coq Require Import ZifyBool ZifyNat.
Local Open Scope Z_scope. Local Open Scope list_scope.

Lemma compare_key : comparison id_sort_compare_key.
Proof.
  unfold comparison, id_sort_compare_key. repeat split; intros a b; [| |intro c]; generalize (as_signed a) (as_signed b); intros x y; [| |generalize (as_signed c); intro z];
    repeat match goal with |- context [?p <? ?q] => destruct (Z.ltb_spec p q) end; lia.
Qed.
Lemma StronglySorted_map_in {A} (Q Q' : A -> A -> Prop) l : StronglySorted Q l -> (forall a b, In a l -> In b l -> Q a b -> Q' a b) -> StronglySorted Q' l.
Proof.
  induction 1 as [|x l HS IH HF]; intro H; constructor; [apply IH; intros; apply H; (now right) || assumption|]. rewrite Forall_forall in *. intros y Hy. apply H; [now left | now right | now apply HF].
Qed.
Lemma sort_keys qsort l : sorts qsort -> Forall (fun v => 0 <= v < 2 ^ 63) l -> Permutation l (qsort Z id_sort_compare_key l) /\ StronglySorted Z.le (qsort Z id_sort_compare_key l).
Proof.
  intros HQ HL. destruct (HQ Z id_sort_compare_key l compare_key) as [P S]. split; [exact P|]. apply (Permutation_Forall P) in HL. rewrite Forall_forall in HL.
  eapply StronglySorted_map_in; [exact S|]. intros a b Ha Hb. apply HL in Ha, Hb. unfold id_sort_compare_key, as_signed. replace (a <? 2 ^ 63) with true by lia. replace (b <? 2 ^ 63) with true by lia. destruct (Z.ltb_spec a b), (Z.ltb_spec b a); lia.
Qed.
Lemma mask_plain v : mask34 v = plain_id v.
Proof. unfold mask34, plain_id. change (2 ^ 34 - 1) with (Z.ones 34). now rewrite Z.land_ones by lia. Qed.
Lemma plain_range v : 0 <= plain_id v < 2 ^ 34.
Proof. apply Z.mod_pos_bound. lia. Qed.

Lemma sorted_nth l : StronglySorted Z.le l -> forall i j, (i <= j)%nat -> (j < List.length l)%nat -> nth i l 0 <= nth j l 0.
Proof.
  induction 1 as [|x l HS IH HF]; intros i j Hi Hj; [cbn in Hj; lia|]. cbn [List.length] in Hj. destruct j as [|j]; [replace i with 0%nat by lia; lia|]. destruct i as [|i].
  - cbn [nth]. rewrite Forall_forall in HF. apply HF. apply nth_In. lia.
  - cbn [nth]. apply IH; lia.
Qed.

Section Match.
  Variables (R : list particle) (value4 : Z -> Q).
  Hypothesis HR : zlen R < 2 ^ 29.
  Hypothesis H3 : Forall (fun p => zlen (fst (fst p)) = 3) R.
  Notation vals := (pos_vals value4).
  Definition coded : list Z := map (fun '(v, i) => (mask34 v * 2 ^ 29 + i) mod 2 ^ 64) (combine (map id_of R) (zseq 0 (List.length R))).
  Lemma coded_in v : In v coded <-> exists i p, nth_error R i = Some p /\ v = plain_id (id_of p) * 2 ^ 29 + Z.of_nat i.
  Proof.
    unfold coded. rewrite in_map_iff. split.
    - intros ([w i] & E & H). apply In_nth_error in H. destruct H as (k & H). assert (nth_error (map id_of R) k = Some w /\ nth_error (zseq 0 (List.length R)) k = Some i) as [H1 H2].
      { revert H. clear. generalize (map id_of R) (zseq 0 (List.length R)). intro a. revert k. induction a as [|x a IH]; intros [|k] [|y b] H; try discriminate H; [now injection H as -> -> | exact (IH k b H)]. }
      rewrite nth_error_map in H1. destruct (nth_error R k) as [p|] eqn:EP; [|discriminate H1]. cbn in H1. injection H1 as <-. assert (k < List.length R)%nat as Hk by (apply nth_error_Some; now rewrite EP).
      rewrite nth_error_zseq in H2 by exact Hk. injection H2 as <-. exists k, p. split; [exact EP|]. rewrite <- E, mask_plain. pose proof (plain_range (id_of p)). unfold zlen in HR. rewrite Z.mod_small by lia. lia.
    - intros (k & p & EP & ->). assert (k < List.length R)%nat as Hk by (apply nth_error_Some; now rewrite EP). exists (id_of p, Z.of_nat k). split.
      + rewrite mask_plain. pose proof (plain_range (id_of p)). unfold zlen in HR. rewrite Z.mod_small by lia. reflexivity.
      + apply nth_error_In with (n := k). assert (nth_error (map id_of R) k = Some (id_of p)) as H1 by (rewrite nth_error_map, EP; reflexivity). assert (nth_error (zseq 0 (List.length R)) k = Some (Z.of_nat k)) as H2 by (rewrite nth_error_zseq by exact Hk; f_equal; lia).
        revert H1 H2. clear. generalize (map id_of R) (zseq 0 (List.length R)) (Z.of_nat k). intros a b z. revert k b. induction a as [|x a IH]; intros [|k] [|y b] H1 H2; try discriminate; [injection H1 as ->; now injection H2 as -> | exact (IH k b H1 H2)].
  Qed.
  Lemma coded_len : zlen coded = zlen R.
  Proof. unfold coded. unfold zlen. rewrite map_length, combine_length, map_length, zseq_length. lia. Qed.
  Lemma coded_range : Forall (fun v => 0 <= v < 2 ^ 63) coded.
  Proof. apply Forall_forall. intros v Hv. apply coded_in in Hv. destruct Hv as (i & p & E & ->). assert (i < List.length R)%nat as Hk by (apply nth_error_Some; now rewrite E). pose proof (plain_range (id_of p)). unfold zlen in HR. lia. Qed.
  Lemma decode p i : (i < List.length R)%nat -> Z.shiftr (plain_id (id_of p) * 2 ^ 29 + Z.of_nat i) 29 = plain_id (id_of p) /\ Z.land (plain_id (id_of p) * 2 ^ 29 + Z.of_nat i) (2 ^ 29 - 1) = Z.of_nat i.
  Proof.
    intro Hi. unfold zlen in HR. change (2 ^ 29 - 1) with (Z.ones 29). rewrite Z.land_ones, Z.shiftr_div_pow2 by lia. rewrite Z.add_comm, Z.div_add, Z_mod_plus_full by lia. rewrite Z.div_small, Z.mod_small by lia. lia.
  Qed.

  Variable l : list Z.
  Hypothesis HP : Permutation coded l.
  Hypothesis HS : StronglySorted Z.le l.
  Let count := zlen l.
  Definition at_ (j : Z) : Z := nth (Z.to_nat j) l 0.
  Lemma rd_at j : 0 <= j < count -> rd l j = Ok (at_ j).
  Proof. intro H. apply rd_nth; [lia|]. unfold at_, count, zlen in *. apply nth_error_nth'. lia. Qed.
  Lemma sorted_at i j : 0 <= i <= j -> j < count -> at_ i <= at_ j.
  Proof. intros Hi Hj. apply sorted_nth; [exact HS | lia | unfold count, zlen in Hj; lia]. Qed.
  Notation idof j := (Z.shiftr (at_ j) 29).
  Lemma advance_ok target j fuel : forall n, 0 <= n <= j -> j < count -> idof j = target -> (Z.to_nat (count - n) < fuel)%nat ->
    exists n', n <= n' <= j /\ advance fuel l count target n (idof n) = Ok (n', idof n') /\ target <= idof n' /\ forall k, n <= k < n' -> idof k < target.
  Proof.
    induction fuel as [|fuel IH]; intros n Hn Hj Et Hf; [lia|]. cbn [advance]. replace (n <? count) with true by lia. cbn [andb]. destruct (Z.ltb_spec (idof n) target) as [C|C].
    - destruct (Z.eq_dec n j) as [->|Hne]; [lia|]. rewrite rd_at by lia. cbn [bind]. destruct (IH (n + 1) ltac:(lia) Hj Et ltac:(lia)) as (n' & B & E & G1 & G2). exists n'. split; [lia|]. split; [exact E|]. split; [exact G1|].
      intros k Hk. destruct (Z.eq_dec k n) as [->|]; [exact C | apply G2; lia].
    - exists n. split; [lia|]. split; [reflexivity|]. split; [lia|]. intros k Hk. lia.
  Qed.
  Notation posR := (concat (map vals R)).
  Lemma pos_at i p : nth_error R i = Some p -> rd_range posR (Z.of_nat i * 3) 3 = Ok (vals p).
  Proof.
    intro E. assert (i < List.length R)%nat as Hi by (apply nth_error_Some; now rewrite E).
    assert (Forall (fun p => zlen (vals p) = 3) R) as H3' by (eapply Forall_impl; [|exact H3]; cbn; intros q Hq; unfold pos_vals; now rewrite zlen_map).
    rewrite rd_range_ok by (rewrite ?triple_len by exact H3'; unfold zlen; lia). f_equal. replace (Z.of_nat i * 3) with (3 * Z.of_nat i) by lia. replace (3 * Z.of_nat i + 3) with (3 * Z.of_nat i + 3 * 1) by lia.
    rewrite triple_slice by (assumption || unfold zlen; lia). assert (zslice R (Z.of_nat i) (Z.of_nat i + 1) = [p]) as ->; [|cbn; apply app_nil_r].
    pose proof (zlen_zslice R (Z.of_nat i) (Z.of_nat i + 1) ltac:(lia) ltac:(lia) ltac:(unfold zlen; lia)) as EL. pose proof (nth_zslice R (Z.of_nat i) (Z.of_nat i + 1) 0 p ltac:(lia) ltac:(lia)) as E2.
    destruct (zslice R (Z.of_nat i) (Z.of_nat i + 1)) as [|x [|]]; unfold zlen in EL; cbn in EL; try lia. cbn in E2. rewrite E2. f_equal. replace (Z.to_nat (Z.of_nat i) + 0)%nat with i by lia. now apply nth_error_nth.
  Qed.
  Lemma match_steps T : forall i n pre pos, StronglySorted Z.le T -> 0 <= n -> zlen pre = 3 * i -> 0 <= i -> 3 * (i + zlen T) <= zlen pos -> 3 * (i + zlen T) < 2 ^ 31 -> (forall x, In x T -> exists j, n <= j < count /\ idof j = x) ->
    exists sel, map (fun p => plain_id (id_of p)) sel = T /\ Forall (fun p => In p R) sel /\
      match_loop l posR count T i n (pre ++ skipn (List.length pre) pos) = Ok ((pre ++ concat (map vals sel)) ++ skipn (List.length (pre ++ concat (map vals sel))) pos).
  Proof.
    induction T as [|x T IH]; intros i n pre pos HST Hn Hpre Hi Hroom Hint HT.
    - exists []. cbn [map concat match_loop]. rewrite app_nil_r. repeat split; constructor.
    - cbn [match_loop]. destruct (HT x (or_introl eq_refl)) as (j & Hj & Ej). replace (n <? count) with true by lia. rewrite rd_at by lia. cbn [bind].
      destruct (advance_ok x j (S (Z.to_nat count)) n ltac:(lia) ltac:(lia) Ej ltac:(lia)) as (n' & B & E & G1 & G2). rewrite E. cbn [bind]. rewrite rd_at by lia. cbn [bind].
      assert (idof n' = x) as En.
      { apply Z.le_antisymm; [|exact G1]. rewrite <- Ej. rewrite !Z.shiftr_div_pow2 by lia. apply Z.div_le_mono; [lia|]. apply sorted_at; lia. }
      assert (In (at_ n') coded) as HC by (apply (Permutation_in _ (Permutation_sym HP)); apply nth_In; unfold count, zlen in *; lia).
      apply coded_in in HC. destruct HC as (q & p & EP & EV). assert (q < List.length R)%nat as Hq by (apply nth_error_Some; now rewrite EP). destruct (decode p q Hq) as [D1 D2]. rewrite EV in En |- *. rewrite D1 in En. rewrite D2.
      rewrite zlen_cons in Hroom, Hint. pose proof (zlen_nonneg T). rewrite c_int_ok by lia. cbn [bind]. rewrite c_int_ok by (unfold zlen in HR; lia). cbn [bind]. rewrite (pos_at q p EP). cbn [bind]. pose proof (zlen_nonneg T) as PT.
      assert (zlen (vals p) = 3) as Ev by (unfold pos_vals; rewrite zlen_map; rewrite Forall_forall in H3; apply H3; eapply nth_error_In; exact EP).
      replace (i * 3) with (zlen pre) by lia. rewrite wr_range_ok; [|apply zlen_nonneg|]. 2:{ rewrite Ev, zlen_app. unfold zlen in *. rewrite skipn_length. lia. }
      cbn [bind]. rewrite write_next by (rewrite Ev; lia). apply StronglySorted_inv in HST. destruct HST as [HST HF].
      destruct (IH (i + 1) n' (pre ++ vals p) pos HST ltac:(lia) ltac:(rewrite zlen_app, Ev; lia) ltac:(lia) ltac:(lia) ltac:(lia)) as (sel & E1 & E2 & E3).
      + intros y Hy. destruct (HT y (or_intror Hy)) as (jy & By & Ey). exists jy. split; [|exact Ey]. split; [|lia]. destruct (Z.lt_ge_cases jy n') as [C|C]; [|exact C]. specialize (G2 jy ltac:(lia)). rewrite Forall_forall in HF. specialize (HF y Hy). lia.
      + exists (p :: sel). cbn [map concat]. rewrite E1, En. split; [reflexivity|]. split; [constructor; [eapply nth_error_In; exact EP | exact E2]|]. rewrite E3. now rewrite <- !app_assoc.
  Qed.
  Lemma match_ok T pos : StronglySorted Z.le T -> 3 * zlen T <= zlen pos -> 3 * zlen T < 2 ^ 31 -> (forall x, In x T -> exists p, In p R /\ plain_id (id_of p) = x) ->
    exists sel, map (fun p => plain_id (id_of p)) sel = T /\ Forall (fun p => In p R) sel /\ match_loop l posR count T 0 0 pos = Ok (concat (map vals sel) ++ skipn (List.length (concat (map vals sel))) pos).
  Proof.
    intros HST Hroom Hint HT. destruct (match_steps T 0 0 [] pos HST ltac:(lia) eq_refl ltac:(lia) ltac:(lia) ltac:(lia)) as (sel & E1 & E2 & E3); [|exists sel; cbn [app skipn List.length] in E3; now repeat split].
    intros x Hx. destruct (HT x Hx) as (p & Hp & Ep). apply In_nth_error in Hp. destruct Hp as (i & Ei). assert (i < List.length R)%nat as Hi by (apply nth_error_Some; now rewrite Ei).
    assert (In (plain_id (id_of p) * 2 ^ 29 + Z.of_nat i) l) as HC by (apply (Permutation_in _ HP); apply coded_in; exists i, p; now split).
    apply In_nth_error in HC. destruct HC as (j & Ej). exists (Z.of_nat j). assert (j < List.length l)%nat as Hj by (apply nth_error_Some; now rewrite Ej). split; [unfold count, zlen; lia|]. unfold at_. rewrite Nat2Z.id. rewrite (nth_error_nth l j 0 Ej). rewrite <- Ep. now apply decode.
  Qed.
End Match.
(** particles with different ids are known by their ids *)
Lemma permutation_by_id {A} (g : A -> Z) (all a b : list A) : NoDup (map g all) -> Forall (fun p => In p all) a -> Forall (fun p => In p all) b -> Permutation (map g a) (map g b) -> Permutation a b.
Proof.
  intros HN Ha Hb HP. apply Permutation_map_inv in HP. destruct HP as (c & E & P). apply Permutation_sym in P.
  assert (a = c) as ->; [|exact P].
  assert (Forall (fun p => In p all) c) as Hc by (apply (Permutation_Forall (Permutation_sym P)); exact Hb).
  assert (forall x y, In x all -> In y all -> g x = g y -> x = y) as Inj.
  { clear - HN. induction all as [|z l IH]; intros x y Hx Hy E; [now destruct Hx|]. cbn [map] in HN. apply NoDup_cons_iff in HN. destruct HN as [N1 N2]. destruct Hx as [->|Hx], Hy as [->|Hy]; [reflexivity | | | now apply IH]; exfalso; apply N1; apply in_map_iff; [exists y | exists x]; now split. }
  clear P Hb. revert c E Hc. induction a as [|x a IH]; intros [|y c] E Hc; try discriminate E; [reflexivity|]. cbn [map] in E. injection E as E1 E2. apply Forall_cons_iff in Ha, Hc. f_equal; [apply Inj; tauto | apply IH; tauto].
Qed.
