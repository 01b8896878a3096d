(** Proofs about the matching of ids in readfofgroupsexample.f90 (C69). *)
From Verif.Base Require Import Prelude ListLemmas Order.
From Verif.Fortran Require Import SortModel SortProofs RegionModel FofModel.
From Coq Require Import Permutation Sorted ZifyBool ZifyNat.
Local Open Scope Z_scope.

Lemma argsort_facts arr idx : length idx = length arr -> is_argsort ZOrd arr (map (fun v => v - 1) idx) ->
  (forall i, 0 <= i < zlen arr -> 0 <= g idx i - 1 < zlen arr) /\
  (forall i j, 0 <= i <= j -> j < zlen arr -> g arr (g idx i - 1) <= g arr (g idx j - 1)) /\
  (forall v, 0 <= v < zlen arr -> exists i, 0 <= i < zlen arr /\ g idx i - 1 = v) /\
  (forall i j, 0 <= i < zlen arr -> 0 <= j < zlen arr -> g idx i - 1 = g idx j - 1 -> i = j).
Proof.
  intros Hl H. unfold zlen in *. assert (forall i, 0 <= i < Z.of_nat (length arr) -> nth (Z.to_nat i) (map (fun v => v - 1) idx) (-1) = g idx i - 1) as N.
  { intros i Hi. unfold g. change (-1) with ((fun v => v - 1) 0). now rewrite map_nth. }
  pose proof H as [HP HS]. split; [|split; [|split]].
  - intros i Hi. assert (In (g idx i - 1) (map (fun v => v - 1) idx)) as Hin by (rewrite <- N by exact Hi; apply nth_In; rewrite map_length; lia). pose proof (is_argsort_In _ _ _ _ H Hin) as R. unfold zlen in R. exact R.
  - intros i j Hij Hj. pose proof (is_argsort_sorted ZOrd arr _ 0 H) as S. unfold sorted in S.
    destruct (Z.eq_dec i j) as [->|Hn]; [lia|].
    assert (forall l a b, StronglySorted (fun a b => leb ZOrd a b = true) l -> (a < b)%nat -> (b < length l)%nat -> nth a l 0 <= nth b l 0) as M.
    { clear. induction l as [|y l IH]; intros a b HS Hab Hb; [cbn in Hb; lia|]. apply StronglySorted_inv in HS. destruct HS as [HS HF]. destruct b as [|b]; [lia|]. cbn [length] in Hb. destruct a as [|a]; cbn [nth].
      - rewrite Forall_forall in HF. assert (leb ZOrd y (nth b l 0) = true) as Q by (apply HF; apply nth_In; lia). cbn in Q. lia.
      - apply IH; [exact HS | lia | lia]. }
    specialize (M _ (Z.to_nat i) (Z.to_nat j) S ltac:(lia)). rewrite map_length, map_length in M. specialize (M ltac:(lia)).
    assert (forall k, 0 <= k < Z.of_nat (length arr) -> nth (Z.to_nat k) (map (fun i => nth (Z.to_nat i) arr 0) (map (fun v => v - 1) idx)) 0 = g arr (g idx k - 1)) as Q.
    { intros k Hk. rewrite (nth_indep _ 0 ((fun i => nth (Z.to_nat i) arr 0) (-1))) by (rewrite !map_length; lia). rewrite (map_nth (fun i => nth (Z.to_nat i) arr 0)), N by exact Hk. reflexivity. }
    rewrite !Q in M by lia. exact M.
  - intros v Hv. assert (In v (map (fun v => v - 1) idx)) as Hin by (apply (Permutation_in _ (Permutation_sym HP)); apply In_zseq; lia).
    apply (In_nth _ _ (-1)) in Hin. destruct Hin as (k & Hk & E). rewrite map_length in Hk. exists (Z.of_nat k). split; [lia|]. rewrite <- N by lia. now rewrite Nat2Z.id.
  - intros i j Hi Hj E. assert (NoDup (map (fun v => v - 1) idx)) as ND by (apply (Permutation_NoDup (Permutation_sym HP)); apply NoDup_zseq).
    rewrite <- (N i Hi), <- (N j Hj) in E. rewrite (NoDup_nth _ (-1)) in ND. specialize (ND (Z.to_nat i) (Z.to_nat j)). rewrite map_length in ND. specialize (ND ltac:(lia) ltac:(lia) E). lia.
Qed.

Section Match.
  Variables ids x y z pidx groupids gidx : list Z.
  Hypothesis Lx : zlen x = zlen ids.
  Hypothesis Ly : zlen y = zlen ids.
  Hypothesis Lz : zlen z = zlen ids.
  Hypothesis Lp : length pidx = length ids.
  Hypothesis Lg : length gidx = length groupids.
  Hypothesis Hp : is_argsort ZOrd ids (map (fun v => v - 1) pidx).
  Hypothesis Hg : is_argsort ZOrd groupids (map (fun v => v - 1) gidx).
  Hypothesis Hne : 0 < zlen ids.
  Let np := zlen ids.
  Let ng := zlen groupids.
  Definition P k := g ids (g pidx k - 1).
  Definition G i := g groupids (g gidx i - 1).
  Lemma p_range i : 0 <= i < np -> 0 <= g pidx i - 1 < np.
  Proof. apply (argsort_facts ids pidx Lp Hp). Qed.
  Lemma g_range i : 0 <= i < ng -> 0 <= g gidx i - 1 < ng.
  Proof. apply (argsort_facts groupids gidx Lg Hg). Qed.
  Lemma advance_ok id : forall fuel j, 1 <= j <= np -> np - j < Z.of_nat fuel -> exists j', advance ids pidx fuel id j = Ok j' /\ j <= j' <= np /\
    (forall k, j - 1 <= k < j' - 1 -> P k < id) /\ (id <= P (j' - 1) \/ j' = np).
  Proof.
    induction fuel as [|fuel IH]; intros j Hj Hf; [lia|]. cbn [advance]. rewrite fget_ok by (unfold np, zlen in *; lia). cbn [bind]. rewrite fget_ok by (apply p_range; lia). cbn [bind]. fold (P (j - 1)). fold np.
    destruct ((P (j - 1) <? id) && (j <? np)) eqn:C.
    - destruct (IH (j + 1) ltac:(lia) ltac:(lia)) as (j' & E & H1 & H2 & H3). exists j'. split; [exact E|]. split; [lia|]. split; [|exact H3]. intros k Hk. destruct (Z.eq_dec k (j - 1)) as [->|]; [lia | apply H2; lia].
    - exists j. split; [reflexivity|]. split; [lia|]. split; [intros; lia | lia].
  Qed.

  Definition found i := exists k, 0 <= k < np /\ g ids k = G i.
  Definition same (m : matching) i := exists q, 0 <= q < np /\ g ids q = G i /\ g (m_x m) (g gidx i - 1) = g x q /\ g (m_y m) (g gidx i - 1) = g y q /\ g (m_z m) (g gidx i - 1) = g z q.
  Definition inv (t : Z) (m : matching) : Prop :=
    1 <= m_j m <= np /\ (t = 0 /\ m_j m = 1 \/ 0 < t /\ forall k, 0 <= k < m_j m - 1 -> P k < G (t - 1)) /\
    zlen (m_x m) = ng /\ zlen (m_y m) = ng /\ zlen (m_z m) = ng /\ m_n m <= t /\
    (m_n m = t <-> forall i, 0 <= i < t -> found i) /\ forall i, 0 <= i < t -> found i -> same m i.
  Lemma step_ok t m : 0 <= t < ng -> inv t m -> exists m', match_one ids x y z pidx groupids gidx m (t + 1) = Ok m' /\ inv (t + 1) m'.
  Proof.
    intros Ht (I1 & I2 & L1 & L2 & L3 & I3 & I4 & I5). unfold match_one. replace (t + 1 - 1) with t by lia.
    rewrite fget_ok by (unfold ng, zlen in *; lia). cbn [bind]. pose proof (g_range t Ht) as Gr. rewrite fget_ok by exact Gr. cbn [bind]. fold (G t).
    destruct (advance_ok (G t) (S (length pidx)) (m_j m) I1 ltac:(unfold np, zlen; lia)) as (j & Ej & J1 & J2 & J3). rewrite Ej. cbn [bind].
    rewrite fget_ok by (unfold np, zlen in *; lia). cbn [bind]. pose proof (p_range (j - 1) ltac:(lia)) as Pr. fold np in Lx, Ly, Lz. rewrite fget_ok by exact Pr. cbn [bind]. fold (P (j - 1)).
    rewrite fget_ok by (rewrite Lx; exact Pr). cbn [bind]. rewrite fset_ok by (rewrite L1; exact Gr). cbn [bind].
    rewrite fget_ok by (rewrite Ly; exact Pr). cbn [bind]. rewrite fset_ok by (rewrite L2; exact Gr). cbn [bind].
    rewrite fget_ok by (rewrite Lz; exact Pr). cbn [bind]. rewrite fset_ok by (rewrite L3; exact Gr). cbn [bind]. eexists. split; [reflexivity|].
    destruct (argsort_facts ids pidx Lp Hp) as (_ & PM & PS & _). destruct (argsort_facts groupids gidx Lg Hg) as (_ & GM & _ & GI).
    assert (found t <-> G t = P (j - 1)) as Hfound.
    { split; [|intros E; exists (g pidx (j - 1) - 1); split; [exact Pr | symmetry; exact E]]. intros (q & Hq & E). destruct (PS q Hq) as (k & Hk & Ek).
      assert (P k = G t) as EP by (unfold P; rewrite Ek; exact E).
      assert (j - 1 <= k) as Hjk.
      { destruct (Z.lt_ge_cases k (j - 1)) as [C|C]; [|exact C]. exfalso. destruct (Z.lt_ge_cases k (m_j m - 1)) as [D|D]; [|specialize (J2 k ltac:(lia)); lia].
        destruct I2 as [[_ I2]|[It I2]]; [lia|]. specialize (I2 k ltac:(lia)). pose proof (GM (t - 1) t ltac:(lia) ltac:(fold ng; lia)) as Q. fold (G (t - 1)) (G t) in Q. lia. }
      pose proof (PM (j - 1) k ltac:(lia) ltac:(fold np; lia)) as Q. fold (P (j - 1)) (P k) in Q. destruct J3 as [J3|J3]; [lia|]. assert (k = j - 1) as -> by (fold np in Hk; lia). congruence. }
    unfold inv. cbn [m_j m_n m_x m_y m_z]. rewrite !zlen_set. split; [lia|]. split.
    { right. split; [lia|]. intros k Hk. replace (t + 1 - 1) with t by lia. destruct (Z.lt_ge_cases k (m_j m - 1)) as [D|D]; [|apply J2; lia].
      destruct I2 as [[_ I2]|[It I2]]; [lia|]. specialize (I2 k ltac:(lia)). pose proof (GM (t - 1) t ltac:(lia) ltac:(fold ng; lia)) as Q. fold (G (t - 1)) (G t) in Q. lia. }
    split; [exact L1|]. split; [exact L2|]. split; [exact L3|]. split; [destruct (G t =? P (j - 1)); lia|]. split.
    { destruct (Z.eqb_spec (G t) (P (j - 1))) as [C|C].
      - split.
        + intros H i Hi. destruct (Z.eq_dec i t) as [->|Hn]; [now apply Hfound|]. apply I4; lia.
        + intros H. assert (m_n m = t); [|lia]. apply I4. intros i Hi. apply H. lia.
      - split; [lia|]. intro H. exfalso. apply C, Hfound, H. lia. }
    intros i Hi Hfi. unfold same. cbn [m_x m_y m_z]. pose proof (g_range i ltac:(lia)) as Gi. rewrite !g_set by (rewrite ?L1, ?L2, ?L3; lia).
    destruct (Z.eqb_spec (g gidx i - 1) (g gidx t - 1)) as [C|C].
    - assert (i = t) as -> by (apply GI; [fold ng; lia | fold ng; lia | exact C]). exists (g pidx (j - 1) - 1). split; [exact Pr|]. split; [symmetry; now apply Hfound|]. now split.
    - assert (i <> t) by congruence. destruct (I5 i ltac:(lia) Hfi) as (q & Hq & Q). now exists q.
  Qed.
  Lemma matching_ok a : zlen a = ng -> exists m, foldR (match_one ids x y z pidx groupids gidx) (zseq 1 (length groupids)) {| m_j := 1; m_n := 0; m_x := a; m_y := a; m_z := a |} = Ok m /\ inv ng m.
  Proof.
    intro La.
    assert (forall n t m, 0 <= t -> t + Z.of_nat n = ng -> inv t m -> exists m', foldR (match_one ids x y z pidx groupids gidx) (zseq (t + 1) n) m = Ok m' /\ inv ng m') as Q.
    { induction n as [|n IH]; intros t m H1 H2 Hi; [exists m; split; [reflexivity|]; now replace ng with t by lia|]. cbn [zseq foldR]. destruct (step_ok t m ltac:(lia) Hi) as (m' & E & Hi'). rewrite E. cbn [bind]. apply IH; [lia | lia | exact Hi']. }
    apply (Q (length groupids) 0); [lia | unfold ng, zlen; lia|]. unfold inv. cbn [m_j m_n m_x m_y m_z]. fold np in Hne. split; [lia|]. split; [now left|]. do 3 (split; [exact La|]). split; [lia|]. split; [split; [intros; lia | reflexivity]|]. intros; lia.
  Qed.
  (** what the caller sees *)
  Lemma matching_final a : zlen a = ng -> exists m, foldR (match_one ids x y z pidx groupids gidx) (zseq 1 (length groupids)) {| m_j := 1; m_n := 0; m_x := a; m_y := a; m_z := a |} = Ok m /\
    (incl groupids ids -> ng <= m_n m /\ zlen (m_x m) = ng /\ zlen (m_y m) = ng /\ zlen (m_z m) = ng /\
       forall v, 0 <= v < ng -> exists q, 0 <= q < np /\ g ids q = g groupids v /\ g (m_x m) v = g x q /\ g (m_y m) v = g y q /\ g (m_z m) v = g z q) /\
    (~ incl groupids ids -> m_n m < ng).
  Proof.
    intro La. destruct (matching_ok a La) as (m & E & _ & _ & L1 & L2 & L3 & I3 & I4 & I5). exists m. split; [exact E|].
    destruct (argsort_facts groupids gidx Lg Hg) as (_ & _ & GS & _).
    assert (incl groupids ids <-> forall i, 0 <= i < ng -> found i) as Hin.
    { split.
      - intros H i Hi. pose proof (g_range i Hi) as Gr. assert (In (G i) ids) as Hi2 by (apply H; unfold G; set (v := g gidx i - 1) in *; unfold g; apply nth_In; unfold ng, zlen in Gr; lia).
        apply (In_nth _ _ 0) in Hi2. destruct Hi2 as (k & Hk & Ek). exists (Z.of_nat k). unfold np, zlen, g. rewrite Nat2Z.id. split; [lia | exact Ek].
      - intros H v Hv. apply (In_nth _ _ 0) in Hv. destruct Hv as (k & Hk & Ek). destruct (GS (Z.of_nat k) ltac:(unfold zlen; lia)) as (i & Hi & Ei). destruct (H i Hi) as (q & Hq & Eq).
        unfold G in Eq. rewrite Ei in Eq. unfold g at 2 in Eq. rewrite Nat2Z.id, Ek in Eq. rewrite <- Eq. unfold g. apply nth_In. unfold np, zlen in Hq. lia. }
    split.
    - intro H. rewrite Hin in H. assert (m_n m = ng) as Em by (now apply I4). split; [lia|]. do 3 (split; [assumption|]). intros v Hv. destruct (GS v Hv) as (i & Hi & Ei).
      destruct (I5 i Hi (H i Hi)) as (q & Hq & Q). exists q. unfold G in Q. rewrite Ei in Q. split; [exact Hq | exact Q].
    - intro H. rewrite Hin in H. assert (m_n m <> ng) by (intro Q; apply H; now apply I4). lia.
  Qed.
End Match.
