(** Proofs about the interval ends (index_trees.py:92-113). *)
From Verif.Base Require Import Prelude Order ListLemmas.
From Verif.Index Require Import IndexModel LinkProofs ForestProofs WalkProofs.
From Coq Require Import ZifyBool ZifyNat.
Local Open Scope Z_scope.

Section Ends.
  Context (dp pp : list Z) (ch : Z -> list Z).
  Notation n := (length dp).
  Notation ins := (ins n).
  Notation D := (D dp).
  Notation reach := (reach n D).
  Notation sub := (sub n ch).
  Context (Hpp : zlen pp = zlen dp).
  Context (HD : forall i, ins i -> D i = -1 \/ ins (D i)).
  Context (Hch : forall j c, ins j -> In c (ch j) <-> ins c /\ D c = j).
  Context (Hnd : forall j, NoDup (ch j)).
  Context (Hfirst : forall j, ins j -> gz pp j = hd (-1) (ch j)).
  Set Default Proof Using "All".

  Lemma ins_z' i : ins i -> 0 <= i < zlen dp.
  Proof. unfold ForestProofs.ins, zlen. lia. Qed.

  (** the loop never fails *)
  Lemma update_total : forall order endm lastp, (forall i, In i order -> ins i) -> zlen endm = zlen dp -> zlen lastp = zlen dp ->
    exists e l, foldM (update_ends pp dp) order (endm, lastp) = Ok (e, l) /\ zlen e = zlen dp /\ zlen l = zlen dp.
  Proof.
    induction order as [|x order IH]; intros endm lastp Hin He Hl; [exists endm, lastp; auto|].
    assert (ins x) as Hx by (apply Hin; now left). pose proof (ins_z' _ Hx). cbn [foldM]. unfold update_ends at 1. rewrite gz_py by lia. cbn [bind]. change (gz dp x) with (D x).
    destruct (HD x Hx) as [E|Hd].
    - rewrite E. cbn. apply IH; auto. intros; apply Hin; now right.
    - pose proof (ins_z' _ Hd). replace (0 <=? D x) with true by lia. rewrite !gz_py by lia. cbn [bind]. rewrite py_set_ok by lia. cbn [bind].
      destruct (gz pp (D x) =? x).
      + rewrite ?gz_py by lia. cbn [bind]. rewrite py_set_ok by lia. cbn [bind]. apply IH; rewrite ?zlen_set_nth; auto. intros; apply Hin; now right.
      + cbn [bind]. apply IH; rewrite ?zlen_set_nth; auto. intros; apply Hin; now right.
  Qed.

  (** main branch *)
  Fixpoint mbr (k : nat) (j : Z) : list Z :=
    match k with
    | O => []
    | S k => j :: match ch j with [] => [] | c :: _ => mbr k c end
    end.
  Lemma mbr_stable : forall k k' m j, reach m j -> (n - m <= k)%nat -> (n - m <= k')%nat -> mbr k j = mbr k' j.
  Proof.
    induction k as [|k IH]; intros k' m j Hr Hk Hk'; pose proof (reach_bound n D ch HD Hch Hnd _ _ Hr); [lia|]. destruct k' as [|k']; [lia|]. cbn [mbr]. f_equal.
    destruct (ch j) as [|c rest] eqn:E; [reflexivity|]. apply (IH k' (S m)); [apply (reach_child n D ch HD Hch Hnd m j); [assumption | rewrite E; now left] | lia | lia].
  Qed.
  Definition main (j : Z) : list Z := mbr n j.
  Lemma main_eq m j : reach m j -> main j = j :: match ch j with [] => [] | c :: _ => main c end.
  Proof.
    intro Hr. unfold main at 1. rewrite (mbr_stable n (S n) m j Hr) by lia. reflexivity.
  Qed.
  Lemma main_le m j : reach m j -> (1 <= length (main j) <= length (sub j))%nat.
  Proof.
    revert m j. apply (tree_ind n D ch HD Hch Hnd (fun j => (1 <= length (main j) <= length (sub j))%nat)). intros m j Hr IH.
    rewrite (main_eq m j Hr), (sub_eq n D ch HD Hch Hnd m j Hr). cbn [length]. destruct (ch j) as [|c rest] eqn:E; [cbn; lia|].
    cbn [flat_map]. rewrite app_length. specialize (IH c (or_introl eq_refl)). lia.
  Qed.

  (** ** With every halo numbered *)
  Context (finals : list Z) (Hfin : forall f, In f finals <-> ins f /\ D f = -1) (Hfnd : NoDup finals).
  Notation whole := (whole n ch finals).
  Context (df : list Z) (Hdf : zlen df = zlen dp) (Hnum : forall k, (k < length whole)%nat -> gz df (nth k whole 0) = 1 + Z.of_nat k).

  Lemma df_split a x b : whole = a ++ x :: b -> gz df x = 1 + zlen a.
  Proof.
    intro E. specialize (Hnum (length a)). rewrite E in Hnum at 2. rewrite nth_middle in Hnum. apply Hnum. rewrite E, app_length. cbn. lia.
  Qed.
  Lemma whole_pos x : In x whole -> exists k, (k < length whole)%nat /\ nth k whole 0 = x /\ gz df x = 1 + Z.of_nat k.
  Proof. intro H. apply (In_nth _ _ 0) in H. destruct H as (k & Hk & E). exists k. repeat split; auto. rewrite <- E. now apply Hnum. Qed.
  Lemma df_inj x y : In x whole -> In y whole -> gz df x = gz df y -> x = y.
  Proof.
    intros Hx Hy E. apply whole_pos in Hx, Hy. destruct Hx as (k & _ & <- & Ek). destruct Hy as (k' & _ & <- & Ek'). f_equal. lia.
  Qed.

  Definition Lp (j : Z) : Z := gz df j + zlen (sub j) - 1.
  Definition Ep (j : Z) : Z := gz df j + zlen (main j) - 1.

  Lemma sub_interval m j x : reach m j -> In x whole -> In x (sub j) <-> gz df j <= gz df x <= Lp j.
  Proof.
    intros Hr Hx. destruct (whole_split n D ch HD Hch Hnd finals Hfin Hfnd m j Hr) as (a & b & E).
    assert (gz df j = 1 + zlen a) as Ej.
    { rewrite (sub_eq n D ch HD Hch Hnd m j Hr) in E. apply (df_split a j (flat_map sub (ch j) ++ b)). exact E. }
    destruct (whole_pos x Hx) as (k & Hk & Enk & Ek). unfold Lp. rewrite Ej, Ek. split.
    - intro Hin. apply (In_nth _ _ 0) in Hin. destruct Hin as (q & Hq & Eq).
      assert (k = (length a + q)%nat) as ->.
      { pose proof (whole_nodup n D ch HD Hch Hnd finals Hfin Hfnd) as Hw. rewrite (NoDup_nth _ 0) in Hw. apply Hw; [assumption | rewrite E, !app_length; lia |].
        rewrite Enk, E, app_nth2 by lia. rewrite app_nth1 by lia. rewrite <- Eq. f_equal. lia. }
      unfold zlen. lia.
    - unfold zlen. intro Hi. rewrite <- Enk, E, app_nth2 by lia. rewrite app_nth1 by lia. apply nth_In. lia.
  Qed.

  Lemma sub_whole m j x : reach m j -> In x (sub j) -> In x whole.
  Proof. intros Hr Hx. destruct (whole_split n D ch HD Hch Hnd finals Hfin Hfnd m j Hr) as (a & b & ->). rewrite !in_app_iff. tauto. Qed.

  Lemma in_whole m j : reach m j -> In j whole.
  Proof. intro Hr. apply (whole_In n D ch HD Hch Hnd finals Hfin Hfnd). now exists m. Qed.

  Lemma sub_self m j : reach m j -> In j (sub j).
  Proof. intro Hr. rewrite (sub_eq n D ch HD Hch Hnd m j Hr). now left. Qed.

  (** consecutive children *)
  Lemma child_pos m j l1 c l2 : reach m j -> ch j = l1 ++ c :: l2 -> gz df c = gz df j + 1 + zlen (flat_map sub l1).
  Proof.
    intros Hr Hc. destruct (whole_split n D ch HD Hch Hnd finals Hfin Hfnd m j Hr) as (a & b & E). rewrite (sub_eq n D ch HD Hch Hnd m j Hr), Hc, flat_map_app in E. cbn [flat_map] in E.
    assert (reach (S m) c) as Hrc by (apply (reach_child n D ch HD Hch Hnd m j); [assumption | rewrite Hc; apply in_elt]).
    rewrite (sub_eq n D ch HD Hch Hnd _ c Hrc) in E. cbn [app] in E.
    rewrite (df_split a j _ E). rewrite (df_split (a ++ j :: flat_map sub l1) c ((flat_map sub (ch c) ++ flat_map sub l2) ++ b)).
    - rewrite zlen_app, zlen_cons. lia.
    - rewrite E, <- !app_assoc. cbn [app]. now rewrite <- !app_assoc.
  Qed.

  Lemma Lp_child m j c : reach m j -> In c (ch j) -> gz df j < gz df c /\ Lp c <= Lp j.
  Proof.
    intros Hr Hc. apply in_split in Hc. destruct Hc as (l1 & l2 & Hc). pose proof (child_pos m j l1 c l2 Hr Hc) as E. unfold Lp.
    rewrite (sub_eq n D ch HD Hch Hnd m j Hr), zlen_cons, Hc, flat_map_app. cbn [flat_map]. rewrite !zlen_app. pose proof (zlen_nonneg (flat_map sub l1)). pose proof (zlen_nonneg (flat_map sub l2)). lia.
  Qed.

  Lemma Lp_last m j l1 c : reach m j -> ch j = l1 ++ [c] -> Lp j = Lp c.
  Proof.
    intros Hr Hc. pose proof (child_pos m j l1 c [] Hr Hc) as E. unfold Lp. rewrite (sub_eq n D ch HD Hch Hnd m j Hr), zlen_cons, Hc, flat_map_app. cbn [flat_map]. rewrite app_nil_r, zlen_app. lia.
  Qed.

  Lemma Ep_first m j c rest : reach m j -> ch j = c :: rest -> Ep j = Ep c.
  Proof.
    intros Hr Hc. pose proof (child_pos m j [] c rest Hr Hc) as E. unfold Ep. rewrite (main_eq m j Hr), zlen_cons, Hc, E. change (zlen (flat_map sub [])) with 0. lia.
  Qed.

  Lemma main_nth m j : reach m j -> forall k, (k < length (main j))%nat -> gz df (nth k (main j) 0) = gz df j + Z.of_nat k.
  Proof.
    revert m j. apply (tree_ind n D ch HD Hch Hnd (fun j => forall k, (k < length (main j))%nat -> gz df (nth k (main j) 0) = gz df j + Z.of_nat k)).
    intros m j Hr IH k. rewrite (main_eq m j Hr). destruct k as [|k]; cbn [nth length]; [lia|]. destruct (ch j) as [|c rest] eqn:E; [cbn; lia|].
    intro Hk. rewrite (IH c (or_introl eq_refl)) by lia. rewrite (child_pos m j [] c rest Hr E). change (zlen (flat_map sub [])) with 0. lia.
  Qed.

  Context (Hall : forall j, ins j -> exists m, reach m j).

  Definition good (P : list Z) (el : list Z * list Z) : Prop :=
    let (endm, lastp) := el in
    zlen endm = zlen dp /\ zlen lastp = zlen dp /\
    forall j, ins j ->
      (gz df j <= gz lastp j /\ (forall c, In c P -> D c = j -> Lp c <= gz lastp j) /\
       (gz lastp j = gz df j \/ exists c, In c P /\ D c = j /\ gz lastp j = Lp c)) /\
      (gz endm j = match ch j with [] => gz df j | c :: _ => if in_dec Z.eq_dec c P then Ep j else gz df j end).

  Lemma good_done P endm lastp x : good P (endm, lastp) -> (forall i, In i P -> ins i) -> ins x -> (forall c, In c (ch x) -> In c P) -> gz lastp x = Lp x /\ gz endm x = Ep x.
  Proof.
    intros (_ & _ & H) HP Hx Hc. destruct (Hall x Hx) as [m Hr]. destruct (H x Hx) as [(H1 & H2 & H3) H4]. split.
    - destruct (ch x) as [|c0 rest] eqn:E.
      + assert (Lp x = gz df x) as -> by (unfold Lp; rewrite (sub_eq n D ch HD Hch Hnd m x Hr), E; cbn; lia).
        destruct H3 as [H3|(c & Hcp & Hcd & _)]; [assumption|]. exfalso. assert (In c (ch x)) as Hin by (apply Hch; auto). rewrite E in Hin. destruct Hin.
      + destruct (exists_last (l := ch x)) as (l1 & c & El); [rewrite E; discriminate|]. rewrite <- E in Hc.
        assert (In c (ch x)) as Hcx by (rewrite El; apply in_elt). pose proof Hcx as Hcx'. apply Hch in Hcx'; [|assumption].
        assert (Lp c <= gz lastp x) as Hlow by (apply H2; [now apply Hc | tauto]). rewrite <- (Lp_last m x l1 c Hr El) in Hlow.
        destruct H3 as [H3|(c' & Hcp & Hcd & H3)].
        * pose proof (Lp_child m x c Hr Hcx). pose proof (main_le m x Hr). unfold Lp in *. unfold zlen in *. lia.
        * assert (In c' (ch x)) as Hc' by (apply Hch; auto). pose proof (Lp_child m x c' Hr Hc'). lia.
    - rewrite H4. destruct (ch x) as [|c0 rest] eqn:E.
      + unfold Ep. rewrite (main_eq m x Hr), E. cbn. lia.
      + destruct (in_dec Z.eq_dec c0 P) as [|Hn]; [reflexivity|]. exfalso. apply Hn, Hc. now left.
  Qed.

  Lemma good_step P x el : good P el -> (forall i, In i P -> ins i) -> ins x -> ~ In x P -> (forall c, In c (ch x) -> In c P) ->
    exists el', update_ends pp dp el x = Ok el' /\ good (P ++ [x]) el'.
  Proof.
    destruct el as [endm lastp]. intros Hg HP Hx Hnx Hc. destruct (good_done P endm lastp x Hg HP Hx Hc) as [HL HE]. destruct Hg as (He & Hl & Hg).
    pose proof (ins_z' _ Hx). unfold update_ends. rewrite gz_py by lia. cbn [bind]. change (gz dp x) with (D x). destruct (HD x Hx) as [E|Hd].
    - rewrite E. cbn. exists (endm, lastp). split; [reflexivity|]. split; [assumption|]. split; [assumption|]. intros j Hj. destruct (Hg j Hj) as [(H1 & H2 & H3) H4]. split; [split; [|split]|].
      + assumption.
      + intros c Hcp Hcd. apply in_app_or in Hcp. destruct Hcp as [Hcp|[<-|[]]]; [now apply H2|]. unfold ForestProofs.ins in Hj. lia.
      + destruct H3 as [H3|(c & ? & ? & ?)]; [now left|]. right. exists c. split; [apply in_or_app; now left | auto].
      + rewrite H4. destruct (ch j) as [|c rest] eqn:Ec; [reflexivity|].
        assert (c <> x) as Hcx. { intros ->. assert (In x (ch j)) as Hin by (rewrite Ec; now left). apply Hch in Hin; [|assumption]. unfold ForestProofs.ins in Hj. lia. }
        destruct (in_dec Z.eq_dec c P) as [Hi|Hi], (in_dec Z.eq_dec c (P ++ [x])) as [Hi'|Hi']; try reflexivity; exfalso; rewrite in_app_iff in Hi'; cbn in Hi'; [tauto|].
        destruct Hi' as [?|[?|[]]]; [tauto | congruence].
    - set (j := D x) in *. pose proof (ins_z' _ Hd). replace (0 <=? j) with true by lia. rewrite !gz_py by lia. cbn [bind]. rewrite py_set_ok by lia. cbn [bind].
      destruct (Hall j Hd) as [m Hr]. assert (In x (ch j)) as Hxj by (apply Hch; auto).
      assert (forall i, ins i -> (gz df i <= gz (set_nth lastp (Z.to_nat j) (Z.max (gz lastp x) (gz lastp j))) i /\
         (forall c, In c (P ++ [x]) -> D c = i -> Lp c <= gz (set_nth lastp (Z.to_nat j) (Z.max (gz lastp x) (gz lastp j))) i) /\
         (gz (set_nth lastp (Z.to_nat j) (Z.max (gz lastp x) (gz lastp j))) i = gz df i \/ exists c, In c (P ++ [x]) /\ D c = i /\ gz (set_nth lastp (Z.to_nat j) (Z.max (gz lastp x) (gz lastp j))) i = Lp c))) as HlastOK.
      { intros i Hi. pose proof (ins_z' _ Hi). rewrite gz_set by lia. rewrite HL. destruct (Hg i Hi) as [(H1' & H2' & H3') _]. destruct (Z.eqb_spec i j) as [->|Hne].
        - split; [lia|]. split.
          + intros c Hcp Hcd. apply in_app_or in Hcp. destruct Hcp as [Hcp|[<-|[]]]; [specialize (H2' c Hcp Hcd); lia | lia].
          + destruct (Z_le_gt_dec (gz lastp j) (Lp x)) as [Hle|Hgt].
            * right. exists x. split; [apply in_or_app; right; now left|]. split; [reflexivity | lia].
            * rewrite Z.max_r by lia. destruct H3' as [H3'|(c & ? & ? & ?)]; [now left|]. right. exists c. split; [apply in_or_app; now left | auto].
        - split; [assumption|]. split.
          + intros c Hcp Hcd. apply in_app_or in Hcp. destruct Hcp as [Hcp|[<-|[]]]; [now apply H2' | exfalso; apply Hne; symmetry; exact Hcd].
          + destruct H3' as [H3'|(c & ? & ? & ?)]; [now left|]. right. exists c. split; [apply in_or_app; now left | auto]. }
      rewrite Hfirst by assumption. destruct (ch j) as [|c0 rest] eqn:Ec; [destruct Hxj|]. cbn [hd]. destruct (Z.eqb_spec c0 x) as [->|Hne].
      + rewrite ?gz_py by lia. cbn [bind]. rewrite py_set_ok by lia. cbn [bind]. eexists. split; [reflexivity|]. split; [now rewrite zlen_set_nth|]. split; [now rewrite zlen_set_nth|].
        intros i Hi. split; [now apply HlastOK|]. pose proof (ins_z' _ Hi). rewrite gz_set by lia. rewrite HE. destruct (Hg i Hi) as [_ H4]. destruct (Z.eqb_spec i j) as [->|Hij].
        * rewrite H4, Ec. destruct (in_dec Z.eq_dec x P) as [|_]; [tauto|]. destruct (in_dec Z.eq_dec x (P ++ [x])) as [_|Hno]; [|exfalso; apply Hno, in_or_app; right; now left].
          rewrite (Ep_first m j x rest Hr Ec). assert (gz df j < gz df x) as Hlt by (apply (Lp_child m j x Hr); rewrite Ec; now left).
          destruct (Hall x Hx) as [mx Hrx]. pose proof (main_le mx x Hrx). unfold Ep. unfold zlen. lia.
        * rewrite H4. destruct (ch i) as [|c rest'] eqn:Eci; [reflexivity|].
          assert (c <> x) as Hcx. { intros ->. assert (In x (ch i)) as Hin by (rewrite Eci; now left). apply Hch in Hin; [|assumption]. destruct Hin as [_ Hin]. apply Hij. symmetry. exact Hin. }
          destruct (in_dec Z.eq_dec c P) as [Hi1|Hi1], (in_dec Z.eq_dec c (P ++ [x])) as [Hi'|Hi']; try reflexivity; exfalso; rewrite in_app_iff in Hi'; cbn in Hi'; [tauto|].
          destruct Hi' as [?|[?|[]]]; [tauto | congruence].
      + cbn [bind]. eexists. split; [reflexivity|]. split; [assumption|]. split; [now rewrite zlen_set_nth|]. intros i Hi. split; [now apply HlastOK|].
        destruct (Hg i Hi) as [_ H4]. rewrite H4. destruct (ch i) as [|c rest'] eqn:Eci; [reflexivity|].
        assert (c <> x) as Hcx. { intros ->. assert (In x (ch i)) as Hin by (rewrite Eci; now left). apply Hch in Hin; [|assumption]. destruct Hin as [_ Hin]. change (D x) with j in Hin. subst i. rewrite Ec in Eci. congruence. }
        destruct (in_dec Z.eq_dec c P) as [Hi1|Hi1], (in_dec Z.eq_dec c (P ++ [x])) as [Hi'|Hi']; try reflexivity; exfalso; rewrite in_app_iff in Hi'; cbn in Hi'; [tauto|].
        destruct Hi' as [?|[?|[]]]; [tauto | congruence].
  Qed.

  Lemma good_all : forall rest P el, good P el -> NoDup (P ++ rest) -> (forall i, In i (P ++ rest) -> ins i) ->
    (forall i, ins i -> In i (P ++ rest)) ->
    StronglySorted (fun i j => gz df j <= gz df i) rest -> (forall i j, In i P -> In j rest -> gz df j <= gz df i) ->
    exists el', foldM (update_ends pp dp) rest el = Ok el' /\ good (P ++ rest) el'.
  Proof.
    induction rest as [|x rest IH]; intros P el Hg Hn Hin Hcov Hs Hp.
    - exists el. rewrite app_nil_r. split; [reflexivity | assumption].
    - apply StronglySorted_inv in Hs. destruct Hs as [Hs Hx]. rewrite Forall_forall in Hx.
      assert (P ++ x :: rest = (P ++ [x]) ++ rest) as Ep' by (rewrite <- app_assoc; reflexivity).
      assert (ins x) as Hix by (apply Hin, in_elt).
      destruct (good_step P x el Hg) as (el' & E & Hg').
      + intros i Hi. apply Hin, in_or_app. now left.
      + assumption.
      + intro Hc. apply NoDup_remove_2 in Hn. apply Hn, in_or_app. now left.
      + intros c Hc. destruct (Hall x Hix) as [m Hr]. pose proof (Lp_child m x c Hr Hc) as [Hlt _].
        apply Hch in Hc; [|assumption]. destruct Hc as [Hc _]. apply Hcov in Hc. apply in_app_or in Hc. destruct Hc as [Hc|[<-|Hc]]; [assumption | lia |]. apply Hx in Hc. lia.
      + cbn [foldM]. rewrite E. cbn [bind]. rewrite Ep' in *. apply IH; try assumption.
        intros i j Hi Hj. apply in_app_or in Hi. destruct Hi as [Hi|[<-|[]]]; [apply Hp; [assumption | now right] | now apply Hx].
  Qed.

  Lemma ends_ok order : Permutation order (zseq 0 n) -> StronglySorted (fun i j => gz df j <= gz df i) order ->
    exists e l, foldM (update_ends pp dp) order (df, df) = Ok (e, l) /\ zlen e = zlen dp /\ zlen l = zlen dp /\
      forall j, ins j -> gz l j = Lp j /\ gz e j = Ep j.
  Proof.
    intros Hp Hs. destruct (good_all order [] (df, df)) as ([e l] & E & Hg).
    - split; [assumption|]. split; [assumption|]. intros j Hj. split; [split; [lia | split; [intros c [] | now left]]|]. destruct (ch j); [reflexivity|]. destruct (in_dec Z.eq_dec z []) as [[]|]. reflexivity.
    - apply (Permutation_NoDup (Permutation_sym Hp)), NoDup_zseq.
    - intros i Hi. apply (Permutation_in _ Hp) in Hi. apply In_zseq in Hi. unfold ForestProofs.ins. lia.
    - intros i Hi. apply (Permutation_in _ (Permutation_sym Hp)). apply In_zseq. unfold ForestProofs.ins in Hi. lia.
    - assumption.
    - intros i j [].
    - exists e, l. split; [assumption|]. split; [apply Hg|]. split; [apply Hg|]. intros j Hj. apply (good_done _ _ _ j Hg).
      + intros i Hi. apply (Permutation_in _ Hp) in Hi. apply In_zseq in Hi. unfold ForestProofs.ins. lia.
      + assumption.
      + intros c Hc. apply Hch in Hc; [|assumption]. destruct Hc as [Hc _]. cbn [app]. apply (Permutation_in _ (Permutation_sym Hp)). apply In_zseq. unfold ForestProofs.ins in Hc. lia.
  Qed.
End Ends.
