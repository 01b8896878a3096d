(** Proofs for C109: files are joined to one catalogue. *)
From Coq Require Import QArith Qcanon.
From Verif Require Import Base.Prelude Base.ListLemmas Base.Order Psort.MatchModel Util.UMatchModel Util.RangesModel Util.RangesSpec Util.RangesProofs.
From Verif Require Import Formats.FileSpec Fortran.FofSpec Script.FofPlotModel Script.FofPlotSpec Script.FofPlotFinal Script.CheckUnitsModel Script.CheckUnitsSpec Script.CheckUnitsFinal Script.MillUnitsModel Script.MillUnitsSpec.
From Coq Require Import ZifyBool ZifyNat.
Local Open Scope Z_scope.
Local Open Scope list_scope.

Fixpoint all_off (files : list catfile) : list Z :=
  match files with [] => [] | f :: fs => c_suboff f ++ map (Z.add (zlen (c_gids f))) (all_off fs) end.
Definition shift (n : Z) (r : Z * Z) : Z * Z := (n + fst r, snd r).

Lemma combine_shift n a b : combine (map (Z.add n) a) b = map (shift n) (combine a b).
Proof. revert b. induction a as [|x a IH]; intros [|y b]; cbn; try reflexivity. now rewrite IH. Qed.
Lemma combine_app' {A B} (a a' : list A) (b b' : list B) : length a = length b -> combine (a ++ a') (b ++ b') = combine a b ++ combine a' b'.
Proof. revert b. induction a as [|x a IH]; intros [|y b] H; cbn in *; try discriminate; [reflexivity|]. now rewrite IH by lia. Qed.

Lemma ordered_le c rs n : ordered c rs n -> c <= n.
Proof. revert c. induction rs as [|[o l] rs IH]; intros c H; cbn in H; [exact H|]. destruct H as (H1 & H2 & H3). apply IH in H3. lia. Qed.
Lemma ordered_in c rs n r : ordered c rs n -> In r rs -> c <= fst r /\ 0 <= snd r /\ fst r + snd r <= n.
Proof.
  revert c. induction rs as [|[o l] rs IH]; intros c H Hi; [destruct Hi|]; cbn in H; destruct H as (H1 & H2 & H3); destruct Hi as [Hi|Hi].
  - subst r. cbn. apply ordered_le in H3. lia.
  - specialize (IH _ H3 Hi). lia.
Qed.
Lemma ordered_weaken c c' rs n : c' <= c -> ordered c rs n -> ordered c' rs n.
Proof. destruct rs as [|[o l] rs]; cbn; intros; [lia|]. intuition lia. Qed.
Lemma ordered_shift c rs n k : ordered c rs n -> ordered (k + c) (map (shift k) rs) (k + n).
Proof.
  revert c. induction rs as [|[o l] rs IH]; intros c H; cbn in *; [lia|]. destruct H as (H1 & H2 & H3). split; [lia|]. split; [lia|].
  replace (k + o + l) with (k + (o + l)) by lia. now apply IH.
Qed.
Lemma ordered_app c rs rs' m n : ordered c rs m -> ordered m rs' n -> ordered c (rs ++ rs') n.
Proof.
  revert c. induction rs as [|[o l] rs IH]; intros c H H'; cbn in *; [eapply ordered_weaken; eassumption|].
  destruct H as (H1 & H2 & H3). auto.
Qed.

(** *** one assignment for all files *)
Lemma in_range_dec r k : {in_range r k} + {~ in_range r k}.
Proof. unfold in_range. destruct (Z_le_dec (fst r) (Z.of_nat k)); [destruct (Z_lt_dec (Z.of_nat k) (fst r + snd r))|]; [left|right|right]; lia. Qed.
Lemma find_range (rs : list (Z * Z)) k : (exists i r, nth_error rs i = Some r /\ in_range r k) \/ (forall r, In r rs -> ~ in_range r k).
Proof.
  induction rs as [|r rs [(i & r' & H1 & H2)|IH]]; [right; intros r []|left; exists (S i), r'; auto|].
  destruct (in_range_dec r k) as [H|H]; [left; exists O, r; auto|]. right. intros r' [<-|Hi]; auto.
Qed.
Lemma assigned_unique {A} (a : list A) rs v o1 o2 : (length rs <= length v)%nat -> assigned a rs v o1 -> assigned a rs v o2 -> o1 = o2.
Proof.
  intros Hl (L1 & R1 & N1) (L2 & R2 & N2).
  assert (E : forall k, nth_error o1 k = nth_error o2 k).
  { intro k. destruct (find_range rs k) as [(i & r & Hi & Hr)|H].
    - assert (i < length v)%nat as Hv by (assert (nth_error rs i <> None) as X by congruence; apply nth_error_Some in X; lia).
      destruct (nth_error v i) as [x|] eqn:Ex; [|apply nth_error_None in Ex; lia].
      rewrite (R1 i r x k Hi Ex Hr), (R2 i r x k Hi Ex Hr). reflexivity.
    - rewrite N1, N2 by exact H. reflexivity. }
  clear - E. revert o2 E. induction o1 as [|x o1 IH]; intros [|y o2] E; [reflexivity|specialize (E O); discriminate|specialize (E O); discriminate|].
  pose proof (E O) as E0. injection E0 as ->. f_equal. apply IH. intro k. exact (E (S k)).
Qed.
Lemma assigned_app {A} (a1 a2 : list A) rs1 rs2 v1 v2 o1 o2 :
  ordered 0 rs1 (zlen a1) -> ordered 0 rs2 (zlen a2) -> length v1 = length rs1 -> assigned a1 rs1 v1 o1 -> assigned a2 rs2 v2 o2 ->
  assigned (a1 ++ a2) (rs1 ++ map (shift (zlen a1)) rs2) (v1 ++ v2) (o1 ++ o2).
Proof.
  intros O1 O2 Hv (L1 & R1 & N1) (L2 & R2 & N2). split; [rewrite !app_length; lia|]. split.
  - intros i r v k Hi Hx Hk. destruct (Nat.lt_ge_cases i (length rs1)) as [Hl|Hl].
    + rewrite nth_error_app1 in Hi by exact Hl. rewrite nth_error_app1 in Hx by lia.
      pose proof (ordered_in 0 rs1 (zlen a1) r O1 (nth_error_In _ _ Hi)) as B. unfold in_range in Hk. unfold zlen in B.
      rewrite nth_error_app1 by lia. eapply R1; eassumption.
    + rewrite nth_error_app2 in Hi by exact Hl. rewrite nth_error_app2 in Hx by lia. rewrite Hv in Hx.
      rewrite nth_error_map in Hi. destruct (nth_error rs2 (i - length rs1)) as [r'|] eqn:Er; [|discriminate]. injection Hi as <-.
      pose proof (ordered_in 0 rs2 (zlen a2) r' O2 (nth_error_In _ _ Er)) as B. unfold in_range, shift in Hk. cbn [fst snd] in Hk. unfold zlen in Hk.
      rewrite nth_error_app2 by lia. eapply R2; [exact Er|exact Hx|]. unfold in_range. lia.
  - intros k H. destruct (Nat.lt_ge_cases k (length a1)) as [Hl|Hl].
    + rewrite !nth_error_app1 by lia. apply N1. intros r Hr. apply H. apply in_or_app. now left.
    + rewrite !nth_error_app2 by lia. rewrite L1. apply N2. intros r Hr Hk. apply (H (shift (zlen a1) r)).
      * apply in_or_app. right. now apply in_map.
      * unfold in_range, shift in *. cbn [fst snd]. unfold zlen. lia.
Qed.

Lemma zseq_plus a n : map (fun i => i + a) (zseq 0 n) = zseq a n.
Proof.
  apply (nth_ext _ _ 0 0); [rewrite map_length, !zseq_length; reflexivity|]. intros k Hk. rewrite map_length, zseq_length in Hk.
  rewrite (nth_indep _ 0 ((fun i => i + a) 0)) by (rewrite map_length, zseq_length; exact Hk).
  rewrite (map_nth (fun i => i + a)). rewrite !nth_zseq by exact Hk. lia.
Qed.
Lemma all_off_length files : Forall good_file files -> length (all_off files) = length (all_lengths files).
Proof.
  induction 1 as [|f fs [H _] _ IH]; [reflexivity|]. unfold all_lengths in *. cbn [all_off map concat]. rewrite !app_length, map_length. lia.
Qed.
Lemma all_ordered files : Forall good_file files -> ordered 0 (combine (all_off files) (all_lengths files)) (zlen (all_ids files)).
Proof.
  induction 1 as [|f fs [H O] _ IH]; [cbn; unfold zlen; cbn; lia|]. unfold all_lengths, all_ids in *. cbn [all_off map concat].
  rewrite combine_app' by exact H. rewrite combine_shift. eapply ordered_app; [exact O|].
  rewrite zlen_app. replace (zlen (c_gids f)) with (zlen (c_gids f) + 0) at 1 by lia. now apply ordered_shift.
Qed.

Lemma read_files_ok files n0 : 0 <= n0 -> Forall good_file files ->
  exists nrs, read_files n0 files = Ok (map c_gids files, nrs) /\ length nrs = length files /\
    assigned (map (fun _ => -1) (all_ids files)) (combine (all_off files) (all_lengths files)) (zseq n0 (length (all_lengths files))) (concat nrs).
Proof.
  intros Hn H. revert n0 Hn. induction H as [|f fs [HL HO] HF IH]; intros n0 Hn.
  - exists []. split; [reflexivity|]. split; [reflexivity|]. split; [reflexivity|]. split; [intros i r v k Hi; destruct i; discriminate|]. intros k _. destruct k; reflexivity.
  - cbn [read_files]. rewrite zseq_plus.
    replace (Z.to_nat (zlen (c_sublen f))) with (length (c_sublen f)) by (unfold zlen; lia).
    destruct (assign_assigned (map (fun _ : Z => -1) (c_gids f)) (c_suboff f) (c_sublen f) (zseq n0 (length (c_sublen f)))) as (nr & E & A);
      [exact HL|rewrite zseq_length; reflexivity|unfold zlen in *; rewrite map_length; exact HO|].
    rewrite E. cbn [bind]. destruct (IH (n0 + zlen (c_sublen f)) ltac:(unfold zlen; lia)) as (nrs & E' & L & A'). rewrite E'. cbn [bind].
    exists (nr :: nrs). split; [reflexivity|]. split; [cbn; lia|].
    unfold all_ids, all_lengths in *. cbn [map concat all_off]. rewrite map_app, combine_app' by exact HL. rewrite combine_shift, app_length.
    rewrite zseq_app. replace (zlen (c_gids f)) with (zlen (map (fun _ : Z => -1) (c_gids f))) by (unfold zlen; now rewrite map_length).
    apply assigned_app; [unfold zlen in *; rewrite map_length; exact HO| |rewrite zseq_length, combine_length; lia|exact A|exact A'].
    pose proof (all_ordered fs HF) as O. unfold zlen in *. rewrite map_length. exact O.
Qed.

(** the script does what the one for Millennium-2 does with the joined catalogue *)
Lemma joined np_argsort box a s pos vel ids files : files <> [] -> Forall good_file files ->
  mill_check_units np_argsort box a s pos vel ids files =
  check_units np_argsort box a s pos vel ids (all_lengths files) (all_off files) (map check_units_id (all_ids files)).
Proof.
  intros Hne HF. destruct (read_files_ok files 0 ltac:(lia) HF) as (nrs & E & L & A).
  unfold mill_check_units, check_units, sub_particles. rewrite E. cbn [bind].
  destruct files as [|f fs]; [congruence|]. destruct nrs as [|nr nrs]; [discriminate|].
  cbn [map np_concatenate bind]. change (concat (c_gids f :: map c_gids fs)) with (all_ids (f :: fs)).
  set (files := f :: fs) in *.
  destruct (assign_assigned (map (fun _ : Z => -1) (all_ids files)) (all_off files) (all_lengths files) (zseq 0 (length (all_lengths files)))) as (out & EO & AO);
    [apply all_off_length; exact HF|rewrite zseq_length; reflexivity|unfold zlen; rewrite map_length; exact (all_ordered files HF)|].
  assert (out = concat (nr :: nrs)) as ->.
  { eapply assigned_unique; [|exact AO|exact A]. rewrite zseq_length, combine_length. lia. }
  replace (Z.to_nat (zlen (all_lengths files))) with (length (all_lengths files)) by (unfold zlen; lia).
  replace (map (fun _ : Z => -1) (map check_units_id (all_ids files))) with (map (fun _ : Z => -1) (all_ids files)) by (rewrite map_map; reflexivity).
  rewrite EO. cbn [bind]. unfold members. reflexivity.
Qed.

(** *** subhalo [i] of file [j] in the joined catalogue *)
Lemma locate files j f i o l : Forall good_file files -> nth_error files j = Some f -> nth_error (c_suboff f) i = Some o -> nth_error (c_sublen f) i = Some l ->
  let base := zlen (all_ids (firstn j files)) in
  nth_error (all_lengths files) (number_of files j i) = Some l /\ nth_error (all_off files) (number_of files j i) = Some (base + o) /\
  zslice (all_ids files) (base + o) (base + o + l) = zslice (c_gids f) o (o + l).
Proof.
  cbv zeta. intros HF. revert j. induction HF as [|f0 fs [HL HO] HF IH]; intros j Hj Ho Hl; [destruct j; discriminate|].
  destruct j as [|j].
  - injection Hj as ->. unfold number_of, all_ids, all_lengths. cbn [firstn map concat length Nat.add all_off]. 
    assert (Hi : (i < length (c_sublen f))%nat) by (apply nth_error_Some; congruence).
    split; [rewrite nth_error_app1 by exact Hi; exact Hl|]. split; [rewrite nth_error_app1 by lia; exact Ho|].
    assert (HB : In (o, l) (combine (c_suboff f) (c_sublen f))).
    { clear - Ho Hl. revert i Ho Hl. generalize (c_suboff f), (c_sublen f). intros a. induction a as [|x a IH]; intros [|y b] [|i] H1 H2; try discriminate; cbn in *.
      - left. congruence.
      - right. eapply IH; eassumption. }
    pose proof (ordered_in _ _ _ _ HO HB) as B. cbn [fst snd] in B. unfold zslice, zlen in *. cbn [length]. rewrite !Z.add_0_l.
    rewrite skipn_app, firstn_app. rewrite skipn_length.
    replace (Z.to_nat (o + l) - Z.to_nat o - (length (c_gids f) - Z.to_nat o))%nat with O by lia. cbn [firstn]. now rewrite app_nil_r.
  - cbn [nth_error] in Hj. destruct (IH j Hj Ho Hl) as (E1 & E2 & E3). clear IH.
    unfold number_of, all_ids, all_lengths in *. cbn [firstn map concat all_off]. rewrite !app_length.
    replace (length (c_sublen f0) + length (concat (map c_sublen (firstn j fs))) + i)%nat with (length (c_sublen f0) + (length (concat (map c_sublen (firstn j fs))) + i))%nat by lia.
    split; [rewrite nth_error_app2 by lia; replace (length (c_sublen f0) + _ - length (c_sublen f0))%nat with (length (concat (map c_sublen (firstn j fs))) + i)%nat by lia; exact E1|].
    split.
    + rewrite nth_error_app2 by lia. replace (length (c_sublen f0) + _ - length (c_suboff f0))%nat with (length (concat (map c_sublen (firstn j fs))) + i)%nat by lia.
      rewrite nth_error_map, E2. cbn. f_equal. rewrite zlen_app. lia.
    + rewrite <- E3. unfold zslice. unfold zlen. rewrite app_length.
      assert (Hb : 0 <= o). { assert (HG : good_file f) by (rewrite Forall_forall in HF; apply HF; eapply nth_error_In; exact Hj).
        destruct HG as [_ HO']. assert (HB : In (o, l) (combine (c_suboff f) (c_sublen f))).
        { clear - Ho Hl. revert i Ho Hl. generalize (c_suboff f), (c_sublen f). intros a. induction a as [|x a IH]; intros [|y b] [|i] H1 H2; try discriminate; cbn in *.
          - left. congruence.
          - right. eapply IH; eassumption. }
        pose proof (ordered_in _ _ _ _ HO' HB) as B. cbn [fst snd] in B. lia. }
      rewrite skipn_app. rewrite (skipn_all2 (c_gids f0)) by lia. cbn [app].
      f_equal; [lia|]. f_equal. lia.
Qed.
Lemma zslice_map {A B} (g : A -> B) l a b : zslice (map g l) a b = map g (zslice l a b).
Proof. unfold zslice. now rewrite skipn_map, firstn_map. Qed.
Lemma zslice_In {A} (l : list A) a b x : In x (zslice l a b) -> In x l.
Proof.
  unfold zslice. intros H. assert (I : forall n (m : list A), In x (firstn n m) -> In x m).
  { intros n m Hx. rewrite <- (firstn_skipn n m). apply in_or_app. now left. }
  apply I in H. rewrite <- (firstn_skipn (Z.to_nat a) l). apply in_or_app. now right.
Qed.

Section Main.
  Variables (np_argsort : list Z -> list Z) (box a s : Qc) (pos vel : list vec) (ids : list Z) (files : list catfile).
  Hypothesis (HS : forall l, is_argsort ZOrd l (np_argsort l)) (HN : NoDup ids) (HP : length pos = length ids) (HV : length vel = length ids).
  Hypothesis (Hne : files <> []) (HF : Forall good_file files) (HI : forall g, In g (all_ids files) -> 0 <= g /\ plain_id g < 2 ^ 30 /\ In (plain_id g) ids).
  Lemma ids_right : map check_units_id (all_ids files) = map plain_id (all_ids files).
  Proof using HI. apply map_ext_in. intros g Hg. destruct (HI g Hg) as (H1 & H2 & _). now apply check_units_right. Qed.
  Lemma ids_incl : incl (map plain_id (all_ids files)) ids.
  Proof using HI. intros x Hx. apply in_map_iff in Hx as (g & <- & Hg). apply HI. exact Hg. Qed.
  Lemma mill_spin : (0 < box)%Qc -> (exists l, In l (all_lengths files) /\ 0 < l) ->
    exists mp mv am n, mill_check_units np_argsort box a s pos vel ids files = Ok (mp, mv, am) /\
      last_nonempty (all_lengths files) n /\ zlen mp = n /\ zlen mv = n /\ zlen am = n /\
      forall j f i o l ms, nth_error files j = Some f -> nth_error (c_suboff f) i = Some o -> nth_error (c_sublen f) i = Some l -> Z.of_nat (number_of files j i) < n ->
        particles_of box pos vel ids (map plain_id (zslice (c_gids f) o (o + l))) ms -> compact box ms ->
        nth_error am (number_of files j i) = Some (spin a s ms) /\ nth_error mv (number_of files j i) = Some (times s (vmean (map snd ms))) /\
        exists p, nth_error mp (number_of files j i) = Some p /\ image box (vmean (map fst ms)) p.
  Proof using All.
    intros Hb Hl. rewrite joined by assumption. rewrite ids_right.
    destruct (spin_ok np_argsort box a s pos vel ids (all_lengths files) (all_off files) (map plain_id (all_ids files))) as (mp & mv & am & n & E & H1 & H2 & H3 & H4 & H5);
      [exact HS|exact HN|exact HP|exact HV|exact ids_incl|now apply all_off_length|unfold zlen; rewrite map_length; now apply all_ordered|exact Hb|exact Hl|].
    exists mp, mv, am, n. repeat (split; [assumption|]). intros j f i o l ms Hj Ho Hl' Hn Hp Hc.
    destruct (locate files j f i o l HF Hj Ho Hl') as (E1 & E2 & E3).
    apply (H5 _ _ _ ms Hn E2 E1); [|exact Hc]. rewrite zslice_map, E3. exact Hp.
  Qed.
  Lemma mill_none : (forall l, In l (all_lengths files) -> l = 0) -> mill_check_units np_argsort box a s pos vel ids files = Err EValue.
  Proof using All.
    intros Hl. rewrite joined by assumption. rewrite ids_right.
    apply none_fails; [exact HS|exact HN|exact HP|exact HV|exact ids_incl|now apply all_off_length|unfold zlen; rewrite map_length; now apply all_ordered|exact Hl].
  Qed.
End Main.

(** two files; the hash keys are 3 and 1 *)
Definition ex_files : list catfile :=
  [ {| c_sublen := [2; 0]; c_suboff := [1; 3]; c_gids := [3 * 2 ^ 34 + 5; 3 * 2 ^ 34 + 3; 2 ^ 34 + 7] |}; {| c_sublen := [1]; c_suboff := [0]; c_gids := [8] |} ].
