(** Proofs about assign_ranges and sum_ranges. *)
From Verif.Base Require Import Prelude ListLemmas.
From Verif.Psort Require Import MatchModel MatchProofs.
From Verif.Util Require Import RangesModel RangesSpec.
From Coq Require Import ZifyBool ZifyNat.
Local Open Scope Z_scope.

Fixpoint gaps (c : Z) (rs : list (Z * Z)) (n : Z) : list Z :=
  match rs with [] => [n - c] | (o, l) :: rs' => (o - c) :: gaps (o + l) rs' n end.
Lemma gaps_tail n : forall os ls o l, length os = length ls ->
  zipwith Z.sub os (zipwith Z.add (removelast (o :: os)) (removelast (l :: ls))) ++ [n - (last (o :: os) 0 + last (l :: ls) 0)] = gaps (o + l) (combine os ls) n.
Proof.
  induction os as [|o' os IH]; intros [|l' ls] o l H; try discriminate; [reflexivity|].
  cbn [combine gaps]. rewrite <- IH by (injection H; auto). reflexivity.
Qed.
Lemma gaps_sum n : forall rs c, sumZ (map snd rs) + sumZ (gaps c rs n) = n - c.
Proof. induction rs as [|[o l] rs IH]; intro c; cbn [map gaps sumZ snd]; [lia|]. specialize (IH (o + l)). lia. Qed.
Lemma gaps_nonneg n : forall rs c, forallb (fun x => 0 <=? x) (interleave (gaps c rs n) (map snd rs)) = true <-> ordered c rs n.
Proof.
  induction rs as [|[o l] rs IH]; intro c; cbn [gaps map interleave forallb ordered snd]; [rewrite andb_true_r, Z.leb_le; lia|].
  rewrite !andb_true_iff, IH, !Z.leb_le. intuition lia.
Qed.
Fixpoint lay {A} (c : Z) (rs : list (Z * Z)) (vs : list A) (arr : list A) : list A :=
  match rs, vs with
  | (o, l) :: rs', v :: vs' => firstn (Z.to_nat (o - c)) arr ++ repeat v (Z.to_nat l) ++ lay (o + l) rs' vs' (skipn (Z.to_nat (o - c) + Z.to_nat l) arr)
  | _, _ => arr
  end.
Lemma ordered_le n : forall rs c, ordered c rs n -> c <= n.
Proof. induction rs as [|[o l] rs IH]; intros c H; cbn [ordered] in H; [assumption|]. destruct H as (H1 & H2 & H3). apply IH in H3. lia. Qed.
Lemma mask_put_app {A} (a1 : list A) : forall m1 v1 a2 m2 v2, length a1 = length m1 -> length (filter id m1) = length v1 ->
  np_mask_put (a1 ++ a2) (m1 ++ m2) (v1 ++ v2) = np_mask_put a1 m1 v1 ++ np_mask_put a2 m2 v2.
Proof.
  induction a1 as [|x a1 IH]; intros [|b m1] v1 a2 m2 v2 H1 H2; try discriminate; [destruct v1; [reflexivity | discriminate]|].
  injection H1 as H1. cbn [app np_mask_put filter id] in *. destruct b; [|cbn [app]; f_equal; now apply IH].
  destruct v1 as [|v v1]; [discriminate|]. injection H2 as H2. cbn [app]. f_equal. now apply IH.
Qed.
Lemma put_false {A} (a : list A) n v : np_mask_put a (repeat false n) v = a.
Proof. revert n v. induction a as [|x a IH]; intros [|n] v; try reflexivity. cbn [repeat np_mask_put]. f_equal. apply IH. Qed.
Lemma put_true {A} (v : A) : forall a n, length a = n -> np_mask_put a (repeat true n) (repeat v n) = repeat v n.
Proof. induction a as [|x a IH]; intros [|n] H; try discriminate; [reflexivity|]. cbn [repeat np_mask_put]. f_equal. apply IH. now injection H. Qed.
Lemma filter_false n : filter id (repeat false n) = [].
Proof. induction n as [|n IH]; [reflexivity | exact IH]. Qed.
Lemma filter_true n : filter id (repeat true n) = repeat true n.
Proof. induction n as [|n IH]; [reflexivity|]. cbn. now rewrite IH. Qed.

Definition rmask (c : Z) (rs : list (Z * Z)) (n : Z) : list bool :=
  concat (zipwith (fun (x : bool) k => repeat x (Z.to_nat k)) (interleave (map (fun _ => false) (gaps c rs n)) (map (fun _ => true) (map snd rs))) (interleave (gaps c rs n) (map snd rs))).
Lemma rmask_cons c o l rs n : rmask c ((o, l) :: rs) n = repeat false (Z.to_nat (o - c)) ++ repeat true (Z.to_nat l) ++ rmask (o + l) rs n.
Proof. reflexivity. Qed.
Lemma put_lay {A} n : forall rs c vs (arr : list A), ordered c rs n -> zlen arr = n - c -> length vs = length rs ->
  np_mask_put arr (rmask c rs n) (concat (zipwith (fun x k => repeat x (Z.to_nat k)) vs (map snd rs))) = lay c rs vs arr /\ length (rmask c rs n) = length arr.
Proof.
  induction rs as [|[o l] rs IH]; intros c vs arr Ho Hn Hv.
  - destruct vs; [|discriminate]. unfold rmask. cbn. rewrite app_nil_r. split; [apply put_false | rewrite repeat_length; unfold zlen in Hn; lia].
  - destruct vs as [|v vs]; [discriminate|]. cbn [ordered] in Ho. destruct Ho as (H1 & H2 & H3). pose proof (ordered_le _ _ _ H3) as Hle. rewrite rmask_cons. cbn [map snd zipwith concat lay].
    set (g := Z.to_nat (o - c)). set (k := Z.to_nat l). unfold zlen in Hn.
    assert (arr = firstn g arr ++ firstn k (skipn g arr) ++ skipn (g + k) arr) as Ea.
    { rewrite <- (firstn_skipn g arr) at 1. f_equal. rewrite <- (firstn_skipn k (skipn g arr)) at 1. f_equal. apply skipn_skipn'. }
    destruct (IH (o + l) vs (skipn (g + k) arr)) as [I1 I2]; [assumption | unfold zlen; rewrite skipn_length; lia | now injection Hv|]. split.
    + rewrite Ea at 1. assert (forall t : list A, t = [] ++ t) as Hnil by reflexivity. rewrite (Hnil (repeat v k ++ _)).
      rewrite mask_put_app by (rewrite ?firstn_length, ?repeat_length, ?filter_false; cbn; lia). rewrite put_false. f_equal.
      rewrite mask_put_app by (rewrite ?firstn_length, ?skipn_length, ?filter_true, ?repeat_length; lia). rewrite put_true by (rewrite firstn_length, skipn_length; lia). f_equal. exact I1.
    + rewrite !app_length, !repeat_length, I2, skipn_length. lia.
Qed.
Lemma slice_fill_in {A} (pre arr : list A) c o l v : zlen pre = c -> c <= o -> 0 <= l -> o + l <= c + zlen arr ->
  slice_fill (pre ++ arr) o (o + l) v = (pre ++ firstn (Z.to_nat (o - c)) arr ++ repeat v (Z.to_nat l)) ++ skipn (Z.to_nat (o - c) + Z.to_nat l) arr.
Proof.
  intros Hc Ho Hl He. assert (pyidx (zlen (pre ++ arr)) o = o /\ pyidx (zlen (pre ++ arr)) (o + l) = o + l) as [E1 E2].
  { unfold pyidx. rewrite zlen_app. pose proof (zlen_nonneg pre). destruct (Z.ltb_spec o 0); [lia|]. destruct (Z.ltb_spec (o + l) 0); [lia|]. split; lia. }
  unfold slice_fill. rewrite E1, E2. cbv zeta. replace (o + l - o) with l by lia. unfold zlen in Hc, He. rewrite <- !app_assoc. destruct (Z.ltb_spec o (o + l)).
  - unfold write_at. rewrite repeat_length. rewrite firstn_app, skipn_app, firstn_all2 by lia. rewrite <- app_assoc. rewrite (skipn_all2 pre) by lia. cbn [app]. f_equal. replace (Z.to_nat o - length pre)%nat with (Z.to_nat (o - c)) by lia. replace (Z.to_nat o + Z.to_nat l - length pre)%nat with (Z.to_nat (o - c) + Z.to_nat l)%nat by lia. reflexivity.
  - replace l with 0 by lia. cbn [Z.to_nat repeat app]. rewrite Nat.add_0_r, firstn_skipn. reflexivity.
Qed.
Lemma loop_lay {A} n : forall rs c vs (pre arr : list A), ordered c rs n -> zlen pre = c -> zlen arr = n - c -> length vs = length rs ->
  fold_left (fun a (rv : Z * Z * A) => slice_fill a (fst (fst rv)) (fst (fst rv) + snd (fst rv)) (snd rv)) (combine rs vs) (pre ++ arr) = pre ++ lay c rs vs arr.
Proof.
  induction rs as [|[o l] rs IH]; intros c vs pre arr Ho Hp Hn Hv; [destruct vs; [reflexivity | discriminate]|].
  destruct vs as [|v vs]; [discriminate|]. cbn [ordered] in Ho. destruct Ho as (H1 & H2 & H3). pose proof (ordered_le _ _ _ H3) as Hle. cbn [combine fold_left fst snd lay].
  rewrite (slice_fill_in pre arr c) by (assumption || lia). unfold zlen in *. rewrite (IH (o + l)).
  - rewrite <- !app_assoc. reflexivity.
  - assumption.
  - rewrite !app_length, firstn_length, repeat_length. lia.
  - rewrite skipn_length. lia.
  - now injection Hv.
Qed.

Lemma combine_snd (o l : list Z) : length o = length l -> map snd (combine o l) = l.
Proof. apply map_snd_combine'. Qed.
Lemma many_eq {A} (array : list A) offset len value : (2 <= length offset)%nat -> length offset = length len ->
  assign_ranges array offset len value =
  (do _ <- check (zlen len =? zlen value) EValue;
   let rs := combine offset len in
   let n := zlen array in
   do _ <- check (forallb (fun x => 0 <=? x) (interleave (gaps 0 rs n) (map snd rs))) EValue;
   do vals <- np_repeat value len;
   do _ <- check (zlen (rmask 0 rs n) =? n) EIndex;
   Ok (np_mask_put array (rmask 0 rs n) vals)).
Proof.
  intros H2 Hl. unfold assign_ranges. replace (zlen offset =? zlen len) with true by (unfold zlen; lia). cbn [andb].
  destruct (zlen len =? zlen value); [|reflexivity]. cbn [check bind].
  destruct offset as [|o [|o' os]]; [cbn in H2; lia | cbn in H2; lia|]. destruct len as [|l [|l' ls]]; try discriminate.
  set (gap := hd 0 (o :: o' :: os) :: _ ++ _).
  assert (gap = gaps 0 (combine (o :: o' :: os) (l :: l' :: ls)) (zlen array)) as Eg.
  { unfold gap. cbn [hd tl combine gaps]. rewrite Z.sub_0_r. f_equal. apply (gaps_tail (zlen array) (o' :: os) (l' :: ls)). cbn in Hl |- *. lia. }
  rewrite Eg. clear gap Eg. set (rs := combine (o :: o' :: os) (l :: l' :: ls)).
  assert (map snd rs = l :: l' :: ls) as Es by (apply combine_snd; exact Hl). rewrite <- Es.
  rewrite gaps_sum. replace (zlen array - 0 =? zlen array) with true by lia. cbn [check bind].
  unfold np_repeat at 1. destruct (forallb _ _); [|reflexivity]. cbn [check bind]. reflexivity.
Qed.

Lemma assign_ok {A} (array : list A) offset len value : length offset = length len -> length value = length len ->
  ordered 0 (combine offset len) (zlen array) -> assign_ranges array offset len value = Ok (lay 0 (combine offset len) value array).
Proof.
  intros Hl Hv Ho. destruct offset as [|o [|o' os]].
  - destruct len; [|discriminate]. destruct value; [|discriminate]. reflexivity.
  - destruct len as [|l [|]]; try discriminate. destruct value as [|v [|]]; try discriminate. unfold assign_ranges, zlen. cbn [length Z.eqb Z.of_nat Pos.of_succ_nat Pos.eqb andb check bind].
    f_equal. pose proof (loop_lay (zlen array) (combine [o] [l]) 0 [v] [] array Ho eq_refl ltac:(lia) eq_refl) as H. cbn [combine fold_left fst snd app] in H. exact H.
  - rewrite many_eq by (cbn; lia || assumption). replace (zlen len =? zlen value) with true by (unfold zlen; lia). cbn [check bind]. cbv zeta.
    set (rs := combine (o :: o' :: os) len) in *. rewrite (proj2 (gaps_nonneg _ _ _) Ho). cbn [check bind].
    assert (map snd rs = len) as Es by (now apply combine_snd).
    assert (length rs = length len) as Elr by (unfold rs; rewrite combine_length, Hl; lia).
    destruct (put_lay (zlen array) rs 0 value array Ho ltac:(lia) ltac:(lia)) as [P1 P2].
    unfold np_repeat. replace (forallb (fun c => 0 <=? c) len) with true.
    2: { symmetry. rewrite <- Es. clear -Ho. revert Ho. generalize 0 at 1 as c. induction rs as [|[a b] rs IH]; intros c Ho; [reflexivity|]. cbn [ordered] in Ho. destruct Ho as (H1 & H2 & H3). cbn [map snd forallb]. rewrite (IH _ H3). lia. }
    cbn [check bind]. replace (zlen (rmask 0 rs (zlen array)) =? zlen array) with true by (unfold zlen in *; lia). cbn [check bind]. rewrite Es in P1. now rewrite P1.
Qed.
Lemma assign_loop {A} (array : list A) offset len value : length offset = length len -> length value = length len ->
  ordered 0 (combine offset len) (zlen array) ->
  assign_ranges array offset len value = Ok (fold_left (fun a (rv : Z * Z * A) => slice_fill a (fst (fst rv)) (fst (fst rv) + snd (fst rv)) (snd rv)) (combine (combine offset len) value) array).
Proof.
  intros Hl Hv Ho. rewrite assign_ok by assumption. f_equal. symmetry.
  apply (loop_lay (zlen array) (combine offset len) 0 value [] array Ho eq_refl); [lia | rewrite combine_length; lia].
Qed.
Lemma assign_bad {A} (array : list A) offset len value : (2 <= length offset)%nat ->
  ~ (length offset = length len /\ length value = length len /\ ordered 0 (combine offset len) (zlen array)) -> assign_ranges array offset len value = Err EValue.
Proof.
  intros H2 H. destruct (Nat.eq_dec (length offset) (length len)) as [Hl|Hl].
  - rewrite many_eq by assumption. destruct (Z.eqb_spec (zlen len) (zlen value)) as [Hv|Hv]; [|reflexivity]. cbn [check bind]. cbv zeta.
    destruct (forallb _ _) eqn:B; [|reflexivity]. exfalso. apply H. split; [assumption|]. split; [unfold zlen in Hv; lia|]. now apply gaps_nonneg.
  - unfold assign_ranges. replace (zlen offset =? zlen len) with false by (unfold zlen; lia). reflexivity.
Qed.

(** pointwise meaning *)
Lemma lay_assigned {A} n : forall rs c vs (pre arr : list A), ordered c rs n -> zlen pre = c -> zlen arr = n - c -> length vs = length rs ->
  assigned (pre ++ arr) rs vs (pre ++ lay c rs vs arr).
Proof.
  induction rs as [|[o l] rs IH]; intros c vs pre arr Ho Hp Hn Hv.
  - destruct vs; [|discriminate]. cbn [lay]. split; [reflexivity|]. split; [intros [|i] r v k H; discriminate | reflexivity].
  - destruct vs as [|v vs]; [discriminate|]. cbn [ordered] in Ho. destruct Ho as (H1 & H2 & H3). pose proof (ordered_le _ _ _ H3) as Hle. cbn [lay].
    set (g := Z.to_nat (o - c)). set (k := Z.to_nat l). unfold zlen in *.
    destruct (IH (o + l) vs (pre ++ firstn g arr ++ repeat v k) (skipn (g + k) arr)) as (I1 & I2 & I3); [assumption | rewrite !app_length, firstn_length, repeat_length; lia | rewrite skipn_length; lia | now injection Hv|].
    assert (forall t : list A, (pre ++ firstn g arr ++ repeat v k) ++ t = pre ++ firstn g arr ++ repeat v k ++ t) as Eapp by (intro t; now rewrite <- !app_assoc).
    rewrite Eapp in I1, I2, I3. rewrite Eapp in I1, I3. set (out := pre ++ firstn g arr ++ repeat v k ++ lay (o + l) rs vs (skipn (g + k) arr)) in *.
    assert (forall j, nth_error (pre ++ firstn g arr ++ repeat v k ++ skipn (g + k) arr) j = if (o <=? Z.of_nat j) && (Z.of_nat j <? o + l) then Some v else nth_error (pre ++ arr) j) as Hmid.
    { intro j. destruct (Nat.lt_ge_cases j (length pre)) as [Hj|Hj].
      - rewrite !nth_error_app1 by assumption. replace (_ && _) with false by lia. reflexivity.
      - rewrite !(nth_error_app2 pre) by assumption. set (j' := (j - length pre)%nat).
        destruct (Nat.lt_ge_cases j' g) as [Hg|Hg].
        + rewrite nth_error_app1 by (rewrite firstn_length; lia). rewrite nth_error_firstn'. destruct (Nat.ltb_spec j' g); [|lia]. replace (_ && _) with false by lia. reflexivity.
        + rewrite nth_error_app2 by (rewrite firstn_length; lia). rewrite firstn_length, Nat.min_l by lia. destruct (Nat.lt_ge_cases (j' - g) k) as [Hk|Hk].
          * rewrite nth_error_app1 by (rewrite repeat_length; lia). rewrite nth_error_repeat by assumption. replace (_ && _) with true by lia. reflexivity.
          * rewrite nth_error_app2 by (rewrite repeat_length; lia). rewrite repeat_length, nth_error_skipn'. replace (_ && _) with false by lia. f_equal. lia. }
    assert (forall r, In r rs -> forall j, in_range r j -> o + l <= Z.of_nat j) as Hlater.
    { clear -H3 H2. revert H3. generalize (o + l) as c'. induction rs as [|[a b] rs IH]; intros c' H r Hr j Hj; [contradiction|]. cbn [ordered] in H. destruct H as (A1 & A2 & A3). destruct Hr as [<-|Hr]; [unfold in_range in Hj; cbn in Hj; lia|]. pose proof (IH _ A3 r Hr j Hj). lia. }
    split; [|split].
    + rewrite I1, !app_length, firstn_length, repeat_length, skipn_length. lia.
    + intros [|i] r w j Er Ew Hr.
      * cbn in Er, Ew. injection Er as <-. injection Ew as <-. unfold in_range in Hr. cbn in Hr. rewrite I3.
        -- rewrite Hmid. replace (_ && _) with true by lia. reflexivity.
        -- intros r Hrin Hj. specialize (Hlater r Hrin j Hj). lia.
      * cbn in Er, Ew. now apply (I2 i r w j).
    + intros j Hj. rewrite I3 by (intros r Hr; apply Hj; now right). rewrite Hmid. specialize (Hj (o, l) (or_introl eq_refl)). unfold in_range in Hj. cbn in Hj. replace (_ && _) with false by lia. reflexivity.
Qed.
Lemma assign_assigned {A} (array : list A) offset len value : length offset = length len -> length value = length len ->
  ordered 0 (combine offset len) (zlen array) -> exists out, assign_ranges array offset len value = Ok out /\ assigned array (combine offset len) value out.
Proof.
  intros Hl Hv Ho. eexists. split; [now apply assign_ok|].
  apply (lay_assigned (zlen array) (combine offset len) 0 value [] array Ho eq_refl); [lia | rewrite combine_length; lia].
Qed.

(** *** sums *)
Lemma lay_false_mask {A} n : forall rs c (arr : list A), ordered c rs n -> zlen arr = n - c ->
  np_mask arr (lay c rs (map (fun _ => true) rs) (map (fun _ => false) arr)) = concat (map (fun r => elements arr (fst r - c, snd r)) rs).
Proof.
  assert (forall (X : Type) (a1 : list X) m1 a2 m2, length a1 = length m1 -> np_mask (a1 ++ a2) (m1 ++ m2) = np_mask a1 m1 ++ np_mask a2 m2) as Happ.
  { intros X a1. induction a1 as [|x a1 IH]; intros [|b m1] a2 m2 H; try discriminate; [reflexivity|]. injection H as H. cbn [app np_mask]. destruct b; cbn [app]; now rewrite IH. }
  assert (forall (X Y : Type) (a : list X) (b : list Y), np_mask a (map (fun _ => false) b) = []) as Hf.
  { intros X Y a. induction a as [|x a IH]; intros [|y b]; try reflexivity. cbn. apply IH. }
  assert (forall (X : Type) (a : list X) k, length a = k -> np_mask a (repeat true k) = a) as Ht.
  { intros X a. induction a as [|x a IH]; intros [|k] H; try discriminate; [reflexivity|]. cbn. f_equal. apply IH. now injection H. }
  induction rs as [|[o l] rs IH]; intros c arr Ho Hn; cbn [map lay concat]; [apply Hf|].
  cbn [ordered] in Ho. destruct Ho as (H1 & H2 & H3). pose proof (ordered_le _ _ _ H3) as Hle. cbn [fst snd].
  set (g := Z.to_nat (o - c)). set (k := Z.to_nat l). unfold zlen in *.
  assert (arr = firstn g arr ++ firstn k (skipn g arr) ++ skipn (g + k) arr) as Ea.
  { rewrite <- (firstn_skipn g arr) at 1. f_equal. rewrite <- (firstn_skipn k (skipn g arr)) at 1. f_equal. apply skipn_skipn'. }
  rewrite Ea at 1.
  rewrite Happ by (rewrite !firstn_length, map_length; reflexivity). rewrite firstn_map, Hf. cbn [app].
  rewrite Happ by (rewrite firstn_length, skipn_length, repeat_length; lia). rewrite Ht by (rewrite firstn_length, skipn_length; lia). f_equal.
  rewrite skipn_map, (IH (o + l)) by (try assumption; rewrite skipn_length; lia).
  f_equal. apply map_ext_in. intros [a b] Hin. unfold elements. cbn [fst snd]. f_equal. rewrite skipn_skipn'. f_equal.
  assert (o + l <= a) as Ha.
  { clear -H3 Hin. revert H3. generalize (o + l) as c'. induction rs as [|[a' b'] rs IH]; intros c' H; [contradiction|]. cbn [ordered] in H. destruct H as (A1 & A2 & A3). destruct Hin as [E|Hin]; [injection E as -> ->; lia|]. specialize (IH Hin _ A3). lia. }
  lia.
Qed.
Lemma reduceat_segs {A} add (zero : A) segs : forall pre, Forall (fun s => s <> []) segs ->
  reduceat add zero (pre ++ concat segs) (map (Z.add (zlen pre)) (excl_cumsum (map zlen segs))) = Ok (map (nsum add zero) segs).
Proof.
  induction segs as [|s segs IH]; intros pre H; [reflexivity|]. apply Forall_cons_iff in H. destruct H as [Hs H].
  assert (excl_cumsum (map zlen (s :: segs)) = 0 :: map (Z.add (zlen s)) (excl_cumsum (map zlen segs))) as E.
  { unfold excl_cumsum, cumsum. cbn [map cumsum_from zipwith]. rewrite Z.add_0_l, Z.sub_diag. f_equal. generalize (zlen s) as z. generalize (map zlen segs) as l. clear. intros l z.
    assert (forall l acc z, zipwith Z.sub (cumsum_from (z + acc) l) l = map (Z.add z) (zipwith Z.sub (cumsum_from acc l) l)) as H.
    { clear. induction l as [|x l IH]; intros acc z; [reflexivity|]. cbn [cumsum_from zipwith map]. f_equal; [lia|]. replace (z + acc + x) with (z + (acc + x)) by lia. apply IH. }
    rewrite <- H. f_equal. f_equal. lia. }
  rewrite E. cbn [map reduceat]. rewrite Z.add_0_r, map_map.
  assert (zlen s <> 0) as Hz by (intro Hz; apply zlen_0_nil in Hz; contradiction). pose proof (zlen_nonneg s) as Hn. pose proof (zlen_nonneg pre) as Hp.
  destruct s as [|x s]; [contradiction|]. rewrite (py_nth_ok _ _ x) by (rewrite zlen_app; cbn [concat]; rewrite zlen_app; pose proof (zlen_nonneg (concat segs)); lia). cbn [bind].
  specialize (IH (pre ++ (x :: s)) H). rewrite <- app_assoc in IH. rewrite zlen_app in IH.
  rewrite (map_ext _ (Z.add (zlen pre + zlen (x :: s)))) by (intro; lia). cbn [concat]. rewrite IH. cbn [bind]. f_equal. f_equal.
  set (j := match map _ _ with [] => _ | j :: _ => j end).
  assert (j = zlen pre + zlen (x :: s)) as Ej.
  { unfold j. destruct segs as [|s' segs]; [cbn [concat map excl_cumsum]; rewrite app_nil_r; apply zlen_app|]. unfold excl_cumsum, cumsum. cbn [map cumsum_from zipwith]. lia. }
  rewrite Ej. destruct (Z.ltb_spec (zlen pre) (zlen pre + zlen (x :: s))); [|lia].
  f_equal. unfold zslice, zlen. rewrite skipn_app, skipn_all2 by lia. cbn [app]. replace (Z.to_nat (Z.of_nat (length pre)) - length pre)%nat with O by lia. cbn [skipn]. rewrite app_comm_cons, firstn_app, firstn_all2 by lia.
  replace (_ - _)%nat with O by lia. cbn [firstn]. apply app_nil_r.
Qed.
Lemma ordered_mono n rs : forall c c', c' <= c -> ordered c rs n -> ordered c' rs n.
Proof. destruct rs as [|[o l] rs]; intros c c' H Ho; cbn [ordered] in *; [lia|]. split; [lia | tauto]. Qed.
Lemma ordered_filter n rs : forall c, ordered c rs n -> ordered c (filter (fun r => 0 <? snd r) rs) n.
Proof.
  induction rs as [|[o l] rs IH]; intros c H; [assumption|]. cbn [ordered] in H. destruct H as (H1 & H2 & H3). cbn [filter snd]. destruct (Z.ltb_spec 0 l).
  - cbn [ordered]. auto.
  - apply (ordered_mono n _ (o + l)); [lia | now apply IH].
Qed.
Lemma mask_combine (o l : list Z) : length o = length l ->
  np_mask o (map (fun x => 0 <? x) l) = map fst (filter (fun r => 0 <? snd r) (combine o l)) /\ np_mask l (map (fun x => 0 <? x) l) = map snd (filter (fun r => 0 <? snd r) (combine o l)).
Proof.
  revert l. induction o as [|a o IH]; intros [|b l] H; try discriminate; [split; reflexivity|]. injection H as H. destruct (IH l H) as [I1 I2]. cbn [map np_mask combine filter snd]. destruct (0 <? b); cbn [map fst snd]; rewrite I1, I2; split; reflexivity.
Qed.
Lemma put_combine {A} (zero : A) (g : Z * Z -> A) (o l : list Z) : length o = length l ->
  np_mask_put (map (fun _ => zero) o) (map (fun x => 0 <? x) l) (map g (filter (fun r => 0 <? snd r) (combine o l))) = map (fun r => if 0 <? snd r then g r else zero) (combine o l).
Proof.
  revert l. induction o as [|a o IH]; intros [|b l] H; try discriminate; [reflexivity|]. injection H as H. cbn [map np_mask_put combine filter snd]. destruct (0 <? b); cbn [map]; now rewrite IH.
Qed.
Lemma elements_len {A} n (arr : list A) rs c r : ordered c rs n -> zlen arr = n -> 0 <= c -> In r rs -> zlen (elements arr r) = snd r.
Proof.
  intros Ho Hn Hc Hin. revert c Ho Hc. induction rs as [|[o l] rs IH]; intros c Ho Hc; [contradiction|]. cbn [ordered] in Ho. destruct Ho as (H1 & H2 & H3). pose proof (ordered_le _ _ _ H3) as Hle.
  destruct Hin as [<-|Hin]; [|apply IH with (o + l); [assumption | assumption | lia]]. unfold elements, zlen in *. cbn [fst snd]. rewrite firstn_length, skipn_length. lia.
Qed.

Section SumRanges.
  Context {A W : Type} (add : A -> A -> A) (zero : A) (mul : A -> W -> A) (div_len : A -> Z -> A) (div_w : A -> W -> A) (addw : W -> W -> W) (zerow : W).
  Notation sr := (sum_ranges add zero mul div_len div_w addw zerow).
  Variables (array : list A) (offset len : list Z).
  Hypothesis Hl : length offset = length len.
  Hypothesis Ho : ordered 0 (combine offset len) (zlen array).
  Set Default Proof Using "All".
  Definition nz := filter (fun r => 0 <? snd r) (combine offset len).
  Definition rmk : list bool := lay 0 nz (map (fun _ => true) nz) (map (fun _ => false) array).

  Lemma nz_ordered : ordered 0 nz (zlen array).
  Proof. now apply ordered_filter. Qed.
  Lemma mask_ok : assign_ranges (map (fun _ => false) array) (map fst nz) (map snd nz) (map (fun _ => true) (map fst nz)) = Ok rmk.
  Proof.
    assert (combine (map fst nz) (map snd nz) = nz) as E by (clear; induction nz as [|[a b] l IH]; [reflexivity|]; cbn; now rewrite IH).
    rewrite assign_ok.
    - rewrite E, map_map. reflexivity.
    - now rewrite !map_length.
    - now rewrite !map_length.
    - rewrite E. unfold zlen. rewrite map_length. apply nz_ordered.
  Qed.
  Lemma rmk_length : length rmk = length array.
  Proof.
    destruct (lay_assigned (zlen array) nz 0 (map (fun _ => true) nz) [] (map (fun _ => false) array) nz_ordered eq_refl) as (H & _); [rewrite zlen_map; lia | now rewrite map_length|]. cbn [app] in H. unfold rmk. now rewrite H, map_length.
  Qed.
  Lemma mask_take {X} (arr : list X) : length arr = length array -> np_mask arr rmk = concat (map (elements arr) nz).
  Proof.
    intro H. unfold rmk. assert (map (fun _ => false) array = map (fun _ => false) arr) as ->.
    { clear -H. revert arr H. induction array as [|x l IH]; intros [|y m] H; try discriminate; [reflexivity|]. cbn. f_equal. apply IH. now injection H. }
    rewrite (lay_false_mask (zlen array) nz 0 arr nz_ordered) by (unfold zlen; lia). f_equal. apply map_ext. intros [a b]. cbn [fst snd]. now rewrite Z.sub_0_r.
  Qed.
  Lemma segs_len {X} (arr : list X) : length arr = length array -> map zlen (map (elements arr) nz) = map snd nz.
  Proof. intro H. rewrite map_map. apply map_ext_in. intros r Hr. apply (elements_len (zlen array) arr nz 0); [apply nz_ordered | unfold zlen; lia | lia | assumption]. Qed.
  Lemma segs_ne {X} (arr : list X) : length arr = length array -> Forall (fun s => s <> []) (map (elements arr) nz).
  Proof.
    intro H. apply Forall_forall. intros s Hs. apply in_map_iff in Hs. destruct Hs as (r & <- & Hr). intro E. pose proof (elements_len (zlen array) arr nz 0 r nz_ordered ltac:(unfold zlen; lia) ltac:(lia) Hr) as Hlen.
    unfold nz in Hr. apply filter_In in Hr. destruct Hr as [_ Hr]. rewrite E in Hlen. unfold zlen in Hlen. cbn in Hlen. lia.
  Qed.
  Lemma reduce_ok {X} (f : X -> X -> X) (z : X) segs : map zlen segs = map snd nz -> Forall (fun s => s <> []) segs ->
    reduceat f z (concat segs) (excl_cumsum (map snd nz)) = Ok (map (nsum f z) segs).
  Proof.
    intros E Hne. pose proof (reduceat_segs f z segs [] Hne) as H. cbn [app] in H. rewrite E in H. unfold zlen in H at 1. cbn [length Z.of_nat] in H. rewrite map_id in H. exact H.
  Qed.
  Lemma sum_plain : sr array offset len None false = Ok (map (fun r => nsum add zero (elements array r)) (combine offset len)).
  Proof.
    unfold sum_ranges. replace (zlen offset =? zlen len) with true by (unfold zlen; lia). cbn [check bind].
    destruct (mask_combine offset len Hl) as [E1 E2]. rewrite E1, E2. fold nz. rewrite mask_ok. cbn [bind]. rewrite mask_take by reflexivity.
    rewrite reduce_ok by (apply segs_len || apply segs_ne; reflexivity). cbn [bind]. rewrite map_map. unfold nz. rewrite put_combine by assumption. f_equal.
    apply map_ext_in. intros r Hr. destruct (Z.ltb_spec 0 (snd r)); [reflexivity|].
    pose proof (elements_len (zlen array) array (combine offset len) 0 r Ho eq_refl ltac:(lia) Hr) as Hlen. pose proof (zlen_nonneg (elements array r)). assert (elements array r = []) as -> by (apply zlen_0_nil; lia). reflexivity.
  Qed.
  Lemma sum_mean : sr array offset len None true = Ok (map (fun r => if 0 <? snd r then div_len (nsum add zero (elements array r)) (snd r) else zero) (combine offset len)).
  Proof.
    unfold sum_ranges. replace (zlen offset =? zlen len) with true by (unfold zlen; lia). cbn [check bind].
    destruct (mask_combine offset len Hl) as [E1 E2]. rewrite E1, E2. fold nz. rewrite mask_ok. cbn [bind]. rewrite mask_take by reflexivity.
    rewrite reduce_ok by (apply segs_len || apply segs_ne; reflexivity). cbn [bind]. rewrite map_map.
    assert (zipwith div_len (map (fun r => nsum add zero (elements array r)) nz) (map snd nz) = map (fun r => div_len (nsum add zero (elements array r)) (snd r)) nz) as -> by (clear; induction nz as [|r l IH]; [reflexivity|]; cbn; now rewrite IH).
    unfold nz. rewrite put_combine by assumption. reflexivity.
  Qed.
  Lemma zipwith_concat {X Y Z0} (f : X -> Y -> Z0) (xs : list (list X)) (ys : list (list Y)) : map (@length X) xs = map (@length Y) ys ->
    zipwith f (concat xs) (concat ys) = concat (zipwith (zipwith f) xs ys).
  Proof.
    clear. revert ys. induction xs as [|x xs IH]; intros [|y ys] H; try discriminate; [reflexivity|]. cbn [map concat zipwith] in *. injection H as H1 H2. rewrite <- IH by assumption.
    clear IH H2. revert y H1. induction x as [|a x IH]; intros [|b y] H; try discriminate; [reflexivity|]. cbn. f_equal. apply IH. now injection H.
  Qed.
  Variable w : list W.
  Hypothesis Hw : length w = length array.
  Lemma wsegs : zipwith mul (concat (map (elements array) nz)) (concat (map (elements w) nz)) = concat (map (fun r => zipwith mul (elements array r) (elements w r)) nz).
  Proof.
    rewrite zipwith_concat.
    - f_equal. clear. induction nz as [|r l IH]; [reflexivity|]. cbn. now rewrite IH.
    - rewrite !map_map. apply map_ext. intro r. unfold elements. rewrite !firstn_length, !skipn_length, Hw. reflexivity.
  Qed.
  Lemma wsegs_len : map zlen (map (fun r => zipwith mul (elements array r) (elements w r)) nz) = map snd nz /\ Forall (fun s => s <> []) (map (fun r => zipwith mul (elements array r) (elements w r)) nz).
  Proof.
    assert (forall r, zlen (zipwith mul (elements array r) (elements w r)) = zlen (elements array r)) as E.
    { intro r. unfold zlen. rewrite zipwith_length. unfold elements. rewrite !firstn_length, !skipn_length, Hw. lia. }
    split.
    - rewrite map_map, (map_ext _ (fun r => zlen (elements array r))) by exact E. rewrite <- (segs_len array eq_refl), map_map. reflexivity.
    - pose proof (segs_ne array eq_refl) as Hne. rewrite Forall_forall in Hne. apply Forall_forall. intros s Hs. apply in_map_iff in Hs. destruct Hs as (r & <- & Hr). intro E0.
      apply (Hne (elements array r)); [now apply in_map|]. apply zlen_0_nil. rewrite <- E, E0. reflexivity.
  Qed.
  Lemma sum_weighted : sr array offset len (Some w) false = Ok (map (fun r => nsum add zero (zipwith mul (elements array r) (elements w r))) (combine offset len)).
  Proof.
    unfold sum_ranges. replace (zlen offset =? zlen len) with true by (unfold zlen; lia). cbn [check bind].
    destruct (mask_combine offset len Hl) as [E1 E2]. rewrite E1, E2. fold nz. rewrite mask_ok. cbn [bind]. replace (zlen w =? zlen rmk) with true by (unfold zlen; rewrite rmk_length; lia). cbn [check bind].
    rewrite !mask_take by (reflexivity || assumption). rewrite wsegs. destruct wsegs_len as [L1 L2]. rewrite reduce_ok by assumption. cbn [bind]. rewrite map_map. unfold nz. rewrite put_combine by assumption. f_equal.
    apply map_ext_in. intros r Hr. destruct (Z.ltb_spec 0 (snd r)); [reflexivity|].
    pose proof (elements_len (zlen array) array (combine offset len) 0 r Ho eq_refl ltac:(lia) Hr) as Hlen. pose proof (zlen_nonneg (elements array r)). assert (elements array r = []) as -> by (apply zlen_0_nil; lia). reflexivity.
  Qed.
  Lemma sum_weighted_mean : sr array offset len (Some w) true = Ok (map (fun r => if 0 <? snd r then div_w (nsum add zero (zipwith mul (elements array r) (elements w r))) (nsum addw zerow (elements w r)) else zero) (combine offset len)).
  Proof.
    unfold sum_ranges. replace (zlen offset =? zlen len) with true by (unfold zlen; lia). cbn [check bind].
    destruct (mask_combine offset len Hl) as [E1 E2]. rewrite E1, E2. fold nz. rewrite mask_ok. cbn [bind]. replace (zlen w =? zlen rmk) with true by (unfold zlen; rewrite rmk_length; lia). cbn [check bind].
    rewrite !mask_take by (reflexivity || assumption). rewrite wsegs. destruct wsegs_len as [L1 L2]. rewrite reduce_ok by assumption. cbn [bind]. rewrite reduce_ok by (apply segs_len || apply segs_ne; assumption). cbn [bind]. rewrite !map_map.
    match goal with |- Ok (np_mask_put _ _ ?z) = _ => assert (z = map (fun r => div_w (nsum add zero (zipwith mul (elements array r) (elements w r))) (nsum addw zerow (elements w r))) nz) as -> by (clear; induction nz as [|r l IH]; [reflexivity|]; cbn; now rewrite IH) end.
    unfold nz. rewrite put_combine by assumption. reflexivity.
  Qed.
End SumRanges.
