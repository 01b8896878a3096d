(** Proofs about assign_files. *)
From Verif.Base Require Import Prelude ListLemmas NdArray.
From Verif.Phdf5 Require Import AssignModel.
From Coq Require Import ZifyBool ZifyNat Znumtheory.
Local Open Scope Z_scope.

Lemma sumZ_upd l k : (k < length l)%nat -> sumZ (upd k (Z.add 1) l) = sumZ l + 1.
Proof. revert k. induction l as [|x l IH]; intros [|k] H; cbn [length] in H; try lia; cbn [upd sumZ]; [lia|]. rewrite IH by lia. lia. Qed.
Lemma nth_upd l k j : (k < length l)%nat -> nth j (upd k (Z.add 1) l) 0 = nth j l 0 + (if (j =? k)%nat then 1 else 0).
Proof.
  revert k j. induction l as [|x l IH]; intros [|k] j H; cbn [length] in H; try lia; destruct j as [|j]; cbn [upd nth Nat.eqb]; try lia.
  rewrite IH by lia. reflexivity.
Qed.
(** how often position [j] is hit *)
Definition hits (R step : Z) (n j : nat) : Z := sumZ (map (fun i => if (j =? Z.to_nat ((Z.of_nat i * step) mod R))%nat then 1 else 0) (seq 0 n)).
Lemma sumZ_app' l m : sumZ (l ++ m) = sumZ l + sumZ m.
Proof. induction l as [|x l IH]; cbn [app sumZ]; lia. Qed.
Lemma hits_S R step n j : hits R step (S n) j = hits R step n j + (if (j =? Z.to_nat ((Z.of_nat n * step) mod R))%nat then 1 else 0).
Proof. unfold hits. rewrite seq_S, map_app, sumZ_app'. cbn [map sumZ plus]. lia. Qed.
Lemma spread_ok R step files n : 0 < R -> length files = Z.to_nat R ->
  length (spread R step files n) = Z.to_nat R /\ sumZ (spread R step files n) = sumZ files + Z.of_nat n /\
  forall j, nth j (spread R step files n) 0 = nth j files 0 + hits R step n j.
Proof.
  intros HR Hl. induction n as [|n (I1 & I2 & I3)].
  - repeat split; [assumption | cbn; lia | intro j; unfold hits; cbn; lia].
  - unfold spread in *. rewrite seq_S, fold_left_app. cbn [fold_left plus].
    pose proof (Z.mod_pos_bound (Z.of_nat n * step) R HR). repeat split.
    + now rewrite upd_length.
    + rewrite sumZ_upd by lia. lia.
    + intro j. rewrite nth_upd by lia. rewrite I3, hits_S. lia.
Qed.
Lemma hits_bounds R step n j : 0 <= hits R step n j <= Z.of_nat n.
Proof. induction n as [|n IH]; [unfold hits; cbn; lia|]. rewrite hits_S. destruct (_ =? _)%nat; lia. Qed.
Lemma hits_pos R step n j i : (i < n)%nat -> (j = Z.to_nat ((Z.of_nat i * step) mod R))%nat -> 1 <= hits R step n j.
Proof.
  intros Hi Hj. induction n as [|n IH]; [lia|]. rewrite hits_S. pose proof (hits_bounds R step n j).
  destruct (Nat.eq_dec i n) as [->|H0]; [rewrite <- Hj, Nat.eqb_refl; lia|]. specialize (IH ltac:(lia)). destruct (_ =? _)%nat; lia.
Qed.
Lemma hits_two R step n j i i' : (i < i')%nat -> (i' < n)%nat -> (j = Z.to_nat ((Z.of_nat i * step) mod R))%nat -> (j = Z.to_nat ((Z.of_nat i' * step) mod R))%nat ->
  2 <= hits R step n j.
Proof.
  intros Hi Hi' Hj Hj'. induction n as [|n IH]; [lia|]. rewrite hits_S. 
  destruct (Nat.eq_dec i' n) as [->|H0].
  - pose proof (hits_pos R step n j i Hi Hj). rewrite <- Hj', Nat.eqb_refl. lia.
  - specialize (IH ltac:(lia)). destruct (_ =? _)%nat; lia.
Qed.
Lemma hits_le1 R step n j : 0 < R -> (forall i i', (i < i')%nat -> (i' < n)%nat -> (Z.of_nat i * step) mod R <> (Z.of_nat i' * step) mod R) -> hits R step n j <= 1.
Proof.
  intros HR H. induction n as [|n IH]; [unfold hits; cbn; lia|]. rewrite hits_S. specialize (IH ltac:(intros i i' H1 H2; apply H; lia)).
  destruct (Nat.eqb_spec j (Z.to_nat ((Z.of_nat n * step) mod R))) as [Hj|]; [|lia].
  assert (hits R step n j = 0) as H0; [|lia].
  assert (forall m, (m <= n)%nat -> hits R step m j = 0) as HH; [|now apply HH].
  induction m as [|m IHm]; intro Hm; [reflexivity|]. rewrite hits_S, IHm by lia.
  destruct (Nat.eqb_spec j (Z.to_nat ((Z.of_nat m * step) mod R))) as [Hj'|]; [|lia].
  exfalso. apply (H m n); [lia..|]. pose proof (Z.mod_pos_bound (Z.of_nat n * step) R HR). pose proof (Z.mod_pos_bound (Z.of_nat m * step) R HR). lia.
Qed.

Lemma sum_repeat x n : sumZ (repeat x n) = x * Z.of_nat n.
Proof. induction n as [|n IH]; cbn [repeat sumZ]; [lia|]. rewrite IH. lia. Qed.

Section Assign.
  Variables (F R : Z).
  Hypothesis HF : 0 <= F.
  Hypothesis HR : 1 <= R.
  Let rem := F mod R.
  Let step := Z.max (F / (rem + 1)) 1.
  Definition final := spread R (Z.max (F / (F mod R + 1)) 1) (repeat (F / R) (Z.to_nat R)) (Z.to_nat (F mod R)).
  Set Default Proof Using "All".
  Lemma assign_files_eq : assign_files F R = Ok final.
  Proof.
    unfold assign_files. destruct (Z.leb_spec 0 R); [|lia]. destruct (Z.eqb_spec R 0); [lia|]. cbn [check negb bind].
    pose proof (Z.mod_pos_bound F R ltac:(lia)). pose proof (Z.div_mod F R ltac:(lia)).
    assert ((if 0 <? F mod R then spread R (Z.max (F / (F mod R + 1)) 1) (repeat (F / R) (Z.to_nat R)) (Z.to_nat (F mod R)) else repeat (F / R) (Z.to_nat R)) = final) as ->.
    { destruct (Z.ltb_spec 0 (F mod R)); [reflexivity|]. unfold final. replace (Z.to_nat (F mod R)) with 0%nat by lia. reflexivity. }
    destruct (spread_ok R step (repeat (F / R) (Z.to_nat R)) (Z.to_nat rem) ltac:(lia) ltac:(apply repeat_length)) as (S1 & S2 & S3).
    fold rem step in S2 |- *. unfold final. fold rem. fold step. rewrite S2, sum_repeat. unfold rem in *. destruct (Z.eqb_spec (F / R * Z.of_nat (Z.to_nat R) + Z.of_nat (Z.to_nat (F mod R))) F); [reflexivity | lia].
  Qed.
  Lemma final_ok : length final = Z.to_nat R /\ sumZ final = F /\ forall j, (j < Z.to_nat R)%nat -> nth j final 0 = F / R + hits R step (Z.to_nat rem) j.
  Proof.
    pose proof (Z.mod_pos_bound F R ltac:(lia)). pose proof (Z.div_mod F R ltac:(lia)).
    destruct (spread_ok R step (repeat (F / R) (Z.to_nat R)) (Z.to_nat rem) ltac:(lia) ltac:(apply repeat_length)) as (S1 & S2 & S3).
    unfold final. fold rem. fold step. repeat split.
    - exact S1.
    - rewrite S2, sum_repeat. unfold rem. lia.
    - intros j Hj. rewrite S3. f_equal. rewrite (nth_indep _ 0 (F / R)) by (now rewrite repeat_length). apply nth_repeat.
  Qed.
  Lemma assign_files_main : exists files, assign_files F R = Ok files /\ length files = Z.to_nat R /\ sumZ files = F /\
    Forall (fun c => F / R <= c <= F / R + F mod R) files.
  Proof.
    exists final. split; [apply assign_files_eq|]. destruct final_ok as (H1 & H2 & H3). repeat split; [assumption..|].
    apply Forall_nth. intros j d Hj. rewrite (nth_indep _ d 0) by assumption. rewrite H1 in Hj. rewrite H3 by assumption.
    pose proof (hits_bounds R step (Z.to_nat rem) j). pose proof (Z.mod_pos_bound F R ltac:(lia)). unfold rem in *. lia.
  Qed.

  Let g := Z.gcd step R.
  Lemma g_pos : 1 <= g /\ (g | R) /\ (g | step).
  Proof.
    assert (0 <= g) by apply Z.gcd_nonneg. assert (g <> 0) by (unfold g; intro H0; apply Z.gcd_eq_0_r in H0; lia).
    split; [lia|]. split; [apply Z.gcd_divide_r | apply Z.gcd_divide_l].
  Qed.
  Lemma collide i i' : 0 <= i < i' -> (i * step) mod R = (i' * step) mod R -> R / g <= i' - i.
  Proof.
    intros Hi E. destruct g_pos as (G1 & G2 & G3).
    assert ((R | (i' - i) * step)) as Hd.
    { apply Z.mod_divide; [lia|]. rewrite Z.mul_sub_distr_r, Zminus_mod, E, Z.sub_diag. apply Z.mod_0_l. lia. }
    assert ((R / g | i' - i)) as Hd'.
    { apply Z.gauss with (m := step / g).
      - destruct Hd as [q Hq], G2 as [r Hr], G3 as [t Ht]. exists q.
        assert (R / g = r) as -> by (rewrite Hr at 1; apply Z.div_mul; lia). assert (step / g = t) as -> by (rewrite Ht at 1; apply Z.div_mul; lia).
        apply Z.mul_reg_r with (p := g); [lia|]. rewrite <- (Z.mul_assoc q r g), <- Hr, <- Hq. rewrite Ht. ring.
      - rewrite Z.gcd_comm. apply Z.gcd_div_gcd; [lia | reflexivity]. }
    apply Z.divide_pos_le; [lia | exact Hd'].
  Qed.
  Lemma balanced_iff : (forall a b, In a final -> In b final -> a - b <= 1) <-> F mod R * g <= R.
  Proof.
    destruct final_ok as (H1 & H2 & H3). pose proof (Z.mod_pos_bound F R ltac:(lia)) as Hm. destruct g_pos as (G1 & G2 & G3).
    assert (R = R / g * g) as HRg by (destruct G2 as [r Hr]; rewrite Hr at 2; rewrite Z.div_mul by lia; exact Hr).
    split.
    - intro Hbal. destruct (Z.le_gt_cases (F mod R * g) R) as [|Hgt]; [assumption|exfalso].
      assert (R / g < rem) as Hlt by (unfold rem; nia). assert (1 <= R / g) as Hq by nia.
      assert (2 <= hits R step (Z.to_nat rem) 0) as Ht.
      { apply (hits_two R step (Z.to_nat rem) 0 0 (Z.to_nat (R / g))); [lia..| |].
        - cbn [Z.of_nat]. rewrite Z.mul_0_l, Z.mod_0_l by lia. reflexivity.
        - rewrite Z2Nat.id by lia. replace (R / g * step) with (step / g * R).
          + rewrite Z.mod_mul by lia. reflexivity.
          + destruct G3 as [t Ht]. rewrite Ht at 1. rewrite Z.div_mul by lia. rewrite Ht at 1. rewrite HRg at 1. ring. }
      (* some rank gets only the floor, or the total would exceed F *)
      assert (forall j, (j < Z.to_nat R)%nat -> F / R + 1 <= nth j final 0) as Hall.
      { intros j Hj. specialize (Hbal (nth 0 final 0) (nth j final 0) ltac:(apply nth_In; lia) ltac:(apply nth_In; lia)). rewrite (H3 0%nat) in Hbal by lia. lia. }
      assert ((F / R + 1) * R <= sumZ final) as Hsum.
      { assert (forall l c, (forall j, (j < length l)%nat -> c <= nth j l 0) -> c * Z.of_nat (length l) <= sumZ l) as HS.
        { clear. induction l as [|x l IH]; intros c H; [cbn; lia|]. cbn [length sumZ]. specialize (IH c (fun j Hj => H (S j) ltac:(cbn; lia))). specialize (H 0%nat ltac:(cbn; lia)). cbn in H. lia. }
        specialize (HS final (F / R + 1)). rewrite H1 in HS. rewrite Z2Nat.id in HS by lia. now apply HS. }
      pose proof (Z.div_mod F R ltac:(lia)). lia.
    - intros Hle. assert (forall j, hits R step (Z.to_nat rem) j <= 1) as Hh.
      { intro j. apply hits_le1; [lia|]. intros i i' Hi Hi' E. pose proof (collide (Z.of_nat i) (Z.of_nat i') ltac:(lia) E). unfold rem in *. nia. }
      intros a b Ha Hb. apply (In_nth _ _ 0) in Ha, Hb. destruct Ha as (ja & Ja & <-), Hb as (jb & Jb & <-). rewrite !H3 by lia.
      pose proof (Hh ja). pose proof (hits_bounds R step (Z.to_nat rem) jb). lia.
  Qed.
  Lemma assign_files_balanced : exists files, assign_files F R = Ok files /\
    ((forall a b, In a files -> In b files -> a - b <= 1) <-> F mod R * Z.gcd (Z.max (F / (F mod R + 1)) 1) R <= R).
  Proof. exists final. split; [apply assign_files_eq | apply balanced_iff]. Qed.
End Assign.

(** when there are fewer files than ranks no rank gets two *)
Lemma assign_files_few F R : 0 <= F < R -> exists files, assign_files F R = Ok files /\ (forall a b, In a files -> In b files -> a - b <= 1).
Proof.
  intro H. destruct (assign_files_balanced F R ltac:(lia) ltac:(lia)) as (files & H1 & H2). exists files. split; [assumption|]. apply H2.
  rewrite Z.mod_small by lia. replace (Z.max (F / (F + 1)) 1) with 1; [rewrite Z.gcd_1_l; lia|]. rewrite Z.div_small by lia. reflexivity.
Qed.
Lemma assign_files_multiple q R : 0 <= q -> 1 <= R -> assign_files (q * R) R = Ok (repeat q (Z.to_nat R)).
Proof.
  intros Hq HR. rewrite assign_files_eq by nia. unfold final. rewrite Z.mod_mul, Z.div_mul by lia. reflexivity.
Qed.
