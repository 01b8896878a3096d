(** A number can be written with a given number of digits in one way only. *)
From Coq Require Import Ascii String NArith.
From Verif Require Import Base.Prelude Text.StrModel Text.StrSpec Text.StrProofs Text.PathSpec.
From Coq Require Import ZifyBool ZifyNat ZifyN.
Local Open Scope N_scope. Local Open Scope list_scope.

Lemma is_digit_range c : is_digit c = true -> 48 <= N_of_ascii c <= 57.
Proof. unfold is_digit. lia. Qed.
Lemma sval_snoc s c : sval (s ++ [c]) = 10 * sval s + (N_of_ascii c - 48).
Proof. now rewrite sval_app. Qed.
Lemma sval_bound s : all_digits s -> sval s < 10 ^ N.of_nat (List.length s).
Proof.
  induction s as [|c s IH] using rev_ind; intro H; [reflexivity|]. unfold all_digits in *. apply Forall_app in H. destruct H as [H1 H2]. apply Forall_cons_iff in H2. destruct H2 as [H2 _]. apply is_digit_range in H2.
  rewrite sval_snoc, app_length. cbn [List.length]. rewrite Nat.add_1_r, Nat2N.inj_succ, N.pow_succ_r'. specialize (IH H1). lia.
Qed.
Lemma sval_lead c s : all_digits (c :: s) -> c <> "0"%char -> 10 ^ N.of_nat (List.length s) <= sval (c :: s).
Proof.
  intros H Hc. induction s as [|d s IH] using rev_ind.
  - apply Forall_cons_iff in H. destruct H as [H _]. apply is_digit_range in H. change (sval [c]) with (10 * 0 + (N_of_ascii c - 48)). change (10 ^ N.of_nat (List.length [])) with 1.
    assert (N_of_ascii c <> 48); [|lia]. intro E. apply Hc. rewrite <- (ascii_N_embedding c), E. reflexivity.
  - unfold all_digits in *. change (c :: s ++ [d]) with ((c :: s) ++ [d]) in *. apply Forall_app in H. destruct H as [H1 H2]. specialize (IH H1). rewrite sval_snoc, app_length. cbn [List.length]. rewrite Nat.add_1_r, Nat2N.inj_succ, N.pow_succ_r'. lia.
Qed.
Lemma sval_inj : forall s t, List.length s = List.length t -> all_digits s -> all_digits t -> sval s = sval t -> s = t.
Proof.
  induction s as [|c s IH] using rev_ind; intros t Hl Hs Ht E; [destruct t; [reflexivity | discriminate Hl]|].
  destruct t as [|d t] using rev_ind; [rewrite app_length in Hl; cbn in Hl; lia|]. clear IHt. rewrite !app_length in Hl. cbn [List.length] in Hl. rewrite !sval_snoc in E.
  unfold all_digits in *. apply Forall_app in Hs, Ht. destruct Hs as [S1 S2], Ht as [T1 T2]. apply Forall_cons_iff in S2, T2. destruct S2 as [S2 _], T2 as [T2 _]. apply is_digit_range in S2, T2.
  assert (N_of_ascii c = N_of_ascii d /\ sval s = sval t) as [E1 E2] by lia. f_equal; [apply IH; (assumption || lia)|]. f_equal. rewrite <- (ascii_N_embedding c), <- (ascii_N_embedding d). now f_equal.
Qed.
Lemma number_length w z s t : (1 <= w)%nat -> number w z s -> number w z t -> (List.length t <= List.length s)%nat.
Proof.
  intros Hw (D1 & V1 & L1 & Z1) (D2 & V2 & L2 & Z2). destruct (Nat.le_gt_cases (List.length t) (List.length s)) as [H|H]; [exact H|]. exfalso. specialize (Z2 ltac:(lia)).
  destruct t as [|c t]; [cbn in H; lia|]. assert (c <> "0"%char) as Hc by (intros ->; now apply Z2). pose proof (sval_lead c t D2 Hc). pose proof (sval_bound s D1). cbn [List.length] in H.
  assert (10 ^ N.of_nat (List.length s) <= 10 ^ N.of_nat (List.length t)) by (apply N.pow_le_mono_r; lia). lia.
Qed.
Lemma number_unique w z s t : (1 <= w)%nat -> number w z s -> number w z t -> s = t.
Proof.
  intros Hw H1 H2. apply sval_inj; [apply Nat.le_antisymm; eapply number_length; eassumption | apply H1 | apply H2|]. destruct H1 as (_ & E1 & _), H2 as (_ & E2 & _). lia.
Qed.
