From Coq Require Import Ascii String NArith.
From Verif Require Import Base.Prelude Text.StrModel Text.StrSpec.
From Coq Require Import ZifyBool ZifyNat ZifyN.
Local Open Scope list_scope.
Local Open Scope N_scope.

Lemma str_eqb_eq s t : str_eqb s t = true <-> s = t.
Proof. unfold str_eqb. destruct (list_eq_dec _ _ _); split; congruence. Qed.
Lemma str_eqb_refl s : str_eqb s s = true. Proof. now apply str_eqb_eq. Qed.
Lemma mem_In c s : mem c s = true <-> In c s.
Proof. unfold mem. rewrite existsb_exists. split; [intros (d & H & E); apply Ascii.eqb_eq in E; now subst | intro H; exists c; split; [assumption | apply Ascii.eqb_refl]]. Qed.
Lemma mem_false c s : mem c s = false <-> ~ In c s.
Proof. rewrite <- mem_In. destruct (mem c s); split; congruence. Qed.
Lemma mem_app c s t : mem c (s ++ t) = mem c s || mem c t. Proof. apply existsb_app. Qed.

Lemma digit_val d : d < 10 -> N_of_ascii (digit d) = 48 + d.
Proof. intro H. unfold digit. apply N_ascii_embedding. lia. Qed.
Lemma digit_is d : d < 10 -> is_digit (digit d) = true.
Proof. intro H. unfold is_digit. rewrite digit_val by assumption. lia. Qed.
Lemma digit_not0 d : 0 < d < 10 -> digit d <> "0"%char.
Proof. intros H E. apply (f_equal N_of_ascii) in E. rewrite digit_val in E by lia. change (N_of_ascii "0") with 48 in E. lia. Qed.

Lemma sval_app s t : sval (s ++ t) = fold_left (fun a c => 10 * a + (N_of_ascii c - 48)) t (sval s).
Proof. unfold sval. apply fold_left_app. Qed.
Lemma size_pos n : 0 < n -> n < 2 ^ N.of_nat (N.size_nat n).
Proof.
  intro H. destruct n as [|p]; [lia|]. clear H. cbn [N.size_nat]. induction p as [p IH|p IH|]; cbn [Pos.size_nat].
  - rewrite Nat2N.inj_succ, N.pow_succ_r'. lia.
  - rewrite Nat2N.inj_succ, N.pow_succ_r'. lia.
  - reflexivity.
Qed.
Lemma digs_spec f : forall n, n < 2 ^ N.of_nat f -> (0 < f)%nat ->
  sval (digs f n) = n /\ all_digits (digs f n) /\ digs f n <> [] /\ (0 < n -> hd_error (digs f n) <> Some "0"%char) /\ (n = 0 -> digs f n = ["0"%char]).
Proof.
  induction f as [|f IH]; intros n Hn Hf; [lia|]. cbn [digs]. destruct (N.ltb_spec n 10) as [L|L].
  - repeat split.
    + unfold sval. cbn. rewrite digit_val by assumption. lia.
    + constructor; [now apply digit_is | constructor].
    + discriminate.
    + intros H [= E]. now apply (digit_not0 n) in E.
    + intros ->. reflexivity.
  - assert (n / 10 < 2 ^ N.of_nat f) as H1.
    { rewrite Nat2N.inj_succ, N.pow_succ_r' in Hn. apply N.div_lt_upper_bound; lia. }
    assert (0 < n / 10) as H2 by (apply N.div_str_pos; lia).
    destruct f as [|f']; [cbn in H1; lia|]. destruct (IH (n / 10)) as (I1 & I2 & I3 & I4 & _); [assumption|lia|].
    pose proof (N.mod_upper_bound n 10 ltac:(lia)) as M. pose proof (N.div_mod n 10 ltac:(lia)) as D.
    assert (forall c (l : str), l <> [] -> hd_error (l ++ [c]) = hd_error l) as Hh by (intros c [|x l]; [contradiction | reflexivity]).
    repeat split.
    + rewrite sval_app, I1. cbn [fold_left]. rewrite digit_val by assumption. lia.
    + apply Forall_app. split; [assumption|]. constructor; [now apply digit_is | constructor].
    + intro E. now apply app_eq_nil in E.
    + intros _. rewrite Hh by assumption. now apply I4.
    + intros ->. lia.
Qed.
Lemma dec_fuel n : n < 2 ^ N.of_nat (S (N.size_nat n)).
Proof. destruct (N.eq_0_gt_0_cases n) as [->|H]; [reflexivity|]. pose proof (size_pos n H). rewrite Nat2N.inj_succ, N.pow_succ_r'. lia. Qed.
Lemma dec_val n : sval (dec n) = n.
Proof. apply digs_spec; [apply dec_fuel | lia]. Qed.
Lemma dec_digits n : all_digits (dec n).
Proof. apply digs_spec; [apply dec_fuel | lia]. Qed.
Lemma dec_decimal n : decimal (dec n).
Proof.
  destruct (digs_spec (S (N.size_nat n)) n (dec_fuel n)) as (H1 & H2 & H3 & H4 & H5); [lia|]. repeat split; [assumption..|].
  intro H. destruct (N.eq_0_gt_0_cases n) as [->|L]; [now apply H5 | now apply H4 in H].
Qed.
Lemma dec_nonempty n : dec n <> []. Proof. apply dec_decimal. Qed.
Lemma dec_inj n m : dec n = dec m -> n = m.
Proof. intro H. rewrite <- (dec_val n), <- (dec_val m). congruence. Qed.

Lemma sval_zeros k s : sval (repeat "0"%char k ++ s) = sval s.
Proof. rewrite sval_app. unfold sval at 2. f_equal. induction k as [|k IH]; [reflexivity|]. unfold sval in *. cbn. exact IH. Qed.
Lemma pad0_val w s : sval (pad "0" w s) = sval s. Proof. apply sval_zeros. Qed.
Lemma pad0_digits w s : all_digits s -> all_digits (pad "0" w s).
Proof. intro H. apply Forall_app. split; [|assumption]. apply Forall_forall. intros c Hc. apply repeat_spec in Hc. now subst. Qed.
Lemma pad_nonempty c w s : s <> [] -> pad c w s <> [].
Proof. intros H E. apply app_eq_nil in E. now destruct E. Qed.
Lemma pad_length c w s : length (pad c w s) = Nat.max w (length s).
Proof. unfold pad. rewrite app_length, repeat_length. lia. Qed.

Lemma digits_hd c s : all_digits (c :: s) -> c <> "-"%char.
Proof. intros H ->. inversion H. discriminate. Qed.

(** what a number can be read back from *)
Definition read_int (s : str) : Z :=
  match s with "-"%char :: s' => (- Z.of_N (sval s'))%Z | _ => Z.of_N (sval s) end.
Lemma read_digits s : all_digits s -> read_int s = Z.of_N (sval s).
Proof.
  destruct s as [|c s]; [reflexivity|]. intro H. pose proof (digits_hd c s H) as N. unfold read_int.
  destruct c as [b0 b1 b2 b3 b4 b5 b6 b7]. destruct b0, b1, b2, b3, b4, b5, b6, b7; try reflexivity. contradiction.
Qed.
Lemma fmt_d_read z : read_int (fmt_d z) = z.
Proof.
  destruct z as [|p|p]; cbn [fmt_d].
  - reflexivity.
  - rewrite read_digits by apply dec_digits. rewrite dec_val. reflexivity.
  - cbn [read_int]. rewrite dec_val. reflexivity.
Qed.
Lemma fmt_0d_read w z : read_int (fmt_0d w z) = z.
Proof.
  destruct z as [|p|p]; cbn [fmt_0d].
  - rewrite read_digits by apply pad0_digits, dec_digits. rewrite pad0_val, dec_val. reflexivity.
  - rewrite read_digits by apply pad0_digits, dec_digits. rewrite pad0_val, dec_val. reflexivity.
  - cbn [read_int]. rewrite pad0_val, dec_val. reflexivity.
Qed.
Lemma fmt_d_inj a b : fmt_d a = fmt_d b -> a = b.
Proof. intro H. rewrite <- (fmt_d_read a), <- (fmt_d_read b). congruence. Qed.
Lemma fmt_0d_inj w a b : fmt_0d w a = fmt_0d w b -> a = b.
Proof. intro H. rewrite <- (fmt_0d_read w a), <- (fmt_0d_read w b). congruence. Qed.

(** characters of formatted numbers *)
Definition num_char (c : ascii) : bool := is_digit c || Ascii.eqb c "-".
Lemma digits_num s : all_digits s -> Forall (fun c => num_char c = true) s.
Proof. apply Forall_impl. intros c H. unfold num_char. now rewrite H. Qed.
Lemma fmt_d_num z : Forall (fun c => num_char c = true) (fmt_d z).
Proof. destruct z; cbn [fmt_d]; try (apply digits_num, dec_digits). constructor; [reflexivity | apply digits_num, dec_digits]. Qed.
Lemma fmt_0d_num w z : Forall (fun c => num_char c = true) (fmt_0d w z).
Proof. destruct z; cbn [fmt_0d]; try (apply digits_num, pad0_digits, dec_digits). constructor; [reflexivity | apply digits_num, pad0_digits, dec_digits]. Qed.
Lemma num_not_in s c : Forall (fun c => num_char c = true) s -> num_char c = false -> ~ In c s.
Proof. intros H E Hi. rewrite Forall_forall in H. apply H in Hi. congruence. Qed.
