(** The file number in the name of a file. *)
From Coq Require Import Ascii String NArith ZArith.
From Verif Require Import Base.Prelude Base.ListLemmas Text.StrModel Text.StrSpec Text.StrProofs Text.FmtModel Text.FmtSpec Text.FmtProofs Text.FmtStages Text.FileNrModel Text.FileNrSpec.
From Coq Require Import ZifyBool ZifyNat ZifyN.
Local Open Scope char_scope.
Local Open Scope list_scope.

(** ** reading specifications *)
Lemma until_app p s r : (forall c, In c s -> p c = false) -> (match r with [] => True | c :: _ => p c = true end) -> until p (s ++ r) = (s, r).
Proof.
  induction s as [|c s IH]; intros H Hr; cbn [app until].
  - destruct r as [|c r]; cbn [until]; [reflexivity|]. rewrite Hr. reflexivity.
  - rewrite (H c) by (now left). rewrite IH; [reflexivity| |assumption]. intros x Hx. apply H. now right.
Qed.
Lemma nat_of_dec w : nat_of_str (dec (N.of_nat w)) = w.
Proof. unfold nat_of_str. change (N.to_nat (sval (dec (N.of_nat w))) = w). rewrite dec_val. lia. Qed.
Definition wtext (w : nat) : str := if Nat.eqb w 0 then [] else dec (N.of_nat w).
Lemma wtext_nat w : nat_of_str (wtext w) = w.
Proof. unfold wtext. destruct (Nat.eqb_spec w 0) as [->|]; [reflexivity|apply nat_of_dec]. Qed.
Lemma wtext_digits w c : In c (wtext w) -> is_digit c = true.
Proof. unfold wtext. destruct (Nat.eqb w 0); [intros []|]. intros H. pose proof (dec_digits (N.of_nat w)) as D. unfold all_digits in D. rewrite Forall_forall in D. now apply D. Qed.
Lemma wtext_hd w r : (match r with [] => True | c :: _ => c <> "0" end) -> match wtext w ++ r with [] => True | c :: _ => c <> "0" end.
Proof.
  unfold wtext. destruct (Nat.eqb_spec w 0) as [->|Hw]; [auto|]. intros _. pose proof (dec_decimal (N.of_nat w)) as (_ & H1 & H2).
  destruct (dec (N.of_nat w)) as [|c s] eqn:E; [contradiction|]. cbn. intros ->. specialize (H2 eq_refl).
  assert (N.of_nat w = 0%N); [|lia]. rewrite <- (dec_val (N.of_nat w)), E, H2. reflexivity.
Qed.
Lemma take_digits_wtext w r : (match r with [] => True | c :: _ => is_digit c = false end) -> take_digits (wtext w ++ r) = (wtext w, r).
Proof.
  intros H. unfold take_digits. apply until_app.
  - intros c Hc. rewrite (wtext_digits w c Hc). reflexivity.
  - destruct r; [exact I|]. rewrite H. reflexivity.
Qed.
Lemma num_spec_eq z w d : num_spec z w d = (if z then ["0"] else []) ++ wtext w ++ (if d then ["d"] else []).
Proof. reflexivity. Qed.
Lemma int_spec_num z w d : int_spec (num_spec z w d) = Some (z, w).
Proof.
  rewrite num_spec_eq. set (r := if d then ["d"] else []).
  assert (take_digits (wtext w ++ r) = (wtext w, r)) as E by (apply take_digits_wtext; destruct d; cbn; auto).
  assert (str_eqb r [] || str_eqb r ["d"] = true) as Er by (destruct d; reflexivity).
  unfold int_spec. destruct z; cbn [app].
  - cbn [Ascii.eqb Bool.eqb]. rewrite E, Er, wtext_nat. reflexivity.
  - pose proof (wtext_hd w r ltac:(unfold r; destruct d; [discriminate|exact I])) as H. destruct (wtext w ++ r) as [|c s].
    + rewrite E, Er, wtext_nat. reflexivity.
    + destruct (Ascii.eqb_spec c "0"); [contradiction|]. rewrite E, Er, wtext_nat. reflexivity.
Qed.

(** characters of the placeholders *)
Lemma digit_chars c : is_digit c = true -> brace c = false /\ c <> "%" /\ flag_char c = Ascii.eqb c "0" /\ mem c (lit "hlL") = false.
Proof.
  destruct c as [b0 b1 b2 b3 b4 b5 b6 b7]. destruct b0, b1, b2, b3, b4, b5, b6, b7; intros H; try discriminate H; (split; [reflexivity|split; [discriminate|split; reflexivity]]).
Qed.
Lemma num_spec_chars z w d c : In c (num_spec z w d) -> brace c = false /\ c <> "%".
Proof.
  rewrite num_spec_eq. intros H. apply in_app_or in H as [H|H]; [|apply in_app_or in H as [H|H]].
  - destruct z; [destruct H as [<-|[]]|destruct H]. split; [reflexivity|discriminate].
  - apply wtext_digits, digit_chars in H. tauto.
  - destruct d; [destruct H as [<-|[]]|destruct H]. split; [reflexivity|discriminate].
Qed.
Lemma number_chars z w n c : In c (number z w n) -> brace c = false /\ c <> "%".
Proof.
  assert (forall s, Forall (fun c => num_char c = true) s -> In c s -> brace c = false /\ c <> "%") as G.
  { intros s Hs Hc. rewrite Forall_forall in Hs. apply Hs in Hc. unfold num_char in Hc. apply Bool.orb_prop in Hc as [Hc|Hc].
    - apply digit_chars in Hc. tauto.
    - apply Ascii.eqb_eq in Hc. subst. split; [reflexivity|discriminate]. }
  unfold number. destruct z; [apply G, fmt_0d_num|]. unfold fmt_wd, pad. intros H. apply in_app_or in H as [H|H].
  - apply repeat_spec in H. subst. split; [reflexivity|discriminate].
  - exact (G _ (fmt_d_num n) H).
Qed.

(** ** str.format *)
Section Subst.
  Variable pct_other : directive -> Z -> res str.
  Variable dict_text : directive -> Z -> res str.
  Variable spec_other : str -> Z -> res str.
  Variable text_spec : str -> str -> res str.
  Variable text_of : ascii -> str -> str.
  Variable get_attr : @obj value -> str -> res (@obj value).
  Variable get_item : @obj value -> key_t -> res (@obj value).
  Notation str_format := (str_format spec_other text_spec text_of get_attr get_item).
  Notation pct_format := (pct_format pct_other dict_text).
  Notation pct_loop := (pct_loop pct_other dict_text).

  Definition to_part (p : npart) : part :=
    match p with
    | NBr z w d => Fld (lit "file_nr") None (match num_spec z w d with [] => None | s => Some [SLit s] end)
    | _ => Lit (ntext1 p)
    end.
  Lemma plain_file_nr : plain_key (lit "file_nr").
  Proof.
    split; [discriminate|]. split.
    - intros c H. cbn in H. repeat (destruct H as [<-|H]; [reflexivity|]). destruct H.
    - exists "f". split; [now left|reflexivity].
  Qed.
  Lemma nlit_chars s : nwf (NLit s) -> forall c, In c s -> brace c = false /\ c <> "%".
  Proof.
    intros H c Hc. specialize (H c Hc). apply mem_false in H. unfold brace. split.
    - destruct (Ascii.eqb_spec c "{"); [subst; exfalso; apply H; cbn; tauto|]. destruct (Ascii.eqb_spec c "}"); [subst; exfalso; apply H; cbn; tauto|reflexivity].
    - intros ->. apply H. cbn. tauto.
  Qed.
  Lemma to_part_source p : nwf p -> source1 (to_part p) = ntext1 p.
  Proof.
    destruct p as [s|z w|z w d]; intros H; cbn [to_part source1].
    - apply escape_no_brace. intros c Hc. now apply (nlit_chars s H).
    - apply escape_no_brace. intros c Hc. cbn [ntext1] in Hc. apply in_app_or in Hc as [Hc|Hc]; [|now apply num_spec_chars in Hc].
      cbn in Hc. repeat (destruct Hc as [<-|Hc]; [reflexivity|]). destruct Hc.
    - cbn [text opt_conv ntext1 app]. destruct (num_spec z w d) as [|c s]; [reflexivity|].
      cbn [option_map opt_spec]. unfold stexts. cbn [map concat stext]. rewrite app_nil_r. reflexivity.
  Qed.
  Lemma to_part_wf p : wf (to_part p).
  Proof.
    destruct p as [s|z w|z w d]; cbn; auto. split; [apply plain_file_nr|]. split; [discriminate|].
    intros l Hl. destruct (num_spec z w d) as [|c s] eqn:E; [discriminate|]. injection Hl as <-. constructor; [|constructor].
    cbn. intros x Hx. rewrite <- E in Hx. now apply num_spec_chars in Hx.
  Qed.
  Definition br_value (n : Z) (p : npart) : str := match p with NBr z w _ => number z w n | _ => ntext1 p end.
  Lemma str_format_ok t n : Forall nwf t -> str_format (ntext t) n = Ok (concat (map (br_value n) t)).
  Proof.
    intros H. assert (ntext t = source (map to_part t)) as ->.
    { unfold ntext, source. f_equal. rewrite map_map. apply map_ext_in. intros p Hp. symmetry. apply to_part_source. rewrite Forall_forall in H. now apply H. }
    unfold FileNrModel.str_format. rewrite pformat_source.
    2:{ apply Forall_forall. intros p Hp. apply in_map_iff in Hp as [q [<- _]]. apply to_part_wf. }
    unfold fill. rewrite (mapM_map_ok _ (fun p => match p with Lit s => Lit s | Fld _ _ q => Lit (match int_spec (stexts (match q with None => [] | Some l => l end)) with Some (z, w) => number z w n | None => [] end) end)).
    - cbn [bind]. f_equal. unfold texts. rewrite !map_map. f_equal. apply map_ext. intros p. destruct p as [s|z w|z w d]; [reflexivity..|].
      cbn [to_part br_value text].
      assert (stexts (match (match num_spec z w d with [] => None | s => Some [SLit s] end) with None => [] | Some l => l end) = num_spec z w d) as ->.
      { destruct (num_spec z w d); [reflexivity|]. unfold stexts. cbn. rewrite app_nil_r. reflexivity. }
      rewrite int_spec_num. reflexivity.
    - intros p Hp. apply in_map_iff in Hp as [q [<- _]]. destruct q as [s|z w|z w d]; [reflexivity..|].
      cbn [to_part fill_part]. cbv zeta.
      change (env_of false [(lit "file_nr", Some (VInt n))] (lit "file_nr")) with (Value (VInt n)). cbv iota.
      assert (forall l, l = match (match num_spec z w d with [] => None | s => Some [SLit s] end) with None => [] | Some l => l end ->
        mapM (fill_spart (pyformat spec_other text_spec) (env_of false [(lit "file_nr", Some (VInt n))])) l = Ok l /\ stexts l = num_spec z w d) as G.
      { intros l ->. destruct (num_spec z w d); split; try reflexivity. unfold stexts. cbn. rewrite app_nil_r. reflexivity. }
      destruct (G _ eq_refl) as [G1 G2]. rewrite G1. cbn [bind pyformat]. rewrite !G2, !int_spec_num. reflexivity.
  Qed.

  (** ** the % operator *)
  Lemma until_len p s a b : until p s = (a, b) -> (length b <= length s)%nat.
  Proof.
    revert a b. induction s as [|c s IH]; intros a b; cbn [until]; [intros [= <- <-]; lia|].
    destruct (p c); [intros [= <- <-]; lia|]. destruct (until p s) as [l r]. intros [= <- <-]. specialize (IH l r eq_refl). cbn. lia.
  Qed.
  Lemma scan_key_len s : forall k p r, scan_key k s = Ok (p, r) -> (length r < length s)%nat.
  Proof.
    induction s as [|c s IH]; intros k p r; cbn [scan_key]; [discriminate|].
    assert (forall k', (do (p, r) <- scan_key k' s; Ok (c :: p, r)) = Ok (p, r) -> (length r < length (c :: s))%nat) as G.
    { intros k'. destruct (scan_key k' s) as [[p0 r0]|e] eqn:E; cbn [bind]; [|discriminate]. intros [= <- <-]. apply IH in E. cbn. lia. }
    destruct (Ascii.eqb c "("); [apply G|]. destruct (Ascii.eqb c ")"); [|apply G].
    destruct k; [intros [= <- <-]; cbn; lia|apply G].
  Qed.
  Lemma parse_directive_len s k d r : parse_directive s = Ok (k, d, r) -> (length r < length s)%nat.
  Proof.
    unfold parse_directive.
    match goal with |- (do (x, y) <- ?m; _) = _ -> _ => assert (forall x y, m = Ok (x, y) -> (length y <= length s)%nat) as H1; [|destruct m as [[k0 s0]|]; [|discriminate]] end.
    { destruct s as [|c s']; [intros x y [= <- <-]; lia|]. destruct (Ascii.eqb c "("); [|intros x y [= <- <-]; lia].
      destruct (scan_key 0 s') as [[k' r']|] eqn:E; cbn [bind]; [|discriminate]. apply scan_key_len in E. unfold check.
      destruct (str_eqb k' (lit "file_nr")); cbn [bind]; [|discriminate]. intros x y [= <- <-]. cbn. lia. }
    specialize (H1 k0 s0 eq_refl). cbn [bind].
    destruct (until _ s0) as [fl s1] eqn:E1. apply until_len in E1. unfold take_digits. destruct (until _ s1) as [w s2] eqn:E2. apply until_len in E2.
    match goal with |- (do (x, y) <- ?m; _) = _ -> _ => assert (forall x y, m = Ok (x, y) -> (length y <= length s2)%nat) as H2; [|destruct m as [[p0 s3]|]; [|discriminate]] end.
    { destruct s2 as [|c s']; [intros x y [= <- <-]; lia|]. destruct (Ascii.eqb c "*" && str_eqb w []); [discriminate|].
      destruct (Ascii.eqb c "."); [|intros x y [= <- <-]; lia]. destruct (until _ s') as [p' r'] eqn:E3. apply until_len in E3.
      destruct r' as [|c' r']; [intros x y [= <- <-]; cbn; lia|]. destruct (Ascii.eqb c' "*" && str_eqb p' []); [discriminate|]. intros x y [= <- <-]. cbn in *. lia. }
    specialize (H2 p0 s3 eq_refl). cbn [bind].
    set (s4 := match s3 with [] => _ | _ => _ end). assert (length s4 <= length s3)%nat as H4
      by (unfold s4; destruct s3 as [|c s']; [lia|]; destruct (mem c (lit "hlL")); cbn; lia).
    destruct s4 as [|c r0]; [discriminate|]. intros [= <- <- <-]. cbn in H4. lia.
  Qed.
  Lemma pct_fuel f : forall f' s a n, (length s < f)%nat -> (length s < f')%nat -> pct_loop f s a n = pct_loop f' s a n.
  Proof.
    induction f as [|f IH]; intros [|f'] s a n H1 H2; try lia. destruct s as [|c s]; [reflexivity|]. cbn [FileNrModel.pct_loop]. cbn [length] in *.
    destruct (Ascii.eqb c "%").
    - destruct (parse_directive s) as [[[k d] r]|] eqn:E; cbn [bind]; [|reflexivity]. apply parse_directive_len in E.
      cbv zeta. destruct (Ascii.eqb (d_char d) "%"); [rewrite (IH f') by lia; reflexivity|].
      destruct (match k with Some a0 => Some a0 | None => a end); [|reflexivity]. destruct (pct_value _ _ _ _ _); cbn [bind]; [|reflexivity].
      rewrite (IH f') by lia. reflexivity.
    - rewrite (IH f') by lia. reflexivity.
  Qed.
  Definition pct (s : str) (a : option arg) (n : Z) : res str := pct_loop (S (length s)) s a n.
  Lemma pct_char f c s a n : c <> "%" -> pct_loop (S f) (c :: s) a n = do rest <- pct_loop f s a n; Ok (c :: rest).
  Proof. intros H. cbn [FileNrModel.pct_loop]. destruct (Ascii.eqb_spec c "%"); [contradiction|reflexivity]. Qed.
  Lemma pct_text t s a n : (forall c, In c t -> c <> "%") -> pct (t ++ s) a n = do rest <- pct s a n; Ok (t ++ rest).
  Proof.
    unfold pct. induction t as [|c t IH]; intros H; cbn [app].
    - destruct (pct_loop (S (length s)) s a n); reflexivity.
    - cbn [length]. rewrite pct_char by (apply H; now left).
      rewrite IH by (intros x Hx; apply H; now right). destruct (pct_loop (S (length s)) s a n); reflexivity.
  Qed.
  Lemma parse_placeholder z w s :
    parse_directive (lit "(file_nr)" ++ num_spec z w true ++ s) = Ok (Some AInt, {| d_flags := if z then ["0"] else []; d_width := wtext w; d_prec := None; d_char := "d" |}, s).
  Proof.
    rewrite num_spec_eq. rewrite <- !app_assoc. cbn [app].
    assert (take_digits (wtext w ++ "d" :: s) = (wtext w, "d" :: s)) as E by (apply take_digits_wtext; reflexivity).
    assert (until (fun c => negb (flag_char c)) ((if z then ["0"] else []) ++ wtext w ++ "d" :: s) = (if z then ["0"] else [], wtext w ++ "d" :: s)) as E0.
    { apply until_app.
      - intros c Hc. destruct z; [destruct Hc as [<-|[]]; reflexivity|destruct Hc].
      - pose proof (wtext_hd w ("d" :: s) ltac:(discriminate)) as H. pose proof (wtext_digits w) as D.
        destruct (wtext w) as [|c r]; cbn [app] in *; [reflexivity|].
        destruct (digit_chars c (D c (or_introl eq_refl))) as (_ & _ & -> & _). destruct (Ascii.eqb_spec c "0"); [contradiction|reflexivity]. }
    set (body := (if z then ["0"] else []) ++ wtext w ++ "d" :: s) in *.
    unfold parse_directive. change (lit "(file_nr)" ++ body) with ("(" :: lit "file_nr)" ++ body).
    assert (scan_key 0 (lit "file_nr)" ++ body) = Ok (lit "file_nr", body)) as Ek by reflexivity.
    cbv iota beta. change (Ascii.eqb "(" "(") with true. cbv iota. rewrite Ek. cbn [bind].
    change (check (str_eqb (lit "file_nr") (lit "file_nr")) EKey) with (@Ok unit tt). cbn [bind].
    rewrite E0, E. reflexivity.
  Qed.
  Definition pct_val (n : Z) (p : npart) : str := match p with NPct z w => number z w n | _ => ntext1 p end.
  Lemma pct_part p s a n : nwf p -> exists a', pct (ntext1 p ++ s) a n = do rest <- pct s a' n; Ok (pct_val n p ++ rest).
  Proof.
    destruct p as [t|z w|z w d]; intros H.
    - exists a. apply pct_text. intros c Hc. now apply (nlit_chars t H).
    - exists None. cbn [ntext1 pct_val]. rewrite <- app_assoc.
      change (lit "%(file_nr)" ++ num_spec z w true ++ s) with ("%" :: lit "(file_nr)" ++ num_spec z w true ++ s).
      set (body := lit "(file_nr)" ++ num_spec z w true ++ s). unfold pct. cbn [length]. remember (S (length body)) as f.
      cbn [FileNrModel.pct_loop Ascii.eqb Bool.eqb]. subst f. unfold body at 1. rewrite parse_placeholder. cbn [bind d_char Ascii.eqb Bool.eqb].
      assert (forall x, pct_value pct_other dict_text {| d_flags := if z then ["0"] else []; d_width := wtext w; d_prec := x; d_char := "d" |} AInt n =
        match x with None => Ok (number z w n) | _ => pct_value pct_other dict_text {| d_flags := if z then ["0"] else []; d_width := wtext w; d_prec := x; d_char := "d" |} AInt n end) as G.
      { intros [x|]; [reflexivity|]. unfold pct_value. cbn [d_char d_flags d_prec d_width]. rewrite wtext_nat. destruct z; reflexivity. }
      rewrite G. cbn [bind]. rewrite (pct_fuel _ (S (length s)) s) by (try lia; unfold body; rewrite !app_length; lia). reflexivity.
    - exists a. cbn [pct_val]. apply pct_text. intros c Hc. cbn [ntext1] in Hc. apply in_app_or in Hc as [Hc|Hc]; [|apply in_app_or in Hc as [Hc|Hc]].
      + cbn in Hc. repeat (destruct Hc as [<-|Hc]; [discriminate|]). destruct Hc.
      + destruct (num_spec z w d) as [|x q] eqn:E; [destruct Hc|]. destruct Hc as [<-|Hc]; [discriminate|]. rewrite <- E in Hc. now apply num_spec_chars in Hc.
      + destruct Hc as [<-|[]]. discriminate.
  Qed.
  Lemma pct_ok t : Forall nwf t -> forall a n, pct (ntext t) a n = Ok (concat (map (pct_val n) t)).
  Proof.
    unfold ntext. induction 1 as [|p t Hp Ht IH]; intros a n; cbn [map concat]; [reflexivity|].
    destruct (pct_part p (concat (map ntext1 t)) a n Hp) as [a' ->]. rewrite IH. reflexivity.
  Qed.
  Lemma pct_format_ok t n : Forall nwf t -> pct_format (ntext t) n = Ok (concat (map (pct_val n) t)).
  Proof. intros H. apply (pct_ok t H (Some ADict) n). Qed.

  (** ** substitute_file_nr *)
  Lemma in_concat_map {A B} (f : A -> list B) l x : In x (concat (map f l)) <-> exists a, In a l /\ In x (f a).
  Proof. rewrite in_concat. setoid_rewrite in_map_iff. split; [intros (y & (a & <- & Ha) & Hx); eauto|intros (a & Ha & Hx); eauto]. Qed.
  Lemma br_same t n : Forall nwf t -> str_eqb (concat (map (br_value n) t)) (ntext t) = true <-> ~ has_br t.
  Proof.
    intros H. rewrite str_eqb_eq. split.
    - intros E [z [w [d Hin]]]. assert (In "{" (ntext t)) as Hi by (apply in_concat_map; exists (NBr z w d); split; [exact Hin|now left]).
      rewrite <- E in Hi. apply in_concat_map in Hi as [p [Hp Hi]]. rewrite Forall_forall in H. destruct p as [s|z' w'|z' w' d']; cbn [br_value] in Hi.
      + apply (nlit_chars s (H _ Hp)) in Hi as [Hi _]. discriminate Hi.
      + cbn [ntext1] in Hi. apply in_app_or in Hi as [Hi|Hi]; [cbn in Hi; repeat (destruct Hi as [Hi|Hi]; [discriminate Hi|]); destruct Hi|apply num_spec_chars in Hi as [Hi _]; discriminate Hi].
      + apply number_chars in Hi as [Hi _]. discriminate Hi.
    - intros Hn. unfold ntext. f_equal. apply map_ext_in. intros p Hp. destruct p as [s|z w|z w d]; [reflexivity..|]. exfalso. apply Hn. red. eauto.
  Qed.
  Lemma pct_same t n : Forall nwf t -> str_eqb (concat (map (pct_val n) t)) (ntext t) = true <-> ~ has_pct t.
  Proof.
    intros H. rewrite str_eqb_eq. split.
    - intros E [z [w Hin]]. assert (In "%" (ntext t)) as Hi by (apply in_concat_map; exists (NPct z w); split; [exact Hin|now left]).
      rewrite <- E in Hi. apply in_concat_map in Hi as [p [Hp Hi]]. rewrite Forall_forall in H. destruct p as [s|z' w'|z' w' d']; cbn [pct_val] in Hi.
      + apply (nlit_chars s (H _ Hp)) in Hi as [_ Hi]. contradiction.
      + apply number_chars in Hi as [_ Hi]. contradiction.
      + cbn [ntext1] in Hi. apply in_app_or in Hi as [Hi|Hi]; [cbn in Hi; repeat (destruct Hi as [Hi|Hi]; [discriminate Hi|]); destruct Hi|].
        apply in_app_or in Hi as [Hi|Hi]; [|destruct Hi as [Hi|[]]; discriminate Hi].
        destruct (num_spec z' w' d') as [|x q] eqn:E'; [destruct Hi|]. destruct Hi as [Hi|Hi]; [discriminate Hi|]. rewrite <- E' in Hi. apply num_spec_chars in Hi as [_ Hi]. contradiction.
    - intros Hn. unfold ntext. f_equal. apply map_ext_in. intros p Hp. destruct p as [s|z w|z w d]; [reflexivity| |reflexivity]. exfalso. apply Hn. red. eauto.
  Qed.
  Notation substitute := (substitute_file_nr pct_other dict_text spec_other text_spec text_of get_attr get_item).
  Lemma substitute_ok t n : Forall nwf t -> ~ (has_pct t /\ has_br t) -> substitute (ntext t) n = Ok (nvalue n t).
  Proof.
    intros H Hn. unfold substitute_file_nr. rewrite pct_format_ok, str_format_ok by assumption. cbn [bind].
    destruct (str_eqb (concat (map (pct_val n) t)) (ntext t)) eqn:E1; destruct (str_eqb (concat (map (br_value n) t)) (ntext t)) eqn:E2; cbn [negb andb].
    - pose proof E1 as E1'. pose proof E2 as E2'. apply str_eqb_eq in E1', E2'. rewrite E1', E2'.
      unfold check. rewrite str_eqb_refl. cbn [bind]. f_equal. unfold ntext, nvalue. f_equal. apply map_ext_in. intros p Hp.
      apply pct_same in E1; [|assumption]. apply br_same in E2; [|assumption].
      destruct p; [reflexivity|exfalso; apply E1; red; eauto|exfalso; apply E2; red; eauto].
    - apply pct_same in E1; [|assumption]. f_equal. unfold nvalue. f_equal. apply map_ext_in. intros p Hp.
      destruct p; [reflexivity|exfalso; apply E1; red; eauto|reflexivity].
    - apply br_same in E2; [|assumption]. f_equal. unfold nvalue. f_equal. apply map_ext_in. intros p Hp.
      destruct p; [reflexivity|reflexivity|exfalso; apply E2; red; eauto].
    - exfalso. assert (forall b P, b = false -> (b = true <-> ~ P) -> ~ ~ P) as G by (intros b P -> [_ G] N; specialize (G N); discriminate G).
      apply (G _ _ E1 (pct_same t n H)). intro A. apply (G _ _ E2 (br_same t n H)). intro B. tauto.
  Qed.
  Lemma substitute_mixed t n : Forall nwf t -> has_pct t -> has_br t -> substitute (ntext t) n = Err ERuntime.
  Proof.
    intros H A B. unfold substitute_file_nr. rewrite pct_format_ok, str_format_ok by assumption. cbn [bind].
    destruct (str_eqb (concat (map (pct_val n) t)) (ntext t)) eqn:E1; [apply pct_same in E1; [contradiction|assumption]|].
    destruct (str_eqb (concat (map (br_value n) t)) (ntext t)) eqn:E2; [apply br_same in E2; [contradiction|assumption]|]. reflexivity.
  Qed.
End Subst.

(** ** distinct names *)
Lemma sval_cons c s : sval (c :: s) = ((N_of_ascii c - 48) * 10 ^ N.of_nat (length s) + sval s)%N.
Proof.
  unfold sval. cbn [fold_left]. replace (10 * 0 + (N_of_ascii c - 48))%N with (N_of_ascii c - 48)%N by lia.
  assert (forall s a, fold_left (fun a c => (10 * a + (N_of_ascii c - 48))%N) s a = (a * 10 ^ N.of_nat (length s) + fold_left (fun a c => (10 * a + (N_of_ascii c - 48))%N) s 0)%N) as G.
  { clear. induction s as [|c s IH]; intro a; cbn [fold_left length]; [cbn; lia|]. rewrite IH. rewrite (IH (10 * 0 + _)%N). rewrite Nat2N.inj_succ, N.pow_succ_r'. lia. }
  apply G.
Qed.
Lemma sval_bound s : all_digits s -> (sval s < 10 ^ N.of_nat (length s))%N.
Proof.
  induction 1 as [|c s Hc Hs IH]; [reflexivity|]. rewrite sval_cons. cbn [length]. rewrite Nat2N.inj_succ, N.pow_succ_r'.
  unfold is_digit in Hc. nia.
Qed.
Lemma dec_len_mono n m : (n <= m)%N -> (length (dec n) <= length (dec m))%nat.
Proof.
  intros H. destruct (dec_decimal n) as (Dn & Nn & Zn). pose proof (dec_val n) as Vn. pose proof (dec_val m) as Vm.
  pose proof (sval_bound _ (dec_digits m)) as Bm. rewrite Vm in Bm.
  destruct (dec n) as [|c s] eqn:E; [contradiction|]. rewrite sval_cons in Vn. cbn [length].
  pose proof (dec_nonempty m) as Nm. destruct (dec m) as [|c' s'] eqn:Em; [contradiction|]. cbn [length] in *.
  destruct (Ascii.eqb_spec c "0") as [->|Hc].
  - specialize (Zn eq_refl). injection Zn as ->. cbn. lia.
  - assert (1 <= N_of_ascii c - 48)%N as H1.
    { inversion Dn as [|? ? Hd _]. unfold is_digit in Hd. assert (N_of_ascii c <> 48%N); [|lia]. intro Ec. apply Hc.
      rewrite <- (ascii_N_embedding c), Ec. reflexivity. }
    assert (10 ^ N.of_nat (length s) <= n)%N by nia.
    assert (10 ^ N.of_nat (length s) < 10 ^ N.of_nat (S (length s')))%N as L by lia.
    apply N.pow_lt_mono_r_iff in L; lia.
Qed.
Lemma number_nat z w n : (0 <= n)%Z -> number z w n = pad (if z then "0" else " ") w (dec (Z.to_N n)).
Proof. intros H. unfold number, fmt_0d, fmt_wd, fmt_d. destruct n as [|p|p]; [destruct z; reflexivity..|lia]. Qed.
Lemma number_len z w n m : (0 <= n <= m)%Z -> (length (number z w n) <= length (number z w m))%nat.
Proof. intros H. rewrite !number_nat by lia. rewrite !pad_length. pose proof (dec_len_mono (Z.to_N n) (Z.to_N m)). lia. Qed.
Lemma number_inj z w n m : (0 <= n)%Z -> (0 <= m)%Z -> number z w n = number z w m -> n = m.
Proof.
  intros Hn Hm E. destruct z; [apply (fmt_0d_inj w); exact E|]. rewrite !number_nat in E by assumption.
  assert (forall s, all_digits s -> filter is_digit (pad " " w s) = s) as G.
  { intros s Hs. unfold pad. rewrite filter_app. assert (filter is_digit (repeat " " (w - length s)) = []) as -> by (induction (w - length s)%nat; [reflexivity|assumption]).
    cbn. induction Hs as [|c s Hc Hs IH]; [reflexivity|]. cbn. rewrite Hc. f_equal. exact IH. }
  assert (dec (Z.to_N n) = dec (Z.to_N m)) as E' by (rewrite <- (G (dec (Z.to_N n))), <- (G (dec (Z.to_N m))) by apply dec_digits; congruence).
  apply dec_inj in E'. lia.
Qed.
Lemma concat_equal {A} (l1 l2 : list (list A)) : Forall2 (fun a b => length a <= length b)%nat l1 l2 -> concat l1 = concat l2 -> l1 = l2.
Proof.
  induction 1 as [|a b l1 l2 Hab Hl IH]; [reflexivity|]. cbn [concat]. intros E.
  assert (length (concat l1) <= length (concat l2))%nat as Hc by (clear -Hl; induction Hl; cbn; rewrite ?app_length; lia).
  pose proof (f_equal (@length A) E) as El. rewrite !app_length in El.
  assert (length a = length b) as L by lia.
  assert (a = b /\ concat l1 = concat l2) as [-> E'].
  { clear -E L. revert b L E. induction a as [|x a IHa]; intros [|y b] L E; try discriminate L; [auto|]. injection L as L. injection E as <- E. destruct (IHa b L E) as [-> ->]. auto. }
  f_equal. now apply IH.
Qed.
Lemma names_distinct t n m : (0 <= n)%Z -> (0 <= m)%Z -> has_pct t \/ has_br t -> nvalue n t = nvalue m t -> n = m.
Proof.
  intros Hn Hm Ht E.
  assert (forall n m, (0 <= n <= m)%Z -> nvalue n t = nvalue m t -> n = m) as G.
  { clear n m Hn Hm E. intros n m H E. apply concat_equal in E.
    - assert (forall p, In p t -> nvalue1 n p = nvalue1 m p) as Ep.
      { clear Ht. induction t as [|q t IH]; [intros p []|]. cbn [map] in E. injection E as E1 E2. intros p [<-|Hp]; [exact E1|now apply IH]. }
      destruct Ht as [[z [w Hin]]|[z [w [d Hin]]]]; apply Ep in Hin; cbn [nvalue1] in Hin; apply number_inj in Hin; lia.
    - clear Ht E. induction t as [|q t IH]; constructor; [|exact IH]. destruct q; cbn [nvalue1]; [lia| |]; apply number_len; lia. }
  destruct (Z.le_ge_cases n m); [apply G; [lia|exact E]|symmetry; apply G; [lia|symmetry; exact E]].
Qed.
