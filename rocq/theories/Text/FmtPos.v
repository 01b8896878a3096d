(** PartialFormatter with fields by position. *)
From Coq Require Import Ascii String NArith.
From Verif Require Import Base.Prelude Base.ListLemmas Text.StrModel Text.StrSpec Text.StrProofs Text.FmtModel Text.FmtSpec Text.FmtProofs Text.FileNrProofs.
From Coq Require Import ZifyBool ZifyNat.
Local Open Scope char_scope.
Local Open Scope list_scope.

Section Pos.
  Context {V : Type}.
  Variable pyformat : V -> str -> res str.
  Variable convert : ascii -> @obj V -> V.
  Variable get_attr : @obj V -> str -> res (@obj V).
  Variable get_item : @obj V -> key_t -> res (@obj V).
  Variable im : bool.
  Variable args : list V.
  Variable kws : list (str * option V).
  Notation vformat := (vformat pyformat convert get_attr get_item im args kws).
  Notation pformat := (pformat pyformat convert get_attr get_item im args kws).
  Notation pfill := (pfill pyformat args).

  Lemma digit_key s : all_digits s -> forall c, In c s -> key_char c = true.
  Proof.
    intros H c Hc. unfold all_digits in H. rewrite Forall_forall in H. apply H in Hc. destruct (key_char c) eqn:E; [reflexivity|]. exfalso.
    unfold key_char in E. apply Bool.negb_false_iff in E. unfold mem in E. apply existsb_exists in E. destruct E as (x & Hx & E). apply Ascii.eqb_eq in E. subst x.
    repeat (destruct Hx as [<-|Hx]; [vm_compute in Hc; discriminate|]). destruct Hx.
  Qed.
  Lemma all_digit_dec n : all_digit (dec n) = true.
  Proof.
    unfold all_digit. apply Bool.andb_true_iff. split.
    - apply Bool.negb_true_iff. destruct (str_eqb (dec n) []) eqn:E; [|reflexivity]. apply str_eqb_eq in E. now apply dec_nonempty in E.
    - apply forallb_forall. pose proof (dec_digits n) as D. unfold all_digits in D. now rewrite Forall_forall in D.
  Qed.
  Lemma get_field_dec i : get_field get_attr get_item im args kws (dec (N.of_nat i)) = match nth_error args i with Some v => Ok (Val v) | None => Err EIndex end.
  Proof.
    unfold get_field. rewrite until_plain by apply digit_key, dec_digits. unfold to_key. rewrite all_digit_dec, nat_of_dec. cbn [get_value]. destruct (nth_error args i); reflexivity.
  Qed.
  Definition pname (n : option nat) : str := match n with None => [] | Some n => dec (N.of_nat n) end.
  Lemma parse_pos n p s : (forall t, p = Some t -> no_brace t) ->
    parse_field (pname n ++ opt_spec p ++ "}" :: s) = Ok ({| f_name := pname n; f_spec := match p with None => [] | Some t => t end; f_conv := None |}, s).
  Proof.
    intros Hp. assert (forall c, In c (pname n) -> key_char c = true) as Hk by (destruct n; [apply digit_key, dec_digits | intros c []]). unfold parse_field. destruct p as [t|]; cbn [opt_spec app].
    - rewrite scan_name_key by (assumption || reflexivity). cbn [bind Ascii.eqb Bool.eqb]. rewrite scan_spec_text by now apply Hp. cbn. now rewrite app_nil_r.
    - rewrite scan_name_key by (assumption || reflexivity). reflexivity.
  Qed.
  Lemma next_pos n p s : (forall t, p = Some t -> no_brace t) ->
    next ("{" :: pname n ++ opt_spec p ++ "}" :: s) = Ok ([], Some {| f_name := pname n; f_spec := match p with None => [] | Some t => t end; f_conv := None |}, s).
  Proof.
    intros Hp. pose proof (parse_pos n p s Hp) as E. unfold next. cbn [lit_end Ascii.eqb Bool.eqb orb].
    destruct (pname n ++ opt_spec p ++ "}" :: s) as [|d r] eqn:ER; [destruct (pname n); destruct p; discriminate|].
    assert (Ascii.eqb d "{" = false) as ->; [|cbn [Ascii.eqb Bool.eqb]; now rewrite E].
    destruct n as [n|]; cbn [pname] in ER.
    - pose proof (digit_key _ (dec_digits (N.of_nat n))) as G. destruct (dec (N.of_nat n)) as [|c q] eqn:ED; [now apply dec_nonempty in ED|]. injection ER as -> _. apply key_char_not; [apply G; now left | inlit].
    - destruct p; cbn in ER; injection ER as <- _; reflexivity.
  Qed.
  Lemma ptext_eq l n p s : ptext (l, n, p) ++ s = escape l ++ "{" :: pname n ++ opt_spec p ++ "}" :: s.
  Proof. unfold ptext. fold (pname n). rewrite <- app_assoc. cbn [app]. now rewrite <- !app_assoc. Qed.
  Lemma vformat_item l n p s auto i auto' : (forall t, p = Some t -> no_brace t) -> auto_name (pname n) auto = Ok (dec (N.of_nat i), auto') ->
    vformat 3 (ptext (l, n, p) ++ s) auto = do v <- match nth_error args i with Some v => Ok v | None => Err EIndex end; do o <- pyformat v (match p with None => [] | Some t => t end); do (out, auto) <- vformat 3 s auto'; Ok (l ++ o ++ out, auto).
  Proof.
    intros Hp HA. rewrite (ptext_eq l n p s), vformat_escape.
    rewrite (vformat_next pyformat convert get_attr get_item im args kws 2 ("{" :: pname n ++ opt_spec p ++ "}" :: s) auto _ _ _ ltac:(discriminate) (next_pos n p s Hp)). cbn [field_out f_name f_spec f_conv]. rewrite HA. cbn [bind]. rewrite get_field_dec.
    destruct (nth_error args i) as [v|]; cbn [bind]; [|reflexivity]. cbn [convert_field bind].
    rewrite vformat_plain by (destruct p; [now apply Hp | intros c []]). cbn [bind format_field]. destruct (pyformat v _) as [o|e]; cbn [bind]; [|reflexivity].
    destruct (vformat 3 s auto') as [[out au]|e]; reflexivity.
  Qed.
  Lemma pos_auto items rest : specs_plain items -> (forall x, In x items -> snd (fst x) = None) -> forall i,
    vformat 3 (concat (map ptext items) ++ rest) (Some i) = do (out, auto) <- do t <- pfill i items []; Ok (t, Some (i + List.length items)%nat); do (out', auto) <- vformat 3 rest auto; Ok (out ++ out', auto).
  Proof.
    induction items as [|[[l n] p] items IH]; intros HP HN i; cbn [map concat app FmtSpec.pfill bind List.length].
    - rewrite Nat.add_0_r. destruct (vformat 3 rest (Some i)) as [[o a]|e]; reflexivity.
    - assert (n = None) as -> by exact (HN _ (or_introl eq_refl)). rewrite <- app_assoc. rewrite (vformat_item l None p _ (Some i) i (Some (S i))); [|intros t ->; apply (HP l None t); now left | reflexivity].
      destruct (nth_error args i) as [v|]; cbn [bind]; [|reflexivity]. destruct (pyformat v _) as [o|e]; cbn [bind]; [|reflexivity].
      rewrite IH; [|intros l' n' t H; apply (HP l' n' t); now right | intros x H; apply HN; now right]. destruct (pfill (S i) items []) as [t|e]; cbn [bind]; [|reflexivity].
      replace (i + S (List.length items))%nat with (S i + List.length items)%nat by lia. destruct (vformat 3 rest _) as [[o' a]|e]; cbn [bind]; [|reflexivity]. now rewrite <- !app_assoc.
  Qed.
  Lemma pos_numbered items rest : specs_plain items -> (forall x, In x items -> snd (fst x) <> None) -> forall i auto, auto = Some 0%nat \/ auto = None ->
    vformat 3 (concat (map ptext items) ++ rest) auto = do (out, auto) <- do t <- pfill i items []; Ok (t, match items with [] => auto | _ => None end); do (out', auto) <- vformat 3 rest auto; Ok (out ++ out', auto).
  Proof.
    induction items as [|[[l n] p] items IH]; intros HP HN i auto HA; cbn [map concat app FmtSpec.pfill bind].
    - destruct (vformat 3 rest auto) as [[o a]|e]; reflexivity.
    - destruct n as [n|]; [|now destruct (HN _ (or_introl eq_refl))]. rewrite <- app_assoc. rewrite (vformat_item l (Some n) p _ auto n None); [|intros t ->; apply (HP l (Some n) t); now left |].
      2:{ unfold auto_name, pname. pose proof (all_digit_dec (N.of_nat n)) as D. pose proof (dec_nonempty (N.of_nat n)). destruct (dec (N.of_nat n)); [congruence|]. rewrite D. destruct HA as [-> | ->]; reflexivity. }
      destruct (nth_error args n) as [v|]; cbn [bind]; [|reflexivity]. destruct (pyformat v _) as [o|e]; cbn [bind]; [|reflexivity].
      rewrite (IH ltac:(intros l' n' t H; apply (HP l' n' t); now right) ltac:(intros x H; apply HN; now right) (S i) None (or_intror eq_refl)). destruct (pfill (S i) items []) as [t|e]; cbn [bind]; [|reflexivity].
      assert (match items with [] => None | _ => None end = @None nat) as -> by now destruct items. destruct (vformat 3 rest None) as [[o' a]|e]; cbn [bind]; [|reflexivity]. now rewrite <- !app_assoc.
  Qed.
  Lemma pfill_last items last : forall i, pfill i items last = do t <- pfill i items []; Ok (t ++ last).
  Proof.
    induction items as [|[[l n] p] items IH]; intro i; cbn [FmtSpec.pfill bind]; [reflexivity|]. destruct (nth_error args _) as [v|]; cbn [bind]; [|reflexivity]. destruct (pyformat v _) as [o|e]; cbn [bind]; [|reflexivity].
    rewrite IH. destruct (pfill (S i) items []) as [t|e]; cbn [bind]; [|reflexivity]. now rewrite <- !app_assoc.
  Qed.
  Lemma vformat_last s auto : vformat 3 (escape s) auto = Ok (s, auto).
  Proof. rewrite <- (app_nil_r (escape s)), vformat_escape, vformat_nil. cbn. now rewrite app_nil_r. Qed.
  Lemma positional items last : specs_plain items -> (forall x, In x items -> snd (fst x) = None) \/ (forall x, In x items -> snd (fst x) <> None) ->
    pformat (concat (map ptext items) ++ escape last) = pfill 0 items last.
  Proof.
    intros HP [HN|HN]; unfold FmtModel.pformat; rewrite pfill_last; [rewrite pos_auto by assumption | rewrite (pos_numbered _ _ HP HN 0 _ (or_introl eq_refl))]; (destruct (pfill 0 items []) as [t|e]; cbn [bind]; [|reflexivity]); rewrite vformat_last; reflexivity.
  Qed.
  (** the two kinds in one template are an error *)
  Lemma mixed items l n p rest t : specs_plain items -> items <> [] -> (forall s, p = Some s -> no_brace s) -> pfill 0 items [] = Ok t ->
    (forall x, In x items -> snd (fst x) = None) /\ n <> None \/ (forall x, In x items -> snd (fst x) <> None) /\ n = None ->
    pformat (concat (map ptext items) ++ ptext (l, n, p) ++ rest) = Err EValue.
  Proof.
    intros HP HE Hp HF HN. unfold FmtModel.pformat.
    assert (forall auto, (exists k, auto = Some (S k)) /\ n <> None \/ auto = None /\ n = None -> vformat 3 (ptext (l, n, p) ++ rest) auto = Err EValue) as G.
    { intros auto HA. rewrite (ptext_eq l n p rest), vformat_escape.
      rewrite (vformat_next pyformat convert get_attr get_item im args kws 2 ("{" :: pname n ++ opt_spec p ++ "}" :: rest) auto _ _ _ ltac:(discriminate) (next_pos n p rest Hp)). cbn [field_out f_name].
      destruct HA as [[[k ->] HA] | [-> ->]]; [|reflexivity]. destruct n as [n|]; [|congruence]. unfold auto_name, pname. pose proof (all_digit_dec (N.of_nat n)) as D. pose proof (dec_nonempty (N.of_nat n)). destruct (dec (N.of_nat n)); [congruence|]. now rewrite D. }
    destruct HN as [[HN Hn] | [HN Hn]]; [rewrite pos_auto by assumption | rewrite (pos_numbered _ _ HP HN 0 _ (or_introl eq_refl))]; rewrite HF; cbn [bind]; rewrite G; try reflexivity.
    - left. split; [|exact Hn]. destruct items; [congruence|]. cbn. eauto.
    - right. split; [|exact Hn]. now destruct items.
  Qed.
End Pos.
