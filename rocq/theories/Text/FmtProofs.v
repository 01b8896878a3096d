(** PartialFormatter does what the templates mean. *)
From Coq Require Import Ascii String NArith.
From Verif Require Import Base.Prelude Base.ListLemmas Text.StrModel Text.StrSpec Text.StrProofs Text.FmtModel Text.FmtSpec.
From Coq Require Import ZifyBool ZifyNat.
Local Open Scope char_scope.
Local Open Scope list_scope.

(** ** the parser consumes text *)
Lemma lit_end_app s : forall l r, lit_end s = (l, r) -> s = l ++ r.
Proof.
  induction s as [|c s IH]; intros l r; cbn [lit_end]; [intros [= <- <-]; reflexivity|].
  destruct (Ascii.eqb c "{" || Ascii.eqb c "}"); [intros [= <- <-]; reflexivity|].
  destruct (lit_end s) as [l0 r0]. intros [= <- <-]. cbn. f_equal. now apply IH.
Qed.
Lemma scan_name_len s : forall b n t r, scan_name b s = Ok (n, t, r) -> (length r < length s)%nat.
Proof.
  induction s as [|c s IH]; intros b n t r; cbn [scan_name]; [discriminate|].
  assert (forall b', (do (n, t, r) <- scan_name b' s; Ok (c :: n, t, r)) = Ok (n, t, r) -> (length r < length (c :: s))%nat) as G.
  { intros b'. destruct (scan_name b' s) as [[[n0 t0] r0]|e] eqn:E; cbn [bind]; [|discriminate]. intros [= <- <- <-]. apply IH in E. cbn. lia. }
  destruct b; [apply G|]. destruct (Ascii.eqb c "{"); [discriminate|]. destruct (Ascii.eqb c "["); [apply G|].
  destruct (Ascii.eqb c "}" || Ascii.eqb c ":" || Ascii.eqb c "!"); [intros [= <- <- <-]; cbn; lia|apply G].
Qed.
Lemma scan_spec_len s : forall k p r, scan_spec k s = Ok (p, r) -> (length r < length s)%nat.
Proof.
  induction s as [|c s IH]; intros k p r; cbn [scan_spec]; [discriminate|].
  assert (forall k', (do (p, r) <- scan_spec k' s; Ok (c :: p, r)) = Ok (p, r) -> (length r < length (c :: s))%nat) as G.
  { intros k'. destruct (scan_spec k' s) as [[p0 r0]|e] eqn:E; cbn [bind]; [|discriminate]. intros [= <- <-]. apply IH in E. cbn. lia. }
  destruct (Ascii.eqb c "{"); [apply G|]. destruct (Ascii.eqb c "}"); [|apply G].
  destruct k; [intros [= <- <-]; cbn; lia|apply G].
Qed.
Lemma parse_field_len s f r : parse_field s = Ok (f, r) -> (length r < length s)%nat.
Proof.
  unfold parse_field. destruct (scan_name false s) as [[[n t] r0]|e] eqn:E; cbn [bind]; [|discriminate].
  apply scan_name_len in E. destruct (Ascii.eqb t "}"); [intros [= <- <-]; exact E|].
  destruct (Ascii.eqb t "!").
  - destruct r0 as [|v r1]; [discriminate|]. destruct r1 as [|c r2]; [discriminate|]. cbn [length] in E.
    destruct (Ascii.eqb c "}"); [intros [= <- <-]; lia|]. destruct (Ascii.eqb c ":"); [|discriminate].
    destruct (scan_spec 0 r2) as [[p r3]|e] eqn:E2; cbn [bind]; [|discriminate]. intros [= <- <-]. apply scan_spec_len in E2. lia.
  - destruct (scan_spec 0 r0) as [[p r3]|e] eqn:E2; cbn [bind]; [|discriminate]. intros [= <- <-]. apply scan_spec_len in E2. lia.
Qed.
Lemma next_len s l f r : s <> [] -> next s = Ok (l, f, r) -> (length r < length s)%nat.
Proof.
  intros Hs. unfold next. destruct (lit_end s) as [l0 r0] eqn:E. apply lit_end_app in E. subst s.
  rewrite app_length. destruct r0 as [|c r1].
  - intros [= <- <- <-]. rewrite app_nil_r in Hs. destruct l0; [contradiction|]. cbn. lia.
  - cbn [length]. destruct (Ascii.eqb c "}").
    + destruct r1 as [|d r2]; [discriminate|]. destruct (Ascii.eqb d "}"); [|discriminate]. intros [= <- <- <-]. cbn. lia.
    + destruct r1 as [|d r2]; [discriminate|]. destruct (Ascii.eqb d "{"); [intros [= <- <- <-]; cbn; lia|].
      destruct (parse_field (d :: r2)) as [[f0 r3]|e] eqn:E; cbn [bind]; [|discriminate]. intros [= <- <- <-].
      apply parse_field_len in E. cbn in *. lia.
Qed.

(** ** the parser on the parts of a template *)
Lemma key_char_not c x : key_char c = true -> In x (lit "{}:![.") -> Ascii.eqb c x = false.
Proof.
  unfold key_char. intros H Hx. apply Bool.negb_true_iff, mem_false in H. destruct (Ascii.eqb c x) eqn:E; [|reflexivity].
  apply Ascii.eqb_eq in E. subst. contradiction.
Qed.
Ltac inlit := cbn; tauto.
Lemma scan_name_key k : (forall c, In c k -> key_char c = true) -> forall t s, Ascii.eqb t "}" || Ascii.eqb t ":" || Ascii.eqb t "!" = true ->
  scan_name false (k ++ t :: s) = Ok (k, t, s).
Proof.
  induction k as [|c k IH]; intros Hk t s Ht; cbn [app scan_name].
  - assert (Ascii.eqb t "{" = false /\ Ascii.eqb t "[" = false) as [-> ->].
    { apply Bool.orb_prop in Ht as [Ht|Ht]; [apply Bool.orb_prop in Ht as [Ht|Ht]|]; apply Ascii.eqb_eq in Ht; subst t; split; reflexivity. }
    rewrite Ht. reflexivity.
  - pose proof (Hk c (or_introl eq_refl)) as Hc. rewrite !(key_char_not c) by (assumption || inlit). cbn [orb].
    rewrite IH by (try assumption; intros; apply Hk; now right). reflexivity.
Qed.
Lemma scan_spec_text s : no_brace s -> forall k r, scan_spec k (s ++ r) = do (p, q) <- scan_spec k r; Ok (s ++ p, q).
Proof.
  induction s as [|c s IH]; intros H k r; cbn [app].
  - destruct (scan_spec k r) as [[p q]|e]; reflexivity.
  - assert (brace c = false) as Hc by (apply H; now left). unfold brace in Hc. apply Bool.orb_false_elim in Hc as [H1 H2].
    cbn [scan_spec]. rewrite H1, H2. rewrite IH by (intros x Hx; apply H; now right).
    destruct (scan_spec k r) as [[p q]|e]; reflexivity.
Qed.
Lemma key_no_brace k : (forall c, In c k -> key_char c = true) -> no_brace k.
Proof. intros H c Hc. unfold brace. rewrite !(key_char_not c) by (auto || inlit). reflexivity. Qed.
Lemma no_brace_app s t : no_brace s -> no_brace t -> no_brace (s ++ t).
Proof. intros H1 H2 c Hc. apply in_app_or in Hc as [Hc|Hc]; auto. Qed.
Lemma opt_spec_no_brace p : (forall s, p = Some s -> no_brace s) -> no_brace (opt_spec p).
Proof.
  destruct p as [s|]; cbn [opt_spec]; intros H; [|intros c []].
  intros c [<-|Hc]; [reflexivity|]. now apply (H s).
Qed.
Lemma scan_spec_stext p : swf p -> forall k r, scan_spec k (stext p ++ r) = do (x, q) <- scan_spec k r; Ok (stext p ++ x, q).
Proof.
  destruct p as [s|key p]; cbn [swf stext]; [apply scan_spec_text|]. intros [[_ [Hk _]] Hp] k r.
  replace (("{" :: key ++ opt_spec p ++ ["}"]) ++ r) with ("{" :: (key ++ opt_spec p) ++ "}" :: r) by (cbn; rewrite <- !app_assoc; reflexivity).
  replace ("{" :: key ++ opt_spec p ++ ["}"]) with ("{" :: (key ++ opt_spec p) ++ ["}"]) by (rewrite <- app_assoc; reflexivity).
  cbn [scan_spec Ascii.eqb Bool.eqb]. rewrite scan_spec_text by (apply no_brace_app; [now apply key_no_brace|now apply opt_spec_no_brace]).
  cbn [scan_spec Ascii.eqb Bool.eqb]. destruct (scan_spec k r) as [[x q]|e]; cbn [bind]; [|reflexivity].
  cbn [app]. rewrite <- !app_assoc. reflexivity.
Qed.
Lemma scan_spec_stexts l : Forall swf l -> forall k r, scan_spec k (stexts l ++ r) = do (x, q) <- scan_spec k r; Ok (stexts l ++ x, q).
Proof.
  unfold stexts. induction 1 as [|p l Hp Hl IH]; intros k r; cbn [map concat app].
  - destruct (scan_spec k r) as [[x q]|e]; reflexivity.
  - rewrite <- app_assoc, scan_spec_stext, IH by assumption. destruct (scan_spec k r) as [[x q]|e]; cbn [bind]; [|reflexivity].
    rewrite <- app_assoc. reflexivity.
Qed.
Lemma scan_spec_end l s : Forall swf l -> scan_spec 0 (stexts l ++ "}" :: s) = Ok (stexts l, s).
Proof. intros H. rewrite scan_spec_stexts by assumption. cbn. rewrite app_nil_r. reflexivity. Qed.

Definition the_field (k : str) (c : option ascii) (p : option (list spart)) : field :=
  {| f_name := k; f_spec := match p with None => [] | Some l => stexts l end; f_conv := c |}.
Lemma parse_field_part k c p s : plain_key k -> (forall l, p = Some l -> Forall swf l) ->
  parse_field (k ++ opt_conv c ++ opt_spec (option_map stexts p) ++ "}" :: s) = Ok (the_field k c p, s).
Proof.
  intros [_ [Hk _]] Hp. unfold parse_field, the_field. destruct c as [c|]; cbn [opt_conv app].
  - rewrite scan_name_key by (assumption || reflexivity). cbn [bind Ascii.eqb Bool.eqb].
    destruct p as [l|]; cbn [option_map opt_spec app Ascii.eqb Bool.eqb]; [|reflexivity].
    rewrite scan_spec_end by now apply Hp. reflexivity.
  - destruct p as [l|]; cbn [option_map opt_spec app].
    + rewrite scan_name_key by (assumption || reflexivity). cbn [bind Ascii.eqb Bool.eqb].
      rewrite scan_spec_end by now apply Hp. reflexivity.
    + rewrite scan_name_key by (assumption || reflexivity). reflexivity.
Qed.
Lemma next_field k c p s : plain_key k -> (forall l, p = Some l -> Forall swf l) ->
  next (text (Fld k c p) ++ s) = Ok ([], Some (the_field k c p), s).
Proof.
  intros Hk Hp. cbn [text]. unfold next. cbn [app lit_end Ascii.eqb Bool.eqb orb].
  replace ((k ++ opt_conv c ++ opt_spec (option_map stexts p) ++ ["}"]) ++ s) with (k ++ opt_conv c ++ opt_spec (option_map stexts p) ++ "}" :: s)
    by (rewrite <- !app_assoc; reflexivity).
  pose proof (parse_field_part k c p s Hk Hp) as E. set (rest := opt_conv c ++ opt_spec (option_map stexts p) ++ "}" :: s) in *.
  destruct k as [|d k']; [destruct Hk; contradiction|].
  assert (Ascii.eqb d "{" = false) as Hd by (apply key_char_not; [apply Hk; now left|inlit]).
  cbn [app] in *. rewrite Hd, E. reflexivity.
Qed.

  Lemma until_plain k : (forall c, In c k -> key_char c = true) -> until dot_or_open k = (k, []).
  Proof using.
    induction k as [|c k IH]; intros H; cbn [until]; [reflexivity|]. unfold dot_or_open at 1.
    rewrite !(key_char_not c) by (apply H; now left) || inlit. cbn [orb]. rewrite IH by (intros x Hx; apply H; now right). reflexivity.
  Qed.
Section Formatter.
  Context {V : Type}.
  Variable pyformat : V -> str -> res str.
  Variable convert : ascii -> @obj V -> V.
  Variable get_attr : @obj V -> str -> res (@obj V).
  Variable get_item : @obj V -> key_t -> res (@obj V).
  Variable ignore_missing : bool.
  Variable args : list V.
  Variable kwargs : list (str * option V).
  Notation vformat := (vformat pyformat convert get_attr get_item ignore_missing args kwargs).

  (** what the keyword arguments say about a key *)
  Definition env_of (k : str) : known V :=
    match kw kwargs k with Some (Some v) => Value v | Some None => Keep | None => if ignore_missing then Keep else Unknown end.
  Definition conv (c : ascii) (v : V) : V := convert c (Val v).
  Definition conv_kept (c : ascii) (k : str) : V := convert c (FormatKey k).

  (** the loop of _vformat *)
  Definition field_out (d : nat) (f : option field) (auto : option nat) : res (str * option nat) :=
    match f with
    | None => Ok ([], auto)
    | Some f =>
        do (name, auto) <- auto_name (f_name f) auto;
        do o <- get_field get_attr get_item ignore_missing args kwargs name;
        do o <- convert_field convert o (f_conv f);
        do (spec, auto) <- vformat d (f_spec f) auto;
        do out <- format_field pyformat o spec;
        Ok (out, auto)
    end.
  Definition loop (d : nat) := fix loop (fuel : nat) (s : str) (auto : option nat) : res (str * option nat) :=
    match fuel with
    | O => Err EFuel
    | S fuel' =>
        match s with
        | [] => Ok ([], auto)
        | _ =>
            do (l, f, r) <- next s;
            do (out, auto) <- field_out d f auto;
            do (rest, auto) <- loop fuel' r auto;
            Ok (l ++ out ++ rest, auto)
        end
    end.
  Lemma loop_S d f c s auto : loop d (S f) (c :: s) auto =
    do (l, f', r) <- next (c :: s); do (out, auto) <- field_out d f' auto; do (rest, auto) <- loop d f r auto; Ok (l ++ out ++ rest, auto).
  Proof. reflexivity. Qed.
  Lemma vformat_loop d s auto : vformat (S d) s auto = loop d (S (length s)) s auto.
  Proof. reflexivity. Qed.
  Lemma loop_fuel d f : forall f' s auto, (length s < f)%nat -> (length s < f')%nat -> loop d f s auto = loop d f' s auto.
  Proof using.
    induction f as [|f IH]; intros [|f'] s auto H1 H2; try lia. destruct s as [|c s]; [reflexivity|]. rewrite !loop_S.
    destruct (next (c :: s)) as [[[l fl] r]|e] eqn:E; cbn [bind]; [|reflexivity].
    apply next_len in E; [|discriminate]. destruct (field_out d fl auto) as [[out au]|e]; cbn [bind]; [|reflexivity].
    rewrite (IH f' r au) by lia. reflexivity.
  Qed.
  Lemma vformat_next d s auto l f r : s <> [] -> next s = Ok (l, f, r) ->
    vformat (S d) s auto = do (out, auto) <- field_out d f auto; do (rest, auto) <- vformat (S d) r auto; Ok (l ++ out ++ rest, auto).
  Proof using.
    intros Hs E. rewrite vformat_loop. destruct s as [|c s]; [contradiction|]. rewrite loop_S, E. cbn [bind].
    apply next_len in E; [|discriminate]. destruct (field_out d f auto) as [[out au]|e]; cbn [bind]; [|reflexivity].
    rewrite vformat_loop. rewrite (loop_fuel d _ (S (length r)) r au) by lia. reflexivity.
  Qed.
  Lemma vformat_nil d auto : vformat (S d) [] auto = Ok ([], auto).
  Proof. reflexivity. Qed.

  (** a character that is not a brace is copied *)
  Lemma vformat_char d c s auto : brace c = false ->
    vformat (S d) (c :: s) auto = do (out, auto) <- vformat (S d) s auto; Ok (c :: out, auto).
  Proof using.
    intros Hc. unfold brace in Hc.
    destruct s as [|c' s].
    - rewrite (vformat_next d [c] auto [c] None []); [reflexivity|discriminate|]. unfold next. cbn [lit_end]. rewrite Hc. reflexivity.
    - remember (c' :: s) as s'. assert (s' <> []) as Hs by (subst; discriminate). clear c' s Heqs'.
      assert (next (c :: s') = do (l, f, r) <- next s'; Ok (c :: l, f, r)) as E.
      { unfold next. cbn [lit_end]. rewrite Hc. destruct (lit_end s') as [l r]. destruct r as [|x r1]; [reflexivity|].
        destruct (Ascii.eqb x "}").
        - destruct r1 as [|y r2]; [reflexivity|]. destruct (Ascii.eqb y "}"); reflexivity.
        - destruct r1 as [|y r2]; [reflexivity|]. destruct (Ascii.eqb y "{"); [reflexivity|].
          destruct (parse_field (y :: r2)) as [[f r3]|e]; reflexivity. }
      destruct (next s') as [[[l f] r]|e] eqn:E'; cbn [bind] in E.
      + rewrite (vformat_next d (c :: s') auto _ _ _ ltac:(discriminate) E), (vformat_next d s' auto _ _ _ Hs E').
        destruct (field_out d f auto) as [[out au]|e]; cbn [bind]; [|reflexivity].
        destruct (vformat (S d) r au) as [[rest au']|e]; reflexivity.
      + rewrite !vformat_loop. rewrite loop_S, E. destruct s' as [|x s']; [contradiction|]. rewrite loop_S, E'. reflexivity.
  Qed.
  Lemma vformat_text d t s auto : no_brace t ->
    vformat (S d) (t ++ s) auto = do (out, auto) <- vformat (S d) s auto; Ok (t ++ out, auto).
  Proof using.
    intros H. induction t as [|c t IH]; cbn [app].
    - destruct (vformat (S d) s auto) as [[out au]|e]; reflexivity.
    - rewrite vformat_char by (apply H; now left). rewrite IH by (intros x Hx; apply H; now right).
      destruct (vformat (S d) s auto) as [[out au]|e]; reflexivity.
  Qed.
  Lemma vformat_escape d t s auto :
    vformat (S d) (escape t ++ s) auto = do (out, auto) <- vformat (S d) s auto; Ok (t ++ out, auto).
  Proof using.
    unfold escape. induction t as [|c t IH]; cbn [map concat app].
    - destruct (vformat (S d) s auto) as [[out au]|e]; reflexivity.
    - destruct (brace c) eqn:Hc; cbn [app].
      + assert (next (c :: c :: concat (map (fun c0 => if brace c0 then [c0; c0] else [c0]) t) ++ s) = Ok ([c], None, concat (map (fun c0 => if brace c0 then [c0; c0] else [c0]) t) ++ s)) as E.
        { unfold brace in Hc. apply Bool.orb_prop in Hc as [Hc|Hc]; apply Ascii.eqb_eq in Hc; subst c; reflexivity. }
        rewrite (vformat_next d (c :: c :: concat (map (fun c0 => if brace c0 then [c0; c0] else [c0]) t) ++ s) auto _ _ _ ltac:(discriminate) E). cbn [field_out bind]. rewrite IH.
        destruct (vformat (S d) s auto) as [[out au]|e]; reflexivity.
      + rewrite vformat_char by assumption. rewrite IH. destruct (vformat (S d) s auto) as [[out au]|e]; reflexivity.
  Qed.

  (** a name *)
  Lemma plain_not_digit k : plain_key k -> all_digit k = false.
  Proof using.
    intros [_ [_ [c [Hc Hd]]]]. unfold all_digit. apply Bool.andb_false_iff. right. apply Bool.not_true_iff_false. intro H.
    rewrite forallb_forall in H. apply H in Hc. congruence.
  Qed.
  Lemma auto_plain k auto : plain_key k -> auto_name k auto = Ok (k, auto).
  Proof using.
    intros H. unfold auto_name. destruct k as [|c k]; [destruct H; contradiction|]. rewrite plain_not_digit by assumption. reflexivity.
  Qed.
  Definition obj_of (k : str) : res (@obj V) :=
    match env_of k with Value v => Ok (Val v) | Keep => Ok (FormatKey k) | Unknown => Err EKey end.
  Lemma get_field_plain k : plain_key k -> get_field get_attr get_item ignore_missing args kwargs k = obj_of k.
  Proof using.
    intros H. unfold get_field. rewrite until_plain by apply H. unfold to_key. rewrite plain_not_digit by assumption.
    cbn [get_value length follow]. unfold obj_of, env_of. destruct (kw kwargs k) as [[v|]|]; [reflexivity..|]. destruct ignore_missing; reflexivity.
  Qed.

  (** ** specifications *)
  Notation fill_spart := (fill_spart pyformat env_of).
  Lemma spec_none p : match p with None => [] | Some l => stexts l end = stexts (match p with None => [] | Some l => l end).
  Proof. destruct p; reflexivity. Qed.
  Lemma vformat_plain d s auto : no_brace s -> vformat (S d) s auto = Ok (s, auto).
  Proof using. intros H. rewrite <- (app_nil_r s) at 1. rewrite vformat_text by assumption. cbn [vformat_nil]. rewrite vformat_nil. cbn. rewrite app_nil_r. reflexivity. Qed.
  Lemma sfld_text k p : stext (SFld k p) = text (Fld k None (option_map (fun s => [SLit s]) p)).
  Proof using. cbn [stext text opt_conv app]. destruct p as [s|]; cbn; [unfold stexts; cbn; rewrite app_nil_r|]; reflexivity. Qed.
  Lemma some_text_opt s : (if str_eqb s [] then s else ":" :: s) = opt_spec (some_text s).
  Proof. unfold some_text. destruct (str_eqb s []) eqn:E; [apply str_eqb_eq in E; subst|]; reflexivity. Qed.
  Lemma vformat_spart p s auto : swf p ->
    vformat 2 (stext p ++ s) auto = do p' <- fill_spart p; do (out, auto) <- vformat 2 s auto; Ok (stext p' ++ out, auto).
  Proof using.
    intros Hp. destruct p as [t|k p]; [cbn [stext FmtSpec.fill_spart bind]; apply vformat_text; exact Hp|].
    destruct Hp as [Hk Hp]. rewrite sfld_text.
    rewrite (vformat_next 1 (text (Fld k None (option_map (fun s => [SLit s]) p)) ++ s) auto _ _ _ ltac:(discriminate) (next_field k None (option_map (fun s => [SLit s]) p) s Hk ltac:(intros l Hl; destruct p as [q|]; [injection Hl as <-; constructor; [apply Hp; reflexivity|constructor]|discriminate]))).
    cbn [field_out the_field f_name f_spec f_conv]. rewrite auto_plain by assumption. cbn [bind]. rewrite get_field_plain by assumption.
    cbn [FmtSpec.fill_spart]. unfold obj_of.
    set (t := match p with None => [] | Some s => s end).
    assert (match option_map (fun s0 => [SLit s0]) p with Some l => stexts l | None => [] end = t) as ->
      by (destruct p as [q|]; [cbn; unfold stexts; cbn; apply app_nil_r|reflexivity]).
    assert (no_brace t) as Ht by (destruct p as [q|]; [now apply Hp|intros c []]).
    destruct (env_of k) as [v| |]; cbn [bind convert_field].
    - rewrite vformat_plain by assumption. cbn [bind format_field]. destruct (pyformat v t) as [out|e]; cbn [bind]; [|reflexivity].
      destruct (vformat 2 s auto) as [[rest au]|e]; reflexivity.
    - rewrite vformat_plain by assumption. cbn [bind format_field]. destruct (vformat 2 s auto) as [[rest au]|e]; cbn [bind]; [|reflexivity].
      cbn [app stext]. rewrite some_text_opt, <- !app_assoc. reflexivity.
    - reflexivity.
  Qed.
  Lemma vformat_stexts l auto : Forall swf l -> vformat 2 (stexts l) auto = do l' <- mapM fill_spart l; Ok (stexts l', auto).
  Proof using.
    unfold stexts. induction 1 as [|p l Hp Hl IH]; cbn [map concat mapM bind]; [apply vformat_nil|].
    rewrite vformat_spart by assumption. destruct (fill_spart p) as [p'|e]; cbn [bind]; [|reflexivity]. rewrite IH.
    destruct (mapM fill_spart l) as [l'|e]; reflexivity.
  Qed.

  (** ** templates *)
  Notation fill_part := (fill_part pyformat conv conv_kept env_of).
  Lemma conv_ok c : In c (lit "sra") -> Ascii.eqb c "s" || Ascii.eqb c "r" || Ascii.eqb c "a" = true.
  Proof using. intros [<-|[<-|[<-|[]]]]; reflexivity. Qed.
  Lemma vformat_part p s auto : wf p ->
    vformat 3 (source1 p ++ s) auto = do p' <- fill_part p; do (out, auto) <- vformat 3 s auto; Ok (text p' ++ out, auto).
  Proof using.
    intros Hp. destruct p as [t|k c p]; [cbn [source1 FmtSpec.fill_part bind text]; apply vformat_escape|].
    destruct Hp as [Hk [Hc Hp]]. cbn [source1].
    rewrite (vformat_next 2 (text (Fld k c p) ++ s) auto _ _ _ ltac:(discriminate) (next_field k c p s Hk Hp)).
    cbn [field_out the_field f_name f_spec f_conv]. rewrite auto_plain by assumption. cbn [bind]. rewrite get_field_plain by assumption.
    rewrite spec_none. cbn [FmtSpec.fill_part]. cbv zeta. set (l := match p with None => [] | Some l => l end).
    assert (Forall swf l) as Hl by (destruct p; [now apply Hp|constructor]).
    unfold obj_of. destruct (env_of k) as [v| |]; cbn [bind]; [| |reflexivity].
    - assert (convert_field convert (Val v) c = Ok (Val (match c with None => v | Some c => conv c v end))) as ->.
      { destruct c as [c|]; cbn [convert_field]; [|reflexivity]. rewrite conv_ok by now apply Hc. reflexivity. }
      cbn [bind]. rewrite vformat_stexts by assumption. destruct (mapM fill_spart l) as [l'|e]; cbn [bind]; [|reflexivity].
      cbn [format_field]. destruct (pyformat _ (stexts l')) as [out|e]; cbn [bind]; [|reflexivity].
      destruct (vformat 3 s auto) as [[rest au]|e]; reflexivity.
    - destruct c as [c|]; cbn [convert_field].
      + rewrite conv_ok by now apply Hc. cbn [bind]. rewrite vformat_stexts by assumption.
        destruct (mapM fill_spart l) as [l'|e]; cbn [bind]; [|reflexivity]. cbn [format_field]. unfold conv_kept.
        destruct (pyformat _ (stexts l')) as [out|e]; cbn [bind]; [|reflexivity].
        destruct (vformat 3 s auto) as [[rest au]|e]; reflexivity.
      + cbn [bind]. rewrite vformat_stexts by assumption.
        destruct (mapM fill_spart l) as [l'|e]; cbn [bind]; [|reflexivity]. cbn [format_field bind].
        destruct (vformat 3 s auto) as [[rest au]|e]; cbn [bind]; [|reflexivity].
        cbn [app text opt_conv]. rewrite some_text_opt, <- !app_assoc. unfold some_text. destruct (str_eqb (stexts l') []); reflexivity.
  Qed.
  Notation pformat := (pformat pyformat convert get_attr get_item ignore_missing args kwargs).
  Lemma vformat_source t auto : Forall wf t ->
    vformat 3 (source t) auto = do t' <- fill pyformat conv conv_kept env_of t; Ok (texts t', auto).
  Proof using.
    unfold source, fill, texts. induction 1 as [|p t Hp Ht IH]; cbn [map concat mapM bind]; [apply vformat_nil|].
    rewrite vformat_part by assumption. destruct (fill_part p) as [p'|e]; cbn [bind]; [|reflexivity]. rewrite IH.
    destruct (mapM fill_part t) as [t'|e]; reflexivity.
  Qed.
  Lemma pformat_source t : Forall wf t -> pformat (source t) = do t' <- fill pyformat conv conv_kept env_of t; Ok (texts t').
  Proof using.
    intros H. unfold FmtModel.pformat. rewrite vformat_source by assumption.
    destruct (fill pyformat conv conv_kept env_of t); reflexivity.
  Qed.
End Formatter.
