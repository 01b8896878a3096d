(** Formatting in two stages. *)
From Coq Require Import Ascii String NArith.
From Verif Require Import Base.Prelude Base.ListLemmas Text.StrModel Text.StrSpec Text.StrProofs Text.FmtModel Text.FmtSpec Text.FmtProofs.
Local Open Scope char_scope.
Local Open Scope list_scope.

Lemma escape_no_brace s : no_brace s -> escape s = s.
Proof.
  unfold escape. induction s as [|c s IH]; intros H; cbn; [reflexivity|]. rewrite (H c (or_introl eq_refl)). cbn. f_equal.
  apply IH. intros x Hx. apply H. now right.
Qed.

Section Stages.
  Context {V : Type}.
  Variable format : V -> str -> res str.
  Variable cv : ascii -> V -> V.
  Variable cvk : ascii -> str -> V.
  Variables e1 e2 : str -> known V.
  Hypothesis Hext : extends e1 e2.
  Notation fs := (fill_spart format). Notation fp := (fill_part format cv cvk).

  Lemma fs_wf p p1 : swf p -> svalue_ok format e1 p -> fs e1 p = Ok p1 -> swf p1.
  Proof using.
    destruct p as [s|k p]; cbn [fill_spart swf svalue_ok]; [intros H _ [= <-]; exact H|]. intros [Hk Hp] Hv.
    destruct (e1 k) as [v| |] eqn:E; [|intros [= <-]|discriminate].
    - destruct (format v _) as [out|] eqn:F; cbn [bind]; [|discriminate]. intros [= <-]. cbn. now apply (Hv v out).
    - cbn. split; [exact Hk|]. intros s Hs. unfold some_text in Hs. destruct (str_eqb _ []); [discriminate|]. injection Hs as <-.
      destruct p; [now apply Hp|intros c []].
  Qed.
  Lemma fs_fs p p1 : fs e1 p = Ok p1 -> fs e2 p1 = fs e2 p.
  Proof using Hext.
    destruct p as [s|k p]; cbn [fill_spart]; [intros [= <-]; reflexivity|].
    destruct (e1 k) as [v| |] eqn:E; [|intros [= <-]|discriminate].
    - rewrite (Hext k v E). destruct (format v _) as [out|] eqn:F; cbn [bind]; [|discriminate]. intros [= <-]. reflexivity.
    - cbn [fill_spart]. set (s := match p with None => [] | Some s => s end).
      assert (match some_text s with None => [] | Some s => s end = s) as ->; [|reflexivity].
      unfold some_text. destruct (str_eqb s []) eqn:E0; [apply str_eqb_eq in E0; congruence|reflexivity].
  Qed.
  Lemma fss l l1 : mapM (fs e1) l = Ok l1 -> mapM (fs e2) l1 = mapM (fs e2) l.
  Proof using Hext.
    revert l1. induction l as [|p l IH]; intros l1; cbn [mapM]; [intros [= <-]; reflexivity|].
    destruct (fs e1 p) as [p1|] eqn:E; cbn [bind]; [|discriminate]. destruct (mapM (fs e1) l) as [l2|]; cbn [bind]; [|discriminate].
    intros [= <-]. cbn [mapM]. rewrite (fs_fs p p1 E), (IH l2 eq_refl). reflexivity.
  Qed.
  Lemma fss_wf l l1 : Forall swf l -> Forall (svalue_ok format e1) l -> mapM (fs e1) l = Ok l1 -> Forall swf l1.
  Proof using.
    intros H1 H2 H. apply mapM_ok in H. induction H as [|p p1 l l1 Hp Hl IH]; constructor.
    - inversion H1; inversion H2; subst. eapply fs_wf; eassumption.
    - inversion H1; inversion H2; subst. now apply IH.
  Qed.
  (** no text at all: nothing is left to fill *)
  Lemma empty_texts l : stexts l = [] -> mapM (fs e2) l = Ok l.
  Proof using.
    unfold stexts. induction l as [|p l IH]; cbn [map concat mapM]; [reflexivity|]. intros H. apply app_eq_nil in H as [H1 H2].
    destruct p as [s|k p]; [|discriminate]. cbn [fill_spart bind]. rewrite IH by assumption. reflexivity.
  Qed.
  (** nothing kept: the second environment gives the same *)
  Lemma fss_all l l1 : (forall k p, In (SFld k p) l -> e1 k <> Keep) -> mapM (fs e1) l = Ok l1 -> mapM (fs e2) l = Ok l1.
  Proof using Hext.
    revert l1. induction l as [|p l IH]; intros l1 Hk; cbn [mapM]; [auto|].
    destruct (fs e1 p) as [p1|] eqn:E; cbn [bind]; [|discriminate]. destruct (mapM (fs e1) l) as [l2|]; cbn [bind]; [|discriminate].
    intros [= <-]. assert (fs e2 p = Ok p1) as ->.
    { destruct p as [s|k p]; [exact E|]. cbn [fill_spart] in *. destruct (e1 k) as [v| |] eqn:E1; [rewrite (Hext k v E1); exact E| |discriminate].
      exfalso. apply (Hk k p); [now left|exact E1]. }
    cbn [bind]. rewrite (IH l2); [reflexivity| |reflexivity]. intros k q Hq. apply (Hk k q). now right.
  Qed.

  Lemma fp_wf p p1 : wf p -> stage_ok format cv e1 p -> fp e1 p = Ok p1 -> wf p1 /\ source1 p1 = text p1.
  Proof using.
    destruct p as [s|k c p]; cbn [fill_part wf stage_ok]; [intros _ H [= <-]; split; [exact I|now apply escape_no_brace]|].
    cbv zeta. intros [Hk [Hc Hp]] [Hs [Hkeep Hval]]. set (l := match p with None => [] | Some l => l end) in *.
    assert (Forall swf l) as Hl by (destruct p; [now apply Hp|constructor]).
    destruct (e1 k) as [v| |] eqn:E; [| |discriminate].
    - destruct (mapM (fs e1) l) as [l1|] eqn:El; cbn [bind]; [|discriminate].
      destruct (format _ (stexts l1)) as [out|] eqn:F; cbn [bind]; [|discriminate]. intros [= <-]. split; [exact I|].
      apply escape_no_brace. destruct (Hval v eq_refl) as [_ H]. now apply (H l1 out).
    - rewrite (Hkeep eq_refl). destruct (mapM (fs e1) l) as [l1|] eqn:El; cbn [bind]; [|discriminate]. intros [= <-]. split; [|reflexivity].
      cbn. split; [exact Hk|]. split; [discriminate|]. intros l2 H2. destruct (str_eqb (stexts l1) []); [discriminate|].
      injection H2 as <-. eapply fss_wf; eassumption.
  Qed.
  Lemma fp_fp p p1 : stage_ok format cv e1 p -> fp e1 p = Ok p1 ->
    (do q <- fp e2 p1; Ok (text q)) = (do q <- fp e2 p; Ok (text q)).
  Proof using Hext.
    destruct p as [s|k c p]; cbn [fill_part stage_ok]; [intros _ [= <-]; reflexivity|].
    cbv zeta. intros [Hs [Hkeep Hval]]. set (l := match p with None => [] | Some l => l end) in *.
    destruct (e1 k) as [v| |] eqn:E; [| |discriminate].
    - rewrite (Hext k v E). destruct (mapM (fs e1) l) as [l1|] eqn:El; cbn [bind]; [|discriminate].
      destruct (format _ (stexts l1)) as [out|] eqn:F; cbn [bind]; [|discriminate]. intros [= <-]. cbn [fill_part bind].
      destruct (Hval v eq_refl) as [H _]. rewrite (fss_all l l1 H El). cbn [bind]. rewrite F. reflexivity.
    - rewrite (Hkeep eq_refl). destruct (mapM (fs e1) l) as [l1|] eqn:El; cbn [bind]; [|discriminate]. intros [= <-]. cbn [fill_part]. cbv zeta.
      pose proof (fss l l1 El) as Hfs.
      assert (forall (f : list spart -> res str), (forall a b, stexts a = stexts b -> f a = f b) ->
        (do x <- mapM (fs e2) (match (if str_eqb (stexts l1) [] then None else Some l1) with None => [] | Some l => l end); f x) = (do x <- mapM (fs e2) l; f x)) as G.
      { intros f Hf. destruct (str_eqb (stexts l1) []) eqn:E0; [|rewrite Hfs; reflexivity].
        apply str_eqb_eq in E0. rewrite <- Hfs, (empty_texts l1 E0). cbn. apply Hf. rewrite E0. reflexivity. }
      assert (forall A B C (m : res A) (f : A -> res B) (g : B -> res C), (do y <- (do x <- m; f x); g y) = (do x <- m; do y <- f x; g y)) as Hb
        by (intros A B C [a|e] f g; reflexivity).
      destruct (e2 k) as [v| |]; [| |reflexivity].
      + rewrite !Hb. apply G. intros a b ->. reflexivity.
      + rewrite !Hb. apply G. intros a b Hab. cbn [bind text option_map]. rewrite Hab. destruct (str_eqb (stexts b) []); [reflexivity|]. cbn. rewrite Hab. reflexivity.
  Qed.
  Lemma fill_fill t t1 : Forall (stage_ok format cv e1) t -> fill format cv cvk e1 t = Ok t1 ->
    (do q <- fill format cv cvk e2 t1; Ok (texts q)) = (do q <- fill format cv cvk e2 t; Ok (texts q)).
  Proof using Hext.
    unfold fill, texts. intros H. revert t1. induction H as [|p t Hp Ht IH]; intros t1; cbn [mapM]; [intros [= <-]; reflexivity|].
    destruct (fp e1 p) as [p1|] eqn:E; cbn [bind]; [|discriminate]. destruct (mapM (fp e1) t) as [t2|]; cbn [bind]; [|discriminate].
    intros [= <-]. cbn [mapM]. specialize (IH t2 eq_refl). pose proof (fp_fp p p1 Hp E) as Hq.
    destruct (fp e2 p1) as [q1|x1]; destruct (fp e2 p) as [q|x]; cbn [bind] in *; try discriminate; [|congruence].
    injection Hq as Hq. destruct (mapM (fp e2) t2) as [r1|y1]; destruct (mapM (fp e2) t) as [r|y]; cbn [bind map concat] in *; try discriminate; [|congruence].
    injection IH as IH. rewrite Hq, IH. reflexivity.
  Qed.
  Lemma fill_wf t t1 : Forall wf t -> Forall (stage_ok format cv e1) t -> fill format cv cvk e1 t = Ok t1 -> Forall wf t1 /\ source t1 = texts t1.
  Proof using.
    intros Hw Hs H. apply mapM_ok in H. unfold source, texts. induction H as [|p p1 t t1 Hp Ht IH]; [split; constructor|].
    inversion Hw; inversion Hs; subst. destruct IH as [I1 I2]; [assumption..|]. destruct (fp_wf p p1) as [W S]; [assumption..|].
    split; [constructor; assumption|]. cbn [map concat]. rewrite S, I2. reflexivity.
  Qed.
End Stages.

Section Two.
  Context {V : Type}.
  Variable pyformat : V -> str -> res str.
  Variable convert : ascii -> @obj V -> V.
  Variable get_attr : @obj V -> str -> res (@obj V).
  Variable get_item : @obj V -> key_t -> res (@obj V).
  Notation pformat := (pformat pyformat convert get_attr get_item).

  Lemma staged im1 im2 args1 args2 kw1 kw2 t s1 :
    Forall wf t -> extends (env_of im1 kw1) (env_of im2 kw2) -> Forall (stage_ok pyformat (conv convert) (env_of im1 kw1)) t ->
    pformat im1 args1 kw1 (source t) = Ok s1 ->
    pformat im2 args2 kw2 s1 = pformat im2 args2 kw2 (source t).
  Proof using.
    intros Hw He Hs. rewrite !pformat_source by assumption.
    destruct (fill pyformat (conv convert) (conv_kept convert) (env_of im1 kw1) t) as [t1|] eqn:E; cbn [bind]; [|discriminate].
    intros [= <-]. destruct (fill_wf pyformat (conv convert) (conv_kept convert) _ t t1 Hw Hs E) as [W S].
    rewrite <- S. rewrite pformat_source by assumption. now apply (fill_fill pyformat (conv convert) (conv_kept convert) _ _ He).
  Qed.

  (** with every value missing or None nothing is changed *)
  Lemma untouched im args kws t : Forall wf t -> (forall p, In p t -> match p with Lit s => no_brace s | Fld k c p => c = None end) ->
    (forall k, env_of im kws k = Keep) ->
    (forall k c p, In (Fld k c p) t -> p <> Some [] /\ forall l, p = Some l -> stexts l <> [] /\ forall k' p', In (SFld k' p') l -> p' <> Some []) ->
    pformat im args kws (source t) = Ok (source t).
  Proof using.
    intros Hw Hl Hk Hp. rewrite pformat_source by assumption.
    assert (fill pyformat (conv convert) (conv_kept convert) (env_of im kws) t = Ok t) as ->.
    { unfold fill. rewrite (mapM_map_ok _ (fun p => p)); [rewrite map_id; reflexivity|]. intros p Hin.
      destruct p as [s|k c p]; [reflexivity|]. pose proof (Hl _ Hin) as Hc. cbn in Hc. subst c. cbn [fill_part]. rewrite Hk.
      destruct (Hp k None p Hin) as [H1 H2]. destruct p as [l|]; [|reflexivity]. destruct (H2 l eq_refl) as [H3 H4].
      assert (mapM (fill_spart pyformat (env_of im kws)) l = Ok l) as ->.
      { rewrite (mapM_map_ok _ (fun p => p)); [rewrite map_id; reflexivity|]. intros q Hq. destruct q as [s|k' p']; [reflexivity|].
        cbn [fill_spart]. rewrite Hk. pose proof (H4 k' p' Hq) as H5. destruct p' as [s|]; [|reflexivity]. unfold some_text.
        destruct (str_eqb s []) eqn:E; [apply str_eqb_eq in E; subst; contradiction|reflexivity]. }
      cbn [bind]. destruct (str_eqb (stexts l) []) eqn:E; [apply str_eqb_eq in E; contradiction|reflexivity]. }
    cbn [bind]. f_equal. unfold texts, source. f_equal. apply map_ext_in. intros p Hin. destruct p as [s|]; [|reflexivity].
    cbn. symmetry. apply escape_no_brace. exact (Hl _ Hin).
  Qed.
End Two.
