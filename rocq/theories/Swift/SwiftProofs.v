(** Proofs about the units. *)
From Coq Require Import QArith Qreals Reals Lra.
From Verif Require Import Base.Prelude Swift.SwiftModel Swift.SwiftSpec.
Local Open Scope Z_scope.

Lemma Rpower_pos x y : (0 < Rpower x y)%R.
Proof. unfold Rpower. apply exp_pos. Qed.
Lemma Rpower_1_l y : Rpower 1 y = 1%R.
Proof. unfold Rpower. rewrite ln_1, Rmult_0_r. apply exp_0. Qed.

Lemma in_cgs_value c u : in_cgs c u = value c u.
Proof. unfold in_cgs, value, syms. cbn [fold_right]. ring. Qed.
Lemma value_pos c u : (0 < scale u)%R -> (0 < value c u)%R.
Proof. intros H. unfold value. repeat apply Rmult_lt_0_compat; auto using Rpower_pos. Qed.
Lemma value_uscale c u f : value c (uscale u f) = (f * value c u)%R.
Proof. unfold value, uscale. cbn [scale expo]. ring. Qed.
Lemma value_ext c u v : scale u = scale v -> (forall s, expo u s == expo v s)%Q -> value c u = value c v.
Proof.
  intros H0 H. unfold value. rewrite H0.
  rewrite (Qeq_eqR _ _ (H SI)), (Qeq_eqR _ _ (H SL)), (Qeq_eqR _ _ (H SM)), (Qeq_eqR _ _ (H ST)), (Qeq_eqR _ _ (H St)), (Qeq_eqR _ _ (H Sa)), (Qeq_eqR _ _ (H Sh)).
  reflexivity.
Qed.

Definition of_opt (u : option unit_t) : unit_t := match u with Some v => v | None => dimensionless end.

Lemma sym_eqb_spec s t : reflect (s = t) (sym_eqb s t).
Proof. destruct s, t; constructor; congruence. Qed.

(** one factor: the exponent of the symbol grows by the declared one, the rest is kept *)
Definition grown (s : sym) (e : Q) (u u' : option unit_t) : Prop :=
  scale (of_opt u') = scale (of_opt u) /\
  forall t, (expo (of_opt u') t == expo (of_opt u) t + (if sym_eqb s t then e else 0))%Q.

Lemma add_factor_ok a u s u' : add_factor a u s = Ok u' -> exists e, declares a s e /\ grown s e u u'.
Proof.
  unfold add_factor, declares. destruct (a_exp a s) as [e|]; [|discriminate]. cbn [get bind]. intros H.
  exists e. split; [reflexivity|]. revert H.
  destruct (Qeq_bool e 1) eqn:E1; [|destruct (Qeq_bool e 0) eqn:E0]; cbn [negb]; intros H; injection H as <-.
  - apply Qeq_bool_iff in E1. unfold grown. destruct u as [v|]; cbn [of_opt scale expo umul base_unit dimensionless]; split; try ring;
      intros t; destruct (sym_eqb s t); rewrite ?E1; ring.
  - apply Qeq_bool_iff in E0. unfold grown. split; [reflexivity|]. intros t. destruct (sym_eqb s t); rewrite ?E0; ring.
  - unfold grown. destruct u as [v|]; cbn [of_opt scale expo umul upow base_unit dimensionless]; rewrite Rpower_1_l; split; try ring;
      intros t; destruct (sym_eqb s t); ring.
Qed.
Lemma add_scale_ok a u s u' : add_scale a u s = Ok u' -> exists e, declares a s e /\ grown s e u u'.
Proof.
  unfold add_scale, declares. destruct (a_exp a s) as [e|]; [|discriminate]. cbn [get bind]. intros H.
  exists e. split; [reflexivity|]. revert H.
  destruct (Qeq_bool e 0) eqn:E0; cbn [negb]; intros H; injection H as <-.
  - apply Qeq_bool_iff in E0. unfold grown. split; [reflexivity|]. intros t. destruct (sym_eqb s t); rewrite ?E0; ring.
  - unfold grown. destruct u as [v|]; cbn [of_opt scale expo umul upow base_unit dimensionless]; rewrite Rpower_1_l; split; try ring;
      intros t; destruct (sym_eqb s t); ring.
Qed.
Lemma add_factor_ex a u s e : declares a s e -> exists u', add_factor a u s = Ok u'.
Proof.
  unfold declares, add_factor. intros ->. cbn [get bind].
  destruct (Qeq_bool e 1); [|destruct (Qeq_bool e 0)]; cbn [negb]; eauto.
Qed.
Lemma add_scale_ex a u s e : declares a s e -> exists u', add_scale a u s = Ok u'.
Proof. unfold declares, add_scale. intros ->. cbn [get bind]. destruct (Qeq_bool e 0); cbn [negb]; eauto. Qed.

Lemma bind_ok {A B} (m : res A) (f : A -> res B) b : bind m f = Ok b -> exists a, m = Ok a /\ f a = Ok b.
Proof. destruct m; cbn; [eauto|discriminate]. Qed.

(** the factor that makes the value right *)
Lemma fix_value c u x : (0 < scale u)%R ->
  let f := (x / in_cgs c u)%R in
  let u' := if isclose1 f then u else uscale u f in
  (forall t, expo u' t = expo u t) /\ (if isclose1 f then u' = u /\ agrees (value c u) x else value c u' = x) .
Proof.
  cbv zeta. intros Hs. rewrite in_cgs_value. pose proof (value_pos c u Hs) as Hp.
  unfold isclose1. destruct (Rle_dec _ _) as [Hle|Hn].
  - split; [reflexivity|]. split; [reflexivity|]. unfold agrees.
    replace (x - value c u)%R with ((x / value c u - 1) * value c u)%R by (field; lra).
    rewrite Rabs_mult, (Rabs_pos_eq (value c u)) by lra. apply Rmult_le_compat_r; lra.
  - split; [reflexivity|]. rewrite value_uscale. field. lra.
Qed.

Lemma soap_ok c a u :
  soap_units_from_attributes c a = Ok u ->
  (forall s, exists e, declares a s e /\ (expo u s == e)%Q) /\
  (exists x, physical_cgs a x /\ (value c u = x \/ (scale u = 1%R /\ agrees (value c u) x))).
Proof.
  unfold soap_units_from_attributes. intros H.
  apply bind_ok in H as [u1 [H1 H]]. apply bind_ok in H as [u2 [H2 H]]. apply bind_ok in H as [u3 [H3 H]].
  apply bind_ok in H as [u4 [H4 H]]. apply bind_ok in H as [u5 [H5 H]]. apply bind_ok in H as [u6 [H6 H]].
  apply bind_ok in H as [u7 [H7 H]]. cbv zeta in H. apply bind_ok in H as [x [Hx H]].
  apply add_factor_ok in H1 as [e1 [D1 [S1 G1]]]. apply add_factor_ok in H2 as [e2 [D2 [S2 G2]]].
  apply add_factor_ok in H3 as [e3 [D3 [S3 G3]]]. apply add_factor_ok in H4 as [e4 [D4 [S4 G4]]].
  apply add_factor_ok in H5 as [e5 [D5 [S5 G5]]]. apply add_scale_ok in H6 as [e6 [D6 [S6 G6]]].
  apply add_scale_ok in H7 as [e7 [D7 [S7 G7]]].
  change (match u7 with Some v => v | None => dimensionless end) with (of_opt u7) in H.
  assert (Hsc : scale (of_opt u7) = 1%R) by (rewrite S7, S6, S5, S4, S3, S2, S1; reflexivity).
  pose proof (fix_value c (of_opt u7) x ltac:(rewrite Hsc; lra)) as [He Hf]. cbv zeta in He, Hf.
  assert (Hx' : physical_cgs a x).
  { unfold physical_cgs. destruct (a_phys a); [left; congruence|]. right. split; [reflexivity|].
    destruct (a_cosmo a); cbn in Hx; congruence. }
  assert (Hu : u = if isclose1 (x / in_cgs c (of_opt u7)) then of_opt u7 else uscale (of_opt u7) (x / in_cgs c (of_opt u7))).
  { destruct (isclose1 (x / in_cgs c (of_opt u7))); congruence. }
  rewrite <- Hu in Hf. split.
  - assert (Hex : forall s, expo u s = expo (of_opt u7) s) by (intro s; rewrite Hu; apply He).
    assert (G : forall s, (expo (of_opt u7) s ==
       0 + (if sym_eqb SI s then e1 else 0) + (if sym_eqb SL s then e2 else 0) + (if sym_eqb SM s then e3 else 0) + (if sym_eqb ST s then e4 else 0)
         + (if sym_eqb St s then e5 else 0) + (if sym_eqb Sa s then e6 else 0) + (if sym_eqb Sh s then e7 else 0))%Q)
      by (intro s; rewrite G7, G6, G5, G4, G3, G2, G1; reflexivity).
    intro s. rewrite Hex. specialize (G s).
    destruct s; cbn [sym_eqb] in G; eexists; (split; [eassumption|]); rewrite G; ring.
  - exists x. split; [exact Hx'|]. destruct (isclose1 _); [right|left; exact Hf].
    destruct Hf as [-> Hf]. split; [exact Hsc|exact Hf].
Qed.

Lemma soap_total c a : (forall s, exists e, declares a s e) -> (exists x, physical_cgs a x) -> exists u, soap_units_from_attributes c a = Ok u.
Proof.
  intros D [x Hx]. unfold soap_units_from_attributes.
  destruct (D SI) as [e1 D1], (D SL) as [e2 D2], (D SM) as [e3 D3], (D ST) as [e4 D4], (D St) as [e5 D5], (D Sa) as [e6 D6], (D Sh) as [e7 D7].
  destruct (add_factor_ex a None _ _ D1) as [u1 ->]. cbn [bind].
  destruct (add_factor_ex a u1 _ _ D2) as [u2 ->]. cbn [bind].
  destruct (add_factor_ex a u2 _ _ D3) as [u3 ->]. cbn [bind].
  destruct (add_factor_ex a u3 _ _ D4) as [u4 ->]. cbn [bind].
  destruct (add_factor_ex a u4 _ _ D5) as [u5 ->]. cbn [bind].
  destruct (add_scale_ex a u5 _ _ D6) as [u6 ->]. cbn [bind].
  destruct (add_scale_ex a u6 _ _ D7) as [u7 ->]. cbn [bind]. cbv zeta.
  assert (E : (match a_phys a with Some x => Ok x | None => get (a_cosmo a) end) = Ok x).
  { destruct Hx as [->|[-> ->]]; reflexivity. }
  rewrite E. cbn [bind]. destruct (isclose1 _); eauto.
Qed.

Lemma missing_factor a u s : a_exp a s = None -> add_factor a u s = Err EKey.
Proof. intros H. unfold add_factor. rewrite H. reflexivity. Qed.
Lemma missing_scale a u s : a_exp a s = None -> add_scale a u s = Err EKey.
Proof. intros H. unfold add_scale. rewrite H. reflexivity. Qed.
Lemma factor_cases a u s : add_factor a u s = Err EKey \/ exists u', add_factor a u s = Ok u'.
Proof.
  destruct (a_exp a s) eqn:E; [right; eapply add_factor_ex; eassumption|left; auto using missing_factor].
Qed.
Lemma scale_cases a u s : add_scale a u s = Err EKey \/ exists u', add_scale a u s = Ok u'.
Proof.
  destruct (a_exp a s) eqn:E; [right; eapply add_scale_ex; eassumption|left; auto using missing_scale].
Qed.

(** without one of the attributes the result is KeyError *)
Lemma soap_missing c a : (exists s, a_exp a s = None) \/ (a_phys a = None /\ a_cosmo a = None) -> soap_units_from_attributes c a = Err EKey.
Proof.
  intros H. assert (C : soap_units_from_attributes c a = Err EKey \/ exists u, soap_units_from_attributes c a = Ok u).
  { clear H. unfold soap_units_from_attributes.
    destruct (factor_cases a None SI) as [->|[u1 ->]]; [left; reflexivity|]. cbn [bind].
    destruct (factor_cases a u1 SL) as [->|[u2 ->]]; [left; reflexivity|]. cbn [bind].
    destruct (factor_cases a u2 SM) as [->|[u3 ->]]; [left; reflexivity|]. cbn [bind].
    destruct (factor_cases a u3 ST) as [->|[u4 ->]]; [left; reflexivity|]. cbn [bind].
    destruct (factor_cases a u4 St) as [->|[u5 ->]]; [left; reflexivity|]. cbn [bind].
    destruct (scale_cases a u5 Sa) as [->|[u6 ->]]; [left; reflexivity|]. cbn [bind].
    destruct (scale_cases a u6 Sh) as [->|[u7 ->]]; [left; reflexivity|]. cbn [bind]. cbv zeta.
    destruct (a_phys a); cbn [bind]; [right|destruct (a_cosmo a); cbn [get bind]; [right|left; reflexivity]]; destruct (isclose1 _); eauto. }
  destruct C as [C|[u C]]; [exact C|]. destruct (soap_ok c a u C) as [D [x [Hx _]]].
  destruct H as [[s Hs]|[H1 H2]].
  - destruct (D s) as [e [He _]]. unfold declares in He. congruence.
  - destruct Hx as [Hx|[_ Hx]]; congruence.
Qed.

(** ** the swiftsimio units *)
Lemma simio_ok c a u com :
  swiftsimio_units_from_attributes c a = Ok (u, com) ->
  (forall s, s <> Sa -> s <> Sh -> exists e, declares a s e /\ (expo u s == e)%Q) /\
  (expo u Sa == 0)%Q /\ (expo u Sh == 0)%Q /\
  (exists h, declares a Sh h /\ (h == 0)%Q) /\
  (exists ea el, declares a Sa ea /\ declares a SL el /\ (if com then (ea == el)%Q /\ ~ (ea == 0)%Q else (ea == 0)%Q)) /\
  (exists x, a_nocosmo a = Some x /\ (value c u = x \/ (scale u = 1%R /\ agrees (value c u) x))).
Proof.
  unfold swiftsimio_units_from_attributes. intros H.
  apply bind_ok in H as [u1 [H1 H]]. apply bind_ok in H as [u2 [H2 H]]. apply bind_ok in H as [u3 [H3 H]].
  apply bind_ok in H as [u4 [H4 H]]. apply bind_ok in H as [u5 [H5 H]].
  apply bind_ok in H as [h [Hh H]]. apply bind_ok in H as [w0 [Hh0 H]]. apply bind_ok in H as [ea [Ha H]].
  apply bind_ok in H as [el [Hl H]]. apply bind_ok in H as [cm [Hc H]]. cbv zeta in H. apply bind_ok in H as [x [Hx H]].
  apply add_factor_ok in H1 as [e1 [D1 [S1 G1]]]. apply add_factor_ok in H2 as [e2 [D2 [S2 G2]]].
  apply add_factor_ok in H3 as [e3 [D3 [S3 G3]]]. apply add_factor_ok in H4 as [e4 [D4 [S4 G4]]].
  apply add_factor_ok in H5 as [e5 [D5 [S5 G5]]].
  change (match u5 with Some v => v | None => dimensionless end) with (of_opt u5) in H.
  assert (Hsc : scale (of_opt u5) = 1%R) by (rewrite S5, S4, S3, S2, S1; reflexivity).
  pose proof (fix_value c (of_opt u5) x ltac:(rewrite Hsc; lra)) as [He Hf]. cbv zeta in He, Hf.
  injection H as Hu <-.
  assert (Hu' : u = if isclose1 (x / in_cgs c (of_opt u5)) then of_opt u5 else uscale (of_opt u5) (x / in_cgs c (of_opt u5))).
  { rewrite <- Hu. destruct (isclose1 (x / in_cgs c (of_opt u5))); reflexivity. }
  clear Hu. rewrite <- Hu' in Hf.
  assert (Hex : forall s, expo u s = expo (of_opt u5) s) by (intro s; rewrite Hu'; apply He).
  assert (G : forall s, (expo (of_opt u5) s ==
     0 + (if sym_eqb SI s then e1 else 0) + (if sym_eqb SL s then e2 else 0) + (if sym_eqb SM s then e3 else 0) + (if sym_eqb ST s then e4 else 0)
       + (if sym_eqb St s then e5 else 0))%Q)
    by (intro s; rewrite G5, G4, G3, G2, G1; reflexivity).
  unfold get in *. unfold declares.
  split; [|split; [|split; [|split; [|split]]]].
  - intros s Na Nh. rewrite Hex. specialize (G s).
    destruct s; try congruence; cbn [sym_eqb] in G; eexists; (split; [eassumption|]); rewrite G; ring.
  - rewrite Hex, G. cbn [sym_eqb]. ring.
  - rewrite Hex, G. cbn [sym_eqb]. ring.
  - destruct (a_exp a Sh) as [h'|]; [|discriminate]. injection Hh as ->. exists h. split; [reflexivity|].
    unfold check in Hh0. destruct (Qeq_bool h 0) eqn:E; [|discriminate]. apply Qeq_bool_iff. exact E.
  - destruct (a_exp a Sa) as [ea'|]; [|discriminate]. injection Ha as ->.
    destruct (a_exp a SL) as [el'|]; [|discriminate]. injection Hl as ->.
    exists ea, el. repeat (split; [reflexivity|]).
    destruct (Qeq_bool ea 0) eqn:E0; [injection Hc as <-; apply Qeq_bool_iff; exact E0|].
    destruct (Qeq_bool ea el) eqn:E1; [|discriminate]. injection Hc as <-. split; [apply Qeq_bool_iff; exact E1|].
    intro Hq. apply Qeq_bool_iff in Hq. congruence.
  - destruct (a_nocosmo a) as [x'|]; [|discriminate]. injection Hx as ->. exists x. split; [reflexivity|].
    destruct (isclose1 _); [right|left; exact Hf]. destruct Hf as [-> Hf]. split; [exact Hsc|exact Hf].
Qed.

(** it succeeds exactly when nothing depends on h and the power of a is none or that
    of a length *)
Lemma simio_total c a ex x : (forall s, a_exp a s = Some (ex s)) -> a_nocosmo a = Some x ->
  (if Qeq_bool (ex Sh) 0 && (Qeq_bool (ex Sa) 0 || Qeq_bool (ex Sa) (ex SL))
   then exists u, swiftsimio_units_from_attributes c a = Ok (u, negb (Qeq_bool (ex Sa) 0))
   else swiftsimio_units_from_attributes c a = Err EValue).
Proof.
  intros D Hx. unfold swiftsimio_units_from_attributes.
  destruct (add_factor_ex a None _ _ (D SI)) as [u1 ->]. cbn [bind].
  destruct (add_factor_ex a u1 _ _ (D SL)) as [u2 ->]. cbn [bind].
  destruct (add_factor_ex a u2 _ _ (D SM)) as [u3 ->]. cbn [bind].
  destruct (add_factor_ex a u3 _ _ (D ST)) as [u4 ->]. cbn [bind].
  destruct (add_factor_ex a u4 _ _ (D St)) as [u5 ->]. cbn [bind].
  rewrite !D, Hx. cbn [get bind]. unfold check.
  destruct (Qeq_bool (ex Sh) 0); cbn [andb bind]; [|reflexivity].
  destruct (Qeq_bool (ex Sa) 0); cbn [orb bind negb]; [eauto|].
  destruct (Qeq_bool (ex Sa) (ex SL)); cbn [bind]; [eauto|reflexivity].
Qed.

(** ** the wrappers *)
Section Wrap.
  Context {Key Data Reg : Type}.
  Notation hobj := (@hobj Key Data). Notation wobj := (@wobj Key Data Reg).
  Definition wrap (m : mode) (r : Reg) (o : hobj) : wobj :=
    match o with HDataset a d => WDataset a d m r | HGroup g => WGroup g m r | HOther => WOther end.
  Lemma walk_wrap m r (o : hobj) ks : walk (wrap m r o) ks = do o' <- hwalk o ks; Ok (wrap m r o').
  Proof.
    revert o. induction ks as [|k ks IH]; intros o; [destruct o; reflexivity|].
    destruct o as [a d|g|]; cbn [walk hwalk wrap]; [reflexivity| |reflexivity].
    unfold group_getitem. destruct (g k) as [o'|e]; cbn [bind]; [|reflexivity].
    rewrite <- IH. destruct o'; reflexivity.
  Qed.
End Wrap.
