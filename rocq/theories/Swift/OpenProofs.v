(** Proofs about the table of units. *)
From Coq Require Import QArith Qreals Reals Lra Ascii String.
From Verif Require Import Base.Prelude Swift.SwiftModel Swift.SwiftSpec Swift.SwiftProofs Swift.OpenModel Swift.OpenSpec.
Local Open Scope Z_scope.
Local Open Scope string_scope.

(** ** attributes *)
Lemma to_float_ok v x : to_float v = Ok x <-> is_number v x.
Proof.
  unfold is_number. destruct v as [y|l|]; cbn.
  - split; [intros [= ->]; left; reflexivity|intros [[= ->]|H]; [reflexivity|discriminate]].
  - destruct l as [|y [|z l]]; cbn; (split; [try discriminate|intros [H|H]; try discriminate]).
    + intros [= ->]. right. reflexivity.
    + injection H as ->. reflexivity.
  - split; [discriminate|intros [H|H]; discriminate].
Qed.
Lemma number_unique v x y : is_number v x -> is_number v y -> x = y.
Proof. intros H1 H2. apply to_float_ok in H1, H2. congruence. Qed.

Lemma float_attrs_cons n v l : float_attrs ((n, v) :: l) = do x <- to_float v; do r <- float_attrs l; Ok ((n, x) :: r).
Proof. unfold float_attrs. cbn [mapM fst snd]. destruct (to_float v); reflexivity. Qed.
Lemma float_attrs_ok l d : float_attrs l = Ok d ->
  map fst d = map fst l /\ (forall n x, In (n, x) d <-> exists v, In (n, v) l /\ to_float v = Ok x) /\ (forall n v, In (n, v) l -> exists x, to_float v = Ok x).
Proof.
  revert d. induction l as [|[n v] l IH]; intros d H.
  - injection H as <-. split; [reflexivity|]. split; [|intros n v []]. intros n x. split; [intros []|intros [v [[] _]]].
  - rewrite float_attrs_cons in H. apply bind_ok in H as [x [Hx H]]. apply bind_ok in H as [r [Hr H]]. injection H as <-.
    destruct (IH r Hr) as [H1 [H2 H3]]. split; [cbn; rewrite H1; reflexivity|]. split.
    + intros m y. cbn [In]. rewrite H2. split.
      * intros [[= <- <-]|[w [Hw E]]]; [exists v; auto|exists w; auto].
      * intros [w [[[= <- <-]|Hw] E]]; [left; congruence|right; exists w; auto].
    + intros m w [[= <- <-]|Hw]; [eauto|eapply H3; exact Hw].
Qed.
Lemma float_attrs_ex l : (forall n v, In (n, v) l -> exists x, to_float v = Ok x) -> exists d, float_attrs l = Ok d.
Proof.
  induction l as [|[n v] l IH]; intros H; [eexists; reflexivity|]. rewrite float_attrs_cons.
  destruct (H n v (or_introl eq_refl)) as [x ->]. cbn [bind].
  destruct IH as [d ->]; [intros m w Hw; eapply H; right; exact Hw|]. eexists. reflexivity.
Qed.
Lemma dget_in {A} (d : list (string * A)) n x : NoDup (map fst d) -> (dget d n = Ok x <-> In (n, x) d).
Proof.
  induction d as [|[m y] d IH]; intros Hn; cbn [dget].
  - split; [discriminate|intros []].
  - inversion Hn as [|? ? H1 H2]; subst. destruct (String.eqb_spec m n) as [->|N].
    + split; [intros [= ->]; left; reflexivity|]. intros [[= ->]|Hi]; [reflexivity|].
      exfalso. apply H1. apply (in_map fst) in Hi. exact Hi.
    + rewrite (IH H2). split; [intros Hi; right; exact Hi|]. intros [[= -> ->]|Hi]; [congruence|exact Hi].
Qed.
Lemma dget_err {A} (d : list (string * A)) n : (exists x, dget d n = Ok x) \/ dget d n = Err EKey.
Proof. induction d as [|[m y] d IH]; cbn [dget]; [right; reflexivity|]. destruct (m =? n); [left; eauto|exact IH]. Qed.

(** the numbers of a group *)
Section Group.
  Variables (f : meta) (g : string) (l : list (string * attr)) (d : list (string * R)).
  Hypothesis (Hw : wf_meta f) (Hg : f g = Some l) (Hd : float_attrs l = Ok d).
  Lemma group_says n x : dget d n = Ok x <-> says f g n x.
  Proof using All.
    destruct (float_attrs_ok l d Hd) as [H1 [H2 H3]].
    rewrite dget_in by (rewrite H1; exact (Hw g l Hg)). rewrite H2. unfold says. split.
    - intros [v [Hv E]]. exists l, v. rewrite <- to_float_ok. auto.
    - intros [l' [v [Hl [Hv E]]]]. rewrite Hg in Hl. injection Hl as <-. exists v. rewrite to_float_ok. auto.
  Qed.
  Lemma group_numbers : all_numbers f g.
  Proof using All.
    intros l' n v Hl Hv. rewrite Hg in Hl. injection Hl as <-. destruct (float_attrs_ok l d Hd) as [H1 [H2 H3]].
    destruct (H3 n v Hv) as [x Hx]. exists x. apply to_float_ok. exact Hx.
  Qed.
End Group.
Lemma numbers_ex f g l : all_numbers f g -> f g = Some l -> exists d, float_attrs l = Ok d.
Proof.
  intros H Hg. apply float_attrs_ex. intros n v Hv. destruct (H l n v Hg Hv) as [x Hx]. exists x. apply to_float_ok. exact Hx.
Qed.
Lemma says_unique f g n x y : wf_meta f -> says f g n x -> says f g n y -> x = y.
Proof.
  intros Hw [l [v [Hl [Hv Hx]]]] [l' [v' [Hl' [Hv' Hy]]]]. rewrite Hl in Hl'. injection Hl' as <-.
  pose proof (Hw g l Hl) as Hn. apply (dget_in l n) in Hv; [|exact Hn]. apply (dget_in l n) in Hv'; [|exact Hn].
  assert (v = v') as <- by congruence. eapply number_unique; eassumption.
Qed.
Lemma says_group f g n x : says f g n x -> f g <> None.
Proof. intros [l [v [H _]]]. congruence. Qed.

(** ** defining units *)
Definition put (name : string) (v : R) (d : dims) (reg : lut) : lut := fun n => if name =? n then Some (v, d) else reg n.
Lemma define_unit_ok name v d reg reg' : define_unit name v d reg = Ok reg' -> reg name = None /\ reg' = put name v d reg.
Proof. unfold define_unit. destruct (reg name); [discriminate|]. intros [= <-]. auto. Qed.
Lemma define_unit_new name v d reg : reg name = None -> define_unit name v d reg = Ok (put name v d reg).
Proof. unfold define_unit. intros ->. reflexivity. Qed.

(** the table after one of the two groups *)
Definition with_group (p : string) (xl xm xt xT xI : R) (reg : lut) : lut :=
  put (p ++ "_current") xI amp (put (p ++ "_angle") 1%R rad (put (p ++ "_temperature") xT K_ (put (p ++ "_time") xt s_ (put (p ++ "_mass") xm g_ (put (p ++ "_length") xl cm reg))))).
Definition said (f : meta) (g : string) (xl xm xt xT xI : R) : Prop :=
  says f g "Unit length in cgs (U_L)" xl /\ says f g "Unit mass in cgs (U_M)" xm /\ says f g "Unit time in cgs (U_t)" xt /\
  says f g "Unit temperature in cgs (U_T)" xT /\ says f g "Unit current in cgs (U_I)" xI.

Lemma define_group_ok f reg g p reg' : wf_meta f -> define_group f reg g p = Ok reg' ->
  all_numbers f g /\ ((f g = None /\ reg' = reg) \/ exists xl xm xt xT xI, said f g xl xm xt xT xI /\ reg' = with_group p xl xm xt xT xI reg).
Proof.
  intros Hw. unfold define_group. destruct (f g) as [l|] eqn:Hg.
  2: { intros [= <-]. split; [intros l n v Hl; congruence|left; auto]. }
  intros H. apply bind_ok in H as [d [Hd H]]. split; [eapply group_numbers; eassumption|]. right.
  pose proof (fun n x => proj1 (group_says f g l d Hw Hg Hd n x)) as S.
  apply bind_ok in H as [xl [H1 H]]. apply bind_ok in H as [r1 [D1 H]].
  apply bind_ok in H as [xm [H2 H]]. apply bind_ok in H as [r2 [D2 H]].
  apply bind_ok in H as [xt [H3 H]]. apply bind_ok in H as [r3 [D3 H]].
  apply bind_ok in H as [xT [H4 H]]. apply bind_ok in H as [r4 [D4 H]].
  apply bind_ok in H as [r5 [D5 H]]. apply bind_ok in H as [xI [H6 D6]].
  apply define_unit_ok in D1 as [_ ->]. apply define_unit_ok in D2 as [_ ->]. apply define_unit_ok in D3 as [_ ->].
  apply define_unit_ok in D4 as [_ ->]. apply define_unit_ok in D5 as [_ ->]. apply define_unit_ok in D6 as [_ ->].
  exists xl, xm, xt, xT, xI. split; [|reflexivity]. unfold said. auto 10.
Qed.

Definition free (p : string) (reg : lut) : Prop :=
  reg (p ++ "_length") = None /\ reg (p ++ "_mass") = None /\ reg (p ++ "_time") = None /\ reg (p ++ "_temperature") = None /\
  reg (p ++ "_angle") = None /\ reg (p ++ "_current") = None.
Ltac free_names := unfold put; cbn [String.append String.eqb Ascii.eqb Bool.eqb]; assumption.
Lemma define_group_cases f reg g p : (p = "snap" \/ p = "code") -> all_numbers f g -> free p reg ->
  (exists reg', define_group f reg g p = Ok reg') \/ define_group f reg g p = Err EKey.
Proof.
  intros Hp Ha [F1 [F2 [F3 [F4 [F5 F6]]]]]. unfold define_group. destruct (f g) as [l|] eqn:Hg; [|left; eauto].
  destruct (numbers_ex f g l Ha Hg) as [d ->]. cbn [bind].
  destruct Hp; subst p; cbn [String.append] in F1, F2, F3, F4, F5, F6; cbn [String.append].
  all: destruct (dget_err d "Unit length in cgs (U_L)") as [[xl ->] | ->]; [cbn [bind]|right; reflexivity]; rewrite define_unit_new by free_names; cbn [bind].
  all: destruct (dget_err d "Unit mass in cgs (U_M)") as [[xm ->] | ->]; [cbn [bind]|right; reflexivity]; rewrite define_unit_new by free_names; cbn [bind].
  all: destruct (dget_err d "Unit time in cgs (U_t)") as [[xt ->] | ->]; [cbn [bind]|right; reflexivity]; rewrite define_unit_new by free_names; cbn [bind].
  all: destruct (dget_err d "Unit temperature in cgs (U_T)") as [[xT ->] | ->]; [cbn [bind]|right; reflexivity]; rewrite define_unit_new by free_names; cbn [bind].
  all: rewrite define_unit_new by free_names; cbn [bind].
  all: destruct (dget_err d "Unit current in cgs (U_I)") as [[xI ->] | ->]; [cbn [bind]|right; reflexivity]; rewrite define_unit_new by free_names; left; eauto.
Qed.
Lemma define_group_full f reg g p : wf_meta f -> define_group f reg g p = Err EKey -> all_numbers f g -> free p reg -> (p = "snap" \/ p = "code") ->
  (forall n, In n unit_attrs -> exists x, says f g n x) -> False.
Proof.
  intros Hw H Ha [F1 [F2 [F3 [F4 [F5 F6]]]]] Hp Hc. revert H. unfold define_group. destruct (f g) as [l|] eqn:Hg; [|discriminate].
  destruct (numbers_ex f g l Ha Hg) as [d Hd]. rewrite Hd. cbn [bind].
  assert (S : forall n, In n unit_attrs -> exists x, dget d n = Ok x).
  { intros n Hn. destruct (Hc n Hn) as [x Hx]. exists x. apply (group_says f g l d Hw Hg Hd). exact Hx. }
  unfold unit_attrs in S.
  destruct (S "Unit length in cgs (U_L)" ltac:(cbn; tauto)) as [xl ->]. destruct (S "Unit mass in cgs (U_M)" ltac:(cbn; tauto)) as [xm ->].
  destruct (S "Unit time in cgs (U_t)" ltac:(cbn; tauto)) as [xt ->]. destruct (S "Unit temperature in cgs (U_T)" ltac:(cbn; tauto)) as [xT ->].
  destruct (S "Unit current in cgs (U_I)" ltac:(cbn; tauto)) as [xI ->]. cbn [bind].
  destruct Hp; subst p; cbn [String.append] in F1, F2, F3, F4, F5, F6; cbn [String.append].
  all: do 6 (rewrite define_unit_new by free_names; cbn [bind]); discriminate.
Qed.
