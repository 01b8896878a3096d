(** The statements about files opened, and a concrete file. *)
From Coq Require Import QArith Qreals Reals Lra Ascii String.
From Verif Require Import Base.Prelude Swift.SwiftModel Swift.SwiftSpec Swift.SwiftProofs Swift.SwiftFinal Swift.OpenModel Swift.OpenSpec Swift.OpenProofs.
Local Open Scope Z_scope.
Local Open Scope string_scope.

Ltac eqs := cbn [String.append String.eqb Ascii.eqb Bool.eqb].
Definition snap_names (us : usystem) : Prop :=
  us = {| us_length := "snap_length"; us_mass := "snap_mass"; us_time := "snap_time"; us_temperature := "snap_temperature"; us_angle := "snap_angle"; us_current := "snap_current" |}.
Definition with_code (f : meta) (R1 R2 : lut) : Prop :=
  (f "InternalCodeUnits" = None /\ R2 = R1) \/ exists yl ym yt yT yI, said f "InternalCodeUnits" yl ym yt yT yI /\ R2 = with_group "code" yl ym yt yT yI R1.

Lemma fresh_free std : fresh std -> free "snap" std /\ free "code" std.
Proof. intros H. unfold free. cbn [String.append]. repeat split; apply H; unfold new_names; cbn [In]; tauto. Qed.
Lemma free_code std xl xm xt xT xI : fresh std -> free "code" (with_group "snap" xl xm xt xT xI std).
Proof. intros H. destruct (fresh_free std H) as [_ F]. unfold free, with_group, put in *. eqs. cbn [String.append] in F. exact F. Qed.

Lemma registry_form std f r : wf_meta f -> fresh std -> soap_unit_registry_from_snapshot std f = Ok r ->
  numeric f /\ snap_names (r_system r) /\
  exists xl xm xt xT xI a h p s G R2,
    said f "Units" xl xm xt xT xI /\ with_code f (with_group "snap" xl xm xt xT xI std) R2 /\
    says f "Cosmology" "Scale-factor" a /\ says f "Cosmology" "h" h /\
    says f "PhysicalConstants/CGS" "parsec" p /\ says f "PhysicalConstants/CGS" "solar_mass" s /\ says f "PhysicalConstants/CGS" "newton_G" G /\
    r_lut r = put "newton_G" G cm3_g_s2 (put "swift_msun" s g_ (put "swift_mpc" (1000000 * p)%R cm (put "h" h none (put "a" a none R2)))).
Proof.
  intros Hw Hf. unfold soap_unit_registry_from_snapshot, group. intros H.
  apply bind_ok in H as [l1 [L1 H]]. apply bind_ok in H as [d1 [D1 H]].
  apply bind_ok in H as [l2 [L2 H]]. apply bind_ok in H as [d2 [D2 H]].
  apply bind_ok in H as [a [Ha H]]. apply bind_ok in H as [h [Hh H]].
  apply bind_ok in H as [R1 [E1 H]]. apply bind_ok in H as [R2 [E2 H]].
  apply bind_ok in H as [R3 [E3 H]]. apply bind_ok in H as [R4 [E4 H]].
  apply bind_ok in H as [us [Hus H]].
  apply bind_ok in H as [p [Hp H]]. apply bind_ok in H as [R5 [E5 H]].
  apply bind_ok in H as [s [Hs H]]. apply bind_ok in H as [R6 [E6 H]].
  apply bind_ok in H as [G [HG H]]. apply bind_ok in H as [R7 [E7 H]]. injection H as <-.
  destruct (f "PhysicalConstants/CGS") as [l1'|] eqn:G1; [injection L1 as ->|discriminate].
  destruct (f "Cosmology") as [l2'|] eqn:G2; [injection L2 as ->|discriminate].
  apply define_unit_ok in E3 as [_ ->]. apply define_unit_ok in E4 as [_ ->]. apply define_unit_ok in E5 as [_ ->].
  apply define_unit_ok in E6 as [_ ->]. apply define_unit_ok in E7 as [_ ->].
  apply define_group_ok in E1 as [N1 E1]; [|exact Hw]. apply define_group_ok in E2 as [N2 E2]; [|exact Hw].
  cbn [r_lut r_system].
  assert (Hu : snap_names us).
  { unfold unit_system in Hus. do 6 (apply bind_ok in Hus as [? [_ Hus]]). injection Hus as <-. reflexivity. }
  assert (E1' : exists xl xm xt xT xI, said f "Units" xl xm xt xT xI /\ R1 = with_group "snap" xl xm xt xT xI std).
  { destruct E1 as [[E0 ->]|E1]; [exfalso|exact E1].
    unfold unit_system in Hus. apply bind_ok in Hus as [x [Hx _]]. revert Hx. unfold named_unit, put. eqs.
    assert (std "snap_length" = None) as F by (apply Hf; unfold new_names; cbn [In]; tauto).
    destruct E2 as [[_ ->]|[? [? [? [? [? [_ ->]]]]]]]; unfold with_group, put; eqs; rewrite F; discriminate. }
  split; [|split; [exact Hu|]].
  - intros g Hg. unfold metadata_groups in Hg. cbn [In] in Hg.
    destruct Hg as [<-|[<-|[<-|[<-|[]]]]]; [exact (group_numbers f _ l1 d1 Hw G1 D1)|exact (group_numbers f _ l2 d2 Hw G2 D2)|exact N1|exact N2].
  - destruct E1' as [xl [xm [xt [xT [xI [S1 ->]]]]]]. exists xl, xm, xt, xT, xI, a, h, p, s, G, R2.
    split; [exact S1|]. split; [exact E2|].
    split; [apply (group_says f _ l2 d2 Hw G2 D2); exact Ha|]. split; [apply (group_says f _ l2 d2 Hw G2 D2); exact Hh|].
    split; [apply (group_says f _ l1 d1 Hw G1 D1); exact Hp|]. split; [apply (group_says f _ l1 d1 Hw G1 D1); exact Hs|].
    split; [apply (group_says f _ l1 d1 Hw G1 D1); exact HG|]. reflexivity.
Qed.

(** the table has the units of the file and those of unyt *)
Ltac uniq Hw := match goal with
  | H1 : says ?f ?g ?n ?x, H2 : says ?f ?g ?n ?y |- _ => let E := fresh in pose proof (says_unique f g n x y Hw H1 H2) as E; rewrite E; clear E; reflexivity end.
Lemma registry_units std f r : wf_meta f -> fresh std -> soap_unit_registry_from_snapshot std f = Ok r ->
  forall n v d, r_lut r n = Some (v, d) <-> unit_of f n v d \/ std n = Some (v, d).
Proof.
  intros Hw Hf Hr. destruct (registry_form std f r Hw Hf Hr) as [_ [_ [xl [xm [xt [xT [xI [a [h [p [s [G [R2 [[S1 [S2 [S3 [S4 S5]]]] [HC [Sa [Sh [Sp [Ss [SG HR]]]]]]]]]]]]]]]]]]]].
  assert (HU : f "Units" <> None) by (eapply says_group; exact S1).
  intros n v d. rewrite HR. clear HR Hr.
  assert (U : forall m, In m new_names -> std m = None) by exact Hf.
  destruct HC as [[C0 ->]|[yl [ym [yt [yT [yI [[C1 [C2 [C3 [C4 C5]]]] ->]]]]]]].
  - split.
    + intros H. unfold with_group, put in H. cbn [String.append] in H.
      repeat match type of H with context [if (?x =? n) then _ else _] => destruct (String.eqb_spec x n) as [<-|?]; [injection H as <- <-; left; constructor; assumption|] end.
      right. exact H.
    + intros [H|H].
      * destruct H; unfold with_group, put; eqs; try uniq Hw; try reflexivity;
          exfalso; repeat match goal with H : says _ "InternalCodeUnits" _ _ |- _ => apply says_group in H end; congruence.
      * unfold with_group, put; cbn [String.append].
        repeat match goal with |- context [if (?x =? n) then _ else _] => destruct (String.eqb_spec x n) as [<-|?];
          [rewrite (U x) in H by (unfold new_names; cbn [In]; tauto); discriminate|] end. exact H.
  - assert (HU2 : f "InternalCodeUnits" <> None) by (eapply says_group; exact C1). split.
    + intros H. unfold with_group, put in H. cbn [String.append] in H.
      repeat match type of H with context [if (?x =? n) then _ else _] => destruct (String.eqb_spec x n) as [<-|?]; [injection H as <- <-; left; constructor; assumption|] end.
      right. exact H.
    + intros [H|H].
      * destruct H; unfold with_group, put; eqs; try uniq Hw; try reflexivity.
      * unfold with_group, put; cbn [String.append].
        repeat match goal with |- context [if (?x =? n) then _ else _] => destruct (String.eqb_spec x n) as [<-|?];
          [rewrite (U x) in H by (unfold new_names; cbn [In]; tauto); discriminate|] end. exact H.
Qed.

(** the base units used for datasets are the declared ones *)
Lemma registry_declared std f r : wf_meta f -> fresh std -> soap_unit_registry_from_snapshot std f = Ok r -> declared f (registry_cgs r).
Proof.
  intros Hw Hf Hr. destruct (registry_form std f r Hw Hf Hr) as [_ [HS [xl [xm [xt [xT [xI [a [h [p [s [G [R2 [[S1 [S2 [S3 [S4 S5]]]] [HC [Sa [Sh [Sp [Ss [SG HR]]]]]]]]]]]]]]]]]]]].
  unfold declared, registry_cgs, value_of. rewrite HS, HR. cbn [us_length us_mass us_time us_temperature us_current].
  destruct HC as [[C0 ->]|[yl [ym [yt [yT [yI [_ ->]]]]]]]; unfold with_group, put; eqs; auto 10.
Qed.

Lemma registry_complete std f r : wf_meta f -> fresh std -> soap_unit_registry_from_snapshot std f = Ok r -> numeric f /\ complete f.
Proof.
  intros Hw Hf Hr. destruct (registry_form std f r Hw Hf Hr) as [HN [_ [xl [xm [xt [xT [xI [a [h [p [s [G [R2 [[S1 [S2 [S3 [S4 S5]]]] [HC [Sa [Sh [Sp [Ss [SG HR]]]]]]]]]]]]]]]]]]]].
  split; [exact HN|]. unfold complete, unit_attrs. split; [|split; [|split]].
  - intros n Hn. cbn [In] in Hn. destruct Hn as [<-|[<-|[<-|[<-|[<-|[]]]]]]; eauto.
  - intros Hi n Hn. destruct HC as [[C0 _]|[yl [ym [yt [yT [yI [[C1 [C2 [C3 [C4 C5]]]] _]]]]]]]; [congruence|].
    cbn [In] in Hn. destruct Hn as [<-|[<-|[<-|[<-|[<-|[]]]]]]; eauto.
  - intros n Hn. cbn [In] in Hn. destruct Hn as [<-|[<-|[]]]; eauto.
  - intros n Hn. cbn [In] in Hn. destruct Hn as [<-|[<-|[<-|[]]]]; eauto.
Qed.

(** with numbers only there is a table or an attribute is absent *)
Section Cases.
  Variables (std : lut) (f : meta).
  Hypothesis (Hw : wf_meta f) (Hf : fresh std) (HN : numeric f).
  Lemma absent g l d n : f g = Some l -> float_attrs l = Ok d -> dget d n = Err EKey -> (exists x, says f g n x) -> False.
  Proof using Hw.
    intros Hg Hd Hn [x Hx]. apply (group_says f g l d Hw Hg Hd) in Hx. congruence.
  Qed.
  Lemma registry_cases : f "Units" <> None ->
    (exists r, soap_unit_registry_from_snapshot std f = Ok r) \/ (soap_unit_registry_from_snapshot std f = Err EKey /\ ~ complete f).
  Proof using All.
    intros HU. unfold soap_unit_registry_from_snapshot, group.
    destruct (f "PhysicalConstants/CGS") as [l1|] eqn:G1; [cbn [get bind]|right; split; [reflexivity|]].
    2: { intros [_ [_ [_ C]]]. destruct (C "parsec" ltac:(cbn [In]; tauto)) as [x Hx]. apply says_group in Hx. congruence. }
    destruct (numbers_ex f _ l1 (HN "PhysicalConstants/CGS" ltac:(unfold metadata_groups; cbn [In]; tauto)) G1) as [d1 D1]. rewrite D1. cbn [bind].
    destruct (f "Cosmology") as [l2|] eqn:G2; [cbn [get bind]|right; split; [reflexivity|]].
    2: { intros [_ [_ [C _]]]. destruct (C "h" ltac:(cbn [In]; tauto)) as [x Hx]. apply says_group in Hx. congruence. }
    destruct (numbers_ex f _ l2 (HN "Cosmology" ltac:(unfold metadata_groups; cbn [In]; tauto)) G2) as [d2 D2]. rewrite D2. cbn [bind].
    assert (A1 : forall n, In n ["parsec"; "solar_mass"; "newton_G"] -> dget d1 n = Err EKey -> ~ complete f).
    { intros n Hn H [_ [_ [_ C]]]. exact (absent _ l1 d1 n G1 D1 H (C n Hn)). }
    assert (A2 : forall n, In n ["Scale-factor"; "h"] -> dget d2 n = Err EKey -> ~ complete f).
    { intros n Hn H [_ [_ [C _]]]. exact (absent _ l2 d2 n G2 D2 H (C n Hn)). }
    destruct (dget_err d2 "Scale-factor") as [[a ->] | E]; [cbn [bind]|rewrite E; right; split; [reflexivity|refine (A2 _ _ E); cbn [In]; tauto]].
    destruct (dget_err d2 "h") as [[h ->] | E]; [cbn [bind]|rewrite E; right; split; [reflexivity|refine (A2 _ _ E); cbn [In]; tauto]].
    destruct (fresh_free std Hf) as [F1 _].
    assert (NU : all_numbers f "Units") by (apply HN; unfold metadata_groups; cbn [In]; tauto).
    assert (NC : all_numbers f "InternalCodeUnits") by (apply HN; unfold metadata_groups; cbn [In]; tauto).
    destruct (define_group_cases f std "Units" "snap" ltac:(left; reflexivity) NU F1) as [[R1 E1] | E1].
    2: { rewrite E1. right. split; [reflexivity|]. intros [C _]. exact (define_group_full f std "Units" "snap" Hw E1 NU F1 ltac:(left; reflexivity) C). }
    rewrite E1. cbn [bind]. apply define_group_ok in E1 as [_ [[E0 _]|[xl [xm [xt [xT [xI [_ ->]]]]]]]]; [congruence| |exact Hw].
    pose proof (free_code std xl xm xt xT xI Hf) as F2.
    destruct (define_group_cases f (with_group "snap" xl xm xt xT xI std) "InternalCodeUnits" "code" ltac:(right; reflexivity) NC F2) as [[R2 E2] | E2].
    2: { rewrite E2. right. split; [reflexivity|]. intros [_ [C _]].
         refine (define_group_full f _ "InternalCodeUnits" "code" Hw E2 NC F2 ltac:(right; reflexivity) (C _)).
         intros Hn. unfold define_group in E2. rewrite Hn in E2. discriminate. }
    rewrite E2. cbn [bind]. apply define_group_ok in E2 as [_ E2]; [|exact Hw].
    assert (U : forall m, In m new_names -> std m = None) by exact Hf.
    destruct E2 as [[_ ->]|[yl [ym [yt [yT [yI [_ ->]]]]]]].
    all: do 2 (rewrite define_unit_new by (unfold with_group, put; eqs; apply U; unfold new_names; cbn [In]; tauto); cbn [bind]).
    all: match goal with |- context [unit_system ?r] => assert (EU : exists us, unit_system r "snap_length" "snap_mass" "snap_time" "snap_temperature" "snap_angle" "snap_current" = Ok us)
           by (unfold unit_system, named_unit, with_group, put; eqs; cbn [bind]; eauto) end.
    all: destruct EU as [us ->]; cbn [bind].
    all: destruct (dget_err d1 "parsec") as [[p ->] | E]; [cbn [bind]|rewrite E; right; split; [reflexivity|refine (A1 _ _ E); cbn [In]; tauto]];
         rewrite define_unit_new by (unfold with_group, put; eqs; apply U; unfold new_names; cbn [In]; tauto); cbn [bind].
    all: destruct (dget_err d1 "solar_mass") as [[s ->] | E]; [cbn [bind]|rewrite E; right; split; [reflexivity|refine (A1 _ _ E); cbn [In]; tauto]];
         rewrite define_unit_new by (unfold with_group, put; eqs; apply U; unfold new_names; cbn [In]; tauto); cbn [bind].
    all: destruct (dget_err d1 "newton_G") as [[G ->] | E]; [cbn [bind]|rewrite E; right; split; [reflexivity|refine (A1 _ _ E); cbn [In]; tauto]];
         rewrite define_unit_new by (unfold with_group, put; eqs; apply U; unfold new_names; cbn [In]; tauto); cbn [bind].
    all: left; eauto.
  Qed.
End Cases.

Lemma complete_units f : complete f -> f "Units" <> None.
Proof. intros [C _]. destruct (C "Unit length in cgs (U_L)" ltac:(unfold unit_attrs; cbn [In]; tauto)) as [x Hx]. eapply says_group; exact Hx. Qed.

Lemma registry_iff std f : wf_meta f -> fresh std -> ((exists r, soap_unit_registry_from_snapshot std f = Ok r) <-> numeric f /\ complete f).
Proof.
  intros Hw Hf. split; [intros [r Hr]; eapply registry_complete; eassumption|]. intros [HN HC].
  destruct (registry_cases std f Hw Hf HN (complete_units f HC)) as [H|[_ H]]; [exact H|contradiction].
Qed.
Lemma registry_missing std f : wf_meta f -> fresh std -> numeric f -> f "Units" <> None -> ~ complete f -> soap_unit_registry_from_snapshot std f = Err EKey.
Proof.
  intros Hw Hf HN HU HC. destruct (registry_cases std f Hw Hf HN HU) as [[r Hr]|[H _]]; [|exact H].
  exfalso. apply HC. eapply registry_complete; eassumption.
Qed.
Lemma registry_no_units std f : wf_meta f -> fresh std -> f "Units" = None -> forall r, soap_unit_registry_from_snapshot std f <> Ok r.
Proof. intros Hw Hf HU r Hr. destruct (registry_complete std f r Hw Hf Hr) as [_ HC]. apply (complete_units f HC). exact HU. Qed.

(** ** files *)
Section Files.
  Context {Data Units Cosmo : Type}.
  Variables (std : lut) (SWIFTUnits : list (string * attr) -> list (string * attr) -> list (string * attr) -> res Units)
            (to_astropy : list (string * attr) -> Units -> res Cosmo) (simio_cgs : Units -> sym -> R)
            (h5py_File : list string -> list (string * string) -> res (@h5file Data)).
  Notation snapshot := (swift_snapshot std SWIFTUnits to_astropy h5py_File).
  Notation catalogue := (soap_catalogue std SWIFTUnits to_astropy h5py_File).

  Lemma dget_absent {A} (d : list (string * A)) n : ~ In n (map fst d) -> dget d n = Err EKey.
  Proof using.
    clear. induction d as [|[m x] d IH]; intros H; [reflexivity|]. cbn [dget map fst In] in *.
    destruct (String.eqb_spec m n); [exfalso; tauto|]. apply IH. tauto.
  Qed.
  Lemma others_absent kw n : ~ In n (map fst kw) -> others kw n = kw.
  Proof using.
    clear. induction kw as [|[m x] d IH]; intros H; [reflexivity|]. cbn [others filter fst map In] in *.
    destruct (String.eqb_spec m n); [exfalso; tauto|]. cbn [negb]. f_equal. apply IH. tauto.
  Qed.
  Lemma has_absent kw n : ~ In n (map fst kw) -> has kw n = false.
  Proof using.
    clear. induction kw as [|[m x] d IH]; intros H; [reflexivity|]. cbn [has existsb fst map In] in *.
    destruct (String.eqb_spec m n); [exfalso; tauto|]. apply IH. tauto.
  Qed.

  (** what is attached to the file *)
  Definition opened (obj : @h5file Data) (w : @wobj string Data (@attached Units Cosmo)) (m : mode) : Prop :=
    exists snap c p u reg units cosmo a l,
      f_meta obj "/" = Ok snap /\ soap_unit_registry_from_snapshot std snap = Ok reg /\
      snap "Cosmology" = Some c /\ snap "PhysicalConstants/CGS" = Some p /\ snap "Units" = Some u /\
      SWIFTUnits c p u = Ok units /\ to_astropy c units = Ok cosmo /\ dget c "Scale-factor" = Ok (AArray (a :: l)) /\
      w = WGroup (f_items obj) m {| at_soap := reg; at_simio := units; at_cosmology := cosmo; at_a := a |}.

  Lemma file_opened m args kw w : swift_file std SWIFTUnits to_astropy h5py_File m "/" args kw = Ok w <->
    exists obj, h5py_File args kw = Ok obj /\ opened obj w (mode_of m).
  Proof using.
    unfold swift_file, opened, swiftsimio_cosmology, swiftsimio_units, group. split.
    - intros H. apply bind_ok in H as [obj [Hobj H]]. exists obj. split; [exact Hobj|].
      apply bind_ok in H as [snap [Hsnap H]]. rewrite Hsnap in H. cbn [bind] in H.
      apply bind_ok in H as [reg [Hreg H]].
      destruct (snap "Cosmology") as [c|] eqn:Ec; [|discriminate]. destruct (snap "PhysicalConstants/CGS") as [p|] eqn:Ep; [|discriminate].
      destruct (snap "Units") as [u|] eqn:Eu; [|discriminate]. cbn [get bind] in H.
      apply bind_ok in H as [units [Hun H]]. rewrite Hun in H. cbn [bind] in H.
      apply bind_ok in H as [cosmo [Hco H]]. apply bind_ok in H as [v [Hv H]]. apply bind_ok in H as [a [Ha H]]. injection H as <-.
      destruct v as [|[|x l]|]; cbn [first] in Ha; try discriminate. injection Ha as ->.
      exists snap, c, p, u, reg, units, cosmo, a, l. auto 12.
    - intros [obj [Hobj [snap [c [p [u [reg [units [cosmo [a [l [H1 [H2 [H3 [H4 [H5 [H6 [H7 [H8 ->]]]]]]]]]]]]]]]]]]].
      rewrite Hobj. cbn [bind]. rewrite H1. cbn [bind]. rewrite H2, H3, H4, H5. cbn [get bind]. rewrite H6. cbn [bind]. rewrite H7. cbn [bind]. rewrite H8. reflexivity.
  Qed.

  (** without the keyword mode everything is handed to h5py *)
  Lemma open_plain args kw w : ~ In "mode" (map fst kw) -> ~ In "metadata_path" (map fst kw) ->
    (snapshot args kw = Ok w <-> exists obj, h5py_File args kw = Ok obj /\ opened obj w Soap) /\ catalogue args kw = snapshot args kw.
  Proof using.
    intros H1 H2. split; [|reflexivity]. unfold swift_snapshot, keyword. rewrite dget_absent, others_absent, has_absent by assumption.
    apply file_opened.
  Qed.
  (** with it, the rest is *)
  Lemma open_mode args m kw w : ~ In "mode" (map fst kw) -> ~ In "metadata_path" (map fst kw) ->
    (snapshot args (("mode", m) :: kw) = Ok w <->
     exists obj, h5py_File args kw = Ok obj /\ opened obj w (if m =? "soap" then Soap else if m =? "swiftsimio" then Swiftsimio else OtherMode)) /\
    catalogue args (("mode", m) :: kw) = snapshot args (("mode", m) :: kw).
  Proof using.
    intros H1 H2. split; [|reflexivity]. unfold swift_snapshot, keyword, others. cbn [dget filter fst String.eqb Ascii.eqb Bool.eqb negb].
    fold (others kw "mode"). rewrite others_absent, has_absent by assumption. apply file_opened.
  Qed.
  Lemma open_twice args kw : In "metadata_path" (map fst kw) -> snapshot args kw = Err EType /\ catalogue args kw = Err EType.
  Proof using.
    intros H. assert (E : has (others kw "mode") "metadata_path" = true).
    { clear - H. unfold has. apply existsb_exists. apply in_map_iff in H as [[k v] [Hk Hi]]. cbn in Hk. subst k.
      exists ("metadata_path", v). split; [|reflexivity]. unfold others. apply filter_In. split; [exact Hi|reflexivity]. }
    unfold swift_snapshot, soap_catalogue. rewrite E. auto.
  Qed.

  (** reading a dataset of a file opened *)
  Lemma read_soap obj w snap ks a d e x : opened obj w Soap -> f_meta obj "/" = Ok snap -> wf_meta snap -> fresh std ->
    hwalk (HGroup (f_items obj)) ks = Ok (HDataset a d) -> (forall s, declares a s (e s)) -> physical_cgs a x ->
    exists c u, declared snap c /\ read simio_cgs w ks = Ok (d, u, None) /\ (forall s, expo u s == e s)%Q /\
      (value c u = x \/ (scale u = 1%R /\ agrees (value c u) x)) /\
      (x = product c e -> scale u = 1%R /\ value c u = x).
  Proof using.
    intros [snap' [c [p [u [reg [units [cosmo [a0 [l [H1 [H2 [H3 [H4 [H5 [H6 [H7 [H8 ->]]]]]]]]]]]]]]]]] Hs Hw Hf Hk He Hx.
    rewrite Hs in H1. injection H1 as <-.
    pose proof (registry_declared std snap reg Hw Hf H2) as Hd.
    destruct (soap_total (registry_cgs reg) a (fun s => ex_intro _ (e s) (He s)) (ex_intro _ x Hx)) as [un Hun].
    destruct (soap_ok _ _ _ Hun) as [E [x' [Hx' V]]].
    assert (x' = x) as -> by (clear - Hx Hx'; unfold physical_cgs in *; intuition congruence).
    assert (E' : forall s, (expo un s == e s)%Q).
    { intro s. destruct (E s) as [q [Hq Q]]. rewrite Q. unfold declares in *. rewrite He in Hq. injection Hq as ->. reflexivity. }
    exists (registry_cgs reg), un. split; [exact Hd|]. split.
    - unfold read. match goal with |- context [walk (WGroup _ ?m ?r) _] => destruct (read_path m r (f_items obj) ks a d Hk) as [m' [r' [-> [-> ->]]]] end.
      cbn [bind dataset_getitem at_soap]. rewrite Hun. reflexivity.
    - split; [exact E'|]. split; [exact V|]. intros Hp.
      assert (Hv : value (registry_cgs reg) un = (scale un * x)%R).
      { rewrite Hp. unfold value, product.
        rewrite (Qeq_eqR _ _ (E' SI)), (Qeq_eqR _ _ (E' SL)), (Qeq_eqR _ _ (E' SM)), (Qeq_eqR _ _ (E' ST)), (Qeq_eqR _ _ (E' St)), (Qeq_eqR _ _ (E' Sa)), (Qeq_eqR _ _ (E' Sh)). ring. }
      assert (P : (0 < x)%R) by (rewrite Hp; unfold product; repeat apply Rmult_lt_0_compat; apply Rpower_pos).
      destruct V as [V|[V _]].
      + assert (S : (scale un = 1)%R). { rewrite Hv in V. apply (Rmult_eq_reg_r x); lra. } split; [exact S|exact V].
      + split; [exact V|]. rewrite Hv, V. ring.
  Qed.
  Lemma read_simio obj w snap ks a d : opened obj w Swiftsimio -> f_meta obj "/" = Ok snap ->
    hwalk (HGroup (f_items obj)) ks = Ok (HDataset a d) ->
    exists c p u units, snap "Cosmology" = Some c /\ snap "PhysicalConstants/CGS" = Some p /\ snap "Units" = Some u /\ SWIFTUnits c p u = Ok units /\
      forall out, read simio_cgs w ks = Ok out ->
      exists un com ea, out = (d, un, Some (com, ea)) /\ swiftsimio_units_from_attributes (simio_cgs units) a = Ok (un, com) /\ declares a Sa ea.
  Proof using.
    intros [snap' [c [p [u [reg [units [cosmo [a0 [l [H1 [H2 [H3 [H4 [H5 [H6 [H7 [H8 ->]]]]]]]]]]]]]]]]] Hs Hk.
    rewrite Hs in H1. injection H1 as <-. exists c, p, u, units. repeat (split; [assumption|]). intros out.
    unfold read. match goal with |- context [walk (WGroup _ ?m ?r) _] => destruct (read_path m r (f_items obj) ks a d Hk) as [m' [r' [-> [-> ->]]]] end.
    cbn [bind]. intros H.
    apply (proj1 (proj2 (read_modes (fun r => registry_cgs (at_soap r)) (fun r => simio_cgs (at_simio r)) a d _))) in H. exact H.
  Qed.
  Lemma read_other obj w ks a d : opened obj w OtherMode -> hwalk (HGroup (f_items obj)) ks = Ok (HDataset a d) -> read simio_cgs w ks = Err EValue.
  Proof using.
    intros [snap' [c [p [u [reg [units [cosmo [a0 [l [H1 [H2 [H3 [H4 [H5 [H6 [H7 [H8 ->]]]]]]]]]]]]]]]]] Hk.
    unfold read. match goal with |- context [walk (WGroup _ ?m ?r) _] => destruct (read_path m r (f_items obj) ks a d Hk) as [m' [r' [-> [-> ->]]]] end.
    reflexivity.
  Qed.

  (** units by name, from any group of the file *)
  Lemma group_unit obj w m snap ks g w' : opened obj w m -> f_meta obj "/" = Ok snap -> wf_meta snap -> fresh std ->
    hwalk (HGroup (f_items obj)) ks = Ok (HGroup g) -> walk w ks = Ok w' ->
    forall n v d, get_unit w' n = Ok (v, d) <-> unit_of snap n v d \/ std n = Some (v, d).
  Proof using.
    intros [snap' [c [p [u [reg [units [cosmo [a0 [l [H1 [H2 [H3 [H4 [H5 [H6 [H7 [H8 ->]]]]]]]]]]]]]]]]] Hs Hw Hf Hk Hw' n v d.
    rewrite Hs in H1. injection H1 as <-.
    match type of Hw' with walk (WGroup _ ?m ?r) _ = _ => pose proof (walk_wrap m r (HGroup (f_items obj)) ks) as E end.
    cbn [wrap] in E. rewrite E, Hk in Hw'. cbn [bind wrap] in Hw'. injection Hw' as <-.
    cbn [get_unit at_soap]. rewrite <- (registry_units std snap reg Hw Hf H2). unfold named_unit.
    destruct (r_lut reg n); split; congruence.
  Qed.

  (** ** the statements *)
  Lemma snapshot_defined args kw obj snap c p u units cosmo a : ~ In "mode" (map fst kw) -> ~ In "metadata_path" (map fst kw) ->
    h5py_File args kw = Ok obj -> f_meta obj "/" = Ok snap -> wf_meta snap -> fresh std -> numeric snap -> complete snap ->
    snap "Cosmology" = Some c -> snap "PhysicalConstants/CGS" = Some p -> snap "Units" = Some u ->
    SWIFTUnits c p u = Ok units -> to_astropy c units = Ok cosmo -> In ("Scale-factor", AArray [a]) c ->
    exists w, snapshot args kw = Ok w /\ catalogue args kw = Ok w.
  Proof using.
    intros K1 K2 Ho Hs Hw Hf HN HC E1 E2 E3 E4 E5 Ha.
    destruct (proj2 (registry_iff std snap Hw Hf) (conj HN HC)) as [reg Hreg].
    assert (Hd : dget c "Scale-factor" = Ok (AArray [a])) by (apply dget_in; [exact (Hw _ _ E1)|exact Ha]).
    eexists. destruct (open_plain args kw (WGroup (f_items obj) Soap {| at_soap := reg; at_simio := units; at_cosmology := cosmo; at_a := a |}) K1 K2) as [H ->].
    assert (E : snapshot args kw = Ok (WGroup (f_items obj) Soap {| at_soap := reg; at_simio := units; at_cosmology := cosmo; at_a := a |})).
    { apply H. exists obj. split; [exact Ho|]. exists snap, c, p, u, reg, units, cosmo, a, []. auto 12. }
    split; exact E.
  Qed.
  Lemma snapshot_needs args kw w obj snap : ~ In "mode" (map fst kw) -> ~ In "metadata_path" (map fst kw) ->
    snapshot args kw = Ok w \/ catalogue args kw = Ok w -> h5py_File args kw = Ok obj -> f_meta obj "/" = Ok snap -> wf_meta snap -> fresh std ->
    numeric snap /\ complete snap /\ exists c a l, snap "Cosmology" = Some c /\ In ("Scale-factor", AArray (a :: l)) c.
  Proof using.
    intros K1 K2 H Ho Hs Hw Hf. destruct (open_plain args kw w K1 K2) as [HO Hc]. rewrite Hc in H.
    assert (H' : snapshot args kw = Ok w) by tauto. apply HO in H' as [obj' [Ho' H']]. rewrite Ho in Ho'. injection Ho' as <-.
    destruct H' as [snap' [c [p [u [reg [units [cosmo [a0 [l [H1 [H2 [H3 [H4 [H5 [H6 [H7 [H8 ->]]]]]]]]]]]]]]]]].
    rewrite Hs in H1. injection H1 as <-. destruct (registry_complete std snap reg Hw Hf H2) as [HN HC].
    split; [exact HN|]. split; [exact HC|]. exists c, a0, l. split; [exact H3|]. apply dget_in; [exact (Hw _ _ H3)|exact H8].
  Qed.
  Lemma snapshot_read args kw w obj snap ks a d e x : ~ In "mode" (map fst kw) -> ~ In "metadata_path" (map fst kw) ->
    snapshot args kw = Ok w \/ catalogue args kw = Ok w -> h5py_File args kw = Ok obj -> f_meta obj "/" = Ok snap -> wf_meta snap -> fresh std ->
    hwalk (HGroup (f_items obj)) ks = Ok (HDataset a d) -> (forall s, declares a s (e s)) -> physical_cgs a x ->
    exists c u, declared snap c /\ read simio_cgs w ks = Ok (d, u, None) /\ (forall s, expo u s == e s)%Q /\
      (value c u = x \/ (scale u = 1%R /\ agrees (value c u) x)) /\
      (x = product c e -> scale u = 1%R /\ value c u = x).
  Proof using.
    intros K1 K2 H Ho Hs Hw Hf Hk He Hx. destruct (open_plain args kw w K1 K2) as [HO Hc]. rewrite Hc in H.
    assert (H' : snapshot args kw = Ok w) by tauto. apply HO in H' as [obj' [Ho' H']]. rewrite Ho in Ho'. injection Ho' as <-.
    eapply read_soap; eassumption.
  Qed.
  Lemma snapshot_simio args kw w obj snap ks a d out : ~ In "mode" (map fst kw) -> ~ In "metadata_path" (map fst kw) ->
    snapshot args (("mode", "swiftsimio") :: kw) = Ok w \/ catalogue args (("mode", "swiftsimio") :: kw) = Ok w ->
    h5py_File args kw = Ok obj -> f_meta obj "/" = Ok snap ->
    hwalk (HGroup (f_items obj)) ks = Ok (HDataset a d) -> read simio_cgs w ks = Ok out ->
    exists c p u units un com ea, snap "Cosmology" = Some c /\ snap "PhysicalConstants/CGS" = Some p /\ snap "Units" = Some u /\ SWIFTUnits c p u = Ok units /\
      out = (d, un, Some (com, ea)) /\ swiftsimio_units_from_attributes (simio_cgs units) a = Ok (un, com) /\ declares a Sa ea.
  Proof using.
    intros K1 K2 H Ho Hs Hk Hr. destruct (open_mode args "swiftsimio" kw w K1 K2) as [HO Hc]. rewrite Hc in H.
    assert (H' : snapshot args (("mode", "swiftsimio") :: kw) = Ok w) by tauto. apply HO in H' as [obj' [Ho' H']]. rewrite Ho in Ho'. injection Ho' as <-.
    cbn [String.eqb Ascii.eqb Bool.eqb] in H'.
    destruct (read_simio obj w snap ks a d H' Hs Hk) as [c [p [u [units [E1 [E2 [E3 [E4 E]]]]]]]].
    destruct (E out Hr) as [un [com [ea [F1 [F2 F3]]]]]. exists c, p, u, units, un, com, ea. auto 10.
  Qed.
  Lemma snapshot_other args m kw w obj ks a d : ~ In "mode" (map fst kw) -> ~ In "metadata_path" (map fst kw) -> m <> "soap" -> m <> "swiftsimio" ->
    snapshot args (("mode", m) :: kw) = Ok w \/ catalogue args (("mode", m) :: kw) = Ok w ->
    h5py_File args kw = Ok obj -> hwalk (HGroup (f_items obj)) ks = Ok (HDataset a d) -> read simio_cgs w ks = Err EValue.
  Proof using.
    intros K1 K2 N1 N2 H Ho Hk. destruct (open_mode args m kw w K1 K2) as [HO Hc]. rewrite Hc in H.
    assert (H' : snapshot args (("mode", m) :: kw) = Ok w) by tauto. apply HO in H' as [obj' [Ho' H']]. rewrite Ho in Ho'. injection Ho' as <-.
    apply String.eqb_neq in N1, N2. rewrite N1, N2 in H'. eapply read_other; eassumption.
  Qed.
  (** the word given for mode changes nothing of the call of h5py.File *)
  Lemma snapshot_mode_taken args m m' kw : ~ In "mode" (map fst kw) -> ~ In "metadata_path" (map fst kw) ->
    (exists w, snapshot args (("mode", m) :: kw) = Ok w) <-> (exists w, snapshot args (("mode", m') :: kw) = Ok w).
  Proof using.
    intros K1 K2. assert (G : forall q q', (exists w, snapshot args (("mode", q) :: kw) = Ok w) -> exists w, snapshot args (("mode", q') :: kw) = Ok w).
    { intros q q' [w Hw]. apply (open_mode args q kw w K1 K2) in Hw as [obj [Ho [snap' [c [p [u [reg [units [cosmo [a0 [l [H1 [H2 [H3 [H4 [H5 [H6 [H7 [H8 _]]]]]]]]]]]]]]]]]]].
      eexists. apply (open_mode args q' kw _ K1 K2). exists obj. split; [exact Ho|].
      exists snap', c, p, u, reg, units, cosmo, a0, l. repeat (split; [eassumption|]). reflexivity. }
    split; apply G.
  Qed.
  Lemma snapshot_unit args kw w obj snap ks g w' : ~ In "mode" (map fst kw) -> ~ In "metadata_path" (map fst kw) ->
    snapshot args kw = Ok w \/ catalogue args kw = Ok w -> h5py_File args kw = Ok obj -> f_meta obj "/" = Ok snap -> wf_meta snap -> fresh std ->
    hwalk (HGroup (f_items obj)) ks = Ok (HGroup g) -> walk w ks = Ok w' ->
    forall n v d, get_unit w' n = Ok (v, d) <-> unit_of snap n v d \/ std n = Some (v, d).
  Proof using.
    intros K1 K2 H Ho Hs Hw Hf Hk Hk'. destruct (open_plain args kw w K1 K2) as [HO Hc]. rewrite Hc in H.
    assert (H' : snapshot args kw = Ok w) by tauto. apply HO in H' as [obj' [Ho' H']]. rewrite Ho in Ho'. injection Ho' as <-.
    exact (group_unit obj w Soap snap ks g w' H' Hs Hw Hf Hk Hk').
  Qed.
  (** a file with an absent attribute *)
  Lemma snapshot_missing args kw obj snap : ~ In "mode" (map fst kw) -> ~ In "metadata_path" (map fst kw) ->
    h5py_File args kw = Ok obj -> f_meta obj "/" = Ok snap -> wf_meta snap -> fresh std -> numeric snap -> snap "Units" <> None -> ~ complete snap ->
    snapshot args kw = Err EKey /\ catalogue args kw = Err EKey.
  Proof using.
    intros K1 K2 Ho Hs Hw Hf HN HU HC. destruct (open_plain args kw (WOther) K1 K2) as [_ ->].
    assert (E : snapshot args kw = Err EKey); [|split; exact E].
    unfold swift_snapshot, keyword. rewrite dget_absent, others_absent, has_absent by assumption.
    unfold swift_file. rewrite Ho. cbn [bind]. rewrite Hs. cbn [bind]. rewrite registry_missing by assumption. reflexivity.
  Qed.
  (** what is attached to the objects of the file *)
  Lemma snapshot_attached args m kw w obj snap ks o r : ~ In "mode" (map fst kw) -> ~ In "metadata_path" (map fst kw) ->
    snapshot args (("mode", m) :: kw) = Ok w \/ catalogue args (("mode", m) :: kw) = Ok w -> h5py_File args kw = Ok obj -> f_meta obj "/" = Ok snap -> wf_meta snap ->
    walk w ks = Ok o -> (exists a d m', o = WDataset a d m' r) \/ (exists g m', o = WGroup g m' r) ->
    exists c p u a l, snap "Cosmology" = Some c /\ snap "PhysicalConstants/CGS" = Some p /\ snap "Units" = Some u /\ In ("Scale-factor", AArray (a :: l)) c /\
      at_a r = a /\ SWIFTUnits c p u = Ok (at_simio r) /\ to_astropy c (at_simio r) = Ok (at_cosmology r).
  Proof using.
    intros K1 K2 H Ho Hs Hw Hk Hr. destruct (open_mode args m kw w K1 K2) as [HO Hc]. rewrite Hc in H.
    assert (H' : snapshot args (("mode", m) :: kw) = Ok w) by tauto. apply HO in H' as [obj' [Ho' H']]. rewrite Ho in Ho'. injection Ho' as <-.
    destruct H' as [snap' [c [p [u [reg [units [cosmo [a0 [l [H1 [H2 [H3 [H4 [H5 [H6 [H7 [H8 ->]]]]]]]]]]]]]]]]].
    rewrite Hs in H1. injection H1 as <-.
    match type of Hk with walk (WGroup _ ?m ?r) _ = _ => pose proof (walk_wrap m r (HGroup (f_items obj)) ks) as E; cbn [wrap] in E; rewrite E in Hk; set (r0 := r) in * end.
    apply bind_ok in Hk as [h [_ Hh]]. assert (r = r0) as ->.
    { destruct Hr as [[a [d [m' ->]]]|[g [m' ->]]]; destruct h; cbn [wrap] in Hh; congruence. }
    exists c, p, u, a0, l. repeat (split; [assumption|]). split; [apply dget_in; [exact (Hw _ _ H3)|exact H8]|]. subst r0. cbn [at_a at_simio at_cosmology]. auto.
  Qed.
End Files.

(** ** a concrete file *)
Definition ex_units (l : R) : list (string * attr) :=
  [("Unit current in cgs (U_I)", AArray [1%R]); ("Unit length in cgs (U_L)", AArray [l]); ("Unit mass in cgs (U_M)", AArray [2%R]);
   ("Unit temperature in cgs (U_T)", AArray [1%R]); ("Unit time in cgs (U_t)", AArray [5%R])].
Definition ex_cosmology : list (string * attr) := [("Redshift", AArray [1%R]); ("Scale-factor", AArray [(1 / 2)%R]); ("h", AArray [(7 / 10)%R])].
Definition ex_constants : list (string * attr) := [("newton_G", AArray [6%R]); ("parsec", AArray [3%R]); ("solar_mass", AArray [4%R]); ("speed_light_c", AScalar 8%R)].
Definition ex_meta (more : list (string * attr)) : meta := fun g =>
  if g =? "Units" then Some (ex_units 3%R) else if g =? "InternalCodeUnits" then Some (ex_units 7%R)
  else if g =? "Cosmology" then Some (more ++ ex_cosmology)%list else if g =? "PhysicalConstants/CGS" then Some ex_constants else None.
Definition no_units : lut := fun _ => None.
Definition neutrinos : list (string * attr) := [("M_nu_eV", AArray [0%R; 0%R; (6 / 100)%R])].

Ltac nodup := unfold ex_units, ex_cosmology, ex_constants, neutrinos; cbn [map fst app]; repeat (apply NoDup_cons; [cbn [In]; intuition discriminate|]); apply NoDup_nil.
Lemma ex_wf more : more = [] \/ more = neutrinos -> wf_meta (ex_meta more).
Proof.
  intros Hm g l. unfold ex_meta. destruct (g =? "Units"); [intros [= <-]; nodup|]. destruct (g =? "InternalCodeUnits"); [intros [= <-]; nodup|].
  destruct (g =? "Cosmology"); [intros [= <-]; destruct Hm; subst more; nodup|]. destruct (g =? "PhysicalConstants/CGS"); [intros [= <-]; nodup|discriminate].
Qed.
Lemma ex_fresh : fresh no_units.
Proof. intros n _. reflexivity. Qed.
Ltac here := unfold says; eexists; eexists; eexists; (split; [reflexivity|]); cbn [In app ex_units ex_cosmology ex_constants neutrinos ex_meta String.eqb Ascii.eqb Bool.eqb];
  split; [|right; reflexivity]; tauto.
Lemma ex_complete more : more = [] \/ more = neutrinos -> complete (ex_meta more).
Proof.
  intros Hm. unfold complete, unit_attrs. split; [|split; [intros _|split]]; intros n Hn; cbn [In] in Hn.
  - destruct Hn as [<-|[<-|[<-|[<-|[<-|[]]]]]]; here.
  - destruct Hn as [<-|[<-|[<-|[<-|[<-|[]]]]]]; here.
  - destruct Hm; subst more; destruct Hn as [<-|[<-|[]]]; here.
  - destruct Hn as [<-|[<-|[<-|[]]]]; here.
Qed.
Lemma ex_numeric : numeric (ex_meta []).
Proof.
  intros g Hg l n v. unfold metadata_groups in Hg. cbn [In] in Hg.
  destruct Hg as [<-|[<-|[<-|[<-|[]]]]]; unfold ex_meta; cbn [String.eqb Ascii.eqb Bool.eqb app]; intros [= <-] Hi; unfold ex_units, ex_cosmology, ex_constants in Hi; cbn [In] in Hi;
    repeat destruct Hi as [Hi|Hi]; try contradiction; injection Hi as <- <-; unfold is_number; eauto.
Qed.
(** masses of neutrinos, an array of three which nothing uses *)
Lemma array_refuted : ~ (forall std f, fresh std -> wf_meta f -> complete f -> exists r, soap_unit_registry_from_snapshot std f = Ok r).
Proof.
  intros H. destruct (H no_units (ex_meta neutrinos) ex_fresh (ex_wf _ (or_intror eq_refl)) (ex_complete _ (or_intror eq_refl))) as [r Hr].
  destruct (registry_complete _ _ _ (ex_wf _ (or_intror eq_refl)) ex_fresh Hr) as [HN _].
  destruct (HN "Cosmology" ltac:(unfold metadata_groups; cbn [In]; tauto) (neutrinos ++ ex_cosmology)%list "M_nu_eV" (AArray [0%R; 0%R; (6 / 100)%R])) as [x [Hx|Hx]];
    [reflexivity|left; reflexivity|discriminate|discriminate].
Qed.
(** with one dataset *)
Definition ex_obj : @h5file Z := {| f_items := fun k => if k =? "PartType1" then Ok (HGroup (fun _ => Ok (HDataset (ex_attrs 1) 42))) else Err EKey;
                                    f_meta := fun p => if p =? "/" then Ok (ex_meta []) else Err EKey |}.
