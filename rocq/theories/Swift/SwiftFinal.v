(** The statements about reading, and a concrete dataset. *)
From Coq Require Import QArith Qreals Reals Lra.
From Verif Require Import Base.Prelude Swift.SwiftModel Swift.SwiftSpec Swift.SwiftProofs.
Local Open Scope Z_scope.

Section Read.
  Context {Key Data Reg : Type}.
  Variables (soap_cgs simio_cgs : Reg -> sym -> R).

  (** a dataset found by following any keys from the file is read with the mode and the
      metadata of the file, and with its own attributes and data *)
  Lemma read_path m (r : Reg) (g : Key -> res (@hobj Key Data)) ks a d :
    hwalk (HGroup g) ks = Ok (HDataset a d) ->
    exists m' r', walk (WGroup g m r) ks = Ok (WDataset a d m' r') /\ m' = m /\ r' = r.
  Proof using.
    intros H. exists m, r. pose proof (walk_wrap m r (HGroup g) ks) as E. cbn [wrap] in E. rewrite E, H. split; [reflexivity|]. split; reflexivity.
  Qed.
  Lemma read_path_conv m (r : Reg) (g : Key -> res (@hobj Key Data)) ks a d m' r' :
    walk (WGroup g m r) ks = Ok (WDataset a d m' r') ->
    hwalk (HGroup g) ks = Ok (HDataset a d) /\ m' = m /\ r' = r.
  Proof using.
    pose proof (walk_wrap m r (HGroup g) ks) as E. cbn [wrap] in E. rewrite E. destruct (hwalk (HGroup g) ks) as [o|e]; cbn [bind]; [|discriminate].
    intros H. destruct o; cbn [wrap] in H; try discriminate. injection H as <- <- <- <-. auto.
  Qed.
  Lemma read_path_error m (r : Reg) (g : Key -> res (@hobj Key Data)) ks e :
    hwalk (HGroup g) ks = Err e -> walk (WGroup g m r) ks = Err e.
  Proof using. intros H. pose proof (walk_wrap m r (HGroup g) ks) as E. cbn [wrap] in E. rewrite E, H. reflexivity. Qed.

  Lemma read_modes a (d : Data) (r : Reg) :
    (forall out, dataset_getitem soap_cgs simio_cgs a d Soap r = Ok out ->
       exists u, out = (d, u, None) /\ soap_units_from_attributes (soap_cgs r) a = Ok u) /\
    (forall out, dataset_getitem soap_cgs simio_cgs a d Swiftsimio r = Ok out ->
       exists u c e, out = (d, u, Some (c, e)) /\ swiftsimio_units_from_attributes (simio_cgs r) a = Ok (u, c) /\ declares a Sa e) /\
    dataset_getitem soap_cgs simio_cgs a d OtherMode r = Err EValue.
  Proof using.
    unfold dataset_getitem, declares. split; [|split; [|reflexivity]]; intros out H.
    - apply bind_ok in H as [u [H1 H]]. injection H as <-. eauto.
    - apply bind_ok in H as [[u c] [H1 H]]. apply bind_ok in H as [e [He H]]. injection H as <-.
      exists u, c, e. split; [reflexivity|]. split; [exact H1|]. unfold get in He. destruct (a_exp a Sa); [congruence|discriminate].
  Qed.
End Read.

(** a length in units twice the base unit *)
Definition ex_attrs (ea : Q) : attrs :=
  {| a_exp := fun s => Some (match s with SL => 1%Q | Sa => ea | _ => 0%Q end); a_phys := None; a_cosmo := Some 6%R; a_nocosmo := Some 3%R |}.
Definition ex_cgs (s : sym) : R := match s with SL => 3%R | _ => 1%R end.
Lemma value_ex u : (expo u SL == 1)%Q -> (value ex_cgs u = scale u * 3)%R.
Proof.
  intros H. unfold value, ex_cgs. rewrite !Rpower_1_l. rewrite (Qeq_eqR _ _ H).
  replace (Q2R 1) with 1%R by (unfold Q2R; cbn; lra). rewrite Rpower_1 by lra. ring.
Qed.
Lemma ex_soap_lemma : exists u, soap_units_from_attributes ex_cgs (ex_attrs 0) = Ok u /\ (expo u SL == 1)%Q /\ (expo u Sa == 0)%Q /\ scale u = 2%R.
Proof.
  destruct (soap_total ex_cgs (ex_attrs 0)) as [u Hu].
  - intro s. eexists. reflexivity.
  - exists 6%R. right. split; reflexivity.
  - exists u. split; [exact Hu|]. destruct (soap_ok _ _ _ Hu) as [D [x [Hx Hv]]].
    destruct (D SL) as [e [De He]]. injection De as <-. destruct (D Sa) as [ea [Dea Hea]]. injection Dea as <-.
    split; [exact He|]. split; [exact Hea|].
    assert (x = 6%R) as -> by (destruct Hx as [Hx|[_ Hx]]; [discriminate Hx|injection Hx; auto]).
    destruct Hv as [Hv|[Hs Hv]]; [rewrite (value_ex _ He) in Hv; lra|].
    exfalso. unfold agrees in Hv. rewrite (value_ex _ He), Hs in Hv. replace (6 - 1 * 3)%R with 3%R in Hv by lra.
    rewrite Rabs_pos_eq in Hv by lra. lra.
Qed.
Lemma ex_simio_lemma : exists u, swiftsimio_units_from_attributes ex_cgs (ex_attrs 1) = Ok (u, true).
Proof.
  pose proof (simio_total ex_cgs (ex_attrs 1) (fun s => match s with SL => 1%Q | Sa => 1%Q | _ => 0%Q end) 3%R ltac:(reflexivity) ltac:(reflexivity)) as H.
  exact H.
Qed.
Lemma ex_refused_lemma : swiftsimio_units_from_attributes ex_cgs (ex_attrs 2) = Err EValue.
Proof.
  exact (simio_total ex_cgs (ex_attrs 2) (fun s => match s with SL => 1%Q | Sa => 2%Q | _ => 0%Q end) 3%R ltac:(reflexivity) ltac:(reflexivity)).
Qed.
