(** Proofs about the routines which tell what is in a file. *)
From Coq Require Import Ascii String.
From Verif Require Import Base.Prelude Base.ListLemmas Text.StrModel H5w.H5wModel H5w.H5wSpec H5w.H5wAttrSpec H5w.H5wTable H5w.H5wFiles H5w.H5wArray H5w.H5wPath H5w.H5wHeap H5w.H5wCache H5w.H5wRead H5w.H5wView H5w.H5wGroup H5w.H5wWrite H5w.H5wAttr.
From Coq Require Import ZifyBool ZifyNat.
Local Open Scope Z_scope.
Local Open Scope list_scope.

Lemma int4_small z : small z -> int4 z = z.
Proof. intros [A B]. unfold int4. rewrite Z.mod_small; lia. Qed.
Lemma give_dims_ok dims s : (List.length dims <= 10)%nat -> Forall small dims -> give_dims dims s = Go dims s.
Proof.
  intros L S. unfold give_dims, zlen. replace (10 <? Z.of_nat (List.length dims)) with false by lia. unfold ret. f_equal. clear L. induction S as [|z l Hz _ IH]; [reflexivity|]. cbn [map]. now rewrite int4_small, IH.
Qed.
Lemma attr_name_resolve h n p c : attr_name n p c -> good_part c -> resolve h 0 n = walk h 0 (p ++ [c]).
Proof.
  intros ((Nc & NS & Lc) & G & k & loc & -> & HL) Gc. destruct p as [|y p].
  - subst loc. cbn [app]. assert (names (slash :: c ++ repeat " "%char k) [c]) as N. { split; [discriminate|]. split; [exact (Forall_cons _ Gc (Forall_nil _))|]. exists k. right. reflexivity. }
    rewrite <- (names_resolve h 0 _ _ N). unfold resolve.
    assert (trim (slash :: c ++ repeat " "%char k) = slash :: c) as ->. { change (slash :: c ++ repeat " "%char k) with ((slash :: c) ++ repeat " "%char k). rewrite trim_app_blanks. apply trim_id. change (slash :: c) with ([slash] ++ c). now rewrite last_app. }
    assert (trim (slash :: slash :: c ++ repeat " "%char k) = slash :: slash :: c) as ->. { change (slash :: slash :: c ++ repeat " "%char k) with ((slash :: slash :: c) ++ repeat " "%char k). rewrite trim_app_blanks. apply trim_id. change (slash :: slash :: c) with ([slash; slash] ++ c). now rewrite last_app. }
    now rewrite steps_slash.
  - apply names_resolve. split; [now destruct p|]. split; [apply Forall_app; split; [exact G|exact (Forall_cons _ Gc (Forall_nil _))]|]. exists k. rewrite spell_snoc by discriminate. rewrite <- !app_assoc. destruct HL as [-> | ->]; [left|right]; reflexivity.
Qed.
Lemma not_dset h p : sound h -> (forall d l, ~ holds h p (ADset d) l) -> match walk h 0 p with Some b => dset_at h b = None | None => True end.
Proof.
  intros S N. destruct (walk h 0 p) as [b|] eqn:W; [|exact I]. unfold dset_at. destruct (nth_error h b) as [o|] eqn:E; [|reflexivity]. destruct (o_node o) as [|d] eqn:O; [reflexivity|].
  exfalso. apply (N d (o_attrs o)). apply (holds_walk _ _ _ _ S). exists b, o. rewrite O. auto.
Qed.
Section Call.
  Context (cv : ty -> ty -> option (elt -> elt)) (s0 s : wst) (t : list (call * result)) (h : Z) (f : str) (ro : bool) (fl : dfile).
  Hypotheses (F : fresh s0) (S0 : sound_files s0) (H : history cv s0 t s) (SC : forall c r, In (c, r) t -> sound_call c) (Cu : current t h = Some (f, ro)) (Ed : assoc f (disk s) = Some fl).
  Lemma sound_here : sound (heap fl).
  Proof. exact (sound_history _ _ _ _ F S0 H SC f fl Ed). Qed.
  Lemma slot_here {A} (g : slot -> M A) : exists x, (let! y := open_slot h in g y) s = g x s /\ forall B (k : str * dfile -> M B), (let! nf := file_of (s_id x) in k nf) s = k (f, fl) s.
  Proof.
    pose proof (inv_history _ _ _ _ F H) as I. destruct (current_slot _ _ _ _ _ I Cu) as (J & R & x & Hx & P & Q & Nm & Z). exists x. split; [exact (bind_step _ _ _ _ _ (open_slot_ok _ _ _ R Hx P))|].
    intros B k. exact (bind_step _ _ _ _ _ (file_of_ok _ _ _ _ _ Z Ed)).
  Qed.
  Lemma c95_dataset n q d l : names n q -> holds (heap fl) q (ADset d) l ->
    ((List.length (d_dims d) <= 10)%nat -> Forall small (d_dims d) -> run cv (CDims h n) s = Go (RDims (d_dims d)) s) /\
    run cv (CType h n) s = Go (RType (class_name (t_class (d_ty d)), t_size (d_ty d))) s.
  Proof.
    intros Nn Hq. pose proof sound_here as Sf. apply holds_walk in Hq as (b & o & W & E & K & _); [|exact Sf].
    assert (dset_at (heap fl) b = Some d) as Ds. { unfold dset_at. rewrite E. destruct (o_node o); [discriminate K|]. cbn in K. congruence. }
    assert (dopen (heap fl) n = Some b) as Do by (now rewrite (dopen_names _ _ _ Nn), W, Ds). split.
    - intros L Sm. cbn [run]. unfold fmap, get_dimensions. unfold mbind at 1. destruct (slot_here (fun x => let! nf := file_of (s_id x) in match dopen (heap (snd nf)) n with Some a => let! d := of_option (dset_at (heap (snd nf)) a) in give_dims (d_dims d) | None => let! p := of_option (attr_place 200 (heap (snd nf)) n) in let! a := of_option (assoc (snd p) (attrs_at (heap (snd nf)) (fst p))) in give_dims (a_dims a) end)) as (x & -> & Fi).
      rewrite Fi. cbn [snd]. rewrite Do, Ds. cbn [of_option]. rewrite (bind_step _ _ _ d s) by reflexivity. now rewrite give_dims_ok.
    - cbn [run]. unfold fmap, get_type. unfold mbind at 1.
      match goal with |- context [(let! y := open_slot h in @?g y) s] => destruct (slot_here g) as (x & -> & Fi) end. rewrite Fi. cbn [snd]. rewrite Do, Ds. cbn [of_option].
      unfold class_name. destruct (t_class (d_ty d)) eqn:C; cbn; unfold mbind, ret; rewrite C; reflexivity.
  Qed.
  Lemma c95_attribute n p c : attr_name n p c -> good_part c -> (List.length (spell p) <= 199)%nat -> (List.length c <= 200)%nat -> (forall d l, ~ holds (heap fl) (p ++ [c]) (ADset d) l) ->
    (forall a, attribute_at (heap fl) p c a -> ((List.length (a_dims a) <= 10)%nat -> Forall small (a_dims a) -> run cv (CDims h n) s = Go (RDims (a_dims a)) s) /\ run cv (CType h n) s = Go (RType (class_name (t_class (a_ty a)), t_size (a_ty a))) s) /\
    ((forall a, ~ attribute_at (heap fl) p c a) -> run cv (CDims h n) s = Stop s /\ run cv (CType h n) s = Stop s).
  Proof.
    intros An Gc Lp Lc ND. pose proof sound_here as Sf. assert (dopen (heap fl) n = None) as Do. { unfold dopen. rewrite (attr_name_resolve _ _ _ _ An Gc). pose proof (not_dset _ _ Sf ND) as K. destruct (walk (heap fl) 0 (p ++ [c])); [now rewrite K|reflexivity]. }
    pose proof (attr_place_spec 200 (heap fl) n p c Sf An ltac:(lia) Lc) as Pl. cbn [run]. unfold fmap, get_dimensions, get_type.
    assert (forall (A : Type) (g : str * dfile -> M A), (let! y := open_slot h in let! nf := file_of (s_id y) in g nf) s = g (f, fl) s) as Hd. { intros A g. destruct (slot_here (fun y => let! nf := file_of (s_id y) in g nf)) as (x & -> & Fi). apply Fi. }
    split.
    - intros a (x & l & Hx & Ea). apply holds_walk in Hx as (b & o & W & E & _ & <-); [|exact Sf]. rewrite W in Pl. assert (attrs_at (heap fl) b = o_attrs o) as At by (unfold attrs_at; now rewrite E). split.
      + intros L Sm. unfold mbind at 1. rewrite Hd. cbn [snd]. rewrite Do, Pl. cbn [of_option]. rewrite (bind_step _ _ _ (b, c) s) by reflexivity. cbn [fst snd]. rewrite At, Ea. cbn [of_option]. rewrite (bind_step _ _ _ a s) by reflexivity. now rewrite give_dims_ok.
      + unfold mbind at 1. rewrite Hd. cbn [snd]. rewrite Do, Pl. cbn [of_option]. unfold mbind, ret. cbn [fst snd]. rewrite At, Ea. cbn [of_option ret]. unfold class_name. destruct (t_class (a_ty a)); reflexivity.
    - intro No. assert (match walk (heap fl) 0 p with Some b => assoc c (attrs_at (heap fl) b) = None | None => True end) as K.
      { destruct (walk (heap fl) 0 p) as [b|] eqn:W; [|exact I]. unfold attrs_at. destruct (nth_error (heap fl) b) as [o|] eqn:E; [|reflexivity]. destruct (assoc c (o_attrs o)) as [a|] eqn:Ea; [|reflexivity]. exfalso. apply (No a).
        exists (kind (o_node o)), (o_attrs o). split; [|exact Ea]. apply (holds_walk _ _ _ _ Sf). exists b, o. auto. }
      split; unfold mbind at 1; rewrite Hd; cbn [snd]; rewrite Do, Pl; (destruct (walk (heap fl) 0 p) as [b|]; [|reflexivity]); cbn [of_option]; unfold mbind, ret; cbn [fst snd]; rewrite K; reflexivity.
  Qed.
  Lemma c95_missing n c : names n [c] -> (forall d l, ~ holds (heap fl) [c] (ADset d) l) -> run cv (CDims h n) s = Stop s /\ run cv (CType h n) s = Stop s.
  Proof.
    intros Nn ND. pose proof sound_here as Sf. assert (dopen (heap fl) n = None) as Do. { rewrite (dopen_names _ _ _ Nn). pose proof (not_dset _ _ Sf ND) as K. destruct (walk (heap fl) 0 [c]); [now rewrite K|reflexivity]. }
    pose proof (names_split n [] c Nn) as LS. cbn iota in LS.
    assert (attr_place 200 (heap fl) n = None) as Pl.
    { unfold attr_place. destruct (last_slash n =? 0) eqn:L0; [reflexivity|]. replace (upto n (last_slash n - 1)) with (@nil ascii); [reflexivity|]. unfold upto. replace (Z.to_nat _) with 0%nat by lia. reflexivity. }
    assert (forall (A : Type) (g : str * dfile -> M A), (let! y := open_slot h in let! nf := file_of (s_id y) in g nf) s = g (f, fl) s) as Hd. { intros A g. destruct (slot_here (fun y => let! nf := file_of (s_id y) in g nf)) as (x & -> & Fi). apply Fi. }
    cbn [run]. unfold fmap, get_dimensions, get_type. split; unfold mbind at 1; rewrite Hd; cbn [snd]; rewrite Do, Pl; reflexivity.
  Qed.

  Lemma give_names cut len P cs (found : list str) old : NoDup cs -> (forall c, In c cs <-> P c) -> enough P old -> found = map (fun c => fit len (if cut : bool then fit 500 c else c)) cs ->
    exists r, match old with None => ret (zlen found, None) | Some o => if zlen o <? zlen found then wild else ret (zlen found, Some (write_at o 0 found)) end s = Go r s /\ listing cut len P r old.
  Proof.
    intros ND Pc En ->. set (g := fun c => fit len (if cut then fit 500 c else c)). rewrite !zlen_map. destruct old as [o|].
    - assert (zlen cs <= zlen o) as L by (apply (En o cs eq_refl ND); intros c Hc; now apply Pc). replace (zlen o <? zlen cs) with false by lia. eexists. split; [reflexivity|]. exists cs. split; [exact ND|]. split; [exact Pc|]. split; [reflexivity|].
      cbn [snd]. destruct (write_at_start (map g cs) o) as (B1 & B2 & B3); [now rewrite zlen_map|]. split; [exact B1|]. split; [|rewrite map_length in B3; exact B3]. intros i c Ei. rewrite (B2 i (g c)) by now apply map_nth_error. reflexivity.
    - eexists. split; [reflexivity|]. exists cs. repeat split; auto; apply Pc.
  Qed.
  Lemma group_name_resolve hp n p : group_name n p -> resolve hp 0 n = walk hp 0 p.
  Proof.
    intros [N|[-> [k ->]]]; [now apply names_resolve|]. unfold resolve. replace (trim (slash :: repeat " "%char k)) with [slash]; [reflexivity|]. symmetry. change (slash :: repeat " "%char k) with ([slash] ++ repeat " "%char k). now rewrite trim_app_blanks.
  Qed.
  Lemma members_In want hp b l c : sound hp -> links_of hp b = Some l -> NoDup (members want hp l) /\ (In c (members want hp l) <-> exists a o, assoc c l = Some a /\ nth_error hp a = Some o /\ want (o_node o) = true).
  Proof.
    intros Sf L. assert (NoDup (map fst l)) as ND. { apply links_of_some in L as (o & E & O). pose proof (sound_obj_at _ _ _ Sf E) as K. unfold sound_obj in K. rewrite O in K. apply K. }
    split.
    - unfold members. clear c L. induction l as [|[c a] l IH]; [constructor|]. cbn [map fst] in ND. apply NoDup_cons_iff in ND as [N1 N2]. cbn [filter snd]. destruct (match nth_error hp a with Some o => want (o_node o) | None => false end); [|auto]. cbn [map fst].
      constructor; [|auto]. intro C. apply N1. apply in_map_iff in C as (e & <- & C). apply filter_In in C as [C _]. now apply in_map.
    - unfold members. rewrite in_map_iff. split.
      + intros ([c' a] & <- & K). apply filter_In in K as [K W]. cbn [fst snd] in *. destruct (nth_error hp a) as [o|] eqn:E; [|discriminate]. exists a, o. split; [now apply In_assoc|]. auto.
      + intros (a & o & A & E & W). exists (c, a). split; [reflexivity|]. apply filter_In. split; [now apply assoc_In|]. cbn [snd]. now rewrite E.
  Qed.
  Lemma list_members_spec want (P : str -> Prop) n p len old : group_name n p -> enough P old ->
    (forall b l c, walk (heap fl) 0 p = Some b -> links_of (heap fl) b = Some l -> ((exists a o, assoc c l = Some a /\ nth_error (heap fl) a = Some o /\ want (o_node o) = true) <-> P c)) ->
    match list_members want h n len old s with
    | Go r s' => s' = s /\ (exists l, holds (heap fl) p AGroup l) /\ listing true len P r old
    | Stop s' => s' = s /\ forall l, ~ holds (heap fl) p AGroup l
    | Wild => False
    end.
  Proof.
    intros Gn En HP. pose proof sound_here as Sf. unfold list_members.
    match goal with |- context [(let! y := open_slot h in @?g y) s] => destruct (slot_here g) as (x & -> & Fi) end. rewrite Fi. cbn [snd]. unfold gopen. rewrite (group_name_resolve _ _ _ Gn).
    destruct (walk (heap fl) 0 p) as [b|] eqn:W.
    2: { split; [reflexivity|]. intros l Hl. apply holds_walk in Hl as (b & o & Wb & _); [congruence|exact Sf]. }
    destruct (links_of (heap fl) b) as [l|] eqn:L.
    2: { split; [reflexivity|]. intros l Hl. apply holds_walk in Hl as (b' & o & Wb & E & K & _); [|exact Sf]. assert (b' = b) by congruence. subst b'. unfold links_of in L. rewrite E in L. destruct (o_node o); [discriminate L|discriminate K]. }
    cbn [of_option]. rewrite (bind_step _ _ _ b s) by reflexivity. rewrite L. cbn [of_option]. rewrite (bind_step _ _ _ l s) by reflexivity. cbn zeta.
    destruct (give_names true len P (members want (heap fl) l) _ old (proj1 (members_In want (heap fl) b l [] Sf L)) ltac:(intro c; rewrite <- (HP b l c eq_refl L); exact (proj2 (members_In want (heap fl) b l c Sf L))) En eq_refl) as (r & -> & Lr).
    split; [reflexivity|]. split; [|exact Lr]. apply links_of_some in L as (o & E & O). exists (o_attrs o). apply (holds_walk _ _ _ _ Sf). exists b, o. rewrite O. auto.
  Qed.
  Lemma c96_datasets n p len old : group_name n p -> enough (fun c => exists d l, holds (heap fl) (p ++ [c]) (ADset d) l) old ->
    match run cv (CListDatasets h n len old) s with
    | Go v s' => s' = s /\ (exists l, holds (heap fl) p AGroup l) /\ exists r, v = RList r /\ listing true len (fun c => exists d l, holds (heap fl) (p ++ [c]) (ADset d) l) r old
    | Stop s' => s' = s /\ forall l, ~ holds (heap fl) p AGroup l
    | Wild => False
    end.
  Proof.
    intros Gn En. pose proof sound_here as Sf. cbn [run]. unfold fmap, list_datasets. unfold mbind at 1.
    pose proof (list_members_spec is_dset _ n p len old Gn En) as K. cbn beta in K. lapply K; [clear K; intro K|].
    - destruct (list_members is_dset h n len old s) as [r s'|s'|]; [|exact K|exact K]. destruct K as (-> & G & L). cbn. split; [reflexivity|]. split; [exact G|]. exists r. auto.
    - intros b l c W L. split.
      + intros (a & o & A & E & D). destruct (o_node o) as [|d] eqn:O; [discriminate|]. exists d, (o_attrs o). apply (holds_walk _ _ _ _ Sf). exists a, o. rewrite O. split; [|auto]. apply walk_snoc. eauto.
      + intros (d & m & Hd). apply holds_walk in Hd as (a & o & Wa & E & K2 & _); [|exact Sf]. apply walk_snoc in Wa as (b' & l' & Wb & Lb & A). assert (b' = b) by congruence. subst b'. assert (l' = l) by congruence. subst l'. exists a, o. split; [exact A|]. split; [exact E|]. destruct (o_node o); [discriminate K2|reflexivity].
  Qed.
  Lemma c96_groups n p len old : group_name n p -> enough (fun c => exists l, holds (heap fl) (p ++ [c]) AGroup l) old ->
    match run cv (CListGroups h n len old) s with
    | Go v s' => s' = s /\ (exists l, holds (heap fl) p AGroup l) /\ exists r, v = RList r /\ listing true len (fun c => exists l, holds (heap fl) (p ++ [c]) AGroup l) r old
    | Stop s' => s' = s /\ forall l, ~ holds (heap fl) p AGroup l
    | Wild => False
    end.
  Proof.
    intros Gn En. pose proof sound_here as Sf. cbn [run]. unfold fmap, list_groups. unfold mbind at 1.
    pose proof (list_members_spec is_group _ n p len old Gn En) as K. cbn beta in K. lapply K; [clear K; intro K|].
    - destruct (list_members is_group h n len old s) as [r s'|s'|]; [|exact K|exact K]. destruct K as (-> & G & L). cbn. split; [reflexivity|]. split; [exact G|]. exists r. auto.
    - intros b l c W L. split.
      + intros (a & o & A & E & D). destruct (o_node o) as [l1|] eqn:O; [|discriminate]. exists (o_attrs o). apply (holds_walk _ _ _ _ Sf). exists a, o. rewrite O. split; [|auto]. apply walk_snoc. eauto.
      + intros (m & Hd). apply holds_walk in Hd as (a & o & Wa & E & K2 & _); [|exact Sf]. apply walk_snoc in Wa as (b' & l' & Wb & Lb & A). assert (b' = b) by congruence. subst b'. assert (l' = l) by congruence. subst l'. exists a, o. split; [exact A|]. split; [exact E|]. destruct (o_node o); [reflexivity|discriminate K2].
  Qed.
  Lemma c96_attributes n p len old : group_name n p -> enough (fun c => exists a, attribute_at (heap fl) p c a) old ->
    match run cv (CListAttributes h n len old) s with
    | Go v s' => s' = s /\ (exists x l, holds (heap fl) p x l) /\ exists r, v = RList r /\ listing false len (fun c => exists a, attribute_at (heap fl) p c a) r old
    | Stop s' => s' = s /\ nothing_at (heap fl) p
    | Wild => False
    end.
  Proof.
    intros Gn En. pose proof sound_here as Sf. cbn [run]. unfold fmap, list_attributes. unfold mbind at 1.
    match goal with |- context [(let! y := open_slot h in @?g y) s] => destruct (slot_here g) as (x & -> & Fi) end. rewrite Fi. cbn [snd]. unfold gopen, dopen. rewrite (group_name_resolve _ _ _ Gn).
    destruct (walk (heap fl) 0 p) as [b|] eqn:W.
    2: { cbn. split; [reflexivity|]. now apply (nothing_walk _ _ Sf). }
    pose proof (walk_in _ _ Sf _ W) as Lt. apply nth_error_Some in Lt. destruct (nth_error (heap fl) b) as [o|] eqn:E; [clear Lt|contradiction]. unfold links_of, dset_at. rewrite E.
    match goal with |- context [of_option ?e] => assert (e = Some b) as -> by now destruct (o_node o) end.
    cbn [of_option]. rewrite (bind_step _ _ _ b s) by reflexivity. cbn zeta. assert (attrs_at (heap fl) b = o_attrs o) as -> by (unfold attrs_at; now rewrite E).
    assert (holds (heap fl) p (kind (o_node o)) (o_attrs o)) as Hp by (apply (holds_walk _ _ _ _ Sf); exists b, o; auto). pose proof (sound_obj_at _ _ _ Sf E) as (_ & ND & _).
    destruct (give_names false len (fun c => exists a, attribute_at (heap fl) p c a) (map fst (o_attrs o)) (map (fun e => fit len (fst e)) (o_attrs o)) old ND) as (r & -> & Lr); [|exact En|now rewrite map_map|].
    - intro c. split.
      + intro Hc. destruct (assoc c (o_attrs o)) as [a|] eqn:A; [|apply assoc_none in A; contradiction]. exists a, (kind (o_node o)), (o_attrs o). auto.
      + intros (a & y & l & Hl & A). destruct (holds_fun _ _ _ _ _ _ Sf Hl Hp) as [_ ->]. apply assoc_In in A. apply in_map_iff. exists (c, a). auto.
    - cbn. split; [reflexivity|]. split; [eauto|]. exists r. auto.
  Qed.
End Call.
