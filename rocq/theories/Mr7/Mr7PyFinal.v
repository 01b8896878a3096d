(** Proofs for Mr7PyModel.v. *)
From Coq Require Import Ascii String.
From Verif Require Import Base.Prelude Base.ListLemmas Text.StrModel H5w.H5wModel H5w.H5wSpec H5w.H5wPath H5w.H5wView H5w.H5wAttrSpec Mr7.Mr7Model Mr7.Mr7Spec Mr7.Mr7Proofs Mr7.Mr7Final Mr7.Mr7PyModel Mr7.Mr7PySpec.
From Coq Require Import ZifyBool ZifyNat.
Local Open Scope Z_scope.
Local Open Scope list_scope.

Lemma read_attr_at no h c a : sound h -> attribute_at h [lit "Header"] c a -> read_attr no h (lit "Header") c = Ok a.
Proof. intros S (x & l & H & E). apply holds_walk in H as (z & o & W & N & _ & El); [|exact S]. unfold read_attr. rewrite resolve_header, W. unfold attrs_at. rewrite N, El, E. reflexivity. Qed.
Lemma read_dset_at no order h name d : sound h -> good_part (lit name) -> dataset_at h [lit "PartType1"; lit name] d -> read_dset no order h (lit "PartType1/" ++ lit name) = Ok (order (d_dims d), d_data d).
Proof. intros S G D. destruct (dopen_at _ _ _ _ S (part1_names name G) D) as (a & E & K). unfold read_dset. rewrite E, K. reflexivity. Qed.

Section All.
  Variables (no_file no_object no_element : exn) (order : list Z -> list Z) (files : list (str * dfile)) (fl : dfile).
  Hypotheses (So : sound (heap fl)) (Fi : assoc mr7_name files = Some fl).
  (** whatever the header says and whatever the types are *)
  Lemma read_all b a e dp dv di : attribute_at (heap fl) [lit "Header"] (lit "BoxSize") b -> attribute_at (heap fl) [lit "Header"] (lit "NumPart_ThisFile") a -> a_dims a = [zlen (a_data a)] -> nth_error (a_data a) 1 = Some e ->
    dataset_at (heap fl) [lit "PartType1"; lit "Coordinates"] dp -> dataset_at (heap fl) [lit "PartType1"; lit "Velocities"] dv -> dataset_at (heap fl) [lit "PartType1"; lit "ParticleIDs"] di ->
    read_snapshot no_file no_object no_element order files = Ok (a_data b, e, (order (d_dims dp), d_data dp), (order (d_dims dv), d_data dv), (order (d_dims di), d_data di)).
  Proof using So Fi.
    intros Hb Ha Ad Ae Dp Dv Di. destruct good_names as (G1 & G2 & G3). unfold read_snapshot. rewrite Fi. rewrite (read_attr_at _ _ _ _ So Hb), (read_attr_at _ _ _ _ So Ha). cbn [bind].
    unfold second. rewrite Ad, Ae. cbn [bind].
    change (lit "PartType1/Coordinates") with (lit "PartType1/" ++ lit "Coordinates"). change (lit "PartType1/Velocities") with (lit "PartType1/" ++ lit "Velocities"). change (lit "PartType1/ParticleIDs") with (lit "PartType1/" ++ lit "ParticleIDs").
    rewrite (read_dset_at _ _ _ _ _ So G1 Dp), (read_dset_at _ _ _ _ _ So G2 Dv), (read_dset_at _ _ _ _ _ So G3 Di). reflexivity.
  Qed.
End All.

(** elements *)
Lemma np_2 n data i c : 0 <= i < n -> 0 <= c < 3 -> np_elem (rev [3; n], data) [i; c] = elem [3; n] data [c; i].
Proof.
  intros Hi Hc. unfold np_elem. cbn [rev app fst snd np_place]. replace ((0 <=? i) && (i <? n)) with true by lia. replace ((0 <=? c) && (c <? 3)) with true by lia. unfold elem. cbn [offset]. f_equal. lia.
Qed.
Lemma np_1 n data i : 0 <= i < n -> np_elem (rev [n], data) [i] = elem [n] data [i].
Proof. intro Hi. unfold np_elem. cbn [rev app fst snd np_place]. replace ((0 <=? i) && (i <? n)) with true by lia. unfold elem. cbn [offset]. f_equal. lia. Qed.
Lemma idl_2 n data i c : 0 <= i < n -> 0 <= c < 3 -> idl_elem ([3; n], data) [c; i] = elem [3; n] data [c; i].
Proof.
  intros Hi Hc. unfold idl_elem. cbn [fst snd idl_place]. replace ((0 <=? i) && (i <? n)) with true by lia. replace ((0 <=? c) && (c <? 3)) with true by lia. unfold elem. cbn [offset]. f_equal. lia.
Qed.
Lemma idl_1 n data i : 0 <= i < n -> idl_elem ([n], data) [i] = elem [n] data [i].
Proof. intro Hi. unfold idl_elem. cbn [fst snd idl_place]. replace ((0 <=? i) && (i <? n)) with true by lia. unfold elem. cbn [offset]. f_equal. lia. Qed.

Section Snapshot.
  Variables (files : list (str * dfile)) (fl : dfile) (n : Z) (pos vel id : list elt) (b : attr).
  Hypotheses (So : sound (heap fl)) (Fi : assoc mr7_name files = Some fl) (Sn : snapshot (heap fl) n pos vel id) (He : plain_header (heap fl) n) (Bo : attribute_at (heap fl) [lit "Header"] (lit "BoxSize") b).
  Lemma python_snapshot : exists e P V K, python_reader files = Ok (a_data b, e, P, V, K) /\ four e n /\ fst P = [n; 3] /\ fst V = [n; 3] /\ fst K = [n] /\
    forall i, 0 <= i < n -> np_elem K [i] = elem [n] id [i] /\ forall c, 0 <= c < 3 -> np_elem P [i; c] = elem [3; n] pos [c; i] /\ np_elem V [i; c] = elem [3; n] vel [c; i].
  Proof using All.
    destruct He as (a & Ha & (Ta & La & e & Ee & F) & Da). destruct Sn as (Bn & _ & (dp & Dp & Tp & Ep & Ap) & (dv & Dv & Tv & Ev & Av) & (di & Di & Ti & Ei & Ai)).
    eexists e, _, _, _. split; [apply (read_all EIO EKey EIndex (@rev Z) files fl So Fi b a e dp dv di Bo Ha); [congruence | exact Ee | exact Dp | exact Dv | exact Di]|].
    rewrite Ep, Ev, Ei, Ap, Av, Ai. split; [exact F|]. do 3 (split; [reflexivity|]). intros i Hi. split; [now apply np_1|]. intros c Hc. split; now apply np_2.
  Qed.
  Lemma idl_snapshot : exists e P V K, idl_reader files = Ok (a_data b, e, P, V, K) /\ four e n /\ fst P = [3; n] /\ fst V = [3; n] /\ fst K = [n] /\
    forall i, 0 <= i < n -> idl_elem K [i] = elem [n] id [i] /\ forall c, 0 <= c < 3 -> idl_elem P [c; i] = elem [3; n] pos [c; i] /\ idl_elem V [c; i] = elem [3; n] vel [c; i].
  Proof using All.
    destruct He as (a & Ha & (Ta & La & e & Ee & F) & Da). destruct Sn as (Bn & _ & (dp & Dp & Tp & Ep & Ap) & (dv & Dv & Tv & Ev & Av) & (di & Di & Ti & Ei & Ai)).
    eexists e, _, _, _. split; [apply (read_all ERuntime ERuntime ERuntime (fun d => d) files fl So Fi b a e dp dv di Bo Ha); [congruence | exact Ee | exact Dp | exact Dv | exact Di]|].
    rewrite Ep, Ev, Ei, Ap, Av, Ai. split; [exact F|]. do 3 (split; [reflexivity|]). intros i Hi. split; [now apply idl_1|]. intros c Hc. split; now apply idl_2.
  Qed.
End Snapshot.
Lemma py_missing files : assoc mr7_name files = None -> python_reader files = Err EIO /\ idl_reader files = Err ERuntime.
Proof. intro E. unfold python_reader, idl_reader, read_snapshot. now rewrite E. Qed.
Lemma scripts_whole files fl b a e dp dv di : sound (heap fl) -> assoc mr7_name files = Some fl ->
  attribute_at (heap fl) [lit "Header"] (lit "BoxSize") b -> attribute_at (heap fl) [lit "Header"] (lit "NumPart_ThisFile") a -> a_dims a = [zlen (a_data a)] -> nth_error (a_data a) 1 = Some e ->
  dataset_at (heap fl) [lit "PartType1"; lit "Coordinates"] dp -> dataset_at (heap fl) [lit "PartType1"; lit "Velocities"] dv -> dataset_at (heap fl) [lit "PartType1"; lit "ParticleIDs"] di ->
  python_reader files = Ok (a_data b, e, (rev (d_dims dp), d_data dp), (rev (d_dims dv), d_data dv), (rev (d_dims di), d_data di)) /\
  idl_reader files = Ok (a_data b, e, (d_dims dp, d_data dp), (d_dims dv, d_data dv), (d_dims di, d_data di)).
Proof. intros So Fi Hb Ha Ad Ae Dp Dv Di. split; [exact (read_all _ _ _ (@rev Z) files fl So Fi b a e dp dv di Hb Ha Ad Ae Dp Dv Di) | exact (read_all _ _ _ (fun d => d) files fl So Fi b a e dp dv di Hb Ha Ad Ae Dp Dv Di)]. Qed.
