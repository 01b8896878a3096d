(** Group ordered snapshots from the bytes of the files: proofs. *)
From Coq Require Import Ascii String.
From Verif Require Import Base.Prelude Base.ListLemmas Base.NdArray Binary.BinModel Binary.NameProofs Formats.ReaderModel Formats.FileSpec Formats.CatSpec Formats.CatFinal Formats.GadgetSpec Formats.GadgetProofs Formats.GadgetFinal.
From Verif Require Import Multi.MultiModel Multi.GroupCatModel Multi.GroupCatSpec Multi.GroupCatProofs Multi.GroupCatFinal Snap.ReadModel Snap.ReadSpec Snap.OrderedModel Snap.OrderedSpec.
From Coq Require Import ZifyBool ZifyNat.
Local Open Scope Z_scope.
Local Open Scope list_scope.

(** *** rows *)
Lemma skipn_plus {A} a b (l : list A) : skipn (a + b) l = skipn b (skipn a l).
Proof. revert l. induction a as [|a IH]; intro l; [reflexivity|]. destruct l; cbn; [now rewrite skipn_nil | apply IH]. Qed.
Lemma cut_length {A} k n (l : list A) : List.length (cut k n l) = n.
Proof. revert l. induction n as [|n IH]; intro l; cbn; [reflexivity | now rewrite IH]. Qed.
Lemma cut_map {A B} (f : A -> B) k n l : map (map f) (cut k n l) = cut k n (map f l).
Proof. revert l. induction n as [|n IH]; intro l; cbn; [reflexivity|]. now rewrite IH, <- firstn_map, <- skipn_map. Qed.
Lemma cut_seq {A} k n (l : list A) : map (fun i => firstn k (skipn (i * k) l)) (seq 0 n) = cut k n l.
Proof.
  revert l. induction n as [|n IH]; intro l; [reflexivity|]. cbn [seq map cut]. f_equal. rewrite <- seq_shift, map_map, <- IH. apply map_ext. intro i. f_equal. cbn [Nat.mul]. apply skipn_plus.
Qed.
Lemma rows_cut (a : nd Z) n s : shape a = n :: s -> nd_rows a = cut (nelem s) n (data a).
Proof. intro E. unfold nd_rows. rewrite E. apply cut_seq. Qed.
Lemma signed_int32 v : 0 <= v < 256 ^ 4 -> signed32 v = int32 v.
Proof.
  intro H. change (256 ^ 4) with (2 ^ 32) in H. unfold signed32, int32. destruct (Z.leb_spec (2 ^ 31) v) as [Hv|Hv].
  - replace (v + 2 ^ 31) with (v - 2 ^ 31 + 1 * 2 ^ 32) by lia. rewrite Z.mod_add by lia. rewrite Z.mod_small by lia. lia.
  - rewrite Z.mod_small by lia. lia.
Qed.
Lemma signed_ints l : Forall (fun v => 0 <= v < 256 ^ 4) l -> map signed32 l = map int32 l.
Proof. intro H. apply map_ext_in. intros v Hv. rewrite Forall_forall in H. now apply signed_int32, H. Qed.

(** *** one snapshot file *)
Section One.
  Variables (little lf : bool) (s : snapfile) (rest : list Z).
  Hypothesis Hs : sn_ok s.
  Hypothesis Hrest : sn_blocks s = sn_all s \/ zlen rest < 4.
  Let content := file_bytes lf (sn_pieces s) ++ rest.
  Lemma one_opens : exists f, open_file little content (gadget_snapshot []) = (f, Ok tt) /\ reads_back little content (sn_pieces s) f.
  Proof using All.
    destruct Hs as (H1 & H2 & H3 & H4). destruct (snapshot_opens little lf (sn_cat s) (sn_fill s) (sn_mass s) [] (sn_size s) (sn_vals s) (sn_blocks s) rest H1 H3 H2) as (f & E1 & E2 & _); [unfold sn_all in *; lia|]. exists f. auto.
  Qed.
  Lemma one_npart : List.length (npart_of (sn_cat s)) = 6%nat /\ Forall (fun n => 0 <= n) (npart_of (sn_cat s)) /\ map signed32 (npart_of (sn_cat s)) = npart_of (sn_cat s).
  Proof using Hs. destruct Hs as ((H1 & H2 & H3) & _). refine (npart_ok true true [0] [] _ (sn_cat s) (sn_fill s) (sn_mass s) [] (sn_size s) (sn_vals s) H1 H2 H3). discriminate. Qed.
  Lemma attr_here f name fd : reads_back little content (sn_pieces s) f -> In fd G_header -> keys (nm (fd_name fd)) = keys (nm "Header") ++ [nm name] ->
    read_attr little content f (nm "Header") (nm name) = Ok (sn_cat s (fd_name fd)).
  Proof using Hs.
    intros (_ & R & _) Hfd Hk. assert (In (attr_of (sn_cat s) fd) (sn_pieces s)) as Hin. { unfold sn_pieces, snapshot_pieces, header_pieces. right. apply in_or_app. left. apply in_or_app. left. now apply in_map. }
    destruct (R (nm "Header") (nm name) _ _ _ _ Hin Hk) as (attrs & ds & gs & id & b & items & E1 & E2 & E3 & _ & _ & E4 & E5). unfold read_attr. rewrite E1. cbn [bind]. rewrite E2, E3, E4. cbn [bind]. now rewrite E5.
  Qed.
  Lemma three_types t : In t types -> (Z.to_nat t < 6)%nat /\ Z.of_nat (Z.to_nat t) = t.
  Proof using. clear. unfold types. cbn. lia. Qed.
  Definition quantity_of (name : string) : quantity := {| q_name := list_ascii_of_string name; q_shape := if String.eqb name "ParticleIDs" then [] else [3]; q_types := everything |}.
  Lemma three_stored name t : In name three -> In t types -> 0 < sn_count s t ->
    In (array (npart_of (sn_cat s)) (sn_size s) (sn_vals s) (quantity_of name) (Z.to_nat t)) (stored_blocks (sn_cat s) (sn_mass s) [] (sn_size s) (sn_vals s) (sn_blocks s)).
  Proof using Hs.
    clear Hrest. intros Hn Ht Hp. destruct one_npart as (L & P & _). destruct Hs as (_ & _ & H3 & H4). destruct (three_types t Ht) as [Ht6 _].
    set (np := npart_of (sn_cat s)) in *. unfold sn_count in Hp. fold np in Hp.
    assert (forall m, In m three -> 0 < number np (quantity_of m)) as Hpos.
    { intros m _. unfold number. cbn [seq map has_type q_types quantity_of everything nth sumZ]. clear - L P Hp Ht6. destruct np as [|a [|b [|c [|d [|e [|g [|]]]]]]]; try discriminate.
      repeat match goal with H : Forall _ (_ :: _) |- _ => apply Forall_cons_iff in H; destruct H end. cbn [nth] in *. destruct (Z.to_nat t) as [|[|[|[|[|[|]]]]]]; cbn [nth] in Hp; lia. }
    assert (exists r, present np (the_quantities (sn_mass s) []) = map quantity_of three ++ r) as (r & Er).
    { unfold the_quantities, standard_quantities, present. cbn [map app filter three].
      pose proof (Hpos "Coordinates"%string ltac:(cbn; tauto)) as A. pose proof (Hpos "Velocities"%string ltac:(cbn; tauto)) as B. pose proof (Hpos "ParticleIDs"%string ltac:(cbn; tauto)) as C.
      unfold quantity_of in A, B, C. cbn in A, B, C. apply Z.ltb_lt in A, B, C. unfold quantity_of. cbn [String.eqb Ascii.eqb Bool.eqb].
      match goal with |- context [0 <? number np ?q] => replace (0 <? number np q) with true by (symmetry; exact A) end.
      match goal with |- context [0 <? number np ?q] => replace (0 <? number np q) with true by (symmetry; exact B) end.
      match goal with |- context [0 <? number np ?q] => replace (0 <? number np q) with true by (symmetry; exact C) end.
      eexists. reflexivity. }
    unfold stored_blocks. fold np. rewrite Er. assert ((3 <= sn_blocks s)%nat) as Hb. { destruct H4 as [H4|H4]; [|exact H4]. rewrite H4. unfold sn_all. fold np. rewrite Er, app_length, map_length. cbn. lia. }
    apply in_flat_map. exists (quantity_of name). split.
    - rewrite firstn_app. apply in_or_app. left. rewrite firstn_all2 by (rewrite map_length; cbn; lia). now apply in_map.
    - unfold block, record. right. apply in_or_app. left. unfold arrays. apply in_map. apply filter_In. split; [apply in_seq; lia|]. apply andb_true_iff. split; [|lia]. unfold has_type, quantity_of, everything. cbn [q_types]. destruct (Z.to_nat t) as [|[|[|[|[|[|]]]]]]; try reflexivity. lia.
  Qed.
  Lemma one_snap snaps i : snaps i = Some content -> exists sf, snap_of little snaps i = Ok sf /\ holds_all sf (sn_rows s) (sn_count s).
  Proof using All.
    intro Hi. destruct one_opens as (f & Ho & R). unfold snap_of, open_snap. rewrite Hi, Ho. cbn [bind]. rewrite (attr_here f "NumPart_ThisFile" (six "Header/NumPart_ThisFile" 4) R) by (try (now left); reflexivity). cbn [bind fd_name six].
    change (sn_cat s "Header/NumPart_ThisFile"%string) with (npart_of (sn_cat s)). destruct one_npart as (L & P & S). rewrite S. eexists. split; [reflexivity|]. split; [exact L|]. intros t Ht. destruct (three_types t Ht) as [Ht6 _].
    cbn [sf_npart sf_data]. assert (nth_error (npart_of (sn_cat s)) (Z.to_nat t) = Some (sn_count s t)) as En by (apply nth_error_nth'; lia). split; [apply nth_error_In in En; rewrite Forall_forall in P; now apply P|]. split; [exact En|].
    intros name Hname. assert (0 <= sn_count s t) as H0. { apply nth_error_In in En. rewrite Forall_forall in P. now apply P. } split; [unfold zlen, sn_rows; rewrite cut_length; lia|]. intro Hp.
    pose proof (three_stored name t Hname Ht Hp) as Hin. destruct R as (R1 & _). assert (In (array (npart_of (sn_cat s)) (sn_size s) (sn_vals s) (quantity_of name) (Z.to_nat t)) (sn_pieces s)) as Hin2 by (unfold sn_pieces, snapshot_pieces; apply in_or_app; now right).
    destruct (R1 _ _ _ _ Hin2) as (id & at_ & b & items & E1 & E2 & E3 & _ & E4 & E5). unfold lookup_array. rewrite (full_part _ _ Ht6) in E1. change (g_getitem (f_tree f) (part_name (Z.to_nat t) (nm name)) = Ok (EDset id at_)) in E1. cbn [sf_data]. rewrite E1, E2, E4. cbn [bind]. rewrite E3, E5.
    f_equal. rewrite (rows_cut _ (Z.to_nat (sn_count s t)) (if String.eqb name "ParticleIDs" then [] else [3%nat])).
    - unfold sn_rows. cbn [data q_name quantity_of]. now destruct (String.eqb name "ParticleIDs").
    - cbn [shape map q_shape quantity_of]. f_equal. now destruct (String.eqb name "ParticleIDs").
  Qed.
  Lemma one_count snaps : snaps 0 = Some content -> 0 <= scalar (sn_cat s) "Header/NumFilesPerSnapshot" < 2 ^ 31 -> snap_count little snaps = Ok (scalar (sn_cat s) "Header/NumFilesPerSnapshot").
  Proof using All.
    intros Hi Hr. destruct one_opens as (f & Ho & R). unfold snap_count, open_snap. rewrite Hi, Ho. cbn [bind]. rewrite (attr_here f "NumFilesPerSnapshot" (one "Header/NumFilesPerSnapshot" 4) R) by (try reflexivity; repeat (first [left; reflexivity | right])). cbn [bind fd_name one].
    unfold i32, signed32. fold (scalar (sn_cat s) "Header/NumFilesPerSnapshot"). destruct (Z.leb_spec (2 ^ 31) (scalar (sn_cat s) "Header/NumFilesPerSnapshot")); [lia|]. unfold check. replace (0 <=? scalar (sn_cat s) "Header/NumFilesPerSnapshot") with true by lia. reflexivity.
  Qed.
End One.

(** *** all the snapshot files *)
Section Snaps.
  Variables (little : bool) (snaps : Z -> option (list Z)) (ss : list snapfile).
  Hypothesis Hss : Forall sn_ok ss.
  Hypothesis Hst : snaps_stored snaps ss.
  Lemma all_snaps : exists xs : list (@finfo (list Z)), snap_list little snaps (zlen ss) = Ok (map f_file xs) /\ Forall finfo_ok xs /\ map f_rows xs = map sn_rows ss /\ map f_n xs = map sn_count ss.
  Proof using All.
    unfold snap_list, zlen. rewrite Nat2Z.id.
    assert (forall l a, (forall i s, nth_error l i = Some s -> exists sf, snap_of little snaps (a + Z.of_nat i) = Ok sf /\ holds_all sf (sn_rows s) (sn_count s)) ->
      exists xs : list (@finfo (list Z)), mapM (snap_of little snaps) (zseq a (List.length l)) = Ok (map f_file xs) /\ Forall finfo_ok xs /\ map f_rows xs = map sn_rows l /\ map f_n xs = map sn_count l) as K.
    { induction l as [|s l IH]; intros a H; [exists []; repeat split; constructor|]. destruct (H 0%nat s eq_refl) as (sf & E & Hh). rewrite Z.add_0_r in E.
      destruct (IH (a + 1)) as (xs & E1 & E2 & E3 & E4). { intros i s' Hi. destruct (H (S i) s' Hi) as (sf' & E' & Hh'). exists sf'. split; [|exact Hh']. rewrite <- E'. f_equal. lia. }
      exists ((sf, sn_rows s, sn_count s) :: xs). cbn [List.length zseq mapM]. rewrite E. cbn [bind]. rewrite E1. cbn [bind map f_file fst]. split; [reflexivity|]. split; [constructor; assumption|]. cbn [f_rows f_n fst snd]. now rewrite E3, E4. }
    apply K. intros i s Hi. destruct (Hst i s Hi) as (lf & rest & E & Hr). rewrite Forall_forall in Hss. apply (one_snap little lf s rest (Hss s (nth_error_In _ _ Hi)) Hr). exact E.
  Qed.
  Lemma all_number : option_map (fun s => scalar (sn_cat s) "Header/NumFilesPerSnapshot") (hd_error ss) = Some (zlen ss) -> zlen ss < 2 ^ 31 -> snap_count little snaps = Ok (zlen ss).
  Proof using All.
    intros Hn Hl. destruct ss as [|s l] eqn:E; [discriminate|]. cbn [hd_error option_map] in Hn. injection Hn as Hn. destruct (Hst 0%nat s eq_refl) as (lf & rest & Ec & Hr). apply Forall_cons_iff in Hss. destruct Hss as [H _].
    rewrite (one_count little lf s rest H Hr snaps Ec); [now rewrite Hn|]. rewrite Hn. unfold zlen in *. lia.
  Qed.
End Snaps.
