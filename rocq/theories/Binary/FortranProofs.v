(** Fortran record markers. *)
From Verif.Base Require Import Prelude ListLemmas Order.
From Verif.Binary Require Import BinModel NameProofs LayoutProofs EndianProofs.
From Coq Require Import ZifyBool ZifyNat.
Local Open Scope Z_scope.

(** *** four byte integers *)
Definition isbytes (l : list Z) : Prop := Forall (fun x => 0 <= x < 256) l.
Lemma le_bytes_value n : forall v, 0 <= v < 256 ^ Z.of_nat n -> le_value (le_bytes n v) = v.
Proof.
  induction n as [|n IH]; intros v H; [cbn in *; lia|]. cbn [le_bytes le_value]. rewrite Nat2Z.inj_succ, Z.pow_succ_r in H by lia. rewrite IH; [pose proof (Z.div_mod v 256 ltac:(lia)); lia|]. split; [apply Z.div_pos; lia | apply Z.div_lt_upper_bound; lia].
Qed.
Lemma le_value_bytes l : isbytes l -> le_bytes (length l) (le_value l) = l.
Proof.
  induction 1 as [|x l Hx _ IH]; [reflexivity|]. cbn [length le_bytes le_value]. replace (x + 256 * le_value l) with (le_value l * 256 + x) by lia. rewrite Z.add_comm, Z.mod_add, Z.mod_small by lia. rewrite Z.div_add, Z.div_small by lia. rewrite Z.add_0_l, IH. reflexivity.
Qed.
Lemma le_value_range l : isbytes l -> 0 <= le_value l < 256 ^ zlen l.
Proof. induction 1 as [|x l Hx _ IH]; [cbn; lia|]. rewrite zlen_cons, Z.pow_add_r by (unfold zlen; lia). cbn [le_value]. lia. Qed.
Lemma le_bytes_bytes n : forall v, isbytes (le_bytes n v).
Proof. induction n as [|n IH]; intro v; constructor; [apply Z.mod_pos_bound; lia | apply IH]. Qed.
Lemma le_bytes_length n : forall v, length (le_bytes n v) = n.
Proof. induction n as [|n IH]; intro v; [reflexivity|]. cbn. now rewrite IH. Qed.
Lemma isbytes_rev l : isbytes l -> isbytes (rev l). Proof. unfold isbytes. rewrite !Forall_forall. intros H x Hx. apply H. now apply in_rev. Qed.
Lemma le_value_inj l l' : isbytes l -> isbytes l' -> length l = length l' -> le_value l = le_value l' -> l = l'.
Proof. intros H H' E V. rewrite <- (le_value_bytes l H), <- (le_value_bytes l' H'). congruence. Qed.
Lemma signed32_mod v : 0 <= v < 2 ^ 32 -> signed32 v mod 2 ^ 32 = v.
Proof. intro H. unfold signed32. destruct (Z.leb_spec (2 ^ 31) v); [|apply Z.mod_small; exact H]. replace (v - 2 ^ 32) with (v + (-1) * 2 ^ 32) by lia. rewrite Z.mod_add by lia. apply Z.mod_small; exact H. Qed.
Lemma signed32_inj v w : 0 <= v < 2 ^ 32 -> 0 <= w < 2 ^ 32 -> signed32 v = signed32 w -> v = w.
Proof. intros Hv Hw E. rewrite <- (signed32_mod v Hv), <- (signed32_mod w Hw). congruence. Qed.
Lemma signed32_small v : 0 <= v < 2 ^ 31 -> signed32 v = v.
Proof. intro H. unfold signed32. destruct (Z.leb_spec (2 ^ 31) v); lia. Qed.
Lemma value4_range l : isbytes l -> length l = 4%nat -> 0 <= le_value l < 2 ^ 32.
Proof. intros H E. pose proof (le_value_range l H) as R. unfold zlen in R. rewrite E in R. change (2 ^ 32) with (256 ^ Z.of_nat 4). exact R. Qed.
Lemma bswap_value l : isbytes l -> length l = 4%nat -> bswap32 (signed32 (le_value l)) = signed32 (le_value (rev l)).
Proof. intros H E. unfold bswap32. rewrite signed32_mod by now apply value4_range. rewrite <- E at 1. now rewrite le_value_bytes. Qed.
Lemma bswap_bswap v : 0 <= v < 2 ^ 31 -> bswap32 (bswap32 v) = v.
Proof.
  intro H. unfold bswap32 at 2. rewrite Z.mod_small by lia. rewrite bswap_value by (try (apply isbytes_rev; apply le_bytes_bytes); rewrite rev_length, le_bytes_length; reflexivity). rewrite rev_involutive, le_bytes_value by (change (256 ^ Z.of_nat 4) with (2 ^ 32); lia). now apply signed32_small.
Qed.
Lemma bswap_differs v : 1 <= v <= 65535 -> bswap32 v <> v.
Proof.
  intros H E. rewrite <- (signed32_small v) in E at 2 by lia. unfold bswap32 in E. rewrite Z.mod_small in E by lia. assert (isbytes (rev (le_bytes 4 v))) as Hb by (apply isbytes_rev; apply le_bytes_bytes). apply signed32_inj in E; [|apply value4_range; [exact Hb | rewrite rev_length; apply le_bytes_length] | lia].
  rewrite <- (le_bytes_value 4 v) in E at 2 by (change (256 ^ Z.of_nat 4) with (2 ^ 32); lia). apply le_value_inj in E; [|exact Hb | apply le_bytes_bytes | rewrite rev_length; reflexivity]. cbn [le_bytes rev app] in E. injection E as E1 E2 E3 E4.
  assert (v / 256 / 256 = 0) as Hz by (rewrite Z.div_div by lia; apply Z.div_small; lia). rewrite Hz in *. cbn in *. pose proof (Z.div_mod v 256 ltac:(lia)). pose proof (Z.div_mod (v / 256) 256 ltac:(lia)). lia.
Qed.

(** a marker written in byte order [e] *)
Definition marker (e : ord) (n : Z) : list Z := match e with LE => le_bytes 4 n | _ => rev (le_bytes 4 n) end.

Section Fortran.
  Variable little : bool.
  Variable content : list Z.
  Definition as_int (e : ord) (l : list Z) : Z := signed32 (endian_value little e l).
  Lemma as_int_inj e l l' : isbytes l -> isbytes l' -> length l = 4%nat -> length l' = 4%nat -> as_int e l = as_int e l' -> l = l'.
  Proof.
    intros H H' E E' V. unfold as_int, endian_value in V. destruct (big_or_little little e); apply signed32_inj in V; try (apply value4_range; try apply isbytes_rev; rewrite ?rev_length; assumption); try (apply le_value_inj; [assumption | assumption | congruence | assumption]);
    apply le_value_inj in V; try (apply isbytes_rev; assumption); try (rewrite !rev_length; congruence); rewrite <- (rev_involutive l), V; apply rev_involutive.
  Qed.
  Lemma as_int_opposite e e' l : valid_endian e = true -> valid_endian e' = true -> big_or_little little e <> big_or_little little e' -> isbytes l -> length l = 4%nat -> as_int e' l = bswap32 (as_int e l).
  Proof.
    intros V V' Hne H E. unfold as_int, endian_value. destruct e, e', little; try discriminate; cbn [big_or_little] in *; try (contradiction Hne; reflexivity); rewrite bswap_value by (try apply isbytes_rev; rewrite ?rev_length; assumption); rewrite ?rev_involutive; reflexivity.
  Qed.
  Lemma as_int_marker e n : (e = LE \/ e = BE) -> 0 <= n < 2 ^ 31 -> as_int e (marker e n) = n.
  Proof. intros [-> | ->] H; unfold as_int, marker, endian_value; cbn [big_or_little]; rewrite ?rev_involutive, le_bytes_value by (change (256 ^ Z.of_nat 4) with (2 ^ 32); lia); now apply signed32_small. Qed.
  Lemma marker_ok e n : isbytes (marker e n) /\ length (marker e n) = 4%nat.
  Proof. unfold marker. destruct e; split; try apply isbytes_rev; try apply le_bytes_bytes; rewrite ?rev_length; apply le_bytes_length. Qed.

  Definition mblock (f : file) : block := {| b_dtype := int32_t; b_off := f_off f; b_shape := []; b_endian := f_endian f |}.
  Lemma read_marker f bs : 0 <= f_off f -> zslice content (f_off f) (f_off f + 4) = bs -> length bs = 4%nat -> valid_endian (f_endian f) = true ->
    exists items, read_and_skip little content int32_t [] f = (push (mblock f) f, Ok items) /\ int32_of little items = as_int (f_endian f) bs.
  Proof.
    intros Ho Hs Hl Hv. assert (f_off f + 4 <= zlen content) as Hlen. { rewrite <- Hs in Hl. unfold zslice in Hl. rewrite firstn_length, skipn_length in Hl. unfold zlen. lia. }
    assert (readable content (mblock f)) as R. { split; [intro E; rewrite E in Hlen; unfold zlen in Hlen; cbn in Hlen; lia|]. split; [exact Ho|]. split; [cbn; exact Hlen|]. split; [constructor|]. intros _. exact Hv. }
    destruct (getitem_values little content (mblock f)) as (items & H1 & H2 & H3); [repeat constructor; lia | split; [repeat constructor; lia | left; discriminate] | exact R | exact Hv|].
    exists items. unfold read_and_skip. fold (mblock f). rewrite H1. split; [reflexivity|]. cbn in H2. change (Z.to_nat (b_size (mblock f))) with 1%nat in H2. destruct items as [|it [|it2 items]]; try discriminate H2.
    unfold stored, view in H3. change (b_size (mblock f)) with 1 in H3. cbn [Z.to_nat Pos.to_nat Pos.iter_op zseq map b_dtype mblock itemsize dt_fields int32_t sumZ b_off b_endian] in H3. change (Pos.to_nat 1) with 1%nat in H3. cbn [zseq map] in H3. change ((4 + 0) * 0) with 0 in H3. change ((4 + 0) * (0 + 1)) with 4 in H3. rewrite Z.add_0_r in H3.
    assert (length it = 4%nat) as Hit. { rewrite (getitem_ok little content (mblock f) R) in H1. pose proof (stored_len content (mblock f) ltac:(repeat constructor; lia) R) as Hst. apply (f_equal (fun r => match r with Ok x => x | Err _ => [] end)) in H1. cbv beta iota in H1. destruct (swapped little (mblock f)).
      - assert (In it (map (swap_item (b_dtype (mblock f))) (stored content (mblock f)))) as Hin by (rewrite H1; now left). apply in_map_iff in Hin. destruct Hin as (x & <- & Hx). rewrite Forall_forall in Hst. specialize (Hst x Hx). pose proof (swap_length int32_t x ltac:(repeat constructor; lia) Hst) as Hsl. unfold zlen in Hsl. change (itemsize int32_t) with 4 in Hsl. cbn [b_dtype mblock]. lia.
      - rewrite Forall_forall in Hst. specialize (Hst it). rewrite H1 in Hst. specialize (Hst ltac:(now left)). unfold zlen in Hst. change (itemsize (b_dtype (mblock f))) with 4 in Hst. lia. }
    unfold item_values in H3. cbn [dt_fields int32_t split_fields map] in H3. change (Z.to_nat 4) with 4%nat in H3. rewrite (firstn_all2 it) in H3 by lia.
    replace (zslice content (f_off f) (f_off f + 4)) with bs in H3. rewrite (firstn_all2 bs) in H3 by lia. injection H3 as H3. unfold int32_of, as_int. cbn [nth]. f_equal. rewrite <- H3. unfold endian_value, mem_endian, big_or_little. cbn [dt_order int32_t]. destruct little; reflexivity.
  Qed.

  (** *** start, then anything which moves [n] bytes ahead, then end *)
  Section Record.
    Variables (pre m1 payload m2 post : list Z) (auto : bool) (f : file).
    Hypothesis Hcontent : content = pre ++ m1 ++ payload ++ m2 ++ post.
    Hypothesis Hm1 : isbytes m1 /\ length m1 = 4%nat.
    Hypothesis Hm2 : isbytes m2 /\ length m2 = 4%nat.
    Hypothesis Hoff : f_off f = zlen pre.
    Hypothesis Hrec : f_rec f = None.
    Hypothesis Hv : valid_endian (f_endian f) = true.
    Definition f1 : file := fst (start_fortran_record little content auto f).
    Lemma zslice_mid {A} (a b c : list A) : zslice (a ++ b ++ c) (zlen a) (zlen a + zlen b) = b.
    Proof. unfold zslice, zlen. rewrite Nat2Z.id. replace (Z.to_nat (Z.of_nat (length a) + Z.of_nat (length b)) - length a)%nat with (length b) by lia. rewrite skipn_app, skipn_all, Nat.sub_diag. cbn [skipn app]. rewrite firstn_app, Nat.sub_diag. cbn [firstn]. rewrite firstn_all. apply app_nil_r. Qed.
    Lemma start_ok : snd (start_fortran_record little content auto f) = Ok tt /\ f_off f1 = zlen pre + 4 /\ f_endian f1 = f_endian f /\ f_rec f1 = Some (as_int (f_endian f) m1, zlen pre + 4, auto) /\ f_blocks f1 = f_blocks f ++ [mblock f] /\ f_tree f1 = f_tree f.
    Proof.
      unfold f1, start_fortran_record. rewrite Hrec. destruct (read_marker f m1) as (items & H1 & H2); [rewrite Hoff; unfold zlen; lia | rewrite Hoff, Hcontent; replace 4 with (zlen m1) by (unfold zlen; lia); apply zslice_mid | apply Hm1 | exact Hv|].
      rewrite H1. cbn [fst snd set_rec push f_off f_endian f_rec f_blocks f_tree]. rewrite H2. change (b_nbytes (mblock f)) with 4. rewrite Hoff. repeat split; reflexivity.
    Qed.
    Variable f2 : file.
    Hypothesis Hrec2 : f_rec f2 = f_rec f1.
    Hypothesis Hoff2 : f_off f2 = f_off f1 + zlen payload.
    Hypothesis Hend2 : f_endian f2 = f_endian f1.
    Lemma end_read : exists items, read_and_skip little content int32_t [] f2 = (push (mblock f2) f2, Ok items) /\ int32_of little items = as_int (f_endian f) m2.
    Proof.
      destruct start_ok as (_ & S1 & S2 & _). rewrite <- S2, <- Hend2. apply read_marker; [rewrite Hoff2, S1; unfold zlen; lia | | apply Hm2 | now rewrite Hend2, S2].
      rewrite Hoff2, S1, Hcontent. rewrite !app_assoc, <- (app_assoc _ m2 post). replace (zlen pre + 4 + zlen payload) with (zlen ((pre ++ m1) ++ payload)) by (rewrite !zlen_app; unfold zlen; lia). replace 4 with (zlen m2) by (unfold zlen; lia). apply zslice_mid.
    Qed.
    Definition n := zlen payload.
    Definition v1 := as_int (f_endian f) m1.
    (** the record is accepted exactly if both markers are equal and give its length *)
    Lemma end_spec : end_fortran_record little content f2 =
      (let p := push (mblock f2) f2 in
       if negb (if list_eq_dec Z.eq_dec m1 m2 then true else false) then (p, Err EIO)
       else if auto && (65535 <? n) then (p, Err EIO)
       else if n =? v1 then (set_rec None p, Ok tt)
       else if auto && (n =? bswap32 v1) then (set_rec None (fst (toggle_byteswap little p)), Ok tt)
       else (p, Err EIO)).
    Proof.
      unfold end_fortran_record. destruct start_ok as (_ & S1 & S2 & S3 & _). rewrite Hrec2, S3. destruct end_read as (items & -> & ->). cbv zeta. fold v1. replace (f_off f2 - (zlen pre + 4)) with n by (unfold n; lia).
      assert ((v1 =? as_int (f_endian f) m2) = if list_eq_dec Z.eq_dec m1 m2 then true else false) as ->. { destruct (list_eq_dec Z.eq_dec m1 m2) as [E|E]; [unfold v1; rewrite E; lia|]. apply Z.eqb_neq. intro V. apply E. apply (as_int_inj (f_endian f)); [apply Hm1 | apply Hm2 | apply Hm1 | apply Hm2 | exact V]. }
      destruct (list_eq_dec Z.eq_dec m1 m2); cbn [negb]; [|reflexivity]. destruct auto; cbn [andb].
      - destruct (65535 <? n); [reflexivity|]. destruct (Z.eqb_spec n v1) as [E|E]; cbn [negb andb].
        + rewrite andb_false_r. cbn [andb]. replace (n =? v1) with true by lia. reflexivity.
        + destruct (Z.eqb_spec n (bswap32 v1)) as [E2|E2]; cbn [andb].
          * replace (n =? bswap32 v1) with true by lia. reflexivity.
          * replace (n =? v1) with false by lia. reflexivity.
      - rewrite andb_false_r. destruct (n =? v1); reflexivity.
    Qed.
  End Record.

  Section WellFormed.
    Variables (pre payload post : list Z) (e : ord) (auto : bool) (f : file).
    Hypothesis Hcontent : content = pre ++ marker e (zlen payload) ++ payload ++ marker e (zlen payload) ++ post.
    Hypothesis He : e = LE \/ e = BE.
    Hypothesis Hn : zlen payload < 2 ^ 31.
    Hypothesis Hoff : f_off f = zlen pre.
    Hypothesis Hrec : f_rec f = None.
    Hypothesis Hv : valid_endian (f_endian f) = true.
    Let g1 := fst (start_fortran_record little content auto f).
    Variable f2 : file.
    Hypothesis Hrec2 : f_rec f2 = f_rec g1.
    Hypothesis Hoff2 : f_off f2 = f_off g1 + zlen payload.
    Hypothesis Hend2 : f_endian f2 = f_endian g1.
    Let res2 := end_fortran_record little content f2.
    Lemma ve : valid_endian e = true. Proof. destruct He as [-> | ->]; reflexivity. Qed.
    Lemma be : big_or_little little e = e. Proof. destruct He as [-> | ->]; reflexivity. Qed.
    Lemma wf_start : snd (start_fortran_record little content auto f) = Ok tt /\ f_off g1 = zlen pre + 4 /\ f_endian g1 = f_endian f.
    Proof. destruct (start_ok pre (marker e (zlen payload)) payload (marker e (zlen payload)) post auto f Hcontent (marker_ok _ _) (marker_ok _ _) Hoff Hrec Hv) as (H1 & H2 & H3 & _). auto. Qed.
    Definition wf_end := end_spec pre (marker e (zlen payload)) payload (marker e (zlen payload)) post auto f Hcontent (marker_ok _ _) (marker_ok _ _) Hoff Hrec Hv f2 Hrec2 Hoff2 Hend2.
    Lemma wf_matching : big_or_little little (f_endian f) = e -> (auto = true -> zlen payload <= 65535) ->
      res2 = (set_rec None (push (mblock f2) f2), Ok tt) /\ f_off (fst res2) = zlen pre + 4 + zlen payload + 4.
    Proof.
      intros Hm Ha. unfold res2. rewrite wf_end. unfold n, v1. assert (as_int (f_endian f) (marker e (zlen payload)) = zlen payload) as ->. { rewrite <- (as_int_marker e (zlen payload) He) at 2 by (unfold zlen in *; lia). unfold as_int, endian_value. now rewrite Hm, be. }
      destruct (list_eq_dec Z.eq_dec _ _) as [_|C]; [|contradiction C; reflexivity]. cbn [negb]. rewrite Z.eqb_refl. assert (auto && (65535 <? zlen payload) = false) as -> by (destruct auto; [specialize (Ha eq_refl); cbn; lia | reflexivity]). split; [reflexivity|].
      cbn [fst set_rec push f_off]. change (b_nbytes (mblock f2)) with 4. destruct wf_start as (_ & S1 & _). lia.
    Qed.
    Lemma wf_opposite_value : big_or_little little (f_endian f) <> e -> as_int (f_endian f) (marker e (zlen payload)) = bswap32 (zlen payload).
    Proof. intro Hm. rewrite (as_int_opposite e (f_endian f)); [| exact ve | exact Hv | rewrite be; congruence | apply marker_ok | apply marker_ok]. f_equal. apply as_int_marker; [exact He | unfold zlen in *; lia]. Qed.
    Lemma wf_opposite_auto : big_or_little little (f_endian f) <> e -> auto = true -> 1 <= zlen payload <= 65535 ->
      res2 = (set_rec None (fst (toggle_byteswap little (push (mblock f2) f2))), Ok tt) /\ big_or_little little (f_endian (fst res2)) = e /\ f_off (fst res2) = zlen pre + 4 + zlen payload + 4 /\ (f_endian f = NAT -> agree (fst res2)).
    Proof.
      intros Hm Ha Hl. assert (res2 = (set_rec None (fst (toggle_byteswap little (push (mblock f2) f2))), Ok tt)) as Hr.
      { unfold res2. rewrite wf_end. unfold n, v1. rewrite (wf_opposite_value Hm). destruct (list_eq_dec Z.eq_dec _ _) as [_|C]; [|contradiction C; reflexivity]. cbn [negb]. rewrite Ha. replace (65535 <? zlen payload) with false by lia. cbn [andb]. pose proof (bswap_differs (zlen payload) Hl) as Hd. replace (zlen payload =? bswap32 (zlen payload)) with false by lia. rewrite bswap_bswap by lia. now rewrite Z.eqb_refl. }
      split; [exact Hr|]. rewrite Hr. cbn [fst]. destruct wf_start as (_ & S1 & S2). destruct (toggle_step little (push (mblock f2) f2)) as [_ Ht].
      assert (f_endian (push (mblock f2) f2) = f_endian f) as Ee by (cbn [push f_endian]; congruence). split.
      - change (f_endian (set_rec None ?x)) with (f_endian x). unfold toggle_byteswap. rewrite Ee. revert Hm Hv. destruct He as [-> | ->]; destruct (f_endian f), little; cbn; intros Hm Hv2; try discriminate; try reflexivity; contradiction Hm; reflexivity.
      - split; [change (f_off (set_rec None ?x)) with (f_off x); rewrite Ht; cbn [push f_off]; change (b_nbytes (mblock f2)) with 4; lia|]. intro En. change (agree (set_rec None ?x)) with (agree x). unfold toggle_byteswap. rewrite Ee, En. apply set_all. destruct little; reflexivity.
    Qed.
    Lemma wf_opposite_plain : big_or_little little (f_endian f) <> e -> auto = false -> bswap32 (zlen payload) <> zlen payload -> snd res2 = Err EIO.
    Proof.
      intros Hm Ha Hl. unfold res2. rewrite wf_end. unfold n, v1. rewrite (wf_opposite_value Hm). destruct (list_eq_dec Z.eq_dec _ _) as [_|C]; [|contradiction C; reflexivity]. cbn [negb]. rewrite Ha. cbn [andb]. replace (zlen payload =? bswap32 (zlen payload)) with false by lia. reflexivity.
    Qed.
  End WellFormed.
  Lemma end_wrong pre m1 payload m2 post auto f f2 : content = pre ++ m1 ++ payload ++ m2 ++ post -> isbytes m1 /\ length m1 = 4%nat -> isbytes m2 /\ length m2 = 4%nat -> f_off f = zlen pre -> f_rec f = None -> valid_endian (f_endian f) = true ->
    f_rec f2 = f_rec (fst (start_fortran_record little content auto f)) -> f_off f2 = f_off (fst (start_fortran_record little content auto f)) + zlen payload -> f_endian f2 = f_endian (fst (start_fortran_record little content auto f)) ->
    m1 <> m2 \/ (as_int LE m1 <> zlen payload /\ as_int BE m1 <> zlen payload) -> snd (end_fortran_record little content f2) = Err EIO.
  Proof.
    intros H1 H2 H3 H4 H5 H6 H7 H8 H9 Hw. rewrite (end_spec pre m1 payload m2 post auto f H1 H2 H3 H4 H5 H6 f2 H7 H8 H9). cbv zeta. destruct (list_eq_dec Z.eq_dec m1 m2) as [E|E]; cbn [negb]; [|reflexivity]. destruct Hw as [Hw|[Hl Hb]]; [contradiction|].
    destruct (auto && _); [reflexivity|]. assert (forall e, as_int e m1 = as_int LE m1 \/ as_int e m1 = as_int BE m1) as Hcases. { intro e0. unfold as_int, endian_value. destruct (big_or_little little e0); cbn; auto. }
    assert (v1 m1 f <> n payload) as Hv1. { unfold v1, n. destruct (Hcases (f_endian f)) as [-> | ->]; assumption. }
    assert (bswap32 (v1 m1 f) <> n payload) as Hv2. { unfold v1, n. destruct (f_endian f) eqn:Ef; try discriminate; [rewrite <- (as_int_opposite LE BE) | rewrite <- (as_int_opposite BE LE) | destruct little eqn:El; [rewrite <- (as_int_opposite NAT BE) | rewrite <- (as_int_opposite NAT LE)]]; try reflexivity; try assumption; try apply H2; try discriminate; cbn; rewrite ?El; discriminate. }
    replace (n payload =? v1 m1 f) with false by lia. replace (n payload =? bswap32 (v1 m1 f)) with false by lia. rewrite andb_false_r. reflexivity.
  Qed.
  Lemma no_record f : f_rec f = None -> end_fortran_record little content f = (f, Err EIO).
  Proof. intro H. unfold end_fortran_record. now rewrite H. Qed.
  Lemma nested_record f auto r : f_rec f = Some r -> start_fortran_record little content auto f = (f, Err EIO).
  Proof. intro H. unfold start_fortran_record. now rewrite H. Qed.
End Fortran.
