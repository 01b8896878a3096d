(** Proofs about readfile.f90 (C71). *)
From Coq Require Import Ascii String.
From Verif Require Import Base.Prelude Base.ListLemmas Binary.BinModel Binary.EndianProofs Binary.FortranProofs Formats.FileSpec Formats.CatSpec Formats.ReaderProofs.
From Verif Require Import Peano.CPeanoModel Fortran.SortModel Fortran.RegionModel Fortran.RegionSpec Fortran.GroupTabModel Fortran.GroupTabSpec Fortran.GroupTabProofs.
From Verif Require Fortran.ReadPartProofs.
From Coq Require Import ZifyBool ZifyNat.
Local Open Scope Z_scope.

Definition piece_chunk (p : piece) : Z * list Z := match p with Data _ _ s _ v => (s, v) | Mark n => (4, [n]) | Raw b => (1, b) end.
Definition is_data (p : piece) : Prop := match p with Data _ _ _ _ _ => True | _ => False end.
Lemma data_bytes lf l : Forall is_data l -> file_bytes lf l = cbytes lf (map piece_chunk l).
Proof. unfold file_bytes, cbytes. induction 1 as [|p l Hp HF IH]; [reflexivity|]. cbn [map concat]. rewrite IH. destruct p; [reflexivity | contradiction | contradiction]. Qed.
Lemma data_good l : Forall is_data l -> Forall piece_ok l -> good (map piece_chunk l).
Proof.
  intros H1 H2. unfold good. rewrite Forall_map. rewrite Forall_forall in *. intros p Hp. specialize (H1 p Hp). specialize (H2 p Hp). destruct p; [|contradiction|contradiction]. destruct H2 as (A & _ & _ & B). now split.
Qed.
Lemma data_size l : Forall is_data l -> sumZ (map piece_size l) = csize (map piece_chunk l).
Proof. unfold csize. induction 1 as [|p l Hp HF IH]; [reflexivity|]. cbn [map sumZ fold_right]. fold (sumZ (map piece_size l)). rewrite IH. destruct p; [reflexivity | contradiction | contradiction]. Qed.

Section Records.
  Variable little : bool.
  Lemma marker_ok pre n post : 0 <= n < 2 ^ 31 -> signed32 (in_memory little (zslice (pre ++ number_bytes little 4 n ++ post) (zlen pre) (zlen pre + 4))) = n.
  Proof.
    intro Hn. pose proof (zlen_nonneg pre). rewrite zslice_app, (zslice_past pre) by lia. cbn [app]. replace (zlen pre - zlen pre) with 0 by lia. replace (zlen pre + 4 - zlen pre) with 4 by lia.
    assert (zlen (number_bytes little 4 n) = 4) as L by (apply number_len; lia). rewrite zslice_prefix, zslice_all by lia. rewrite in_memory_number by lia. rewrite signed_model. now apply signed_id.
  Qed.
  Lemma record_ok pre l m post items : Forall is_data (l ++ m) -> Forall piece_ok (l ++ m) -> csize (map piece_chunk (l ++ m)) < 2 ^ 31 -> items = items_of (map piece_chunk l) ->
    read_record little (pre ++ file_bytes little (record (l ++ m)) ++ post) (zlen pre) items = Ok (map (fun p => snd (piece_chunk p)) l, zlen pre + 8 + csize (map piece_chunk (l ++ m))).
  Proof.
    intros HD HO Hs ->. pose proof (data_good _ HD HO) as G. pose proof (csize_nonneg _ G) as Hn. set (n := csize (map piece_chunk (l ++ m))) in *.
    assert (file_bytes little (record (l ++ m)) = number_bytes little 4 n ++ cbytes little (map piece_chunk (l ++ m)) ++ number_bytes little 4 n) as EB.
    { unfold record. cbn zeta. rewrite data_size by exact HD. fold n. unfold file_bytes at 1. cbn [map concat piece_bytes]. rewrite map_app, concat_app. cbn [map concat piece_bytes]. rewrite app_nil_r. fold (file_bytes little (l ++ m)). now rewrite data_bytes. }
    rewrite EB. set (mk := number_bytes little 4 n). assert (zlen mk = 4) as Lm by (apply number_len; lia). set (d := cbytes little (map piece_chunk (l ++ m))). assert (zlen d = n) as Ld by (now apply cbytes_len).
    unfold read_record. assert (zlen (pre ++ (mk ++ d ++ mk) ++ post) = zlen pre + (8 + n) + zlen post) as EL by (rewrite !zlen_app; lia). pose proof (zlen_nonneg pre) as P1. pose proof (zlen_nonneg post) as P2. rewrite EL.
    replace (zlen pre + 4 <=? _) with true by lia. cbn [check bind].
    assert (signed32 (in_memory little (zslice (pre ++ (mk ++ d ++ mk) ++ post) (zlen pre) (zlen pre + 4))) = n) as -> by (rewrite <- app_assoc; apply marker_ok; lia).
    replace (0 <=? n) with true by lia. cbn [check bind]. replace (zlen pre + 8 + n <=? _) with true by lia. cbn [check bind].
    assert (signed32 (in_memory little (zslice (pre ++ (mk ++ d ++ mk) ++ post) (zlen pre + 4 + n) (zlen pre + 4 + n + 4))) = n) as ->.
    { replace (pre ++ (mk ++ d ++ mk) ++ post) with ((pre ++ mk ++ d) ++ mk ++ post) by (now rewrite <- !app_assoc). replace (zlen pre + 4 + n) with (zlen (pre ++ mk ++ d)) by (rewrite !zlen_app; lia). apply marker_ok. lia. }
    rewrite Z.eqb_refl. cbn [check bind].
    assert (zslice (pre ++ (mk ++ d ++ mk) ++ post) (zlen pre + 4) (zlen pre + 4 + n) = d) as ->.
    { replace (pre ++ (mk ++ d ++ mk) ++ post) with ((pre ++ mk) ++ d ++ mk ++ post) by (now rewrite <- !app_assoc). replace (zlen pre + 4) with (zlen (pre ++ mk)) by (rewrite zlen_app; lia).
      rewrite zslice_app, zslice_past by lia. cbn [app]. rewrite Z.sub_diag. replace (zlen (pre ++ mk) + n - zlen (pre ++ mk)) with n by lia. rewrite zslice_prefix by lia. apply zslice_all; lia. }
    unfold d. rewrite map_app, cbytes_app. rewrite map_app in G. apply good_app in G. destruct G as [G _]. rewrite transfer_ok by exact G. cbn [bind]. now rewrite map_map.
  Qed.
  (** the same for the first [k] bytes of a file *)
  Lemma record_cut k pre l m post items : Forall is_data (l ++ m) -> Forall piece_ok (l ++ m) -> csize (map piece_chunk (l ++ m)) < 2 ^ 31 -> items = items_of (map piece_chunk l) ->
    read_record little (firstn k (pre ++ file_bytes little (record (l ++ m)) ++ post)) (zlen pre) items =
    if Z.of_nat k <? zlen pre + 8 + csize (map piece_chunk (l ++ m)) then Err EIO else Ok (map (fun p => snd (piece_chunk p)) l, zlen pre + 8 + csize (map piece_chunk (l ++ m))).
  Proof.
    intros HD HO Hs Hi. pose proof (data_good _ HD HO) as G. pose proof (csize_nonneg _ G) as Hn. set (n := csize (map piece_chunk (l ++ m))) in *. pose proof (zlen_nonneg pre) as P1.
    assert (file_bytes little (record (l ++ m)) = number_bytes little 4 n ++ cbytes little (map piece_chunk (l ++ m)) ++ number_bytes little 4 n) as EB.
    { unfold record. cbn zeta. rewrite data_size by exact HD. fold n. unfold file_bytes at 1. cbn [map concat piece_bytes]. rewrite map_app, concat_app. cbn [map concat piece_bytes]. rewrite app_nil_r. fold (file_bytes little (l ++ m)). now rewrite data_bytes. }
    assert (zlen (number_bytes little 4 n) = 4) as Lm by (apply number_len; lia). assert (zlen (cbytes little (map piece_chunk (l ++ m))) = n) as Ld by (now apply cbytes_len).
    assert (zlen (file_bytes little (record (l ++ m))) = 8 + n) as Lr by (rewrite EB, !zlen_app; lia).
    destruct (Z.ltb_spec (Z.of_nat k) (zlen pre + 8 + n)) as [C|C].
    - set (t := firstn k _). assert (zlen t <= Z.of_nat k) as Lk by (unfold t, zlen; rewrite firstn_length; lia). unfold read_record.
      destruct (Z.leb_spec (zlen pre + 4) (zlen t)) as [D|D]; [|reflexivity]. cbn [check bind].
      assert (exists q, t = pre ++ number_bytes little 4 n ++ q) as [q Eq].
      { exists (firstn (k - List.length pre - 4) ((cbytes little (map piece_chunk (l ++ m)) ++ number_bytes little 4 n) ++ post)). unfold t. rewrite EB, <- !app_assoc, !firstn_app.
        rewrite (firstn_all2 pre) by (unfold zlen in *; lia). rewrite (firstn_all2 (number_bytes little 4 n)) by (unfold zlen in *; lia). replace (List.length (number_bytes little 4 n)) with 4%nat by (unfold zlen in Lm; lia). reflexivity. }
      assert (signed32 (in_memory little (zslice t (zlen pre) (zlen pre + 4))) = n) as -> by (rewrite Eq; apply marker_ok; lia). replace (0 <=? n) with true by lia. cbn [check bind]. replace (zlen pre + 8 + n <=? zlen t) with false by lia. reflexivity.
    - assert (firstn k (pre ++ file_bytes little (record (l ++ m)) ++ post) = pre ++ file_bytes little (record (l ++ m)) ++ firstn (k - List.length pre - List.length (file_bytes little (record (l ++ m)))) post) as ->.
      { rewrite !firstn_app. rewrite (firstn_all2 pre) by (unfold zlen in *; lia). rewrite (firstn_all2 (file_bytes little (record (l ++ m)))) by (unfold zlen in *; lia). reflexivity. }
      now apply record_ok.
  Qed.
  Lemma record_big pre n post items : 2 ^ 31 <= n < 2 ^ 32 -> read_record little (pre ++ number_bytes little 4 n ++ post) (zlen pre) items = Err EIO.
  Proof.
    intro Hn. unfold read_record. assert (zlen (number_bytes little 4 n) = 4) as L by (apply number_len; lia). pose proof (zlen_nonneg post). rewrite !zlen_app, L. replace (zlen pre + 4 <=? _) with true by lia. cbn [check bind].
    assert (signed32 (in_memory little (zslice (pre ++ number_bytes little 4 n ++ post) (zlen pre) (zlen pre + 4))) = n - 2 ^ 32) as ->; [|replace (0 <=? n - 2 ^ 32) with false by lia; reflexivity].
    pose proof (zlen_nonneg pre). rewrite zslice_app, (zslice_past pre) by lia. cbn [app]. replace (zlen pre - zlen pre) with 0 by lia. replace (zlen pre + 4 - zlen pre) with 4 by lia.
    rewrite zslice_prefix, zslice_all by lia. rewrite in_memory_number by lia. rewrite signed_model. unfold signed. replace (n <? 2 ^ 31) with false by lia. reflexivity.
  Qed.
End Records.

Section Snapshot.
  Variable little : bool.
  Variable cat : catalogue.
  Variables extra content : list Z.
  Hypothesis H : snapshot_file little cat extra content.
  Let ok : Forall piece_ok (L2_snapshot cat) := proj1 H.
  Notation hdr := (ReadPartProofs.hdr cat).
  Notation d_pos := (ReadPartProofs.d_pos cat).
  Notation d_vel := (ReadPartProofs.d_vel cat).
  Notation d_ids := (ReadPartProofs.d_ids cat).
  Notation d_first := (ReadPartProofs.d_first cat).
  Notation d_last := (ReadPartProofs.d_last cat).
  Notation d_hash := (ReadPartProofs.d_hash cat).
  Notation rb l := (file_bytes little (record l)).
  Let n := npart_of cat.
  Let nh := scalar cat "last_hash_cell" - scalar cat "first_hash_cell" + 1.
  Lemma content_split : content = rb hdr ++ rb [d_pos] ++ rb [d_vel] ++ rb [d_ids] ++ rb [d_first; d_last] ++ rb [d_hash] ++ extra.
  Proof. rewrite (proj2 H), (ReadPartProofs.split_snapshot cat). unfold file_bytes. rewrite !map_app, !concat_app. now rewrite <- !app_assoc. Qed.
  Definition header_fields : list field := firstn 16 L2_snapshot_header.
  Definition header_names : list string := map fd_name header_fields.
  Lemma all_ok : Forall piece_ok hdr /\ Forall piece_ok [d_pos] /\ Forall piece_ok [d_vel] /\ Forall piece_ok [d_ids] /\ Forall piece_ok [d_first; d_last] /\ Forall piece_ok [d_hash].
  Proof.
    destruct (ReadPartProofs.oks cat ok) as (O1 & O2 & O3 & O4 & O5 & O6). assert (forall l, Forall piece_ok (record l) -> Forall piece_ok l) as R.
    { intros l Hl. apply Forall_forall. intros p Hp. apply (ReadPartProofs.rec_in l p Hl Hp). }
    repeat split; now apply R.
  Qed.
  Lemma hdr_data : Forall is_data hdr.
  Proof. unfold ReadPartProofs.hdr. apply Forall_map, Forall_forall. intros fd _. exact I. Qed.
  Lemma hdr_csize : csize (map piece_chunk hdr) = 256.
  Proof. rewrite <- data_size by exact hdr_data. exact (ReadPartProofs.hdr_size cat ok). Qed.
  Lemma header_read k post : read_record little (firstn k (rb hdr ++ post)) 0 header_items = if Z.of_nat k <? 264 then Err EIO else Ok (map cat header_names, 264).
  Proof.
    destruct all_ok as (O1 & _). assert (hdr = map (attr_of cat) header_fields ++ [attr_of cat (F "Header/fill" 1 [Fixed 84])]) as E by reflexivity.
    pose proof hdr_data as D. pose proof hdr_csize as S. rewrite E in *. pose proof (record_cut little k [] (map (attr_of cat) header_fields) [attr_of cat (F "Header/fill" 1 [Fixed 84])] post header_items D O1 ltac:(lia)) as R.
    rewrite S in R. cbn [app] in R. change (zlen (@nil Z)) with 0 in R. change (0 + 8 + 256) with 264 in R. rewrite R; [unfold header_names; now rewrite !map_map|].
    assert (forall l, Forall piece_ok (map (attr_of cat) l) -> items_of (map piece_chunk (map (attr_of cat) l)) = map (fun fd => (fd_size fd, fold_left Z.mul (map (extent cat) (fd_dims fd)) 1)) l) as G.
    { clear. intros l Hl. unfold items_of. rewrite !map_map. apply map_ext_in. intros fd Hfd. rewrite Forall_map, Forall_forall in Hl. destruct (Hl fd Hfd) as (_ & _ & E & _). cbn [attr_of piece_chunk]. now rewrite E. }
    rewrite Forall_app in O1. rewrite G by apply O1. reflexivity.
  Qed.
  Lemma header_cut k : readheader little (firstn k content) = if Z.of_nat k <? 264 then Err EIO else Ok (map cat header_names).
  Proof. unfold readheader. rewrite content_split, header_read. destruct (Z.of_nat k <? 264); reflexivity. Qed.
  Lemma header_length : 264 <= zlen content.
  Proof.
    rewrite content_split, zlen_app. pose proof (zlen_nonneg (rb [d_pos] ++ rb [d_vel] ++ rb [d_ids] ++ rb [d_first; d_last] ++ rb [d_hash] ++ extra)). rewrite ReadPartProofs.sizes_len; [rewrite ReadPartProofs.rec_size by exact cat; rewrite (ReadPartProofs.hdr_size cat ok); lia|].
    apply ReadPartProofs.ok_sizes. apply (ReadPartProofs.oks cat ok).
  Qed.
  Lemma header_final : readheader little content = Ok (map cat header_names).
  Proof. pose proof (header_cut (List.length content)) as R. rewrite firstn_all in R. rewrite R. pose proof header_length. unfold zlen in *. now replace (Z.of_nat (List.length content) <? 264) with false by lia. Qed.
  Lemma range_of nm (fd := six nm 4) : In (attr_of cat fd) hdr -> Forall (fun v => 0 <= v < 2 ^ 32) (cat nm).
  Proof. intro Hin. destruct all_ok as (O1 & _). rewrite Forall_forall in O1. destruct (O1 _ Hin) as (_ & _ & _ & F). exact F. Qed.

  Lemma n_bound : 0 <= 12 * n < 2 ^ 32.
  Proof.
    destruct (ReadPartProofs.oks cat ok) as (_ & O2 & _). destruct (ReadPartProofs.pos_bytes cat ok) as (Z2 & _). fold (npart_of cat) in Z2. fold n in Z2.
    unfold record in O2. cbn zeta in O2. rewrite Z2 in O2. apply Forall_inv in O2. exact O2.
  Qed.
  Lemma np_value : h_npart (map cat header_names) = n.
  Proof.
    unfold h_npart, item. change (nth 0 (map cat header_names) []) with (cat "Header/NumPart_ThisFile"%string). rewrite signed_model. apply signed_id. pose proof n_bound. unfold n, npart_of in *. lia.
  Qed.
  (** positions of 2 GB or more *)
  Lemma file_big room hroom : 2 ^ 31 <= 12 * n -> n <= room -> readfile little content room hroom = Err EIO.
  Proof.
    intros Hb Hr. pose proof n_bound as B. destruct (ReadPartProofs.pos_bytes cat ok) as (Z2 & _). fold (npart_of cat) in Z2. fold n in Z2.
    assert (zlen (rb hdr) = 264) as K1 by (rewrite ReadPartProofs.sizes_len; [rewrite ReadPartProofs.rec_size by exact cat; rewrite (ReadPartProofs.hdr_size cat ok); lia | apply ReadPartProofs.ok_sizes; apply (ReadPartProofs.oks cat ok)]).
    unfold readfile. pose proof (header_read (List.length content) (rb [d_pos] ++ rb [d_vel] ++ rb [d_ids] ++ rb [d_first; d_last] ++ rb [d_hash] ++ extra)) as R. rewrite <- content_split, firstn_all in R. rewrite R. pose proof header_length. unfold zlen in H0. replace (Z.of_nat (List.length content) <? 264) with false by lia. cbn [bind].
    rewrite np_value. replace (n <=? room) with true by lia. cbn [check bind]. rewrite content_split, <- K1.
    assert (exists q, rb [d_pos] ++ rb [d_vel] ++ rb [d_ids] ++ rb [d_first; d_last] ++ rb [d_hash] ++ extra = number_bytes little 4 (12 * n) ++ q) as [q ->].
    { unfold record at 1. cbn zeta. rewrite Z2. unfold file_bytes at 1. cbn [map concat piece_bytes]. rewrite <- app_assoc. eexists. reflexivity. }
    rewrite record_big by lia. reflexivity.
  Qed.
  (** no room for the particles *)
  Lemma file_room room hroom : room < n -> readfile little content room hroom = Err EAbort.
  Proof.
    intro Hr. unfold readfile. pose proof (header_read (List.length content) (rb [d_pos] ++ rb [d_vel] ++ rb [d_ids] ++ rb [d_first; d_last] ++ rb [d_hash] ++ extra)) as R. rewrite <- content_split, firstn_all in R. rewrite R. pose proof header_length. unfold zlen in H0. replace (Z.of_nat (List.length content) <? 264) with false by lia. cbn [bind].
    rewrite np_value. replace (n <=? room) with false by lia. reflexivity.
  Qed.

  Hypothesis Hn : 12 * n < 2 ^ 31.
  Hypothesis Hnh : 4 * nh < 2 ^ 31.
  Hypothesis Hf : scalar cat "first_hash_cell" < 2 ^ 31.
  Hypothesis Hl : scalar cat "last_hash_cell" < 2 ^ 31.
  Lemma file_cut k room hroom : n <= room -> nh <= hroom -> readfile little (firstn k content) room hroom =
    if Z.of_nat k <? 312 + 32 * n + 4 * nh then Err EIO else Ok (map cat header_names, (scalar cat "first_hash_cell", scalar cat "last_hash_cell", map signed (cat "blockid"%string)),
        (map (row3 (cat "PartType1/Coordinates"%string)) (zseq 0 (Z.to_nat n)), map (row3 (cat "PartType1/Velocities"%string)) (zseq 0 (Z.to_nat n)), map signed64 (cat "PartType1/ParticleIDs"%string))).
  Proof.
    intros Hr Hh. destruct all_ok as (O1 & O2 & O3 & O4 & O5 & O6). pose proof (ReadPartProofs.n_nonneg cat ok) as N0. fold (npart_of cat) in N0. fold n in N0.
    destruct (ReadPartProofs.pos_ok cat ok) as [Lp _]. destruct (ReadPartProofs.vel_ok cat ok) as [Lv _]. destruct (ReadPartProofs.ids_ok cat ok) as [Li _]. destruct (ReadPartProofs.first_ok cat ok) as [Lf Rf]. destruct (ReadPartProofs.last_ok cat ok) as [Ll Rl]. destruct (ReadPartProofs.hash_ok cat ok) as [Lh _]. fold nh in Lh.
    fold (npart_of cat) in Lp, Lv, Li. fold n in Lp, Lv, Li.
    set (c1 := rb hdr) in *. set (c2 := rb [d_pos]) in *. set (c3 := rb [d_vel]) in *. set (c4 := rb [d_ids]) in *. set (c5 := rb [d_first; d_last]) in *.
    assert (csize (map piece_chunk [d_pos]) = 12 * n) as Z2 by (unfold csize; cbn [map piece_chunk ReadPartProofs.d_pos plain_data sumZ fold_right]; lia).
    assert (csize (map piece_chunk [d_vel]) = 12 * n) as Z3 by (unfold csize; cbn [map piece_chunk ReadPartProofs.d_vel plain_data sumZ fold_right]; lia).
    assert (csize (map piece_chunk [d_ids]) = 8 * n) as Z4 by (unfold csize; cbn [map piece_chunk ReadPartProofs.d_ids plain_data sumZ fold_right]; lia).
    assert (csize (map piece_chunk [d_first; d_last]) = 8) as Z5 by (unfold csize; cbn [map piece_chunk ReadPartProofs.d_first ReadPartProofs.d_last plain_data sumZ fold_right]; lia).
    assert (csize (map piece_chunk [d_hash]) = 4 * nh) as Z6 by (unfold csize; cbn [map piece_chunk ReadPartProofs.d_hash plain_data sumZ fold_right]; lia).
    assert (forall l, Forall is_data l -> Forall piece_ok l -> csize (map piece_chunk l) < 2 ^ 31 -> zlen (rb l) = 8 + csize (map piece_chunk l)) as RL.
    { intros l A B C. rewrite <- data_size by exact A. rewrite ReadPartProofs.sizes_len; [now rewrite ReadPartProofs.rec_size|]. apply ReadPartProofs.ok_sizes. unfold record. cbn zeta. pose proof (csize_nonneg _ (data_good _ A B)). rewrite <- data_size in * by exact A. constructor; [cbn; lia|]. apply Forall_app. split; [exact B|]. constructor; [cbn; lia | constructor]. }
    assert (zlen c1 = 264) as K1 by (unfold c1; rewrite RL by (exact hdr_data || exact O1 || (rewrite hdr_csize; lia)); rewrite hdr_csize; lia).
    assert (Forall is_data [d_pos] /\ Forall is_data [d_vel] /\ Forall is_data [d_ids] /\ Forall is_data [d_first; d_last] /\ Forall is_data [d_hash]) as (D2 & D3 & D4 & D5 & D6) by (repeat split; repeat constructor).
    assert (zlen c2 = 8 + 12 * n) as K2 by (unfold c2; rewrite RL by (assumption || lia); lia).
    assert (zlen c3 = 8 + 12 * n) as K3 by (unfold c3; rewrite RL by (assumption || lia); lia).
    assert (zlen c4 = 8 + 8 * n) as K4 by (unfold c4; rewrite RL by (assumption || lia); lia).
    assert (zlen c5 = 16) as K5 by (unfold c5; rewrite RL by (assumption || lia); lia).
    assert (zlen (c1 ++ c2) = 272 + 12 * n) as K12 by (rewrite zlen_app; lia). assert (zlen ((c1 ++ c2) ++ c3) = 280 + 24 * n) as K13 by (rewrite zlen_app; lia). assert (zlen (((c1 ++ c2) ++ c3) ++ c4) = 288 + 32 * n) as K14 by (rewrite zlen_app; lia). assert (zlen ((((c1 ++ c2) ++ c3) ++ c4) ++ c5) = 304 + 32 * n) as K15 by (rewrite zlen_app; lia).
    assert (0 <= nh) as NH by (rewrite <- Lh; apply zlen_nonneg).
    unfold readfile. rewrite content_split. fold c1 c2 c3 c4 c5. unfold c1 at 1. rewrite header_read. match goal with |- context [bind (if Z.of_nat k <? ?b then _ else _) _] => destruct (Z.ltb_spec (Z.of_nat k) b) as [?C|?C] end; [cbn [bind]; now replace (Z.of_nat k <? 312 + 32 * n + 4 * nh) with true by lia|]. cbn [bind]. rewrite np_value. replace (n <=? room) with true by lia. cbn [check bind].
    (* positions *)
    rewrite <- K1. pose proof (record_cut little k c1 [d_pos] [] (c3 ++ c4 ++ c5 ++ rb [d_hash] ++ extra) [(4, 3 * n)]) as R. cbn [app] in R. fold c2 in R. rewrite R by (assumption || lia || (unfold items_of; cbn [map piece_chunk ReadPartProofs.d_pos plain_data]; now rewrite Lp)). clear R. rewrite ?Z2, ?Z3, ?Z4, ?Z5, ?Z6. match goal with |- context [bind (if Z.of_nat k <? ?b then _ else _) _] => destruct (Z.ltb_spec (Z.of_nat k) b) as [?C|?C] end; [cbn [bind]; now replace (Z.of_nat k <? 312 + 32 * n + 4 * nh) with true by lia|]. cbn [bind]. 
    (* velocities *)
    replace (zlen c1 + 8 + 12 * n) with (zlen (c1 ++ c2)) by (rewrite zlen_app; lia). rewrite (app_assoc c1 c2).
    pose proof (record_cut little k (c1 ++ c2) [d_vel] [] (c4 ++ c5 ++ rb [d_hash] ++ extra) [(4, 3 * n)]) as R. cbn [app] in R. fold c3 in R. rewrite R by (assumption || lia || (unfold items_of; cbn [map piece_chunk ReadPartProofs.d_vel plain_data]; now rewrite Lv)). clear R. rewrite ?Z2, ?Z3, ?Z4, ?Z5, ?Z6. match goal with |- context [bind (if Z.of_nat k <? ?b then _ else _) _] => destruct (Z.ltb_spec (Z.of_nat k) b) as [?C|?C] end; [cbn [bind]; now replace (Z.of_nat k <? 312 + 32 * n + 4 * nh) with true by lia|]. cbn [bind]. 
    (* ids *)
    replace (zlen (c1 ++ c2) + 8 + 12 * n) with (zlen ((c1 ++ c2) ++ c3)) by (rewrite (zlen_app (c1 ++ c2)); lia). rewrite (app_assoc (c1 ++ c2) c3).
    pose proof (record_cut little k ((c1 ++ c2) ++ c3) [d_ids] [] (c5 ++ rb [d_hash] ++ extra) [(8, n)]) as R. cbn [app] in R. fold c4 in R. rewrite R by (assumption || lia || (unfold items_of; cbn [map piece_chunk ReadPartProofs.d_ids plain_data]; now rewrite Li)). clear R. rewrite ?Z2, ?Z3, ?Z4, ?Z5, ?Z6. match goal with |- context [bind (if Z.of_nat k <? ?b then _ else _) _] => destruct (Z.ltb_spec (Z.of_nat k) b) as [?C|?C] end; [cbn [bind]; now replace (Z.of_nat k <? 312 + 32 * n + 4 * nh) with true by lia|]. cbn [bind]. 
    (* cells *)
    set (p4 := (c1 ++ c2) ++ c3) in *. replace (zlen p4 + 8 + 8 * n) with (zlen (p4 ++ c4)) by (rewrite (zlen_app p4); lia). rewrite (app_assoc p4 c4). set (p5 := p4 ++ c4) in *.
    assert (read_record little (firstn k (p5 ++ c5 ++ rb [d_hash] ++ extra)) (zlen p5) [(4, 2)] = if Z.of_nat k <? zlen (p5 ++ c5) then Err EIO else Ok ([[scalar cat "first_hash_cell"; scalar cat "last_hash_cell"]], zlen (p5 ++ c5))) as ->.
    { assert (exists a, cat "first_hash_cell"%string = [a]) as (a & Ea) by (destruct (cat "first_hash_cell"%string) as [|a [|]]; unfold zlen in Lf; cbn in Lf; try lia; now exists a).
      assert (exists b, cat "last_hash_cell"%string = [b]) as (b & Eb) by (destruct (cat "last_hash_cell"%string) as [|b [|]]; unfold zlen in Ll; cbn in Ll; try lia; now exists b).
      unfold scalar. rewrite Ea, Eb. cbn [nth].
      pose proof (record_cut little k p5 [Data (list_ascii_of_string "cells") false 4 [2] [a; b]] [] (rb [d_hash] ++ extra) [(4, 2)]) as R. cbn [app] in R.
      assert (rb [Data (list_ascii_of_string "cells") false 4 [2] [a; b]] = c5) as E5.
      { unfold c5, record, file_bytes, ReadPartProofs.d_first, ReadPartProofs.d_last, plain_data. cbn [map app sumZ fold_right piece_size concat piece_bytes]. rewrite Ea, Eb. change (zlen [a; b]) with 2. change (zlen [a]) with 1. change (zlen [b]) with 1. cbn [map concat]. now rewrite !app_nil_r, <- !app_assoc. }
      rewrite E5 in R. rewrite R; [|repeat constructor|constructor; [|constructor]; split; [lia|]; split; [repeat constructor; lia|]; split; [reflexivity|]; rewrite Ea in Rf; rewrite Eb in Rl; apply Forall_cons_iff in Rf; apply Forall_cons_iff in Rl; constructor; [apply Rf | constructor; [apply Rl | constructor]]
        | unfold csize; cbn [map piece_chunk sumZ fold_right]; change (zlen [a; b]) with 2; lia | reflexivity].
      assert (zlen p5 + 8 + csize (map piece_chunk [Data (list_ascii_of_string "cells") false 4 [2] [a; b]]) = zlen (p5 ++ c5)) as -> by (unfold csize; cbn [map piece_chunk sumZ fold_right]; change (zlen [a; b]) with 2; rewrite zlen_app; lia). reflexivity. }
    match goal with |- context [bind (if Z.of_nat k <? ?b then _ else _) _] => destruct (Z.ltb_spec (Z.of_nat k) b) as [?C|?C] end; [cbn [bind]; now replace (Z.of_nat k <? 312 + 32 * n + 4 * nh) with true by lia|]. cbn [bind]. unfold item. cbn [nth]. rewrite ints_signed. cbn [map nth].
    assert (0 <= scalar cat "first_hash_cell") as F0 by (unfold scalar; apply (ReadPartProofs.nth_in_range cat _ 0 (2 ^ 32) Rf); lia). assert (0 <= scalar cat "last_hash_cell") as L0 by (unfold scalar; apply (ReadPartProofs.nth_in_range cat _ 0 (2 ^ 32) Rl); lia).
    rewrite !signed_id by lia. pose proof (zlen_nonneg (cat "blockid"%string)) as B0. rewrite c_int_ok by (unfold nh in *; lia). cbn [bind]. fold nh. rewrite c_int_ok by (unfold nh in *; lia). cbn [bind]. replace (nh <=? hroom) with true by lia. cbn [check bind].
    rewrite (app_assoc p5 c5). pose proof (record_cut little k (p5 ++ c5) [d_hash] [] extra [(4, nh)]) as R. cbn [app] in R. rewrite R by (assumption || lia || (unfold items_of; cbn [map piece_chunk ReadPartProofs.d_hash plain_data]; now rewrite Lh)). clear R. rewrite Z6. match goal with |- context [bind (if Z.of_nat k <? ?b then _ else _) _] => destruct (Z.ltb_spec (Z.of_nat k) b) as [?C|?C] end; [cbn [bind]; now replace (Z.of_nat k <? 312 + 32 * n + 4 * nh) with true by lia|]. cbn [bind].
    replace (Z.of_nat k <? 312 + 32 * n + 4 * nh) with false by lia.
    cbn [map nth piece_chunk snd ReadPartProofs.d_pos ReadPartProofs.d_vel ReadPartProofs.d_ids ReadPartProofs.d_hash plain_data]. rewrite ints_signed, longs_signed.
    f_equal. f_equal. f_equal. f_equal; apply map_ext_in; intros i Hi; apply In_zseq in Hi; apply (col3_row cat _ n); (assumption || lia).
  Qed.
  Lemma tenth : forall fuel i, n - i <= 10 * Z.of_nat fuel -> map (fun j => j - 1) (every_tenth fuel n (i + 1)) = filter (fun j => (j - i) mod 10 =? 0) (zseq i (Z.to_nat (n - i))).
  Proof.
    induction fuel as [|fuel IH]; intros i Hi; cbn [every_tenth].
    - replace (Z.to_nat (n - i)) with 0%nat by lia. reflexivity.
    - destruct (Z.leb_spec (i + 1) n) as [C|C]; [|replace (Z.to_nat (n - i)) with 0%nat by lia; reflexivity]. cbn [map]. replace (i + 1 + 10) with (i + 10 + 1) by lia. rewrite IH by lia. replace (i + 1 - 1) with i by lia.
      set (k := Z.to_nat (n - i)). assert (exists a b, k = S a /\ (a = Nat.min 9 a + b)%nat /\ b = Z.to_nat (n - (i + 10))) as (a & b & Ek & Ea & Eb) by (exists (Z.to_nat (n - i - 1)), (Z.to_nat (n - (i + 10))); unfold k; lia).
      rewrite Ek. cbn [zseq filter]. rewrite Z.sub_diag. cbn [Z.eqb]. change (0 mod 10) with 0. cbn [Z.eqb]. f_equal. rewrite Ea. rewrite zseq_app, filter_app.
      assert (filter (fun j => (j - i) mod 10 =? 0) (zseq (i + 1) (Nat.min 9 a)) = []) as ->.
      { assert (forall l, (forall j, In j l -> 1 <= j - i <= 9) -> filter (fun j => (j - i) mod 10 =? 0) l = []) as Q; [|apply Q; intros j Hj; apply In_zseq in Hj; lia].
        induction l as [|j l IHl]; intro Hj; [reflexivity|]. cbn [filter]. rewrite IHl by (intros x Hx; apply Hj; now right). specialize (Hj j (or_introl eq_refl)). rewrite Z.mod_small by lia. replace (j - i =? 0) with false by lia. reflexivity. }
      cbn [app]. rewrite <- Eb. destruct b as [|b'] eqn:Eb'; [reflexivity|]. replace (i + 1 + Z.of_nat (Nat.min 9 a)) with (i + 10) by lia. apply filter_ext. intro j. f_equal. replace (j - i) with (j - (i + 10) + 1 * 10) by lia. now rewrite Z.mod_add by lia.
  Qed.
  Lemma total_size : sumZ (map piece_size (L2_snapshot cat)) = 312 + 32 * n + 4 * nh.
  Proof.
    rewrite (ReadPartProofs.split_snapshot cat).
    destruct (ReadPartProofs.pos_bytes cat ok) as (Z2 & Z3 & Z4 & Z5). fold (npart_of cat) in Z2, Z3, Z4. fold n in Z2, Z3, Z4. destruct (ReadPartProofs.hash_ok cat ok) as [Lh _]. fold nh in Lh.
    assert (sumZ (map piece_size [d_hash]) = 4 * nh) as Z6 by (cbn [map piece_size ReadPartProofs.d_hash plain_data sumZ fold_right]; lia).
    assert (forall a b, sumZ (a ++ b) = sumZ a + sumZ b) as SA by (clear; induction a as [|x a IH]; intro b; [reflexivity|]; cbn [app sumZ fold_right]; fold (sumZ (a ++ b)); fold (sumZ a); rewrite IH; lia).
    rewrite !map_app, !SA, !ReadPartProofs.rec_size by exact cat. rewrite Z2, Z3, Z4, Z5, Z6, (ReadPartProofs.hdr_size cat ok). lia.
  Qed.
  Lemma file_length : 312 + 32 * n + 4 * nh <= zlen content.
  Proof. rewrite (proj2 H), zlen_app. pose proof (zlen_nonneg extra). rewrite ReadPartProofs.sizes_len by (now apply ReadPartProofs.ok_sizes). rewrite total_size. lia. Qed.
  Lemma file_final room hroom : n <= room -> nh <= hroom -> readfile little content room hroom =
    Ok (map cat header_names, (scalar cat "first_hash_cell", scalar cat "last_hash_cell", map signed (cat "blockid"%string)),
        (map (row3 (cat "PartType1/Coordinates"%string)) (zseq 0 (Z.to_nat n)), map (row3 (cat "PartType1/Velocities"%string)) (zseq 0 (Z.to_nat n)), map signed64 (cat "PartType1/ParticleIDs"%string))).
  Proof.
    intros Hr Hh. pose proof (file_cut (List.length content) room hroom Hr Hh) as R. rewrite firstn_all in R. rewrite R. pose proof file_length. unfold zlen in *. now replace (Z.of_nat (List.length content) <? _) with false by lia.
  Qed.
  Lemma program_cut k : nh <= signed (scalar cat "Header/HashTabSize") -> file_program little (firstn k content) =
    if Z.of_nat k <? 312 + 32 * n + 4 * nh then Err EIO else Ok (map (fun i => (signed64 (at_index (cat "PartType1/ParticleIDs"%string) i), row3 (cat "PartType1/Coordinates"%string) i)) (filter (fun i => i mod 10 =? 0) (zseq 0 (Z.to_nat n)))).
  Proof.
    intro Hh. pose proof (zlen_nonneg (cat "blockid"%string)) as NH. destruct (ReadPartProofs.hash_ok cat ok) as [Lh _]. fold nh in Lh. rewrite Lh in NH.
    unfold file_program. rewrite header_cut. pose proof n_bound as NB. destruct (Z.ltb_spec (Z.of_nat k) 264) as [C|C]; [cbn [bind]; now replace (Z.of_nat k <? 312 + 32 * n + 4 * nh) with true by lia|]. cbn [bind]. rewrite np_value. assert (h_hashtabsize (map cat header_names) = signed (scalar cat "Header/HashTabSize")) as -> by (unfold h_hashtabsize; rewrite signed_model; reflexivity).
    pose proof (ReadPartProofs.n_nonneg cat ok) as N0. fold (npart_of cat) in N0. fold n in N0. rewrite file_cut by lia. destruct (Z.ltb_spec (Z.of_nat k) (312 + 32 * n + 4 * nh)) as [D|D]; [reflexivity|]. cbn [bind fst]. rewrite np_value.
    destruct (ReadPartProofs.ids_ok cat ok) as [Li _]. fold (npart_of cat) in Li. fold n in Li.
    assert (forall l, (forall j, In j (map (fun j => j - 1) l) -> 0 <= j < n) -> mapM (fun i => do id <- fget (map signed64 (cat "PartType1/ParticleIDs"%string)) (i - 1); do x <- fget (map (row3 (cat "PartType1/Coordinates"%string)) (zseq 0 (Z.to_nat n))) (i - 1); Ok (id, x)) l =
      Ok (map (fun i => (signed64 (at_index (cat "PartType1/ParticleIDs"%string) i), row3 (cat "PartType1/Coordinates"%string) i)) (map (fun j => j - 1) l))) as Q.
    { intros l Hj. rewrite map_map. apply mapM_map_ok. intros j Hin. specialize (Hj (j - 1) (in_map (fun j => j - 1) _ _ Hin)). unfold fget. replace (0 <=? j - 1) with true by lia.
      rewrite (nth_error_nth' _ (signed64 0)) by (rewrite map_length; unfold zlen in Li; lia). rewrite map_nth. cbn [bind]. rewrite (nth_error_nth' _ (row3 (cat "PartType1/Coordinates"%string) 0)) by (rewrite map_length, zseq_length; lia). rewrite map_nth, nth_zseq by lia. cbn [bind]. unfold at_index. do 3 f_equal. lia. }
    pose proof (tenth (Z.to_nat n) 0) as T. change (0 + 1) with 1 in T. rewrite Q.
    - rewrite T by lia. do 2 f_equal. rewrite Z.sub_0_r. apply filter_ext. intro j. now rewrite Z.sub_0_r.
    - rewrite T by lia. intros j Hj. apply filter_In in Hj. destruct Hj as [Hj _]. apply In_zseq in Hj. lia.
  Qed.
  Lemma program_ok : nh <= signed (scalar cat "Header/HashTabSize") -> file_program little content =
    Ok (map (fun i => (signed64 (at_index (cat "PartType1/ParticleIDs"%string) i), row3 (cat "PartType1/Coordinates"%string) i)) (filter (fun i => i mod 10 =? 0) (zseq 0 (Z.to_nat n)))).
  Proof.
    intros Hh. pose proof (program_cut (List.length content) Hh) as R. rewrite firstn_all in R. rewrite R. pose proof file_length. unfold zlen in *. now replace (Z.of_nat (List.length content) <? _) with false by lia.
  Qed.
End Snapshot.
