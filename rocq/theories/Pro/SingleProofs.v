(** Proofs about snapshots of the Millennium simulation in IDL programs (C100). *)
From Coq Require Import Ascii String.
From Verif Require Import Base.Prelude Base.ListLemmas Binary.BinModel Binary.EndianProofs Binary.FortranProofs Formats.FileSpec Formats.CatSpec Formats.ReaderProofs.
From Verif Require Import Peano.CPeanoModel Fortran.SortModel Fortran.RegionModel Fortran.RegionSpec Fortran.GroupTabModel Fortran.GroupTabSpec Fortran.GroupTabProofs Fortran.ReadFileProofs.
From Verif Require Fortran.ReadPartProofs Mill2.SnapFinal.
From Verif Require Import Text.StrModel Pro.ProModel Pro.ProSpec.
From Coq Require Import ZifyBool ZifyNat.
Local Open Scope Z_scope. Local Open Scope list_scope.

Section Snapshot.
  Variable little : bool.
  Variable cat : catalogue.
  Variables extra content : list Z.
  Hypothesis H : snapshot_file little cat extra content.
  Let ok : Forall piece_ok (L2_snapshot cat) := proj1 H.
  Notation hdr := (map (attr_of cat) L2_snapshot_header).
  Let n := npart_of cat.
  Notation d_pos := (plain_data cat "PartType1/Coordinates" 4 [n; 3]).
  Notation d_vel := (plain_data cat "PartType1/Velocities" 4 [n; 3]).
  Notation d_ids := (plain_data cat "PartType1/ParticleIDs" 8 [n]).
  Notation rb l := (file_bytes little (record l)).
  Lemma split3 : exists rest, content = rb hdr ++ rb [d_pos] ++ rb [d_vel] ++ rb [d_ids] ++ rest.
  Proof. eexists. exact (content_split little cat extra content H). Qed.
  (** a read of the first fields of the header *)
  Lemma some_header j k items : items = map (fun fd => (fd_size fd, fold_left Z.mul (map (extent cat) (fd_dims fd)) 1)) (firstn j L2_snapshot_header) ->
    read_record little (firstn k content) 0 items = if Z.of_nat k <? 264 then Err EIO else Ok (map cat (map fd_name (firstn j L2_snapshot_header)), 264).
  Proof.
    intros ->. destruct split3 as [rest Er]. rewrite Er. destruct (all_ok little cat extra content H) as (O1 & _). pose proof (hdr_data cat) as D. pose proof (hdr_csize little cat extra content H) as S.
    change (ReadPartProofs.hdr cat) with hdr in *. assert (hdr = map (attr_of cat) (firstn j L2_snapshot_header) ++ map (attr_of cat) (skipn j L2_snapshot_header)) as E by (rewrite <- map_app; now rewrite firstn_skipn).
    rewrite E in *. pose proof (record_cut little k [] _ _ (rb [d_pos] ++ rb [d_vel] ++ rb [d_ids] ++ rest) (map (fun fd => (fd_size fd, fold_left Z.mul (map (extent cat) (fd_dims fd)) 1)) (firstn j L2_snapshot_header)) D O1 ltac:(lia)) as R.
    rewrite S in R. change (zlen (@nil Z)) with 0 in R. change (0 + 8 + 256) with 264 in R. cbn [app] in R. rewrite R; [now rewrite !map_map|].
    unfold items_of. rewrite !map_map. apply map_ext_in. intros fd Hfd. rewrite Forall_app in O1. destruct O1 as [O1 _]. rewrite Forall_map, Forall_forall in O1. destruct (O1 fd Hfd) as (_ & _ & A & _). cbn [attr_of piece_chunk]. now rewrite A.
  Qed.
  Lemma oks : piece_ok d_pos /\ piece_ok d_vel /\ piece_ok d_ids.
  Proof. destruct (all_ok little cat extra content H) as (_ & O2 & O3 & O4 & _). exact (conj (Forall_inv O2) (conj (Forall_inv O3) (Forall_inv O4))). Qed.
  Lemma lens : zlen (cat "PartType1/Coordinates"%string) = 3 * n /\ zlen (cat "PartType1/Velocities"%string) = 3 * n /\ zlen (cat "PartType1/ParticleIDs"%string) = n.
  Proof. destruct oks as ((_ & _ & A & _) & (_ & _ & B & _) & (_ & _ & C & _)). cbn [fold_left] in A, B, C. rewrite A, B, C. lia. Qed.
  Lemma n_small : 0 <= 12 * n < 2 ^ 32.
  Proof. exact (n_bound little cat extra content H). Qed.
  Lemma rb_lens : zlen (rb hdr) = 264 /\ zlen (rb [d_pos]) = 8 + 12 * n /\ zlen (rb [d_vel]) = 8 + 12 * n.
  Proof.
    destruct (all_ok little cat extra content H) as (O1 & O2 & O3 & _). assert (forall l, Forall is_data l -> Forall piece_ok l -> zlen (rb l) = 8 + csize (map piece_chunk l)) as L.
    { intros l HD HO. rewrite SnapFinal.record_bytes by exact HD. rewrite !zlen_app, cbytes_len by (now apply data_good). rewrite number_len by lia. lia. }
    destruct lens as (A & B & _). pose proof (hdr_csize little cat extra content H) as S. change (ReadPartProofs.hdr cat) with hdr in *. split; [|split].
    - rewrite L by (exact (hdr_data cat) || exact O1). rewrite S. reflexivity.
    - rewrite L by (exact O2 || (apply SnapFinal.one_data)). unfold csize. cbn [map piece_chunk plain_data sumZ fold_right]. rewrite A. lia.
    - rewrite L by (exact O3 || (apply SnapFinal.one_data)). unfold csize. cbn [map piece_chunk plain_data sumZ fold_right]. rewrite B. lia.
  Qed.
  Lemma read_positions k : 12 * n < 2 ^ 31 -> read_record little (firstn k content) 264 [(4, 3 * n)] = if Z.of_nat k <? 272 + 12 * n then Err EIO else Ok ([cat "PartType1/Coordinates"%string], 272 + 12 * n).
  Proof.
    intro Hb. destruct split3 as [rest E]. destruct oks as (O2 & _). destruct lens as (A & _). destruct rb_lens as (L1 & _).
    pose proof (SnapFinal.body_cut little cat k (rb hdr) _ _ _ (rb [d_vel] ++ rb [d_ids] ++ rest) [(4, 3 * n)] O2 ltac:(rewrite A; lia) ltac:(now rewrite A)) as R. rewrite <- E, L1, A in R. replace (264 + 8 + 4 * (3 * n)) with (272 + 12 * n) in R by lia. exact R.
  Qed.
  Lemma read_velocities k : 12 * n < 2 ^ 31 -> read_record little (firstn k content) (272 + 12 * n) [(4, 3 * n)] = if Z.of_nat k <? 280 + 24 * n then Err EIO else Ok ([cat "PartType1/Velocities"%string], 280 + 24 * n).
  Proof.
    intro Hb. destruct split3 as [rest E]. destruct oks as (_ & O3 & _). destruct lens as (_ & A & _). destruct rb_lens as (L1 & L2 & _).
    pose proof (SnapFinal.body_cut little cat k (rb hdr ++ rb [d_pos]) _ _ _ (rb [d_ids] ++ rest) [(4, 3 * n)] O3 ltac:(rewrite A; lia) ltac:(now rewrite A)) as R. rewrite <- app_assoc, <- E, zlen_app, L1, L2, A in R.
    replace (264 + (8 + 12 * n)) with (272 + 12 * n) in R by lia. replace (272 + 12 * n + 8 + 4 * (3 * n)) with (280 + 24 * n) in R by lia. exact R.
  Qed.
  Lemma read_ids k : 12 * n < 2 ^ 31 -> read_record little (firstn k content) (280 + 24 * n) [(8, n)] = if Z.of_nat k <? 288 + 32 * n then Err EIO else Ok ([cat "PartType1/ParticleIDs"%string], 288 + 32 * n).
  Proof.
    intro Hb. destruct split3 as [rest E]. destruct oks as (_ & _ & O4). destruct lens as (_ & _ & A). destruct rb_lens as (L1 & L2 & L3). pose proof n_small.
    pose proof (SnapFinal.body_cut little cat k (rb hdr ++ rb [d_pos] ++ rb [d_vel]) _ _ _ rest [(8, n)] O4 ltac:(rewrite A; lia) ltac:(now rewrite A)) as R. rewrite <- !app_assoc, <- E, !zlen_app, L1, L2, L3, A in R.
    replace (264 + (8 + 12 * n + (8 + 12 * n))) with (280 + 24 * n) in R by lia. replace (280 + 24 * n + 8 + 8 * n) with (288 + 32 * n) in R by lia. exact R.
  Qed.
  Lemma single_final (fs : str -> option (list Z)) base snapbase num sub k : fs (snapshot_name base snapbase num sub) = Some (firstn k content) -> 0 < n -> 12 * n < 2 ^ 31 ->
    read_single little fs base snapbase num sub = if Z.of_nat k <? 288 + 32 * n then Err EIO else
      Ok (map signed (cat "Header/NumPart_ThisFile"%string), (cat "PartType1/Coordinates"%string, cat "PartType1/Velocities"%string, map signed64 (cat "PartType1/ParticleIDs"%string))).
  Proof.
    intros HF Hp Hb. unfold read_single, openr. rewrite HF. cbn [bind]. rewrite (some_header 10 k single_items eq_refl). destruct (Z.ltb_spec (Z.of_nat k) 264) as [C|C]; cbn [bind]; [replace (Z.of_nat k <? 288 + 32 * n) with true by lia; reflexivity|].
    set (h := map cat _). assert (h_npart h = n) as ->. { change (signed32 (npart_of cat) = n). rewrite signed_model. apply signed_id. unfold n in *. lia. }
    cbn zeta. unfold new_array. replace (0 <? n) with true by lia. cbn [check bind].
    rewrite read_positions by exact Hb. destruct (Z.ltb_spec (Z.of_nat k) (272 + 12 * n)) as [C1|C1]; cbn [bind]; [replace (Z.of_nat k <? 288 + 32 * n) with true by lia; reflexivity|].
    rewrite read_velocities by exact Hb. destruct (Z.ltb_spec (Z.of_nat k) (280 + 24 * n)) as [C2|C2]; cbn [bind]; [replace (Z.of_nat k <? 288 + 32 * n) with true by lia; reflexivity|].
    rewrite read_ids by exact Hb. destruct (Z.ltb_spec (Z.of_nat k) (288 + 32 * n)) as [C3|C3]; cbn [bind]; [reflexivity|]. cbn [item nth]. rewrite longs_signed, ints_signed. reflexivity.
  Qed.
End Snapshot.
