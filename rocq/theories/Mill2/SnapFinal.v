(** Proofs about the readers of Millennium-2 snapshots (C99). *)
From Coq Require Import Ascii String.
From Verif Require Import Base.Prelude Base.ListLemmas Binary.BinModel Binary.EndianProofs Binary.FortranProofs Formats.FileSpec Formats.CatSpec Formats.GadgetSpec Formats.ReaderProofs.
From Verif Require Import Peano.CPeanoModel Fortran.SortModel Fortran.RegionModel Fortran.RegionSpec Fortran.GroupTabModel Fortran.GroupTabSpec Fortran.GroupTabProofs Fortran.ReadFileProofs.
From Verif Require Fortran.ReadPartProofs.
From Verif Require Import Mill2.SnapModel Mill2.SnapSpec.
From Coq Require Import ZifyBool ZifyNat.
Local Open Scope Z_scope.

Lemma record_parts l : Forall piece_ok (record l) -> Forall piece_ok l.
Proof. intro Hl. apply Forall_forall. intros p Hp. apply (ReadPartProofs.rec_in l p Hl Hp). Qed.
Lemma record_bytes lf l : Forall is_data l -> file_bytes lf (record l) = number_bytes lf 4 (csize (map piece_chunk l)) ++ cbytes lf (map piece_chunk l) ++ number_bytes lf 4 (csize (map piece_chunk l)).
Proof.
  intro HD. unfold record. cbn zeta. rewrite data_size by exact HD. unfold file_bytes at 1. cbn [map concat piece_bytes]. rewrite map_app, concat_app. cbn [map concat piece_bytes]. rewrite app_nil_r. fold (file_bytes lf l). now rewrite data_bytes.
Qed.
Lemma decode_ok little s v : 0 < s -> Forall (fun x => 0 <= x < 256 ^ s) v -> decode little s (zlen v) (cbytes little [(s, v)]) = v.
Proof.
  intros Hs Hv. pose proof (transfer_ok little [(s, v)] [] ltac:(constructor; [now split|constructor])) as T. rewrite app_nil_r in T. cbn [items_of map transfer] in T. pose proof (zlen_nonneg v). replace (Z.max 0 (zlen v)) with (zlen v) in T by lia.
  destruct (s * zlen v <=? zlen (cbytes little [(s, v)])); [|discriminate]. cbn [check bind map snd] in T. inversion T as [E]. unfold decode. now rewrite E.
Qed.

Section File.
  Variable little : bool.
  Variable cat : catalogue.
  Variables extra content : list Z.
  Hypothesis H : m2_file little cat extra content.
  Let n := count cat.
  Definition fill : list Z := cat "Header/unused"%string.
  Notation hdr := (map (attr_of cat) M2_header).
  Notation d_pos := (plain_data cat "PartType1/Coordinates" 4 [n; 3]).
  Notation d_vel := (plain_data cat "PartType1/Velocities" 4 [n; 3]).
  Notation d_ids := (plain_data cat "PartType1/ParticleIDs" 8 [n]).
  Notation rb l := (file_bytes little (record l)).
  Lemma content_split : content = rb hdr ++ rb [d_pos] ++ rb [d_vel] ++ rb [d_ids] ++ extra.
  Proof. rewrite (proj2 H). unfold M2_snapshot. fold (count cat). fold n. unfold file_bytes. rewrite !map_app, !concat_app. now rewrite <- !app_assoc. Qed.
  Lemma oks : Forall piece_ok (record hdr) /\ Forall piece_ok (record [d_pos]) /\ Forall piece_ok (record [d_vel]) /\ Forall piece_ok (record [d_ids]).
  Proof. pose proof (proj1 H) as O. unfold M2_snapshot in O. fold (count cat) in O. fold n in O. rewrite !Forall_app in O. tauto. Qed.
  Lemma parts : Forall piece_ok hdr /\ piece_ok d_pos /\ piece_ok d_vel /\ piece_ok d_ids.
  Proof. destruct oks as (O1 & O2 & O3 & O4). apply record_parts in O1, O2, O3, O4. split; [exact O1|]. split; [exact (Forall_inv O2)|]. split; [exact (Forall_inv O3) | exact (Forall_inv O4)]. Qed.
  Lemma pos_len : zlen (cat "PartType1/Coordinates"%string) = 3 * n /\ zlen (cat "PartType1/Velocities"%string) = 3 * n /\ zlen (cat "PartType1/ParticleIDs"%string) = n.
  Proof. destruct parts as (_ & (_ & _ & A & _) & (_ & _ & B & _) & (_ & _ & C & _)). cbn [fold_left] in A, B, C. rewrite A, B, C. lia. Qed.
  Lemma n_nonneg : 0 <= n.
  Proof. destruct pos_len as (_ & _ & <-). apply zlen_nonneg. Qed.
  Lemma sizes : csize (map piece_chunk [d_pos]) = 12 * n /\ csize (map piece_chunk [d_vel]) = 12 * n /\ csize (map piece_chunk [d_ids]) = 8 * n.
  Proof. destruct pos_len as (A & B & C). unfold csize. cbn [map piece_chunk plain_data sumZ fold_right]. rewrite A, B, C. lia. Qed.
  Lemma one_data nm s sh : Forall is_data [plain_data cat nm s sh].
  Proof. repeat constructor. Qed.
  Lemma n_bound : 12 * n < 2 ^ 32.
  Proof.
    destruct oks as (_ & O2 & _). unfold record in O2. cbn zeta in O2. apply Forall_inv in O2. rewrite data_size in O2 by apply one_data. destruct sizes as (E & _). rewrite E in O2. apply O2.
  Qed.
  Lemma hdr_data : Forall is_data hdr.
  Proof. apply Forall_map, Forall_forall. intros fd _. exact I. Qed.
  Lemma field_len fd : In fd M2_header -> zlen (cat (fd_name fd)) = fold_left Z.mul (map (extent cat) (fd_dims fd)) 1 /\ Forall (fun v => 0 <= v < 256 ^ fd_size fd) (cat (fd_name fd)).
  Proof. intro Hf. destruct parts as (O & _). rewrite Forall_map, Forall_forall in O. destruct (O fd Hf) as (_ & _ & A & B). now split. Qed.
  Lemma hdr_items : items_of (map piece_chunk hdr) = m2_header_items 64.
  Proof.
    transitivity (map (fun fd => (fd_size fd, fold_left Z.mul (map (extent cat) (fd_dims fd)) 1)) M2_header); [|reflexivity].
    unfold items_of. rewrite !map_map. apply map_ext_in. intros fd Hf. cbn [attr_of piece_chunk]. now rewrite (proj1 (field_len fd Hf)).
  Qed.
  Lemma csize_items l : csize l = sumZ (map (fun '(s, c) => s * c) (items_of l)).
  Proof. unfold csize, items_of. rewrite map_map. f_equal. apply map_ext. now intros [s v]. Qed.
  Lemma hdr_size : csize (map piece_chunk hdr) = 256.
  Proof. rewrite csize_items, hdr_items. reflexivity. Qed.
  (** the header with its last piece in two parts *)
  Definition hdr2 : list piece := map (attr_of cat) G_header ++ [Data [] true 1 [6] (firstn 6 fill)].
  Definition tail2 : list piece := [Data [] true 1 [58] (skipn 6 fill)].
  Lemma fill_ok : List.length fill = 64%nat /\ Forall (fun v => 0 <= v < 256) fill.
  Proof. destruct (field_len (F "Header/unused" 1 [Fixed 64])) as [A B]; [unfold M2_header; apply in_app_iff; right; now left|]. cbn [fd_dims map extent fold_left fd_name] in A. split; [unfold zlen in A; unfold fill; lia | exact B]. Qed.
  Lemma split_ok : Forall is_data (hdr2 ++ tail2) /\ Forall piece_ok (hdr2 ++ tail2) /\ csize (map piece_chunk (hdr2 ++ tail2)) = 256 /\ items_of (map piece_chunk hdr2) = m2_header_items 6 /\ rb (hdr2 ++ tail2) = rb hdr.
  Proof.
    destruct fill_ok as [L B]. destruct parts as (O & _).
    assert (Forall is_data (hdr2 ++ tail2)) as D by (unfold hdr2; rewrite !Forall_app; split; [split; [apply Forall_map, Forall_forall; intros fd _; exact I | repeat constructor] | repeat constructor]).
    assert (csize (map piece_chunk (hdr2 ++ tail2)) = csize (map piece_chunk hdr)) as S.
    { unfold hdr2, M2_header. rewrite !map_app, !csize_app. unfold csize at 2 3 5. cbn [map piece_chunk attr_of tail2 sumZ fold_right fd_size fd_name]. fold fill. unfold zlen. rewrite firstn_length, skipn_length, L. lia. }
    split; [exact D|]. split; [|split; [|split]].
    - unfold hdr2. rewrite !Forall_app. repeat split.
      + unfold M2_header in O. rewrite map_app, Forall_app in O. apply O.
      + constructor; [|constructor]. split; [lia|]. split; [repeat constructor; lia|]. split; [unfold zlen; rewrite firstn_length; cbn [fold_left]; lia|]. apply Forall_forall. intros x Hx. rewrite Forall_forall in B. apply B. rewrite <- (firstn_skipn 6 fill). apply in_app_iff. now left.
      + constructor; [|constructor]. split; [lia|]. split; [repeat constructor; lia|]. split; [unfold zlen; rewrite skipn_length; cbn [fold_left]; lia|]. apply Forall_forall. intros x Hx. rewrite Forall_forall in B. apply B. rewrite <- (firstn_skipn 6 fill). apply in_app_iff. now right.
    - rewrite S. apply hdr_size.
    - pose proof hdr_items as E. unfold M2_header in E. unfold hdr2. rewrite !map_app in *. unfold items_of in *. rewrite !map_app in *.
      assert (map (fun '(s, v) => (s, zlen v)) (map piece_chunk (map (attr_of cat) G_header)) = firstn 16 (m2_header_items 64)) as ->.
      { rewrite <- E. reflexivity. }
      cbn [map piece_chunk]. unfold zlen. rewrite firstn_length, L. reflexivity.
    - rewrite !record_bytes by (exact D || exact hdr_data). rewrite S. do 2 f_equal. unfold hdr2, M2_header. rewrite !map_app, !cbytes_app, <- app_assoc. f_equal. unfold cbytes, tail2. cbn [map piece_chunk concat attr_of fd_size fd_name]. fold fill. rewrite !app_nil_r.
      rewrite <- concat_app, <- map_app, firstn_skipn. reflexivity.
  Qed.

  Lemma rb_lens : zlen (rb hdr) = 264 /\ zlen (rb [d_pos]) = 8 + 12 * n /\ zlen (rb [d_vel]) = 8 + 12 * n /\ zlen (rb [d_ids]) = 8 + 8 * n.
  Proof.
    destruct parts as (O1 & O2 & O3 & O4). destruct sizes as (S1 & S2 & S3). assert (forall l, Forall is_data l -> Forall piece_ok l -> zlen (rb l) = 8 + csize (map piece_chunk l)) as L.
    { intros l HD HO. rewrite record_bytes by exact HD. rewrite !zlen_app, cbytes_len by (now apply data_good). rewrite number_len by lia. lia. }
    rewrite !L by (apply hdr_data || apply one_data || exact O1 || (constructor; [assumption | constructor])). rewrite hdr_size, S1, S2, S3. repeat split; lia.
  Qed.
  Lemma header_cut k post l m items : Forall is_data (l ++ m) -> Forall piece_ok (l ++ m) -> csize (map piece_chunk (l ++ m)) = 256 -> items = items_of (map piece_chunk l) -> rb (l ++ m) = rb hdr ->
    read_record little (firstn k (rb hdr ++ post)) 0 items = if Z.of_nat k <? 264 then Err EIO else Ok (map (fun p => snd (piece_chunk p)) l, 264).
  Proof.
    intros D O S Hi E. rewrite <- E. pose proof (record_cut little k [] l m post items D O ltac:(lia) Hi) as R. rewrite S in R. cbn [app] in R. change (zlen (@nil Z)) with 0 in R. change (0 + 8 + 256) with 264 in R. exact R.
  Qed.
  Lemma body_cut k pre nm s sh post items : piece_ok (plain_data cat nm s sh) -> s * zlen (cat nm) < 2 ^ 31 -> items = [(s, zlen (cat nm))] ->
    read_record little (firstn k (pre ++ rb [plain_data cat nm s sh] ++ post)) (zlen pre) items = if Z.of_nat k <? zlen pre + 8 + s * zlen (cat nm) then Err EIO else Ok ([cat nm], zlen pre + 8 + s * zlen (cat nm)).
  Proof.
    intros O Hs ->. pose proof (record_cut little k pre [plain_data cat nm s sh] [] post [(s, zlen (cat nm))]) as R. rewrite app_nil_r in R. assert (csize (map piece_chunk [plain_data cat nm s sh]) = s * zlen (cat nm)) as E by (unfold csize; cbn [map piece_chunk plain_data sumZ fold_right]; lia).
    rewrite E in R. apply R; [apply one_data | constructor; [exact O | constructor] | exact Hs | reflexivity].
  Qed.
  (** the three arrays, after a header of 264 bytes *)
  Lemma arrays_cut k (B : Type) (f : list (list Z) -> list (list Z) -> list (list Z) -> res B) : 12 * n < 2 ^ 31 -> 264 <= Z.of_nat k ->
    (do (pos, p) <- read_record little (firstn k content) 264 [(4, 3 * n)]; do (vel, p) <- read_record little (firstn k content) p [(4, 3 * n)]; do (id, p) <- read_record little (firstn k content) p [(8, n)]; f pos vel id) =
    if Z.of_nat k <? 288 + 32 * n then Err EIO else f [cat "PartType1/Coordinates"%string] [cat "PartType1/Velocities"%string] [cat "PartType1/ParticleIDs"%string].
  Proof.
    intros Hb Hk. destruct rb_lens as (L1 & L2 & L3 & L4). destruct pos_len as (P1 & P2 & P3). destruct parts as (_ & O2 & O3 & O4). pose proof n_nonneg.
    pose proof (body_cut k (rb hdr) _ _ _ (rb [d_vel] ++ rb [d_ids] ++ extra) [(4, 3 * n)] O2 ltac:(rewrite P1; lia) ltac:(now rewrite P1)) as R1. rewrite <- content_split, L1, P1 in R1.
    pose proof (body_cut k (rb hdr ++ rb [d_pos]) _ _ _ (rb [d_ids] ++ extra) [(4, 3 * n)] O3 ltac:(rewrite P2; lia) ltac:(now rewrite P2)) as R2. rewrite <- app_assoc, <- content_split, zlen_app, L1, L2, P2 in R2.
    pose proof (body_cut k (rb hdr ++ rb [d_pos] ++ rb [d_vel]) _ _ _ extra [(8, n)] O4 ltac:(rewrite P3; lia) ltac:(now rewrite P3)) as R3. rewrite <- !app_assoc, <- content_split, !zlen_app, L1, L2, L3, P3 in R3.
    rewrite R1. destruct (Z.ltb_spec (Z.of_nat k) (264 + 8 + 4 * (3 * n))) as [C1|C1]; [replace (Z.of_nat k <? 288 + 32 * n) with true by lia; reflexivity|]. cbn [bind].
    replace (264 + 8 + 4 * (3 * n)) with (264 + (8 + 12 * n)) by lia. rewrite R2. destruct (Z.ltb_spec (Z.of_nat k) (264 + (8 + 12 * n) + 8 + 4 * (3 * n))) as [C2|C2]; [replace (Z.of_nat k <? 288 + 32 * n) with true by lia; reflexivity|]. cbn [bind].
    replace (264 + (8 + 12 * n) + 8 + 4 * (3 * n)) with (264 + (8 + 12 * n + (8 + 12 * n))) by lia. rewrite R3. destruct (Z.ltb_spec (Z.of_nat k) (264 + (8 + 12 * n + (8 + 12 * n)) + 8 + 8 * n)) as [C3|C3]; [replace (Z.of_nat k <? 288 + 32 * n) with true by lia; reflexivity|]. cbn [bind].
    replace (Z.of_nat k <? 288 + 32 * n) with false by lia. reflexivity.
  Qed.
  Lemma six_range nm : In (six nm 4) M2_header -> 0 <= nth 1 (cat nm) 0 < 2 ^ 32.
  Proof. intro Hf. destruct (field_len _ Hf) as [_ F]. apply (ReadPartProofs.nth_in_range cat); [exact F | lia]. Qed.
  Lemma np_value : signed32 (nth 1 (cat "Header/NumPart_ThisFile"%string) 0) = n.
  Proof. fold (count cat). fold n. rewrite signed_model. apply signed_id. pose proof n_nonneg. pose proof n_bound. lia. Qed.
  Lemma total_ok : total_number (nth 1 (cat "Header/NumPart_Total"%string) 0) (nth 1 (cat "Header/NumPart_Total_HighWord"%string) 0) = signed64 (all_particles cat).
  Proof.
    assert (0 <= nth 1 (cat "Header/NumPart_Total"%string) 0 < 2 ^ 32) as A by (apply six_range; do 6 right; now left).
    assert (0 <= nth 1 (cat "Header/NumPart_Total_HighWord"%string) 0 < 2 ^ 32) as B by (apply six_range; do 15 right; now left).
    unfold total_number, all_particles. set (a := nth 1 (cat "Header/NumPart_Total"%string) 0) in *. set (b := nth 1 (cat "Header/NumPart_Total_HighWord"%string) 0) in *.
    assert (forall v, 0 <= v < 2 ^ 32 -> (if signed32 v <? 0 then signed32 v + 2 ^ 32 else signed32 v) = v) as E. { intros v Hv. rewrite signed_model. unfold signed. destruct (Z.ltb_spec v (2 ^ 31)); [replace (v <? 0) with false by lia; reflexivity | replace (v - 2 ^ 32 <? 0) with true by lia; lia]. }
    cbn zeta. rewrite !E by assumption. rewrite Z.shiftl_mul_pow2 by lia. rewrite (Z.mul_comm b), Z.mod_small by (change (2 ^ 64) with (2 ^ 32 * 2 ^ 32); nia). apply long_signed.
  Qed.
  Lemma lines_ok (f : Z -> Z) : map (fun i => (col3 (cat "PartType1/Coordinates"%string) i ++ col3 (cat "PartType1/Velocities"%string) i, nth (Z.to_nat i) (map f (cat "PartType1/ParticleIDs"%string)) 0)) (zseq 0 (Z.to_nat n)) = particle_lines f cat.
  Proof.
    destruct pos_len as (P1 & P2 & P3). unfold particle_lines. fold n. apply map_ext_in. intros i Hi. apply In_zseq in Hi. rewrite !(col3_row cat _ n) by lia. unfold at_index. rewrite (nth_indep _ 0 (f 0)) by (rewrite map_length; unfold zlen in P3; lia). now rewrite map_nth.
  Qed.
  Lemma fortran_final k : 12 * n < 2 ^ 31 -> fortran_program little (firstn k content) = if Z.of_nat k <? 288 + 32 * n then Err EIO else Ok (signed64 (all_particles cat), scalar cat "Header/BoxSize", particle_lines signed64 cat).
  Proof.
    intro Hb. unfold fortran_program. destruct parts as (O1 & _). pose proof n_nonneg as Hn.
    pose proof (header_cut k (rb [d_pos] ++ rb [d_vel] ++ rb [d_ids] ++ extra) hdr [] (m2_header_items 64)) as R. rewrite app_nil_r in R. specialize (R hdr_data O1 hdr_size (eq_sym hdr_items) eq_refl). rewrite <- content_split in R. rewrite R.
    destruct (Z.ltb_spec (Z.of_nat k) 264) as [C|C]; [cbn [bind]; replace (Z.of_nat k <? 288 + 32 * n) with true by lia; reflexivity|]. cbn [bind]. set (h := map (fun p => snd (piece_chunk p)) hdr).
    assert (h_npart h = n) as -> by (exact np_value). cbn zeta. replace (Z.max 0 n) with n by lia.
    rewrite (arrays_cut k _ (fun pos vel id => Ok (total_number (nth 1 (item h 6) 0) (nth 1 (item h 15) 0), nth 0 (item h 9) 0, map (fun i => (col3 (item pos 0) i ++ col3 (item vel 0) i, nth (Z.to_nat i) (longs (item id 0)) 0)) (zseq 0 (Z.to_nat n))))) by (exact Hb || exact C).
    destruct (Z.of_nat k <? 288 + 32 * n); [reflexivity|]. change (item h 6) with (cat "Header/NumPart_Total"%string). change (item h 15) with (cat "Header/NumPart_Total_HighWord"%string). rewrite total_ok. cbn [item nth]. rewrite longs_signed, lines_ok. reflexivity.
  Qed.
  Lemma idl_final k : 0 < n -> 12 * n < 2 ^ 31 -> idl_program little (firstn k content) = if Z.of_nat k <? 288 + 32 * n then Err EIO else
    Ok (map signed (cat "Header/NumPart_ThisFile"%string), (cat "PartType1/Coordinates"%string, cat "PartType1/Velocities"%string, map signed64 (cat "PartType1/ParticleIDs"%string))).
  Proof.
    intros Hp Hb. unfold idl_program. destruct split_ok as (D & O & S & I & E).
    pose proof (header_cut k (rb [d_pos] ++ rb [d_vel] ++ rb [d_ids] ++ extra) hdr2 tail2 (m2_header_items 6) D O S (eq_sym I) E) as R. rewrite <- content_split in R. rewrite R.
    destruct (Z.ltb_spec (Z.of_nat k) 264) as [C|C]; [cbn [bind]; replace (Z.of_nat k <? 288 + 32 * n) with true by lia; reflexivity|]. cbn [bind]. set (h := map (fun p => snd (piece_chunk p)) hdr2).
    assert (h_npart h = n) as -> by (exact np_value). cbn zeta. replace (0 <? n) with true by lia. cbn [check bind].
    rewrite (arrays_cut k _ (fun pos vel id => Ok (ints (item h 0), (item pos 0, item vel 0, longs (item id 0))))) by (exact Hb || exact C).
    destruct (Z.of_nat k <? 288 + 32 * n); [reflexivity|]. change (item h 0) with (cat "Header/NumPart_ThisFile"%string). cbn [item nth]. now rewrite ints_signed, longs_signed.
  Qed.
  Lemma large_final : 2 ^ 31 <= 12 * n -> fortran_program little content = Err EIO /\ idl_program little content = Err EIO.
  Proof.
    intro Hb. destruct parts as (O1 & _). destruct rb_lens as (L1 & _). destruct sizes as (S1 & _). pose proof n_bound. assert (264 <= zlen content) as HL by (rewrite content_split, zlen_app; pose proof (zlen_nonneg (rb [d_pos] ++ rb [d_vel] ++ rb [d_ids] ++ extra)); lia).
    assert (forall items, read_record little content 264 items = Err EIO) as R.
    { intro items. rewrite content_split, <- L1. rewrite (record_bytes little [d_pos]) by apply one_data. rewrite S1, <- !app_assoc. apply record_big. lia. }
    pose proof (header_cut (List.length content) (rb [d_pos] ++ rb [d_vel] ++ rb [d_ids] ++ extra) hdr [] (m2_header_items 64)) as R1. rewrite app_nil_r in R1. specialize (R1 hdr_data O1 hdr_size (eq_sym hdr_items) eq_refl). rewrite <- content_split, firstn_all in R1.
    destruct split_ok as (D & O & S & I & E). pose proof (header_cut (List.length content) (rb [d_pos] ++ rb [d_vel] ++ rb [d_ids] ++ extra) hdr2 tail2 (m2_header_items 6) D O S (eq_sym I) E) as R2. rewrite <- content_split, firstn_all in R2.
    change (Z.of_nat (List.length content)) with (zlen content) in R1, R2. replace (zlen content <? 264) with false in R1, R2 by lia. unfold fortran_program, idl_program. rewrite R1, R2. cbn [bind]. cbn zeta. split; [now rewrite R|].
    set (h := map (fun p => snd (piece_chunk p)) hdr2). assert (h_npart h = n) as -> by (exact np_value). replace (0 <? n) with true by lia. cbn [check bind]. now rewrite R.
  Qed.
  Lemma idl_empty : n = 0 -> idl_program little content = Err EValue.
  Proof.
    intro Hn. destruct rb_lens as (L1 & _). assert (264 <= zlen content) as HL by (rewrite content_split, zlen_app; pose proof (zlen_nonneg (rb [d_pos] ++ rb [d_vel] ++ rb [d_ids] ++ extra)); lia).
    destruct split_ok as (D & O & S & I & E). pose proof (header_cut (List.length content) (rb [d_pos] ++ rb [d_vel] ++ rb [d_ids] ++ extra) hdr2 tail2 (m2_header_items 6) D O S (eq_sym I) E) as R2. rewrite <- content_split, firstn_all in R2.
    change (Z.of_nat (List.length content)) with (zlen content) in R2. replace (zlen content <? 264) with false in R2 by lia. unfold idl_program. rewrite R2. cbn [bind]. set (h := map (fun p => snd (piece_chunk p)) hdr2). assert (h_npart h = n) as -> by (exact np_value). cbn zeta. rewrite Hn. reflexivity.
  Qed.
End File.
