(** Proofs about readparticles.c (C67). *)
From Coq Require Import Ascii String.
From Verif Require Import Base.Prelude Base.ListLemmas Binary.BinModel Binary.EndianProofs Binary.FortranProofs Formats.FileSpec Formats.CatSpec Formats.ReaderProofs.
From Verif Require Import Peano.CPeanoModel Fortran.SortModel Fortran.RegionModel Fortran.RegionSpec.
From Coq Require Import ZifyBool ZifyNat.
Local Open Scope Z_scope.

Lemma swap4_rev v : List.length v = 4%nat -> byte_swap4 v = rev v.
Proof. destruct v as [|a [|b [|c [|d [|]]]]]; intro H; try discriminate H. reflexivity. Qed.
Lemma swap8_rev v : List.length v = 8%nat -> byte_swap8 v = rev v.
Proof. destruct v as [|a [|b [|c [|d [|e [|f [|g [|h [|]]]]]]]]]; intro H; try discriminate H. reflexivity. Qed.

Lemma sizes_len lf l : Forall (fun p => match p with Data _ _ size _ _ => 0 <= size | _ => True end) l -> zlen (file_bytes lf l) = sumZ (map piece_size l).
Proof.
  unfold file_bytes. induction l as [|p l IH]; intro H; [reflexivity|]. apply Forall_cons_iff in H. destruct H as [H1 H2]. cbn [map concat]. rewrite zlen_app, IH by exact H2. cbn [sumZ fold_right].
  assert (zlen (piece_bytes lf p) = piece_size p) as ->; [|reflexivity]. destruct p; cbn [piece_bytes piece_size]; [now apply vals_bytes_len | now apply number_len | reflexivity].
Qed.
Lemma ok_sizes l : Forall piece_ok l -> Forall (fun p => match p with Data _ _ size _ _ => 0 <= size | _ => True end) l.
Proof. apply Forall_impl. intros [n a s sh v|n|b]; cbn; [intros [H _]; lia | tauto | tauto]. Qed.

Lemma numbers_slice lf size l : 0 < size -> forall i m, 0 <= i -> 0 <= m -> i + m <= zlen l ->
  zslice (concat (map (number_bytes lf size) l)) (size * i) (size * (i + m)) = concat (map (number_bytes lf size) (zslice l i (i + m))).
Proof.
  intros Hs i m Hi Hm Hl.
  assert (l = zslice l 0 i ++ zslice l i (i + m) ++ zslice l (i + m) (zlen l)) as E.
  { rewrite <- zslice_split by lia. rewrite <- zslice_split by lia. symmetry. apply zslice_all; lia. }
  rewrite E at 1. rewrite !map_app, !concat_app.
  assert (zlen (concat (map (number_bytes lf size) (zslice l 0 i))) = size * i) as E1 by (rewrite vals_bytes_len, zlen_zslice by lia; lia).
  assert (zlen (concat (map (number_bytes lf size) (zslice l i (i + m)))) = size * m) as E2 by (rewrite vals_bytes_len, zlen_zslice by lia; lia).
  rewrite zslice_app, (zslice_past (concat (map (number_bytes lf size) (zslice l 0 i)))), E1 by nia. cbn [app].
  rewrite zslice_app, E2. rewrite (zslice_all (concat (map (number_bytes lf size) (zslice l i (i + m))))) by nia. rewrite (zslice_neg _ (size * i - size * i - size * m)) by nia. apply app_nil_r.
Qed.
Lemma piece_slice lf a nm at_ size sh vals b extra i m : Forall piece_ok a -> 0 < size -> 0 <= i -> 0 <= m -> i + m <= zlen vals ->
  zslice (file_bytes lf (a ++ Data nm at_ size sh vals :: b) ++ extra) (sumZ (map piece_size a) + size * i) (sumZ (map piece_size a) + size * (i + m)) =
  concat (map (number_bytes lf size) (zslice vals i (i + m))).
Proof.
  intros Ha Hs Hi Hm Hl. unfold file_bytes. rewrite map_app, concat_app. cbn [map concat piece_bytes]. rewrite <- !app_assoc.
  assert (zlen (concat (map (piece_bytes lf) a)) = sumZ (map piece_size a)) as E by (apply sizes_len; now apply ok_sizes).
  pose proof (zlen_nonneg (concat (map (piece_bytes lf) a))) as P. rewrite E in P.
  rewrite zslice_app, E, zslice_past by nia. cbn [app].
  replace (sumZ (map piece_size a) + size * i - sumZ (map piece_size a)) with (size * i) by lia.
  replace (sumZ (map piece_size a) + size * (i + m) - sumZ (map piece_size a)) with (size * (i + m)) by lia.
  rewrite zslice_app, vals_bytes_len by lia. rewrite (zslice_neg _ (size * i - size * zlen vals)) by nia. rewrite app_nil_r. apply numbers_slice; assumption.
Qed.

Lemma In_zslice_in {B} (l : list B) a b x : In x (zslice l a b) -> In x l.
Proof.
  unfold zslice. intro H. rewrite <- (firstn_skipn (Z.to_nat a) l). apply in_or_app. right. rewrite <- (firstn_skipn (Z.to_nat b - Z.to_nat a) (skipn (Z.to_nat a) l)). apply in_or_app. now left.
Qed.
Lemma map_nth_zseq {B} (l : list B) d : map (fun i => nth (Z.to_nat i) l d) (zseq 0 (List.length l)) = l.
Proof.
  apply (nth_ext _ _ d d); rewrite map_length, zseq_length; [reflexivity|]. intros k Hk. rewrite (nth_indep _ d (nth (Z.to_nat 0) l d)) by (now rewrite map_length, zseq_length).
  rewrite (map_nth (fun i => nth (Z.to_nat i) l d)), nth_zseq by exact Hk. f_equal. lia.
Qed.
Section Order.
  Variables little lf : bool.
  Definition swap := negb (Bool.eqb lf little).
  Lemma in_memory_swapped size v (b := number_bytes lf size v) : 0 <= size -> 0 <= v < 256 ^ size -> in_memory little (if swap then rev b else b) = v.
  Proof.
    intros Hs Hv. unfold in_memory, swap, b, number_bytes. rewrite digits_le.
    assert (le_value (le_bytes (Z.to_nat size) v) = v) as E by (apply le_bytes_value; rewrite Z2Nat.id by lia; exact Hv).
    destruct lf, little; cbn [negb Bool.eqb]; rewrite ?rev_involutive; exact E.
  Qed.
  Lemma word4_number v : 0 <= v < 2 ^ 32 -> word4 little swap (number_bytes lf 4 v) = v.
  Proof.
    intro H. unfold word4. rewrite swap4_rev; [apply in_memory_swapped; [lia | exact H]|]. pose proof (number_len lf 4 v ltac:(lia)). unfold zlen in *. lia.
  Qed.
  Lemma int8_number v : 0 <= v < 2 ^ 64 -> int8 little swap (number_bytes lf 8 v) = signed64 v.
  Proof.
    intro H. unfold int8, signed64. rewrite swap8_rev; [|pose proof (number_len lf 8 v ltac:(lia)); unfold zlen in *; lia].
    rewrite in_memory_swapped; [destruct (Z.leb_spec (2 ^ 63) v), (Z.ltb_spec v (2 ^ 63)); lia | lia | exact H].
  Qed.
  Lemma elem_number size l i : 0 < size -> 0 <= i < zlen l -> elem size (concat (map (number_bytes lf size) l)) i = number_bytes lf size (nth (Z.to_nat i) l 0).
  Proof.
    intros Hs Hi. unfold elem. replace (size * i + size) with (size * (i + 1)) by lia. rewrite numbers_slice by lia.
    assert (zslice l i (i + 1) = [nth (Z.to_nat i) l 0]) as ->; [|cbn; apply app_nil_r].
    pose proof (zlen_zslice l i (i + 1) ltac:(lia) ltac:(lia) ltac:(lia)) as E. pose proof (nth_zslice l i (i + 1) 0 0 ltac:(lia) ltac:(lia)) as E2.
    destruct (zslice l i (i + 1)) as [|x [|]]; unfold zlen in E; cbn in E; try lia. cbn in E2. rewrite E2. f_equal. f_equal. lia.
  Qed.
  Lemma seek_data a nm at_ size sh vals b extra offset width i m count : Forall piece_ok a -> 0 < size -> 0 <= i -> 0 <= m -> i + m <= zlen vals ->
    offset = sumZ (map piece_size a) + size * i -> width * count = size * m -> 0 <= count ->
    seek_read (file_bytes lf (a ++ Data nm at_ size sh vals :: b) ++ extra) offset width count = Ok (concat (map (number_bytes lf size) (zslice vals i (i + m)))).
  Proof.
    intros Ha Hs Hi Hm Hl Ho Hw Hc. unfold seek_read. assert (0 <= sumZ (map piece_size a)) as P by (rewrite <- (sizes_len lf) by (now apply ok_sizes); apply zlen_nonneg).
    replace (0 <=? count) with true by lia. cbn [check bind]. replace (0 <=? offset) with true by nia. cbn [check bind].
    replace (offset + width * count) with (sumZ (map piece_size a) + size * (i + m)) by lia. rewrite Ho, piece_slice by assumption.
    rewrite vals_bytes_len, zlen_zslice by lia. replace (size * (i + m - i) =? width * count) with true by nia. reflexivity.
  Qed.

  (** *** the layout of a snapshot file *)
  Variable cat : catalogue.
  Variable extra : list Z.
  Hypothesis ok : Forall piece_ok (L2_snapshot cat).
  Let n := nth 1 (cat "Header/NumPart_ThisFile"%string) 0.
  Let content := file_bytes lf (L2_snapshot cat) ++ extra.
  Definition hdr := map (attr_of cat) L2_snapshot_header.
  Definition d_pos := plain_data cat "PartType1/Coordinates" 4 [n; 3].
  Definition d_vel := plain_data cat "PartType1/Velocities" 4 [n; 3].
  Definition d_ids := plain_data cat "PartType1/ParticleIDs" 8 [n].
  Definition d_first := plain_data cat "first_hash_cell" 4 [].
  Definition d_last := plain_data cat "last_hash_cell" 4 [].
  Definition d_hash := plain_data cat "blockid" 4 [scalar cat "last_hash_cell" - scalar cat "first_hash_cell" + 1].
  Lemma split_snapshot : L2_snapshot cat = record hdr ++ record [d_pos] ++ record [d_vel] ++ record [d_ids] ++ record [d_first; d_last] ++ record [d_hash].
  Proof. reflexivity. Qed.
  Lemma oks : Forall piece_ok (record hdr) /\ Forall piece_ok (record [d_pos]) /\ Forall piece_ok (record [d_vel]) /\ Forall piece_ok (record [d_ids]) /\ Forall piece_ok (record [d_first; d_last]) /\ Forall piece_ok (record [d_hash]).
  Proof. generalize ok. rewrite split_snapshot, !Forall_app. tauto. Qed.
  Lemma rec_size l : sumZ (map piece_size (record l)) = 8 + sumZ (map piece_size l).
  Proof. unfold record. cbn zeta. set (m := Mark _). change (m :: l ++ [m]) with ([m] ++ l ++ [m]). rewrite !map_app, !sumZ_app. change (sumZ (map piece_size [m])) with 4. lia. Qed.
  Lemma rec_in l p : Forall piece_ok (record l) -> In p l -> piece_ok p.
  Proof. intros H Hin. rewrite Forall_forall in H. apply H. unfold record. right. apply in_or_app. now left. Qed.
  Lemma hdr_size : sumZ (map piece_size hdr) = 256.
  Proof.
    assert (Forall piece_ok hdr) as H by (apply Forall_forall; intros p Hp; apply (rec_in hdr); [destruct oks as (O1 & O2 & O3 & O4 & O5 & O6); assumption | exact Hp]).
    assert (forall l, Forall piece_ok (map (attr_of cat) l) -> map piece_size (map (attr_of cat) l) = map (fun fd => fd_size fd * fold_left Z.mul (map (extent cat) (fd_dims fd)) 1) l) as G.
    { clear. induction l as [|fd l IH]; intro H; [reflexivity|]. cbn [map] in *. apply Forall_cons_iff in H. destruct H as [H1 H2]. rewrite IH by exact H2. f_equal. cbn [attr_of piece_size]. destruct H1 as (_ & _ & E & _). now rewrite E. }
    unfold hdr in *. rewrite G by exact H. reflexivity.
  Qed.
  Lemma vals_of nm size sh p : p = plain_data cat nm size sh -> piece_ok p -> zlen (cat nm) = fold_left Z.mul sh 1 /\ Forall (fun v => 0 <= v < 256 ^ size) (cat nm).
  Proof. intros -> (_ & _ & H). exact H. Qed.
  Lemma pos_ok : zlen (cat "PartType1/Coordinates"%string) = 3 * n /\ Forall (fun v => 0 <= v < 2 ^ 32) (cat "PartType1/Coordinates"%string).
  Proof. destruct (vals_of _ _ _ d_pos eq_refl) as [E F]; [apply (rec_in [d_pos]); [destruct oks as (O1 & O2 & O3 & O4 & O5 & O6); assumption | now left]|]. cbn [fold_left] in E. split; [lia | exact F]. Qed.
  Lemma vel_ok : zlen (cat "PartType1/Velocities"%string) = 3 * n /\ Forall (fun v => 0 <= v < 2 ^ 32) (cat "PartType1/Velocities"%string).
  Proof. destruct (vals_of _ _ _ d_vel eq_refl) as [E F]; [apply (rec_in [d_vel]); [destruct oks as (O1 & O2 & O3 & O4 & O5 & O6); assumption | now left]|]. cbn [fold_left] in E. split; [lia | exact F]. Qed.
  Lemma ids_ok : zlen (cat "PartType1/ParticleIDs"%string) = n /\ Forall (fun v => 0 <= v < 2 ^ 64) (cat "PartType1/ParticleIDs"%string).
  Proof. destruct (vals_of _ _ _ d_ids eq_refl) as [E F]; [apply (rec_in [d_ids]); [destruct oks as (O1 & O2 & O3 & O4 & O5 & O6); assumption | now left]|]. cbn [fold_left] in E. split; [lia | exact F]. Qed.
  Lemma first_ok : zlen (cat "first_hash_cell"%string) = 1 /\ Forall (fun v => 0 <= v < 2 ^ 32) (cat "first_hash_cell"%string).
  Proof. destruct (vals_of _ _ _ d_first eq_refl) as [E F]; [apply (rec_in [d_first; d_last]); [destruct oks as (O1 & O2 & O3 & O4 & O5 & O6); assumption | now left]|]. now split. Qed.
  Lemma last_ok : zlen (cat "last_hash_cell"%string) = 1 /\ Forall (fun v => 0 <= v < 2 ^ 32) (cat "last_hash_cell"%string).
  Proof. destruct (vals_of _ _ _ d_last eq_refl) as [E F]; [apply (rec_in [d_first; d_last]); [destruct oks as (O1 & O2 & O3 & O4 & O5 & O6); assumption | right; now left]|]. now split. Qed.
  Lemma hash_ok : zlen (cat "blockid"%string) = scalar cat "last_hash_cell" - scalar cat "first_hash_cell" + 1 /\ Forall (fun v => 0 <= v < 2 ^ 32) (cat "blockid"%string).
  Proof. destruct (vals_of _ _ _ d_hash eq_refl) as [E F]; [apply (rec_in [d_hash]); [destruct oks as (O1 & O2 & O3 & O4 & O5 & O6); assumption | now left]|]. cbn [fold_left] in E. split; [lia | exact F]. Qed.
  Lemma np_ok : zlen (cat "Header/NumPart_ThisFile"%string) = 6 /\ Forall (fun v => 0 <= v < 2 ^ 32) (cat "Header/NumPart_ThisFile"%string).
  Proof. assert (piece_ok (attr_of cat (six "Header/NumPart_ThisFile" 4))) as (_ & _ & E & F); [apply (rec_in hdr); [destruct oks as (O1 & O2 & O3 & O4 & O5 & O6); assumption | now left] | now split]. Qed.
  Lemma nth_in_range (l : list Z) k B : Forall (fun v => 0 <= v < B) l -> 0 < B -> 0 <= nth k l 0 < B.
  Proof. intros H HB. destruct (Nat.lt_ge_cases k (List.length l)) as [C|C]; [rewrite Forall_forall in H; apply H; now apply nth_In | rewrite nth_overflow by lia; lia]. Qed.
  Lemma n_nonneg : 0 <= n.
  Proof. destruct ids_ok as [E _]. pose proof (zlen_nonneg (cat "PartType1/ParticleIDs"%string)). lia. Qed.

  Lemma npfile_ok : n < 2 ^ 31 -> read_npfile little swap content = Ok n.
  Proof.
    intro Hn. destruct np_ok as [E F]. unfold read_npfile, content. rewrite split_snapshot. unfold record at 1. unfold hdr at 2, L2_snapshot_header. cbn [map]. cbn [app]. unfold attr_of at 1. cbn [fd_name fd_size fd_dims six].
    match goal with |- context [Mark ?s :: Data ?a ?b ?c ?d ?e :: ?r] => change (Mark s :: Data a b c d e :: r) with ([Mark s] ++ Data a b c d e :: r) end.
    rewrite (seek_data _ _ _ _ _ _ _ _ _ _ 1 1); [| | lia | lia | lia | rewrite E; lia | cbn; lia | lia | lia].
    - cbn [bind]. rewrite elem_number; [|lia | rewrite zlen_zslice by lia; lia]. unfold int4. rewrite nth_zslice by lia. fold n. change (Z.to_nat 1 + Z.to_nat 0)%nat with 1%nat. fold n.
      rewrite word4_number by (pose proof n_nonneg; lia). unfold signed32. replace (2 ^ 31 <=? n) with false by lia. reflexivity.
    - constructor; [|constructor]. generalize (proj1 oks). intro H. apply Forall_inv in H. exact H.
  Qed.

  Lemma triples_ok vals ifirst nread : Forall (fun v => 0 <= v < 2 ^ 32) vals -> 0 <= ifirst -> 0 <= nread -> 3 * (ifirst + nread) <= zlen vals ->
    triples little swap nread (concat (map (number_bytes lf 4) (zslice vals (3 * ifirst) (3 * ifirst + 3 * nread)))) =
    (column vals 0 ifirst nread, column vals 1 ifirst nread, column vals 2 ifirst nread).
  Proof.
    intros HF Hi Hn Hl. unfold triples, column.
    assert (forall k, 0 <= k < 3 -> map (fun ipart => word4 little swap (elem 4 (concat (map (number_bytes lf 4) (zslice vals (3 * ifirst) (3 * ifirst + 3 * nread)))) (ipart * 3 + k))) (zseq 0 (Z.to_nat nread)) =
      map (fun j => nth (Z.to_nat (3 * j + k)) vals 0) (zseq ifirst (Z.to_nat nread))) as G.
    { intros k Hk. assert (zseq ifirst (Z.to_nat nread) = map (Z.add ifirst) (zseq 0 (Z.to_nat nread))) as -> by (rewrite map_add_zseq; f_equal; lia). rewrite map_map. apply map_ext_in. intros i Hin. apply In_zseq in Hin.
      rewrite elem_number; [|lia | rewrite zlen_zslice by lia; lia]. rewrite nth_zslice by lia.
      replace (Z.to_nat (3 * ifirst) + Z.to_nat (i * 3 + k))%nat with (Z.to_nat (3 * (ifirst + i) + k)) by lia. apply word4_number. apply nth_in_range; [exact HF | lia]. }
    rewrite !G by lia. reflexivity.
  Qed.

  Lemma c_int_ok z : - 2 ^ 31 <= z < 2 ^ 31 -> c_int z = Ok z.
  Proof. intro H. unfold c_int. replace ((- 2 ^ 31 <=? z) && (z <? 2 ^ 31)) with true by lia. reflexivity. Qed.
  Ltac fits := rewrite c_int_ok by lia; cbn [bind].
  Lemma app_cons_assoc {B} (a : list B) x b c : (a ++ x :: b) ++ c = a ++ x :: b ++ c.
  Proof. now rewrite <- app_assoc. Qed.

  Lemma coords_ok ifirst ilast : 1 <= ifirst -> ifirst <= ilast + 1 -> ilast <= n -> 256 + 12 * n < 2 ^ 31 -> ifirst <= n ->
    readpartcoords little swap content ifirst ilast = Ok (let c k := column (cat "PartType1/Coordinates"%string) k (ifirst - 1) (ilast - ifirst + 1) in (c 0, c 1, c 2)).
  Proof.
    intros H1 H2 H3 H4 H5. destruct pos_ok as [E F]. unfold readpartcoords. do 3 fits.
    assert (content = file_bytes lf ((record hdr ++ [Mark (sumZ (map piece_size [d_pos]))]) ++ d_pos :: [Mark (sumZ (map piece_size [d_pos]))] ++ record [d_vel] ++ record [d_ids] ++ record [d_first; d_last] ++ record [d_hash]) ++ extra) as ->
      by (unfold content; rewrite split_snapshot; f_equal; f_equal; rewrite <- app_assoc; reflexivity).
    unfold d_pos at 2, plain_data. rewrite (seek_data _ _ _ _ _ _ _ _ _ _ (3 * (ifirst - 1)) (3 * (ilast - ifirst + 1))); [| | lia | lia | lia | rewrite E; lia | | lia | lia].
    - cbn [bind]. rewrite triples_ok; [reflexivity | exact F | lia | lia | rewrite E; lia].
    - apply Forall_app. destruct oks as (O1 & O2 & _). split; [exact O1 | constructor; [|constructor]]. now apply Forall_inv in O2.
    - rewrite map_app, sumZ_app, rec_size, hdr_size. cbn [map piece_size sumZ]. lia.
  Qed.
  Lemma pos_bytes : sumZ (map piece_size [d_pos]) = 12 * n /\ sumZ (map piece_size [d_vel]) = 12 * n /\ sumZ (map piece_size [d_ids]) = 8 * n /\ sumZ (map piece_size [d_first; d_last]) = 8.
  Proof.
    destruct pos_ok as [E1 _], vel_ok as [E2 _], ids_ok as [E3 _], first_ok as [E4 _], last_ok as [E5 _]. cbn [map sumZ]. unfold d_pos, d_vel, d_ids, d_first, d_last, plain_data. cbn [piece_size]. rewrite E1, E2, E3, E4, E5. lia.
  Qed.
  Lemma velocities_ok ifirst ilast : 1 <= ifirst -> ifirst <= ilast + 1 -> ilast <= n -> 264 + 24 * n < 2 ^ 31 -> ifirst <= n ->
    readpartvel little swap content ifirst ilast = Ok (let c k := column (cat "PartType1/Velocities"%string) k (ifirst - 1) (ilast - ifirst + 1) in (c 0, c 1, c 2)).
  Proof.
    intros H1 H2 H3 H4 H5. destruct vel_ok as [E F], pos_bytes as (P1 & _). unfold readpartvel. fits. rewrite npfile_ok by lia. cbn [bind]. do 4 fits.
    assert (content = file_bytes lf ((record hdr ++ record [d_pos] ++ [Mark (sumZ (map piece_size [d_vel]))]) ++ d_vel :: [Mark (sumZ (map piece_size [d_vel]))] ++ record [d_ids] ++ record [d_first; d_last] ++ record [d_hash]) ++ extra) as ->
      by (unfold content; rewrite split_snapshot; f_equal; f_equal; rewrite <- !app_assoc; reflexivity).
    unfold d_vel at 2, plain_data. rewrite (seek_data _ _ _ _ _ _ _ _ _ _ (3 * (ifirst - 1)) (3 * (ilast - ifirst + 1))); [| | lia | lia | lia | rewrite E; lia | | lia | lia].
    - cbn [bind]. rewrite triples_ok; [reflexivity | exact F | lia | lia | rewrite E; lia].
    - rewrite !Forall_app. destruct oks as (O1 & O2 & O3 & _). split; [exact O1 | split; [exact O2 | constructor; [|constructor]]]. now apply Forall_inv in O3.
    - rewrite !map_app, !sumZ_app, !rec_size, hdr_size, P1. cbn [map piece_size sumZ]. lia.
  Qed.
  Lemma idlist_ok ifirst ilast : 1 <= ifirst -> ifirst <= ilast + 1 -> ilast <= n -> 276 + 32 * n < 2 ^ 31 -> ifirst <= n ->
    readpartids little swap content ifirst ilast = Ok (map signed64 (zslice (cat "PartType1/ParticleIDs"%string) (ifirst - 1) ilast)).
  Proof.
    intros H1 H2 H3 H4 H5. destruct ids_ok as [E F], pos_bytes as (P1 & P2 & _). unfold readpartids. fits. rewrite npfile_ok by lia. cbn [bind]. do 4 fits.
    assert (content = file_bytes lf ((record hdr ++ record [d_pos] ++ record [d_vel] ++ [Mark (sumZ (map piece_size [d_ids]))]) ++ d_ids :: [Mark (sumZ (map piece_size [d_ids]))] ++ record [d_first; d_last] ++ record [d_hash]) ++ extra) as ->
      by (unfold content; rewrite split_snapshot; f_equal; f_equal; rewrite <- !app_assoc; reflexivity).
    unfold d_ids at 2, plain_data. rewrite (seek_data _ _ _ _ _ _ _ _ _ _ (ifirst - 1) (ilast - ifirst + 1)); [| | lia | lia | lia | rewrite E; lia | | lia | lia].
    - cbn [bind]. f_equal. replace (ifirst - 1 + (ilast - ifirst + 1)) with ilast by lia. set (l := zslice _ _ _).
      assert (zlen l = ilast - ifirst + 1) as El by (unfold l; rewrite zlen_zslice by lia; lia).
      assert (Forall (fun v => 0 <= v < 2 ^ 64) l) as Fl by (apply Forall_forall; intros v Hv; rewrite Forall_forall in F; apply F; now apply In_zslice_in in Hv).
      transitivity (map (fun i => signed64 (nth (Z.to_nat i) l 0)) (zseq 0 (Z.to_nat (ilast - ifirst + 1)))).
      + apply map_ext_in. intros i Hi. apply In_zseq in Hi. rewrite elem_number by lia. apply int8_number. apply nth_in_range; [exact Fl | lia].
      + rewrite <- (map_map (fun i => nth (Z.to_nat i) l 0) signed64). f_equal. rewrite <- El. unfold zlen. rewrite Nat2Z.id. apply map_nth_zseq.
    - rewrite !Forall_app. destruct oks as (O1 & O2 & O3 & O4 & _). split; [exact O1 | split; [exact O2 | split; [exact O3 | constructor; [|constructor]]]]. now apply Forall_inv in O4.
    - rewrite !map_app, !sumZ_app, !rec_size, hdr_size, P1, P2. cbn [map piece_size sumZ]. lia.
  Qed.
  Lemma readhash_ok : 292 + 32 * n < 2 ^ 31 -> scalar cat "first_hash_cell" < 2 ^ 31 -> scalar cat "last_hash_cell" < 2 ^ 31 - 1 -> Forall (fun v => v < 2 ^ 31) (cat "blockid"%string) ->
    readhash little swap content = Ok (scalar cat "first_hash_cell", scalar cat "last_hash_cell", cat "blockid"%string, n).
  Proof.
    intros H1 H2 H3 H4. destruct first_ok as [Ef Ff], last_ok as [El Fl], hash_ok as [Eh Fh], pos_bytes as (P1 & P2 & P3 & P4). pose proof n_nonneg as Hn.
    unfold readhash. rewrite npfile_ok by lia. cbn [bind]. do 2 fits.
    set (last := scalar cat "last_hash_cell") in *. set (first := scalar cat "first_hash_cell") in *.
    assert (cat "first_hash_cell"%string = [first]) as Cf by (unfold first, scalar; destruct (cat "first_hash_cell"%string) as [|x [|]]; unfold zlen in Ef; cbn in Ef; try lia; reflexivity).
    assert (cat "last_hash_cell"%string = [last]) as Cl by (unfold last, scalar; destruct (cat "last_hash_cell"%string) as [|x [|]]; unfold zlen in El; cbn in El; try lia; reflexivity).
    rewrite Cf in Ff. rewrite Cl in Fl. apply Forall_inv in Ff. apply Forall_inv in Fl.
    set (both := Data [] false 4 [2] [first; last]).
    set (pre := record hdr ++ record [d_pos] ++ record [d_vel] ++ record [d_ids] ++ [Mark 8]).
    assert (Forall piece_ok pre) as Opre.
    { unfold pre. rewrite !Forall_app. destruct oks as (O1 & O2 & O3 & O4 & O5 & _). repeat (split; [assumption|]). constructor; [|constructor]. apply Forall_inv in O5. rewrite P4 in O5. exact O5. }
    assert (sumZ (map piece_size pre) = 292 + 32 * n) as Epre by (unfold pre; rewrite !map_app, !sumZ_app, !rec_size, hdr_size, P1, P2, P3; cbn [map piece_size sumZ]; lia).
    assert (content = file_bytes lf (pre ++ both :: Mark 8 :: record [d_hash]) ++ extra) as Ec.
    { unfold content. f_equal. rewrite split_snapshot. unfold pre. rewrite <- !app_assoc. unfold file_bytes. rewrite !map_app, !concat_app. do 4 f_equal.
      unfold record at 1. rewrite P4. cbn [map app concat]. unfold d_first at 1, d_last at 1, plain_data, both. cbn [piece_bytes]. rewrite Cf, Cl. cbn [map concat]. rewrite !app_nil_r, <- !app_assoc. reflexivity. }
    rewrite Ec at 1. unfold both. rewrite (seek_data _ _ _ _ _ _ _ _ _ _ 0 2); [| exact Opre | lia | lia | lia | cbn; lia | lia | lia | lia].
    cbn [bind]. change (zslice [first; last] 0 (0 + 2)) with [first; last]. rewrite !elem_number by (unfold zlen; cbn; lia). change (nth (Z.to_nat 0) [first; last] 0) with first. change (nth (Z.to_nat 1) [first; last] 0) with last.
    assert (forall v, 0 <= v < 2 ^ 31 -> int4 little swap (number_bytes lf 4 v) = v) as Ei
      by (intros v Hv; unfold int4; rewrite word4_number by lia; unfold signed32; replace (2 ^ 31 <=? v) with false by lia; reflexivity).
    rewrite (Ei first), (Ei last) by lia.
    pose proof (zlen_nonneg (cat "blockid"%string)) as Hp. do 2 fits.
    assert (content = file_bytes lf ((pre ++ both :: Mark 8 :: [Mark (sumZ (map piece_size [d_hash]))]) ++ d_hash :: [Mark (sumZ (map piece_size [d_hash]))]) ++ extra) as ->.
    { rewrite Ec. rewrite <- app_assoc. reflexivity. }
    unfold d_hash at 2, plain_data. rewrite (seek_data _ _ _ _ _ _ _ _ _ _ 0 (zlen (cat "blockid"%string))); [| | lia | lia | lia | lia | | lia | lia].
    - cbn [bind]. rewrite Z.add_0_l, zslice_all by lia. f_equal. f_equal. f_equal.
      transitivity (map (fun i => nth (Z.to_nat i) (cat "blockid"%string) 0) (zseq 0 (List.length (cat "blockid"%string)))); [|apply map_nth_zseq].
      replace (Z.to_nat (last - first + 1)) with (List.length (cat "blockid"%string)) by (unfold zlen in Eh; lia).
      apply map_ext_in. intros i Hi. apply In_zseq in Hi. rewrite elem_number by (unfold zlen; lia). apply Ei. split; [apply (nth_in_range _ _ (2 ^ 32) Fh); lia|]. rewrite Forall_forall in H4. apply H4. apply nth_In. lia.
    - rewrite Forall_app. split; [exact Opre|]. destruct oks as (_ & _ & _ & _ & _ & O6). apply Forall_inv in O6. apply Forall_cons; [|apply Forall_cons; [cbn; lia | apply Forall_cons; [exact O6 | apply Forall_nil]]].
      unfold both. cbn [piece_ok]. split; [lia|]. split; [repeat constructor; lia|]. split; [reflexivity | constructor; [exact Ff | constructor; [exact Fl | constructor]]].
    - rewrite map_app, sumZ_app, Epre. unfold both. cbn [map piece_size sumZ]. change (zlen [first; last]) with 2. lia.
  Qed.
  (** offsets are int: in a file of 2 GB the hash table cannot be reached *)
  Lemma readhash_large : n < 2 ^ 31 -> 2 ^ 31 <= 292 + 32 * n -> readhash little swap content = Err EAbort.
  Proof.
    intros H1 H2. unfold readhash. rewrite npfile_ok by exact H1. cbn [bind]. unfold c_int at 1. destruct (Z.ltb_spec (n * 32) (2 ^ 31)) as [C|C]; [|rewrite andb_false_r; reflexivity].
    replace (- 2 ^ 31 <=? n * 32) with true by lia. cbn [andb bind]. unfold c_int at 1. replace (292 + n * 32 <? 2 ^ 31) with false by lia. rewrite andb_false_r. reflexivity.
  Qed.
End Order.
