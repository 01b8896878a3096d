(** Reading a snapshot file with the stdio functions of [LibModel]. *)
From Coq Require Import QArith.
From Coq Require Import Ascii String.
From Verif Require Import Base.Prelude Base.ListLemmas Binary.BinModel Binary.EndianProofs Binary.FortranProofs Formats.FileSpec Formats.CatSpec Formats.ReaderProofs.
From Verif Require Import Text.StrModel Peano.CPeanoModel Fortran.SortModel Fortran.RegionModel Fortran.RegionSpec Fortran.GroupTabSpec Fortran.GroupTabProofs.
From Verif Require Import Idl.LibModel Idl.LibSpec Idl.StdioProofs.
From Verif Require Fortran.ReadPartProofs.
From Coq Require Import ZifyBool ZifyNat.
Local Open Scope Z_scope. Local Open Scope list_scope.
Import ReadPartProofs.

Lemma digits_range n v : Forall (fun b => 0 <= b < 256) (digits n v).
Proof. unfold digits. apply Forall_forall. intros b Hb. apply in_map_iff in Hb. destruct Hb as (i & <- & _). apply Z.mod_pos_bound. lia. Qed.
Lemma number_range lf s v : Forall (fun b => 0 <= b < 256) (number_bytes lf s v).
Proof. unfold number_bytes. destruct lf; [apply digits_range|]. apply Forall_rev. apply digits_range. Qed.
Lemma bytes_one lf l : Forall (fun b => 0 <= b < 256) l -> concat (map (number_bytes lf 1) l) = l.
Proof.
  induction l as [|b l IH]; intro H; [reflexivity|]. apply Forall_cons_iff in H. destruct H as [H1 H2]. cbn [map concat]. rewrite IH by exact H2.
  assert (number_bytes lf 1 b = [b]) as ->; [|reflexivity]. unfold number_bytes, digits. change (Z.to_nat 1) with 1%nat. cbn [zseq map]. change (256 ^ 0) with 1. rewrite Z.div_1_r, Z.mod_small by lia. now destruct lf.
Qed.
Lemma values_range lf s l : Forall (fun b => 0 <= b < 256) (concat (map (number_bytes lf s) l)).
Proof. induction l as [|v l IH]; [constructor|]. cbn [map concat]. apply Forall_app. split; [apply number_range | exact IH]. Qed.

Section Snap.
  Variables (little : bool) (cat : catalogue) (extra content : list Z).
  Hypothesis HF : snapshot_file little cat extra content.
  Let n := npart_of cat.
  Hypothesis Hn : 12 * n < 2 ^ 31.
  Let first := scalar cat "first_hash_cell".
  Let last := scalar cat "last_hash_cell".
  Let m := last - first + 1.
  Hypothesis Hm : 4 * m < 2 ^ 31.
  Definition HB := file_bytes little (hdr cat).
  Definition snap_chunks : list (Z * list Z) :=
    [(4, [256]); (1, HB); (4, [256]); (4, [12 * n]); (4, cat "PartType1/Coordinates"%string); (4, [12 * n]); (4, [12 * n]); (4, cat "PartType1/Velocities"%string); (4, [12 * n]);
     (4, [8 * n]); (8, cat "PartType1/ParticleIDs"%string); (4, [8 * n]); (4, [8]); (4, [first]); (4, [last]); (4, [8]); (4, [4 * m]); (4, cat "blockid"%string); (4, [4 * m])].
  Let ok := proj1 HF.
  Let okh : Forall piece_ok (hdr cat).
  Proof. apply Forall_forall. intros p Hp. apply (rec_in (hdr cat)); [apply (oks cat ok) | exact Hp]. Qed.
  Lemma lens : zlen (cat "PartType1/Coordinates"%string) = 3 * n /\ zlen (cat "PartType1/Velocities"%string) = 3 * n /\ zlen (cat "PartType1/ParticleIDs"%string) = n /\ zlen (cat "blockid"%string) = m /\ 0 <= n /\ 0 <= m.
  Proof.
    destruct (pos_ok cat ok) as [A _]. destruct (vel_ok cat ok) as [B _]. destruct (ids_ok cat ok) as [C _]. destruct (hash_ok cat ok) as [D _].
    pose proof (zlen_nonneg (cat "PartType1/ParticleIDs"%string)). pose proof (zlen_nonneg (cat "blockid"%string)). unfold n, m, npart_of, first, last in *. repeat split; lia.
  Qed.
  Lemma single l : zlen l = 1 -> l = [nth 0 l 0].
  Proof. destruct l as [|x [|y l]]; unfold zlen; cbn [List.length]; intro H; [lia | reflexivity | lia]. Qed.
  Lemma HB_range : Forall (fun b => 0 <= b < 256) HB.
  Proof.
    unfold HB, file_bytes, hdr. generalize L2_snapshot_header. induction l as [|fd l IH]; [constructor|]. cbn [map concat]. apply Forall_app. split; [|exact IH]. cbn [attr_of piece_bytes]. apply values_range.
  Qed.
  Lemma HB_len : zlen HB = 256.
  Proof. unfold HB. rewrite sizes_len by (now apply ok_sizes). now apply hdr_size. Qed.
  Lemma record_bytes l s : sumZ (map piece_size l) = s -> file_bytes little (record l) = number_bytes little 4 s ++ file_bytes little l ++ number_bytes little 4 s.
  Proof. intro H. unfold record. cbn zeta. rewrite H. unfold file_bytes. cbn [map concat piece_bytes]. rewrite map_app, concat_app. cbn [map concat piece_bytes]. now rewrite app_nil_r. Qed.
  Lemma snap_content : content = cbytes little snap_chunks ++ extra.
  Proof.
    rewrite (proj2 HF) at 1. f_equal. rewrite split_snapshot. destruct lens as (E1 & E2 & E3 & E4 & N1 & N2). destruct (first_ok cat ok) as [F1 _]. destruct (last_ok cat ok) as [F2 _].
    unfold file_bytes. rewrite !map_app, !concat_app. fold (file_bytes little (record (hdr cat))).
    repeat match goal with |- context [concat (map (piece_bytes little) (record ?l))] => fold (file_bytes little (record l)) end.
    rewrite (record_bytes (hdr cat) 256) by (now apply hdr_size).
    rewrite (record_bytes [d_pos cat] (12 * n)) by (unfold sumZ, d_pos, plain_data; cbn [map piece_size fold_right]; rewrite E1; lia).
    rewrite (record_bytes [d_vel cat] (12 * n)) by (unfold sumZ, d_vel, plain_data; cbn [map piece_size fold_right]; rewrite E2; lia).
    rewrite (record_bytes [d_ids cat] (8 * n)) by (unfold sumZ, d_ids, plain_data; cbn [map piece_size fold_right]; rewrite E3; lia).
    rewrite (record_bytes [d_first cat; d_last cat] 8) by (unfold sumZ, d_first, d_last, plain_data; cbn [map piece_size fold_right]; rewrite F1, F2; lia).
    rewrite (record_bytes [d_hash cat] (4 * m)) by (unfold sumZ, d_hash, plain_data; cbn [map piece_size fold_right]; rewrite E4; lia).
    unfold cbytes, snap_chunks. cbn [map concat]. rewrite (bytes_one little HB HB_range). unfold file_bytes at 2 3 4 5 6. unfold d_pos, d_vel, d_ids, d_first, d_last, d_hash, plain_data. cbn [map concat piece_bytes].
    rewrite (single _ F1), (single _ F2). cbn [map concat]. fold HB. fold (scalar cat "first_hash_cell") (scalar cat "last_hash_cell"). fold first last. rewrite !app_nil_r, <- !app_assoc. reflexivity.
  Qed.
  Lemma word v : 0 <= v < 2 ^ 32 -> 0 < 4 /\ Forall (fun x => 0 <= x < 256 ^ 4) [v].
  Proof. intro H. split; [lia|]. constructor; [exact H | constructor]. Qed.
  Lemma firsts_range : 0 <= first < 2 ^ 32 /\ 0 <= last < 2 ^ 32.
  Proof. destruct (first_ok cat ok) as [_ F1]. destruct (last_ok cat ok) as [_ F2]. split; apply nth_in_range; (assumption || lia). Qed.
  Lemma snap_good : good snap_chunks.
  Proof.
    destruct lens as (E1 & E2 & E3 & E4 & N1 & N2). destruct firsts_range as [R1 R2]. destruct (pos_ok cat ok) as [_ A]. destruct (vel_ok cat ok) as [_ B]. destruct (ids_ok cat ok) as [_ C]. destruct (hash_ok cat ok) as [_ D]. pose proof HB_range as HR.
    unfold good, snap_chunks. repeat (apply Forall_cons; [first [apply word; lia | (split; [lia | assumption])]|]). constructor.
  Qed.
  (** where things are *)
  Lemma places k : csize (firstn k snap_chunks) = sumZ (firstn k [4; 256; 4; 4; 12 * n; 4; 4; 12 * n; 4; 4; 8 * n; 4; 4; 4; 4; 4; 4; 4 * m; 4]).
  Proof.
    destruct lens as (E1 & E2 & E3 & E4 & N1 & N2). unfold csize. rewrite <- firstn_map. do 2 f_equal. unfold snap_chunks. cbn [map]. rewrite HB_len, E1, E2, E3, E4. unfold zlen. cbn [List.length].
    repeat (f_equal; try lia).
  Qed.
  Lemma snap_at k s v : nth_error snap_chunks k = Some (s, v) -> snap_chunks = firstn k snap_chunks ++ (s, v) :: skipn (S k) snap_chunks.
  Proof. clear. generalize snap_chunks. intros l. revert k. induction l as [|c l IH]; intros [|k] E; try discriminate E; [now injection E as -> | cbn [firstn skipn app]; f_equal; now apply IH]. Qed.
  Lemma int_at k x pos pos' : nth_error snap_chunks k = Some (4, [x]) -> pos = sumZ (firstn k [4; 256; 4; 4; 12 * n; 4; 4; 12 * n; 4; 4; 8 * n; 4; 4; 4; 4; 4; 4; 4 * m; 4]) -> pos' = pos + 4 -> 0 <= x < 2 ^ 31 ->
    fread_int little (content, pos) = Ok (x, (content, pos')).
  Proof.
    intros E -> -> Hx. pose proof snap_content as EC. pose proof snap_good as HG. rewrite (snap_at k 4 [x] E) in EC, HG. rewrite (fread_int_at little _ x _ extra content _ HG EC) by (now rewrite places). rewrite csize_app, places, csize_one.
    do 2 f_equal. unfold signed. destruct (Z.ltb_spec x (2 ^ 31)); lia.
  Qed.
  Lemma ints_at k v pos : nth_error snap_chunks k = Some (4, v) -> pos = sumZ (firstn k [4; 256; 4; 4; 12 * n; 4; 4; 12 * n; 4; 4; 8 * n; 4; 4; 4; 4; 4; 4; 4 * m; 4]) ->
    fread_ints little (zlen v) (content, pos) = Ok (map signed v, (content, pos + 4 * zlen v)).
  Proof.
    intros E ->. pose proof snap_content as EC. pose proof snap_good as HG. rewrite (snap_at k 4 v E) in EC, HG. rewrite (fread_ints_all little _ v _ extra content _ HG EC) by (now rewrite places). now rewrite csize_app, places, csize_one.
  Qed.
  Lemma part_at k s v pos i c : nth_error snap_chunks k = Some (s, v) -> pos = sumZ (firstn k [4; 256; 4; 4; 12 * n; 4; 4; 12 * n; 4; 4; 8 * n; 4; 4; 4; 4; 4; 4; 4 * m; 4]) + s * i -> 0 <= i -> 0 <= c -> i + c <= zlen v ->
    fread little s c (content, pos) = Ok (zslice v i (i + c), (content, pos + s * c)).
  Proof.
    intros E -> Hi Hc Hl. pose proof snap_content as EC. pose proof snap_good as HG. rewrite (snap_at k s v E) in EC, HG. apply (fread_at little _ s v _ extra content _ i c HG EC); try assumption. now rewrite places.
  Qed.

  (** *** the header *)
  Lemma field_size l : Forall piece_ok (map (attr_of cat) l) -> map piece_size (map (attr_of cat) l) = map (fun fd => fd_size fd * fold_left Z.mul (map (extent cat) (fd_dims fd)) 1) l.
  Proof. clear. induction l as [|fd l IH]; intro H; [reflexivity|]. cbn [map] in *. apply Forall_cons_iff in H. destruct H as [H1 H2]. rewrite IH by exact H2. f_equal. cbn [attr_of piece_size]. destruct H1 as (_ & _ & E & _). now rewrite E. Qed.
  Lemma field_at k fd i off : nth_error L2_snapshot_header k = Some fd -> off = sumZ (map (fun fd => fd_size fd * fold_left Z.mul (map (extent cat) (fd_dims fd)) 1) (firstn k L2_snapshot_header)) + fd_size fd * i ->
    0 <= i < zlen (cat (fd_name fd)) -> in_memory little (zslice HB off (off + fd_size fd)) = nth (Z.to_nat i) (cat (fd_name fd)) 0 /\ 0 <= nth (Z.to_nat i) (cat (fd_name fd)) 0 < 256 ^ fd_size fd.
  Proof.
    intros E -> Hi. apply nth_error_split in E. destruct E as (a & b & El & Ek). assert (firstn k L2_snapshot_header = a) as -> by (rewrite El, firstn_app, Ek, Nat.sub_diag; cbn [firstn]; rewrite app_nil_r, <- Ek; apply firstn_all).
    pose proof okh as OK. unfold hdr in OK. rewrite El, map_app in OK. apply Forall_app in OK. destruct OK as [OKa OKb]. cbn [map] in OKb. apply Forall_cons_iff in OKb. destruct OKb as [(S1 & _ & _ & S2) _].
    rewrite <- field_size by exact OKa.
    assert (0 <= nth (Z.to_nat i) (cat (fd_name fd)) 0 < 256 ^ fd_size fd) as R by (rewrite Forall_forall in S2; apply S2; apply nth_In; unfold zlen in Hi; lia).
    split; [|exact R].
    replace (sumZ (map piece_size (map (attr_of cat) a)) + fd_size fd * i + fd_size fd) with (sumZ (map piece_size (map (attr_of cat) a)) + fd_size fd * (i + 1)) by lia.
    unfold HB, hdr. rewrite El, map_app. cbn [map]. unfold attr_of at 2. rewrite <- (app_nil_r (file_bytes _ _)).
    rewrite piece_slice by (assumption || lia).
    assert (zslice (cat (fd_name fd)) i (i + 1) = [nth (Z.to_nat i) (cat (fd_name fd)) 0]) as ->.
    { pose proof (zlen_zslice (cat (fd_name fd)) i (i + 1) ltac:(lia) ltac:(lia) ltac:(lia)) as E. rewrite (single (zslice _ _ _)) by lia. f_equal. replace 0%nat with (Z.to_nat 0) by reflexivity. rewrite nth_zslice by lia. f_equal. lia. }
    cbn [map concat]. rewrite app_nil_r. now apply in_memory_number.
  Qed.
  Lemma extents fd : In fd L2_snapshot_header -> zlen (cat (fd_name fd)) = fold_left Z.mul (map (extent cat) (fd_dims fd)) 1.
  Proof. intro H. pose proof okh as OK. unfold hdr in OK. rewrite Forall_map, Forall_forall in OK. apply OK in H. now destruct H as (_ & _ & E & _). Qed.
  Definition snap_head : header :=
    {| npart1 := n; num_files := signed (scalar cat "Header/NumFilesPerSnapshot"); box_bits := scalar cat "Header/BoxSize"; hashtabsize := signed (scalar cat "Header/HashTabSize") |}.
  Lemma snap_header_ok : read_header little (content, 0) = Ok (snap_head, (content, 264)).
  Proof.
    unfold read_header. rewrite (int_at 0 256 0 4) by (reflexivity || lia). cbn [bind]. rewrite (part_at 1 1 HB 4 0 256) by (reflexivity || (rewrite ?HB_len; lia)). cbn [bind].
    rewrite (int_at 2 256 (4 + 1 * 256) 264) by (reflexivity || lia). cbn [bind]. rewrite (zslice_all HB 0 (0 + 256)) by (rewrite ?HB_len; lia). do 2 f_equal. unfold snap_head.
    assert (zlen (cat "Header/NumPart_ThisFile"%string) = 6) as L1 by (apply (extents (six "Header/NumPart_ThisFile" 4)); unfold L2_snapshot_header; cbn [In]; tauto).
    assert (zlen (cat "Header/NumFilesPerSnapshot"%string) = 1) as L2 by (apply (extents (one "Header/NumFilesPerSnapshot" 4)); unfold L2_snapshot_header; cbn [In]; tauto).
    assert (zlen (cat "Header/BoxSize"%string) = 1) as L3 by (apply (extents (one "Header/BoxSize" 8)); unfold L2_snapshot_header; cbn [In]; tauto).
    assert (zlen (cat "Header/HashTabSize"%string) = 1) as L4 by (apply (extents (one "Header/HashTabSize" 4)); unfold L2_snapshot_header; cbn [In]; tauto).
    destruct (field_at 0 (six "Header/NumPart_ThisFile" 4) 1 4 eq_refl ltac:(reflexivity) ltac:(cbn [six fd_name]; lia)) as [A1 R1].
    destruct (field_at 8 (one "Header/NumFilesPerSnapshot" 4) 0 124 eq_refl ltac:(reflexivity) ltac:(cbn [one fd_name]; lia)) as [A2 R2].
    destruct (field_at 9 (one "Header/BoxSize" 8) 0 128 eq_refl ltac:(reflexivity) ltac:(cbn [one fd_name]; lia)) as [A3 R3].
    destruct (field_at 15 (one "Header/HashTabSize" 4) 0 168 eq_refl ltac:(reflexivity) ltac:(cbn [one fd_name]; lia)) as [A4 R4].
    cbn [six one fd_name fd_size] in *. change (Z.to_nat 1) with 1%nat in A1, R1. change (Z.to_nat 0) with 0%nat in *.
    change (4 + 4) with 8 in *. change (124 + 4) with 128 in *. change (168 + 4) with 172 in *. change (128 + 8) with 136 in *.
    rewrite A1, A2, A3, A4. rewrite !signed_signed32 by assumption. unfold scalar. f_equal. unfold n, npart_of, signed. destruct (Z.ltb_spec (nth 1 (cat "Header/NumPart_ThisFile"%string) 0) (2 ^ 31)) as [C|C]; [reflexivity|]. unfold n, npart_of in Hn. lia.
  Qed.
  Lemma skip_at k x pos pos' : nth_error snap_chunks k = Some (4, [x]) -> nth_error snap_chunks (S (S k)) = Some (4, [x]) -> 0 <= x < 2 ^ 31 -> pos = sumZ (firstn k [4; 256; 4; 4; 12 * n; 4; 4; 12 * n; 4; 4; 8 * n; 4; 4; 4; 4; 4; 4; 4 * m; 4]) ->
    pos + 4 + x = sumZ (firstn (S (S k)) [4; 256; 4; 4; 12 * n; 4; 4; 12 * n; 4; 4; 8 * n; 4; 4; 4; 4; 4; 4; 4 * m; 4]) -> 0 <= pos -> pos' = pos + 8 + x -> skip_record little (content, pos) = Ok (content, pos').
  Proof.
    intros E1 E2 Hx Hp Hp2 H0 ->. unfold skip_record. rewrite (int_at k x pos (pos + 4)) by (assumption || reflexivity). cbn [bind]. rewrite fseek_ok by lia. rewrite (int_at (S (S k)) x (pos + 4 + x) (pos + 8 + x)) by (assumption || lia). reflexivity.
  Qed.
  Lemma skip_pos : skip_record little (content, 264) = Ok (content, 272 + 12 * n).
  Proof. destruct lens as (_ & _ & _ & _ & N1 & N2). apply (skip_at 3 (12 * n)); cbn [nth_error snap_chunks firstn sumZ fold_right]; (reflexivity || lia). Qed.
  Lemma skip_vel : skip_record little (content, 272 + 12 * n) = Ok (content, 280 + 24 * n).
  Proof. destruct lens as (_ & _ & _ & _ & N1 & N2). apply (skip_at 6 (12 * n)); cbn [nth_error snap_chunks firstn sumZ fold_right]; (reflexivity || lia). Qed.
  Lemma skip_ids : skip_record little (content, 280 + 24 * n) = Ok (content, 288 + 32 * n).
  Proof. destruct lens as (_ & _ & _ & _ & N1 & N2). apply (skip_at 9 (8 * n)); cbn [nth_error snap_chunks firstn sumZ fold_right]; (reflexivity || lia). Qed.
End Snap.
