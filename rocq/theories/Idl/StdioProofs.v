(** Lemmas on reading arrays from a file with the stdio functions of [LibModel]. *)
From Coq Require Import QArith.
From Coq Require Import Ascii String.
From Verif Require Import Base.Prelude Base.ListLemmas Binary.BinModel Binary.EndianProofs Binary.FortranProofs Formats.FileSpec Formats.CatSpec Formats.ReaderProofs.
From Verif Require Import Text.StrModel Text.StrProofs Text.PathSpec Text.PathProofs Peano.CPeanoModel Fortran.SortModel Fortran.RegionModel Fortran.RegionSpec Fortran.GroupTabModel Fortran.GroupTabSpec Fortran.GroupTabProofs.
From Verif Require Import Idl.LibModel Idl.LibSpec.
From Verif Require Fortran.ReadPartProofs.
From Coq Require Import ZifyBool ZifyNat.
Local Open Scope Z_scope. Local Open Scope list_scope.

(** *** arrays *)
Lemma rd_nth {B} (l : list B) i v : 0 <= i -> nth_error l (Z.to_nat i) = Some v -> rd l i = Ok v.
Proof. intros Hi E. unfold rd. replace (0 <=? i) with true by lia. now rewrite E. Qed.
Lemma rd_range_ok {B} (l : list B) i n : 0 <= i -> 0 <= n -> i + n <= zlen l -> rd_range l i n = Ok (zslice l i (i + n)).
Proof. intros. unfold rd_range. replace ((0 <=? i) && (0 <=? n) && (i + n <=? zlen l)) with true by lia. reflexivity. Qed.
Lemma wr_range_ok {B} (l v : list B) i : 0 <= i -> i + zlen v <= zlen l -> wr_range l i v = Ok (write_at l i v).
Proof. intros. unfold wr_range. replace ((0 <=? i) && (i + zlen v <=? zlen l)) with true by lia. reflexivity. Qed.
Lemma write_front {B} (v w r : list B) : List.length w = List.length v -> write_at (v ++ r) 0 w = w ++ r.
Proof. intro H. unfold write_at. cbn [Z.to_nat firstn app]. rewrite H. f_equal. cbn [Nat.add]. rewrite skipn_app, skipn_all, Nat.sub_diag. reflexivity. Qed.
Lemma write_after {B} (a v w r : list B) : List.length w = List.length v -> write_at (a ++ v ++ r) (zlen a) w = a ++ w ++ r.
Proof.
  intro H. unfold write_at, zlen. rewrite Nat2Z.id, firstn_app, Nat.sub_diag, firstn_all, H. cbn [firstn]. rewrite app_nil_r. do 2 f_equal.
  rewrite skipn_app. rewrite skipn_all2 by lia. replace (List.length a + List.length v - List.length a)%nat with (List.length v) by lia. cbn [app]. rewrite skipn_app, skipn_all, Nat.sub_diag. reflexivity.
Qed.
Lemma front_skip {B} (l : list B) n : 0 <= n <= zlen l -> l = zslice l 0 n ++ skipn (Z.to_nat n) l.
Proof. intro H. unfold zslice. cbn [Z.to_nat skipn]. rewrite Nat.sub_0_r. now rewrite firstn_skipn. Qed.
Lemma zslice_front {B} (a b : list B) : zslice (a ++ b) 0 (zlen a) = a.
Proof. unfold zslice, zlen. cbn [Z.to_nat skipn]. rewrite Nat2Z.id, Nat.sub_0_r, firstn_app, Nat.sub_diag, firstn_all. cbn. apply app_nil_r. Qed.
Lemma signed_signed32 v : 0 <= v < 2 ^ 32 -> signed32 v = signed v.
Proof. intro H. unfold signed32, signed. destruct (Z.ltb_spec v (2 ^ 31)), (Z.leb_spec (2 ^ 31) v); lia. Qed.

(** *** reading *)
Section Read.
  Variable little : bool.
  Lemma fread_at a s v b extra content pos i m : good (a ++ (s, v) :: b) -> content = cbytes little (a ++ (s, v) :: b) ++ extra -> 0 <= i -> 0 <= m -> i + m <= zlen v -> pos = csize a + s * i ->
    fread little s m (content, pos) = Ok (zslice v i (i + m), (content, pos + s * m)).
  Proof.
    intros HG -> Hi Hm Hl ->. pose proof HG as HG'. apply good_app in HG'. destruct HG' as [HA HB]. apply Forall_cons_iff in HB. destruct HB as [[Hs Hv] HB].
    pose proof (csize_nonneg a HA) as PA. unfold fread. replace (0 <=? m) with true by lia. cbn [check bind].
    assert (zslice (cbytes little (a ++ (s, v) :: b) ++ extra) (csize a + s * i) (csize a + s * i + s * m) = concat (map (number_bytes little s) (zslice v i (i + m)))) as E.
    { rewrite cbytes_app. change (cbytes little ((s, v) :: b)) with (concat (map (number_bytes little s) v) ++ cbytes little b). rewrite <- !app_assoc.
      rewrite zslice_app, cbytes_len by exact HA. rewrite zslice_past by (rewrite cbytes_len by exact HA; nia). cbn [app].
      replace (csize a + s * i - csize a) with (s * i) by lia. replace (csize a + s * i + s * m - csize a) with (s * (i + m)) by lia.
      rewrite zslice_app, vals_bytes_len by lia. rewrite (zslice_neg _ (s * i - s * zlen v)) by nia. rewrite app_nil_r. apply ReadPartProofs.numbers_slice; lia. }
    rewrite E, vals_bytes_len, zlen_zslice by lia. replace (s * (i + m - i) =? s * m) with true by lia. cbn [check bind]. do 2 f_equal.
    set (w := zslice v i (i + m)). assert (Z.to_nat m = List.length w) as Em by (pose proof (zlen_zslice v i (i + m) ltac:(lia) ltac:(lia) ltac:(lia)) as EL; fold w in EL; unfold zlen in EL; lia).
    rewrite Em. transitivity (map (fun i => nth (Z.to_nat i) w 0) (zseq 0 (List.length w))); [|apply ReadPartProofs.map_nth_zseq].
    apply map_ext_in. intros k Hk. apply In_zseq in Hk. rewrite ReadPartProofs.elem_number by (unfold zlen; lia).
    apply in_memory_number; [exact Hs|]. rewrite Forall_forall in Hv. apply Hv. apply (ReadPartProofs.In_zslice_in v i (i + m)). fold w. apply nth_In. lia.
  Qed.
  (** a whole array *)
  Lemma fread_all a s v b extra content pos : good (a ++ (s, v) :: b) -> content = cbytes little (a ++ (s, v) :: b) ++ extra -> pos = csize a ->
    fread little s (zlen v) (content, pos) = Ok (v, (content, csize (a ++ [(s, v)]))).
  Proof.
    intros HG HC HP. pose proof (zlen_nonneg v). rewrite (fread_at a s v b extra content pos 0 (zlen v)) by (assumption || lia). rewrite zslice_all by lia. do 3 f_equal.
    unfold csize. rewrite map_app, sumZ_app. cbn [map sumZ fold_right]. fold (csize a). unfold sumZ. lia.
  Qed.
  Lemma fread_ints_all a v b extra content pos : good (a ++ (4, v) :: b) -> content = cbytes little (a ++ (4, v) :: b) ++ extra -> pos = csize a ->
    fread_ints little (zlen v) (content, pos) = Ok (map signed v, (content, csize (a ++ [(4, v)]))).
  Proof.
    intros HG HC HP. unfold fread_ints. rewrite (fread_all a 4 v b extra) by assumption. cbn [bind]. do 2 f_equal. apply map_ext_in. intros x Hx. apply signed_signed32.
    apply good_app in HG. destruct HG as [_ HG]. apply Forall_cons_iff in HG. destruct HG as [[_ HG] _]. rewrite Forall_forall in HG. exact (HG x Hx).
  Qed.
  Lemma fread_int_at a x b extra content pos : good (a ++ (4, [x]) :: b) -> content = cbytes little (a ++ (4, [x]) :: b) ++ extra -> pos = csize a ->
    fread_int little (content, pos) = Ok (signed x, (content, csize (a ++ [(4, [x])]))).
  Proof.
    intros HG HC HP. unfold fread_int. change 1 with (zlen [x]). rewrite (fread_all a 4 [x] b extra) by assumption. cbn [bind nth]. do 2 f_equal. apply signed_signed32.
    apply good_app in HG. destruct HG as [_ HG]. apply Forall_cons_iff in HG. destruct HG as [[_ HG] _]. apply Forall_cons_iff in HG. apply HG.
  Qed.
End Read.
Lemma csize_app a b : csize (a ++ b) = csize a + csize b.
Proof. unfold csize. now rewrite map_app, sumZ_app. Qed.
Lemma csize_one s v : csize [(s, v)] = s * zlen v.
Proof. unfold csize, sumZ. cbn [map fold_right]. lia. Qed.
Lemma fseek_ok content pos off : 0 <= pos + off -> fseek_cur off (content, pos) = (content, pos + off).
Proof. intro H. unfold fseek_cur. replace (0 <=? pos + off) with true by lia. reflexivity. Qed.

(** *** names *)
Lemma number_3 num : 0 <= num -> number 3 num (fmt_0d 3 num).
Proof. intro H. destruct num as [|p|p]; [| |lia]; unfold fmt_0d; apply number_pad; lia. Qed.
Lemma fopen_name fs dir stem num i content (name := dir ++ lit "/" ++ stem ++ lit "_" ++ fmt_0d 3 num ++ lit "." ++ fmt_d i) : 0 <= num -> 0 <= i -> file_is fs dir stem num i content ->
  fopen fs name = match content with Some c => Some (c, 0) | None => None end.
Proof. intros Hn Hi H. unfold fopen, name. rewrite (H _ _ (number_3 num Hn) (number_d i Hi)). now destruct content. Qed.
Lemma tab_name_eq dir num i : tab_name dir num i = dir ++ lit "/" ++ lit "group_tab" ++ lit "_" ++ fmt_0d 3 num ++ lit "." ++ fmt_d i.
Proof. reflexivity. Qed.
Lemma ids_name_eq dir num i : ids_name dir num i = dir ++ lit "/" ++ lit "group_ids" ++ lit "_" ++ fmt_0d 3 num ++ lit "." ++ fmt_d i.
Proof. reflexivity. Qed.
