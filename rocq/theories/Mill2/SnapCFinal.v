(** Proofs about the C reader of Millennium-2 snapshots (C99), and files which are read wrongly. *)
From Coq Require Import Ascii String.
From Verif Require Import Base.Prelude Base.ListLemmas Binary.BinModel Binary.EndianProofs Binary.FortranProofs Formats.FileSpec Formats.CatSpec Formats.GadgetSpec Formats.ReaderProofs.
From Verif Require Import Peano.CPeanoModel Fortran.SortModel Fortran.RegionModel Fortran.RegionSpec Fortran.GroupTabModel Fortran.GroupTabSpec Fortran.GroupTabProofs Fortran.ReadFileProofs.
From Verif Require Fortran.ReadPartProofs.
From Verif Require Import Mill2.SnapModel Mill2.SnapSpec Mill2.SnapFinal.
From Coq Require Import ZifyBool ZifyNat.
Local Open Scope Z_scope.

Lemma fread_at buf pre x post : zlen buf = zlen x -> fread buf (pre ++ x ++ post, zlen pre) = (x, (pre ++ x ++ post, zlen pre + zlen x)).
Proof.
  intro E. unfold fread. pose proof (zlen_nonneg pre). pose proof (zlen_nonneg x).
  assert (zslice (pre ++ x ++ post) (zlen pre) (zlen pre + zlen buf) = x) as ->.
  { rewrite zslice_app, (zslice_past pre) by lia. cbn [app]. rewrite Z.sub_diag. replace (zlen pre + zlen buf - zlen pre) with (zlen x) by lia. rewrite zslice_prefix by lia. apply zslice_all; lia. }
  rewrite skipn_all2 by (unfold zlen in E; lia). now rewrite app_nil_r.
Qed.
Lemma fread_part (l : list (list Z)) extra k buf : (k < List.length l)%nat -> zlen buf = zlen (nth k l []) ->
  fread buf (concat l ++ extra, zlen (concat (firstn k l))) = (nth k l [], (concat l ++ extra, zlen (concat (firstn (S k) l)))).
Proof.
  intros Hk E. assert (firstn (S k) l = firstn k l ++ [nth k l []]) as F.
  { clear E. revert k Hk. induction l as [|x l IH]; intros [|k] Hk; cbn [List.length] in Hk; [lia | lia | reflexivity|]. cbn [firstn app nth]. f_equal. apply IH. lia. }
  assert (concat l ++ extra = concat (firstn k l) ++ nth k l [] ++ concat (skipn (S k) l) ++ extra) as ->.
  { rewrite <- (firstn_skipn (S k) l) at 1. rewrite F, concat_app, concat_app. cbn [concat]. rewrite app_nil_r. now rewrite <- !app_assoc. }
  rewrite fread_at by exact E. rewrite F, concat_app. cbn [concat]. now rewrite app_nil_r, zlen_app.
Qed.
Lemma to_int_number little v : 0 <= v < 2 ^ 32 -> to_int little (number_bytes little 4 v) = signed v.
Proof. intro Hv. unfold to_int. rewrite in_memory_number by lia. apply signed_model. Qed.

Section C.
  Variables (little : bool) (irec0 header0 : list Z) (malloc : Z -> list Z).
  Hypothesis M : memory_ok irec0 header0 malloc.
  Section File.
    Variables (cat : catalogue) (extra content : list Z).
    Hypothesis H : m2_file little cat extra content.
    Notation hdr := (map (attr_of cat) M2_header).
    Notation n := (count cat).
    Notation cb l := (cbytes little (map piece_chunk l)).
    Notation mark v := (number_bytes little 4 v).
    Definition chunks : list (list Z) :=
      [mark 256; cb hdr; mark 256; mark (12 * n); cbytes little [(4, cat "PartType1/Coordinates"%string)]; mark (12 * n); mark (12 * n); cbytes little [(4, cat "PartType1/Velocities"%string)]; mark (12 * n); mark (8 * n); cbytes little [(8, cat "PartType1/ParticleIDs"%string)]; mark (8 * n)].
    Lemma content_chunks : content = concat chunks ++ extra.
    Proof using H.
      rewrite (content_split little cat extra content H) at 1. destruct (sizes little cat extra content H) as (S1 & S2 & S3). rewrite !record_bytes by (apply hdr_data || apply one_data). rewrite (hdr_size little cat extra content H), S1, S2, S3.
      unfold chunks. cbn [concat]. rewrite app_nil_r, <- !app_assoc. reflexivity.
    Qed.
    Lemma header_np : to_int little (zslice (cb hdr) 4 8) = n.
    Proof using H.
      destruct (field_len little cat extra content H (six "Header/NumPart_ThisFile" 4)) as [A B]; [now left|]. cbn [six fd_dims map extent fold_left fd_name fd_size] in A, B.
      assert (cb hdr = concat (map (number_bytes little 4) (cat "Header/NumPart_ThisFile"%string)) ++ cb (map (attr_of cat) (skipn 1 M2_header))) as -> by reflexivity.
      rewrite zslice_prefix by (rewrite vals_bytes_len by lia; lia). change (zslice (concat (map (number_bytes little 4) (cat "Header/NumPart_ThisFile"%string))) 4 8) with (elem 4 (concat (map (number_bytes little 4) (cat "Header/NumPart_ThisFile"%string))) 1).
      rewrite ReadPartProofs.elem_number by (unfold zlen in *; lia). change (nth (Z.to_nat 1) (cat "Header/NumPart_ThisFile"%string) 0) with n. pose proof (n_nonneg little cat extra content H). pose proof (n_bound little cat extra content H). rewrite to_int_number by lia. apply signed_id. lia.
    Qed.
    Lemma c_final : c_program little irec0 header0 malloc content = Ok (particle_lines (fun v => v) cat).
    Proof using H M.
      destruct M as (M1 & M2 & M3). destruct (pos_len little cat extra content H) as (P1 & P2 & P3). pose proof (n_nonneg little cat extra content H) as Hn. pose proof (n_bound little cat extra content H) as Hb. destruct (parts little cat extra content H) as (O1 & (_ & _ & _ & O2) & (_ & _ & _ & O3) & (_ & _ & _ & O4)).
      assert (forall v, zlen (mark v) = 4) as LM by (intro v; apply number_len; lia).
      assert (zlen (cb hdr) = 256) as LH by (rewrite cbytes_len by (apply data_good; [apply hdr_data | exact O1]); exact (hdr_size little cat extra content H)).
      assert (forall s v, 0 < s -> zlen (cbytes little [(s, v)]) = s * zlen v) as LC by (intros s v Hs; unfold cbytes; cbn [map concat]; rewrite app_nil_r; apply vals_bytes_len; lia).
      rewrite content_chunks. unfold c_program. change (concat chunks ++ extra, 0) with (concat chunks ++ extra, zlen (concat (firstn 0 chunks))).
      rewrite fread_part by (cbn [chunks List.length nth]; rewrite ?LM; lia). cbn [nth chunks]. fold chunks. rewrite to_int_number by lia. change (signed 256 =? 256) with true. cbn [check bind].
      rewrite fread_part by (cbn [chunks List.length nth]; rewrite ?LH; lia). cbn [nth chunks]. fold chunks.
      rewrite fread_part by (cbn [chunks List.length nth]; rewrite ?LM; lia). cbn [nth chunks]. fold chunks. rewrite to_int_number by lia. change (signed 256 =? 256) with true. cbn [check bind].
      rewrite header_np. cbn zeta. replace (0 <=? n) with true by lia. cbn [check bind]. rewrite c_int_ok by lia. cbn [bind].
      do 3 (rewrite fread_part by (cbn [chunks List.length nth]; rewrite ?LM, ?M3, ?LC, ?P1, ?P2, ?P3 by lia; lia); cbn [nth chunks]; fold chunks).
      do 3 (rewrite fread_part by (cbn [chunks List.length nth]; rewrite ?LM, ?M3, ?LC, ?P1, ?P2, ?P3 by lia; lia); cbn [nth chunks]; fold chunks).
      do 3 (rewrite fread_part by (cbn [chunks List.length nth]; rewrite ?LM, ?M3, ?LC, ?P1, ?P2, ?P3 by lia; lia); cbn [nth chunks]; fold chunks).
      pose proof (decode_ok little 4 (cat "PartType1/Coordinates"%string) ltac:(lia) O2) as D1. pose proof (decode_ok little 4 (cat "PartType1/Velocities"%string) ltac:(lia) O3) as D2. pose proof (decode_ok little 8 (cat "PartType1/ParticleIDs"%string) ltac:(lia) O4) as D3.
      rewrite P1 in D1. rewrite P2 in D2. rewrite P3 in D3. rewrite D1, D2, D3.
      f_equal. pose proof (lines_ok little cat extra content H (fun v => v)) as L. rewrite map_id in L. rewrite <- L. apply map_ext. intro i. unfold col3. cbn [map app]. now rewrite Z.add_0_r.
    Qed.
  End File.
  Lemma marker_final a b h rest : 0 <= a < 2 ^ 32 -> 0 <= b < 2 ^ 32 -> zlen h = 256 -> a <> 256 \/ b <> 256 ->
    c_program little irec0 header0 malloc (number_bytes little 4 a ++ h ++ number_bytes little 4 b ++ rest) = Err ERuntime.
  Proof using M.
    intros Ha Hb Hh Hab. destruct M as (M1 & M2 & _). assert (forall v, zlen (number_bytes little 4 v) = 4) as LM by (intro v; apply number_len; lia).
    pose (l := [number_bytes little 4 a; h; number_bytes little 4 b]). assert (number_bytes little 4 a ++ h ++ number_bytes little 4 b ++ rest = concat l ++ rest) as -> by (unfold l; cbn [concat]; now rewrite app_nil_r, <- !app_assoc).
    assert (forall v, 0 <= v < 2 ^ 32 -> (signed v =? 256) = (v =? 256)) as E by (intros v Hv; unfold signed; destruct (Z.ltb_spec v (2 ^ 31)); lia).
    unfold c_program. change (concat l ++ rest, 0) with (concat l ++ rest, zlen (concat (firstn 0 l))).
    rewrite fread_part by (unfold l; cbn [List.length nth]; rewrite ?LM; lia). unfold l at 1. cbn [nth]. rewrite to_int_number, E by lia. destruct (Z.eqb_spec a 256) as [Ea|Ea]; [|reflexivity]. cbn [check bind].
    rewrite fread_part by (unfold l; cbn [List.length nth]; lia). rewrite fread_part by (unfold l; cbn [List.length nth]; rewrite ?LM; lia). unfold l at 1. cbn [nth]. unfold l at 2. cbn [nth]. rewrite to_int_number, E by lia. replace (b =? 256) with false by lia. reflexivity.
  Qed.
End C.
Lemma order_final little irec0 header0 malloc cat extra content : memory_ok irec0 header0 malloc -> m2_file (negb little) cat extra content -> c_program little irec0 header0 malloc content = Err ERuntime.
Proof.
  intros M H. rewrite (content_chunks (negb little) cat extra content H). assert (number_bytes (negb little) 4 256 = number_bytes little 4 65536) as E by (destruct little; reflexivity).
  unfold chunks. cbn [concat]. rewrite E, <- !app_assoc. destruct (parts _ _ _ _ H) as (O1 & _). apply (marker_final _ _ _ _ M); [lia | lia | | lia].
  rewrite cbytes_len by (apply data_good; [apply hdr_data | exact O1]). exact (hdr_size _ cat extra content H).
Qed.

(** *** an example: two particles, and the same with a gas particle *)
Definition ex_cat (gas : Z) : catalogue := fun name =>
  if String.eqb name "Header/NumPart_ThisFile" then [gas; 2; 0; 0; 0; 0] else
  if String.eqb name "Header/NumPart_Total" then [0; 1410065408; 0; 0; 0; 0] else
  if String.eqb name "Header/NumPart_Total_HighWord" then [0; 2; 0; 0; 0; 0] else
  if String.eqb name "Header/MassTable" then [0; 1; 0; 0; 0; 0] else
  if String.eqb name "Header/BoxSize" then [4636737291354636288] else
  if String.eqb name "Header/unused" then repeat 7 64 else
  if String.eqb name "PartType1/Coordinates" then [11; 12; 13; 21; 22; 23] else
  if String.eqb name "PartType1/Velocities" then [31; 32; 33; 41; 42; 43] else
  if String.eqb name "PartType1/ParticleIDs" then [2 ^ 63 + 5; 6] else
  if String.eqb name "PartType0/Coordinates" then [1; 2; 3] else
  if String.eqb name "PartType0/Velocities" then [4; 5; 6] else
  if String.eqb name "PartType0/ParticleIDs" then [9] else [0].
Lemma ex_memory : memory_ok (repeat 0 4) (repeat 0 256) (fun n => repeat 0 (Z.to_nat n)).
Proof. split; [reflexivity|]. split; [reflexivity|]. intros n Hn. unfold zlen. rewrite repeat_length. lia. Qed.
Definition ok_b (p : piece) : bool :=
  match p with
  | Data _ _ size shape vals => (0 <? size) && forallb (fun s => 0 <=? s) shape && (zlen vals =? fold_left Z.mul shape 1) && forallb (fun v => (0 <=? v) && (v <? 256 ^ size)) vals
  | Mark n => (0 <=? n) && (n <? 2 ^ 32)
  | Raw _ => true
  end.
Lemma ok_b_ok l : forallb ok_b l = true -> Forall piece_ok l.
Proof.
  intro E. apply Forall_forall. intros p Hp. rewrite forallb_forall in E. specialize (E p Hp). destruct p as [nm at_ size shape vals|m|b]; cbn [ok_b piece_ok] in *; [|lia|exact I].
  apply andb_prop in E as [E1 E4]. apply andb_prop in E1 as [E1 E3]. apply andb_prop in E1 as [E1 E2]. rewrite forallb_forall in E2, E4. split; [lia|]. split; [apply Forall_forall; intros s Hs; specialize (E2 s Hs); lia|]. split; [lia|]. apply Forall_forall. intros v Hv. specialize (E4 v Hv). lia.
Qed.
Lemma ex_file lf extra : m2_file lf (ex_cat 0) extra (file_bytes lf (M2_snapshot (ex_cat 0)) ++ extra).
Proof. split; [apply ok_b_ok; vm_compute; reflexivity | reflexivity]. Qed.
Lemma ex_mixed lf : mixed_file lf (ex_cat 1) (file_bytes lf (M2_mixed (ex_cat 1))).
Proof. split; [apply ok_b_ok; vm_compute; reflexivity | reflexivity]. Qed.
Lemma short_refuted : ~ (forall little irec0 header0 malloc cat extra content k, memory_ok irec0 header0 malloc -> m2_file little cat extra content -> Z.of_nat k < 288 + 32 * count cat ->
  exists e, c_program little irec0 header0 malloc (firstn k content) = Err e).
Proof.
  intro C. destruct (C true _ _ _ (ex_cat 0) [] _ 264%nat ex_memory (ex_file true []) ltac:(vm_compute; reflexivity)) as [e E]. vm_compute in E. discriminate.
Qed.
Lemma fortran_mixed_refuted : ~ (forall little cat content, mixed_file little cat content -> 0 < nth 0 (cat "Header/NumPart_ThisFile"%string) 0 -> exists t b, fortran_program little content = Ok (t, b, particle_lines signed64 cat)).
Proof. intro C. destruct (C true (ex_cat 1) _ (ex_mixed true) ltac:(vm_compute; reflexivity)) as (t & b & E). vm_compute in E. discriminate. Qed.
Lemma c_mixed_refuted : ~ (forall little irec0 header0 malloc cat content, memory_ok irec0 header0 malloc -> mixed_file little cat content -> 0 < nth 0 (cat "Header/NumPart_ThisFile"%string) 0 ->
  (exists e, c_program little irec0 header0 malloc content = Err e) \/ c_program little irec0 header0 malloc content = Ok (particle_lines (fun v => v) cat)).
Proof. intro C. destruct (C true _ _ _ (ex_cat 1) _ ex_memory (ex_mixed true) ltac:(vm_compute; reflexivity)) as [[e E]|E]; vm_compute in E; discriminate. Qed.
Lemma idl_mixed_refuted : ~ (forall little cat content, mixed_file little cat content -> 0 < nth 0 (cat "Header/NumPart_ThisFile"%string) 0 ->
  (exists e, idl_program little content = Err e) \/ exists np vel id, idl_program little content = Ok (np, (cat "PartType1/Coordinates"%string, vel, id))).
Proof. intro C. destruct (C true (ex_cat 1) _ (ex_mixed true) ltac:(vm_compute; reflexivity)) as [(e & E)|(np & vel & id & E)]; vm_compute in E; discriminate. Qed.
