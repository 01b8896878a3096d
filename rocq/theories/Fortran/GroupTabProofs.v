(** Proofs about the readers of Millennium group files (C70). *)
From Coq Require Import Ascii String.
From Verif Require Import Base.Prelude Base.ListLemmas Binary.BinModel Binary.EndianProofs Binary.FortranProofs Formats.FileSpec Formats.CatSpec Formats.ReaderProofs.
From Verif Require Import Peano.CPeanoModel Fortran.SortModel Fortran.RegionModel Fortran.RegionSpec Fortran.GroupTabModel Fortran.GroupTabSpec.
From Verif Require Fortran.ReadPartProofs.
From Coq Require Import ZifyBool ZifyNat.
Local Open Scope Z_scope.

(** *** arrays one after the other *)
Notation chunk := (Z * list Z)%type.
Definition cbytes (lf : bool) (l : list chunk) : list Z := concat (map (fun '(s, v) => concat (map (number_bytes lf s) v)) l).
Definition good (l : list chunk) : Prop := Forall (fun '(s, v) => 0 < s /\ Forall (fun x => 0 <= x < 256 ^ s) v) l.
Definition csize (l : list chunk) : Z := sumZ (map (fun '(s, v) => s * zlen v) l).
Definition items_of (l : list chunk) : list (Z * Z) := map (fun '(s, v) => (s, zlen v)) l.
Lemma good_app l m : good (l ++ m) <-> good l /\ good m.
Proof. apply Forall_app. Qed.
Lemma cbytes_app lf l m : cbytes lf (l ++ m) = cbytes lf l ++ cbytes lf m.
Proof. unfold cbytes. now rewrite map_app, concat_app. Qed.
Lemma cbytes_len lf l : good l -> zlen (cbytes lf l) = csize l.
Proof.
  induction l as [|[s v] l IH]; intro H; [reflexivity|]. apply Forall_cons_iff in H. destruct H as [[H1 _] H2]. unfold cbytes, csize in *. cbn [map concat sumZ fold_right]. rewrite zlen_app, IH, vals_bytes_len by (assumption || lia). reflexivity.
Qed.
Lemma csize_nonneg l : good l -> 0 <= csize l.
Proof. intro H. rewrite <- (cbytes_len true l H). apply zlen_nonneg. Qed.
Lemma in_memory_number little s v : 0 < s -> 0 <= v < 256 ^ s -> in_memory little (number_bytes little s v) = v.
Proof.
  intros Hs Hv. unfold in_memory, number_bytes. rewrite digits_le. assert (le_value (le_bytes (Z.to_nat s) v) = v) as E by (apply le_bytes_value; rewrite Z2Nat.id by lia; exact Hv).
  destruct little; rewrite ?rev_involutive; exact E.
Qed.
Lemma zslice_prefix {B} (l m : list B) a b : b <= zlen l -> zslice (l ++ m) a b = zslice l a b.
Proof. intro H. rewrite zslice_app, (zslice_neg m) by lia. apply app_nil_r. Qed.
Lemma transfer_ok little : forall l extra, good l -> transfer little (items_of l) (cbytes little l ++ extra) = Ok (map snd l).
Proof.
  induction l as [|[s v] l IH]; intros extra H; [reflexivity|]. apply Forall_cons_iff in H. destruct H as [[H1 H2] H3]. pose proof (zlen_nonneg v) as Hv. change (items_of ((s, v) :: l)) with ((s, zlen v) :: items_of l).
  cbn [transfer]. replace (Z.max 0 (zlen v)) with (zlen v) by lia.
  assert (cbytes little ((s, v) :: l) ++ extra = concat (map (number_bytes little s) v) ++ cbytes little l ++ extra) as -> by (unfold cbytes; cbn [map concat]; now rewrite app_assoc).
  assert (zlen (concat (map (number_bytes little s) v)) = s * zlen v) as EL by (apply vals_bytes_len; lia).
  rewrite zlen_app, EL. pose proof (zlen_nonneg (cbytes little l ++ extra)). replace (s * zlen v <=? _) with true by lia. cbn [check bind].
  replace (skipn (Z.to_nat (s * zlen v)) (concat (map (number_bytes little s) v) ++ cbytes little l ++ extra)) with (cbytes little l ++ extra).
  2: { assert (List.length (concat (map (number_bytes little s) v)) = Z.to_nat (s * zlen v)) as EL2 by (rewrite <- EL; unfold zlen; lia). rewrite skipn_app. rewrite skipn_all2, EL2, Nat.sub_diag by lia. reflexivity. }
  rewrite IH by exact H3. cbn [bind map snd]. do 2 f_equal. assert (Z.to_nat (zlen v) = List.length v) as -> by (unfold zlen; lia). transitivity (map (fun i => nth (Z.to_nat i) v 0) (zseq 0 (List.length v))); [|apply ReadPartProofs.map_nth_zseq].
  apply map_ext_in. intros i Hi. apply In_zseq in Hi. unfold elem. rewrite zslice_prefix by (rewrite EL; unfold zlen; nia). fold (elem s (concat (map (number_bytes little s) v)) i). rewrite ReadPartProofs.elem_number by (unfold zlen; lia).
  apply in_memory_number; [exact H1|]. rewrite Forall_forall in H2. apply H2. apply nth_In. lia.
Qed.
Lemma direct_ok little l extra recl items : good l -> items = items_of l -> recl = csize l -> 0 < recl -> read_direct little (cbytes little l ++ extra) recl items = Ok (map snd l).
Proof.
  intros H -> -> Hp. unfold read_direct. replace (0 <? csize l) with true by lia. cbn [check bind]. rewrite zlen_app, cbytes_len by exact H. pose proof (zlen_nonneg extra). replace (_ <=? _) with true by lia. cbn [check bind].
  rewrite zslice_prefix, zslice_all by (rewrite ?cbytes_len by exact H; lia). rewrite <- (app_nil_r (cbytes little l)). now apply transfer_ok.
Qed.
(** a read of the first arrays of a longer file *)
Lemma direct_prefix little l m extra recl items content : good (l ++ m) -> content = cbytes little (l ++ m) ++ extra -> items = items_of l -> recl = csize l -> 0 < recl ->
  read_direct little content recl items = Ok (map snd l).
Proof. intros H -> Hi Hr Hp. rewrite cbytes_app, <- app_assoc. apply good_app in H. now apply direct_ok. Qed.
(** a read of a record in which more bytes follow the items *)
Lemma direct_more little l m extra recl items content : good (l ++ m) -> content = cbytes little (l ++ m) ++ extra -> items = items_of l -> csize l <= recl <= zlen content -> 0 < recl ->
  read_direct little content recl items = Ok (map snd l).
Proof.
  intros H -> -> Hr Hp. apply good_app in H. destruct H as [H1 H2]. unfold read_direct. replace (0 <? recl) with true by lia. cbn [check bind]. replace (recl <=? _) with true by lia. cbn [check bind].
  rewrite cbytes_app, <- app_assoc. pose proof (csize_nonneg l H1). rewrite zslice_app, (zslice_all (cbytes little l)) by (rewrite ?cbytes_len by exact H1; lia). now apply transfer_ok.
Qed.

Definition chunk_of (cat : catalogue) (fd : field) : chunk := (fd_size fd, cat (fd_name fd)).
Lemma file_chunks lf cat l : file_bytes lf (pieces_of cat l) = cbytes lf (map (chunk_of cat) l).
Proof. unfold file_bytes, cbytes, pieces_of. rewrite !map_map. reflexivity. Qed.
Lemma consistent_good cat l : consistent cat l -> good (map (chunk_of cat) l).
Proof. intros [H _]. unfold pieces_of, good in *. rewrite Forall_map in *. eapply Forall_impl; [|exact H]. intros fd (A & _ & _ & B). now split. Qed.
Lemma consistent_len cat l fd : consistent cat l -> In fd l -> zlen (cat (fd_name fd)) = fold_left Z.mul (map (extent cat) (fd_dims fd)) 1.
Proof. intros [H _] Hin. rewrite Forall_forall in H. specialize (H (data_of cat fd) (in_map _ _ _ Hin)). apply H. Qed.
Lemma consistent_count cat l fd name : consistent cat l -> In fd l -> In (Of name) (fd_dims fd) -> 0 <= scalar cat name < 2 ^ 31.
Proof. intros [_ H] Hin Hd. rewrite Forall_forall in H. specialize (H fd Hin). rewrite Forall_forall in H. exact (H (Of name) Hd). Qed.
Lemma one_chunk cat l name size : consistent cat l -> In (one name size) l -> cat name = [scalar cat name].
Proof. intros H Hin. pose proof (consistent_len _ _ _ H Hin) as E. cbn in E. unfold scalar. destruct (cat name) as [|a [|]]; unfold zlen in E; cbn in E; try lia. reflexivity. Qed.
(** a header of numbers is an array *)
Lemma merge lf s : forall heads l, cbytes lf (map (fun h => (s, [h])) heads ++ l) = cbytes lf ((s, heads) :: l).
Proof.
  induction heads as [|h heads IH]; intro l; [reflexivity|]. unfold cbytes in *. cbn [map app concat] in *. rewrite IH. cbn [map concat]. now rewrite app_nil_r, !app_assoc.
Qed.
Lemma merge_good s heads l : 0 < s -> good (map (fun h => (s, [h])) heads ++ l) -> good ((s, heads) :: l).
Proof.
  intros Hs H. apply good_app in H. destruct H as [H1 H2]. constructor; [split; [exact Hs|] | exact H2]. unfold good in H1. rewrite Forall_map in H1. eapply Forall_impl; [|exact H1]. cbn. intros h [_ Hh]. now apply Forall_cons_iff in Hh.
Qed.

Lemma signed_model v : signed32 v = signed v.
Proof. unfold signed32, signed. destruct (Z.leb_spec (2 ^ 31) v), (Z.ltb_spec v (2 ^ 31)); lia. Qed.
Lemma ints_signed l : ints l = map signed l.
Proof. unfold ints. apply map_ext. exact signed_model. Qed.
Lemma long_signed v : to_signed64 v = signed64 v.
Proof. unfold to_signed64, signed64. destruct (Z.leb_spec (2 ^ 63) v), (Z.ltb_spec v (2 ^ 63)); lia. Qed.
Lemma longs_signed l : longs l = map signed64 l.
Proof. unfold longs. apply map_ext. exact long_signed. Qed.
Lemma signed_id v : 0 <= v < 2 ^ 31 -> signed v = v.
Proof. intro H. unfold signed. replace (v <? 2 ^ 31) with true by lia. reflexivity. Qed.
Lemma c_int_ok v : - 2 ^ 31 <= v < 2 ^ 31 -> c_int v = Ok v.
Proof. intro H. unfold c_int. replace (_ && _) with true by lia. reflexivity. Qed.
Lemma c_int_bad v : 2 ^ 31 <= v -> c_int v = Err EAbort.
Proof. intro H. unfold c_int. replace (_ && _) with false by lia. reflexivity. Qed.

(** *** the header of a file is read as an array *)
Lemma two_reads little heads rest extra content n recl1 recl l m :
  good (map (fun h => (4, [h])) heads ++ rest) -> content = cbytes little (map (fun h => (4, [h])) heads ++ rest) ++ extra -> zlen heads = n -> 0 < n -> 4 * n <= recl1 <= zlen content ->
  rest = l ++ m -> recl = 4 * n + csize l ->
  read_direct little content recl1 [(4, n)] = Ok [heads] /\ read_direct little content recl ((4, n) :: items_of l) = Ok (heads :: map snd l).
Proof.
  intros G E Hn Hp H1 -> ->. apply merge_good in G; [|lia]. rewrite merge in E. split.
  - apply (direct_more little [(4, heads)] (l ++ m) extra); [exact G | exact E | now rewrite <- Hn | unfold csize; cbn [map sumZ fold_right]; rewrite Hn; lia | lia].
  - change ((4, heads) :: l ++ m) with (((4, heads) :: l) ++ m) in *. assert (csize ((4, heads) :: l) = 4 * n + csize l) as Ec by (unfold csize; cbn [map sumZ fold_right]; now rewrite Hn).
    pose proof G as G'. apply good_app in G'. destruct G' as [G' _]. apply Forall_cons_iff in G'. destruct G' as [_ G']. pose proof (csize_nonneg l G').
    rewrite (direct_prefix little ((4, heads) :: l) m extra _ _ _ G E); [reflexivity | unfold items_of; cbn [map]; now rewrite Hn | now symmetry | lia].
Qed.

Lemma csize_app l m : csize (l ++ m) = csize l + csize m.
Proof. unfold csize. now rewrite map_app, sumZ_app. Qed.
Lemma csize_heads heads : csize (map (fun h => (4, [h])) heads) = 4 * zlen heads.
Proof. unfold csize. induction heads as [|h heads IH]; [reflexivity|]. cbn [map sumZ fold_right] in *. rewrite IH, !zlen_cons. change (zlen (@nil Z)) with 0. lia. Qed.
Lemma csize_cons c l : csize (c :: l) = fst c * zlen (snd c) + csize l.
Proof. destruct c. reflexivity. Qed.
Section Catalogue.
  Variable little : bool.
  Variable cat : catalogue.
  Variables extra content : list Z.
  Notation sc := (scalar cat).

  Lemma format_reads l hn body tail n recl1 recl : catalogue_file little l cat extra content -> l = map (fun n => one n 4) hn ++ body ++ tail -> zlen hn = n -> 0 < n ->
    4 * n <= recl1 <= 4 * n + csize (map (chunk_of cat) (body ++ tail)) -> recl = 4 * n + csize (map (chunk_of cat) body) ->
    read_direct little content recl1 [(4, n)] = Ok [map sc hn] /\ read_direct little content recl ((4, n) :: items_of (map (chunk_of cat) body)) = Ok (map sc hn :: map (fun fd => cat (fd_name fd)) body).
  Proof.
    intros [H E] El Hn Hp Hr Hr2. pose proof (consistent_good _ _ H) as G. rewrite file_chunks in E.
    assert (map (chunk_of cat) l = map (fun h => (4, [h])) (map sc hn) ++ map (chunk_of cat) body ++ map (chunk_of cat) tail) as EM.
    { rewrite El, !map_app. f_equal. rewrite !map_map. apply map_ext_in. intros nm Hnm. unfold chunk_of. cbn [fd_size fd_name one]. f_equal. apply (one_chunk cat l nm 4 H). rewrite El. apply in_or_app. left. apply in_map_iff. now exists nm. }
    rewrite EM in *. assert (zlen content = 4 * n + csize (map (chunk_of cat) (body ++ tail)) + zlen extra) as EL by (rewrite E, zlen_app, cbytes_len by exact G; rewrite csize_app, csize_heads, zlen_map, Hn, map_app; lia).
    pose proof (zlen_nonneg extra) as P.
    destruct (two_reads little (map sc hn) _ extra content n recl1 recl (map (chunk_of cat) body) (map (chunk_of cat) tail) G E) as [R1 R2]; [now rewrite zlen_map | exact Hp | lia | reflexivity | exact Hr2|].
    split; [exact R1|]. rewrite R2. do 2 f_equal. rewrite map_map. reflexivity.
  Qed.
  Lemma counts l fd name : catalogue_file little l cat extra content -> In fd l -> fd_dims fd = [Of name] -> 0 <= sc name < 2 ^ 31 /\ zlen (cat (fd_name fd)) = sc name.
  Proof.
    intros [H _] Hin Hd. split; [apply (consistent_count cat l fd name H Hin); rewrite Hd; now left|]. rewrite (consistent_len cat l fd H Hin), Hd. cbn [map fold_left extent]. lia.
  Qed.
  Lemma counts3 l fd name : catalogue_file little l cat extra content -> In fd l -> fd_dims fd = [Of name; Fixed 3] -> zlen (cat (fd_name fd)) = 3 * sc name.
  Proof. intros [H _] Hin Hd. rewrite (consistent_len cat l fd H Hin), Hd. cbn [map fold_left extent]. lia. Qed.

  Ltac count H c nm L := assert (zlen (cat nm%string) = sc c%string) as L by (apply (counts _ (col c nm 4) c H); cbn; tauto).
  Ltac ints := repeat (rewrite c_int_ok by lia; cbn [bind]).
  Notation group_header := ["Ngroups"; "Nids"; "TotNgroups"; "NTask"]%string.
  Section GroupTab.
    Hypothesis H : catalogue_file little L2_group_tab cat extra content.
    Let n := sc "Ngroups".
    Lemma group_tab_reads recl : recl = 16 + 8 * n -> 0 <= n < 2 ^ 31 /\ zlen (cat "GroupLen"%string) = n /\
      read_direct little content 20 [(4, 4)] = Ok [map sc group_header] /\ read_direct little content recl [(4, 4); (4, n); (4, n)] = Ok [map sc group_header; cat "GroupLen"%string; cat "GroupOffset"%string].
    Proof.
      intros ->. destruct (counts _ (col "Ngroups" "GroupLen" 4) "Ngroups" H) as [Hn L1]; [cbn; tauto | reflexivity|]. count H "Ngroups"%string "GroupOffset"%string L2. cbn [fd_name col] in L1.
      pose proof (zlen_nonneg (cat "Count"%string)) as P. assert (zlen (cat "GroupMinLen"%string) = 1) as L3 by (destruct H as [Hc _]; now rewrite (one_chunk cat _ "GroupMinLen" 4 Hc) by (cbn; tauto)).
      destruct (format_reads L2_group_tab group_header [col "Ngroups" "GroupLen" 4; col "Ngroups" "GroupOffset" 4] [one "GroupMinLen" 4; col "GroupMinLen" "Count" 4] 4 20 (16 + 8 * n) H eq_refl eq_refl ltac:(lia)) as [R1 R2].
      - unfold chunk_of. cbn [map app fd_size fd_name one col]. rewrite !csize_cons. cbn [fst snd csize sumZ map fold_right]. unfold csize. cbn [map sumZ fold_right]. lia.
      - unfold chunk_of. cbn [map app fd_size fd_name one col]. rewrite !csize_cons. cbn [fst snd]. unfold csize. cbn [map sumZ fold_right]. unfold n. lia.
      - split; [exact Hn|]. split; [exact L1|]. split; [exact R1|]. unfold items_of, chunk_of in R2. cbn [map fd_size fd_name one col] in R2. rewrite L1, L2 in R2. exact R2.
    Qed.
    Lemma group_tab_final : 16 + 8 * n < 2 ^ 31 -> readgrouptab little content = Ok (header_of cat group_header, map signed (cat "GroupLen"%string), map signed (cat "GroupOffset"%string)).
    Proof.
      intro Hs. destruct (group_tab_reads _ eq_refl) as (Hn & L1 & R1 & R2). unfold readgrouptab. rewrite R1. cbn [bind]. unfold item. cbn [nth]. rewrite ints_signed. cbn [map nth]. fold n. rewrite (signed_id n) by exact Hn. ints.
      replace ((4 + n * 2) * 4) with (16 + 8 * n) by lia. rewrite R2. cbn [bind nth]. rewrite !ints_signed. unfold header_of. cbn [map]. fold n. rewrite (signed_id n) by exact Hn. reflexivity.
    Qed.
    Lemma group_tab_big : 2 ^ 31 <= 16 + 8 * n -> readgrouptab little content = Err EAbort.
    Proof.
      intro Hs. destruct (group_tab_reads _ eq_refl) as (Hn & L1 & R1 & R2). unfold readgrouptab. rewrite R1. cbn [bind]. unfold item. cbn [nth]. rewrite ints_signed. cbn [map nth]. fold n. rewrite (signed_id n) by exact Hn.
      destruct (Z.lt_ge_cases (n * 2) (2 ^ 31)); [rewrite c_int_ok by lia; cbn [bind] | now rewrite c_int_bad by lia].
      destruct (Z.lt_ge_cases (4 + n * 2) (2 ^ 31)); [rewrite c_int_ok by lia; cbn [bind] | now rewrite c_int_bad by lia]. now rewrite c_int_bad by lia.
    Qed.
  End GroupTab.
  (** *** files which are too short *)
  Lemma direct_short t recl items : zlen t < recl -> read_direct little t recl items = Err EIO.
  Proof. intro Hs. unfold read_direct. pose proof (zlen_nonneg t). replace (0 <? recl) with true by lia. cbn [check bind]. replace (recl <=? zlen t) with false by lia. reflexivity. Qed.
  Lemma header_short l hn rest n recl1 k : catalogue_file little l cat extra content -> l = map (fun n => one n 4) hn ++ rest -> zlen hn = n -> 0 < n -> 4 * n <= recl1 -> recl1 <= zlen (firstn k content) ->
    read_direct little (firstn k content) recl1 [(4, n)] = Ok [map sc hn].
  Proof.
    intros [H E] El Hn Hp Hr Hk. pose proof (consistent_good _ _ H) as G. rewrite file_chunks in E.
    assert (map (chunk_of cat) l = map (fun h => (4, [h])) (map sc hn) ++ map (chunk_of cat) rest) as EM.
    { rewrite El, !map_app. f_equal. rewrite !map_map. apply map_ext_in. intros nm Hnm. unfold chunk_of. cbn [fd_size fd_name one]. f_equal. apply (one_chunk cat l nm 4 H). rewrite El. apply in_or_app. left. apply in_map_iff. now exists nm. }
    rewrite EM in *. apply merge_good in G; [|lia]. rewrite merge in E. change ((4, map sc hn) :: map (chunk_of cat) rest) with ([(4, map sc hn)] ++ map (chunk_of cat) rest) in *.
    rewrite cbytes_app, <- app_assoc in E. apply good_app in G. destruct G as [G _]. set (h := cbytes little [(4, map sc hn)]) in *. assert (zlen h = 4 * n) as Lh by (unfold h; rewrite cbytes_len by exact G; unfold csize; cbn [map sumZ fold_right]; rewrite zlen_map, Hn; lia).
    assert (firstn k content = h ++ firstn (k - List.length h) (cbytes little (map (chunk_of cat) rest) ++ extra)) as EF.
    { rewrite E, firstn_app. f_equal. apply firstn_all2. unfold zlen in *. rewrite firstn_length in Hk. lia. }
    apply (direct_more little [(4, map sc hn)] [] (firstn (k - List.length h) (cbytes little (map (chunk_of cat) rest) ++ extra))); [now rewrite app_nil_r | now rewrite app_nil_r | unfold items_of; cbn [map]; rewrite zlen_map, Hn; reflexivity | unfold csize; cbn [map sumZ fold_right]; rewrite zlen_map, Hn; lia | lia].
  Qed.
  Lemma group_tab_short k : catalogue_file little L2_group_tab cat extra content -> 16 + 8 * sc "Ngroups" < 2 ^ 31 -> Z.of_nat k < Z.max 20 (16 + 8 * sc "Ngroups") -> readgrouptab little (firstn k content) = Err EIO.
  Proof.
    intros H Hs Hk. destruct (counts _ (col "Ngroups" "GroupLen" 4) "Ngroups" H) as [Hn _]; [cbn; tauto | reflexivity|]. assert (zlen (firstn k content) <= Z.of_nat k) as Lk by (unfold zlen; rewrite firstn_length; lia). unfold readgrouptab.
    destruct (Z.lt_ge_cases (zlen (firstn k content)) 20) as [C|C]; [now rewrite direct_short by lia|]. rewrite (header_short L2_group_tab group_header _ 4 20 k H eq_refl eq_refl ltac:(lia) ltac:(lia) C).
    cbn [bind]. unfold item. cbn [nth]. rewrite ints_signed. cbn [map nth]. rewrite (signed_id (sc "Ngroups")) by exact Hn. ints. now rewrite direct_short by lia.
  Qed.
  (** *** files of ids *)
  Section Ids.
    Variable last : string.
    Definition ids_fields := [one "Ngroups" 4; one "Nids" 4; one "TotNgroups" 4; one last 4; col "Nids" "GroupIDs" 8].
    Definition ids_header := ["Ngroups"; "Nids"; "TotNgroups"; last]%string.
    Hypothesis H : catalogue_file little ids_fields cat extra content.
    Let n := sc "Nids".
    Lemma ids_reads recl : recl = 16 + 8 * n -> 0 <= n < 2 ^ 31 /\
      read_direct little content 16 [(4, 4)] = Ok [map sc ids_header] /\ read_direct little content recl [(4, 4); (8, n)] = Ok [map sc ids_header; cat "GroupIDs"%string].
    Proof.
      intros ->. destruct (counts _ (col "Nids" "GroupIDs" 8) "Nids" H) as [Hn L1]; [cbn; tauto | reflexivity|]. cbn [fd_name col] in L1.
      destruct (format_reads ids_fields ids_header [col "Nids" "GroupIDs" 8] [] 4 16 (16 + 8 * n) H eq_refl eq_refl ltac:(lia)) as [R1 R2].
      - unfold chunk_of. cbn [map app fd_size fd_name one col]. rewrite !csize_cons. cbn [fst snd]. unfold csize. cbn [map sumZ fold_right]. lia.
      - unfold chunk_of. cbn [map app fd_size fd_name one col]. rewrite !csize_cons. cbn [fst snd]. unfold csize. cbn [map sumZ fold_right]. unfold n. lia.
      - split; [exact Hn|]. split; [exact R1|]. unfold items_of, chunk_of in R2. cbn [map fd_size fd_name one col] in R2. rewrite L1 in R2. exact R2.
    Qed.
    Lemma ids_final : 16 + 8 * n < 2 ^ 31 -> readgroupids little content = Ok (header_of cat ids_header, map signed64 (cat "GroupIDs"%string)).
    Proof.
      intro Hs. destruct (ids_reads _ eq_refl) as (Hn & R1 & R2). unfold readgroupids. rewrite R1. cbn [bind]. unfold item. cbn [nth]. rewrite ints_signed. unfold ids_header at 1 2 3. cbn [map nth]. fold n. rewrite (signed_id n) by exact Hn. ints.
      replace ((2 + n) * 8) with (16 + 8 * n) by lia. rewrite R2. cbn [bind nth]. rewrite longs_signed. unfold header_of, ids_header. cbn [map]. fold n. rewrite (signed_id n) by exact Hn. reflexivity.
    Qed.
    Lemma ids_big : 2 ^ 31 <= 16 + 8 * n -> readgroupids little content = Err EAbort.
    Proof.
      intro Hs. destruct (ids_reads _ eq_refl) as (Hn & R1 & R2). unfold readgroupids. rewrite R1. cbn [bind]. unfold item. cbn [nth]. rewrite ints_signed. unfold ids_header at 1 2. cbn [map nth]. fold n. rewrite (signed_id n) by exact Hn.
      destruct (Z.lt_ge_cases (2 + n) (2 ^ 31)); [rewrite c_int_ok by lia; cbn [bind] | now rewrite c_int_bad by lia]. now rewrite c_int_bad by lia.
    Qed.
    Lemma ids_short k : 16 + 8 * n < 2 ^ 31 -> Z.of_nat k < 16 + 8 * n -> readgroupids little (firstn k content) = Err EIO.
    Proof.
      intros Hs Hk. destruct (ids_reads _ eq_refl) as (Hn & _). assert (zlen (firstn k content) <= Z.of_nat k) as Lk by (unfold zlen; rewrite firstn_length; lia). unfold readgroupids.
      destruct (Z.lt_ge_cases (zlen (firstn k content)) 16) as [C|C]; [now rewrite direct_short by lia|]. rewrite (header_short ids_fields ids_header _ 4 16 k H eq_refl eq_refl ltac:(lia) ltac:(lia) C).
      cbn [bind]. unfold item. cbn [nth]. rewrite ints_signed. unfold ids_header. cbn [map nth]. fold n. rewrite (signed_id n) by exact Hn. ints. now rewrite direct_short by lia.
    Qed.
  End Ids.

  (** *** sub_tab files *)
  Notation sub_header := ["Ngroups"; "Nids"; "TotNgroups"; "NFiles"; "Nsubhalos"]%string.
  Definition sub_first : list field := [col "Ngroups" "NsubPerHalo" 4; col "Ngroups" "FirstSubOfHalo" 4; col "Nsubhalos" "SubLen" 4; col "Nsubhalos" "SubOffset" 4; col "Nsubhalos" "SubParentHalo" 4].
  Definition sub_more : list field := [col "Ngroups" "Halo_M_Mean200" 4; col "Ngroups" "Halo_R_Mean200" 4; col "Ngroups" "Halo_M_Crit200" 4; col "Ngroups" "Halo_R_Crit200" 4;
   col "Ngroups" "Halo_M_TopHat200" 4; col "Ngroups" "Halo_R_TopHat200" 4;
   vec "Nsubhalos" 3 "SubPos" 4; vec "Nsubhalos" 3 "SubVel" 4; col "Nsubhalos" "SubVelDisp" 4; col "Nsubhalos" "SubVmax" 4; vec "Nsubhalos" 3 "SubSpin" 4;
   col "Nsubhalos" "SubMostBoundID" 8; col "Nsubhalos" "SubHalfMass" 4].
  Section SubTab.
    Hypothesis H : catalogue_file little (L2_sub_tab 8) cat extra content.
    Let n := sc "Ngroups".
    Let m := sc "Nsubhalos".
    Lemma sub_len fd c : In fd (L2_sub_tab 8) -> fd_dims fd = [Of c] -> zlen (cat (fd_name fd)) = sc c.
    Proof. intros Hin Hd. now apply (counts _ fd c H). Qed.
    Lemma sub_len3 fd : In fd (L2_sub_tab 8) -> fd_dims fd = [Of "Nsubhalos"%string; Fixed 3] -> zlen (cat (fd_name fd)) = 3 * m.
    Proof. intros Hin Hd. now apply (counts3 _ fd _ H). Qed.
    Definition field_count (fd : field) : Z := fold_left Z.mul (map (extent cat) (fd_dims fd)) 1.
    Lemma items_counts l : incl l (L2_sub_tab 8) -> items_of (map (chunk_of cat) l) = map (fun fd => (fd_size fd, field_count fd)) l.
    Proof. intro Hi. unfold items_of. rewrite map_map. apply map_ext_in. intros fd Hfd. unfold chunk_of, field_count. f_equal. destruct H as [Hc _]. now rewrite (consistent_len cat _ fd Hc (Hi fd Hfd)). Qed.
    Lemma csize_counts l : incl l (L2_sub_tab 8) -> csize (map (chunk_of cat) l) = sumZ (map (fun fd => fd_size fd * field_count fd) l).
    Proof. intro Hi. unfold csize. rewrite map_map. f_equal. apply map_ext_in. intros fd Hfd. unfold chunk_of, field_count. destruct H as [Hc _]. now rewrite (consistent_len cat _ fd Hc (Hi fd Hfd)). Qed.
    Lemma incl_first : incl sub_first (L2_sub_tab 8).
    Proof. intros x Hx. unfold L2_sub_tab. change (In x ([one "Ngroups" 4; one "Nids" 4; one "TotNgroups" 4; one "NFiles" 4; one "Nsubhalos" 4] ++ sub_first ++ sub_more)). apply in_or_app. right. apply in_or_app. now left. Qed.
    Lemma incl_more : incl sub_more (L2_sub_tab 8).
    Proof. intros x Hx. unfold L2_sub_tab. change (In x ([one "Ngroups" 4; one "Nids" 4; one "TotNgroups" 4; one "NFiles" 4; one "Nsubhalos" 4] ++ sub_first ++ sub_more)). apply in_or_app. right. apply in_or_app. now right. Qed.
    Lemma sub_counts : 0 <= n < 2 ^ 31 /\ 0 <= m < 2 ^ 31.
    Proof. split; [apply (counts _ (col "Ngroups" "NsubPerHalo" 4) "Ngroups" H) | apply (counts _ (col "Nsubhalos" "SubLen" 4) "Nsubhalos" H)]; cbn; tauto. Qed.
    Lemma sub_reads : read_direct little content 20 [(4, 5)] = Ok [map sc sub_header] /\
      read_direct little content (20 + 8 * n + 12 * m) [(4, 5); (4, n); (4, n); (4, m); (4, m); (4, m)] = Ok (map sc sub_header :: map (fun fd => cat (fd_name fd)) sub_first) /\
      read_direct little content (20 + 32 * n + 68 * m) [(4, 5); (4, n); (4, n); (4, m); (4, m); (4, m); (4, n); (4, n); (4, n); (4, n); (4, n); (4, n);
        (4, 3 * m); (4, 3 * m); (4, m); (4, m); (4, 3 * m); (8, m); (4, m)] = Ok (map sc sub_header :: map (fun fd => cat (fd_name fd)) (sub_first ++ sub_more)).
    Proof.
      destruct sub_counts as [Hn Hm].
      assert (map (fun fd => (fd_size fd, field_count fd)) sub_first = [(4, n); (4, n); (4, m); (4, m); (4, m)]) as I1 by (unfold field_count, sub_first; cbn [map fd_size fd_dims col fold_left extent]; fold n m; now rewrite !Z.mul_1_l).
      assert (map (fun fd => (fd_size fd, field_count fd)) sub_more = [(4, n); (4, n); (4, n); (4, n); (4, n); (4, n); (4, 3 * m); (4, 3 * m); (4, m); (4, m); (4, 3 * m); (8, m); (4, m)]) as I2
        by (unfold field_count, sub_more; cbn [map fd_size fd_dims col vec fold_left extent]; fold n m; now rewrite !Z.mul_1_l, !(Z.mul_comm m 3)).
      assert (forall l, sumZ (map (fun fd => fd_size fd * field_count fd) l) = sumZ (map (fun '(a, b) => a * b) (map (fun fd => (fd_size fd, field_count fd)) l))) as SZ by (intro l; now rewrite map_map).
      assert (csize (map (chunk_of cat) sub_first) = 8 * n + 12 * m) as S1 by (rewrite csize_counts by exact incl_first; rewrite SZ, I1; cbn [map sumZ fold_right]; lia).
      assert (csize (map (chunk_of cat) sub_more) = 24 * n + 56 * m) as S2 by (rewrite csize_counts by exact incl_more; rewrite SZ, I2; cbn [map sumZ fold_right]; lia).
      destruct (format_reads (L2_sub_tab 8) sub_header sub_first sub_more 5 20 (20 + 8 * n + 12 * m) H eq_refl eq_refl ltac:(lia)) as [R1 R2]; [rewrite map_app, csize_app; lia | lia|].
      destruct (format_reads (L2_sub_tab 8) sub_header (sub_first ++ sub_more) [] 5 20 (20 + 32 * n + 68 * m) H) as [_ R3]; [now rewrite app_nil_r | reflexivity | lia | rewrite app_nil_r, map_app, csize_app; lia | rewrite map_app, csize_app; lia|].
      rewrite items_counts, I1 in R2 by exact incl_first. rewrite items_counts, map_app, I1, I2 in R3 by (apply incl_app; [exact incl_first | exact incl_more]). split; [exact R1|]. split; [exact R2 | exact R3].
    Qed.
    Lemma sub_tab_final : 20 + 8 * n + 12 * m < 2 ^ 31 -> readsubtab little content =
      Ok (header_of cat sub_header, (map signed (cat "NsubPerHalo"%string), map signed (cat "FirstSubOfHalo"%string)), (map signed (cat "SubLen"%string), map signed (cat "SubOffset"%string), map signed (cat "SubParentHalo"%string))).
    Proof.
      intro Hs. destruct sub_counts as [Hn Hm]. destruct sub_reads as (R1 & R2 & _). unfold readsubtab. rewrite R1. cbn [bind]. unfold item. cbn [nth]. rewrite ints_signed. cbn [map nth]. fold n m. rewrite (signed_id n), (signed_id m) by assumption. ints.
      replace ((5 + n * 2 + m * 3) * 4) with (20 + 8 * n + 12 * m) by lia. rewrite R2. cbn [bind nth map sub_first fd_name col]. rewrite !ints_signed. unfold header_of. cbn [map]. fold n m. rewrite (signed_id n), (signed_id m) by assumption. reflexivity.
    Qed.
    Lemma sub_tab_big : 2 ^ 31 <= 20 + 8 * n + 12 * m -> readsubtab little content = Err EAbort.
    Proof.
      intro Hs. destruct sub_counts as [Hn Hm]. destruct sub_reads as (R1 & R2 & _). unfold readsubtab. rewrite R1. cbn [bind]. unfold item. cbn [nth]. rewrite ints_signed. cbn [map nth]. fold n m. rewrite (signed_id n), (signed_id m) by assumption.
      repeat match goal with |- bind (c_int ?v) _ = _ => destruct (Z.lt_ge_cases v (2 ^ 31)); [rewrite (c_int_ok v) by lia; cbn [bind] | now rewrite (c_int_bad v) by lia] end. exfalso. lia.
    Qed.
    Lemma subhalos_big : 2 ^ 31 <= 20 + 32 * n + 68 * m -> readsubhalos little content = Err EAbort.
    Proof.
      intro Hs. destruct sub_counts as [Hn Hm]. destruct sub_reads as (R1 & R2 & _). unfold readsubhalos. rewrite R1. cbn [bind]. unfold item. cbn [nth]. rewrite ints_signed. cbn [map nth]. fold n m. rewrite (signed_id n), (signed_id m) by assumption.
      repeat match goal with |- bind (c_int ?v) _ = _ => destruct (Z.lt_ge_cases v (2 ^ 31)); [rewrite (c_int_ok v) by lia; cbn [bind] | now rewrite (c_int_bad v) by lia] end. exfalso. lia.
    Qed.
    Lemma sub_short k : 20 + 8 * n + 12 * m < 2 ^ 31 -> Z.of_nat k < 20 + 8 * n + 12 * m -> readsubtab little (firstn k content) = Err EIO.
    Proof.
      intros Hs Hk. destruct sub_counts as [Hn Hm]. assert (zlen (firstn k content) <= Z.of_nat k) as Lk by (unfold zlen; rewrite firstn_length; lia). unfold readsubtab.
      destruct (Z.lt_ge_cases (zlen (firstn k content)) 20) as [C|C]; [now rewrite direct_short by lia|]. rewrite (header_short (L2_sub_tab 8) sub_header (sub_first ++ sub_more) 5 20 k H eq_refl eq_refl ltac:(lia) ltac:(lia) C).
      cbn [bind]. unfold item. cbn [nth]. rewrite ints_signed. cbn [map nth]. fold n m. rewrite (signed_id n), (signed_id m) by assumption. ints. now rewrite direct_short by lia.
    Qed.
    Lemma subhalos_short k : 20 + 32 * n + 68 * m < 2 ^ 31 -> Z.of_nat k < 20 + 32 * n + 68 * m -> readsubhalos little (firstn k content) = Err EIO.
    Proof.
      intros Hs Hk. destruct sub_counts as [Hn Hm]. assert (zlen (firstn k content) <= Z.of_nat k) as Lk by (unfold zlen; rewrite firstn_length; lia). unfold readsubhalos.
      destruct (Z.lt_ge_cases (zlen (firstn k content)) 20) as [C|C]; [now rewrite direct_short by lia|]. rewrite (header_short (L2_sub_tab 8) sub_header (sub_first ++ sub_more) 5 20 k H eq_refl eq_refl ltac:(lia) ltac:(lia) C).
      cbn [bind]. unfold item. cbn [nth]. rewrite ints_signed. cbn [map nth]. fold n m. rewrite (signed_id n), (signed_id m) by assumption. ints. now rewrite direct_short by lia.
    Qed.
    Notation at_ nm i := (nth (Z.to_nat i) (cat nm%string) 0).
    Definition halo_at i := {| h_nsubgroups := signed (at_ "NsubPerHalo" i); h_firstsubgroup := signed (at_ "FirstSubOfHalo" i); h_mmean200 := at_ "Halo_M_Mean200" i; h_rmean200 := at_ "Halo_R_Mean200" i;
      h_mcrit200 := at_ "Halo_M_Crit200" i; h_rcrit200 := at_ "Halo_R_Crit200" i; h_mtophat200 := at_ "Halo_M_TopHat200" i; h_rtophat200 := at_ "Halo_R_TopHat200" i |}.
    Definition sub_at i := {| s_len := signed (at_ "SubLen" i); s_offset := signed (at_ "SubOffset" i); s_parent := signed (at_ "SubParentHalo" i);
      s_pos := col3 (cat "SubPos"%string) i; s_vel := col3 (cat "SubVel"%string) i; s_veldisp := at_ "SubVelDisp" i; s_vmax := at_ "SubVmax" i; s_spin := col3 (cat "SubSpin"%string) i;
      s_mostboundid := signed64 (at_ "SubMostBoundID" i); s_halfmass := at_ "SubHalfMass" i |}.
    Lemma subhalos_value : 20 + 32 * n + 68 * m < 2 ^ 31 -> readsubhalos little content = Ok (header_of cat sub_header, map halo_at (zseq 0 (Z.to_nat n)), map sub_at (zseq 0 (Z.to_nat m))).
    Proof.
      intro Hs. destruct sub_counts as [Hn Hm]. destruct sub_reads as (R1 & _ & R2). unfold readsubhalos. rewrite R1. cbn [bind]. unfold item. cbn [nth]. rewrite ints_signed. cbn [map nth]. fold n m. rewrite (signed_id n), (signed_id m) by assumption. ints.
      replace ((5 + n * 8 + m * 17) * 4) with (20 + 32 * n + 68 * m) by lia. rewrite R2. cbn [bind nth map sub_first sub_more app fd_name col vec]. unfold header_of. cbn [map]. fold n m. rewrite (signed_id n), (signed_id m) by assumption.
      f_equal. f_equal; [f_equal|]; apply map_ext; intro i; unfold halo_at, sub_at; now rewrite ?signed_model, ?long_signed.
    Qed.
    Lemma map_at (l : list Z) k : zlen l = k -> map (fun i => nth (Z.to_nat i) l 0) (zseq 0 (Z.to_nat k)) = l.
    Proof. intros <-. replace (Z.to_nat (zlen l)) with (List.length l) by (unfold zlen; lia). apply ReadPartProofs.map_nth_zseq. Qed.
    Lemma map_at_signed (f : Z -> Z) (l : list Z) k : zlen l = k -> map (fun i => f (nth (Z.to_nat i) l 0)) (zseq 0 (Z.to_nat k)) = map f l.
    Proof. intro E. transitivity (map f (map (fun i => nth (Z.to_nat i) l 0) (zseq 0 (Z.to_nat k)))); [now rewrite map_map|]. now rewrite map_at. Qed.
    Lemma col3_row (l : list Z) k i : zlen l = 3 * k -> 0 <= i < k -> col3 l i = row3 l i.
    Proof.
      intros E Hi. unfold row3, col3. apply (nth_ext _ _ 0 0); [rewrite zslice_length; unfold zlen in E; cbn [map List.length]; lia|]. intros j Hj. cbn [map List.length] in Hj. rewrite nth_zslice by lia.
      destruct j as [|[|[|]]]; cbn [map nth]; try lia; f_equal; lia.
    Qed.
    Lemma concat_rows (l : list Z) : forall k, zlen l = 3 * Z.of_nat k -> concat (map (col3 l) (zseq 0 k)) = l.
    Proof.
      intros k E. assert (forall j, (j <= k)%nat -> concat (map (col3 l) (zseq 0 j)) = zslice l 0 (3 * Z.of_nat j)) as Q.
      { induction j as [|j IH]; intro Hj; [reflexivity|]. rewrite <- Nat.add_1_r, zseq_app, map_app, concat_app, IH by lia. cbn [zseq map concat]. rewrite app_nil_r, (col3_row l (Z.of_nat k)) by (exact E || lia). unfold row3.
        rewrite <- zslice_split by lia. f_equal. lia. }
      rewrite Q by lia. rewrite <- E. apply zslice_all; lia.
    Qed.
    Lemma subhalos_final : 20 + 32 * n + 68 * m < 2 ^ 31 -> exists halos subs, readsubhalos little content = Ok (header_of cat sub_header, halos, subs) /\
      map h_nsubgroups halos = map signed (cat "NsubPerHalo"%string) /\ map h_firstsubgroup halos = map signed (cat "FirstSubOfHalo"%string) /\
      map h_mmean200 halos = cat "Halo_M_Mean200"%string /\ map h_rmean200 halos = cat "Halo_R_Mean200"%string /\ map h_mcrit200 halos = cat "Halo_M_Crit200"%string /\ map h_rcrit200 halos = cat "Halo_R_Crit200"%string /\
      map h_mtophat200 halos = cat "Halo_M_TopHat200"%string /\ map h_rtophat200 halos = cat "Halo_R_TopHat200"%string /\
      map s_len subs = map signed (cat "SubLen"%string) /\ map s_offset subs = map signed (cat "SubOffset"%string) /\ map s_parent subs = map signed (cat "SubParentHalo"%string) /\
      concat (map s_pos subs) = cat "SubPos"%string /\ concat (map s_vel subs) = cat "SubVel"%string /\ concat (map s_spin subs) = cat "SubSpin"%string /\
      Forall (fun s => zlen (s_pos s) = 3 /\ zlen (s_vel s) = 3 /\ zlen (s_spin s) = 3) subs /\
      map s_veldisp subs = cat "SubVelDisp"%string /\ map s_vmax subs = cat "SubVmax"%string /\ map s_mostboundid subs = map signed64 (cat "SubMostBoundID"%string) /\ map s_halfmass subs = cat "SubHalfMass"%string.
    Proof.
      intro Hs. destruct sub_counts as [Hn Hm]. exists (map halo_at (zseq 0 (Z.to_nat n))), (map sub_at (zseq 0 (Z.to_nat m))). split; [now apply subhalos_value|]. rewrite !map_map. cbn [halo_at sub_at h_nsubgroups h_firstsubgroup h_mmean200 h_rmean200 h_mcrit200 h_rcrit200 h_mtophat200 h_rtophat200 s_len s_offset s_parent s_pos s_vel s_spin s_veldisp s_vmax s_mostboundid s_halfmass].
      assert (forall nm sz, In (col "Ngroups" nm sz) (L2_sub_tab 8) -> zlen (cat nm) = n) as A1 by (intros nm sz Hin; now apply (sub_len (col "Ngroups" nm sz))).
      assert (forall nm sz, In (col "Nsubhalos" nm sz) (L2_sub_tab 8) -> zlen (cat nm) = m) as A2 by (intros nm sz Hin; now apply (sub_len (col "Nsubhalos" nm sz))).
      assert (forall nm, In (vec "Nsubhalos" 3 nm 4) (L2_sub_tab 8) -> zlen (cat nm) = 3 * Z.of_nat (Z.to_nat m)) as A3 by (intros nm Hin; rewrite Z2Nat.id by lia; now apply (sub_len3 (vec "Nsubhalos" 3 nm 4))).
      split; [apply map_at_signed, (A1 _ 4); cbn; tauto|]. split; [apply map_at_signed, (A1 _ 4); cbn; tauto|].
      do 6 (split; [apply map_at, (A1 _ 4); cbn; tauto|]). do 3 (split; [apply map_at_signed, (A2 _ 4); cbn; tauto|]). do 3 (split; [apply concat_rows, A3; cbn; tauto|]).
      split; [apply Forall_map, Forall_forall; intros i _; now repeat split|].
      split; [apply map_at, (A2 _ 4); cbn; tauto|]. split; [apply map_at, (A2 _ 4); cbn; tauto|]. split; [apply map_at_signed, (A2 _ 8); cbn; tauto|]. apply map_at, (A2 _ 4); cbn; tauto.
    Qed.
    (** *** the program *)
    Lemma program_final : 20 + 32 * n + 68 * m < 2 ^ 31 -> (forall i, 0 <= i < n -> has_subhalos cat i = true -> 0 <= signed (at_index (cat "FirstSubOfHalo"%string) i) < m) ->
      subhalos_program little content = Ok (map (subhalo_line cat) (zseq 0 (Z.to_nat m)), map (halo_line cat) (filter (has_subhalos cat) (zseq 0 (Z.to_nat n)))).
    Proof.
      intros Hs HF. destruct sub_counts as [Hn Hm]. unfold subhalos_program. rewrite subhalos_value by exact Hs. cbn [bind snd].
      assert (zlen (cat "SubPos"%string) = 3 * m) as LP by (apply (sub_len3 (vec "Nsubhalos" 3 "SubPos" 4)); cbn; tauto).
      assert (forall l, (forall i, In i l -> 0 <= i < n) -> halo_lines (map halo_at l) (map sub_at (zseq 0 (Z.to_nat m))) = Ok (map (halo_line cat) (filter (has_subhalos cat) l))) as Q.
      { induction l as [|i l IH]; intro Hl; [reflexivity|]. cbn [map halo_lines filter]. specialize (HF i (Hl i (or_introl eq_refl))). unfold has_subhalos in HF |- *. unfold at_index in *. cbn [halo_at h_nsubgroups h_firstsubgroup h_mmean200 h_rmean200].
        rewrite IH by (intros j Hj; apply Hl; now right). destruct (0 <? signed _) eqn:Eq; [|reflexivity]. specialize (HF eq_refl). set (f := signed (nth (Z.to_nat i) (cat "FirstSubOfHalo"%string) 0)) in *.
        unfold fget. rewrite map_map. replace (0 <=? f) with true by lia.
        rewrite (nth_error_nth' _ []) by (rewrite map_length, zseq_length; lia). cbn [bind app map]. f_equal. apply (f_equal2 cons); [|reflexivity]. unfold halo_line at 1, at_index. fold f. apply (f_equal2 pair); [reflexivity|].
        rewrite (nth_indep _ [] ((fun x => s_pos (sub_at x)) 0)) by (rewrite map_length, zseq_length; lia). rewrite (map_nth (fun x => s_pos (sub_at x))), nth_zseq by lia. cbn [sub_at s_pos]. rewrite (col3_row _ m) by (exact LP || lia). f_equal. lia. }
      rewrite Q by (intros i Hi; apply In_zseq in Hi; lia). cbn [bind]. do 2 f_equal. unfold sub_lines. rewrite map_map. apply map_ext_in. intros i Hi. apply In_zseq in Hi. unfold subhalo_line, at_index. cbn [sub_at s_len s_halfmass s_pos]. rewrite (col3_row _ m) by (exact LP || lia). reflexivity.
    Qed.
  End SubTab.
End Catalogue.
