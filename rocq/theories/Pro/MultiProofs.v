(** Proofs about ReadMulti_xyz.pro (C101). *)
From Coq Require Import Ascii String.
From Verif Require Import Base.Prelude Base.ListLemmas Binary.BinModel Binary.EndianProofs Formats.FileSpec Formats.CatSpec Formats.ReaderProofs.
From Verif Require Import Peano.CPeanoModel Fortran.SortModel Fortran.RegionModel Fortran.RegionSpec Fortran.GroupTabModel Fortran.GroupTabSpec Fortran.GroupTabProofs.
From Verif Require Import Text.StrModel Pro.ProModel Pro.ProSpec Pro.NameProofs Pro.SingleProofs Pro.MultiModel Pro.MultiSpec.
From Coq Require Import ZifyBool ZifyNat.
Local Open Scope Z_scope. Local Open Scope list_scope.

Section Multi.
  Variable little : bool.
  Variable fs : str -> option (list Z).
  Variables (base snapbase : str) (num : Z).
  Hypothesis Hb : no_blanks base.
  Hypothesis Hs : no_blanks snapbase.
  Hypothesis Hn : three_digits num.
  Notation path i := (snapshot_path base snapbase num i).
  Lemma path_eq i : snapshot_name base snapbase num i = path i.
  Proof using Hb Hs Hn. destruct (names_final base num i Hb Hn) as (_ & _ & _ & _ & _ & E). exact (E snapbase Hs). Qed.

  Lemma one_file cat extra whole k i : snapshot_file little cat extra whole -> fs (path i) = Some (firstn k whole) -> 12 * npart_of cat < 2 ^ 31 ->
    multi_file little fs base snapbase num i = if Z.of_nat k <? 264 then Err EIO else if npart_of cat =? 0 then Err EValue else if Z.of_nat k <? 272 + 12 * npart_of cat then Err EIO else
      Ok (npart_of cat, total_particles cat, cat "PartType1/Coordinates"%string).
  Proof using Hb Hs Hn.
    intros H HF Hk. unfold multi_file, openr. rewrite path_eq, HF. cbn [bind]. rewrite (some_header little cat extra whole H 7 k (firstn 7 single_items) eq_refl). destruct (Z.of_nat k <? 264); cbn [bind]; [reflexivity|].
    pose proof (n_small little cat extra whole H) as P. set (h := map cat _). assert (h_npart h = npart_of cat) as ->. { change (signed32 (npart_of cat) = npart_of cat). rewrite signed_model. apply signed_id. lia. }
    cbn zeta. unfold new_array. destruct (Z.eqb_spec (npart_of cat) 0) as [C|C]; [replace (0 <? npart_of cat) with false by lia; reflexivity|]. replace (0 <? npart_of cat) with true by lia. cbn [check bind].
    rewrite (read_positions little cat extra whole H k Hk). destruct (Z.of_nat k <? _); cbn [bind]; [reflexivity|]. do 3 f_equal. unfold total_particles. rewrite <- signed_model. reflexivity.
  Qed.
  Lemma good_file cat i : (exists content, fs (path i) = Some content /\ positions_file little cat content) ->
    multi_file little fs base snapbase num i = Ok (npart_of cat, total_particles cat, cat "PartType1/Coordinates"%string) /\ zlen (cat "PartType1/Coordinates"%string) = 3 * npart_of cat /\ 0 < npart_of cat.
  Proof using Hb Hs Hn.
    intros (content & HF & extra & whole & k & H & -> & K & P & Q). rewrite (one_file cat extra whole k i H HF Q). replace (Z.of_nat k <? 264) with false by lia. replace (npart_of cat =? 0) with false by lia. replace (Z.of_nat k <? _) with false by lia.
    split; [reflexivity|]. split; [exact (proj1 (lens little cat extra whole H)) | exact P].
  Qed.
  Lemma bad_file i : unreadable little (fs (path i)) -> exists e, multi_file little fs base snapbase num i = Err e.
  Proof using Hb Hs Hn.
    intros [N|(cat & extra & whole & k & H & HF & Q & D)]; [unfold multi_file, openr; rewrite path_eq, N; now exists EIO|].
    rewrite (one_file cat extra whole k i H HF Q). destruct (Z.of_nat k <? 264); [now exists EIO|]. destruct (npart_of cat =? 0) eqn:C; [now exists EValue|]. destruct D as [D|D]; [lia|]. replace (Z.of_nat k <? _) with true by lia. now exists EIO.
  Qed.
  Lemma loop_bad : forall subfiles pos count i, In i subfiles -> unreadable little (fs (path i)) -> exists e, multi_loop little fs base snapbase num subfiles pos count = Err e.
  Proof using Hb Hs Hn.
    induction subfiles as [|j rest IH]; intros pos count i Hi U; [destruct Hi|]. cbn [multi_loop]. destruct Hi as [-> |Hi].
    - destruct (bad_file i U) as [e E]. unfold multi_step. rewrite E. now exists e.
    - destruct (multi_step _ _ _ _ _ _ _ _) as [[p c]|e]; cbn [bind]; [exact (IH p c i Hi U) | now exists e].
  Qed.
  Lemma write_next {A} (x : A) (a b : list A) k : zlen b <= Z.of_nat k -> write_at (a ++ repeat x k) (zlen a) b = (a ++ b) ++ repeat x (k - List.length b).
  Proof.
    intro H. unfold write_at, zlen in *. rewrite Nat2Z.id, firstn_app, Nat.sub_diag, firstn_all. cbn [firstn]. rewrite app_nil_r. rewrite skipn_app, skipn_all2 by lia. cbn [app]. rewrite <- app_assoc. do 2 f_equal.
    replace (List.length a + List.length b - List.length a)%nat with (List.length b) by lia. replace k with (List.length b + (k - List.length b))%nat at 1 by lia. rewrite repeat_app, skipn_app, skipn_all2 by (rewrite repeat_length; lia). rewrite repeat_length, Nat.sub_diag. reflexivity.
  Qed.
  Section Files.
    Variable cats : list catalogue.
    Variable total : Z.
    Hypothesis Hfiles : forall i, (i < List.length cats)%nat -> exists content, fs (path (Z.of_nat i)) = Some content /\ positions_file little (nth i cats (fun _ => [])) content.
    Lemma pos_len l : (forall cat, In cat l -> zlen (cat "PartType1/Coordinates"%string) = 3 * npart_of cat) -> zlen (all_positions l) = 3 * all_particles l.
    Proof. unfold all_positions, all_particles. induction l as [|c l IH]; intro A; [reflexivity|]. cbn [map concat sumZ fold_right]. rewrite zlen_app, IH by (intros; apply A; now right). rewrite (A c (or_introl eq_refl)). unfold sumZ. lia. Qed.
    Lemma in_file cat : In cat cats -> zlen (cat "PartType1/Coordinates"%string) = 3 * npart_of cat /\ 0 < npart_of cat.
    Proof using Hb Hs Hn Hfiles.
      intro Hc. apply In_nth with (d := fun _ => []) in Hc. destruct Hc as (i & Hi & <-). destruct (good_file _ _ (Hfiles i Hi)) as (_ & A). exact A.
    Qed.
    Lemma all_app a b : all_particles (a ++ b) = all_particles a + all_particles b.
    Proof. unfold all_particles. rewrite map_app. induction a as [|c a IH]; [reflexivity|]. cbn [map app sumZ fold_right] in *. unfold sumZ in *. lia. Qed.
    Lemma all_pos a : (forall cat, In cat a -> 0 < npart_of cat) -> 0 <= all_particles a.
    Proof. unfold all_particles. induction a as [|c a IH]; intro A; [reflexivity|]. cbn [map sumZ fold_right]. pose proof (A c (or_introl eq_refl)). assert (0 <= sumZ (map npart_of a)) by (apply IH; intros; apply A; now right). unfold sumZ in *. lia. Qed.
    (** the files after those which were read *)
    Lemma loop_rest : forall todo done, cats = done ++ todo -> done <> [] -> all_particles done <= total ->
      let st := all_positions done ++ repeat 0 (Z.to_nat (3 * (total - all_particles done))) in
      let r := multi_loop little fs base snapbase num (zseq (zlen done) (List.length todo)) (Some st) (all_particles done) in
      if all_particles cats <=? total then r = Ok (Some (all_positions cats ++ repeat 0 (Z.to_nat (3 * (total - all_particles cats))))) else exists e, r = Err e.
    Proof using All.
      induction todo as [|c todo IH]; intros done E D Ht; cbn zeta.
      - rewrite app_nil_r in E. subst done. replace (_ <=? _) with true by lia. reflexivity.
      - assert (forall x, In x done -> In x cats) as Sub by (intros; rewrite E; apply in_or_app; now left).
        assert (zlen (all_positions done) = 3 * all_particles done) as L by (apply pos_len; intros x Hx; exact (proj1 (in_file x (Sub x Hx)))).
        assert (0 <= all_particles done) as P by (apply all_pos; intros x Hx; exact (proj2 (in_file x (Sub x Hx)))).
        assert (0 < zlen done) as Z0 by (destruct done; [congruence | unfold zlen; cbn [List.length]; lia]).
        assert (nth (List.length done) cats (fun _ => []) = c) as Ec by (rewrite E, nth_middle; reflexivity).
        destruct (good_file c (zlen done)) as (R & Lc & Pc). { rewrite <- Ec. apply (Hfiles (List.length done)). rewrite E, app_length. cbn [List.length]. lia. }
        cbn [List.length zseq multi_loop]. unfold multi_step. rewrite R. cbn [bind]. replace (zlen done =? 0) with false by lia. cbn [bind].
        assert (zlen (all_positions done ++ repeat 0 (Z.to_nat (3 * (total - all_particles done)))) = 3 * total) as LS by (rewrite zlen_app, L; unfold zlen; rewrite repeat_length; lia). rewrite !LS.
        assert (all_particles cats = all_particles done + npart_of c + all_particles todo) as T. { rewrite E, all_app. unfold all_particles at 2. cbn [map sumZ fold_right]. unfold all_particles, sumZ. lia. }
        assert (0 <= all_particles todo) as P2. { apply all_pos. intros x Hx. apply (in_file x). rewrite E. apply in_or_app. right. now right. }
        destruct (Z.leb_spec (3 * (all_particles done + npart_of c)) (3 * total)) as [C|C].
        + replace (0 <=? all_particles done) with true by lia. cbn [andb check bind]. rewrite <- L, write_next by lia.
          assert (all_particles (done ++ [c]) = all_particles done + npart_of c) as T1 by (rewrite all_app; unfold all_particles at 2; cbn [map sumZ fold_right]; lia).
          assert (all_positions (done ++ [c]) = all_positions done ++ c "PartType1/Coordinates"%string) as T2 by (unfold all_positions; rewrite map_app, concat_app; cbn [map concat]; now rewrite app_nil_r).
          specialize (IH (done ++ [c])). cbn zeta in IH. rewrite T1, T2 in IH. rewrite zlen_app in IH. change (zlen [c]) with 1 in IH.
          replace (Z.to_nat (3 * (total - all_particles done)) - List.length (c "PartType1/Coordinates"%string))%nat with (Z.to_nat (3 * (total - (all_particles done + npart_of c)))) by (unfold zlen in Lc; lia).
          exact (IH ltac:(rewrite <- app_assoc; exact E) ltac:(destruct done; discriminate) ltac:(lia)).
        + replace (all_particles cats <=? total) with false by lia. rewrite andb_false_r. cbn [check bind]. now exists EIndex.
    Qed.
  End Files.
  Lemma first_name : strcompress (base ++ lit "/snapdir_" ++ exts num ++ lit "/" ++ snapbase ++ lit "_" ++ exts num ++ lit ".0") = path 0.
  Proof using Hb Hs Hn.
    rewrite <- path_eq. unfold snapshot_name, strcompress. rewrite !filter_app. repeat f_equal.
  Qed.
  Lemma header_only cat content : positions_file little cat content -> read_record little content 0 single_items = Ok (map cat (map fd_name (firstn 10 L2_snapshot_header)), 264).
  Proof. intros (extra & whole & k & H & -> & K & P & Q). rewrite (some_header little cat extra whole H 10 k single_items eq_refl). now replace (Z.of_nat k <? 264) with false by lia. Qed.
  Lemma multi_top (cat : catalogue) (cats : list catalogue) :
    (forall i, (i < List.length (cat :: cats))%nat -> exists content, fs (path (Z.of_nat i)) = Some content /\ positions_file little (nth i (cat :: cats) (fun _ => [])) content) ->
    files_of cat = zlen (cat :: cats) -> zlen (cat :: cats) <= 32768 ->
    if all_particles (cat :: cats) <=? total_particles cat
    then read_multi little fs base snapbase num = Ok (all_positions (cat :: cats) ++ repeat 0 (Z.to_nat (3 * (total_particles cat - all_particles (cat :: cats)))), cat "Header/BoxSize"%string)
    else exists e, read_multi little fs base snapbase num = Err e.
  Proof using Hb Hs Hn.
    intros HA Hf Hl. destruct (HA 0%nat ltac:(cbn [List.length]; lia)) as (content & F0 & P0). cbn [nth] in P0. change (Z.of_nat 0) with 0 in F0.
    unfold read_multi, openr. rewrite first_name, F0. cbn [bind]. rewrite (header_only cat content P0). cbn [bind]. set (h := map cat _). assert (h_numfiles h = files_of cat) as ->. { unfold files_of. rewrite <- signed_model. reflexivity. }
    rewrite Hf. cbn zeta. replace (zlen (cat :: cats) - 1 <=? 32767) with true by lia. cbn [check bind].
    assert (Z.to_nat (zlen (cat :: cats)) = Datatypes.S (List.length cats)) as -> by (unfold zlen; cbn [List.length]; lia). cbn [zseq multi_loop]. unfold multi_step.
    destruct (good_file cat 0) as (R & Lc & Pc); [exists content; now split|]. rewrite R. cbn [bind]. change (0 =? 0) with true. cbn match. unfold new_array.
    assert (forall x, In x cats -> 0 < npart_of x) as Px. { intros x Hx. apply (in_file (cat :: cats) HA x). now right. }
    assert (all_particles (cat :: cats) = npart_of cat + all_particles cats) as T by reflexivity. pose proof (all_pos cats Px) as P1.
    destruct (Z.ltb_spec 0 (total_particles cat)) as [C|C]; cbn [check bind]; [|replace (_ <=? _) with false by lia; now exists EValue].
    assert (zlen (repeat 0 (Z.to_nat (3 * total_particles cat))) = 3 * total_particles cat) as L0 by (unfold zlen; rewrite repeat_length; lia).
    rewrite L0. change (0 + npart_of cat) with (npart_of cat). change (0 <=? 0) with true. cbn [andb].
    destruct (Z.leb_spec (3 * npart_of cat) (3 * total_particles cat)) as [C1|C1]; cbn [check bind]; [|replace (_ <=? _) with false by lia; now exists EIndex].
    pose proof (write_next 0 [] (cat "PartType1/Coordinates"%string) (Z.to_nat (3 * total_particles cat)) ltac:(lia)) as W. cbn [app] in W. change (3 * 0) with (zlen (@nil Z)). rewrite W.
    pose proof (loop_rest (cat :: cats) (total_particles cat) HA cats [cat] eq_refl ltac:(discriminate)) as L. cbn zeta in L. assert (all_particles [cat] = npart_of cat) as E1 by (unfold all_particles; cbn [map sumZ fold_right]; lia).
    assert (all_positions [cat] = cat "PartType1/Coordinates"%string) as E2 by (unfold all_positions; cbn [map concat]; apply app_nil_r). rewrite E1, E2 in L. specialize (L ltac:(lia)).
    replace (Z.to_nat (3 * total_particles cat) - List.length (cat "PartType1/Coordinates"%string))%nat with (Z.to_nat (3 * (total_particles cat - npart_of cat))) by (unfold zlen in Lc; lia).
    change (zlen [cat]) with (0 + 1) in L. destruct (all_particles (cat :: cats) <=? total_particles cat); [rewrite L; reflexivity | destruct L as [e L]; rewrite L; now exists e].
  Qed.
  Lemma multi_bad cat content i : fs (path 0) = Some content -> positions_file little cat content -> 0 <= i < files_of cat -> unreadable little (fs (path i)) -> exists e, read_multi little fs base snapbase num = Err e.
  Proof using Hb Hs Hn.
    intros F0 P0 Hi U. unfold read_multi, openr. rewrite first_name, F0. cbn [bind]. rewrite (header_only cat content P0). cbn [bind]. set (h := map cat _). assert (h_numfiles h = files_of cat) as ->. { unfold files_of. rewrite <- signed_model. reflexivity. }
    cbn zeta. destruct (files_of cat - 1 <=? 32767); cbn [check bind]; [|now exists EValue].
    destruct (loop_bad (zseq 0 (Z.to_nat (files_of cat))) None 0 i) as [e E]; [apply In_zseq; lia | exact U|]. rewrite E. now exists e.
  Qed.
End Multi.
Lemma default_refuted : ~ exists dir, snapshot_name (lit "/virgo/data/MilliMillennium/") (lit "snap_millennium/") 8 0 = dir ++ lit "/snap_millennium_008.0".
Proof.
  intros [dir E]. assert (rev (snapshot_name (lit "/virgo/data/MilliMillennium/") (lit "snap_millennium/") 8 0) = rev (lit "/snap_millennium_008.0") ++ rev dir) as E2 by (now rewrite E, rev_app_distr). vm_compute in E2. discriminate.
Qed.
