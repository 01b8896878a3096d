(** Proofs about readregion.f90 (C68). *)
From Coq Require Import Ascii String.
From Verif Require Import Base.Prelude Base.ListLemmas Formats.FileSpec Formats.CatSpec Snap.ReadSpec.
From Verif Require Import Peano.CPeanoModel Fortran.SortModel Fortran.RegionModel Fortran.RegionSpec Fortran.ReadPartProofs.
From Coq Require Import ZifyBool ZifyNat.
Local Open Scope Z_scope.

Notation particle := (list Z * list Z * list Z)%type.
Definition part (f : cellfile (list Z)) : list particle := concat (cf_cells f).

Lemma starts_bound cells : forall from, Forall (fun v => from <= v <= from + zlen (@concat particle cells)) (starts from cells).
Proof.
  induction cells as [|c cells IH]; intro from; [constructor|]. cbn [starts concat]. rewrite zlen_app. pose proof (zlen_nonneg c). pose proof (zlen_nonneg (concat cells)). constructor; [lia|].
  eapply Forall_impl; [|apply IH]. cbn. intros. lia.
Qed.
(** *** one file *)
Section File.
  Variables little lf : bool.
  Lemma column_map (g : particle -> list Z) (all : list particle) k from count : Forall (fun p => zlen (g p) = 3) all -> 0 <= k < 3 -> 0 <= from -> 0 <= count -> from + count <= zlen all ->
    column (concat (map g all)) k from count = map (fun p => nth (Z.to_nat k) (g p) 0) (zslice all from (from + count)).
  Proof.
    intros HF Hk Hf Hc Hl. unfold column.
    assert (forall j, 0 <= j < zlen all -> nth (Z.to_nat (3 * j + k)) (concat (map g all)) 0 = nth (Z.to_nat j) (map (fun p => nth (Z.to_nat k) (g p) 0) all) 0) as G.
    { clear - HF Hk. induction HF as [|p all Hp HF IH]; intros j Hj; [unfold zlen in Hj; cbn in Hj; lia|]. cbn [map concat]. rewrite zlen_cons in Hj. unfold zlen in Hp.
      destruct (Z.eq_dec j 0) as [->|Hn]; [rewrite app_nth1 by lia; now replace (Z.to_nat (3 * 0 + k)) with (Z.to_nat k) by lia|].
      rewrite app_nth2 by lia. replace (Z.to_nat j) with (S (Z.to_nat (j - 1))) by lia. cbn [nth]. rewrite <- IH by lia. f_equal. lia. }
    rewrite map_zslice. apply (nth_ext _ _ 0 0).
    - rewrite map_length, zseq_length, zslice_length, map_length. unfold zlen in Hl. lia.
    - intros i Hi. rewrite map_length, zseq_length in Hi. rewrite nth_zslice by lia.
      rewrite (nth_indep _ 0 (nth (Z.to_nat (3 * 0 + k)) (concat (map g all)) 0)) by (rewrite map_length, zseq_length; lia).
      rewrite (map_nth (fun j => nth (Z.to_nat (3 * j + k)) (concat (map g all)) 0)), nth_zseq by exact Hi. rewrite G by lia. f_equal. lia.
  Qed.

  Variable f : cellfile (list Z).
  Variable content : list Z.
  Hypothesis HF : hash_file lf f content.
  Let sw := negb (Bool.eqb lf little).
  Lemma file_hash : readhash little sw content = Ok (cf_first f, cf_first f + zlen (cf_cells f) - 1, starts 0 (cf_cells f), zlen (part f)).
  Proof.
    destruct HF as (cat & extra & Hc & Hok & Hv & Hn & Hp & Hvel & Hid & Hf1 & Hf2 & Hb & B1 & B2 & B3). subst content. change sw with (swap little lf). rewrite readhash_ok; [|exact Hok | | | |].
    - now rewrite Hf1, Hf2, Hb, Hn.
    - rewrite Hn. exact B1.
    - rewrite Hf1. exact B2.
    - rewrite Hf2. lia.
    - rewrite Hb. eapply Forall_impl; [|apply starts_bound]. cbn. intros. lia.
  Qed.
  Lemma file_chunk ifirst ilast (sel := zslice (part f) (ifirst - 1) ilast) : 1 <= ifirst -> ifirst <= ilast -> ilast <= zlen (part f) ->
    readpartcoords little sw content ifirst ilast = Ok (pos_of 0 sel, pos_of 1 sel, pos_of 2 sel) /\
    readpartids little sw content ifirst ilast = Ok (ids_of sel) /\
    readpartvel little sw content ifirst ilast = Ok (vel_of 0 sel, vel_of 1 sel, vel_of 2 sel).
  Proof.
    intros H1 H2 H3. unfold part in *. destruct HF as (cat & extra & Hc & Hok & Hv & Hn & Hp & Hvel & Hid & Hf1 & Hf2 & Hb & B1 & B2 & B3). subst content. change sw with (swap little lf).
    rewrite coords_ok, idlist_ok, velocities_ok by (rewrite ?Hn; try assumption; lia).
    assert (sel = zslice (concat (cf_cells f)) (ifirst - 1) (ifirst - 1 + (ilast - ifirst + 1))) as El by (unfold sel; f_equal; lia).
    split; [|split].
    - rewrite Hp. unfold pos_of. rewrite El. rewrite !column_map; try lia; try reflexivity; eapply Forall_impl; try exact Hv; cbn; tauto.
    - unfold sel, ids_of. rewrite !map_zslice. do 2 f_equal. rewrite <- (map_map snd (fun l => nth 0 l 0)), Hid, map_map. reflexivity.
    - rewrite Hvel. unfold vel_of. rewrite El. rewrite !column_map; try lia; try reflexivity; eapply Forall_impl; try exact Hv; cbn; tauto.
  Qed.
End File.

(** *** the cells of all files *)
Definition cells_of (fs : list (cellfile (list Z))) : list (list particle) := concat (map (@cf_cells _) fs).
Definition HT (fs : list (cellfile (list Z))) : list Z := concat (map (fun f => starts 0 (cf_cells f)) fs).
Fixpoint FT (from : Z) (fs : list (cellfile (list Z))) : list Z :=
  match fs with [] => [] | f :: fs' => repeat from (List.length (cf_cells f)) ++ FT (from + 1) fs' end.
Lemma cells_app a b : cells_of (a ++ b) = cells_of a ++ cells_of b.
Proof. unfold cells_of. now rewrite map_app, concat_app. Qed.
Lemma HT_app a b : HT (a ++ b) = HT a ++ HT b.
Proof. unfold HT. now rewrite map_app, concat_app. Qed.
Lemma FT_app a : forall from b, FT from (a ++ b) = FT from a ++ FT (from + zlen a) b.
Proof.
  induction a as [|f a IH]; intros from b; [cbn; f_equal; unfold zlen; cbn; lia|]. cbn [FT app]. rewrite IH, <- app_assoc, zlen_cons. do 3 f_equal. lia.
Qed.
Lemma starts_len cells : forall from, List.length (@starts (list Z) from cells) = List.length cells.
Proof. induction cells as [|c cells IH]; intro from; [reflexivity|]. cbn. now rewrite IH. Qed.
Lemma HT_len fs : List.length (HT fs) = List.length (cells_of fs).
Proof. unfold HT, cells_of. induction fs as [|f fs IH]; [reflexivity|]. cbn [map concat]. now rewrite !app_length, starts_len, IH. Qed.
Lemma FT_len fs : forall from, List.length (FT from fs) = List.length (cells_of fs).
Proof. unfold cells_of. induction fs as [|f fs IH]; intro from; [reflexivity|]. cbn [map concat FT]. now rewrite !app_length, repeat_length, IH. Qed.
Lemma covers_app a : forall b from nhash, covers from nhash (a ++ b) <-> covers from (from + zlen (cells_of a)) a /\ covers (from + zlen (cells_of a)) nhash b.
Proof.
  induction a as [|f a IH]; intros b from nhash; cbn [covers app].
  - change (zlen (cells_of [])) with 0. rewrite Z.add_0_r. tauto.
  - rewrite IH. change (cells_of (f :: a)) with (cf_cells f ++ cells_of a). rewrite zlen_app, Z.add_assoc. tauto.
Qed.
Lemma covers_len fs : forall from nhash, covers from nhash fs -> nhash = from + zlen (cells_of fs).
Proof. induction fs as [|f fs IH]; intros from nhash H; [cbn in H; unfold zlen; cbn; lia|]. destruct H as [H1 H2]. apply IH in H2. change (cells_of (f :: fs)) with (cf_cells f ++ cells_of fs). rewrite zlen_app. lia. Qed.

(** *** lemmas on arrays *)
Lemma fget_nth {B} (l : list B) i v : 0 <= i -> nth_error l (Z.to_nat i) = Some v -> fget l i = Ok v.
Proof. intros Hi E. unfold fget. replace (0 <=? i) with true by lia. now rewrite E. Qed.
Lemma fget_app2 {B} (a b : list B) i : zlen a <= i -> fget (a ++ b) i = fget b (i - zlen a).
Proof.
  intro H. pose proof (zlen_nonneg a). unfold fget. replace (0 <=? i) with true by lia. replace (0 <=? i - zlen a) with true by lia. rewrite nth_error_app2 by (unfold zlen in *; lia).
  replace (Z.to_nat (i - zlen a)) with (Z.to_nat i - List.length a)%nat by (unfold zlen; lia). reflexivity.
Qed.
Lemma fget_app1 {B} (a b : list B) i : i < zlen a -> fget (a ++ b) i = fget a i.
Proof. intro H. unfold fget. destruct (Z.leb_spec 0 i); [|reflexivity]. rewrite nth_error_app1 by (unfold zlen in *; lia). reflexivity. Qed.
Lemma write_section_junk a v junk m : (List.length v <= m)%nat -> write_section (a ++ repeat junk m) (zlen a) v = Ok ((a ++ v) ++ repeat junk (m - List.length v)).
Proof.
  intro H. unfold write_section. destruct (Z.eqb_spec (zlen v) 0) as [E|E].
  - assert (v = []) as -> by (destruct v; [reflexivity | unfold zlen in E; cbn in E; lia]). rewrite app_nil_r. cbn [List.length]. now rewrite Nat.sub_0_r.
  - replace ((0 <=? zlen a) && (zlen a + zlen v <=? zlen (a ++ repeat junk m))) with true by (rewrite zlen_app; unfold zlen; rewrite repeat_length; lia). cbn [check bind]. f_equal.
    unfold write_at, zlen. rewrite !Nat2Z.id. rewrite firstn_app, firstn_all, Nat.sub_diag, firstn_O, app_nil_r, <- app_assoc. f_equal. f_equal.
    rewrite skipn_app, skipn_all2 by lia. cbn [app]. rewrite Nat.add_comm, Nat.add_sub.
    assert (forall (x : Z) m k, (k <= m)%nat -> skipn k (repeat x m) = repeat x (m - k)) as G; [|apply G; exact H].
    clear. intros x. induction m as [|m IH]; intros [|k] Hk; try reflexivity. cbn [repeat skipn Nat.sub]. apply IH. lia.
Qed.
Lemma fset_junk {B} (a : list B) v junk m : (0 < m)%nat -> fset (a ++ repeat junk m) (zlen a) v = Ok ((a ++ [v]) ++ repeat junk (m - 1)).
Proof.
  intro H. unfold fset. replace ((0 <=? zlen a) && (zlen a <? zlen (a ++ repeat junk m))) with true by (rewrite zlen_app; unfold zlen; rewrite repeat_length; lia). f_equal.
  unfold zlen. rewrite Nat2Z.id. destruct m as [|m]; [lia|]. cbn [repeat Nat.sub]. rewrite Nat.sub_0_r, <- app_assoc. cbn [app]. clear. induction a as [|x a IH]; [reflexivity|]. cbn [app List.length set_nth]. now rewrite IH.
Qed.

Lemma starts_nth cells : forall from j, (j < List.length cells)%nat -> nth_error (@starts (list Z) from cells) j = Some (from + zlen (concat (firstn j cells))).
Proof.
  induction cells as [|c cells IH]; intros from [|j] H; cbn [List.length] in H; try lia; cbn [starts nth_error firstn concat].
  - f_equal. unfold zlen. cbn. lia.
  - rewrite IH by lia. rewrite zlen_app. f_equal. lia.
Qed.
Lemma repeat_nth {B} (x : B) n j : (j < n)%nat -> nth_error (repeat x n) j = Some x.
Proof. revert j. induction n as [|n IH]; intros [|j] H; try lia; [reflexivity | apply IH; lia]. Qed.
Lemma locate_in fs : forall from nhash c, covers from nhash fs -> from <= c < nhash -> exists a f b j, fs = a ++ f :: b /\ c = cf_first f + Z.of_nat j /\ (j < List.length (cf_cells f))%nat.
Proof.
  induction fs as [|f fs IH]; intros from nhash c H Hc; [cbn in H; lia|]. destruct H as [H1 H2].
  destruct (Z.lt_ge_cases c (from + zlen (cf_cells f))) as [C|C].
  - exists [], f, fs, (Z.to_nat (c - from)). split; [reflexivity|]. unfold zlen in C. lia.
  - destruct (IH _ _ c H2 ltac:(lia)) as (a & g & b & j & E & H). exists (f :: a), g, b, j. split; [now rewrite E | exact H].
Qed.
(** the particles of the flagged cells *)
Fixpoint pickf (flag : Z -> bool) (from : Z) (cells : list (list particle)) : list particle :=
  match cells with [] => [] | c :: cells' => (if flag from then c else []) ++ pickf flag (from + 1) cells' end.
Lemma pickf_app flag a : forall from b, pickf flag from (a ++ b) = pickf flag from a ++ pickf flag (from + zlen a) b.
Proof.
  induction a as [|c a IH]; intros from b; [cbn [app pickf]; f_equal; unfold zlen; cbn; lia|]. cbn [app pickf]. rewrite IH, zlen_cons, <- app_assoc. do 3 f_equal. lia.
Qed.
Lemma pickf_all flag l : forall from, (forall i, from <= i < from + zlen l -> flag i = true) -> pickf flag from l = concat l.
Proof.
  induction l as [|c l IH]; intros from H; [reflexivity|]. cbn [pickf concat]. rewrite zlen_cons in H. pose proof (zlen_nonneg l). rewrite H by lia. rewrite IH; [reflexivity|]. intros i Hi. apply H. lia.
Qed.
Lemma concat_slice {B} (l : list (list B)) : forall j m, (j + m <= List.length l)%nat -> concat (firstn m (skipn j l)) = zslice (concat l) (zlen (concat (firstn j l))) (zlen (concat (firstn (j + m) l))).
Proof.
  intros j m H. rewrite <- (firstn_skipn j l) at 2. rewrite <- (firstn_skipn m (skipn j l)) at 2. rewrite !concat_app. set (x := concat (firstn j l)). set (y := concat (firstn m (skipn j l))).
  assert (concat (firstn (j + m) l) = x ++ y) as ->.
  { unfold x, y. rewrite <- concat_app. f_equal. rewrite <- (firstn_skipn j l) at 1. rewrite firstn_app, firstn_firstn, firstn_length. rewrite Nat.min_r by lia. f_equal. f_equal. lia. }
  pose proof (zlen_nonneg x). pose proof (zlen_nonneg y). rewrite zlen_app, zslice_app, zslice_past by lia. cbn [app]. rewrite zslice_app, zslice_all by lia. rewrite (zslice_neg (concat _)) by lia. symmetry. apply app_nil_r.
Qed.

Lemma write_junk a v (junk : Z) m : (List.length v <= m)%nat -> write_at (a ++ repeat junk m) (zlen a) v = (a ++ v) ++ repeat junk (m - List.length v).
Proof.
  intro H. pose proof (write_section_junk a v junk m H) as W. unfold write_section in W. destruct (Z.eqb_spec (zlen v) 0) as [E|E].
  - assert (v = []) as -> by (destruct v; [reflexivity | unfold zlen in E; cbn in E; lia]). rewrite write_at_nil. now injection W.
  - replace ((0 <=? zlen a) && (zlen a + zlen v <=? zlen (a ++ repeat junk m))) with true in W by (rewrite zlen_app; unfold zlen; rewrite repeat_length; lia). now injection W.
Qed.

Section Region.
  Variables little lf : bool.
  Let sw := negb (Bool.eqb lf little).
  Variable nhash : Z.
  Variable fs : list (cellfile (list Z)).
  Variable contents : list (list Z).
  Hypothesis Hfiles : Forall2 (hash_file lf) fs contents.
  Hypothesis Hcov : covers 0 nhash fs.
  Let AC := cells_of fs.
  Lemma nhash_len : nhash = zlen AC.
  Proof. apply covers_len in Hcov. exact Hcov. Qed.
  Lemma contents_at i f : nth_error fs i = Some f -> exists c, nth_error contents i = Some c /\ hash_file lf f c.
  Proof.
    clear Hcov AC. revert i. induction Hfiles as [|g c gs cs H HH IH]; intros [|i] E; try discriminate E; [injection E as E; subst g; exists c; split; [reflexivity | exact H] | exact (IH HH i E)].
  Qed.
  Lemma files_len : List.length contents = List.length fs.
  Proof. clear Hcov AC. induction Hfiles as [|g c gs cs H HH IH]; [reflexivity|]. cbn [List.length]. now rewrite IH. Qed.

  Definition lasts (l : list (cellfile (list Z))) := map (fun f => cf_first f + zlen (cf_cells f) - 1) l.
  Definition nins (l : list (cellfile (list Z))) := map (fun f => zlen (part f)) l.
  Definition tables_at (junk : Z) (l : list (cellfile (list Z))) : tables :=
    {| t_offset := zlen (cells_of l);
       t_hash := HT l ++ repeat junk (Z.to_nat nhash - List.length (cells_of l));
       t_file := FT 0 l ++ repeat junk (Z.to_nat nhash - List.length (cells_of l));
       t_last := lasts l ++ repeat junk (List.length fs - List.length l);
       t_nin := nins l ++ repeat junk (List.length fs - List.length l) |}.
  Lemma tables_from junk b : forall a, fs = a ++ b -> foldR (read_table little sw contents) (zseq (zlen a) (List.length b)) (tables_at junk a) = Ok (tables_at junk fs).
  Proof.
    induction b as [|f b IH]; intros a E; [cbn; now rewrite E, app_nil_r|].
    cbn [List.length zseq foldR].
    assert (nth_error fs (List.length a) = Some f) as En by (rewrite E, nth_error_app2, Nat.sub_diag by lia; reflexivity).
    destruct (contents_at _ _ En) as (c & Ec & Hf).
    pose proof nhash_len as HN. unfold AC in HN. pose proof Hcov as HC. rewrite E in HC. apply covers_app in HC. destruct HC as [_ [HC _]]. rewrite Z.add_0_l in HC.
    assert (cells_of fs = cells_of a ++ cf_cells f ++ cells_of b) as EC by (rewrite E, cells_app; reflexivity).
    assert (read_table little sw contents (tables_at junk a) (zlen a) = Ok (tables_at junk (a ++ [f]))) as R.
    { unfold read_table. rewrite (fget_nth _ _ c) by (unfold zlen; try rewrite Nat2Z.id; (lia || exact Ec)). cbn [bind].
      unfold sw. rewrite (file_hash _ _ f) by exact Hf. cbn [bind fst snd]. cbn [t_hash t_offset t_last t_nin t_file tables_at].
      assert (zlen (cells_of a) = zlen (HT a)) as EH by (unfold zlen; now rewrite HT_len). assert (zlen (cells_of a) = zlen (FT 0 a)) as EF by (unfold zlen; now rewrite FT_len).
      assert (List.length (cf_cells f) <= Z.to_nat nhash - List.length (cells_of a))%nat as HB by (rewrite HN, EC; unfold zlen; rewrite !app_length; lia).
      rewrite EH, write_section_junk by (rewrite starts_len; exact HB). cbn [bind].
      assert (0 < List.length fs - List.length a)%nat as HL by (rewrite E, app_length; cbn [List.length]; lia).
      assert (zlen a = zlen (lasts a)) as EL by (unfold lasts; now rewrite zlen_map). assert (zlen a = zlen (nins a)) as EN by (unfold nins; now rewrite zlen_map).
      rewrite EL at 1. rewrite fset_junk by exact HL. cbn [bind]. rewrite EN at 1. rewrite fset_junk by exact HL. cbn [bind].
      rewrite HC, EF. rewrite write_section_junk by (rewrite repeat_length; unfold zlen; lia). cbn [bind]. unfold tables_at. f_equal.
      assert (List.length (cells_of (a ++ [f])) = List.length (cells_of a) + List.length (cf_cells f))%nat as EA by (rewrite cells_app, app_length; unfold cells_of at 2; cbn; now rewrite app_nil_r).
      assert (List.length (a ++ [f]) = S (List.length a)) as ES by (rewrite app_length; cbn; lia).
      f_equal.
      - rewrite <- EF. unfold zlen. rewrite EA. lia.
      - rewrite HT_app, EA, starts_len. unfold HT at 3. cbn [map concat]. rewrite app_nil_r. f_equal. f_equal. lia.
      - assert (Z.to_nat (zlen (FT 0 a) + zlen (cf_cells f) - 1 - zlen (FT 0 a) + 1) = List.length (cf_cells f)) as -> by (unfold zlen; lia).
        rewrite FT_app, EA, repeat_length. cbn [FT]. rewrite app_nil_r, Z.add_0_l. f_equal. f_equal. lia.
      - rewrite ES. unfold lasts. rewrite map_app. cbn [map]. rewrite HC, <- EF. f_equal. f_equal. lia.
      - rewrite ES. unfold nins. rewrite map_app. cbn [map]. f_equal. f_equal. lia. }
    rewrite R. cbn [bind]. replace (zlen a + 1) with (zlen (a ++ [f])) by (rewrite zlen_app; reflexivity). apply IH. now rewrite <- app_assoc.
  Qed.
  Definition tab : tables := {| t_offset := nhash; t_hash := HT fs; t_file := FT 0 fs; t_last := lasts fs; t_nin := nins fs |}.
  Lemma read_tables_ok junk : read_tables little sw nhash contents junk = Ok tab.
  Proof.
    unfold read_tables. rewrite files_len. pose proof (tables_from junk fs [] eq_refl) as T. change (zlen (@nil (cellfile (list Z)))) with 0 in T.
    assert (tables_at junk [] = {| t_offset := 0; t_hash := repeat junk (Z.to_nat nhash); t_file := repeat junk (Z.to_nat nhash); t_last := repeat junk (List.length fs); t_nin := repeat junk (List.length fs) |}) as E0
      by (unfold tables_at, cells_of; cbn; now rewrite !Nat.sub_0_r).
    rewrite E0 in T. rewrite T. f_equal. unfold tables_at, tab. pose proof nhash_len as HN. unfold AC in HN.
    replace (Z.to_nat nhash - List.length (cells_of fs))%nat with O by (rewrite HN; unfold zlen; lia). rewrite Nat.sub_diag. cbn [repeat]. rewrite !app_nil_r. now rewrite <- HN.
  Qed.

  Lemma locate c : 0 <= c < nhash -> exists a f b j, fs = a ++ f :: b /\ c = cf_first f + Z.of_nat j /\ (j < List.length (cf_cells f))%nat.
  Proof. intro H. eapply locate_in; [exact Hcov | exact H]. Qed.
  Section At.
    Variables (a b : list (cellfile (list Z))) (f : cellfile (list Z)).
    Hypothesis E : fs = a ++ f :: b.
    Lemma first_at : cf_first f = zlen (cells_of a).
    Proof. pose proof Hcov as HC. rewrite E in HC. apply covers_app in HC. destruct HC as [_ [HC _]]. exact HC. Qed.
    Lemma cells_at : AC = cells_of a ++ cf_cells f ++ cells_of b.
    Proof. unfold AC. rewrite E, cells_app. reflexivity. Qed.
    Lemma hash_at j : (j < List.length (cf_cells f))%nat -> fget (HT fs) (cf_first f + Z.of_nat j) = Ok (zlen (concat (firstn j (cf_cells f)))).
    Proof.
      intro H. rewrite E, HT_app, first_at. assert (zlen (HT a) = zlen (cells_of a)) as EH by (unfold zlen; now rewrite HT_len). rewrite fget_app2 by lia. rewrite EH.
      replace (zlen (cells_of a) + Z.of_nat j - zlen (cells_of a)) with (Z.of_nat j) by lia. change (HT (f :: b)) with (starts 0 (cf_cells f) ++ HT b).
      rewrite fget_app1 by (unfold zlen; rewrite starts_len; lia). apply fget_nth; [lia|]. rewrite Nat2Z.id. now apply starts_nth.
    Qed.
    Lemma file_at j : (j < List.length (cf_cells f))%nat -> fget (FT 0 fs) (cf_first f + Z.of_nat j) = Ok (zlen a).
    Proof.
      intro H. rewrite E, FT_app, first_at. assert (zlen (FT 0 a) = zlen (cells_of a)) as EH by (unfold zlen; now rewrite FT_len). rewrite fget_app2 by lia. rewrite EH.
      replace (zlen (cells_of a) + Z.of_nat j - zlen (cells_of a)) with (Z.of_nat j) by lia. cbn [FT].
      rewrite fget_app1 by (unfold zlen; rewrite repeat_length; lia). apply fget_nth; [lia|]. rewrite Nat2Z.id, Z.add_0_l. now apply repeat_nth.
    Qed.
    Lemma cell_at j : (j < List.length (cf_cells f))%nat -> nth (Z.to_nat (cf_first f + Z.of_nat j)) AC [] = nth j (cf_cells f) [].
    Proof.
      intro H. rewrite cells_at, first_at. unfold zlen. rewrite app_nth2 by lia. rewrite app_nth1 by lia. f_equal. lia.
    Qed.
    Lemma run_at j m : (j + m <= List.length (cf_cells f))%nat -> firstn m (skipn (Z.to_nat (cf_first f + Z.of_nat j)) AC) = firstn m (skipn j (cf_cells f)).
    Proof.
      intro H. rewrite cells_at, first_at. replace (Z.to_nat (zlen (cells_of a) + Z.of_nat j)) with (List.length (cells_of a) + j)%nat by (unfold zlen; lia).
      rewrite skipn_app, skipn_all2 by lia. cbn [app]. replace (List.length (cells_of a) + j - List.length (cells_of a))%nat with j by lia.
      rewrite skipn_app, firstn_app, skipn_length. replace (m - (List.length (cf_cells f) - j))%nat with O by lia. cbn [firstn]. now rewrite app_nil_r.
    Qed.
    Lemma content_at : exists c, fget contents (zlen a) = Ok c /\ hash_file lf f c.
    Proof.
      destruct (contents_at (List.length a) f) as (c & Ec & Hc); [rewrite E, nth_error_app2, Nat.sub_diag by lia; reflexivity|]. exists c. split; [|exact Hc]. apply fget_nth; unfold zlen; [lia | now rewrite Nat2Z.id].
    Qed.
    Lemma map_at {B} (g : cellfile (list Z) -> B) : fget (map g fs) (zlen a) = Ok (g f).
    Proof. apply fget_nth; [apply zlen_nonneg|]. unfold zlen. rewrite Nat2Z.id, E, map_app, nth_error_app2; rewrite map_length; [|lia]. now rewrite Nat.sub_diag. Qed.
    Lemma count_at j : (j < List.length (cf_cells f))%nat -> count_cell tab (cf_first f + Z.of_nat j) = Ok (zlen (nth j (cf_cells f) [])).
    Proof.
      intro H. unfold count_cell, tab. cbn [t_file t_last t_hash t_nin]. rewrite file_at by exact H. cbn [bind]. unfold lasts, nins. rewrite !map_at. cbn [bind].
      assert (forall i, (i < List.length (cf_cells f))%nat -> zlen (concat (firstn (S i) (cf_cells f))) = zlen (concat (firstn i (cf_cells f))) + zlen (nth i (cf_cells f) [])) as G.
      { clear. induction (cf_cells f) as [|c l IH]; intros [|i] Hi; cbn [List.length] in Hi; try lia; [cbn; rewrite app_nil_r; unfold zlen; cbn; lia|]. change (firstn (S (S i)) (c :: l)) with (c :: firstn (S i) l).
        cbn [firstn concat nth]. rewrite !zlen_app. change (match l with [] => [] | a :: l0 => a :: firstn i l0 end) with (firstn (S i) l). rewrite IH by lia. lia. }
      destruct (Z.ltb_spec (cf_first f + Z.of_nat j) (cf_first f + zlen (cf_cells f) - 1)) as [C|C]; unfold zlen in C.
      - replace (cf_first f + Z.of_nat j + 1) with (cf_first f + Z.of_nat (S j)) by lia. rewrite !hash_at by lia. cbn [bind]. rewrite G by lia. f_equal. lia.
      - rewrite hash_at by lia. cbn [bind]. assert (S j = List.length (cf_cells f)) as ES by lia. unfold part. rewrite <- (firstn_all (cf_cells f)) at 1. rewrite <- ES, G by lia. f_equal. lia.
    Qed.
  End At.
  Definition per := map (fun c => zlen (nth (Z.to_nat c) AC [])) (zseq 0 (Z.to_nat nhash)).
  Lemma npercell_ok : npercell nhash tab = Ok per.
  Proof.
    unfold npercell. apply mapM_map_ok. intros c Hc. apply In_zseq in Hc. pose proof nhash_len as HN. pose proof (zlen_nonneg AC). destruct (locate c ltac:(lia)) as (a & f & b & j & E & -> & Hj).
    rewrite (count_at a b f E) by exact Hj. now rewrite (cell_at a b f E) by exact Hj.
  Qed.
  Lemma per_at c : 0 <= c < nhash -> fget per c = Ok (zlen (nth (Z.to_nat c) AC [])).
  Proof. intro H. apply fget_nth; [lia|]. unfold per. rewrite nth_error_map, nth_error_zseq by lia. cbn. do 3 f_equal. f_equal. lia. Qed.

  Variable hashmap : list bool.
  Hypothesis Hmap : zlen hashmap = nhash.
  Definition flag (c : Z) : bool := nth (Z.to_nat c) hashmap false.
  Definition pref (c : Z) : list particle := pickf flag 0 (firstn (Z.to_nat c) AC).
  Lemma flag_at c : 0 <= c < nhash -> fget hashmap c = Ok (flag c).
  Proof. intro H. apply fget_nth; [lia|]. apply nth_error_nth'. unfold zlen in Hmap. lia. Qed.
  Lemma pref_more c m : 0 <= c -> 0 <= m -> c + m <= nhash -> pref (c + m) = pref c ++ pickf flag c (firstn (Z.to_nat m) (skipn (Z.to_nat c) AC)).
  Proof.
    intros Hc Hm Hl. pose proof nhash_len as HN. unfold zlen in HN. unfold pref. rewrite <- (firstn_skipn (Z.to_nat c) AC) at 1. rewrite firstn_app, firstn_firstn, firstn_length, Nat.min_r by lia. rewrite pickf_app. f_equal.
    rewrite Z.add_0_l. unfold zlen. rewrite firstn_length. f_equal; [lia|]. f_equal. lia.
  Qed.
  Lemma one_cell c : 0 <= c < nhash -> firstn 1 (skipn (Z.to_nat c) AC) = [nth (Z.to_nat c) AC []].
  Proof.
    intro H. pose proof nhash_len as HN. unfold zlen in HN. assert (Z.to_nat c < List.length AC)%nat as Hl by lia. revert Hl. generalize (Z.to_nat c). generalize AC. clear. induction AC as [|x l IH]; intros [|n] H; cbn [List.length] in H; try lia; [reflexivity|]. cbn [skipn nth]. apply IH. lia.
  Qed.
  Lemma pref_next c : 0 <= c < nhash -> pref (c + 1) = pref c ++ (if flag c then nth (Z.to_nat c) AC [] else []).
  Proof. intro H. rewrite pref_more by lia. change (Z.to_nat 1) with 1%nat. rewrite one_cell by exact H. cbn [pickf]. now rewrite app_nil_r. Qed.
  Lemma count_part_ok : count_part nhash hashmap per = Ok (zlen (pref nhash)).
  Proof.
    unfold count_part.
    assert (forall n c, 0 <= c -> c + Z.of_nat n = nhash -> foldR (fun npart ihash => do flag <- fget hashmap ihash; do n <- fget per ihash; Ok (if flag : bool then npart + n else npart)) (zseq c n) (zlen (pref c)) = Ok (zlen (pref nhash))) as G.
    { induction n as [|n IH]; intros c H1 H2; [cbn; do 3 f_equal; lia|]. cbn [zseq foldR]. rewrite flag_at, per_at by lia. cbn [bind].
      specialize (IH (c + 1) ltac:(lia) ltac:(lia)). rewrite pref_next in IH by lia. rewrite zlen_app in IH. destruct (flag c); [exact IH|]. unfold zlen at 2 in IH. cbn [List.length] in IH. change (Z.of_nat 0) with 0 in IH. rewrite Z.add_0_r in IH. exact IH. }
    change 0 with (zlen (pref 0)) at 2. apply G; [lia|]. pose proof nhash_len as HN. pose proof (zlen_nonneg AC). lia.
  Qed.

  Definition fileof (c : Z) : Z := nth (Z.to_nat c) (FT 0 fs) 0.
  Lemma fileof_at c : 0 <= c < nhash -> fget (t_file tab) c = Ok (fileof c).
  Proof. intro H. apply fget_nth; [lia|]. cbn [t_file tab]. apply nth_error_nth'. rewrite FT_len. pose proof nhash_len as HN. unfold AC, zlen in HN. lia. Qed.
  Lemma scan_ok ifile : forall fuel c, 0 <= c < nhash -> nhash - c <= Z.of_nat fuel -> exists e, scan nhash hashmap fuel tab ifile c = Ok e /\ c <= e < nhash /\
    (forall i, c <= i < e -> flag i = true /\ fileof i = ifile) /\ (flag e = true -> fileof e = ifile -> e = nhash - 1).
  Proof.
    induction fuel as [|fuel IH]; intros c Hc Hf; [lia|]. cbn [scan]. rewrite flag_at, fileof_at by exact Hc. cbn [bind].
    destruct (flag c && (fileof c =? ifile) && (c <? nhash - 1)) eqn:C.
    - destruct (IH (c + 1) ltac:(lia) ltac:(lia)) as (e & E & He & H1 & H2). exists e. split; [exact E|]. split; [lia|]. split; [|exact H2]. intros i Hi. destruct (Z.eq_dec i c) as [->|]; [|apply H1; lia].
      apply andb_true_iff in C. destruct C as [C _]. apply andb_true_iff in C. destruct C as [C1 C2]. split; [exact C1 | lia].
    - exists c. split; [reflexivity|]. split; [lia|]. split; [intros; lia|]. intros H1 H2. rewrite H1, H2, Z.eqb_refl in C. cbn [andb] in C. lia.
  Qed.
  (** contiguous cells of one file are a contiguous range of its particles *)
  Lemma chunk_ok c c2 : 0 <= c <= c2 -> c2 < nhash -> (forall i, c <= i <= c2 -> flag i = true /\ fileof i = fileof c) ->
    exists a f b h1 h2, fs = a ++ f :: b /\ fileof c = zlen a /\ fget (t_hash tab) c = Ok h1 /\ fget (t_hash tab) c2 = Ok h2 /\
      let last := h2 + zlen (nth (Z.to_nat c2) AC []) in 0 <= h1 /\ h1 <= last /\ last <= zlen (part f) /\ pref (c2 + 1) = pref c ++ zslice (part f) h1 last.
  Proof.
    intros Hc Hc2 Hrun. destruct (locate c ltac:(lia)) as (a & f & b & j & E & Ej & Hj). destruct (locate c2 ltac:(lia)) as (a' & f' & b' & j' & E' & Ej' & Hj').
    assert (fileof c = zlen a) as Fc by (pose proof (fileof_at c ltac:(lia)) as H; rewrite Ej in H at 1; cbn [t_file tab] in H; rewrite (file_at a b f E) in H by exact Hj; now injection H).
    assert (fileof c2 = zlen a') as Fc2 by (pose proof (fileof_at c2 ltac:(lia)) as H; rewrite Ej' in H at 1; cbn [t_file tab] in H; rewrite (file_at a' b' f' E') in H by exact Hj'; now injection H).
    assert (f' = f) as ->.
    { destruct (Hrun c2 ltac:(lia)) as [_ H]. rewrite Fc, Fc2 in H. assert (List.length a = List.length a') as HL by (unfold zlen in H; lia).
      assert (nth_error fs (List.length a) = Some f) as N1 by (rewrite E, nth_error_app2, Nat.sub_diag by lia; reflexivity).
      assert (nth_error fs (List.length a) = Some f') as N2 by (rewrite HL, E', nth_error_app2, Nat.sub_diag by lia; reflexivity). congruence. }
    exists a, f, b, (zlen (concat (firstn j (cf_cells f)))), (zlen (concat (firstn j' (cf_cells f)))). split; [exact E|]. split; [exact Fc|]. cbn [t_hash tab].
    split; [rewrite Ej; now apply (hash_at a b f E)|]. split; [rewrite Ej'; now apply (hash_at a b f E)|].
    assert (zlen (concat (firstn j' (cf_cells f))) + zlen (nth (Z.to_nat c2) AC []) = zlen (concat (firstn (j + Z.to_nat (c2 + 1 - c)) (cf_cells f)))) as ->.
    { rewrite Ej' at 1. rewrite (cell_at a b f E) by exact Hj'. replace (j + Z.to_nat (c2 + 1 - c))%nat with (S j') by lia. clear - Hj'. revert j' Hj'. induction (cf_cells f) as [|x l IH]; intros [|j'] H; cbn [List.length] in H; try lia.
      - cbn. rewrite app_nil_r. unfold zlen. cbn. lia.
      - change (firstn (S (S j')) (x :: l)) with (x :: firstn (S j') l). cbn [firstn concat nth]. rewrite !zlen_app. change (match l with [] => [] | a :: l0 => a :: firstn j' l0 end) with (firstn (S j') l). rewrite <- IH by lia. lia. }
    assert (forall x y, (x <= y)%nat -> zlen (concat (firstn x (cf_cells f))) <= zlen (concat (firstn y (cf_cells f)))) as M.
    { clear. intros x y H. rewrite <- (firstn_skipn x (firstn y (cf_cells f))), firstn_firstn, Nat.min_l, concat_app, zlen_app by exact H. pose proof (zlen_nonneg (concat (skipn x (firstn y (cf_cells f))))). lia. }
    cbn zeta. split; [apply zlen_nonneg|]. split; [apply M; lia|]. split.
    { unfold part. rewrite <- (firstn_all (cf_cells f)) at 2. apply M. lia. }
    replace (c2 + 1) with (c + (c2 + 1 - c)) at 1 by lia. rewrite pref_more by lia. f_equal. assert (firstn (Z.to_nat (c2 + 1 - c)) (skipn (Z.to_nat c) AC) = firstn (Z.to_nat (c2 + 1 - c)) (skipn j (cf_cells f))) as -> by (rewrite Ej at 2; apply (run_at a b f E); lia). unfold part. rewrite <- concat_slice by lia. apply pickf_all.
    intros i Hi. apply Hrun. unfold zlen in Hi. rewrite firstn_length, skipn_length in Hi. lia.
  Qed.

  Variable junk : Z.
  Definition reg (s : list particle) : region :=
    let m := (List.length (pref nhash) - List.length s)%nat in
    {| r_x := pos_of 0 s ++ repeat junk m; r_y := pos_of 1 s ++ repeat junk m; r_z := pos_of 2 s ++ repeat junk m;
       r_vx := vel_of 0 s ++ repeat junk m; r_vy := vel_of 1 s ++ repeat junk m; r_vz := vel_of 2 s ++ repeat junk m; r_ids := ids_of s ++ repeat junk m |}.
  Lemma pref_mono c d : 0 <= c <= d -> d <= nhash -> zlen (pref c) <= zlen (pref d).
  Proof. intros H1 H2. replace d with (c + (d - c)) by lia. rewrite pref_more, zlen_app by lia. pose proof (zlen_nonneg (pickf flag c (firstn (Z.to_nat (d - c)) (skipn (Z.to_nat c) AC)))). lia. Qed.
  Lemma read_chunk_ok a f b ifirst ilast c c2 (sel := zslice (part f) (ifirst - 1) ilast) : fs = a ++ f :: b -> 0 <= c -> c <= c2 < nhash -> 1 <= ifirst -> ifirst <= ilast -> ilast <= zlen (part f) -> pref (c2 + 1) = pref c ++ sel ->
    exists content, fget contents (zlen a) = Ok content /\ read_chunk little sw content ifirst ilast (1 + zlen (pref c)) (ilast - ifirst + 1) (reg (pref c)) = Ok (reg (pref (c2 + 1))).
  Proof.
    intros E Hc Hc2 H1 H2 H3 Hp. destruct (content_at a b f E) as (content & Ec & Hf). exists content. split; [exact Ec|]. destruct (file_chunk little lf f content Hf ifirst ilast H1 H2 H3) as (R1 & R2 & R3). fold sel in R1, R2, R3.
    unfold read_chunk. fold sw in R1, R2, R3. rewrite R1. cbn [bind]. rewrite R2. cbn [bind]. rewrite R3. cbn [bind fst snd].
    assert (zlen sel = ilast - ifirst + 1) as Hs by (unfold sel; rewrite zlen_zslice by lia; lia).
    pose proof (pref_mono (c2 + 1) nhash ltac:(lia) ltac:(lia)) as HM. rewrite Hp, zlen_app in HM.
    assert (List.length sel <= List.length (pref nhash) - List.length (pref c))%nat as HL by (unfold zlen in *; lia).
    assert (zlen (r_x (reg (pref c))) = zlen (pref nhash)) as -> by (cbn [r_x reg]; unfold pos_of; rewrite zlen_app, zlen_map; unfold zlen in *; rewrite repeat_length; lia).
    pose proof (zlen_nonneg (pref c)). replace ((1 <=? 1 + zlen (pref c)) && (1 + zlen (pref c) + (ilast - ifirst + 1) - 1 <=? zlen (pref nhash))) with true by lia. cbn [check bind]. f_equal.
    replace (1 + zlen (pref c) - 1) with (zlen (pref c)) by lia. unfold reg. cbn [r_x r_y r_z r_vx r_vy r_vz r_ids]. rewrite Hp.
    assert (forall g : list particle -> list Z, (forall s, List.length (g s) = List.length s) -> (forall s t, g (s ++ t) = g s ++ g t) ->
      write_at (g (pref c) ++ repeat junk (List.length (pref nhash) - List.length (pref c))) (zlen (pref c)) (g sel) = g (pref c ++ sel) ++ repeat junk (List.length (pref nhash) - List.length (pref c ++ sel))) as G.
    { intros g G1 G2. assert (zlen (pref c) = zlen (g (pref c))) as -> by (unfold zlen; now rewrite G1). rewrite write_junk by (rewrite G1; exact HL). rewrite G2, G1, app_length. f_equal. f_equal. lia. }
    unfold pos_of, vel_of, ids_of. rewrite !G; try reflexivity; intros; rewrite ?map_length, ?map_app; reflexivity.
  Qed.

  Lemma loop_ok : forall fuel c iopen cur, 0 <= c <= nhash -> nhash - c < Z.of_nat fuel ->
    (iopen = -1 /\ cur = None /\ pref c = [] \/ 0 <= iopen /\ cur = Some iopen /\ pref c <> []) ->
    exists cur', region_loop little sw nhash contents hashmap fuel tab per c (1 + zlen (pref c)) iopen cur (reg (pref c)) = Ok (cur', reg (pref nhash)) /\ (cur' = None <-> pref nhash = []).
  Proof.
    induction fuel as [|fuel IH]; intros c iopen cur Hc Hf Hcur; [lia|]. cbn [region_loop]. destruct (Z.ltb_spec c nhash) as [C|C].
    2:{ assert (c = nhash) as -> by lia. exists cur. split; [reflexivity|]. destruct Hcur as [(_ & -> & H)|(_ & -> & H)]; [tauto|]. split; [discriminate | tauto]. }
    rewrite flag_at by lia. cbn [bind]. destruct (flag c) eqn:Fl.
    2:{ pose proof (pref_next c ltac:(lia)) as Hn. rewrite Fl, app_nil_r in Hn. specialize (IH (c + 1) iopen cur ltac:(lia) ltac:(lia)). rewrite Hn in IH. apply IH. exact Hcur. }
    rewrite fileof_at by lia. cbn [bind]. destruct (scan_ok (fileof c) (S (Z.to_nat nhash)) c ltac:(lia) ltac:(lia)) as (e & Es & He & S1 & S2). rewrite Es. cbn [bind]. rewrite flag_at, fileof_at by lia. cbn [bind].
    set (c2 := if negb (flag e) || negb (fileof e =? fileof c) then e - 1 else e).
    assert (c <= c2 < nhash /\ forall i, c <= i <= c2 -> flag i = true /\ fileof i = fileof c) as [Hc2 Hrun].
    { unfold c2. destruct (flag e) eqn:Fe; cbn [negb orb]; [destruct (Z.eqb_spec (fileof e) (fileof c)) as [Q|Q]; cbn [negb]|].
      - split; [lia|]. intros i Hi. destruct (Z.eq_dec i e) as [->|]; [now split | apply S1; lia].
      - assert (e <> c) by congruence. split; [lia|]. intros i Hi. apply S1. lia.
      - assert (e <> c) by congruence. split; [lia|]. intros i Hi. apply S1. lia. }
    destruct (chunk_ok c c2 ltac:(lia) ltac:(lia) Hrun) as (a & f & b & h1 & h2 & E & Fa & G1 & G2 & L1 & L2 & L3 & Hp). cbn zeta in *. set (last := h2 + zlen (nth (Z.to_nat c2) AC [])) in *.
    rewrite G1. cbn [bind]. rewrite G2. cbn [bind]. rewrite per_at by lia. cbn [bind]. fold last.
    assert (zlen (zslice (part f) h1 last) = last - h1) as Hs by (rewrite zlen_zslice by lia; lia).
    destruct (Z.ltb_spec 0 (last - (h1 + 1) + 1)) as [N|N].
    - replace h1 with (h1 + 1 - 1) in Hp at 1 by lia. destruct (read_chunk_ok a f b (h1 + 1) last c c2 E ltac:(lia) ltac:(lia) ltac:(lia) ltac:(lia) L3 Hp) as (content & Ec & R).
      assert (pref (c2 + 1) <> []) as Hne by (rewrite Hp; replace (h1 + 1 - 1) with h1 by lia; intro Q; apply app_eq_nil in Q; destruct Q as [_ Q]; rewrite Q in Hs; unfold zlen in Hs; cbn in Hs; lia).
      assert ((if iopen =? fileof c then Ok cur else do _ <- (if 0 <=? iopen then match cur with Some _ => Ok tt | None => Err EAbort end else Ok tt); do _ <- fget contents (fileof c); Ok (Some (fileof c))) = Ok (Some (fileof c))) as ->.
      { rewrite Fa, Ec. destruct (Z.eqb_spec iopen (zlen a)) as [Q|Q].
        - destruct Hcur as [(H & _)|(_ & -> & _)]; [pose proof (zlen_nonneg a); lia | now rewrite Q].
        - destruct Hcur as [(-> & -> & _)|(H & -> & _)]; [reflexivity|]. replace (0 <=? iopen) with true by lia. reflexivity. }
      cbn [bind]. rewrite Fa, Ec. cbn [bind]. rewrite R. cbn [bind]. specialize (IH (c2 + 1) (zlen a) (Some (zlen a)) ltac:(lia) ltac:(lia)).
      assert (1 + zlen (pref c) + (last - (h1 + 1) + 1) = 1 + zlen (pref (c2 + 1))) as -> by (rewrite Hp; replace (h1 + 1 - 1) with h1 by lia; rewrite zlen_app, Hs; lia).
      apply IH. right. split; [apply zlen_nonneg|]. now split.
    - assert (zslice (part f) h1 last = []) as Z0 by (apply zslice_empty; lia). rewrite Z0, app_nil_r in Hp. specialize (IH (c2 + 1) iopen cur ltac:(lia) ltac:(lia)). rewrite Hp in IH. apply IH. exact Hcur.
  Qed.
  Lemma region_ok : readregion little sw nhash contents hashmap junk =
    match pref nhash with [] => Err EAbort | sel => Ok (zlen sel, reg sel) end.
  Proof.
    unfold readregion. rewrite read_tables_ok. cbn [bind]. rewrite npercell_ok. cbn [bind]. rewrite count_part_ok. cbn [bind].
    pose proof nhash_len as HN. pose proof (zlen_nonneg AC). destruct (loop_ok (S (Z.to_nat nhash)) 0 (-1) None ltac:(lia) ltac:(lia)) as (cur & E & Hn); [left; split; [reflexivity | split; reflexivity]|].
    change (pref 0) with (@nil particle) in E. change (1 + zlen []) with 1 in E.
    assert (reg [] = (let a := repeat junk (Z.to_nat (zlen (pref nhash))) in {| r_x := a; r_y := a; r_z := a; r_vx := a; r_vy := a; r_vz := a; r_ids := a |})) as R0 by (unfold reg, zlen; cbn; now rewrite Nat2Z.id, Nat.sub_0_r).
    rewrite R0 in E. cbn zeta in E. rewrite E. cbn [bind]. destruct cur as [i|]; destruct (pref nhash) eqn:EP; try reflexivity.
    - destruct Hn as [_ Hn]. discriminate (Hn eq_refl).
    - destruct Hn as [Hn _]. discriminate (Hn eq_refl).
  Qed.
End Region.

(** *** the specification *)
Lemma pickf_picks flag l : forall from, picks (fun c => flag c = true) from l (pickf flag from l).
Proof.
  induction l as [|c l IH]; intro from; [constructor|]. cbn [pickf]. destruct (flag from) eqn:E; [apply picks_keep; [exact E | apply IH] | apply picks_drop; [congruence | apply IH]].
Qed.
Lemma picks_ext (P Q : Z -> Prop) : forall l from sel, (forall c, from <= c < from + zlen l -> (P c <-> Q c)) -> @picks (list Z) P from l sel -> picks Q from l sel.
Proof.
  intros l from sel H HP. induction HP as [n|n c cells sel Hw HP IH|n c cells sel Hw HP IH]; [constructor| |]; rewrite zlen_cons in H; pose proof (zlen_nonneg cells).
  - apply picks_keep; [apply H; [lia | exact Hw] | apply IH; intros; apply H; lia].
  - apply picks_drop; [rewrite <- H by lia; exact Hw | apply IH; intros; apply H; lia].
Qed.
Lemma pickf_files flag fs : forall from nhash, covers from nhash fs -> picks_files (fun c => flag c = true) fs (pickf flag from (cells_of fs)).
Proof.
  induction fs as [|f fs IH]; intros from nhash H; [constructor|]. destruct H as [H1 H2]. change (cells_of (f :: fs)) with (cf_cells f ++ cells_of fs). rewrite pickf_app. constructor; [rewrite H1; apply pickf_picks | eapply IH; exact H2].
Qed.
