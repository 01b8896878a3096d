(** Proofs about the functions which read the hash table (C85). *)
From Coq Require Import QArith.
From Coq Require Import Ascii String.
From Verif Require Import Base.Prelude Base.ListLemmas Binary.BinModel Formats.FileSpec Formats.CatSpec Formats.ReaderProofs Snap.ReadSpec.
From Verif Require Import Text.StrModel Text.PathSpec Peano.CPeanoModel Fortran.SortModel Fortran.RegionModel Fortran.RegionSpec Fortran.GroupTabSpec Fortran.RegionProofs.
From Verif Require Import Index.IndexModel Idl.LibModel Idl.LibSpec Idl.SnapSpec Idl.StdioProofs Idl.SnapProofs.
From Coq Require Import ZifyBool ZifyNat.
Local Open Scope Z_scope. Local Open Scope list_scope.
Notation cfile := (cellfile (list Z)).

Lemma zlen_map {A B} (g : A -> B) l : zlen (map g l) = zlen l.
Proof. unfold zlen. now rewrite map_length. Qed.
Lemma files_FT files : files_of_cells files = FT 0 files.
Proof.
  unfold files_of_cells, numbered. generalize 0. induction files as [|f l IH]; intro k; [reflexivity|]. cbn [List.length zseq combine map concat FT]. now rewrite IH.
Qed.
Lemma wr_next {B} (a : list B) (l : list B) v : zlen a < zlen l -> wr (a ++ skipn (List.length a) l) (zlen a) v = Ok ((a ++ [v]) ++ skipn (List.length (a ++ [v])) l).
Proof.
  intro H. unfold wr. rewrite zlen_app. assert (zlen (skipn (List.length a) l) = zlen l - zlen a) as E by (unfold zlen in *; rewrite skipn_length; lia).
  pose proof (zlen_nonneg a). replace ((0 <=? zlen a) && (zlen a <? zlen a + zlen (skipn (List.length a) l))) with true by lia. f_equal.
  rewrite app_length. cbn [List.length]. unfold zlen in *. rewrite Nat2Z.id. assert (exists x, skipn (List.length a) l = x :: skipn (List.length a + 1) l) as [x ->].
  { destruct (skipn (List.length a) l) as [|x r] eqn:ES; [cbn in E; lia|]. exists x. now rewrite <- skipn_skipn', ES. }
  clear. generalize (skipn (List.length a + 1) l). intro q. induction a as [|y a IH]; [reflexivity|]. cbn [app List.length set_nth Nat.add] in *. f_equal. exact IH.
Qed.
Lemma write_next {B} (a l v : list B) : zlen a + zlen v <= zlen l -> write_at (a ++ skipn (List.length a) l) (zlen a) v = (a ++ v) ++ skipn (List.length (a ++ v)) l.
Proof.
  intro H. assert (skipn (List.length a) l = firstn (List.length v) (skipn (List.length a) l) ++ skipn (List.length (a ++ v)) l) as E.
  { rewrite <- (firstn_skipn (List.length v) (skipn (List.length a) l)) at 1. f_equal. now rewrite skipn_skipn', app_length. }
  rewrite E at 1. rewrite write_after; [now rewrite app_assoc|]. unfold zlen in H. rewrite firstn_length, skipn_length. lia.
Qed.

Section Tables.
  Variables (little : bool) (fs : str -> option (list Z)) (dir base : str) (num n nhash box : Z) (files : list cfile).
  Hypothesis Hnum : 0 <= num.
  Hypothesis HF : snap_files little fs dir base num n nhash box files.
  Hypothesis Hn : zlen files <= n < 2 ^ 31.
  Hypothesis Hh : nhash < 2 ^ 31.
  Lemma open_snap i f : nth_error files i = Some f -> exists cat content, fopen fs (snap_name dir num base (Z.of_nat i)) = Some (content, 0) /\ particle_file little cat f content /\
    scalar cat "Header/NumFilesPerSnapshot" = n /\ scalar cat "Header/HashTabSize" = nhash /\ scalar cat "Header/BoxSize" = box.
  Proof. intro E. destruct (HF i f E) as (cat & content & H & H'). exists cat, content. split; [|exact H']. unfold snap_name. apply (fopen_name fs dir base num (Z.of_nat i) (Some content)); [exact Hnum | lia | exact H]. Qed.
  Lemma n_small : signed n = n.
  Proof. unfold signed. pose proof (zlen_nonneg files). destruct (Z.ltb_spec n (2 ^ 31)); lia. Qed.
  Lemma size_ok f rest nfiles : files = f :: rest -> get_hash_table_size little fs dir num base nfiles = Ok (n, signed nhash).
  Proof.
    intros E0. destruct (open_snap 0 f ltac:(now rewrite E0)) as (cat & content & E & (extra & P1 & P2 & P3 & P4 & P5 & P6 & P7 & P8 & P9 & P10) & S1 & S2 & S3). unfold get_hash_table_size. change 0 with (Z.of_nat 0) at 1. rewrite E.
    rewrite (snap_header_ok little cat extra content P1) by (rewrite ?P3, ?P7, ?P8; lia). cbn [bind snap_head num_files hashtabsize]. now rewrite S1, S2, n_small.
  Qed.
  (** the tables after some of the files *)
  Variable t : hash.
  Definition upto (a : list cfile) : hash :=
    {| Hashtable := HT a ++ skipn (List.length (HT a)) (Hashtable t); Filetable := FT 0 a ++ skipn (List.length (FT 0 a)) (Filetable t);
       LastHashCell := last_cells a ++ skipn (List.length (last_cells a)) (LastHashCell t); NInFiles := particle_counts a ++ skipn (List.length (particle_counts a)) (NInFiles t) |}.
  Hypothesis Hcov : covers 0 (zlen (cells_of files)) files.
  Hypothesis Hle : zlen (cells_of files) <= nhash.
  Hypothesis Hsome : Forall (fun f => cf_cells f <> [] \/ 0 < cf_first f < nhash) files.
  Hypothesis Hroom : zlen (cells_of files) <= zlen (Hashtable t) /\ zlen (cells_of files) <= zlen (Filetable t) /\ zlen files <= zlen (LastHashCell t) /\ zlen files <= zlen (NInFiles t).
  Lemma step a f b fuel ntask : files = a ++ f :: b -> zlen a < ntask -> hash_loop little fs dir num base (S fuel) (zlen a) ntask (upto a) = hash_loop little fs dir num base fuel (zlen (a ++ [f])) n (upto (a ++ [f])).
  Proof.
    intros E Ha. pose proof Hcov as HC. rewrite E in HC. apply covers_app in HC. destruct HC as [_ [HC _]].
    assert (nth_error files (List.length a) = Some f) as Ef by (rewrite E, nth_error_app2, Nat.sub_diag by lia; reflexivity).
    destruct (open_snap _ f Ef) as (cat & content & EO & (extra & P1 & P2 & P3 & P4 & P5 & P6 & P7 & P8 & P9 & P10) & S1 & S2 & S3).
    assert (12 * npart_of cat < 2 ^ 31) as B1 by (rewrite P3; exact P4). assert (4 * (scalar cat "last_hash_cell" - scalar cat "first_hash_cell" + 1) < 2 ^ 31) as B2 by (rewrite P7, P8; lia).
    assert (0 < zlen (cf_cells f) \/ 0 < cf_first f < nhash) as Hf. { rewrite Forall_forall in Hsome. destruct (Hsome f ltac:(eapply nth_error_In; exact Ef)) as [H|H]; [left | now right]. destruct (cf_cells f); [now destruct H | unfold zlen; cbn [List.length]; lia]. }
    pose proof (zlen_nonneg (cf_cells f)) as Zf.
    pose proof (zlen_nonneg (cells_of a)) as Z1. pose proof (zlen_nonneg a) as Z0.
    assert (zlen (cells_of files) = zlen (cells_of a) + (zlen (cf_cells f) + zlen (cells_of b))) as EL by (rewrite E, cells_app; change (cells_of (f :: b)) with (cf_cells f ++ cells_of b); now rewrite !zlen_app).
    pose proof (zlen_nonneg (cells_of b)) as Z2. assert (0 <= npart_of cat) as Np by (rewrite P3; apply zlen_nonneg).
    assert (zlen (HT a) = zlen (cells_of a)) as L1 by (unfold zlen; now rewrite HT_len). assert (zlen (FT 0 a) = zlen (cells_of a)) as L2 by (unfold zlen; now rewrite FT_len).
    assert (zlen files = zlen a + (1 + zlen b)) as EF by (rewrite E, zlen_app, zlen_cons; reflexivity). pose proof (zlen_nonneg b) as Z3.
    cbn [hash_loop]. replace (zlen a <? ntask) with true by lia. unfold zlen at 1. rewrite EO.
    rewrite (snap_header_ok little cat extra content P1 B1 B2). cbn [bind snap_head npart1 num_files hashtabsize]. rewrite (skip_pos little cat extra content P1 B1 B2). cbn [bind]. rewrite (skip_vel little cat extra content P1 B1 B2). cbn [bind]. rewrite (skip_ids little cat extra content P1 B1 B2). cbn [bind].
    set (N := npart_of cat) in *. set (M := scalar cat "last_hash_cell" - scalar cat "first_hash_cell" + 1) in *.
    assert (M = zlen (cf_cells f)) as EM by (unfold M; rewrite P7, P8; lia).
    rewrite (int_at little cat extra content P1 B1 B2 12 8 (288 + 32 * N) (292 + 32 * N)) by (reflexivity || (cbn [firstn]; unfold sumZ; cbn [fold_right]; fold N M; lia) || lia). cbn [bind].
    rewrite (int_at little cat extra content P1 B1 B2 13 (scalar cat "first_hash_cell") (292 + 32 * N) (296 + 32 * N)) by (reflexivity || (cbn [firstn]; unfold sumZ; cbn [fold_right]; fold N M; lia) || lia). cbn [bind].
    rewrite (int_at little cat extra content P1 B1 B2 14 (scalar cat "last_hash_cell") (296 + 32 * N) (300 + 32 * N)) by (reflexivity || (cbn [firstn]; unfold sumZ; cbn [fold_right]; fold N M; lia) || lia). cbn [bind].
    rewrite (int_at little cat extra content P1 B1 B2 15 8 (300 + 32 * N) (304 + 32 * N)) by (reflexivity || (cbn [firstn]; unfold sumZ; cbn [fold_right]; fold N M; lia) || lia). cbn [bind].
    cbn [upto LastHashCell NInFiles Hashtable Filetable].
    assert (zlen (last_cells a) = zlen a) as L3 by apply zlen_map. assert (zlen (particle_counts a) = zlen a) as L4 by apply zlen_map.
    rewrite <- L3 at 1. rewrite wr_next by lia. cbn [bind]. rewrite <- L4 at 1. rewrite wr_next by lia. cbn [bind].
    rewrite S2. assert (signed nhash = nhash) as -> by (unfold signed; destruct (Z.ltb_spec nhash (2 ^ 31)); lia).
    replace ((scalar cat "first_hash_cell" <? 0) || (nhash <=? scalar cat "first_hash_cell") || (scalar cat "last_hash_cell" <? 0) || (nhash <=? scalar cat "last_hash_cell")) with false by lia.
    rewrite (int_at little cat extra content P1 B1 B2 16 (4 * M) (304 + 32 * N) (308 + 32 * N)) by (reflexivity || (cbn [firstn]; unfold sumZ; cbn [fold_right]; fold N M; lia) || lia). cbn [bind].
    fold M. destruct (lens little cat extra content P1) as (_ & _ & _ & EB & _). fold M in EB. rewrite <- EB.
    rewrite (ints_at little cat extra content P1 B1 B2 17 (cat "blockid"%string) (308 + 32 * N)) by (reflexivity || (cbn [firstn]; unfold sumZ; cbn [fold_right]; fold N M; lia) || lia). cbn [bind].
    rewrite (int_at little cat extra content P1 B1 B2 18 (4 * M) (308 + 32 * N + 4 * zlen (cat "blockid"%string)) (312 + 32 * N + 4 * M)) by (reflexivity || (cbn [firstn]; unfold sumZ; cbn [fold_right]; fold N M; lia) || lia). cbn [bind].
    assert (map signed (cat "blockid"%string) = starts 0 (cf_cells f)) as ->.
    { rewrite P9. rewrite <- (map_id (starts 0 (cf_cells f))) at 2. apply map_ext_in. intros v Hv. pose proof (starts_bound (cf_cells f) 0) as SB. rewrite Forall_forall in SB. specialize (SB v Hv). unfold signed. destruct (Z.ltb_spec v (2 ^ 31)); lia. }
    assert (scalar cat "first_hash_cell" = zlen (cells_of a)) as EF1 by (rewrite P7; exact HC).
    assert (zlen (starts 0 (cf_cells f)) = zlen (cf_cells f)) as LS by (unfold zlen; now rewrite starts_len).
    destruct Hroom as (R1 & R2 & R3 & R4).
    rewrite EF1. rewrite wr_range_ok by (rewrite ?zlen_app, ?LS; unfold zlen in *; rewrite ?app_length, ?skipn_length, ?HT_len; lia). cbn [bind].
    assert (zlen (repeat (zlen a) (Z.to_nat (zlen (cat "blockid"%string)))) = zlen (cf_cells f)) as LR by (unfold zlen at 1; rewrite repeat_length; rewrite EB; unfold zlen in *; lia).
    rewrite wr_range_ok by (rewrite ?zlen_app, ?LR; unfold zlen in *; rewrite ?app_length, ?skipn_length, ?FT_len; lia). cbn [bind].
    rewrite <- L1 at 1. rewrite write_next by (rewrite LS; lia). rewrite <- L2 at 1. rewrite write_next by (rewrite LR; lia).
    rewrite S1, n_small, zlen_app. change (zlen [f]) with 1. f_equal. unfold upto.
    rewrite HT_app, FT_app. unfold last_cells, particle_counts. rewrite !map_app. cbn [map]. rewrite P8, P3.
    assert (HT [f] = starts 0 (cf_cells f)) as -> by (unfold HT; cbn [map concat]; apply app_nil_r).
    assert (FT (0 + zlen a) [f] = repeat (zlen a) (Z.to_nat (zlen (cat "blockid"%string)))) as ->; [|reflexivity].
    cbn [FT]. rewrite app_nil_r, Z.add_0_l. f_equal. rewrite EB, EM. unfold zlen. lia.
  Qed.
  Lemma steps b : forall a fuel ntask, files = a ++ b -> (b <> [] -> zlen a < ntask) -> (b = [] -> ntask = n) -> (List.length b < fuel)%nat ->
    hash_loop little fs dir num base fuel (zlen a) ntask (upto a) = hash_loop little fs dir num base (fuel - List.length b) (zlen files) n (upto files).
  Proof.
    induction b as [|f b IH]; intros a fuel ntask E H1 H2 Hf.
    - rewrite app_nil_r in E. rewrite E, H2 by reflexivity. cbn [List.length]. now rewrite Nat.sub_0_r.
    - destruct fuel as [|fuel]; [lia|]. cbn [List.length] in Hf. rewrite (step a f b fuel ntask E) by (apply H1; discriminate). cbn [List.length Nat.sub]. apply IH.
      + rewrite E, <- app_assoc. reflexivity.
      + intro Hb. rewrite E in Hn. rewrite zlen_app, zlen_cons in *. destruct b; [now destruct Hb|]. rewrite zlen_cons in Hn. pose proof (zlen_nonneg b). change (zlen (@nil cfile)) with 0 in *. lia.
      + reflexivity.
      + lia.
  Qed.
  Lemma table_end fuel : files <> [] -> zlen files = n -> (List.length files < fuel)%nat -> get_hash_table little fs dir num base fuel t = Ok (0, upto files).
  Proof.
    intros Hne En Hf. unfold get_hash_table. assert (upto [] = t) as E0 by (unfold upto; cbn; now destruct t). rewrite <- E0 at 1. change 0 with (zlen (@nil cfile)) at 1. rewrite (steps files [] fuel 1) by (reflexivity || (intros; unfold zlen; cbn; lia) || contradiction || assumption).
    destruct (fuel - List.length files)%nat eqn:E; [lia|]. cbn [hash_loop]. rewrite En, Z.ltb_irrefl. reflexivity.
  Qed.
  Lemma table_missing fuel : files <> [] -> zlen files < n -> (List.length files < fuel)%nat -> file_is fs dir base num (zlen files) None -> get_hash_table little fs dir num base fuel t = Ok (-1, upto files).
  Proof.
    intros Hne En Hf HM. unfold get_hash_table. assert (upto [] = t) as E0 by (unfold upto; cbn; now destruct t). rewrite <- E0 at 1. change 0 with (zlen (@nil cfile)) at 1. rewrite (steps files [] fuel 1) by (reflexivity || (intros; unfold zlen; cbn; lia) || contradiction || assumption).
    destruct (fuel - List.length files)%nat eqn:E; [lia|]. cbn [hash_loop]. replace (zlen files <? n) with true by lia. pose proof (fopen_name fs dir base num (zlen files) None Hnum (zlen_nonneg files) HM) as HO. cbn zeta in HO. unfold snap_name. rewrite HO. reflexivity.
  Qed.
End Tables.
