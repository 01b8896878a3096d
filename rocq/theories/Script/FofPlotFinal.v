(** plot_fof_group.py: proofs for C97. *)
From Coq Require Import Ascii String.
From Verif Require Import Base.Prelude Base.ListLemmas Base.Order Base.NdArray Binary.BinModel Formats.ReaderModel Formats.FileSpec Formats.CatSpec Formats.CatFinal.
From Verif Require Import Multi.GroupCatModel Psort.UniqueModel Psort.UniqueProofs Psort.FetchProofs Util.UMatchModel Util.UMatchProofs Snap.ReadModel Snap.ReadSpec Snap.CellsProofs Snap.MillModel Snap.MillSpec Snap.MillFinal Fortran.FofSpec.
From Verif Require Import Script.FofPlotModel Script.FofPlotSpec.
From Coq Require Import ZifyBool ZifyNat.
Local Open Scope Z_scope.
Local Open Scope list_scope.

(** *** bits *)
Lemma left_right v n : 0 <= v -> 0 <= n <= 64 -> Z.shiftr (left64 v n) n = v mod 2 ^ (64 - n).
Proof.
  intros Hv Hn. unfold left64. rewrite Z.shiftl_mul_pow2, Z.shiftr_div_pow2 by lia. replace (2 ^ 64) with (2 ^ (64 - n) * 2 ^ n) by (rewrite <- Z.pow_add_r by lia; f_equal; lia).
  rewrite Z.mul_mod_distr_r by (pose proof (Z.pow_pos_nonneg 2 n); pose proof (Z.pow_pos_nonneg 2 (64 - n)); lia). apply Z.div_mul. pose proof (Z.pow_pos_nonneg 2 n). lia.
Qed.
Lemma id_part_ok v : 0 <= v -> id_part v = plain_id v.
Proof. intro H. unfold id_part. now rewrite left_right by lia. Qed.
Lemma key_part_ok v : 0 <= v < 2 ^ 64 -> key_part v = hash_key v.
Proof. intro H. unfold key_part, hash_key. rewrite Z.shiftr_div_pow2 by lia. now rewrite Z.mod_small by lia. Qed.
Lemma check_units_bits v : 0 <= v -> check_units_id v = v mod 2 ^ 30.
Proof. intro H. unfold check_units_id. now rewrite left_right by lia. Qed.
Lemma check_units_right v : 0 <= v -> (check_units_id v = plain_id v <-> plain_id v < 2 ^ 30).
Proof.
  intro H. rewrite check_units_bits by exact H. unfold plain_id. pose proof (Z.mod_pos_bound v (2 ^ 30) ltac:(lia)). split; [lia|]. intro L.
  assert (v mod 2 ^ 30 = (v mod 2 ^ 34) mod 2 ^ 30) as ->.
  { change (2 ^ 34) with (2 ^ 30 * 2 ^ 4). rewrite Z.rem_mul_r by lia. rewrite Z.mul_comm, Z.mod_add by lia. now rewrite Z.mod_mod by lia. }
  pose proof (Z.mod_pos_bound v (2 ^ 34) ltac:(lia)). apply Z.mod_small. lia.
Qed.

(** *** unique keys *)
Lemma unique_In (l : list Z) x : In x (map fst (np_unique ZOrd l)) <-> In x l.
Proof.
  unfold np_unique. destruct (rle_spec ZOrd (sort_by ZOrd (fun x => x) l)) as [_ H]; [apply (sort_id_sorted ZOrd)|].
  rewrite in_map_iff. split.
  - intros ([y n] & <- & Hy). apply H in Hy. cbn [fst]. eapply Permutation_in; [apply (sort_by_perm ZOrd) | apply Hy].
  - intro Hx. exists (x, count_eq ZOrd x (sort_by ZOrd (fun x => x) l)). split; [reflexivity|]. apply H. split; [|reflexivity].
    eapply Permutation_in; [symmetry; apply (sort_by_perm ZOrd) | exact Hx].
Qed.

(** *** columns of a file *)
Lemma file_opens little f p nf l cat : reads p nf l -> is_file f nf l cat ->
  exists c o, open_as little f p = Ok (c, o) /\ forall fd, In fd l -> array_of little c o (fd_name fd) = Ok {| shape := map Z.to_nat (map (extent cat) (fd_dims fd)); data := cat (fd_name fd) |}.
Proof.
  intros R (lf & extra & -> & C & N). destruct (catalogue_opens p nf l cat little lf extra R C N) as (o & E & B & _). exists (file_bytes lf (pieces_of cat l) ++ extra), o. unfold open_as. rewrite E. split; [reflexivity|].
  intros fd Hfd. destruct B as (B & _). assert (In (data_of cat fd) (pieces_of cat l)) as Hin by now apply in_map. destruct (B _ _ _ _ Hin) as (id & at_ & b & items & E1 & E2 & E3 & _ & E4 & E5).
  unfold array_of, lookup_array. change (nm (fd_name fd)) with (list_ascii_of_string (fd_name fd)). rewrite E1, E2, E4. cbn [bind]. now rewrite E3, E5.
Qed.
Lemma column_ok cat l fd : consistent cat l -> In fd l -> zlen (cat (fd_name fd)) = fold_left Z.mul (map (extent cat) (fd_dims fd)) 1 /\ Forall (fun v => 0 <= v < 256 ^ fd_size fd) (cat (fd_name fd)).
Proof.
  intros (H & _) Hin. rewrite Forall_forall in H. assert (In (data_of cat fd) (pieces_of cat l)) as Q by now apply in_map. destruct (H _ Q) as (_ & _ & H1 & H2). now split.
Qed.

Lemma py_nth_ok {A} (l : list A) i x : 0 <= i -> nth_error l (Z.to_nat i) = Some x -> py_nth l i = Ok x.
Proof.
  intros Hi E. unfold py_nth. replace (i <? 0) with false by lia. assert (Z.to_nat i < List.length l)%nat by (apply nth_error_Some; congruence). replace ((i <? 0) || (zlen l <=? i)) with false by (unfold zlen; lia). now rewrite E.
Qed.

Section Plot.
  Variables (little : bool) (files : Z -> option (list Z)) (group_tab sub_ids : option (list Z)) (np_argsort : list Z -> list Z).
  Variables (tab ids : catalogue) (fs : list (cellfile (list Z))) (nhash boxsize ifof : Z) (gids : list Z).
  Hypothesis Htab : is_file group_tab "NTask" L2_group_tab tab.
  Hypothesis Hids : is_file sub_ids "NFiles" (L2_sub_ids 8) ids.
  Hypothesis Hs : is_snapshot files fs nhash boxsize.
  Hypothesis Hsort : forall l, is_argsort ZOrd l (np_argsort l).
  Hypothesis Hg : group_ids tab ids ifof gids.
  Let keys := map fst (np_unique ZOrd (map hash_key gids)).
  Let plot := plot_fof_group little files group_tab sub_ids np_argsort ifof.

  Lemma gids_range g : In g gids -> 0 <= g < 2 ^ 64.
  Proof using All.
    intro H. destruct Hg as (o & l & _ & _ & _ & _ & ->). apply zslice_In in H. destruct Hids as (? & ? & _ & C & _). destruct (column_ok ids _ (col "Nids" "GroupIDs" 8) C) as (_ & R); [cbn; tauto|].
    rewrite Forall_forall in R. apply R in H. exact H.
  Qed.
  Lemma In_keys k : In k keys <-> exists g, In g gids /\ hash_key g = k.
  Proof using. unfold keys. rewrite unique_In, in_map_iff. split; intros (g & H1 & H2); exists g; now split. Qed.
  Lemma keys_nonneg k : In k keys -> 0 <= k.
  Proof using All. intro H. apply In_keys in H. destruct H as (g & H & <-). unfold hash_key. pose proof (Z.mod_pos_bound g (2 ^ 64) ltac:(lia)). apply Z.div_pos; lia. Qed.

  (** the program from line 41 onwards *)
  Lemma plot_start : exists bits, let s := {| s_nhash := nhash; s_boxsize := boxsize; s_nfiles := zlen fs; s_ncell := 2 ^ bits; s_bits := bits |} in
    plot = (do (snap_pos, snap_vel, snap_ids) <- snd (snap_read_cells little files s (after little files true 0 s []) keys);
            let snap_ids := map (fun r => nth 0 r 0) snap_ids in
            do ptr <- match_ ZOrd (np_argsort snap_ids) false None (map plain_id gids) snap_ids;
            do _ <- check (negb (existsb (fun p => p <? 0) ptr)) ERuntime;
            do found <- np_take snap_ids ptr;
            do _ <- check (forallb (fun x => fst x =? snd x) (combine (map plain_id gids) found)) ERuntime;
            do pos <- np_take snap_pos ptr; do vel <- np_take snap_vel ptr; Ok (pos, vel)).
  Proof using All.
    destruct (init_ok little files fs nhash boxsize Hs) as (bits & E & _). exists bits. cbv zeta. unfold plot, plot_fof_group.
    destruct (file_opens little group_tab _ _ _ tab r_L2_group_tab Htab) as (c1 & o1 & E1 & A1). rewrite E1. cbn [bind].
    pose proof (A1 (col "Ngroups" "GroupLen" 4)) as L1. pose proof (A1 (col "Ngroups" "GroupOffset" 4)) as L2. cbn [fd_name col] in L1, L2. rewrite L1, L2 by (cbn; tauto). cbn [bind data].
    destruct (file_opens little sub_ids _ _ _ ids (r_L2_sub_ids 8 (or_intror eq_refl)) Hids) as (c2 & o2 & E2 & A2). rewrite E2. cbn [bind].
    pose proof gids_range as GR. destruct Hg as (o & l & Hi & Ho & Hl & Hr & Eg).
    destruct Htab as (? & ? & _ & C & _). destruct Hids as (? & ? & _ & C2 & _).
    destruct (column_ok tab _ (col "Ngroups" "GroupOffset" 4) C) as (_ & R1); [cbn; tauto|]. destruct (column_ok tab _ (col "Ngroups" "GroupLen" 4) C) as (_ & R2); [cbn; tauto|]. cbn [fd_name col] in R1, R2.
    rewrite Forall_forall in R1, R2. specialize (R1 o (nth_error_In _ _ Ho)). specialize (R2 l (nth_error_In _ _ Hl)).
    destruct (column_ok ids _ (col "Nids" "GroupIDs" 8) C2) as (LN & _); [cbn; tauto|]. cbn [fd_name col fd_dims map fold_left extent] in LN. rewrite Z.mul_1_l in LN.
    assert (scalar ids "Nids" < 2 ^ 31) as LB.
    { destruct C2 as (_ & C2). rewrite Forall_forall in C2. specialize (C2 (col "Nids" "GroupIDs" 8) ltac:(cbn; tauto)). apply Forall_cons_iff in C2. apply C2. }
    rewrite (py_nth_ok _ ifof o), (py_nth_ok _ ifof l).
    2,4: exact Hi.
    2,3: rewrite nth_error_map, ?Ho, ?Hl; cbn [option_map]; f_equal; unfold signed32; match goal with |- context [2 ^ 31 <=? ?v] => destruct (Z.leb_spec (2 ^ 31) v) as [Q|Q]; [exfalso; lia | reflexivity] end.
    cbn [bind]. pose proof (A2 (col "Nids" "GroupIDs" 8)) as L3. cbn [fd_name col] in L3. rewrite L3 by (cbn; tauto). cbn [bind data].
    assert (pyslice (ids "GroupIDs"%string) o (add32 o l) = gids) as ->.
    { rewrite Eg. unfold pyslice, pyidx, add32. rewrite Z.mod_small by lia. replace (o + l + 2 ^ 31 - 2 ^ 31) with (o + l) by lia. replace (o <? 0) with false by lia. replace (o + l <? 0) with false by lia. now rewrite !Z.min_l by lia. }
    assert (map key_part gids = map hash_key gids) as -> by (apply map_ext_in; intros g Hin; apply key_part_ok; now apply GR).
    assert (map id_part gids = map plain_id gids) as -> by (apply map_ext_in; intros g Hin; apply id_part_ok; specialize (GR g Hin); lia).
    rewrite E. cbn [bind]. reflexivity.
  Qed.

  Lemma keys_in : (forall g, In g gids -> hash_key g < nhash) -> Forall (fun k => - nhash <= k < nhash) keys.
  Proof using All. intro H. apply Forall_forall. intros k Hk. pose proof (keys_nonneg k Hk). apply In_keys in Hk. destruct Hk as (g & Hin & <-). specialize (H g Hin). destruct Hs as (_ & _ & Q & _). lia. Qed.
  (** what has been read *)
  Lemma sel_In sel : picks_files (wanted nhash keys) fs sel -> (forall g, In g gids -> hash_key g < nhash) -> forall p, In p sel <-> exists g, In g gids /\ in_cell fs (hash_key g) p.
  Proof using All.
    intros P H p. rewrite (picks_files_In _ _ _ P). destruct Hs as (_ & _ & Hn & Hf & _). rewrite Forall_forall in Hf. split.
    - intros (f & k & c & H1 & H2 & [H3|H3] & H4).
      + apply In_keys in H3. destruct H3 as (g & G & E). exists g. split; [exact G|]. exists f, k, c. rewrite E. auto.
      + pose proof (keys_nonneg _ H3). destruct (Hf f H1) as (Q1 & Q2 & _). assert (k < List.length (cf_cells f))%nat by (apply nth_error_Some; congruence). unfold zlen in Q2. lia.
    - intros (g & G & f & k & c & H1 & H2 & H3 & H4). exists f, k, c. split; [exact H1|]. split; [exact H2|]. split; [|exact H4]. left. rewrite H3. apply In_keys. now exists g.
  Qed.
  Lemma keys_out g : In g gids -> nhash <= hash_key g -> ~ Forall (fun k => - nhash <= k < nhash) keys.
  Proof using. intros H1 H2 F. rewrite Forall_forall in F. specialize (F (hash_key g)). assert (In (hash_key g) keys) by (apply In_keys; now exists g). specialize (F H). exact (Z.lt_irrefl _ (Z.lt_le_trans _ _ _ (proj2 F) H2)). Qed.

  (** nothing in any of the files for the keys *)
  Lemma plot_bad_key g : In g gids -> nhash <= hash_key g -> plot = Err EIndex.
  Proof using All.
    intros H1 H2. destruct plot_start as (bits & E). cbv zeta in E. rewrite E. rewrite (mill_bad little files fs nhash boxsize Hs bits true 0 [] keys (keys_out g H1 H2)). reflexivity.
  Qed.
  Lemma plot_empty : gids = [] -> plot = Err EValue.
  Proof using All.
    intro H. destruct plot_start as (bits & E). cbv zeta in E. rewrite E. rewrite (mill_none little files fs nhash boxsize Hs bits true 0 [] keys); [reflexivity| |].
    - apply keys_in. intros g Hin. rewrite H in Hin. destruct Hin.
    - intros (f & n & _ & _ & [Q|Q]); apply In_keys in Q; destruct Q as (g & Q & _); rewrite H in Q; destruct Q.
  Qed.

  Lemma take_map {A B} (f : A -> B) (l : list A) idx xs : Forall2 (fun i x => 0 <= i /\ nth_error l (Z.to_nat i) = Some x) idx xs -> np_take (map f l) idx = Ok (map f xs).
  Proof using.
    induction 1 as [|i x idx xs [H1 H2] _ IH]; [reflexivity|]. unfold np_take in *. cbn [mapM map]. rewrite (py_nth_ok _ i (f x)); [|exact H1 | now rewrite nth_error_map, H2]. cbn [bind]. rewrite IH. reflexivity.
  Qed.
  (** every id has a particle *)
  Lemma plot_ok : gids <> [] -> (forall g, In g gids -> hash_key g < nhash) -> (forall g, In g gids -> exists p, in_cell fs (hash_key g) p /\ id_of p = plain_id g) ->
    exists chosen, chooses fs gids chosen /\ plot = Ok (map (fun p => fst (fst p)) chosen, map (fun p => snd (fst p)) chosen).
  Proof using All.
    intros Hne Hk Hp. destruct plot_start as (bits & E). cbv zeta in E.
    destruct (mill_cells little files fs nhash boxsize Hs bits true 0 [] keys (keys_in Hk)) as (sel & P & R).
    { assert (exists g, In g gids) as (g & G). { clear - Hne. destruct gids as [|g gs]; [congruence|]. exists g. now left. } destruct (Hp g G) as (p & (f & k & c & H1 & H2 & H3 & H4) & _).
      exists f, (cf_first f + Z.of_nat k). split; [exact H1|]. split; [assert (k < List.length (cf_cells f))%nat by (apply nth_error_Some; congruence); unfold zlen; lia|]. left. rewrite H3. apply In_keys. now exists g. }
    cbv zeta in R. rewrite E, R. cbn [bind]. clear E R. pose proof (sel_In sel P Hk) as Hsel.
    assert (map (fun r => nth 0 r 0) (map snd sel) = map id_of sel) as -> by (rewrite map_map; reflexivity).
    destruct (match_main ZOrd (np_argsort (map id_of sel)) false None (map plain_id gids) (map id_of sel) (Hsort _)) as (ptr & E & F). rewrite E. cbn [bind]. clear E.
    assert (exists chosen, Forall2 (fun i x => 0 <= i /\ nth_error sel (Z.to_nat i) = Some x) ptr chosen /\ map id_of chosen = map plain_id gids) as (chosen & C1 & C2).
    { assert (forall g, In g gids -> In (plain_id g) (map id_of sel)) as Hin.
      { intros g G. destruct (Hp g G) as (p & H1 & H2). apply in_map_iff. exists p. split; [exact H2|]. apply Hsel. now exists g. }
      clear - F Hin. revert ptr F. induction gids as [|g gs IH]; intros ptr F; cbn [map] in F; inversion F as [|? j ? ptr' F1 F2 E1 E2]; subst; [exists []; split; [constructor | reflexivity]|].
      destruct (IH (fun g' G' => Hin g' (or_intror G')) ptr' F2) as (ch & C1 & C2).
      destruct F1 as [[_ F1]|[F1 F1']]; [exfalso; apply F1; apply Hin; now left|]. rewrite nth_error_map in F1'. destruct (nth_error sel (Z.to_nat j)) as [p|] eqn:Ep; [|discriminate]. cbn [option_map] in F1'. injection F1' as F1'.
      exists (p :: ch). split; [constructor; [now split | exact C1]|]. cbn [map]. now rewrite F1', C2. }
    assert (existsb (fun p => p <? 0) ptr = false) as ->.
    { clear - C1. induction C1 as [|i x ptr ch [H _] _ IH]; [reflexivity|]. cbn [existsb]. rewrite IH. replace (i <? 0) with false by lia. reflexivity. }
    cbn [negb check bind]. rewrite (take_map id_of sel ptr chosen C1). cbn [bind]. rewrite C2.
    assert (forallb (fun x : Z * Z => fst x =? snd x) (combine (map plain_id gids) (map plain_id gids)) = true) as ->.
    { clear. induction (map plain_id gids) as [|x l IH]; [reflexivity|]. cbn [combine forallb fst snd]. now rewrite Z.eqb_refl, IH. }
    cbn [check bind]. rewrite !(take_map _ sel ptr chosen C1). cbn [bind]. exists chosen. split; [|reflexivity]. unfold chooses.
    assert (forall p, In p chosen -> In p sel) as Hcs. { clear - C1. induction C1 as [|i x ptr ch [_ H] _ IH]; intros p Q; [destruct Q|]. destruct Q as [<-|Q]; [eapply nth_error_In; exact H | now apply IH]. }
    assert (List.length chosen = List.length gids) as EL by (rewrite <- (map_length id_of), <- (map_length plain_id gids); now rewrite C2).
    assert (forall p, In p chosen -> exists g, In g gids /\ in_cell fs (hash_key g) p) as Hch by (intros p Q; apply Hsel; now apply Hcs). clear - C2 Hch.
    assert (forall gs ch, map id_of ch = map plain_id gs -> (forall p, In p ch -> exists g, In g gids /\ in_cell fs (hash_key g) p) -> Forall2 (fun gid p => id_of p = plain_id gid /\ exists gid', In gid' gids /\ in_cell fs (hash_key gid') p) gs ch) as K.
    { induction gs as [|g gs IH]; intros [|p ch] E Q; try discriminate; constructor; cbn [map] in E; injection E as E1 E2; [split; [exact E1 | apply Q; now left] | apply IH; [exact E2 | intros q Hq; apply Q; now right]]. }
    now apply K.
  Qed.
  (** an id without particle *)
  Lemma plot_missing g : (forall g, In g gids -> hash_key g < nhash) -> (exists p g', In g' gids /\ in_cell fs (hash_key g') p) -> In g gids ->
    (forall p, (exists g', In g' gids /\ in_cell fs (hash_key g') p) -> id_of p <> plain_id g) -> plot = Err ERuntime.
  Proof using All.
    intros Hk (p0 & g0 & G0 & Hp0) Hin Hno. destruct plot_start as (bits & E). cbv zeta in E.
    destruct (mill_cells little files fs nhash boxsize Hs bits true 0 [] keys (keys_in Hk)) as (sel & P & R).
    { destruct Hp0 as (f & k & c & H1 & H2 & H3 & H4). exists f, (cf_first f + Z.of_nat k). split; [exact H1|]. split; [assert (k < List.length (cf_cells f))%nat by (apply nth_error_Some; congruence); unfold zlen; lia|]. left. rewrite H3. apply In_keys. now exists g0. }
    cbv zeta in R. rewrite E, R. cbn [bind]. clear E R. pose proof (sel_In sel P Hk) as Hsel.
    assert (map (fun r => nth 0 r 0) (map snd sel) = map id_of sel) as -> by (rewrite map_map; reflexivity).
    destruct (match_main ZOrd (np_argsort (map id_of sel)) false None (map plain_id gids) (map id_of sel) (Hsort _)) as (ptr & E & F). rewrite E. cbn [bind]. clear E.
    assert (existsb (fun p => p <? 0) ptr = true) as ->; [|reflexivity].
    assert (~ In (plain_id g) (map id_of sel)) as Hn. { intro Q. apply in_map_iff in Q. destruct Q as (p & Q1 & Q2). apply (Hno p); [now apply Hsel | exact Q1]. }
    clear - F Hin Hn. revert ptr F Hin. induction gids as [|g' gs IH]; intros ptr F Hin; [destruct Hin|]. cbn [map] in F. inversion F as [|? j ? ptr' F1 F2 E1 E2]; subst. cbn [existsb].
    destruct Hin as [->|Hin]; [|rewrite (IH ptr' F2 Hin); apply orb_true_r]. destruct F1 as [[-> _]|[_ F1]]; [reflexivity|]. exfalso. apply Hn. eapply nth_error_In. exact F1.
  Qed.
  (** with unique ids the particles are those of the cells of their keys *)
  Lemma plot_unique members : gids <> [] -> (forall g, In g gids -> hash_key g < nhash) -> Forall2 (fun g p => in_cell fs (hash_key g) p /\ id_of p = plain_id g) gids members ->
    (forall h h' p q, in_cell fs h p -> in_cell fs h' q -> id_of p = id_of q -> p = q) -> plot = Ok (map (fun p => fst (fst p)) members, map (fun p => snd (fst p)) members).
  Proof using All.
    intros Hne Hk Hm Hu. destruct plot_ok as (chosen & C & E); [exact Hne | exact Hk | |].
    - intros g G. clear - Hm G. induction Hm as [|g' p gs ms H _ IH]; [destruct G|]. destruct G as [->|G]; [now exists p | now apply IH].
    - rewrite E. enough (chosen = members) as -> by reflexivity. unfold chooses in C. clear - C Hm Hu.
      assert (forall gs ms ch, Forall2 (fun g p => in_cell fs (hash_key g) p /\ id_of p = plain_id g) gs ms -> Forall2 (fun gid p => id_of p = plain_id gid /\ exists gid', In gid' gids /\ in_cell fs (hash_key gid') p) gs ch -> ch = ms) as K.
      { intros gs ms ch H. revert ch. induction H as [|g p gs ms [H1 H2] _ IH]; intros ch Q; inversion Q as [|? q ? ch' [Q1 (g' & _ & Q2)] Q3]; subst; [reflexivity|]. f_equal; [apply (Hu _ _ _ _ Q2 H1); congruence | now apply IH]. }
      now apply (K gids).
  Qed.
End Plot.
