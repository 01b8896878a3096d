(** Final forms of C67 and C68. *)
From Coq Require Import Ascii String.
From Verif Require Import Base.Prelude Base.ListLemmas Formats.FileSpec Formats.CatSpec Snap.ReadModel Snap.ReadSpec Snap.CellsProofs Snap.ReadFinal.
From Verif Require Import Fortran.RegionModel Fortran.RegionSpec Fortran.ReadPartProofs Fortran.RegionProofs.
From Coq Require Import ZifyBool ZifyNat.
Local Open Scope Z_scope.

Lemma coords_final little lf cat extra content : snapshot_file lf cat extra content -> forall ifirst ilast, 1 <= ifirst <= ilast -> ilast <= npart_of cat -> 256 + 12 * npart_of cat < 2 ^ 31 ->
  readpartcoords little (negb (Bool.eqb lf little)) content ifirst ilast =
  Ok (let c k := column (cat "PartType1/Coordinates"%string) k (ifirst - 1) (ilast - ifirst + 1) in (c 0, c 1, c 2)).
Proof. intros [Hok ->] ifirst ilast H1 H2 H3. unfold npart_of in *. apply coords_ok; try assumption; lia. Qed.
Lemma velocities_final little lf cat extra content : snapshot_file lf cat extra content -> forall ifirst ilast, 1 <= ifirst <= ilast -> ilast <= npart_of cat -> 264 + 24 * npart_of cat < 2 ^ 31 ->
  readpartvel little (negb (Bool.eqb lf little)) content ifirst ilast =
  Ok (let c k := column (cat "PartType1/Velocities"%string) k (ifirst - 1) (ilast - ifirst + 1) in (c 0, c 1, c 2)).
Proof. intros [Hok ->] ifirst ilast H1 H2 H3. unfold npart_of in *. apply velocities_ok; try assumption; lia. Qed.
Lemma ids_final little lf cat extra content : snapshot_file lf cat extra content -> forall ifirst ilast, 1 <= ifirst <= ilast -> ilast <= npart_of cat -> 276 + 32 * npart_of cat < 2 ^ 31 ->
  readpartids little (negb (Bool.eqb lf little)) content ifirst ilast = Ok (map signed64 (zslice (cat "PartType1/ParticleIDs"%string) (ifirst - 1) ilast)).
Proof. intros [Hok ->] ifirst ilast H1 H2 H3. unfold npart_of in *. apply idlist_ok; try assumption; lia. Qed.
Lemma hash_final little lf cat extra content : snapshot_file lf cat extra content -> 292 + 32 * npart_of cat < 2 ^ 31 ->
  scalar cat "first_hash_cell" < 2 ^ 31 -> scalar cat "last_hash_cell" < 2 ^ 31 - 1 -> Forall (fun v => v < 2 ^ 31) (cat "blockid"%string) ->
  readhash little (negb (Bool.eqb lf little)) content = Ok (scalar cat "first_hash_cell", scalar cat "last_hash_cell", cat "blockid"%string, npart_of cat).
Proof. intros [Hok ->] H1 H2 H3 H4. unfold npart_of in *. now apply readhash_ok. Qed.
Lemma large_final little lf cat extra content : snapshot_file lf cat extra content -> npart_of cat < 2 ^ 31 -> 2 ^ 31 <= 292 + 32 * npart_of cat ->
  readhash little (negb (Bool.eqb lf little)) content = Err EAbort.
Proof. intros [Hok ->] H1 H2. unfold npart_of in *. now apply readhash_large. Qed.

Definition region_of (sel : list (list Z * list Z * list Z)) : region :=
  {| r_x := pos_of 0 sel; r_y := pos_of 1 sel; r_z := pos_of 2 sel; r_vx := vel_of 0 sel; r_vy := vel_of 1 sel; r_vz := vel_of 2 sel; r_ids := ids_of sel |}.
Lemma picks_files_ext (P Q : Z -> Prop) fs sel : (forall c, P c <-> Q c) -> @picks_files (list Z) P fs sel -> picks_files Q fs sel.
Proof. intros H HP. induction HP as [|f fs s sel H1 H2 IH]; constructor; [eapply picks_ext; [|exact H1]; intros; apply H | exact IH]. Qed.
Lemma region_final little lf nhash fs contents hashmap junk : Forall2 (hash_file lf) fs contents -> covers 0 nhash fs -> zlen hashmap = nhash ->
  exists sel, picks_files (flagged hashmap) fs sel /\
    (sel <> [] -> readregion little (negb (Bool.eqb lf little)) nhash contents hashmap junk = Ok (zlen sel, region_of sel)) /\
    (sel = [] -> readregion little (negb (Bool.eqb lf little)) nhash contents hashmap junk = Err EAbort).
Proof.
  intros Hf Hc Hm. exists (pickf (flag hashmap) 0 (cells_of fs)). split.
  - eapply picks_files_ext; [|eapply pickf_files; exact Hc]. intro c. unfold flag, flagged. destruct (nth_error hashmap (Z.to_nat c)) as [v|] eqn:E; [rewrite (nth_error_nth _ _ _ E); split; congruence|].
    rewrite nth_overflow by (now apply nth_error_None). split; discriminate.
  - pose proof (region_ok little lf nhash fs contents Hf Hc hashmap Hm junk) as R. cbn zeta in R. rewrite R.
    assert (pref fs hashmap nhash = pickf (flag hashmap) 0 (cells_of fs)) as EP by (unfold pref; rewrite firstn_all2; [reflexivity | apply covers_len in Hc; unfold zlen in Hc; lia]).
    assert (reg nhash fs hashmap junk (pref fs hashmap nhash) = region_of (pref fs hashmap nhash)) as ER by (unfold reg, region_of; rewrite Nat.sub_diag; cbn [repeat]; now rewrite !app_nil_r).
    rewrite <- EP. destruct (pref fs hashmap nhash) as [|p s]; split; try congruence.
Qed.

(** *** the same particles as the python reader *)
Lemma picks_det (P : Z -> Prop) l : forall from s t, @picks (list Z) P from l s -> picks P from l t -> s = t.
Proof.
  induction l as [|c l IH]; intros from s t Hs Ht; inversion Hs; inversion Ht; subst; try reflexivity; try contradiction; try (f_equal; eapply IH; eassumption); eapply IH; eassumption.
Qed.
Lemma picks_files_det (P : Z -> Prop) fs : forall s t, @picks_files (list Z) P fs s -> picks_files P fs t -> s = t.
Proof. induction fs as [|f fs IH]; intros s t Hs Ht; inversion Hs; inversion Ht; subst; [reflexivity|]. f_equal; [eapply picks_det; eassumption | now apply IH]. Qed.
Lemma picks_files_within (P Q : Z -> Prop) fs : forall sel, (forall f c, In f fs -> cf_first f <= c < cf_first f + zlen (cf_cells f) -> (P c <-> Q c)) -> @picks_files (list Z) P fs sel -> picks_files Q fs sel.
Proof.
  intros sel H HP. induction HP as [|f fs s sel H1 H2 IH]; constructor; [eapply picks_ext; [|exact H1]; intros c Hc; apply (H f c); [now left | exact Hc] | apply IH; intros g c Hg; apply H; now right].
Qed.
Lemma picks_some (P : Z -> Prop) l : forall from s, @picks (list Z) P from l s -> s <> [] -> exists c, from <= c < from + zlen l /\ P c.
Proof.
  intros from s H. induction H as [n|n c cells sel Hw HP IH|n c cells sel Hw HP IH]; intro Hn; [contradiction|exists n|]; rewrite zlen_cons; pose proof (zlen_nonneg cells); [split; [lia | exact Hw]|].
  destruct (IH Hn) as (d & Hd & Hp). exists d. split; [lia | exact Hp].
Qed.
Lemma picks_files_some (P : Z -> Prop) fs : forall s, @picks_files (list Z) P fs s -> s <> [] -> some_cell P fs.
Proof.
  intros s H. induction H as [|f fs s sel H1 H2 IH]; intro Hn; [contradiction|]. destruct s as [|p s].
  - destruct (IH Hn) as (g & n & Hg & Hr). exists g, n. split; [now right | exact Hr].
  - destruct (picks_some _ _ _ _ H1 ltac:(discriminate)) as (n & Hr & Hp). exists f, n. split; [now left | now split].
Qed.
Lemma covers_range fs : forall from nhash f, covers from nhash fs -> In f fs -> from <= cf_first f /\ cf_first f + zlen (cf_cells f) <= nhash.
Proof.
  induction fs as [|g fs IH]; intros from nhash f H Hin; [contradiction|]. pose proof (covers_len _ _ _ H) as HL. destruct H as [H1 H2]. change (cells_of (g :: fs)) with (cf_cells g ++ cells_of fs) in HL. rewrite zlen_app in HL.
  pose proof (zlen_nonneg (cf_cells g)). pose proof (zlen_nonneg (cells_of fs)). destruct Hin as [->|Hin]; [lia|]. destruct (IH _ _ f H2 Hin). lia.
Qed.
Lemma python_final little lf nhash fs contents hashmap junk keys n r : Forall2 (hash_file lf) fs contents -> covers 0 nhash fs -> zlen hashmap = nhash ->
  Forall (fun k => 0 <= k < nhash) keys -> (forall c, 0 <= c < nhash -> (flagged hashmap c <-> In c keys)) ->
  readregion little (negb (Bool.eqb lf little)) nhash contents hashmap junk = Ok (n, r) ->
  forall calls, exists pos vel ids, snd (read_cells nhash (map file_of fs) (cells_history nhash (map file_of fs) calls) keys) = Ok (pos, vel, ids) /\
    n = zlen pos /\ r = {| r_x := map (fun p => nth 0 p 0) pos; r_y := map (fun p => nth 1 p 0) pos; r_z := map (fun p => nth 2 p 0) pos;
                           r_vx := map (fun p => nth 0 p 0) vel; r_vy := map (fun p => nth 1 p 0) vel; r_vz := map (fun p => nth 2 p 0) vel; r_ids := map (fun p => nth 0 p 0) ids |}.
Proof.
  intros Hf Hc Hm Hk Hw HR calls. destruct (region_final little lf nhash fs contents hashmap junk Hf Hc Hm) as (sel & Hp & H1 & H2).
  assert (sel <> []) as Hs by (intro Q; rewrite (H2 Q) in HR; discriminate HR). rewrite (H1 Hs) in HR. injection HR as <- <-.
  pose proof (covers_len _ _ _ Hc) as HL. pose proof (zlen_nonneg (cells_of fs)).
  assert (picks_files (wanted nhash keys) fs sel) as Hp2.
  { eapply picks_files_within; [|exact Hp]. intros f c Hin Hr. destruct (covers_range _ _ _ f Hc Hin). unfold wanted. rewrite (Hw c) by lia. split; [now left|]. intros [Q|Q]; [exact Q|]. rewrite Forall_forall in Hk. specialize (Hk _ Q). cbn in Hk. lia. }
  destruct (@cells_exact (list Z) nhash fs calls keys) as (sel' & Hp' & E); [lia | | | |].
  - apply Forall_forall. intros f Hin. destruct (covers_range _ _ _ f Hc Hin). split; [lia|]. split; [lia|].
    assert (exists c, hash_file lf f c) as (c & cat & extra & _ & _ & _ & _ & _ & _ & _ & _ & _ & _ & B & _); [|cbn zeta in B; lia]. clear - Hf Hin. induction Hf as [|g c gs cs H HH IH]; [contradiction|]. destruct Hin as [->|Hin]; [eauto | auto].
  - eapply Forall_impl; [|exact Hk]. cbn. intros. lia.
  - eapply picks_files_some; eassumption.
  - rewrite (picks_files_det _ _ _ _ Hp' Hp2) in E. do 3 eexists. split; [exact E|]. split; [now rewrite zlen_map|]. unfold region_of, pos_of, vel_of, ids_of. now rewrite !map_map.
Qed.

(** checking examples *)
Definition piece_okb (p : piece) : bool :=
  match p with
  | Data _ _ size shape vals => (0 <? size) && forallb (fun s => 0 <=? s) shape && (zlen vals =? fold_left Z.mul shape 1) && forallb (fun v => (0 <=? v) && (v <? 256 ^ size)) vals
  | Mark n => (0 <=? n) && (n <? 2 ^ 32)
  | Raw _ => true
  end.
Lemma pieces_okb l : forallb piece_okb l = true -> Forall piece_ok l.
Proof.
  rewrite forallb_forall. intro H. apply Forall_forall. intros p Hp. specialize (H p Hp). destruct p as [nm a size sh vals|n|b]; cbn [piece_okb piece_ok] in *; [|lia|exact I].
  apply andb_true_iff in H. destruct H as [H H4]. apply andb_true_iff in H. destruct H as [H H3]. apply andb_true_iff in H. destruct H as [H1 H2]. rewrite forallb_forall in H2, H4.
  split; [lia|]. split; [apply Forall_forall; intros x Hx; specialize (H2 x Hx); lia|]. split; [lia|]. apply Forall_forall. intros x Hx. specialize (H4 x Hx). cbn beta in H4. lia.
Qed.
