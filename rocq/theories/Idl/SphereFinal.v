(** The statements about the functions which read spherical regions (C87). *)
From Coq Require Import QArith Qround Lqa.
From Coq Require Import Ascii String.
From Verif Require Import Base.Prelude Base.ListLemmas Formats.FileSpec Formats.CatSpec Snap.ReadSpec Text.StrModel Peano.PeanoModel Peano.PeanoCurve Peano.PeanoProofs Peano.CPeanoModel Peano.CPeanoProofs Fortran.RegionSpec Fortran.RegionFinal Fortran.FofSpec Fortran.VolumeSpec.
From Verif Require Import Index.IndexModel Idl.LibModel Idl.LibSpec Idl.StdioProofs Idl.TabFinal Idl.SnapSpec Idl.SnapProofs Idl.HashProofs Idl.CellProofs Idl.HashFinal Idl.GroupSpec Idl.GroupProofs Idl.CentreProofs Idl.GroupFinal Idl.SphereSpec Idl.SphereProofs.
From Coq Require Import ZifyBool ZifyNat.
Local Open Scope Z_scope. Local Open Scope list_scope.

Section Region.
  Variables (b : Z) (box rad sx sy sz : Q) (files : list (cellfile (list Z))) (value4 : Z -> Q).
  Hypothesis Hb : 1 <= b <= 10.
  Hypothesis Hbox : (0 < box)%Q.
  Notation side := (2 ^ b).
  Notation cs := (cell_size box b).
  Hypothesis Hs : point_in_box box (sx, sy, sz).
  Hypothesis Hr : (0 <= rad)%Q.
  Hypothesis Hr2 : (rad + cs < (1 # 2) * box)%Q.
  Hypothesis Hcells : zlen (cells files) = 8 ^ b.
  Hypothesis Hits : in_its_cell value4 box b files.
  Let n := Qfloor (rad / cs) + 1.
  Definition range (s : Q) : list Z := zseq (Qfloor (s / cs) - n) (Z.to_nat (2 * n + 1)).
  Definition all : list (Z * Z * Z) := triples (range sx) (range sy) (range sz).
  Definition kf (t : Z * Z * Z) : Z := let '(i, j, k) := t in K (Z.to_nat b) s0 (wrap_cell side i, wrap_cell side j, wrap_cell side k).
  Definition keys : list Z := map kf all.
  Lemma In_range s i : (0 <= s < box)%Q -> In i (range s) <-> Qfloor (s / cs) - n <= i <= Qfloor (s / cs) + n.
  Proof. intro H. pose proof (n_bounds b box rad s Hb Hbox Hr Hr2) as B. fold n in B. unfold range. rewrite In_zseq. lia. Qed.
  Lemma wrapped s i : (0 <= s < box)%Q -> Qfloor (s / cs) - n <= i <= Qfloor (s / cs) + n -> 0 <= wrap_cell side i < side.
  Proof. intros H1 H2. exact (proj1 (wrap_range b box rad s Hb Hbox H1 Hr Hr2 i H2)). Qed.
  Lemma K_bound p : 0 <= K (Z.to_nat b) s0 p < 8 ^ b.
  Proof. pose proof (K_range (Z.to_nat b) s0 p s0_in) as R. now rewrite Z2Nat.id in R by lia. Qed.
  Lemma keys_found : region_keys (8 ^ b) box sx sy sz rad = Ok keys.
  Proof.
    destruct Hs as (S1 & S2 & S3). unfold region_keys. rewrite base_ok by exact Hb. cbn [bind]. rewrite bits_found by exact Hb. cbn [bind]. change (box / inject_Z side)%Q with cs.
    destruct (trunc_ok b box rad sx Hb Hbox S1 Hr Hr2) as [T0 T1]. destruct (trunc_ok b box rad sy Hb Hbox S2 Hr Hr2) as [_ T2]. destruct (trunc_ok b box rad sz Hb Hbox S3 Hr Hr2) as [_ T3].
    rewrite T0. cbn [bind]. rewrite T1. cbn [bind]. rewrite T2. cbn [bind]. rewrite T3. cbn [bind]. fold n. change (flat_map _ _) with all. unfold keys. apply mapM_map_ok. intros [[i j] k] _. cbn [kf].
    rewrite c_key_ok by lia. cbv zeta. pose proof (K_bound (wrap_cell side i, wrap_cell side j, wrap_cell side k)) as R. assert (8 ^ b <= 8 ^ 10) by (apply Z.pow_le_mono_r; lia). change (8 ^ 10) with (2 ^ 30) in *. now replace (K (Z.to_nat b) s0 (wrap_cell side i, wrap_cell side j, wrap_cell side k) <? 2 ^ 31) with true by lia.
  Qed.
  Lemma keys_range : Forall (fun c => 0 <= c < 8 ^ b) keys.
  Proof. unfold keys. apply Forall_map. apply Forall_forall. intros [[i j] k] _. apply K_bound. Qed.
  Lemma keys_NoDup : NoDup keys.
  Proof.
    destruct Hs as (S1 & S2 & S3). unfold keys. apply map_NoDup_in; [apply triples_NoDup; apply NoDup_zseq|]. intros [[i j] k] [[i' j'] k'] H H' E. apply In_triples in H, H'. destruct H as (A1 & A2 & A3), H' as (B1 & B2 & B3).
    rewrite In_range in A1, A2, A3, B1, B2, B3 by assumption. cbn [kf] in E.
    apply K_same in E; [|exact Hb | (eapply wrapped; [|eassumption]; assumption) ..]. destruct E as (E1 & E2 & E3).
    apply (wrap_same b box rad sx Hb Hbox S1 Hr Hr2) in E1; [|exact A1 | exact B1]. apply (wrap_same b box rad sy Hb Hbox S2 Hr Hr2) in E2; [|exact A2 | exact B2]. apply (wrap_same b box rad sz Hb Hbox S3 Hr Hr2) in E3; [|exact A3 | exact B3]. congruence.
  Qed.
  Definition region : list particle := concat (map (cell_of files) keys).
  Lemma region_cells : of_cells files region.
  Proof. exists keys. rewrite Hcells. split; [exact keys_NoDup|]. split; [exact keys_range | reflexivity]. Qed.
  Lemma region_complete p : In p (concat (cells files)) -> near_point value4 box rad (sx, sy, sz) p -> In p region.
  Proof.
    intros Hp (N1 & N2 & N3). destruct Hs as (S1 & S2 & S3). apply in_concat in Hp. destruct Hp as (l & Hl & Hp). apply In_nth_error in Hl. destruct Hl as (c & E). assert (l = cell_of files (Z.of_nat c)) as -> by (unfold cell_of; rewrite Nat2Z.id; symmetry; now apply nth_error_nth).
    pose proof (Zle_0_nat c) as HC0. destruct (Hits _ p HC0 Hp) as (ix & iy & iz & EK & R1 & R2 & R3 & I1 & I2 & I3). apply key_K in EK; try assumption.
    destruct (near_cell b box rad sx Hb Hbox S1 Hr Hr2 ix _ R1 I1 N1) as (jx & J1 & W1). destruct (near_cell b box rad sy Hb Hbox S2 Hr Hr2 iy _ R2 I2 N2) as (jy & J2 & W2). destruct (near_cell b box rad sz Hb Hbox S3 Hr Hr2 iz _ R3 I3 N3) as (jz & J3 & W3).
    unfold region. apply in_concat. exists (cell_of files (Z.of_nat c)). split; [|exact Hp]. apply in_map. unfold keys. apply in_map_iff. exists (jx, jy, jz). cbn [kf]. rewrite W1, W2, W3. split; [exact EK|]. apply In_triples. rewrite !In_range by assumption. now repeat split.
  Qed.
  Lemma region_sound p : In p region -> near_point value4 box (rad + 2 * cs) (sx, sy, sz) p.
  Proof.
    intro Hp. destruct Hs as (S1 & S2 & S3). unfold region in Hp. apply in_concat in Hp. destruct Hp as (l & Hl & Hp). apply in_map_iff in Hl. destruct Hl as (c & <- & Hc). unfold keys in Hc. apply in_map_iff in Hc. destruct Hc as ([[i j] k] & <- & H). apply In_triples in H. destruct H as (A1 & A2 & A3). rewrite In_range in A1, A2, A3 by assumption.
    assert (0 <= kf (i, j, k)) as HC0 by apply K_bound. destruct (Hits _ p HC0 Hp) as (ix & iy & iz & EK & R1 & R2 & R3 & I1 & I2 & I3). apply key_K in EK; try assumption. cbn [kf] in EK. apply K_same in EK; try assumption; [|(eapply wrapped; [|eassumption]; assumption) ..]. destruct EK as (-> & -> & ->).
    split; [|split]; [apply (cell_near b box rad sx Hb Hbox S1 Hr Hr2 i) | apply (cell_near b box rad sy Hb Hbox S2 Hr Hr2 j) | apply (cell_near b box rad sz Hb Hbox S3 Hr Hr2 k)]; assumption.
  Qed.
  Lemma region_in_box p : In p region -> in_box value4 box p.
  Proof.
    intro Hp. unfold region in Hp. apply in_concat in Hp. destruct Hp as (l & Hl & Hp). apply in_map_iff in Hl. destruct Hl as (c & <- & Hc). assert (0 <= c) as HC0 by (pose proof keys_range as R; rewrite Forall_forall in R; apply R in Hc; lia). destruct (Hits _ p HC0 Hp) as (ix & iy & iz & EK & R1 & R2 & R3 & I1 & I2 & I3).
    assert (forall i x, 0 <= i < side -> inside cs i x -> (0 <= x < box)%Q) as G.
    { intros i x Hi [G1 G2]. pose proof (cs_pos b box rad rad Hb Hbox) as P. pose proof (cs_box b box rad rad Hb) as E. assert (0 <= inject_Z i)%Q as L by (change 0%Q with (inject_Z 0); rewrite <- Zle_Qle; lia). assert (inject_Z i + 1 <= inject_Z side)%Q as U by (change 1%Q with (inject_Z 1); rewrite <- inject_Z_plus, <- Zle_Qle; lia).
      apply (Qmult_le_compat_r _ _ cs) in L; [|lra]. apply (Qmult_le_compat_r _ _ cs) in U; [|lra]. split; lra. }
    intros k Hk. destruct k as [|[|[|k]]]; [now apply (G ix) | now apply (G iy) | now apply (G iz) | lia].
  Qed.
End Region.

Section Read.
  Variables (little : bool) (fs : str -> option (list Z)) (dir base : str) (num n nhash box : Z) (files : list (cellfile (list Z))) (t : hash) (value4 value8 : Z -> Q).
  Hypothesis Hnum : 0 <= num.
  Hypothesis HF : snap_files little fs dir base num n nhash box files.
  Hypothesis Hcov : covers 0 nhash files.
  Hypothesis HT : holds files t.
  Hypothesis Hpos : 0 < nhash.
  Lemma file_0 : exists content h, fopen fs (snap_name dir num base 0) = Some (content, 0) /\ read_header little (content, 0) = Ok (h, (content, 264)) /\ box_bits h = box.
  Proof.
    destruct files as [|f rest] eqn:EF; [cbn in Hcov; lia|]. destruct (HF 0%nat f eq_refl) as (cat & content & HI & (extra & P1 & P2 & P3 & P4 & P5 & P6 & P7 & P8 & P9 & P10) & S1 & S2 & S3).
    exists content, (snap_head cat). pose proof (fopen_name fs dir base num 0 _ Hnum (Z.le_refl 0) HI) as HO. cbn zeta in HO. split; [exact HO|]. split; [apply (snap_header_ok little cat extra content P1); rewrite ?P3, ?P7, ?P8; lia | exact S3].
  Qed.
  Lemma count_ok keys : Forall (fun c => 0 <= c < nhash) keys -> forall count, 0 <= count -> count + zlen (concat (map (cell_of files) keys)) < 2 ^ 31 ->
    foldM (fun count key => do f <- rd (Filetable t) key; do n <- cell_len t f key; c_int (count + n)) keys count = Ok (count + zlen (concat (map (cell_of files) keys))).
  Proof.
    induction 1 as [|c keys Hc HK IH]; intros count H0 HB; [cbn; unfold zlen; cbn; f_equal; lia|]. cbn [foldM map concat] in *. rewrite zlen_app in *. pose proof (zlen_nonneg (cell_of files c)). pose proof (zlen_nonneg (concat (map (cell_of files) keys))).
    destruct (fil_ok little fs dir base num n nhash box files t value4 value8 HF Hcov HT c Hc) as [F1 F2]. change (cell files c) with (cell_of files c) in F2. rewrite F1. cbn [bind]. rewrite F2. cbn [bind]. rewrite CellProofs.c_int_ok by lia. cbn [bind]. rewrite IH by lia. f_equal. lia.
  Qed.
  Notation vals := (pos_vals value4).
  Lemma loop_ok keys : Forall (fun c => 0 <= c < nhash) keys -> forall done pos box0, Forall (fun p => zlen (fst (fst p)) = 3) done -> box0 = value8 box ->
    3 * (zlen done + zlen (concat (map (cell_of files) keys))) <= zlen pos -> 3 * (zlen done + zlen (concat (map (cell_of files) keys))) < 2 ^ 31 ->
    region_loop little fs dir num base value4 value8 t keys (concat (map vals done) ++ skipn (List.length (concat (map vals done))) pos) (zlen done) box0 =
    let sel := done ++ concat (map (cell_of files) keys) in Ok (concat (map vals sel) ++ skipn (List.length (concat (map vals sel))) pos, Some (zlen sel), value8 box).
  Proof.
    induction 1 as [|c keys Hc HK IH]; intros done pos box0 HD -> HR HI; [cbn [region_loop map concat]; cbv zeta; now rewrite app_nil_r|]. cbn [region_loop map concat] in *. rewrite zlen_app in *. pose proof (zlen_nonneg (cell_of files c)) as Z1. pose proof (zlen_nonneg (concat (map (cell_of files) keys))) as Z2. pose proof (zlen_nonneg done) as Z3.
    destruct (fil_ok little fs dir base num n nhash box files t value4 value8 HF Hcov HT c Hc) as [F1 F2]. change (cell files c) with (cell_of files c) in F2. rewrite F1. cbn [bind].
    destruct (cell_reads little fs dir base num n nhash box files t value4 value8 Hnum HF Hcov HT c Hc) as [C1 _]. change (cell files c) with (cell_of files c) in C1. rewrite C1. cbn [bind].
    pose proof (cell_triples little fs dir base num n nhash box files HF c) as CT. change (cell files c) with (cell_of files c) in CT.
    assert (forall l : list particle, Forall (fun p => zlen (fst (fst p)) = 3) l -> zlen (concat (map vals l)) = 3 * zlen l) as TL by (intros l Hl; apply triple_len; eapply Forall_impl; [|exact Hl]; cbn; intros p Hp; unfold pos_vals; now rewrite zlen_map).
    rewrite CellProofs.c_int_ok by lia. cbn [bind]. rewrite <- (TL done HD). rewrite wr_range_ok; [|apply zlen_nonneg|]. 2:{ rewrite zlen_app, (TL _ CT), (TL _ HD). unfold zlen in *. rewrite skipn_length. specialize (TL done HD). lia. }
    cbn [bind]. rewrite write_next by (rewrite !TL by assumption; lia). rewrite F2. cbn [bind]. rewrite CellProofs.c_int_ok by lia. cbn [bind]. rewrite <- concat_app, <- map_app. rewrite <- zlen_app.
    rewrite (IH (done ++ cell_of files c) pos (value8 box)); [|apply Forall_app; now split | reflexivity | rewrite zlen_app; lia | rewrite zlen_app; lia]. cbv zeta. rewrite <- !(app_assoc done). now rewrite !zlen_app.
  Qed.
End Read.
Lemma relative_ok box s x : (0 < box)%Q -> (0 <= s < box)%Q -> (0 <= x < box)%Q -> relative box s x (fof_periodic box (x - s)).
Proof. intros Hb H1 H2. destruct (periodic_ok box (x - s) Hb ltac:(lra)) as [A B]. now split. Qed.

Lemma region_final little fs dir base num n b box files t value4 value8 s rad pos box0 (B := value8 box) :
  1 <= b <= 10 -> 0 <= num -> snap_files little fs dir base num n (8 ^ b) box files -> covers 0 (8 ^ b) files -> holds files t ->
  (0 < B)%Q -> in_its_cell value4 B b files -> point_in_box B s -> (0 <= rad)%Q -> (rad + cell_size B b < (1 # 2) * B)%Q ->
  exists sel, of_cells files sel /\
    (forall p, In p (concat (cells files)) -> near_point value4 B rad s p -> In p sel) /\
    (forall p, In p sel -> near_point value4 B (rad + 2 * cell_size B b) s p) /\
    (zlen sel < 2 ^ 31 -> get_spherical_region_count little fs dir num base value8 t (8 ^ b) (fst (fst s)) (snd (fst s)) (snd s) rad box0 = Ok (zlen sel, B)) /\
    (3 * zlen sel < 2 ^ 31 -> 3 * zlen sel <= zlen pos -> exists new, Forall2 (relative_point value4 B s) sel new /\
      get_spherical_region_coordinates little fs dir num base value4 value8 t (8 ^ b) (fst (fst s)) (snd (fst s)) (snd s) rad pos box0 = Ok (0, flat new ++ skipn (3 * List.length sel) pos, B)).
Proof.
  intros Hb Hnum HF Hcov HT HB Hits Hs Hr Hr2. destruct s as [[sx sy] sz]. cbn [fst snd]. assert (0 < 8 ^ b) as Hp by (apply Z.pow_pos_nonneg; lia).
  assert (zlen (cells files) = 8 ^ b) as EC by (symmetry; exact (nhash_cells files (8 ^ b) Hcov)).
  pose proof (keys_found b B rad sx sy sz Hb HB Hs Hr Hr2) as KF. pose proof (keys_range b B rad sx sy sz Hb) as KR. set (ks := keys b B rad sx sy sz) in *.
  destruct (file_0 little fs dir base num n (8 ^ b) box files t value4 value8 Hnum HF Hcov HT Hp) as (content & h & F1 & F2 & F3).
  exists (region b B rad sx sy sz files). split; [now apply (region_cells b B rad sx sy sz files)|]. split; [intros p; now apply (region_complete b B rad sx sy sz files value4)|]. split; [intros p; now apply (region_sound b B rad sx sy sz files value4)|].
  unfold region. fold ks. split.
  - intro HL. unfold get_spherical_region_count. rewrite F1, F2. cbn [bind]. rewrite F3. fold B. rewrite KF. cbn [bind]. rewrite (count_ok little fs dir base num n (8 ^ b) box files t value4 value8 HF Hcov HT ks KR 0) by lia. reflexivity.
  - intros HL HR. set (sel := concat (map (cell_of files) ks)) in *. pose proof (zlen_nonneg sel) as Z0. assert (Forall (in_box value4 B) sel) as SB by (apply Forall_forall; intros p Hp'; apply (region_in_box b B rad sx sy sz files value4 Hb HB Hits); exact Hp').
    assert (Forall (fun p => zlen (fst (fst p)) = 3) sel) as S3.
    { apply Forall_forall. intros p Hp'. unfold sel in Hp'. apply in_concat in Hp'. destruct Hp' as (l & Hl & Hp'). apply in_map_iff in Hl. destruct Hl as (c & <- & _). pose proof (cell_triples little fs dir base num n (8 ^ b) box files HF c) as CT. rewrite Forall_forall in CT. now apply CT. }
    assert (zlen (concat (map (pos_vals value4) sel)) = 3 * zlen sel) as TL by (apply triple_len; eapply Forall_impl; [|exact S3]; cbn; intros p Hp'; unfold pos_vals; now rewrite zlen_map).
    unfold get_spherical_region_coordinates. rewrite F1, F2. cbn [bind]. rewrite F3. fold B. rewrite KF. cbn [bind].
    pose proof (loop_ok little fs dir base num n (8 ^ b) box files t value4 value8 Hnum HF Hcov HT ks KR [] pos B ltac:(constructor) eq_refl HR HL) as LO. cbn [map concat app List.length skipn] in LO. change (zlen (@nil particle)) with 0 in LO. cbv zeta in LO. fold sel in LO. rewrite LO. cbn [bind].
    rewrite CellProofs.c_int_ok by lia. cbn [bind]. set (tail := skipn (List.length (concat (map (pos_vals value4) sel))) pos).
    pose proof (component_ok value4 sel tail 0 S3 ltac:(lia)) as K0. pose proof (component_ok value4 sel tail 1 S3 ltac:(lia)) as K1. pose proof (component_ok value4 sel tail 2 S3 ltac:(lia)) as K2. cbn [Z.of_nat Pos.of_succ_nat Pos.succ] in K0, K1, K2. rewrite K0, K1, K2. rewrite !map_map.
    set (rel := fun p => (fof_periodic B (coordinate value4 0 p - sx), fof_periodic B (coordinate value4 1 p - sy), fof_periodic B (coordinate value4 2 p - sz))%Q).
    assert (interleave (map (fun x => fof_periodic B (coordinate value4 0 x - sx)%Q) sel) (map (fun x => fof_periodic B (coordinate value4 1 x - sy)%Q) sel) (map (fun x => fof_periodic B (coordinate value4 2 x - sz)%Q) sel) = flat (map rel sel)) as EI.
    { clear. induction sel as [|p l IH]; [reflexivity|]. cbn [map interleave]. rewrite IH. reflexivity. }
    change (value8 box) with B. rewrite EI. assert (zlen (flat (map rel sel)) = 3 * zlen sel) as EF by (rewrite flat_len, zlen_map; reflexivity). pose proof (zlen_nonneg tail) as PT.
    rewrite wr_range_ok by (rewrite ?zlen_app; lia). cbn [bind]. rewrite write_front by (unfold zlen in EF, TL; lia).
    exists (map rel sel). split.
    + destruct Hs as (S1 & S2 & S4). clear - SB HB S1 S2 S4. induction SB as [|p l Hp HL IH]; [constructor|]. cbn [map]. constructor; [|exact IH]. cbn. split; [|split]; apply relative_ok; try assumption; apply Hp; lia.
    + do 2 f_equal. f_equal. unfold tail. do 2 f_equal. unfold zlen in TL. lia.
Qed.
Lemma region_missing little fs dir base num t value4 value8 size sx sy sz rad pos box0 : 0 <= num -> file_is fs dir base num 0 None ->
  get_spherical_region_count little fs dir num base value8 t size sx sy sz rad box0 = Ok (-1, box0) /\ get_spherical_region_coordinates little fs dir num base value4 value8 t size sx sy sz rad pos box0 = Ok (-1, pos, box0).
Proof.
  intros Hnum HI. pose proof (fopen_name fs dir base num 0 _ Hnum (Z.le_refl 0) HI) as HO. cbn zeta in HO. unfold get_spherical_region_count, get_spherical_region_coordinates, snap_name. rewrite HO. now split.
Qed.

(** the example: a box of size 8 with 4 cells of size 2 along each side, the 64 cells in two files *)
Definition ex_place (box : Q) (b : Z) (p : particle) : option Z :=
  let i k := Qfloor (coordinate inject_Z k p / cell_size box b) in key_of b (i 0%nat, i 1%nat, i 2%nat).
Definition in_its_cellb (box : Q) (b : Z) (files : list (cellfile (list Z))) : bool :=
  forallb (fun c => forallb (fun p => (match ex_place box b p with Some k => k =? c | None => false end) && forallb (fun k => let i := Qfloor (coordinate inject_Z k p / cell_size box b) in (0 <=? i) && (i <? 2 ^ b)) [0; 1; 2]%nat) (cell_of files c)) (zseq 0 (List.length (cells files))).
Lemma in_its_cell_intro box b files : (0 < cell_size box b)%Q -> in_its_cellb box b files = true -> in_its_cell inject_Z box b files.
Proof.
  intros P H c p H0 Hp. unfold in_its_cellb in H. rewrite forallb_forall in H. assert (In c (zseq 0 (List.length (cells files)))) as HC.
  { apply In_zseq. unfold cell_of in Hp. destruct (Nat.lt_ge_cases (Z.to_nat c) (List.length (cells files))) as [G|G]; [lia|]. rewrite nth_overflow in Hp by exact G. destruct Hp. }
  apply H in HC. rewrite forallb_forall in HC. apply HC in Hp. apply andb_true_iff in Hp. destruct Hp as [A B]. cbn [forallb] in B. rewrite !andb_true_iff in B. destruct B as ((B1 & B1') & (B2 & B2') & (B3 & B3') & _).
  assert (forall x, inside (cell_size box b) (Qfloor (x / cell_size box b)) x) as G by (intro x; now apply floor_cell).
  unfold ex_place in A. destruct (key_of b _) as [k|] eqn:EK; [|discriminate]. apply Z.eqb_eq in A. subst k. do 3 eexists. split; [exact EK|]. split; [lia|]. split; [lia|]. split; [lia|]. split; [|split]; apply G.
Qed.
Definition ex_parts : list particle := [P 1 1 1 11; P 3 1 7 12; P 7 7 0 13; P 5 1 1 14; P 1 2 2 15].
Definition ex_cells (c n : Z) : cellfile (list Z) := {| cf_first := c; cf_cells := map (fun k => filter (fun p => match ex_place 8 2 p with Some k' => k =? k' | None => false end) ex_parts) (zseq c (Z.to_nat n)) |}.
Definition ex_4 : cellfile (list Z) := Eval vm_compute in ex_cells 0 20.
Definition ex_5 : cellfile (list Z) := Eval vm_compute in ex_cells 20 44.
Lemma ex_sphere_files : snap_files false (ex_snaps 2 64 8 [ex_4; ex_5]) (lit "/data") (lit "snap") 7 2 (8 ^ 2) 8 [ex_4; ex_5].
Proof.
  intros i f E. exists (ex_snap 2 64 8 f), (ex_content 2 64 8 f). destruct i as [|[|i]]; cbn [nth_error] in E; [| |destruct i; discriminate E].
  - injection E as <-. one_snap.
  - injection E as <-. one_snap.
Qed.
Definition ex_tables2 : hash := Eval vm_compute in match get_hash_table false (ex_snaps 2 64 8 [ex_4; ex_5]) (lit "/data") 7 (lit "snap") 64 (ex_t 64 2) with Ok (_, t) => t | Err _ => ex_t 0 0 end.
Lemma ex_sphere_hold : holds [ex_4; ex_5] ex_tables2.
Proof. exists [], [], [], []. repeat split. Qed.
Lemma ex_sphere_in : in_its_cell inject_Z 8 2 [ex_4; ex_5].
Proof. apply in_its_cell_intro; vm_compute; reflexivity. Qed.
(** With the 8 cells of the other example the sphere of radius 1/2 reaches into its cells twice: the particles are counted more than once. *)
Lemma twice_refuted : exists fs files t, snap_files false fs (lit "/data") (lit "snap") 7 2 (8 ^ 1) 8 files /\ covers 0 (8 ^ 1) files /\ holds files t /\ in_its_cell inject_Z 8 1 files /\ zlen (concat (cells files)) = 8 /\
  (forall box0, get_spherical_region_count false fs (lit "/data") 7 (lit "snap") inject_Z t (8 ^ 1) 1 1 1 (1 # 2) box0 = Ok (20, 8%Q)).
Proof.
  exists (ex_snaps 2 8 8 [ex_1; ex_2]), [ex_1; ex_2], ex_tables. split; [exact ex_snap_files|]. split; [repeat split|]. split; [exact ex_tables_hold|]. split; [apply in_its_cell_intro; vm_compute; reflexivity|]. split; [reflexivity|].
  intro box0. vm_compute. reflexivity.
Qed.
