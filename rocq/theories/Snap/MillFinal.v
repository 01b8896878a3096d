(** Class Snapshot of subfind_lgadget2.py from the bytes of the files: the methods. *)
From Coq Require Import Ascii String.
From Verif Require Import Base.Prelude Base.ListLemmas Binary.BinModel Formats.ReaderModel Formats.FileSpec Formats.CatSpec.
From Verif Require Import Peano.PeanoModel Peano.PeanoCurve Peano.PeanoProofs Snap.ReadModel Snap.ReadSpec Snap.CellsProofs Snap.ReadFinal Fortran.RegionSpec Fortran.RegionFinal Fortran.FofSpec Fortran.VolumeSpec Snap.MillModel Snap.MillSpec Snap.MillProofs.
From Coq Require Import ZifyBool ZifyNat.
Local Open Scope Z_scope.
Local Open Scope list_scope.

Section Mill.
  Variables (little : bool) (files : Z -> option (list Z)) (fs : list (cellfile (list Z))) (nhash boxsize : Z).
  Hypothesis Hs : is_snapshot files fs nhash boxsize.

  Lemma init_ok : exists bits, snapshot_init little files = Ok {| s_nhash := nhash; s_boxsize := boxsize; s_nfiles := zlen fs; s_ncell := 2 ^ bits; s_bits := bits |} /\
    0 <= bits <= 11 /\ nhash <= 8 ^ bits /\ forall c, 0 <= c < bits -> 8 ^ c < nhash.
  Proof using All.
    destruct Hs as (H1 & H2 & H3 & H4 & H5). destruct fs as [|f l] eqn:Efs; [congruence|]. destruct (H5 0%nat f eq_refl) as (lf & cat & extra & E & Hok & Hc & Hh). destruct (Hh eq_refl) as (N1 & N2 & N3).
    apply Forall_cons_iff in H4. destruct H4 as [Hf _]. destruct (mill_opens little lf cat extra files 0 f nhash E Hok Hc Hf ltac:(lia)) as (o & Eo & R).
    unfold snapshot_init. rewrite Eo. cbn [bind].
    rewrite (mill_attr little lf cat extra o "HashTabSize" (one "Header/HashTabSize" 4) R), (mill_attr little lf cat extra o "BoxSize" (one "Header/BoxSize" 8) R), (mill_attr little lf cat extra o "NumFilesPerSnapshot" (one "Header/NumFilesPerSnapshot" 4) R)
      by (try reflexivity; cbn [L2_snapshot_header In]; tauto). cbn [bind fd_name one].
    unfold i32. fold (scalar cat "Header/HashTabSize"). fold (scalar cat "Header/BoxSize"). fold (scalar cat "Header/NumFilesPerSnapshot"). rewrite N1, N2, N3. rewrite <- Efs in *. unfold signed32. replace (2 ^ 31 <=? nhash) with false by lia. replace (2 ^ 31 <=? zlen fs) with false by lia.
    destruct (grid_size_ok 19 nhash 0 ltac:(lia)) as (bits & Eg & B1 & B2 & B3); [change (0 + Z.of_nat 19) with 19; lia | lia|]. change (2 ^ 0) with 1 in Eg. rewrite Eg. cbn [bind]. exists bits. split; [reflexivity|].
    split; [|split; assumption]. split; [lia|]. destruct (Z.le_gt_cases bits 11) as [Q|Q]; [exact Q|]. specialize (B3 11 ltac:(lia)). change (8 ^ 11) with (2 ^ 33) in B3. lia.
  Qed.

  Lemma files_ok : mapM (hash_file_of little files) (zseq 0 (Z.to_nat (zlen fs))) = Ok (map file_of fs).
  Proof using All.
    destruct Hs as (H1 & H2 & H3 & H4 & H5). unfold zlen. rewrite Nat2Z.id.
    assert (forall l a, (forall i f, nth_error l i = Some f -> hash_file_of little files (a + Z.of_nat i) = Ok (file_of f)) -> mapM (hash_file_of little files) (zseq a (List.length l)) = Ok (map file_of l)) as K.
    { induction l as [|f l IH]; intros a H; [reflexivity|]. cbn [List.length zseq mapM map]. pose proof (H 0%nat f eq_refl) as E. rewrite Z.add_0_r in E. rewrite E. cbn [bind]. rewrite IH; [reflexivity|]. intros i g Hi. specialize (H (S i) g Hi). rewrite <- H. f_equal. lia. }
    apply K. intros i f Hi. destruct (H5 i f Hi) as (lf & cat & extra & E & Hok & Hc & _). rewrite Forall_forall in H4. change (0 + Z.of_nat i) with (Z.of_nat i).
    apply (mill_hash_file little lf cat extra files (Z.of_nat i) f nhash E Hok Hc); [apply H4; eapply nth_error_In; exact Hi | lia].
  Qed.

  Variables (bits : Z) (float_dims : bool) (junk : Z).
  Let s := {| s_nhash := nhash; s_boxsize := boxsize; s_nfiles := zlen fs; s_ncell := 2 ^ bits; s_bits := bits |}.
  Lemma cells_same state keys : snap_read_cells little files s state keys = read_cells nhash (map file_of fs) state keys.
  Proof using Hs. unfold snap_read_cells. cbn [s_nhash s_nfiles s]. rewrite files_ok. destruct Hs as (_ & _ & H3 & _). replace (nhash <? 0) with false by lia. reflexivity. Qed.
  Lemma after_history calls : exists ks, after little files float_dims junk s calls = cells_history nhash (map file_of fs) ks.
  Proof using Hs.
    assert (forall calls ks, exists ks', fold_left (fun state c => match c with Cells keys => fst (snap_read_cells little files s state keys) | Region ic => fst (read_region little files float_dims junk s state ic) end) calls (cells_history nhash (map file_of fs) ks) = cells_history nhash (map file_of fs) ks') as K.
    { clear calls. induction calls as [|c calls IH]; intro ks; [now exists ks|]. cbn [fold_left]. destruct c as [keys|ic].
      - rewrite cells_same. destruct (IH (ks ++ [keys])) as (ks' & E). exists ks'. rewrite <- E. f_equal. unfold cells_history. rewrite fold_left_app. reflexivity.
      - unfold read_region at 2. destruct (region_keys float_dims junk s ic) as [keys|e]; [|cbn [fst]; apply IH]. rewrite cells_same. destruct (IH (ks ++ [keys])) as (ks' & E). exists ks'. rewrite <- E. f_equal. unfold cells_history. rewrite fold_left_app. reflexivity. }
    destruct (K calls []) as (ks & E). exists ks. rewrite <- E. unfold after. f_equal. unfold new_table, cells_history, new_hash_table. cbn [s_nfiles s fold_left]. unfold zlen. rewrite Nat2Z.id. clear. induction fs as [|f l IH]; [reflexivity|]. cbn. f_equal. exact IH.
  Qed.

  Lemma mill_cells calls keys : Forall (fun k => - nhash <= k < nhash) keys -> some_cell (wanted nhash keys) fs ->
    exists sel, picks_files (wanted nhash keys) fs sel /\ snd (snap_read_cells little files s (after little files float_dims junk s calls) keys) = Ok (map (fun p => fst (fst p)) sel, map (fun p => snd (fst p)) sel, map snd sel).
  Proof using Hs. intros Hk Hc. rewrite cells_same. destruct (after_history calls) as (ks & ->). destruct Hs as (_ & _ & H3 & H4 & _). apply cells_exact; try assumption. lia. Qed.
  Lemma mill_none calls keys : Forall (fun k => - nhash <= k < nhash) keys -> ~ some_cell (wanted nhash keys) fs ->
    snd (snap_read_cells little files s (after little files float_dims junk s calls) keys) = Err EValue.
  Proof using Hs. intros Hk Hc. rewrite cells_same. destruct (after_history calls) as (ks & ->). destruct Hs as (_ & _ & H3 & H4 & _). apply cells_none; try assumption. lia. Qed.
  Lemma mill_bad calls keys : ~ Forall (fun k => - nhash <= k < nhash) keys ->
    snd (snap_read_cells little files s (after little files float_dims junk s calls) keys) = Err EIndex.
  Proof using Hs. intros Hk. rewrite cells_same. destruct (after_history calls) as (ks & ->). destruct Hs as (_ & _ & H3 & H4 & _). apply cells_bad; try assumption. lia. Qed.

End Mill.

(** *** regions *)
Section Region.
  Variables (little : bool) (files : Z -> option (list Z)) (fs : list (cellfile (list Z))) (nhash boxsize : Z).
  Hypothesis Hs : is_snapshot files fs nhash boxsize.
  Variables (bits junk : Z).
  Let s := {| s_nhash := nhash; s_boxsize := boxsize; s_nfiles := zlen fs; s_ncell := 2 ^ bits; s_bits := bits |}.
  Variables (x0 x1 y0 y1 z0 z1 : Z).
  Hypothesis Hbits : 1 <= bits <= 11.
  Let corners := in_corners bits (x0, y0, z0) (x1, y1, z1).
  Lemma in_zseq a n v : In v (zseq a n) <-> a <= v < a + Z.of_nat n.
  Proof using.
    clear. revert a. induction n as [|n IH]; intro a; cbn [zseq In]; [lia|]. rewrite IH. lia.
  Qed.
  Lemma key_range x y z : exists c, key_scalar bits (x mod 2 ^ bits, y mod 2 ^ bits, z mod 2 ^ bits) = Ok c /\ 0 <= c < 8 ^ bits.
  Proof using Hbits.
    clear - Hbits. assert (forall v, 0 <= v mod 2 ^ bits < 2 ^ bits) as M. { intro v. apply Z.mod_pos_bound. apply Z.pow_pos_nonneg; lia. }
    destruct (inverse_of_keys 0 0 bits [(x mod 2 ^ bits, y mod 2 ^ bits, z mod 2 ^ bits)]) as (ks & E1 & E2 & _); [lia | constructor; [cbn; auto | constructor]|].
    rewrite keys_elementwise in E1. cbn [mapM] in E1. destruct (key_scalar bits _) as [c|e]; [|discriminate]. cbn [bind] in E1. injection E1 as <-. apply Forall_cons_iff in E2. destruct E2 as [E2 _]. exists c. auto.
  Qed.
  Lemma corner_range c : corners c -> 0 <= c < 8 ^ bits.
  Proof using Hbits. intros (i & j & k & _ & _ & _ & E). destruct (key_range i j k) as (c' & E' & H). rewrite E in E'. injection E' as ->. exact H. Qed.
  Lemma mapM_ok_in {A B} (f : A -> res B) l : (forall a, In a l -> exists b, f a = Ok b) -> exists bs, mapM f l = Ok bs /\ forall b, In b bs <-> exists a, In a l /\ f a = Ok b.
  Proof using.
    clear. induction l as [|a l IH]; intro H; [exists []; split; [reflexivity|]; intro b; split; [contradiction | intros (a & [] & _)]|]. destruct (H a (or_introl eq_refl)) as (b & E). destruct IH as (bs & E1 & E2); [intros; apply H; now right|].
    exists (b :: bs). cbn [mapM]. rewrite E, E1. split; [reflexivity|]. intro c. cbn [In]. rewrite E2. split.
    - intros [<-|(a' & Q1 & Q2)]; [exists a; auto | exists a'; auto].
    - intros (a' & [<-|Q1] & Q2); [left; congruence | right; exists a'; auto].
  Qed.
  Lemma region_keys_ok : x0 <= x1 + 1 -> y0 <= y1 + 1 -> z0 <= z1 + 1 -> exists keys, region_keys true junk s [x0; x1; y0; y1; z0; z1] = Ok keys /\ forall c, In c keys <-> corners c.
  Proof using Hbits.
    intros H1 H2 H3. unfold region_keys, indices. cbn [nth check bind]. unfold check. replace ((0 <=? x1 - x0 + 1) && (0 <=? y1 - y0 + 1) && (0 <=? z1 - z0 + 1)) with true by lia. cbn [bind s_bits s_ncell s]. rewrite keys_elementwise.
    match goal with |- context [mapM _ ?l] => set (cells := l) end.
    destruct (mapM_ok_in (key_scalar bits) cells) as (keys & E1 & E2).
    - intros a Ha. unfold cells in Ha. apply in_map_iff in Ha. destruct Ha as ([[i j] k] & <- & _). destruct (key_range (i + x0) (j + y0) (k + z0)) as (c & E & _). eauto.
    - exists keys. split; [exact E1|]. intro c. rewrite E2. unfold corners, in_corners, cells. split.
      + intros (a & Ha & E). apply in_map_iff in Ha. destruct Ha as ([[i j] k] & <- & Hin). apply in_flat_map in Hin. destruct Hin as (i' & Hi & Hin). apply in_flat_map in Hin. destruct Hin as (j' & Hj & Hin). apply in_map_iff in Hin. destruct Hin as (k' & Q & Hk). injection Q as -> -> ->.
        apply in_zseq in Hi, Hj, Hk. exists (i + x0), (j + y0), (k + z0). repeat split; try lia. exact E.
      + intros (i & j & k & Hi & Hj & Hk & E). exists (i mod 2 ^ bits, j mod 2 ^ bits, k mod 2 ^ bits). split; [|exact E]. apply in_map_iff. exists (i - x0, j - y0, k - z0). split; [now rewrite !Z.sub_add|].
        apply in_flat_map. exists (i - x0). split; [apply in_zseq; lia|]. apply in_flat_map. exists (j - y0). split; [apply in_zseq; lia|]. apply in_map_iff. exists (k - z0). split; [reflexivity|]. apply in_zseq. lia.
  Qed.
  Lemma mill_region calls : x0 <= x1 -> y0 <= y1 -> z0 <= z1 -> (forall c, corners c -> c < nhash) -> some_cell corners fs ->
    exists sel, picks_files corners fs sel /\ snd (read_region little files true junk s (after little files true junk s calls) [x0; x1; y0; y1; z0; z1]) = Ok (map (fun p => fst (fst p)) sel, map (fun p => snd (fst p)) sel, map snd sel).
  Proof using Hs Hbits.
    intros H1 H2 H3 Hr Hsome. destruct region_keys_ok as (keys & E & Hk); try lia. unfold read_region at 1. rewrite E. pose proof (proj1 (proj2 (proj2 Hs))) as Hn.
    assert (forall c, In c keys -> 0 <= c < nhash) as Hkr. { intros c Hc. apply Hk in Hc. split; [now apply corner_range in Hc | now apply Hr]. }
    assert (forall f c, In f fs -> cf_first f <= c < cf_first f + zlen (cf_cells f) -> (wanted nhash keys c <-> corners c)) as Hw.
    { intros f c Hf Hc. destruct Hs as (_ & _ & _ & H4 & _). rewrite Forall_forall in H4. destruct (H4 f Hf) as (F1 & F2 & _). unfold wanted. rewrite Hk. split; [|now left]. intros [Q|Q]; [exact Q|]. specialize (Hkr _ Q). lia. }
    destruct (mill_cells little files fs nhash boxsize Hs bits true junk calls keys) as (sel & P & R).
    - apply Forall_forall. intros k Hin. specialize (Hkr k Hin). lia.
    - destruct Hsome as (f & n & Hf & Hc & Hcn). exists f, n. split; [exact Hf|]. split; [exact Hc|]. now apply (Hw f).
    - exists sel. split; [|exact R]. eapply picks_files_within; [|exact P]. exact Hw.
  Qed.
  Lemma mill_region_none calls : x0 <= x1 -> y0 <= y1 -> z0 <= z1 -> (forall c, corners c -> c < nhash) -> ~ some_cell corners fs ->
    snd (read_region little files true junk s (after little files true junk s calls) [x0; x1; y0; y1; z0; z1]) = Err EValue.
  Proof using Hs Hbits.
    intros H1 H2 H3 Hr Hsome. destruct region_keys_ok as (keys & E & Hk); try lia. unfold read_region at 1. rewrite E. pose proof (proj1 (proj2 (proj2 Hs))) as Hn.
    assert (forall c, In c keys -> 0 <= c < nhash) as Hkr. { intros c Hc. apply Hk in Hc. split; [now apply corner_range in Hc | now apply Hr]. }
    apply (mill_none little files fs nhash boxsize Hs bits true junk calls keys).
    - apply Forall_forall. intros k Hin. specialize (Hkr k Hin). lia.
    - intros (f & n & Hf & Hc & Hcn). apply Hsome. exists f, n. split; [exact Hf|]. split; [exact Hc|]. destruct Hs as (_ & _ & _ & H4 & _). rewrite Forall_forall in H4. destruct (H4 f Hf) as (F1 & F2 & _).
      destruct Hcn as [Q|Q]; [now apply Hk|]. specialize (Hkr _ Q). lia.
  Qed.
  Lemma mill_region_outside calls : x0 <= x1 -> y0 <= y1 -> z0 <= z1 -> (exists c, corners c /\ nhash <= c) ->
    snd (read_region little files true junk s (after little files true junk s calls) [x0; x1; y0; y1; z0; z1]) = Err EIndex.
  Proof using Hs Hbits.
    intros H1 H2 H3 (c & Hc & Hn). destruct region_keys_ok as (keys & E & Hk); try lia. unfold read_region at 1. rewrite E. apply (mill_bad little files fs nhash boxsize Hs bits true junk calls keys).
    intro Q. rewrite Forall_forall in Q. specialize (Q c (proj2 (Hk c) Hc)). lia.
  Qed.
  (** a region of no size *)
  Lemma mill_region_empty calls : x1 < x0 \/ y1 < y0 \/ z1 < z0 -> snd (read_region little files true junk s (after little files true junk s calls) [x0; x1; y0; y1; z0; z1]) = Err EValue.
  Proof using Hs Hbits.
    intro H. destruct (Z.le_gt_cases 0 (x1 - x0 + 1)) as [Q1|Q1]; [destruct (Z.le_gt_cases 0 (y1 - y0 + 1)) as [Q2|Q2]; [destruct (Z.le_gt_cases 0 (z1 - z0 + 1)) as [Q3|Q3]|]|].
    1: { destruct region_keys_ok as (keys & E & Hk); try lia. unfold read_region at 1. rewrite E. assert (keys = []) as ->. { destruct keys as [|c keys]; [reflexivity|]. destruct (proj1 (Hk c) (or_introl eq_refl)) as (i & j & k & Hi & Hj & Hkk & _). lia. }
         apply (mill_none little files fs nhash boxsize Hs bits true junk calls []); [constructor|]. intros (f & n & _ & _ & [Q|Q]); contradiction. }
    all: unfold read_region at 1, region_keys, indices, check; cbn [nth bind]; match goal with |- context [if ?b then _ else _] => replace b with false by lia end; reflexivity.
  Qed.
End Region.

(** current numpy *)
Lemma mill_region_numpy little files junk s state icoords : read_region little files false junk s state icoords = (state, Err EType).
Proof. reflexivity. Qed.

(** all the particles in a region *)
Lemma mill_contains little files fs boxsize bits junk calls grid le xmin xmax ymin ymax zmin zmax : is_snapshot files fs (8 ^ bits) boxsize -> 1 <= bits <= 10 -> covers 0 (8 ^ bits) fs ->
  monotone le grid -> located grid (2 ^ bits) (key_of bits) fs -> grid xmin <= grid xmax -> grid ymin <= grid ymax -> grid zmin <= grid zmax ->
  let s := {| s_nhash := 8 ^ bits; s_boxsize := boxsize; s_nfiles := zlen fs; s_ncell := 2 ^ bits; s_bits := bits |} in
  exists sel, snd (read_region little files true junk s (after little files true junk s calls) [grid xmin; grid xmax; grid ymin; grid ymax; grid zmin; grid zmax]) = Ok (map (fun p => fst (fst p)) sel, map (fun p => snd (fst p)) sel, map snd sel) /\
    (forall p, In p sel -> In p (particles fs) /\ within_cells grid (2 ^ bits) xmin xmax (coord 0 p) /\ within_cells grid (2 ^ bits) ymin ymax (coord 1 p) /\ within_cells grid (2 ^ bits) zmin zmax (coord 2 p)) /\ forall p, In p (particles fs) -> in_volume le (xmin, ymin, zmin) (xmax, ymax, zmax) p = true -> In p sel.
Proof.
  intros Hs Hb Hcov Hm Hl Hx Hy Hz. cbv zeta.
  assert (exists c, in_corners bits (grid xmin, grid ymin, grid zmin) (grid xmax, grid ymax, grid zmax) c) as (c0 & Hc0).
  { destruct (key_range bits ltac:(lia) (grid xmin) (grid ymin) (grid zmin)) as (c & E & _). exists c, (grid xmin), (grid ymin), (grid zmin). repeat split; try lia. exact E. }
  assert (forall c, in_corners bits (grid xmin, grid ymin, grid zmin) (grid xmax, grid ymax, grid zmax) c -> 0 <= c < 8 ^ bits) as Hr by (intros c Hc; eapply corner_range; [|exact Hc]; lia).
  destruct (mill_region little files fs (8 ^ bits) boxsize Hs bits junk (grid xmin) (grid xmax) (grid ymin) (grid ymax) (grid zmin) (grid zmax) ltac:(lia) calls Hx Hy Hz) as (sel & P & E).
  - intros c Hc. now apply Hr.
  - assert (forall fs from n, covers from n fs -> forall c, from <= c < n -> exists f, In f fs /\ cf_first f <= c < cf_first f + zlen (cf_cells f)) as K.
    { clear. induction fs as [|f fs IH]; intros from n H c Hc; cbn in H; [lia|]. destruct H as [<- H]. destruct (Z.lt_ge_cases c (cf_first f + zlen (cf_cells f))) as [Q|Q]; [exists f; split; [now left | lia]|].
      destruct (IH _ _ H c ltac:(lia)) as (g & Hg & Hr). exists g. split; [now right | exact Hr]. }
    destruct (K fs 0 (8 ^ bits) Hcov c0 (Hr c0 Hc0)) as (f & Hf & Hrf). exists f, c0. auto.
  - exists sel. split; [exact E|]. split.
    { intros p Hp. apply (picks_files_In _ _ _ P) in Hp. destruct Hp as (f & k & c & Hf & Hk & Hw & Hp). split; [unfold particles; apply in_concat; exists c; split; [|exact Hp]; apply in_concat; exists (cf_cells f); split; [now apply in_map | now apply nth_error_In in Hk]|].
      destruct (Hl (cf_first f + Z.of_nat k) p) as (L0 & L1 & L2 & L3); [exists f, k, c; auto|]. pose proof (Hr _ Hw) as Hh. set (h := cf_first f + Z.of_nat k) in *. destruct Hw as (i & j & l & Hi & Hj & Hlr & Ek).
      unfold key_of in L3. destruct (key_scalar bits (grid (coord 0 p), _, _)) as [h'|] eqn:Ep; [|discriminate]. injection L3 as ->.
      assert (0 < 2 ^ bits) as Hside by (apply Z.pow_pos_nonneg; lia).
      apply (scalar_bijection 0) in Ek; [|lia|repeat split; apply Z.mod_pos_bound; exact Hside|exact Hh]. apply (scalar_bijection 0) in Ep; [|lia|repeat split; lia|exact Hh]. rewrite Ep in Ek. injection Ek as E0 E1 E2.
      split; [exists i; auto|]. split; [exists j; auto | exists l; auto]. }
    intros p Hp Hv. apply (picks_files_In _ _ _ P). unfold particles in Hp. apply in_concat in Hp. destruct Hp as (cell & Hcell & Hp). apply in_concat in Hcell. destruct Hcell as (cells & Hcells & Hcell). apply in_map_iff in Hcells. destruct Hcells as (f & <- & Hf).
    apply In_nth_error in Hcell. destruct Hcell as (k & Hk). exists f, k, cell. split; [exact Hf|]. split; [exact Hk|]. split; [|exact Hp].
    assert (in_cell fs (cf_first f + Z.of_nat k) p) as Hin by (exists f, k, cell; auto).
    destruct (Hl _ _ Hin) as (L0 & L1 & L2 & L3). unfold in_volume in Hv. repeat (apply andb_true_iff in Hv; destruct Hv as [Hv ?]). repeat match goal with H : _ && _ = true |- _ => apply andb_true_iff in H; destruct H end.
    exists (grid (coord 0 p)), (grid (coord 1 p)), (grid (coord 2 p)). rewrite !Z.mod_small by assumption. repeat split; try (now apply Hm). unfold key_of in L3. destruct (key_scalar bits _) as [v|e]; congruence.
Qed.
