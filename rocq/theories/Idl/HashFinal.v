(** The theorems on the hash table in the form in which they are stated (C85), and example files. *)
From Coq Require Import QArith.
From Coq Require Import Ascii String.
From Verif Require Import Base.Prelude Base.ListLemmas Binary.BinModel Formats.FileSpec Formats.CatSpec Snap.ReadSpec.
From Verif Require Import Text.StrModel Text.PathSpec Fortran.RegionSpec Fortran.RegionFinal Fortran.RegionProofs Fortran.GroupTabSpec.
From Verif Require Import Idl.LibModel Idl.LibSpec Idl.SnapSpec Idl.StdioProofs Idl.SnapProofs Idl.HashProofs Idl.CellProofs Idl.TabFinal.
From Coq Require Import ZifyBool ZifyNat.
Local Open Scope Z_scope. Local Open Scope list_scope.

Definition holds (files : list (cellfile (list Z))) (t : hash) : Prop := is_tables files (Hashtable t) (Filetable t) (LastHashCell t) (NInFiles t).
Lemma size_final little fs dir base num n nhash box f files nfiles : 0 <= num -> snap_files little fs dir base num n nhash box (f :: files) -> 0 <= n < 2 ^ 31 -> 0 <= nhash < 2 ^ 31 ->
  get_hash_table_size little fs dir num base nfiles = Ok (n, nhash).
Proof.
  intros Hn HF H1 H2. assert (snap_files little fs dir base num n nhash box [f]) as HF' by (intros i g E; apply HF; destruct i as [|[|i]]; [exact E | discriminate E | discriminate E]).
  destruct (Z.eq_dec n 0) as [->|Hne].
  - destruct (HF 0%nat f eq_refl) as (cat & content & HI & (extra & P1 & P2 & P3 & P4 & P5 & P6 & P7 & P8 & P9 & P10) & S1 & S2 & S3). unfold get_hash_table_size, snap_name. pose proof (fopen_name fs dir base num 0 _ Hn (Z.le_refl 0) HI) as HO. cbn zeta in HO. rewrite HO.
    rewrite (snap_header_ok little cat extra content P1) by (rewrite ?P3, ?P7, ?P8; lia). cbn [bind snap_head num_files hashtabsize]. rewrite S1, S2. unfold signed. destruct (Z.ltb_spec nhash (2 ^ 31)); [reflexivity | lia].
  - rewrite (size_ok little fs dir base num n nhash box [f] Hn HF') with (f := f) (rest := []) by (reflexivity || (unfold zlen; cbn [List.length]; lia)). unfold signed. destruct (Z.ltb_spec nhash (2 ^ 31)); [reflexivity | lia].
Qed.
Definition room (files : list (cellfile (list Z))) (t : hash) : Prop :=
  zlen (cells files) <= zlen (Hashtable t) /\ zlen (cells files) <= zlen (Filetable t) /\ zlen files <= zlen (LastHashCell t) /\ zlen files <= zlen (NInFiles t).
Lemma table_final little fs dir base num nhash box files fuel t : 0 <= num -> files <> [] -> snap_files little fs dir base num (zlen files) nhash box files -> zlen files < 2 ^ 31 -> nhash < 2 ^ 31 ->
  covers 0 nhash files -> Forall (fun f => cf_cells f <> [] \/ 0 < cf_first f < nhash) files -> room files t -> (List.length files < fuel)%nat ->
  get_hash_table little fs dir num base fuel t =
    Ok (0, {| Hashtable := first_particles files ++ skipn (List.length (cells files)) (Hashtable t); Filetable := files_of_cells files ++ skipn (List.length (cells files)) (Filetable t);
              LastHashCell := last_cells files ++ skipn (List.length files) (LastHashCell t); NInFiles := particle_counts files ++ skipn (List.length files) (NInFiles t) |}).
Proof.
  intros Hn Hne HF H1 H2 HC HS HR Hf. pose proof (covers_len _ _ _ HC) as EN. rewrite Z.add_0_l in EN.
  rewrite (table_end little fs dir base num (zlen files) nhash box files Hn HF) with (fuel := fuel) by (assumption || reflexivity || lia || (rewrite <- EN; assumption)).
  unfold upto. rewrite files_FT, HT_len, FT_len. unfold last_cells, particle_counts. now rewrite !map_length.
Qed.
Lemma missing_hash_final little fs dir base num nhash box n files fuel t : 0 <= num -> files <> [] -> snap_files little fs dir base num n nhash box files -> zlen files < n < 2 ^ 31 -> nhash < 2 ^ 31 ->
  covers 0 (zlen (cells files)) files -> zlen (cells files) <= nhash -> Forall (fun f => cf_cells f <> [] \/ 0 < cf_first f < nhash) files -> room files t -> (List.length files < fuel)%nat ->
  file_is fs dir base num (zlen files) None -> exists t', get_hash_table little fs dir num base fuel t = Ok (-1, t').
Proof. intros Hn Hne HF H1 H2 HC HL HS HR Hf HM. eexists. apply (table_missing little fs dir base num n nhash box files Hn HF); try assumption; lia. Qed.
Lemma missing_first_final little fs dir base num fuel t nfiles : 0 <= num -> (0 < fuel)%nat -> file_is fs dir base num 0 None ->
  get_hash_table_size little fs dir num base nfiles = Ok (nfiles, -1) /\ get_hash_table little fs dir num base fuel t = Ok (-1, t).
Proof.
  intros Hn Hf HM. pose proof (fopen_name fs dir base num 0 None Hn (Z.le_refl 0) HM) as HO. cbn zeta in HO. split.
  - unfold get_hash_table_size, snap_name. now rewrite HO.
  - unfold get_hash_table. destruct fuel; [lia|]. cbn [hash_loop]. unfold snap_name. cbn [Z.ltb Z.compare]. now rewrite HO.
Qed.
Lemma cubes_final files nhash nfiles t tab (per := nhash / nfiles) (block := fun p => concat (zslice (cells files) (p * per) ((p + 1) * per))) : covers 0 nhash files -> holds files t -> countable files ->
  0 < nfiles <= zlen tab -> (forall p, 0 <= p < nfiles -> zlen (block p) < 2 ^ 31) ->
  get_particles_in_cubes t nhash nfiles tab = Ok (map (fun p => zlen (block p)) (zseq 0 (Z.to_nat nfiles)) ++ skipn (Z.to_nat nfiles) tab).
Proof.
  intros HC HH HK Hn Hb. assert (per = Z.quot nhash nfiles) as E by (unfold per; rewrite Z.quot_div_nonneg; [reflexivity | pose proof (covers_len _ _ _ HC); pose proof (zlen_nonneg (cells_of files)); lia | lia]).
  unfold block in *. rewrite E in *. now apply (cubes_ok files nhash t HC HH HK nfiles tab).
Qed.
Lemma cubes_all_final files nhash nfiles (per := nhash / nfiles) : covers 0 nhash files -> 0 < nfiles -> (nfiles | nhash) ->
  sumZ (map (fun p => zlen (concat (zslice (cells files) (p * per) ((p + 1) * per)))) (zseq 0 (Z.to_nat nfiles))) = sumZ (particle_counts files).
Proof.
  intros HC Hn HD. pose proof (covers_len _ _ _ HC) as EN. rewrite Z.add_0_l in EN. change (cells_of files) with (cells files) in EN. pose proof (zlen_nonneg (cells files)) as P0.
  assert (nfiles * per = nhash) as E by (unfold per; symmetry; now apply Z_div_exact_full_2; [lia | apply Z.mod_divide; [lia|]]).
  assert (0 <= per) as Hp by (unfold per; apply Z.div_pos; lia).
  pose proof (blocks_all files nhash HC nfiles per ltac:(lia) Hp ltac:(lia)) as B. unfold block in B. rewrite B, E. rewrite zslice_all by lia. unfold particle_counts, cells. clear.
  induction files as [|f l IH]; [reflexivity|]. cbn [map concat]. rewrite concat_app, zlen_app, IH. reflexivity.
Qed.

(** *** examples *)
(** the catalogue of a file with these cells *)
Definition ex_snap (n nhash box : Z) (f : cellfile (list Z)) : catalogue := fun name =>
  let all := concat (cf_cells f) in
  if String.eqb name "PartType1/Coordinates" then concat (map (fun p => fst (fst p)) all) else if String.eqb name "PartType1/Velocities" then concat (map (fun p => snd (fst p)) all)
  else if String.eqb name "PartType1/ParticleIDs" then map (fun p => nth 0 (snd p) 0) all
  else if String.eqb name "first_hash_cell" then [cf_first f] else if String.eqb name "last_hash_cell" then [cf_first f + zlen (cf_cells f) - 1] else if String.eqb name "blockid" then starts 0 (cf_cells f)
  else if String.eqb name "Header/NumPart_ThisFile" then [0; zlen all; 0; 0; 0; 0] else if String.eqb name "Header/MassTable" then [0; 7; 0; 0; 0; 0]
  else if String.eqb name "Header/NumPart_Total" then [0; zlen all; 0; 0; 0; 0] else if String.eqb name "Header/fill" then repeat 0 84
  else if String.eqb name "Header/NumFilesPerSnapshot" then [n] else if String.eqb name "Header/HashTabSize" then [nhash] else if String.eqb name "Header/BoxSize" then [box] else [1].
Definition ex_content (n nhash box : Z) (f : cellfile (list Z)) : list Z := file_bytes false (L2_snapshot (ex_snap n nhash box f)) ++ [9].
Definition ex_snaps (n nhash box : Z) (files : list (cellfile (list Z))) : str -> option (list Z) :=
  stored (map (fun '(i, f) => (lit "/data/snap_007." ++ fmt_d i, ex_content n nhash box f)) (numbered files)).
Definition P (x y z id : Z) : list Z * list Z * list Z := ([x; y; z], [0; 0; 0], [id]).
Definition cell_id (cell id : Z) : Z := cell * 2 ^ 34 + id.
(** 8 cells of size 4 in a box of size 8 *)
Definition ex_1 : cellfile (list Z) := {| cf_first := 0; cf_cells := [[P 1 1 1 (cell_id 0 11); P 3 3 3 (cell_id 0 12)]; [P 1 5 1 (cell_id 1 13)]; []] |}.
Definition ex_2 : cellfile (list Z) := {| cf_first := 3; cf_cells := [[P 7 1 2 (cell_id 3 14)]; [P 6 2 6 (cell_id 4 15)]; []; [P 2 6 5 (cell_id 6 16); P 3 7 7 (cell_id 6 17)]; [P 1 1 7 (cell_id 7 18)]] |}.
Definition ex_3 : cellfile (list Z) := {| cf_first := 8; cf_cells := [] |}.
Definition ex_t (nhash n : nat) : hash := {| Hashtable := repeat (-1) nhash; Filetable := repeat (-1) nhash; LastHashCell := repeat (-1) n; NInFiles := repeat (-1) n |}.
Ltac one_snap := split; [apply file_is_intro; [lia | lia | vm_compute; reflexivity]|]; split; [|repeat split]; exists [9]; split; [split; [apply pieces_okb; vm_compute; reflexivity | reflexivity]|];
  split; [cbn; repeat constructor|]; repeat (split; [reflexivity|]); reflexivity.
Lemma ex_snap_files : snap_files false (ex_snaps 2 8 8 [ex_1; ex_2]) (lit "/data") (lit "snap") 7 2 8 8 [ex_1; ex_2].
Proof.
  intros i f E. exists (ex_snap 2 8 8 f), (ex_content 2 8 8 f). destruct i as [|[|i]]; cbn [nth_error] in E; [| |destruct i; discriminate E].
  - injection E as <-. one_snap.
  - injection E as <-. one_snap.
Qed.
Lemma ex_snap_files1 : snap_files false (ex_snaps 2 8 8 [ex_1]) (lit "/data") (lit "snap") 7 2 8 8 [ex_1].
Proof. intros i f E. exists (ex_snap 2 8 8 f), (ex_content 2 8 8 f). destruct i as [|i]; cbn [nth_error] in E; [|destruct i; discriminate E]. injection E as <-. one_snap. Qed.
Lemma ex_snap_files3 : snap_files false (ex_snaps 3 8 8 [ex_1; ex_2; ex_3]) (lit "/data") (lit "snap") 7 3 8 8 [ex_1; ex_2; ex_3].
Proof.
  intros i f E. exists (ex_snap 3 8 8 f), (ex_content 3 8 8 f). destruct i as [|[|[|i]]]; cbn [nth_error] in E; [| | |destruct i; discriminate E].
  - injection E as <-. one_snap.
  - injection E as <-. one_snap.
  - injection E as <-. one_snap.
Qed.
Lemma ex_holds : exists t, get_hash_table false (ex_snaps 2 8 8 [ex_1; ex_2]) (lit "/data") 7 (lit "snap") 9 (ex_t 9 3) = Ok (0, t) /\ holds [ex_1; ex_2] t /\ countable [ex_1; ex_2].
Proof. eexists. split; [vm_compute; reflexivity|]. split; [exists [-1], [-1], [-1], [-1]; repeat split | repeat constructor]. Qed.
Lemma empty_refuted : exists fs files t, snap_files false fs (lit "/data") (lit "snap") 7 (zlen files) 8 8 files /\ covers 0 8 files /\ room files t /\
  exists t', get_hash_table false fs (lit "/data") 7 (lit "snap") 9 t = Ok (-1, t').
Proof.
  exists (ex_snaps 3 8 8 [ex_1; ex_2; ex_3]), [ex_1; ex_2; ex_3], (ex_t 9 3). split; [exact ex_snap_files3|]. split; [repeat split|]. split; [unfold room; vm_compute; repeat split; discriminate|]. eexists. vm_compute. reflexivity.
Qed.
Lemma cubes_refuted : exists files t, covers 0 8 files /\ holds files t /\ countable files /\ exists tab, get_particles_in_cubes t 8 3 [0; 0; 0] = Ok tab /\ sumZ tab <> sumZ (particle_counts files).
Proof.
  exists [ex_1; ex_2]. destruct ex_holds as (t & E & H1 & H2). exists t. split; [repeat split|]. split; [exact H1|]. split; [exact H2|]. vm_compute in E. injection E as <-. eexists. split; [vm_compute; reflexivity | discriminate].
Qed.
