(** Proofs about the number of particles in a cell (C85 to C87). *)
From Coq Require Import QArith.
From Coq Require Import Ascii String.
From Verif Require Import Base.Prelude Base.ListLemmas Binary.BinModel Formats.FileSpec Formats.CatSpec Snap.ReadSpec.
From Verif Require Import Text.StrModel Peano.CPeanoModel Fortran.SortModel Fortran.RegionModel Fortran.RegionSpec Fortran.RegionProofs.
From Verif Require Import Index.IndexModel Idl.LibModel Idl.LibSpec Idl.SnapSpec Idl.StdioProofs Idl.HashProofs.
From Coq Require Import ZifyBool ZifyNat.
Local Open Scope Z_scope. Local Open Scope list_scope.

Lemma c_int_ok z : - 2 ^ 31 <= z < 2 ^ 31 -> c_int z = Ok z.
Proof. intro H. unfold c_int. replace ((- 2 ^ 31 <=? z) && (z <? 2 ^ 31)) with true by lia. reflexivity. Qed.
Lemma rd_app2 {B} (a b : list B) i : zlen a <= i -> rd (a ++ b) i = rd b (i - zlen a).
Proof.
  intro H. pose proof (zlen_nonneg a). unfold rd. replace (0 <=? i) with true by lia. replace (0 <=? i - zlen a) with true by lia. unfold zlen in *. rewrite nth_error_app2 by lia.
  replace (Z.to_nat i - List.length a)%nat with (Z.to_nat (i - Z.of_nat (List.length a))) by lia. reflexivity.
Qed.
Lemma rd_app1 {B} (a b : list B) i : i < zlen a -> rd (a ++ b) i = rd a i.
Proof. intro H. unfold rd. destruct (Z.leb_spec 0 i) as [C|C]; [|reflexivity]. unfold zlen in *. now rewrite nth_error_app1 by lia. Qed.

Section Cells.
  Variables (files : list cfile) (nhash : Z) (t : hash).
  Hypothesis Hcov : covers 0 nhash files.
  Hypothesis HT : is_tables files (Hashtable t) (Filetable t) (LastHashCell t) (NInFiles t).
  Hypothesis Hcount : countable files.
  Lemma nhash_cells : nhash = zlen (cells files).
  Proof. apply covers_len in Hcov. exact Hcov. Qed.
  Section At.
    Variables (a b : list cfile) (f : cfile) (j : nat).
    Hypothesis E : files = a ++ f :: b.
    Hypothesis Hj : (j < List.length (cf_cells f))%nat.
    Let c := cf_first f + Z.of_nat j.
    Lemma at_first : cf_first f = zlen (cells a).
    Proof. pose proof Hcov as HC. rewrite E in HC. apply covers_app in HC. destruct HC as [_ [HC _]]. exact HC. Qed.
    Lemma at_cell : nth (Z.to_nat c) (cells files) [] = nth j (cf_cells f) [].
    Proof.
      unfold c. rewrite at_first. unfold cells. rewrite E, map_app, concat_app. cbn [map concat]. fold (cells a). unfold zlen. rewrite app_nth2 by lia. rewrite app_nth1 by lia. f_equal. lia.
    Qed.
    Lemma at_file : rd (Filetable t) c = Ok (zlen a).
    Proof.
      destruct HT as (r1 & r2 & r3 & r4 & E1 & E2 & E3 & E4). rewrite E2, files_FT, E, FT_app. unfold c. rewrite at_first, <- app_assoc.
      assert (zlen (FT 0 a) = zlen (cells a)) as EH by (unfold zlen; now rewrite FT_len). rewrite rd_app2 by lia. rewrite EH. cbn [FT]. rewrite <- app_assoc.
      replace (zlen (cells a) + Z.of_nat j - zlen (cells a)) with (Z.of_nat j) by lia. rewrite rd_app1 by (unfold zlen; rewrite repeat_length; lia). apply rd_nth; [lia|]. rewrite Nat2Z.id, Z.add_0_l. now apply repeat_nth.
    Qed.
    Lemma at_start i : (i < List.length (cf_cells f))%nat -> rd (Hashtable t) (cf_first f + Z.of_nat i) = Ok (zlen (concat (firstn i (cf_cells f)))).
    Proof.
      intro Hi. destruct HT as (r1 & r2 & r3 & r4 & E1 & E2 & E3 & E4). rewrite E1. unfold first_particles. rewrite E, map_app, concat_app. cbn [map concat]. fold (RegionProofs.HT a). rewrite at_first, <- !app_assoc.
      assert (zlen (RegionProofs.HT a) = zlen (cells a)) as EH by (unfold zlen; now rewrite HT_len). rewrite rd_app2 by lia. rewrite EH.
      replace (zlen (cells a) + Z.of_nat i - zlen (cells a)) with (Z.of_nat i) by lia. rewrite rd_app1 by (unfold zlen; rewrite starts_len; lia). apply rd_nth; [lia|]. rewrite Nat2Z.id. now apply starts_nth.
    Qed.
    Lemma at_map {B} (g : cfile -> B) r : rd (map g files ++ r) (zlen a) = Ok (g f).
    Proof. apply rd_nth; [apply zlen_nonneg|]. unfold zlen. rewrite Nat2Z.id, E, map_app, <- app_assoc, nth_error_app2; rewrite map_length; [|lia]. now rewrite Nat.sub_diag. Qed.
    Lemma at_sum i : (i < List.length (cf_cells f))%nat -> zlen (concat (firstn (S i) (cf_cells f))) = zlen (concat (firstn i (cf_cells f))) + zlen (nth i (cf_cells f) []).
    Proof.
      clear. generalize (cf_cells f). intros l. revert i. induction l as [|x l IH]; intros [|i] Hi; cbn [List.length] in Hi; try lia; [cbn; rewrite app_nil_r; unfold zlen; cbn; lia|]. change (firstn (S (S i)) (x :: l)) with (x :: firstn (S i) l).
      cbn [firstn concat nth]. rewrite !zlen_app. change (match l with [] => [] | a :: l0 => a :: firstn i l0 end) with (firstn (S i) l). rewrite IH by lia. lia.
    Qed.
    Lemma at_bound i : zlen (concat (firstn i (cf_cells f))) <= zlen (concat (cf_cells f)).
    Proof. rewrite <- (firstn_skipn i (cf_cells f)) at 2. rewrite concat_app, zlen_app. pose proof (zlen_nonneg (concat (skipn i (cf_cells f)))). lia. Qed.
    Lemma at_small : zlen (concat (cf_cells f)) < 2 ^ 31.
    Proof. unfold countable in Hcount. rewrite Forall_forall in Hcount. apply Hcount. rewrite E. apply in_elt. Qed.
    Lemma at_len : cell_len t (zlen a) c = Ok (zlen (nth j (cf_cells f) [])).
    Proof.
      destruct HT as (r1 & r2 & r3 & r4 & E1 & E2 & E3 & E4). unfold cell_len. rewrite E3, E4. unfold last_cells, particle_counts. rewrite (at_map (fun f => cf_first f + zlen (cf_cells f) - 1)). cbn [bind].
      pose proof at_small as SM. pose proof (at_bound (S j)) as B1. pose proof (at_bound j) as B2. pose proof (at_sum j Hj) as G. pose proof (zlen_nonneg (nth j (cf_cells f) [])) as P0. pose proof (zlen_nonneg (concat (firstn j (cf_cells f)))) as P1.
      assert (zlen (cf_cells f) = Z.of_nat (List.length (cf_cells f))) as EZ by reflexivity. unfold c.
      destruct (Z.eqb_spec (cf_first f + Z.of_nat j) (cf_first f + zlen (cf_cells f) - 1)) as [C|C]; cbn [negb].
      - rewrite (at_map (fun f => zlen (concat (cf_cells f)))). cbn [bind]. rewrite at_start by exact Hj. cbn [bind].
        assert (zlen (concat (cf_cells f)) = zlen (concat (firstn (S j) (cf_cells f)))) as -> by (rewrite firstn_all2 by lia; reflexivity). rewrite c_int_ok by lia. f_equal. lia.
      - replace (cf_first f + Z.of_nat j + 1) with (cf_first f + Z.of_nat (S j)) by lia. rewrite (at_start (S j)) by lia. cbn [bind]. rewrite at_start by exact Hj. cbn [bind]. rewrite c_int_ok by lia. f_equal. lia.
    Qed.
  End At.
  Lemma cell_ok c : 0 <= c < nhash -> exists file, rd (Filetable t) c = Ok file /\ cell_len t file c = Ok (zlen (nth (Z.to_nat c) (cells files) [])).
  Proof.
    intro H. destruct (locate_in files 0 nhash c Hcov H) as (a & f & b & j & E & Ec & Hj). rewrite Ec. exists (zlen a). split; [now apply (at_file a b f j E)|]. rewrite (at_len a b f j E Hj). now rewrite (at_cell a b f j E Hj).
  Qed.

  (** *** cubes *)
  Lemma slice_next i k : 0 <= i -> 0 <= k -> i + k < nhash -> zslice (cells files) i (i + (k + 1)) = zslice (cells files) i (i + k) ++ [nth (Z.to_nat (i + k)) (cells files) []].
  Proof.
    intros Hi Hk Hl. rewrite nhash_cells in Hl. rewrite (zslice_split (cells files) i (i + k) (i + (k + 1))) by lia. f_equal.
    pose proof (zlen_zslice (cells files) (i + k) (i + (k + 1)) ltac:(lia) ltac:(lia) ltac:(lia)) as E. pose proof (nth_zslice (cells files) (i + k) (i + (k + 1)) 0 [] ltac:(lia) ltac:(lia)) as E2.
    destruct (zslice (cells files) (i + k) (i + (k + 1))) as [|x [|]]; unfold zlen in E; cbn in E; try lia. cbn in E2. rewrite E2. do 2 f_equal. lia.
  Qed.
  Lemma block_sum m : forall i k sum, sum = zlen (concat (zslice (cells files) i (i + k))) -> 0 <= i -> 0 <= k -> i + k + Z.of_nat m <= nhash -> zlen (concat (zslice (cells files) i (i + (k + Z.of_nat m)))) < 2 ^ 31 ->
    foldM (fun sum hash_key => do file <- rd (Filetable t) hash_key; do count <- cell_len t file hash_key; c_int (sum + count)) (zseq (i + k) m) sum = Ok (zlen (concat (zslice (cells files) i (i + (k + Z.of_nat m))))).
  Proof.
    induction m as [|m IH]; intros i k sum Es Hi Hk Hl Hs.
    - cbn [zseq foldM]. rewrite Es. do 4 f_equal. lia.
    - cbn [zseq foldM]. destruct (cell_ok (i + k) ltac:(lia)) as (file & R1 & R2). rewrite R1. cbn [bind]. rewrite R2. cbn [bind].
      assert (sum + zlen (nth (Z.to_nat (i + k)) (cells files) []) = zlen (concat (zslice (cells files) i (i + (k + 1))))) as E1 by (rewrite slice_next by lia; rewrite concat_app, zlen_app, Es; cbn [concat]; rewrite app_nil_r; reflexivity).
      rewrite E1. assert (zlen (concat (zslice (cells files) i (i + (k + 1)))) <= zlen (concat (zslice (cells files) i (i + (k + Z.of_nat (S m)))))) as LE.
      { pose proof nhash_cells. rewrite (zslice_split (cells files) i (i + (k + 1)) (i + (k + Z.of_nat (S m)))) by lia. rewrite concat_app, zlen_app. pose proof (zlen_nonneg (concat (zslice (cells files) (i + (k + 1)) (i + (k + Z.of_nat (S m)))))). lia. }
      rewrite c_int_ok by (pose proof (zlen_nonneg (concat (zslice (cells files) i (i + (k + 1))))); lia). cbn [bind]. replace (i + k + 1) with (i + (k + 1)) by lia. replace (k + Z.of_nat (S m)) with (k + 1 + Z.of_nat m) in * by lia. apply IH; try lia; reflexivity.
  Qed.
  Definition block (per p : Z) : list (list particle) := zslice (cells files) (p * per) ((p + 1) * per).
  Lemma cubes_steps nfiles tab0 (per := Z.quot nhash nfiles) : 0 < nfiles -> nfiles <= zlen tab0 -> (forall p, 0 <= p < nfiles -> zlen (concat (block per p)) < 2 ^ 31) -> forall m p, Z.of_nat m + p = nfiles -> 0 <= p ->
    foldM (fun tab proc =>
      do countsum <- foldM (fun sum hash_key => do file <- rd (Filetable t) hash_key; do count <- cell_len t file hash_key; c_int (sum + count)) (zseq (proc * per) (Z.to_nat per)) 0;
      wr tab proc countsum) (zseq p m) (map (fun p => zlen (concat (block per p))) (zseq 0 (Z.to_nat p)) ++ skipn (Z.to_nat p) tab0) =
    Ok (map (fun p => zlen (concat (block per p))) (zseq 0 (Z.to_nat nfiles)) ++ skipn (Z.to_nat nfiles) tab0).
  Proof.
    intros Hn Hl Hs. assert (0 <= nhash) as H0 by (rewrite nhash_cells; apply zlen_nonneg). assert (0 <= per) as Hper by (apply Z.quot_pos; lia). assert (nfiles * per <= nhash) as Hmul by (unfold per; rewrite Z.quot_div_nonneg by lia; apply Z.mul_div_le; lia).
    induction m as [|m IH]; intros p Hm Hp.
    - replace p with nfiles by lia. reflexivity.
    - cbn [zseq foldM]. assert (p < nfiles) as Hlt by lia. pose proof (Hs p ltac:(lia)) as Hsp. unfold block in Hsp.
      assert ((p + 1) * per <= nhash) as Hpp by nia.
      pose proof (block_sum (Z.to_nat per) (p * per) 0 0) as BS. rewrite Z.add_0_r, Z2Nat.id in BS by lia. replace (p * per + (0 + per)) with ((p + 1) * per) in BS by lia.
      rewrite BS; [|unfold zslice; now rewrite Nat.sub_diag | nia | lia | lia | exact Hsp]. cbn [bind].
      set (pre := map (fun p => zlen (concat (block per p))) (zseq 0 (Z.to_nat p))). assert (zlen pre = p) as Ep by (unfold pre; rewrite zlen_map, zlen_zseq; lia).
      assert (List.length pre = Z.to_nat p) as Ep' by (unfold zlen in Ep; lia). rewrite <- Ep'. rewrite <- Ep at 1. rewrite wr_next by lia. cbn [bind].
      specialize (IH (p + 1) ltac:(lia) ltac:(lia)). rewrite <- IH. f_equal. replace (Z.to_nat (p + 1)) with (Z.to_nat p + 1)%nat by lia. rewrite zseq_app, map_app. fold pre. cbn [zseq map]. rewrite Z.add_0_l, Z2Nat.id by lia.
      unfold block at 1. f_equal. rewrite app_length, Ep'. reflexivity.
  Qed.
  Lemma cubes_ok nfiles tab0 (per := Z.quot nhash nfiles) : 0 < nfiles -> nfiles <= zlen tab0 -> (forall p, 0 <= p < nfiles -> zlen (concat (block per p)) < 2 ^ 31) ->
    get_particles_in_cubes t nhash nfiles tab0 = Ok (map (fun p => zlen (concat (block per p))) (zseq 0 (Z.to_nat nfiles)) ++ skipn (Z.to_nat nfiles) tab0).
  Proof. intros Hn Hl Hs. unfold get_particles_in_cubes. apply (cubes_steps nfiles tab0 Hn Hl Hs (Z.to_nat nfiles) 0); lia. Qed.
  (** all particles are counted if the number of files divides the number of cells *)
  Lemma blocks_all nfiles per : 0 <= nfiles -> 0 <= per -> nfiles * per <= nhash -> sumZ (map (fun p => zlen (concat (block per p))) (zseq 0 (Z.to_nat nfiles))) = zlen (concat (zslice (cells files) 0 (nfiles * per))).
  Proof.
    intros H0 H1. rewrite <- (Z2Nat.id nfiles) at 1 3 by lia. generalize (Z.to_nat nfiles). intro m. induction m as [|m IH]; intro Hl; [reflexivity|].
    replace (S m) with (m + 1)%nat at 1 by lia. rewrite zseq_app, map_app, sumZ_app, IH by lia. cbn [zseq map]. unfold sumZ. cbn [fold_right]. unfold block. pose proof nhash_cells.
    rewrite (zslice_split (cells files) 0 (Z.of_nat m * per) (Z.of_nat (S m) * per)) by nia. rewrite concat_app, zlen_app. rewrite Z.add_0_l, Z.add_0_r. do 5 f_equal. lia.
  Qed.
End Cells.
