(** Proofs for RegionPyModel.v. *)
From Coq Require Import Ascii String Reals Lra.
From Flocq Require Import Core.
From Verif Require Import Base.Prelude Base.ListLemmas Text.StrModel Text.StrSpec Formats.FileSpec Formats.CatSpec Peano.PeanoModel Snap.ReadModel Snap.ReadSpec Fortran.RegionSpec Fortran.RegionFinal Fortran.FofSpec Fortran.VolumeSpec.
From Verif Require Import Snap.MillModel Snap.MillSpec Snap.MillProofs Snap.MillFinal Snap.MillFloat Script.SubListSpec Script.SubListFinal Snap.RegionPyModel Snap.RegionPySpec.
From Coq Require Import ZifyBool ZifyNat.
Local Open Scope Z_scope.
Local Open Scope list_scope.

Definition name_i (i : Z) : str := snapshot_name (lit "/virgo/data/Millennium/") (lit "snap_millennium") 63 i.
Lemma name_i_63 i : name_63 i (name_i i).
Proof. exists (fmt_d i). split; [apply shows_fmt_d|]. unfold name_i, snapshot_name. replace (fmt_0d 3 63) with (lit "063") by (vm_compute; reflexivity). reflexivity. Qed.
Lemma disk_snapshot fsys files fs nhash boxsize : on_disk fsys files -> is_snapshot files fs nhash boxsize -> is_snapshot (fun i => fsys (name_i i)) fs nhash boxsize.
Proof.
  intros D (H1 & H2 & H3 & H4 & H5). repeat (split; [assumption|]). intros i f Hi. destruct (H5 i f Hi) as (lf & cat & extra & E & R). exists lf, cat, extra. split; [|exact R].
  rewrite <- E. apply D; [lia | apply name_i_63].
Qed.
Lemma init_bits little files fs boxsize bits : 1 <= bits <= 10 -> is_snapshot files fs (8 ^ bits) boxsize ->
  snapshot_init little files = Ok {| s_nhash := 8 ^ bits; s_boxsize := boxsize; s_nfiles := zlen fs; s_ncell := 2 ^ bits; s_bits := bits |}.
Proof.
  intros Hb Hs. destruct (init_ok little files fs (8 ^ bits) boxsize Hs) as (b & E & B & U & L). rewrite E. assert (b = bits) as ->; [|reflexivity].
  assert (bits <= b) by (destruct (Z.le_gt_cases bits b) as [Q|Q]; [exact Q|]; exfalso; assert (8 ^ b < 8 ^ bits) by (apply Z.pow_lt_mono_r; lia); lia).
  destruct (Z.le_gt_cases b bits) as [Q|Q]; [lia|]. exfalso. specialize (L bits ltac:(lia)). lia.
Qed.
Section Region.
  Variables (little : bool) (fsys : str -> option (list Z)) (files : Z -> option (list Z)) (fs : list (cellfile (list Z))) (boxsize bits junk : Z) (box val : Z -> R).
  Let grid a := floor_cell (box boxsize) (2 ^ bits) (val a).
  Hypotheses (Hd : on_disk fsys files) (Hs : is_snapshot files fs (8 ^ bits) boxsize) (Hb : 1 <= bits <= 10) (Hc : covers 0 (8 ^ bits) fs) (Hv : single_10_20 val)
    (Hp : (0 < double (box boxsize / IZR (2 ^ bits)))%R) (Hl : located grid (2 ^ bits) (key_of bits) fs).
  Lemma script_reads : exists sel, read_region_py little fsys true junk box = Ok (map (fun p => fst (fst p)) sel, map (fun p => snd (fst p)) sel, map snd sel) /\
    (forall p, In p sel -> In p (particles fs) /\ forall k, (k < 3)%nat -> near val (floor_cell (box boxsize) (2 ^ bits)) (2 ^ bits) (coord k p)) /\ forall p, In p (particles fs) -> in_region val p -> In p sel.
  Proof using All.
    pose proof (disk_snapshot _ _ _ _ _ Hd Hs) as Hs'. unfold read_region_py, open_and_read. cbv zeta. fold name_i. change (fun i => fsys (snapshot_name (lit "/virgo/data/Millennium/") (lit "snap_millennium") 63 i)) with (fun i => fsys (name_i i)).
    rewrite (init_bits little _ fs boxsize bits Hb Hs'). cbn [bind s_boxsize s_ncell map]. set (s := {| s_nhash := 8 ^ bits; s_boxsize := boxsize; s_nfiles := zlen fs; s_ncell := 2 ^ bits; s_bits := bits |}).
    destruct Hv as (V1 & V2). pose proof (double_monotone val (box boxsize) (2 ^ bits) Hp) as Hm. fold grid in Hm.
    assert (grid 1092616192 <= grid 1101004800) as Hg by (apply Hm; apply Rle_bool_true; rewrite V1, V2; lra).
    destruct (mill_contains little (fun i => fsys (name_i i)) fs boxsize bits junk [] grid _ 1092616192 1101004800 1092616192 1101004800 1092616192 1101004800 Hs' Hb Hc Hm Hl Hg Hg Hg) as (sel & E & W & K).
    exists sel. fold s in E. split; [|split].
    - rewrite <- E. unfold grid. rewrite V1, V2. reflexivity.
    - intros p Ip. destruct (W p Ip) as (I & (i0 & R0 & E0) & (i1 & R1 & E1) & (i2 & R2 & E2)). split; [exact I|]. unfold grid in *. rewrite V1, V2 in *. intros [|[|[|k]]] Hk; [exists i0 | exists i1 | exists i2 | lia]; auto.
    - intros p I R. apply K; [exact I|]. unfold in_volume. pose proof (R 0%nat ltac:(lia)) as R0. pose proof (R 1%nat ltac:(lia)) as R1. pose proof (R 2%nat ltac:(lia)) as R2. rewrite !Rle_bool_true by (rewrite ?V1, ?V2; lra). reflexivity.
  Qed.
End Region.
(** current numpy *)
Lemma script_numpy little fsys junk box : match read_region_py little fsys false junk box with Ok _ => False | Err _ => True end.
Proof. unfold read_region_py, open_and_read. cbv zeta. destruct (snapshot_init _ _) as [s|e]; cbn [bind]; [|exact I]. rewrite mill_region_numpy. exact I. Qed.
Lemma script_numpy_type little fsys files fs boxsize bits junk box : on_disk fsys files -> is_snapshot files fs (8 ^ bits) boxsize -> 1 <= bits <= 10 -> read_region_py little fsys false junk box = Err EType.
Proof.
  intros Hd Hs Hb. pose proof (disk_snapshot _ _ _ _ _ Hd Hs) as Hs'. unfold read_region_py, open_and_read. cbv zeta. change (fun i => fsys (snapshot_name (lit "/virgo/data/Millennium/") (lit "snap_millennium") 63 i)) with (fun i => fsys (name_i i)).
  rewrite (init_bits little _ fs boxsize bits Hb Hs'). cbn [bind]. now rewrite mill_region_numpy.
Qed.
(** no first file *)
Lemma script_missing little fsys float_dims junk box : (forall name, name_63 0 name -> fsys name = None) -> read_region_py little fsys float_dims junk box = Err EIO.
Proof.
  intro H. unfold read_region_py, open_and_read, snapshot_init, open_snapshot. cbv zeta. change (snapshot_name (lit "/virgo/data/Millennium/") (lit "snap_millennium") 63 0) with (name_i 0). now rewrite (H _ (name_i_63 0)).
Qed.

Lemma shows_value s a b : shows s a -> shows s b -> a = b.
Proof. intros [(H1 & H2 & H3) | (t & -> & H1 & H2 & H3)] [(K1 & K2 & K3) | (u & E & K1 & K2 & K3)]; [congruence | | | injection E as <-; lia]; exfalso; subst; match goal with D : decimal (_ :: _) |- _ => destruct D as (D & _); inversion D as [|? ? Q]; discriminate Q end. Qed.
(** *** for the example: numbers of sixteenths are exact *)
Lemma double_16 m : Z.abs m < 2 ^ 53 -> double (IZR m / 16) = (IZR m / 16)%R.
Proof.
  intro H. unfold double. apply round_generic; [apply valid_rnd_N|]. assert (Prec_gt_0 53) as P by reflexivity. apply generic_format_FLT. exists (Float radix2 m (-4)); [|exact H|cbn; lia].
  unfold F2R. cbn [Fnum Fexp bpow]. change (Z.pow_pos radix2 4) with 16. lra.
Qed.
Lemma floor_16 m : Z.abs m < 2 ^ 53 -> floor_cell 32 2 (IZR m) = m / 16.
Proof.
  intro H. unfold floor_cell. replace (32 / IZR 2)%R with (IZR 256 / 16)%R by lra. rewrite (double_16 256) by reflexivity. replace (IZR m / (IZR 256 / 16))%R with (IZR m / 16)%R by lra. rewrite double_16 by exact H.
  apply Zfloor_imp. pose proof (Z.div_mod m 16 ltac:(lia)) as D. pose proof (Z.mod_pos_bound m 16 ltac:(lia)) as B. set (q := m / 16) in *. set (r := m mod 16) in *.
  assert (IZR m = 16 * IZR q + IZR r)%R as E by (rewrite D, plus_IZR, mult_IZR; reflexivity). assert (0 <= IZR r < 16)%R by (split; [apply IZR_le | apply IZR_lt]; lia). rewrite plus_IZR. lra.
Qed.
