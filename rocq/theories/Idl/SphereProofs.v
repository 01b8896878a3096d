(** Proofs about the functions which read spherical regions (C87). *)
From Coq Require Import QArith Qround Lqa.
From Verif Require Import Base.Prelude Base.ListLemmas Snap.ReadSpec Peano.PeanoModel Peano.PeanoCurve Peano.PeanoProofs Peano.CPeanoModel Peano.CPeanoProofs Fortran.RegionSpec Fortran.FofSpec Fortran.VolumeSpec.
From Verif Require Import Index.IndexModel Idl.LibModel Idl.LibSpec Idl.StdioProofs Idl.SnapSpec Idl.SnapProofs Idl.HashProofs Idl.CellProofs Idl.GroupSpec Idl.GroupProofs Idl.CentreProofs Idl.SphereSpec.
From Coq Require Import ZifyBool ZifyNat.
Local Open Scope Z_scope. Local Open Scope list_scope.

(** *** the cells *)
Lemma ten (P : Z -> Prop) b : 1 <= b <= 10 -> P 1 -> P 2 -> P 3 -> P 4 -> P 5 -> P 6 -> P 7 -> P 8 -> P 9 -> P 10 -> P b.
Proof. intros H. intros. assert (b = 1 \/ b = 2 \/ b = 3 \/ b = 4 \/ b = 5 \/ b = 6 \/ b = 7 \/ b = 8 \/ b = 9 \/ b = 10) as C by lia. repeat (destruct C as [-> | C]; [assumption|]). now rewrite C. Qed.
Lemma base_ok b : 1 <= b <= 10 -> find_base WORD 1 (8 ^ b) = Ok (2 ^ b).
Proof. intro H. apply (ten (fun b => find_base WORD 1 (8 ^ b) = Ok (2 ^ b)) b H); vm_compute; reflexivity. Qed.
Lemma bits_found b : 1 <= b <= 10 -> find_bits WORD 1 (2 ^ b) = Ok b.
Proof. intro H. apply (ten (fun b => find_bits WORD 1 (2 ^ b) = Ok b) b H); vm_compute; reflexivity. Qed.
Lemma floor_cell (cs s : Q) : (0 < cs)%Q -> inside cs (Qfloor (s / cs)) s.
Proof.
  intro H. pose proof (Qfloor_le (s / cs)) as F1. pose proof (Qlt_floor (s / cs)) as F2. rewrite inject_Z_plus in F2. change (inject_Z 1) with 1%Q in F2. set (f := inject_Z (Qfloor (s / cs))) in *. unfold inside. fold f.
  assert (s == (s / cs) * cs)%Q as E by (field; lra). split; [rewrite E; apply Qmult_le_compat_r; lra | rewrite E at 1; apply Qmult_lt_compat_r; assumption].
Qed.
Lemma cells_lt (cs : Q) a b : (0 < cs)%Q -> (inject_Z a * cs < inject_Z b * cs)%Q -> a < b.
Proof. intros H1 H2. rewrite Zlt_Qlt. apply (Qmult_lt_r _ _ cs H1). exact H2. Qed.
Lemma flat_map_NoDup {A B} (f : A -> list B) l : NoDup l -> (forall x, NoDup (f x)) -> (forall x y e, In e (f x) -> In e (f y) -> x = y) -> NoDup (flat_map f l).
Proof.
  intros HN H1 H2. induction HN as [|x l Hx HN IH]; [constructor|]. cbn [flat_map]. assert (forall e, In e (f x) -> ~ In e (flat_map f l)) as D.
  { intros e E1 E2. apply in_flat_map in E2. destruct E2 as (y & Hy & E2). now rewrite (H2 x y e E1 E2) in Hx. }
  specialize (H1 x). revert D. generalize (f x) H1. clear - IH. intros m Hm. induction Hm as [|e m He Hm IHm]; intro D; [exact IH|]. cbn [app]. constructor; [|apply IHm; intros; apply D; now right].
  intro HI. apply in_app_or in HI. destruct HI as [HI|HI]; [now apply He | now apply (D e (or_introl eq_refl))].
Qed.
Lemma map_NoDup_in {A B} (f : A -> B) l : NoDup l -> (forall x y, In x l -> In y l -> f x = f y -> x = y) -> NoDup (map f l).
Proof.
  intros HN H. induction HN as [|x l Hx HN IH]; [constructor|]. cbn [map]. constructor; [|apply IH; intros; apply H; (now right) || assumption].
  intro HI. apply in_map_iff in HI. destruct HI as (y & E & Hy). apply Hx. now rewrite <- (H y x (or_intror Hy) (or_introl eq_refl) E).
Qed.
Definition triples (r1 r2 r3 : list Z) : list (Z * Z * Z) := flat_map (fun ix => flat_map (fun iy => map (fun iz => (ix, iy, iz)) r3) r2) r1.
Lemma In_triples r1 r2 r3 i j k : In (i, j, k) (triples r1 r2 r3) <-> In i r1 /\ In j r2 /\ In k r3.
Proof.
  unfold triples. rewrite in_flat_map. split.
  - intros (x & Hx & H). apply in_flat_map in H. destruct H as (y & Hy & H). apply in_map_iff in H. destruct H as (z & E & Hz). injection E as <- <- <-. now repeat split.
  - intros (H1 & H2 & H3). exists i. split; [exact H1|]. apply in_flat_map. exists j. split; [exact H2|]. apply in_map_iff. now exists k.
Qed.
Lemma triples_NoDup r1 r2 r3 : NoDup r1 -> NoDup r2 -> NoDup r3 -> NoDup (triples r1 r2 r3).
Proof.
  intros H1 H2 H3. apply flat_map_NoDup; [exact H1 | |].
  - intro x. apply flat_map_NoDup; [exact H2 | |].
    + intro y. apply map_NoDup_in; [exact H3|]. intros a b _ _ E. now injection E.
    + intros a b e Ha Hb. apply in_map_iff in Ha, Hb. destruct Ha as (z & <- & _), Hb as (z' & E & _). now injection E.
  - intros a b e Ha Hb. apply in_flat_map in Ha, Hb. destruct Ha as (y & _ & Ha), Hb as (y' & _ & Hb). apply in_map_iff in Ha, Hb. destruct Ha as (z & <- & _), Hb as (z' & E & _). now injection E.
Qed.
Lemma key_K b x y z c : 1 <= b <= 10 -> 0 <= x < 2 ^ b -> 0 <= y < 2 ^ b -> 0 <= z < 2 ^ b -> key_of b (x, y, z) = Some c <-> K (Z.to_nat b) s0 (x, y, z) = c.
Proof.
  intros Hb Hx Hy Hz. unfold key_of. rewrite key_scalar_ok by lia. rewrite the_key_K by (lia || (cbn; tauto)). split; [now intros [= ->] | now intros ->].
Qed.
Lemma K_same b x y z x' y' z' : 1 <= b <= 10 -> 0 <= x < 2 ^ b -> 0 <= y < 2 ^ b -> 0 <= z < 2 ^ b -> 0 <= x' < 2 ^ b -> 0 <= y' < 2 ^ b -> 0 <= z' < 2 ^ b ->
  K (Z.to_nat b) s0 (x, y, z) = K (Z.to_nat b) s0 (x', y', z') -> x = x' /\ y = y' /\ z = z'.
Proof.
  intros Hb Hx Hy Hz Hx' Hy' Hz' E. apply (f_equal (I (Z.to_nat b) s0)) in E. rewrite !I_K in E by exact s0_in. cbn [pmod] in E. rewrite Z2Nat.id in E by lia. rewrite !Z.mod_small in E by lia. now injection E.
Qed.

Section Axis.
  Variables (b : Z) (box rad s : Q).
  Hypothesis Hb : 1 <= b <= 10.
  Hypothesis Hbox : (0 < box)%Q.
  Notation side := (2 ^ b).
  Notation cs := (cell_size box b).
  Hypothesis Hs : (0 <= s < box)%Q.
  Hypothesis Hr : (0 <= rad)%Q.
  Hypothesis Hr2 : (rad + cs < (1 # 2) * box)%Q.
  Let n := Qfloor (rad / cs) + 1.
  Let c := Qfloor (s / cs).
  Lemma side_pos : 0 < side. Proof. apply Z.pow_pos_nonneg; lia. Qed.
  Lemma sideQ : (0 < inject_Z side)%Q. Proof. change 0%Q with (inject_Z 0). rewrite <- Zlt_Qlt. exact side_pos. Qed.
  Lemma cs_pos : (0 < cs)%Q.
  Proof. unfold cell_size. apply Qlt_shift_div_l; [exact sideQ | lra]. Qed.
  Lemma cs_box : (inject_Z side * cs == box)%Q.
  Proof. unfold cell_size. field. pose proof sideQ. lra. Qed.
  Lemma n_bounds : 1 <= n /\ 2 * n + 1 <= side.
  Proof.
    pose proof (floor_cell cs rad cs_pos) as [F1 F2]. unfold n. set (f := Qfloor (rad / cs)) in *. pose proof cs_pos as P. pose proof cs_box as E. split.
    - assert (0 < f + 1); [|lia]. apply (cells_lt cs _ _ P). rewrite inject_Z_plus. change (inject_Z 0) with 0%Q. change (inject_Z 1) with 1%Q. lra.
    - assert (2 * (f + 1) < side) as G; [|lia]. apply (cells_lt cs _ _ P). rewrite E, inject_Z_mult, inject_Z_plus. change (inject_Z 2) with 2%Q. change (inject_Z 1) with 1%Q. lra.
  Qed.
  Lemma c_bounds : 0 <= c < side.
  Proof.
    pose proof (floor_cell cs s cs_pos) as [F1 F2]. fold c in F1, F2. pose proof cs_pos as P. pose proof cs_box as E. split.
    - assert (0 < c + 1); [|lia]. apply (cells_lt cs _ _ P). rewrite inject_Z_plus. change (inject_Z 0) with 0%Q. change (inject_Z 1) with 1%Q. lra.
    - apply (cells_lt cs _ _ P). rewrite E. lra.
  Qed.
  Lemma wrap_range i : c - n <= i <= c + n -> 0 <= wrap_cell side i < side /\ exists e, i = wrap_cell side i + e * side.
  Proof.
    pose proof n_bounds. pose proof c_bounds. intro Hi. unfold wrap_cell. destruct (Z.ltb_spec i 0); [destruct (Z.leb_spec side (i + side)); [lia | split; [lia | exists (-1); lia]] | destruct (Z.leb_spec side i); [split; [lia | exists 1; lia] | split; [lia | exists 0; lia]]].
  Qed.
  Lemma wrap_same i j : c - n <= i <= c + n -> c - n <= j <= c + n -> wrap_cell side i = wrap_cell side j -> i = j.
  Proof.
    intros Hi Hj E. pose proof n_bounds. destruct (wrap_range i Hi) as [R (e & Ei)], (wrap_range j Hj) as [R' (f & Ej)]. rewrite E in Ei. assert (i - j = (e - f) * side) as D by lia. assert (e = f); [|lia]. destruct (Z.lt_trichotomy e f) as [L | [L | L]]; [|exact L|]; exfalso; nia.
  Qed.
  (** cells of positions which are near *)
  Lemma near_cell i x : 0 <= i < side -> inside cs i x -> near box rad s x -> exists j, c - n <= j <= c + n /\ wrap_cell side j = i.
  Proof.
    intros Hi [I1 I2] (k & N1 & N2). pose proof (floor_cell cs s cs_pos) as [F1 F2]. fold c in F1, F2. pose proof (floor_cell cs rad cs_pos) as [G1 G2]. pose proof cs_pos as P. pose proof cs_box as E. pose proof n_bounds as B.
    assert (inject_Z k * box == inject_Z k * inject_Z side * cs)%Q as Ek by (transitivity (inject_Z k * (inject_Z side * cs))%Q; [apply Qmult_comp; [reflexivity | symmetry; exact E] | ring]).
    exists (i + k * side). assert (c - n <= i + k * side <= c + n) as R.
    { unfold n. set (f := Qfloor (rad / cs)) in *. split.
      - assert (c - (f + 1) < i + k * side + 1) as L; [|lia]. apply (cells_lt cs _ _ P). unfold Z.sub. rewrite !inject_Z_plus, inject_Z_opp, !inject_Z_plus, inject_Z_mult. change (inject_Z 1) with 1%Q. nra.
      - assert (i + k * side < c + (f + 1) + 1) as L; [|lia]. apply (cells_lt cs _ _ P). rewrite !inject_Z_plus, inject_Z_mult. change (inject_Z 1) with 1%Q. nra. }
    split; [exact R|]. destruct (wrap_range _ R) as [W (e & Ee)]. assert (i - wrap_cell side (i + k * side) = (e - k) * side) as D by lia. assert (e = k); [|lia]. destruct (Z.lt_trichotomy e k) as [L | [L | L]]; [|exact L|]; exfalso; nia.
  Qed.
  Lemma cell_near i x : c - n <= i <= c + n -> inside cs (wrap_cell side i) x -> near box (rad + 2 * cs) s x.
  Proof.
    intros Hi [I1 I2]. destruct (wrap_range i Hi) as [W (e & Ee)]. exists e. pose proof (floor_cell cs s cs_pos) as [F1 F2]. fold c in F1, F2. pose proof (floor_cell cs rad cs_pos) as [G1 G2]. pose proof cs_pos as P. pose proof cs_box as E.
    assert (inject_Z e * box == inject_Z e * inject_Z side * cs)%Q as Ek by (transitivity (inject_Z e * (inject_Z side * cs))%Q; [apply Qmult_comp; [reflexivity | symmetry; exact E] | ring]). set (w := wrap_cell side i) in *.
    assert (inject_Z i == inject_Z w + inject_Z e * inject_Z side)%Q as Ei by (rewrite Ee, inject_Z_plus, inject_Z_mult; reflexivity).
    assert (inject_Z i <= inject_Z c + inject_Z n)%Q as U by (rewrite <- inject_Z_plus, <- Zle_Qle; lia). assert (inject_Z c - inject_Z n <= inject_Z i)%Q as L by (assert (inject_Z c <= inject_Z n + inject_Z i)%Q by (rewrite <- inject_Z_plus, <- Zle_Qle; lia); lra).
    assert (inject_Z n == inject_Z (Qfloor (rad / cs)) + 1)%Q as En by (unfold n; rewrite inject_Z_plus; reflexivity).
    set (f := inject_Z (Qfloor (rad / cs))) in *. rewrite En in U, L. apply (Qmult_le_compat_r _ _ cs) in U; [|lra]. apply (Qmult_le_compat_r _ _ cs) in L; [|lra].
    assert (inject_Z i * cs == inject_Z w * cs + inject_Z e * inject_Z side * cs)%Q as Eic by (rewrite Ei; ring). split; nra.
  Qed.
  Lemma trunc_ok : c_trunc (rad / cs + 1) = Ok n /\ c_trunc (s / cs) = Ok c.
  Proof.
    pose proof n_bounds as B. pose proof c_bounds as C. assert (side <= 2 ^ 10) as S by (apply Z.pow_le_mono_r; lia). pose proof cs_pos as P. unfold c_trunc. split.
    - assert (0 <= rad / cs)%Q as R by (apply Qle_shift_div_l; lra). replace (Qle_bool 0 (rad / cs + 1)) with true by (symmetry; apply Qle_bool_iff; lra).
      assert (Qfloor (rad / cs + 1) = n) as ->; [|apply c_int_ok; lia]. unfold n. pose proof (Qfloor_le (rad / cs + 1)) as A1. pose proof (Qlt_floor (rad / cs + 1)) as A2. pose proof (Qfloor_le (rad / cs)) as B1. pose proof (Qlt_floor (rad / cs)) as B2.
      apply Z.le_antisymm; apply Z.lt_succ_r; unfold Z.succ; rewrite Zlt_Qlt; rewrite ?inject_Z_plus in *; change (inject_Z 1) with 1%Q in *; lra.
    - replace (Qle_bool 0 (s / cs)) with true by (symmetry; apply Qle_bool_iff; apply Qle_shift_div_l; lra). apply c_int_ok. fold c. lia.
  Qed.
End Axis.
