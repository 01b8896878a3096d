(** Proofs about ReadPotential.pro (C101). *)
From Coq Require Import Ascii String.
From Verif Require Import Base.Prelude Base.ListLemmas Binary.BinModel Binary.EndianProofs Formats.FileSpec Formats.CatSpec Formats.ReaderProofs.
From Verif Require Import Peano.CPeanoModel Fortran.SortModel Fortran.RegionModel Fortran.RegionSpec Fortran.GroupTabModel Fortran.GroupTabSpec Fortran.GroupTabProofs.
From Verif Require Import Text.StrModel Pro.ProModel Pro.ProSpec Pro.NameProofs Pro.ProProofs Pro.MultiModel Pro.MultiSpec.
From Coq Require Import ZifyBool ZifyNat.
Local Open Scope Z_scope. Local Open Scope list_scope.

(** *** arrays *)
Lemma rows_length (f : Z -> list Z) m : (forall i, List.length (f i) = m) -> forall k a, List.length (concat (map f (zseq a k))) = (m * k)%nat.
Proof. intros E. induction k as [|k IH]; intro a; [cbn; lia|]. cbn [zseq map concat]. rewrite app_length, IH, E. lia. Qed.
Lemma nth_rows (f : Z -> list Z) m : (forall i, List.length (f i) = m) -> forall k a i j, (i < k)%nat -> (j < m)%nat -> nth (m * i + j) (concat (map f (zseq a k))) 0 = nth j (f (a + Z.of_nat i)) 0.
Proof.
  intros E. induction k as [|k IH]; intros a i j Hi Hj; [lia|]. cbn [zseq map concat]. destruct i as [|i].
  - rewrite Nat.mul_0_r, app_nth1 by (rewrite E; lia). cbn [plus]. f_equal. f_equal. lia.
  - rewrite app_nth2 by (rewrite E; lia). rewrite E. replace (m * Datatypes.S i + j - m)%nat with (m * i + j)%nat by lia. rewrite IH by lia. f_equal. f_equal. lia.
Qed.
Lemma nth_row (f : Z -> Z) n a j : (j < n)%nat -> nth j (map f (zseq a n)) 0 = f (a + Z.of_nat j).
Proof. intro H. rewrite nth_indep with (d' := f 0) by (rewrite map_length, zseq_length; exact H). rewrite map_nth. now rewrite nth_zseq. Qed.
Lemma nth_planes g (f : Z -> Z -> Z -> Z) a k x y z : 0 <= x < g -> 0 <= y < g -> (z < k)%nat ->
  nth (Z.to_nat (x + g * (y + g * Z.of_nat z))) (concat (map (fun z => concat (map (fun y => map (fun x => f x y z) (zseq 0 (Z.to_nat g))) (zseq 0 (Z.to_nat g)))) (zseq a k))) 0 = f x y (a + Z.of_nat z).
Proof.
  intros Hx Hy Hz. set (n := Z.to_nat g). assert (forall z y, List.length (map (fun x => f x y z) (zseq 0 n)) = n) as L1 by (intros; now rewrite map_length, zseq_length).
  assert (forall z, List.length (concat (map (fun y => map (fun x => f x y z) (zseq 0 n)) (zseq 0 n))) = (n * n)%nat) as L2 by (intro; now apply rows_length).
  replace (Z.to_nat (x + g * (y + g * Z.of_nat z))) with (n * n * z + (n * Z.to_nat y + Z.to_nat x))%nat by (unfold n; nia).
  rewrite (nth_rows _ (n * n) L2) by (unfold n; nia). rewrite (nth_rows _ n (L1 _)) by (unfold n; nia). rewrite nth_row by (unfold n; lia). f_equal; lia.
Qed.
Lemma cube_nth g f x y z : 0 <= x < g -> 0 <= y < g -> 0 <= z < g -> nth (elt g x y z) (cube g f) 0 = f x y z.
Proof. intros. unfold elt, cube. replace z with (Z.of_nat (Z.to_nat z)) at 1 by lia. rewrite nth_planes by lia. f_equal. lia. Qed.
Lemma cube_len g f : 0 <= g -> zlen (cube g f) = g * g * g.
Proof.
  intro H. unfold cube, zlen. rewrite rows_length with (m := (Z.to_nat g * Z.to_nat g)%nat); [nia|]. intro z. rewrite rows_length with (m := Z.to_nat g); [reflexivity|]. intro y. now rewrite map_length, zseq_length.
Qed.
Lemma planes_nth g phi first slabs x y z : 0 <= x < g -> 0 <= y < g -> 0 <= z < slabs -> nth (elt g x y z) (planes g phi first slabs) 0 = phi (first + z) y x.
Proof.
  intros Hx Hy Hz. unfold elt, planes, plane. replace z with (Z.of_nat (Z.to_nat z)) at 1 by lia.
  pose proof (nth_planes g (fun x y z => phi z y x) first (Z.to_nat slabs) x y (Z.to_nat z) Hx Hy ltac:(lia)) as R. cbn beta in R. rewrite Z2Nat.id in R by lia. rewrite <- R. rewrite Z2Nat.id by lia. reflexivity.
Qed.
Lemma planes_len g phi first slabs : 0 <= g -> 0 <= slabs -> zlen (planes g phi first slabs) = g * g * slabs.
Proof.
  intros H Hs. unfold planes, zlen. rewrite rows_length with (m := (Z.to_nat g * Z.to_nat g)%nat); [nia|]. intro z. unfold plane. rewrite rows_length with (m := Z.to_nat g); [reflexivity|]. intro y. now rewrite map_length, zseq_length.
Qed.
Lemma wrap16_id i : 0 <= i < 2 ^ 15 -> wrap16 i = i.
Proof. intro H. unfold wrap16. rewrite Z.mod_small by lia. lia. Qed.

Section Potential.
  Variable little : bool.
  Variable fs : str -> option (list Z).
  Variables (base : str) (num : Z).
  Hypothesis Hb : no_blanks base.
  Hypothesis Hn : three_digits num.
  Variables (g : Z) (phi : Z -> Z -> Z -> Z).
  Hypothesis Hphi : potential_ok g phi.
  Notation path i := (potential_file base num i).
  Lemma path_eq i : potential_name base num i = path i.
  Proof using Hb Hn. destruct (names_final base num i Hb Hn) as (_ & _ & E & _). exact E. Qed.
  Definition pot_chunks (sizeof slabs first boxsize asmth : Z) : list (Z * list Z) := [(4, [g]); (4, [sizeof]); (4, [slabs]); (4, [first]); (8, [boxsize]); (8, [asmth])].
  Lemma slab_read first slabs whole k i : 0 <= first < 2 ^ 31 -> 0 <= slabs < 2 ^ 31 -> slabs_file little g phi first slabs whole -> fs (path i) = Some (firstn k whole) ->
    slab_file little fs base num i = if Z.of_nat k <? 32 then Err EIO else if slabs =? 0 then Err EValue else if Z.of_nat k <? 32 + 4 * (g * g * slabs) then Err EIO else Ok (g, slabs, first, planes g phi first slabs).
  Proof using Hb Hn Hphi.
    intros H1 H2 (sizeof & boxsize & asmth & extra & S1 & S2 & S3 & EW) HF. unfold slab_file, openr. rewrite path_eq, HF. cbn [bind]. destruct Hphi as [Hg Hp].
    set (h := pot_chunks sizeof slabs first boxsize asmth). set (d := [(4, planes g phi first slabs)]).
    assert (Forall (fun v => 0 <= v < 256 ^ 4) (planes g phi first slabs)) as PB. { apply concat_ok, Forall_map, Forall_forall. intros x _. apply concat_ok, Forall_map, Forall_forall. intros y _. apply Forall_map, Forall_forall. intros z _. apply Hp. }
    assert (good (h ++ d)) as G. { unfold good, h, d, pot_chunks. cbn [app]. repeat (constructor; [cbn [fst snd]; split; [lia|]; try exact PB; repeat constructor; lia|]). constructor. }
    assert (whole = cbytes little (h ++ d) ++ extra) as E. { rewrite EW. f_equal. unfold potential_bytes, h, d, pot_chunks, cbytes. cbn [app map concat]. rewrite !app_nil_r. reflexivity. }
    assert (csize h = 32) as C1 by reflexivity. assert (csize (h ++ d) = 32 + 4 * (g * g * slabs)) as C2. { rewrite csize_app, C1. unfold csize, d. cbn [map sumZ fold_right]. rewrite planes_len by lia. lia. }
    rewrite (readu_cut little k [] h d extra whole 0 potential_items G E eq_refl eq_refl) by (unfold csize; cbn; lia). cbn [app]. rewrite C1. destruct (Z.ltb_spec (Z.of_nat k) 32) as [K|K]; cbn [bind]; [reflexivity|].
    unfold h, pot_chunks. cbn [map snd]. unfold long_of. cbn [item nth]. rewrite !signed_model, !signed_id by lia. cbn zeta. unfold new_array. replace (0 <? g) with true by lia. cbn [check bind].
    destruct (Z.eqb_spec slabs 0) as [Z0|Z0]; [replace (0 <? slabs) with false by lia; reflexivity|]. replace (0 <? slabs) with true by lia. cbn [check bind].
    rewrite (readu_cut little k h d [] extra whole 32 [(4, g * g * slabs)]); [rewrite C2|now rewrite app_nil_r|now rewrite app_nil_r|now rewrite C1| |lia].
    - destruct (Z.of_nat k <? 32 + 4 * (g * g * slabs)); reflexivity.
    - unfold items_of, d. cbn [map]. now rewrite planes_len by lia.
  Qed.
  Notation file_ok s i := (readable_slabs little g phi s (fs (path i))).
  Lemma file_read s i : 0 <= fst s -> 0 < snd s -> fst s + snd s <= g -> file_ok s i -> slab_file little fs base num i = Ok (g, snd s, fst s, planes g phi (fst s) (snd s)).
  Proof using Hb Hn Hphi.
    intros A B C (whole & k & W & HF & K). destruct Hphi as [Hg _]. rewrite (slab_read (fst s) (snd s) whole k i) by (lia || assumption). assert (0 <= g * g * snd s) by nia.
    replace (Z.of_nat k <? 32) with false by lia. replace (snd s =? 0) with false by lia. now replace (Z.of_nat k <? 32 + 4 * (g * g * snd s)) with false by lia.
  Qed.
  (** the array after some files *)
  Definition inv (st : option (Z * list Z)) (done : list (Z * Z)) : Prop :=
    done = [] \/ exists old, st = Some (g, old) /\ forall s x y z, In s done -> fst s <= z < fst s + snd s -> 0 <= x < g -> 0 <= y < g -> nth (elt g x y z) old 0 = phi z y x.
  Notation total l := (sumZ (map snd l)).
  Notation fine := (fun s : Z * Z => 0 <= fst s /\ 0 < snd s /\ fst s + snd s <= g).
  Lemma total_app (a b : list (Z * Z)) : total (a ++ b) = total a + total b.
  Proof. rewrite map_app. induction a as [|s a IH]; [reflexivity|]. cbn [map app sumZ fold_right] in *. unfold sumZ in *. lia. Qed.
  Lemma total_pos (a : list (Z * Z)) : Forall fine a -> 0 <= total a.
  Proof. induction 1 as [|s a Hs HF IH]; [reflexivity|]. cbn [map sumZ fold_right] in *. unfold sumZ in *. lia. Qed.
  Lemma next_inv st done s : inv st done -> Forall fine done -> fine s -> file_ok s (zlen done) ->
    exists old, (forall fuel, potential_loop little fs (Datatypes.S fuel) base num (zlen done) (total done) st =
        if g <=? total done + snd s then Ok (g, old) else potential_loop little fs fuel base num (wrap16 (zlen done + 1)) (total done + snd s) (Some (g, old))) /\
      inv (Some (g, old)) (done ++ [s]).
  Proof using Hb Hn Hphi.
    intros I FD (A & B & C) FO. destruct Hphi as [Hg _].
    assert (exists old0, (if zlen done =? 0 then Ok (g, repeat 0 (Z.to_nat (g * g * g))) else match st with Some p => Ok p | None => Err EName end) = Ok (g, old0) /\
      forall s x y z, In s done -> fst s <= z < fst s + snd s -> 0 <= x < g -> 0 <= y < g -> nth (elt g x y z) old0 0 = phi z y x) as (old0 & E0 & I0).
    { destruct I as [-> |(old & -> & I)]; [exists (repeat 0 (Z.to_nat (g * g * g))); split; [reflexivity | intros ? ? ? ? []]|]. destruct done as [|d done]; [exists (repeat 0 (Z.to_nat (g * g * g))); split; [reflexivity | intros ? ? ? ? []]|].
      exists old. split; [|exact I]. replace (zlen (d :: done) =? 0) with false by (unfold zlen; cbn [List.length]; lia). reflexivity. }
    eexists. split.
    - intro fuel. cbn [potential_loop]. rewrite (file_read s _ A B C FO). cbn [bind]. rewrite E0. cbn [bind]. unfold put_slabs. replace (g <=? g) with true by lia. replace (0 <=? fst s) with true by lia. replace (fst s + snd s <=? g) with true by lia. cbn [andb check bind]. reflexivity.
    - right. eexists. split; [reflexivity|]. intros t x y z Ht Hz Hx Hy. apply in_app_or in Ht.
      assert (0 <= z < g) as Hz'. { destruct Ht as [Ht|[<- |[]]]; [|lia]. rewrite Forall_forall in FD. specialize (FD t Ht). cbn beta in FD. lia. }
      rewrite cube_nth by lia. replace (x <? g) with true by lia. replace (y <? g) with true by lia. cbn [andb].
      destruct (Z.leb_spec (fst s) z) as [Q|Q]; destruct (Z.ltb_spec z (fst s + snd s)) as [Q'|Q']; cbn [andb].
      1: { rewrite planes_nth by lia. f_equal. lia. }
      all: destruct Ht as [Ht|[<- |[]]]; [exact (I0 t x y z Ht Hz Hx Hy) | lia].
  Qed.
  Lemma steps : forall todo done st, Forall fine (done ++ todo) -> inv st done -> (forall j, (j < List.length todo)%nat -> file_ok (nth j todo (0, 0)) (zlen done + Z.of_nat j)) ->
    total done + total todo < g -> zlen done + zlen todo < 2 ^ 15 ->
    exists st', inv st' (done ++ todo) /\ forall fuel, potential_loop little fs (List.length todo + fuel) base num (zlen done) (total done) st = potential_loop little fs fuel base num (zlen (done ++ todo)) (total (done ++ todo)) st'.
  Proof using Hb Hn Hphi.
    induction todo as [|s todo IH]; intros done st HF I FO Ht Hl; [exists st; rewrite app_nil_r; split; [exact I | reflexivity]|].
    assert (Forall fine done /\ fine s /\ Forall fine todo) as (F1 & F2 & F3). { rewrite Forall_app in HF. destruct HF as [F1 F2]. apply Forall_cons_iff in F2. tauto. }
    assert (zlen (s :: todo) = 1 + zlen todo) as L1 by (unfold zlen; cbn [List.length]; lia). pose proof (zlen_nonneg todo). pose proof (zlen_nonneg done).
    assert (total (s :: todo) = snd s + total todo) as T1 by reflexivity. pose proof (total_pos todo F3).
    destruct (next_inv st done s I F1 F2) as (old & R & I'). { specialize (FO 0%nat ltac:(cbn [List.length]; lia)). cbn [nth] in FO. now rewrite Z.add_0_r in FO. }
    assert (zlen (done ++ [s]) = zlen done + 1) as L2 by (rewrite zlen_app; reflexivity). assert (total (done ++ [s]) = total done + snd s) as T2 by (rewrite total_app; cbn [map sumZ fold_right]; lia).
    destruct (IH (done ++ [s]) (Some (g, old))) as (st' & I2 & R2).
    - rewrite <- app_assoc. exact HF.
    - exact I'.
    - intros j Hj. specialize (FO (Datatypes.S j) ltac:(cbn [List.length]; lia)). cbn [nth] in FO. rewrite L2. replace (zlen done + 1 + Z.of_nat j) with (zlen done + Z.of_nat (Datatypes.S j)) by lia. exact FO.
    - lia.
    - lia.
    - rewrite <- app_assoc in I2, R2. exists st'. split; [exact I2|]. intro fuel. cbn [List.length plus]. rewrite R. replace (g <=? total done + snd s) with false by lia. rewrite wrap16_id by lia. rewrite <- L2, <- T2. apply R2.
  Qed.
  Lemma potential_top slabs fuel : slabs_ok g slabs -> zlen slabs <= 2 ^ 15 -> (forall i, (i < List.length slabs)%nat -> file_ok (nth i slabs (0, 0)) (Z.of_nat i)) -> (List.length slabs <= fuel)%nat ->
    exists p, read_potential little fs fuel base num = Ok p /\ zlen p = g * g * g /\ forall x y z, 0 <= x < g -> 0 <= y < g -> 0 <= z < g -> nth (Z.to_nat (x + g * (y + g * z))) p 0 = phi x y z.
  Proof using Hb Hn Hphi.
    intros (SF & SS & SC) Hl FO HFu. destruct Hphi as [Hg _]. destruct (@exists_last _ slabs) as (init & s & E). { intros ->. cbn in SS. lia. }
    rewrite E in SF, SS, FO, HFu, Hl. rewrite app_length in FO, HFu. cbn [List.length] in FO, HFu. pose proof SF as SF'. rewrite Forall_app in SF'. destruct SF' as [F1 F2]. apply Forall_inv in F2. rewrite total_app in SS. assert (total [s] = snd s) as T1 by (cbn [map sumZ fold_right]; lia).
    rewrite zlen_app in Hl. change (zlen [s]) with 1 in Hl. pose proof (total_pos init F1) as TP. assert (List.length init = Z.to_nat (zlen init)) as LN by (unfold zlen; lia). pose proof (zlen_nonneg init).
    destruct (steps init [] None) as (st & I & R); [exact F1 | now left | | change (total (@nil (Z * Z))) with 0; lia | change (zlen (@nil (Z * Z))) with 0; lia |].
    { intros j Hj. specialize (FO j ltac:(lia)). rewrite app_nth1 in FO by exact Hj. exact FO. }
    cbn [app] in I, R. destruct (next_inv st init s I F1 F2) as (old & R2 & I2). { specialize (FO (List.length init) ltac:(lia)). rewrite nth_middle in FO. exact FO. }
    exists (cube g (fun x y z => nth (elt g z y x) old 0)). split; [|split; [apply cube_len; lia|]].
    - unfold read_potential. replace fuel with (List.length init + Datatypes.S (fuel - List.length init - 1))%nat by lia. change 0 with (zlen (@nil (Z * Z))) at 1. change 0 with (total (@nil (Z * Z))) at 1. rewrite R, R2. replace (g <=? total init + snd s) with true by lia. reflexivity.
    - intros x y z Hx Hy Hz. change (Z.to_nat (x + g * (y + g * z))) with (elt g x y z). rewrite cube_nth by lia. destruct I2 as [I2|(old' & Eo & I2)]; [destruct init; discriminate|]. injection Eo as <-. destruct (SC x Hx) as (t & Ht & Hr). rewrite E in Ht. exact (I2 t z y x Ht Hr Hz Hy).
  Qed.
  Notation file_bad i := (unreadable_slabs little g phi (fs (path i))).
  Lemma potential_bad slabs fuel : Forall fine slabs -> total slabs < g -> zlen slabs < 2 ^ 15 -> (forall i, (i < List.length slabs)%nat -> file_ok (nth i slabs (0, 0)) (Z.of_nat i)) -> file_bad (zlen slabs) -> (List.length slabs < fuel)%nat ->
    exists e, e <> EFuel /\ read_potential little fs fuel base num = Err e.
  Proof using Hb Hn Hphi.
    intros HF Ht Hl FO BD HFu. destruct Hphi as [Hg _]. destruct (steps slabs [] None) as (st & I & R); [exact HF | now left | exact FO | change (total (@nil (Z * Z))) with 0; lia | change (zlen (@nil (Z * Z))) with 0; lia |]. cbn [app] in I, R.
    assert (exists e, e <> EFuel /\ slab_file little fs base num (zlen slabs) = Err e) as (e & Ne & E).
    { destruct BD as [N|(first & sl & whole & k & A & B & W & F0 & D)]; [unfold slab_file, openr; rewrite path_eq, N; now exists EIO|]. rewrite (slab_read first sl whole k _ A B W F0).
      destruct (Z.of_nat k <? 32); [now exists EIO|]. destruct (sl =? 0) eqn:C; [now exists EValue|]. destruct D as [D|D]; [lia|]. replace (Z.of_nat k <? _) with true by lia. now exists EIO. }
    exists e. split; [exact Ne|]. unfold read_potential. replace fuel with (List.length slabs + Datatypes.S (fuel - List.length slabs - 1))%nat by lia. change 0 with (zlen (@nil (Z * Z))) at 1. change 0 with (total (@nil (Z * Z))) at 1. rewrite R. cbn [potential_loop]. now rewrite E.
  Qed.
End Potential.
