(** Proofs about readfofgroupsexample.f90 and readgroupsexample.f90 (C69). *)
From Coq Require Import Ascii String.
From Verif Require Import Base.Prelude Base.ListLemmas Base.Order Snap.ReadModel Snap.ReadSpec.
From Verif Require Import Fortran.SortModel Fortran.RegionModel Fortran.RegionSpec Fortran.RegionFinal Fortran.FofModel Fortran.FofSpec.
From Verif Require Fortran.SortProofs Fortran.MatchProofs Fortran.RegionProofs.
From Coq Require Import Permutation ZifyBool ZifyNat.
Local Open Scope Z_scope.

Lemma forall2_weaken {A B} (R S : A -> B -> Prop) l m : (forall a b, R a b -> S a b) -> Forall2 R l m -> Forall2 S l m.
Proof. induction 2; constructor; auto. Qed.

Lemma Forall2_len {A B} {R : A -> B -> Prop} {l m} : Forall2 R l m -> List.length l = List.length m.
Proof. induction 1; cbn; auto. Qed.

(** *** bits *)
Lemma key_bits gid : ishft gid (-34) = hash_key gid.
Proof.
  unfold ishft, hash_key, to_signed. change (0 <=? -34) with false. cbn iota. change (- -34) with 34. rewrite Z.shiftr_div_pow2 by lia.
  assert (gid mod 2 ^ 64 / 2 ^ 34 < 2 ^ 30) by (apply Z.div_lt_upper_bound; [lia|]; change (2 ^ 34 * 2 ^ 30) with (2 ^ 64); apply Z.mod_pos_bound; lia). replace (2 ^ 63 <=? _) with false by lia. reflexivity.
Qed.
Lemma key_range gid : 0 <= hash_key gid < 2 ^ 30.
Proof. unfold hash_key. pose proof (Z.mod_pos_bound gid (2 ^ 64) ltac:(lia)). split; [apply Z.div_pos; lia | apply Z.div_lt_upper_bound; lia]. Qed.
Lemma strip_bits gid : strip_key gid = plain_id gid.
Proof.
  unfold strip_key. assert (ishft gid 30 mod 2 ^ 64 = gid mod 2 ^ 34 * 2 ^ 30) as E.
  { unfold ishft. change (0 <=? 30) with true. cbn iota. rewrite Z.shiftl_mul_pow2 by lia. assert (forall v, 0 <= v < 2 ^ 64 -> to_signed v mod 2 ^ 64 = v) as S.
    { intros v Hv. unfold to_signed. destruct (Z.leb_spec (2 ^ 63) v); [|now apply Z.mod_small]. replace (v - 2 ^ 64) with (v + (-1) * 2 ^ 64) by lia. rewrite Z.mod_add by lia. now apply Z.mod_small. }
    rewrite S by (apply Z.mod_pos_bound; lia). change (2 ^ 64) with (2 ^ 34 * 2 ^ 30). rewrite Z.mul_mod_distr_r by lia. f_equal. rewrite Z.rem_mul_r by lia. rewrite Z.mul_comm, Z.mod_add by lia. apply Z.mod_mod. lia. }
  unfold ishft at 1. rewrite E. change (0 <=? -30) with false. cbn iota. change (- -30) with 30. rewrite Z.shiftr_div_pow2, Z.div_mul by lia. unfold plain_id, to_signed.
  pose proof (Z.mod_pos_bound gid (2 ^ 34) ltac:(lia)). replace (2 ^ 63 <=? _) with false by lia. reflexivity.
Qed.

(** *** the flags *)
Lemma flags_ok nhash gids : Forall (fun g => hash_key g < nhash) gids -> exists h, flag_cells nhash gids = Ok h /\ zlen h = Z.max 0 nhash /\ forall c, 0 <= c -> (flagged h c <-> exists g, In g gids /\ hash_key g = c).
Proof.
  unfold flag_cells. intro HF.
  assert (forall gids h done, Forall (fun g => hash_key g < nhash) gids -> zlen h = Z.max 0 nhash -> (forall c, 0 <= c -> (flagged h c <-> exists g, In g done /\ hash_key g = c)) ->
    exists h', foldR (fun hashmap gid => fset hashmap (ishft gid (-34)) true) gids h = Ok h' /\ zlen h' = Z.max 0 nhash /\ forall c, 0 <= c -> (flagged h' c <-> exists g, In g (done ++ gids) /\ hash_key g = c)) as Q.
  { clear. induction gids as [|gid gids IH]; intros h done HF HL HC; [exists h; rewrite app_nil_r; now split|]. apply Forall_cons_iff in HF. destruct HF as [H1 H2]. cbn [foldR]. rewrite key_bits. pose proof (key_range gid) as Kr.
    rewrite SortProofs.fset_ok by lia. cbn [bind]. destruct (IH (set_nth h (Z.to_nat (hash_key gid)) true) (done ++ [gid]) H2) as (h' & E & HL' & HC'); [now rewrite SortProofs.zlen_set| |exists h'; split; [exact E|]; split; [exact HL'|]; now rewrite <- app_assoc in HC'].
    intros c Hc. unfold flagged. destruct (Z.eq_dec c (hash_key gid)) as [->|Hn].
    - split; [intros _; exists gid; split; [apply in_or_app; right; now left | reflexivity]|]. intros _. rewrite (nth_error_nth' _ false) by (rewrite set_nth_length; unfold zlen in HL; lia). rewrite nth_set_nth by (unfold zlen in HL; lia). now rewrite Nat.eqb_refl.
    - assert (nth_error (set_nth h (Z.to_nat (hash_key gid)) true) (Z.to_nat c) = nth_error h (Z.to_nat c)) as ->.
      { destruct (Nat.lt_ge_cases (Z.to_nat c) (List.length h)) as [C|C]; [|rewrite !(proj2 (nth_error_None _ _)) by (rewrite ?set_nth_length; lia); reflexivity].
        rewrite !(nth_error_nth' _ false) by (rewrite ?set_nth_length; lia). f_equal. rewrite nth_set_nth by (unfold zlen in HL; lia). destruct (Nat.eqb_spec (Z.to_nat c) (Z.to_nat (hash_key gid))); [lia | reflexivity]. }
      fold (flagged h c). rewrite HC by exact Hc. split; intros (g & Hg & E2); exists g; (split; [|exact E2]); apply in_app_or in Hg || apply in_or_app; [left; exact Hg|]. destruct Hg as [Hg|[->|[]]]; [exact Hg | congruence]. }
  destruct (Q gids (repeat false (Z.to_nat nhash)) [] HF) as (h & E & HL & HC); [unfold zlen; rewrite repeat_length; lia | | exists h; now split].
  intros c Hc. split; [|intros (g & [] & _)]. unfold flagged. intro H. exfalso. assert (In true (repeat false (Z.to_nat nhash))) as Hin by (eapply nth_error_In; exact H). apply repeat_spec in Hin. discriminate Hin.
Qed.
Lemma flags_bad nhash gids : ~ Forall (fun g => hash_key g < nhash) gids -> flag_cells nhash gids = Err EIndex.
Proof.
  unfold flag_cells. assert (forall gids h, zlen h = Z.max 0 nhash -> ~ Forall (fun g => hash_key g < nhash) gids -> foldR (fun hashmap gid => fset hashmap (ishft gid (-34)) true) gids h = Err EIndex) as Q.
  { clear. induction gids as [|gid gids IH]; intros h HL H; [exfalso; apply H; constructor|]. cbn [foldR]. rewrite key_bits. pose proof (key_range gid) as Kr. destruct (Z.lt_ge_cases (hash_key gid) nhash) as [C|C].
    - rewrite SortProofs.fset_ok by lia. cbn [bind]. apply IH; [now rewrite SortProofs.zlen_set|]. intro F. apply H. now constructor.
    - unfold fset. replace ((0 <=? hash_key gid) && (hash_key gid <? zlen h)) with false by lia. reflexivity. }
  apply Q. unfold zlen. rewrite repeat_length. lia.
Qed.

(** *** the selected particles *)
Lemma picks_in (W : Z -> Prop) l : forall from sel p, @picks (list Z) W from l sel -> (In p sel <-> exists k c, nth_error l k = Some c /\ W (from + Z.of_nat k) /\ In p c).
Proof.
  intros from sel p H. induction H as [n|n c cells sel Hw HP IH|n c cells sel Hw HP IH].
  - split; [intros [] | intros (k & c & E & _); destruct k; discriminate E].
  - rewrite in_app_iff, IH. split.
    + intros [Hin|(k & d & E & Hk & Hd)]; [exists 0%nat, c; split; [reflexivity|]; split; [now rewrite Z.add_0_r | exact Hin]|]. exists (S k), d. split; [exact E|]. split; [|exact Hd]. now replace (n + Z.of_nat (S k)) with (n + 1 + Z.of_nat k) by lia.
    + intros ([|k] & d & E & Hk & Hd); [injection E as ->; now left|]. right. exists k, d. split; [exact E|]. split; [|exact Hd]. now replace (n + 1 + Z.of_nat k) with (n + Z.of_nat (S k)) by lia.
  - rewrite IH. split.
    + intros (k & d & E & Hk & Hd). exists (S k), d. split; [exact E|]. split; [|exact Hd]. now replace (n + Z.of_nat (S k)) with (n + 1 + Z.of_nat k) by lia.
    + intros ([|k] & d & E & Hk & Hd); [rewrite Z.add_0_r in Hk; contradiction|]. exists k, d. split; [exact E|]. split; [|exact Hd]. now replace (n + 1 + Z.of_nat k) with (n + Z.of_nat (S k)) by lia.
Qed.
Lemma picks_files_in (W : Z -> Prop) fs sel p : @picks_files (list Z) W fs sel -> (In p sel <-> exists h, W h /\ in_cell fs h p).
Proof.
  intro H. induction H as [|f fs s sel H1 H2 IH].
  - split; [intros [] | intros (h & _ & f & k & c & [] & _)].
  - rewrite in_app_iff, (picks_in _ _ _ _ p H1), IH. split.
    + intros [(k & c & E & Hk & Hc)|(h & Hh & g & k & c & Hg & Hr)]; [exists (cf_first f + Z.of_nat k); split; [exact Hk|]; exists f, k, c; split; [now left | now split]|]. exists h. split; [exact Hh|]. exists g, k, c. split; [now right | exact Hr].
    + intros (h & Hh & g & k & c & [->|Hg] & E & Eh & Hc); [left; exists k, c; split; [exact E|]; split; [now rewrite Eh | exact Hc]|]. right. exists h. split; [exact Hh|]. exists g, k, c. now repeat (split; [assumption|]).
Qed.

(** *** the positions *)
Section Files.
  Variables little lf : bool.
  Variable shrink : Z -> Z.
  Hypothesis Hs1 : shrink 1 <= 0.
  Hypothesis Hs2 : forall inc, 3 <= inc < 50 -> 1 <= shrink inc < inc.
  Variable nhash : Z.
  Variable fs : list (cellfile (list Z)).
  Variable contents : list (list Z).
  Hypothesis Hfiles : Forall2 (hash_file lf) fs contents.
  Hypothesis Hcov : covers 0 nhash fs.
  Variable junk : Z.
  Let sw := negb (Bool.eqb lf little).
  Lemma argsort_of arr : exists idx, sort_index ZOrd shrink arr (repeat junk (List.length arr)) = Ok idx /\ List.length idx = List.length arr /\ is_argsort ZOrd arr (map (fun v => v - 1) idx).
  Proof using Hs1 Hs2.
    clear Hfiles Hcov sw.
    destruct (SortProofs.sort_index_ok ZOrd shrink Hs1 Hs2 arr (repeat junk (List.length arr))) as (idx & E & L & A & _); [unfold zlen; rewrite repeat_length; lia|]. exists idx.
    assert (List.length idx = List.length arr) as LL by (unfold zlen in L; rewrite repeat_length in L; lia). split; [exact E|]. split; [exact LL|]. rewrite <- LL, firstn_all in A. exact A.
  Qed.
  Lemma nhash_nonneg : 0 <= nhash.
  Proof. pose proof (RegionProofs.covers_len _ _ _ Hcov) as H. pose proof (zlen_nonneg (RegionProofs.cells_of fs)). lia. Qed.
  Definition available gids p := exists g, In g gids /\ in_cell fs (hash_key g) p.
  Definition positions (chosen : list particle) := (pos_of 0 chosen, pos_of 1 chosen, pos_of 2 chosen).
  Lemma find_ok gids : Forall (fun g => hash_key g < nhash) gids ->
    ((exists p, available gids p) -> (forall g, In g gids -> exists p, available gids p /\ id_of p = plain_id g) ->
       exists chosen, chooses fs gids chosen /\ find_positions little sw shrink nhash contents junk gids = Ok (positions chosen)) /\
    ((exists p, available gids p) -> ~ (forall g, In g gids -> exists p, available gids p /\ id_of p = plain_id g) -> find_positions little sw shrink nhash contents junk gids = Err ERuntime) /\
    (~ (exists p, available gids p) -> find_positions little sw shrink nhash contents junk gids = Err EAbort).
  Proof.
    intro HK. unfold find_positions. destruct (flags_ok nhash gids HK) as (h & Eh & Lh & Fh). rewrite Eh. cbn [bind]. pose proof nhash_nonneg as Hn.
    destruct (region_final little lf nhash fs contents h junk Hfiles Hcov ltac:(lia)) as (sel & Hsel & R1 & R2). fold sw in R1, R2.
    assert (forall p, In p sel <-> available gids p) as Hav.
    { intro p. rewrite (picks_files_in _ _ _ p Hsel). unfold available. split.
      - intros (c & Hc & Hin). assert (0 <= c) as C0 by (destruct Hin as (f & k & d & Hf & _ & <- & _); pose proof (RegionFinal.covers_range _ _ _ f Hcov Hf); lia). rewrite Fh in Hc by exact C0. destruct Hc as (g & Hg & <-). now exists g.
      - intros (g & Hg & Hin). exists (hash_key g). split; [|exact Hin]. apply Fh; [apply key_range|]. now exists g. }
    destruct sel as [|p0 sel'] eqn:Esel.
    - rewrite (R2 eq_refl). cbn [bind]. split; [intros (p & Hp); apply Hav in Hp; contradiction|]. split; [intros (p & Hp); apply Hav in Hp; contradiction|reflexivity].
    - rewrite <- Esel in *. rewrite R1 by (rewrite Esel; discriminate). cbn [bind]. cbn [region_of r_ids r_x r_y r_z]. rewrite (map_ext _ _ strip_bits).
      set (ids := ids_of sel). set (gs := map plain_id gids).
      destruct (argsort_of gs) as (gidx & Eg & Lg & Ag). rewrite Eg. cbn [bind].
      assert (Z.to_nat (zlen sel) = List.length ids) as El by (unfold ids, ids_of, zlen; rewrite map_length; lia). rewrite El. destruct (argsort_of ids) as (pidx & Ep & Lp & Ap). rewrite Ep. cbn [bind].
      assert (forall k, zlen (pos_of k sel) = zlen ids) as LP by (intro k; unfold ids, ids_of, pos_of; now rewrite !zlen_map).
      destruct (MatchProofs.matching_final ids (pos_of 0 sel) (pos_of 1 sel) (pos_of 2 sel) pidx gs gidx (LP _) (LP _) (LP _) Lp Lg Ap Ag) with (a := repeat junk (List.length gs)) as (m & Em & M1 & M2).
      + unfold ids, ids_of. rewrite zlen_map, Esel, zlen_cons. pose proof (zlen_nonneg sel'). lia.
      + unfold zlen. now rewrite repeat_length.
      + rewrite Em. cbn [bind]. assert (zlen gs = zlen gids) as Lgs by (unfold gs; now rewrite zlen_map).
        assert (incl gs ids <-> forall g, In g gids -> exists p, available gids p /\ id_of p = plain_id g) as HI.
        { unfold incl, gs, ids, ids_of. split.
          - intros H g Hg. specialize (H (plain_id g) (in_map _ _ _ Hg)). apply in_map_iff in H. destruct H as (p & E & Hp). exists p. split; [now apply Hav | exact E].
          - intros H v Hv. apply in_map_iff in Hv. destruct Hv as (g & <- & Hg). destruct (H g Hg) as (p & Hp & E). apply in_map_iff. exists p. split; [exact E | now apply Hav]. }
        split; [|split].
        * intros _ H. apply HI in H. destruct (M1 H) as (N & X1 & X2 & X3 & Q). rewrite Lgs in *. replace (zlen gids <=? m_n m) with true by lia. cbn [check bind].
          assert (exists chosen, Forall2 (fun gid p => id_of p = plain_id gid /\ In p sel) gids chosen /\ m_x m = pos_of 0 chosen /\ m_y m = pos_of 1 chosen /\ m_z m = pos_of 2 chosen) as (chosen & C1 & C2 & C3 & C4).
          { assert (forall n, Z.of_nat n <= zlen gids -> exists chosen, Forall2 (fun gid p => id_of p = plain_id gid /\ In p sel) (firstn n gids) chosen /\
              firstn n (m_x m) = pos_of 0 chosen /\ firstn n (m_y m) = pos_of 1 chosen /\ firstn n (m_z m) = pos_of 2 chosen) as W.
            { induction n as [|n IH]; intro Hn2; [exists []; cbn; now repeat split|]. destruct (IH ltac:(lia)) as (chosen & C1 & C2 & C3 & C4).
              destruct (Q (Z.of_nat n) ltac:(lia)) as (q & Hq & E1 & E2 & E3 & E4).
              assert (Z.to_nat q < List.length sel)%nat as Hq2 by (unfold ids, ids_of, zlen in Hq; rewrite map_length in Hq; lia).
              assert (forall {B} (l : list B) d, (n < List.length l)%nat -> firstn (S n) l = firstn n l ++ [nth n l d]) as FS.
              { clear. intros B l d. revert l. induction n as [|n IH]; intros [|b l] H; cbn [List.length] in H; try lia; [reflexivity|]. cbn [firstn app nth]. rewrite <- IH by lia. reflexivity. }
              assert (exists p, In p sel /\ id_of p = SortProofs.g ids q /\ SortProofs.g (pos_of 0 sel) q = nth 0 (fst (fst p)) 0 /\ SortProofs.g (pos_of 1 sel) q = nth 1 (fst (fst p)) 0 /\ SortProofs.g (pos_of 2 sel) q = nth 2 (fst (fst p)) 0) as (p & Hp & P1 & P2 & P3 & P4).
              { exists (nth (Z.to_nat q) sel p0). split; [now apply nth_In|].
                assert (forall (f : particle -> Z), SortProofs.g (map f sel) q = f (nth (Z.to_nat q) sel p0)) as GM by (intro f; unfold SortProofs.g; rewrite (nth_indep _ 0 (f p0)) by (now rewrite map_length); apply map_nth).
                unfold ids, ids_of, pos_of. rewrite !GM. now repeat split. }
              exists (chosen ++ [p]). unfold zlen in *. rewrite !(FS Z _ 0) by (unfold zlen in *; lia). split; [|split; [|split]].
              - apply Forall2_app; [exact C1|]. constructor; [|constructor]. split; [|exact Hp]. rewrite P1, E1. unfold SortProofs.g, gs. rewrite Nat2Z.id. rewrite (nth_indep _ 0 (plain_id 0)) by (rewrite map_length; lia). apply map_nth.
              - unfold pos_of in *. rewrite map_app, <- C2. f_equal. cbn [map]. f_equal. unfold SortProofs.g in *. rewrite Nat2Z.id in E2. congruence.
              - unfold pos_of in *. rewrite map_app, <- C3. f_equal. cbn [map]. f_equal. unfold SortProofs.g in *. rewrite Nat2Z.id in E3. congruence.
              - unfold pos_of in *. rewrite map_app, <- C4. f_equal. cbn [map]. f_equal. unfold SortProofs.g in *. rewrite Nat2Z.id in E4. congruence. }
            destruct (W (List.length gids) ltac:(unfold zlen; lia)) as (chosen & C1 & C2 & C3 & C4). exists chosen. rewrite firstn_all in C1. rewrite firstn_all2 in C2, C3, C4 by (unfold zlen in *; lia). now repeat split. }
          exists chosen. split; [|unfold positions; now rewrite C2, C3, C4]. unfold chooses. eapply forall2_weaken; [|exact C1]. intros gid p [E Hp]. split; [exact E|]. apply Hav in Hp. exact Hp.
        * intros _ H. assert (~ incl gs ids) as HN by (rewrite HI; exact H). specialize (M2 HN). replace (zlen gids <=? m_n m) with false by lia. reflexivity.
        * intro H. exfalso. apply H. exists p0. apply Hav. rewrite Esel. now left.
  Qed.
End Files.

(** *** the lines *)
Lemma members_ok (chosen : list particle) label off len : 0 <= off -> 0 <= len -> off + len <= zlen chosen ->
  mapM (member (pos_of 0 chosen) (pos_of 1 chosen) (pos_of 2 chosen) label) (zseq (off + 1) (Z.to_nat len)) = Ok (map (line label) (zslice chosen off (off + len))).
Proof.
  intros H1 H2 H3. assert (map (line label) (zslice chosen off (off + len)) = map (fun i => line label (nth (Z.to_nat (i - 1)) chosen ([], [], []))) (zseq (off + 1) (Z.to_nat len))) as ->.
  { apply (nth_ext _ _ (line label ([], [], [])) (line label ([], [], []))); [rewrite !map_length, zseq_length, zslice_length; unfold zlen in H3; lia|].
    intros k Hk. rewrite map_length, zslice_length in Hk. rewrite map_nth, nth_zslice by lia.
    rewrite (nth_indep _ (line label ([], [], [])) ((fun i => line label (nth (Z.to_nat (i - 1)) chosen ([], [], []))) 0)) by (rewrite map_length, zseq_length; lia).
    rewrite (map_nth (fun i => line label (nth (Z.to_nat (i - 1)) chosen ([], [], [])))), nth_zseq by lia. do 2 f_equal. lia. }
  apply mapM_map_ok. intros i Hi. apply In_zseq in Hi. unfold member.
  assert (forall k, fget (pos_of k chosen) (i - 1) = Ok (nth k (fst (fst (nth (Z.to_nat (i - 1)) chosen ([], [], [])))) 0)) as G.
  { intro k. rewrite SortProofs.fget_ok by (unfold pos_of; rewrite zlen_map; lia). f_equal. unfold SortProofs.g, pos_of.
    rewrite (nth_indep _ 0 ((fun p : particle => nth k (fst (fst p)) 0) ([], [], []))) by (rewrite map_length; unfold zlen in H3; lia). now rewrite (map_nth (fun p : particle => nth k (fst (fst p)) 0)). }
  rewrite !G. reflexivity.
Qed.
Lemma mapM_zseq1 {B} (f : Z -> res B) (l : list B) d : (forall i, 0 <= i < zlen l -> f (i + 1) = Ok (nth (Z.to_nat i) l d)) -> mapM f (zseq 1 (List.length l)) = Ok l.
Proof.
  intro H. apply mapM_ok. assert (forall m s, (forall k, (k < List.length m)%nat -> f (s + Z.of_nat k) = Ok (nth k m d)) -> Forall2 (fun x y => f x = Ok y) (zseq s (List.length m)) m) as Q.
  { induction m as [|b m IH]; intros s Hm; cbn [List.length zseq]; constructor; [specialize (Hm 0%nat ltac:(cbn; lia)); now rewrite Z.add_0_r in Hm|]. apply IH. intros k Hk. specialize (Hm (S k) ltac:(cbn; lia)). now replace (s + 1 + Z.of_nat k) with (s + Z.of_nat (S k)) by lia. }
  apply Q. intros k Hk. specialize (H (Z.of_nat k) ltac:(unfold zlen; lia)). rewrite Nat2Z.id in H. now rewrite Z.add_comm in H.
Qed.
Lemma nth_combine {A B} (l : list A) (m : list B) i a b : List.length l = List.length m -> nth i (combine l m) (a, b) = (nth i l a, nth i m b).
Proof. apply combine_nth. Qed.
Lemma rows_ok (groups : list (list Z * Z * Z)) chosen f : Forall (fun '(label, off, len) => 0 <= len /\ 0 <= off /\ off + len <= zlen chosen) groups ->
  (forall i label off len, 0 <= i < zlen groups -> nth (Z.to_nat i) groups ([], 0, 0) = (label, off, len) -> f (i + 1) = mapM (member (pos_of 0 chosen) (pos_of 1 chosen) (pos_of 2 chosen) label) (zseq (off + 1) (Z.to_nat len))) ->
  mapM f (zseq 1 (List.length groups)) = Ok (map (fun '(label, off, len) => map (line label) (zslice chosen off (off + len))) groups).
Proof.
  intros HF Hf. set (F := fun '(label, off, len) => map (line label) (zslice chosen off (off + len))).
  replace (List.length groups) with (List.length (map F groups)) by apply map_length. apply mapM_zseq1 with (d := F ([], 0, 0)). intros i Hi. rewrite zlen_map in Hi.
  rewrite map_nth. destruct (nth (Z.to_nat i) groups ([], 0, 0)) as [[label off] len] eqn:E. rewrite (Hf i label off len Hi E).
  rewrite Forall_forall in HF. specialize (HF (label, off, len)). cbn in HF. assert (In (label, off, len) groups) as Hin by (rewrite <- E; apply nth_In; unfold zlen in Hi; lia). destruct (HF Hin) as (A1 & A2 & A3). now apply members_ok.
Qed.
Lemma Forall2_combine {A B} (R : A -> B -> Prop) l m : Forall2 R l m -> Forall (fun '(b, a) => R a b) (combine m l).
Proof. induction 1; cbn; constructor; auto. Qed.
Lemma groups_forall {L} nid len offset (labels : list L) : groups_ok nid len offset -> List.length labels = List.length len ->
  Forall (fun '(label, off, l) => 0 <= l /\ 0 <= off /\ off + l <= nid) (combine (combine labels offset) len).
Proof.
  intros H. revert labels. induction H as [|l o len offset H HF IH]; intros [|lb labels] HL; try discriminate HL; cbn; constructor; [exact H|]. apply IH. now injection HL.
Qed.
Lemma nth_groups {L} (labels : list L) offset len i lb off l d : List.length labels = List.length len -> List.length offset = List.length len ->
  nth i (combine (combine labels offset) len) (d, 0, 0) = (lb, off, l) -> nth i labels d = lb /\ nth i offset 0 = off /\ nth i len 0 = l.
Proof. intros H1 H2 E. rewrite combine_nth in E by (rewrite combine_length; lia). rewrite combine_nth in E by lia. now injection E. Qed.
Lemma fof_rows chosen len offset : groups_ok (zlen chosen) len offset ->
  mapM (fof_group len offset (positions chosen)) (zseq 1 (List.length len)) = Ok (map (fun '(label, off, l) => map (line label) (zslice chosen off (off + l))) (fof_groups len offset)).
Proof.
  intro H. pose proof (Forall2_len H) as HL. unfold fof_groups. set (labels := map (fun i => [i]) (zseq 0 (List.length len))).
  assert (List.length labels = List.length len) as LL by (unfold labels; now rewrite map_length, zseq_length).
  assert (List.length (combine (combine labels offset) len) = List.length len) as LC by (rewrite !combine_length; lia).
  rewrite <- LC. apply rows_ok; [now apply groups_forall|]. intros i label off l Hi E. apply nth_groups in E; [|exact LL|now symmetry]. destruct E as (E1 & E2 & E3).
  assert (0 <= i < zlen len) as Hi2 by (unfold zlen in *; lia). unfold fof_group, positions. replace (i + 1 - 1) with i by lia. rewrite !SortProofs.fget_ok by (unfold zlen in *; lia). cbn [bind]. unfold SortProofs.g. rewrite E2, E3.
  replace label with [i]; [reflexivity|]. rewrite <- E1. unfold labels. rewrite (nth_indep _ [] ((fun i => [i]) 0)) by (rewrite map_length, zseq_length; unfold zlen in *; lia). rewrite (map_nth (fun i => [i])), nth_zseq by (unfold zlen in *; lia). f_equal. lia.
Qed.
Lemma sub_rows chosen len offset par : groups_ok (zlen chosen) len offset -> List.length par = List.length len ->
  mapM (sub_group len offset par (positions chosen)) (zseq 1 (List.length len)) = Ok (map (fun '(label, off, l) => map (line label) (zslice chosen off (off + l))) (sub_groups len offset par)).
Proof.
  intros H HP. pose proof (Forall2_len H) as HL. unfold sub_groups. set (labels := map (fun '(i, p) => [i; p]) (combine (zseq 0 (List.length len)) par)).
  assert (List.length labels = List.length len) as LL by (unfold labels; rewrite map_length, combine_length, zseq_length; lia).
  assert (List.length (combine (combine labels offset) len) = List.length len) as LC by (rewrite !combine_length; lia).
  rewrite <- LC. apply rows_ok; [now apply groups_forall|]. intros i label off l Hi E. apply nth_groups in E; [|exact LL|now symmetry]. destruct E as (E1 & E2 & E3).
  assert (0 <= i < zlen len) as Hi2 by (unfold zlen in *; lia). unfold sub_group, positions. replace (i + 1 - 1) with i by lia. rewrite !SortProofs.fget_ok by (unfold zlen in *; lia). cbn [bind]. unfold SortProofs.g. rewrite E2, E3.
  replace label with [i; nth (Z.to_nat i) par 0]; [reflexivity|]. rewrite <- E1. unfold labels. rewrite (nth_indep _ [] ((fun '(i, p) => [i; p]) (0, 0))) by (rewrite map_length, combine_length, zseq_length; unfold zlen in *; lia).
  rewrite (map_nth (fun '(i, p) => [i; p]) _ (0, 0)), combine_nth, nth_zseq by (rewrite ?zseq_length; unfold zlen in *; lia). f_equal. lia.
Qed.

Section Programs.
  Variables little lf : bool.
  Variable shrink : Z -> Z.
  Variable nhash : Z.
  Variable fs : list (cellfile (list Z)).
  Variable contents : list (list Z).
  Variable junk : Z.
  Variable gids : list Z.
  Definition setting : Prop := shrink 1 <= 0 /\ (forall inc, 3 <= inc < 50 -> 1 <= shrink inc < inc) /\ Forall2 (hash_file lf) fs contents /\ covers 0 nhash fs.
  Hypothesis Hset : setting.
  Let sw := negb (Bool.eqb lf little).
  Definition home g p := in_cell fs (hash_key g) p /\ id_of p = plain_id g.
  Lemma found_ok : Forall (fun g => hash_key g < nhash) gids -> gids <> [] -> (forall g, In g gids -> exists p, home g p) ->
    exists chosen, chooses fs gids chosen /\ find_positions little sw shrink nhash contents junk gids = Ok (positions chosen).
  Proof.
    destruct Hset as (H1 & H2 & H3 & H4). intros HK HN HP. destruct (find_ok little lf shrink H1 H2 nhash fs contents H3 H4 junk gids HK) as (F & _ & _). apply F.
    - destruct gids as [|g l]; [contradiction|]. destruct (HP g (or_introl eq_refl)) as (p & Hp & _). exists p, g. split; [now left | exact Hp].
    - intros g Hg. destruct (HP g Hg) as (p & Hp & E). exists p. split; [|exact E]. now exists g.
  Qed.
  Lemma chosen_len chosen : chooses fs gids chosen -> zlen chosen = zlen gids.
  Proof. intro H. unfold zlen. now rewrite (Forall2_len H). Qed.
  Lemma fof_final len offset : Forall (fun g => hash_key g < nhash) gids -> gids <> [] -> (forall g, In g gids -> exists p, home g p) -> groups_ok (zlen gids) len offset ->
    exists chosen, chooses fs gids chosen /\ fof_program little sw shrink nhash contents junk gids len offset = Ok (lines (fof_groups len offset) chosen).
  Proof.
    intros HK HN HP HG. destruct (found_ok HK HN HP) as (chosen & HC & E). exists chosen. split; [exact HC|]. unfold fof_program. rewrite E. cbn [bind]. rewrite fof_rows by (now rewrite (chosen_len _ HC)). reflexivity.
  Qed.
  Lemma sub_final len offset par : Forall (fun g => hash_key g < nhash) gids -> gids <> [] -> (forall g, In g gids -> exists p, home g p) -> groups_ok (zlen gids) len offset -> List.length par = List.length len ->
    exists chosen, chooses fs gids chosen /\ sub_program little sw shrink nhash contents junk gids len offset par = Ok (lines (sub_groups len offset par) chosen).
  Proof.
    intros HK HN HP HG HL. destruct (found_ok HK HN HP) as (chosen & HC & E). exists chosen. split; [exact HC|]. unfold sub_program. rewrite E. cbn [bind]. rewrite sub_rows; [reflexivity| |exact HL]. now rewrite (chosen_len _ HC).
  Qed.
  Lemma missing_final g len offset par : Forall (fun g => hash_key g < nhash) gids -> (exists p, available fs gids p) -> In g gids -> (forall p, available fs gids p -> id_of p <> plain_id g) ->
    fof_program little sw shrink nhash contents junk gids len offset = Err ERuntime /\ sub_program little sw shrink nhash contents junk gids len offset par = Err ERuntime.
  Proof.
    destruct Hset as (H1 & H2 & H3 & H4). intros HK HN Hg HP. destruct (find_ok little lf shrink H1 H2 nhash fs contents H3 H4 junk gids HK) as (_ & F & _).
    unfold fof_program, sub_program. unfold sw. rewrite F; [now split | exact HN |]. intro A. destruct (A g Hg) as (p & Hp & E). exact (HP p Hp E).
  Qed.
  Lemma nothing_final len offset par : Forall (fun g => hash_key g < nhash) gids -> (forall p, ~ available fs gids p) ->
    fof_program little sw shrink nhash contents junk gids len offset = Err EAbort /\ sub_program little sw shrink nhash contents junk gids len offset par = Err EAbort.
  Proof.
    destruct Hset as (H1 & H2 & H3 & H4). intros HK HN. destruct (find_ok little lf shrink H1 H2 nhash fs contents H3 H4 junk gids HK) as (_ & _ & F).
    unfold fof_program, sub_program. unfold sw. rewrite F; [now split |]. intros (p & Hp). exact (HN p Hp).
  Qed.
  Lemma wild_final g len offset par : In g gids -> nhash <= hash_key g ->
    fof_program little sw shrink nhash contents junk gids len offset = Err EIndex /\ sub_program little sw shrink nhash contents junk gids len offset par = Err EIndex.
  Proof.
    clear Hset. intros Hg HP. unfold fof_program, sub_program, find_positions. rewrite flags_bad; [now split|]. rewrite Forall_forall. intro A. specialize (A g Hg). cbn in A. lia.
  Qed.
End Programs.
Lemma unique_final fs gids chosen : chooses fs gids chosen -> (forall g, In g gids -> exists p, in_cell fs (hash_key g) p /\ id_of p = plain_id g) ->
  (forall h h' p q, in_cell fs h p -> in_cell fs h' q -> id_of p = id_of q -> p = q) -> Forall2 (fun g p => in_cell fs (hash_key g) p /\ id_of p = plain_id g) gids chosen.
Proof.
  intros HC HP HU. unfold chooses in HC.
  assert (forall l c, Forall2 (fun gid p => id_of p = plain_id gid /\ exists gid', In gid' gids /\ in_cell fs (hash_key gid') p) l c -> incl l gids -> Forall2 (fun g p => in_cell fs (hash_key g) p /\ id_of p = plain_id g) l c) as Q; [|apply Q; [exact HC | now intros x Hx]].
  clear HC. intros l c HC. induction HC as [|g p l c (E & g' & Hg' & Hp) HC IH]; intro HI; constructor.
  - destruct (HP g (HI g (or_introl eq_refl))) as (q & Hq & Eq). rewrite (HU _ _ p q Hp Hq (eq_trans E (eq_sym Eq))). now split.
  - apply IH. intros x Hx. apply HI. now right.
Qed.
