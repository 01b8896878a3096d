(** Proofs for SubListModel.v. *)
From Coq Require Import Ascii String NArith.
From Verif.Base Require Import Prelude ListLemmas Order.
From Verif.Binary Require Import BinModel NameProofs LayoutProofs.
From Verif.Formats Require Import ReaderModel FileSpec CatSpec CatFinal.
From Verif.Text Require Import StrModel StrSpec StrProofs FileNrProofs.
From Verif.Script Require Import SubListModel SubListSpec.
From Coq Require Import ZifyBool ZifyNat ZifyN.
Local Open Scope Z_scope.
Local Open Scope list_scope.

(** *** names *)
Lemma shows_fmt_d z : shows (fmt_d z) z.
Proof.
  destruct z as [|p|p]; cbn [fmt_d].
  - left. split; [lia|]. split; [apply dec_decimal | reflexivity].
  - left. split; [lia|]. split; [apply dec_decimal|]. rewrite dec_val. lia.
  - right. exists (dec (N.pos p)). split; [reflexivity|]. split; [lia|]. split; [apply dec_decimal|]. rewrite dec_val. lia.
Qed.
Lemma dec_short n : (n < 1000)%N -> (List.length (dec n) <= 3)%nat.
Proof.
  intro H. assert (forallb (fun k => Nat.leb (List.length (dec (N.of_nat k))) 3) (seq 0 1000) = true) as E by (vm_compute; reflexivity).
  rewrite forallb_forall in E. specialize (E (N.to_nat n)). rewrite in_seq, N2Nat.id in E. apply Nat.leb_le, E. lia.
Qed.
Lemma name_ok isnap ifile : 0 <= isnap <= 999 -> file_name_is isnap ifile (sub_tab_name isnap ifile).
Proof.
  intro H. exists (fmt_0d 3 isnap), (fmt_d ifile).
  assert (fmt_0d 3 isnap = pad "0" 3 (dec (Z.to_N isnap))) as E by (destruct isnap; [reflexivity | reflexivity | lia]).
  rewrite E. pose proof (dec_short (Z.to_N isnap) ltac:(lia)) as L. repeat split.
  - rewrite pad_length. lia.
  - apply pad0_digits, dec_digits.
  - rewrite pad0_val, dec_val. lia.
  - apply shows_fmt_d.
  - unfold sub_tab_name. rewrite E. reflexivity.
Qed.

(** a number has one decimal *)
Lemma digits_unique s : forall t, all_digits s -> all_digits t -> List.length s = List.length t -> sval s = sval t -> s = t.
Proof.
  induction s as [|c s IH]; intros [|d t] Hs Ht L E; try discriminate; [reflexivity|]. rewrite !sval_cons in E. injection L as L.
  inversion Hs as [|? ? Hc Hs']; subst. inversion Ht as [|? ? Hd Ht']; subst. pose proof (sval_bound s Hs') as B1. pose proof (sval_bound t Ht') as B2. rewrite L in E, B1.
  set (p := (10 ^ N.of_nat (List.length t))%N) in *. unfold is_digit in Hc, Hd. assert (N_of_ascii c = N_of_ascii d /\ sval s = sval t) as [E1 E2].
  { destruct (N.div_mod_unique p (N_of_ascii c - 48) (N_of_ascii d - 48) (sval s) (sval t)) as [E1 E2]; [assumption | assumption | lia|]. split; [lia | exact E2]. }
  f_equal; [|now apply IH]. rewrite <- (ascii_N_embedding c), <- (ascii_N_embedding d). now rewrite E1.
Qed.
Lemma decimal_len s t : decimal s -> decimal t -> (sval s <= sval t)%N -> (List.length s <= List.length t)%nat.
Proof.
  intros (Ds & Ns & Zs) (Dt & Nt & _) H. pose proof (sval_bound _ Dt) as B. destruct s as [|c s]; [contradiction|]. destruct t as [|d t]; [contradiction|]. rewrite (sval_cons c s) in H. cbn [List.length] in *.
  destruct (Ascii.eqb_spec c "0") as [->|Hc].
  - specialize (Zs eq_refl). injection Zs as ->. cbn. lia.
  - assert (1 <= N_of_ascii c - 48)%N as H1.
    { inversion Ds as [|? ? Hd _]. unfold is_digit in Hd. assert (N_of_ascii c <> 48%N); [|lia]. intro Ec. apply Hc. rewrite <- (ascii_N_embedding c), Ec. reflexivity. }
    assert (10 ^ N.of_nat (List.length s) < 10 ^ N.of_nat (S (List.length t)))%N as L by nia. apply N.pow_lt_mono_r_iff in L; lia.
Qed.
Lemma decimal_unique s t : decimal s -> decimal t -> sval s = sval t -> s = t.
Proof. intros Hs Ht E. apply digits_unique; [apply Hs | apply Ht | | exact E]. pose proof (decimal_len s t Hs Ht). pose proof (decimal_len t s Ht Hs). lia. Qed.
Lemma shows_unique s t z : shows s z -> shows t z -> s = t.
Proof.
  intros [(Z1 & D1 & E1)|(s' & -> & Z1 & D1 & E1)] [(Z2 & D2 & E2)|(t' & -> & Z2 & D2 & E2)]; try lia.
  - apply decimal_unique; [assumption..|lia].
  - f_equal. apply decimal_unique; [assumption..|lia].
Qed.
Lemma name_unique isnap ifile s t : file_name_is isnap ifile s -> file_name_is isnap ifile t -> s = t.
Proof.
  intros (a & b & L & D & E & S & ->) (a' & b' & L' & D' & E' & S' & ->). rewrite (shows_unique b b' ifile S S'). rewrite (digits_unique a a' D D'); [reflexivity | congruence | lia].
Qed.

(** *** one file *)
Lemma dataset_read little content f name size shape vals : dataset_is little content f name size shape vals -> read_dataset little content f name = Ok vals.
Proof. intros (id & attrs & b & items & E1 & E2 & _ & _ & E3 & E4). unfold read_dataset. rewrite E1. cbn [bind]. rewrite E2, E3. cbn [bind]. now rewrite E4. Qed.
Lemma item_ok a i : 0 <= i < zlen a -> item a i = Ok (nth (Z.to_nat i) a 0).
Proof. intro H. unfold item. rewrite (nth_error_nth' a 0) by (unfold zlen in H; lia). reflexivity. Qed.
Lemma signed_bits b : signed32 b = int_of_bits b.
Proof. unfold signed32, int_of_bits. change (2 ^ 31) with 2147483648. change (2 ^ 32) with 4294967296. destruct (Z.leb_spec 2147483648 b), (Z.ltb_spec b 2147483648); lia. Qed.

Lemma line_ok fmt_f cat n i : zlen (cat "SubParentHalo"%string) = n -> zlen (cat "SubLen"%string) = n -> zlen (cat "SubPos"%string) = n * 3 -> zlen (cat "SubVel"%string) = n * 3 -> 0 <= i < n ->
  exists line, show_subhalo fmt_f (cat "SubParentHalo"%string) (cat "SubLen"%string) (cat "SubPos"%string) (cat "SubVel"%string) i = Ok line /\ line_for fmt_f cat (Z.to_nat i) line.
Proof.
  intros H1 H2 H3 H4 Hi. unfold show_subhalo, item2. rewrite !item_ok by lia. cbn [bind]. eexists. split; [reflexivity|].
  eexists _, _. split; [apply shows_fmt_d|]. split; [apply shows_fmt_d|]. rewrite !signed_bits. cbn [map app separated].
  replace (Z.to_nat (3 * i + 0)) with (3 * Z.to_nat i + 0)%nat by lia. replace (Z.to_nat (3 * i + 1)) with (3 * Z.to_nat i + 1)%nat by lia. replace (Z.to_nat (3 * i + 2)) with (3 * Z.to_nat i + 2)%nat by lia.
  reflexivity.
Qed.

(** the loop, when each step prints one line *)
Lemma print_lines (P : Z -> str -> Prop) body l :
  (forall i, In i l -> exists line, body i = ([line], Ok tt) /\ P i line) -> exists lines, print_each body l = (lines, Ok tt) /\ Forall2 P l lines.
Proof.
  induction l as [|i l IH]; intro H.
  - exists []. split; [reflexivity | constructor].
  - destruct (H i) as (line & E & Hp); [now left|]. destruct IH as (lines & E' & F). { intros j Hj. apply H. now right. }
    exists (line :: lines). cbn [print_each]. rewrite E, E'. split; [reflexivity | now constructor].
Qed.
Lemma Forall2_zseq {A} (P : Z -> A -> Prop) n : forall a l, Forall2 P (zseq a n) l -> List.length l = n /\ forall i x, nth_error l i = Some x -> P (a + Z.of_nat i) x.
Proof.
  intros a l H. split; [assert (List.length (zseq a n) = List.length l) as E by (clear -H; induction H; cbn; congruence); rewrite zseq_length in E; lia|]. revert a l H. induction n as [|n IH]; intros a l H.
  - inversion H; subst. intros [|i] x E; discriminate.
  - cbn [zseq] in H. inversion H as [|? y ? l' Hy Hl]; subst. intros [|i] x E.
    + injection E as <-. now rewrite Z.add_0_r.
    + cbn [nth_error] in E. specialize (IH _ _ Hl _ _ E). now replace (a + Z.of_nat (S i)) with (a + 1 + Z.of_nat i) by lia.
Qed.

Section File.
  Variables (little : bool) (fs : str -> option (list Z)) (fmt_f : Z -> str).
  Ltac inlist := repeat (first [left; reflexivity | right]).
  Lemma show_file_ok isnap ifile cat : 0 <= isnap <= 999 -> holds fs isnap ifile cat ->
    exists lines, show_file little fs fmt_f isnap ifile = (lines, Ok tt) /\ lines_for fmt_f cat lines.
  Proof.
    intros Hs (C & N & lf & rest & name & Hname & Hfs). rewrite (name_unique _ _ _ _ Hname (name_ok isnap ifile Hs)) in Hfs.
    destruct (catalogue_opens _ _ _ cat little lf rest (r_L2_sub_tab 8 (or_intror eq_refl)) C N) as (f & Ho & (R & _) & _ & _).
    assert (forall fd, In fd (L2_sub_tab 8) -> read_dataset little (file_bytes lf (pieces_of cat (L2_sub_tab 8)) ++ rest) f (nm (fd_name fd)) = Ok (cat (fd_name fd))) as Hread.
    { intros fd Hin. apply (dataset_read _ _ _ _ (fd_size fd) (map (extent cat) (fd_dims fd))). apply R. apply in_map_iff. exists fd. split; [reflexivity | exact Hin]. }
    destruct C as [Cok Cdim]. rewrite Forall_forall in Cok, Cdim.
    assert (forall fd, In fd (L2_sub_tab 8) -> zlen (cat (fd_name fd)) = fold_left Z.mul (map (extent cat) (fd_dims fd)) 1) as Hlen.
    { intros fd Hin. specialize (Cok (data_of cat fd) (in_map _ _ _ Hin)). apply Cok. }
    assert (0 <= scalar cat "Nsubhalos" < 2 ^ 31) as Hn.
    { specialize (Cdim (col "Nsubhalos" "SubLen" 4)). cbn [fd_dims col] in Cdim. specialize (Cdim ltac:(inlist)). apply Forall_cons_iff in Cdim. apply Cdim. }
    set (n := scalar cat "Nsubhalos") in *.
    pose proof (Hread (one "Nsubhalos" 4) ltac:(inlist)) as R1. pose proof (Hread (col "Nsubhalos" "SubParentHalo" 4) ltac:(inlist)) as R2.
    pose proof (Hread (col "Nsubhalos" "SubLen" 4) ltac:(inlist)) as R3. pose proof (Hread (vec "Nsubhalos" 3 "SubPos" 4) ltac:(inlist)) as R4.
    pose proof (Hread (vec "Nsubhalos" 3 "SubVel" 4) ltac:(inlist)) as R5.
    pose proof (Hlen (col "Nsubhalos" "SubParentHalo" 4) ltac:(inlist)) as L2. pose proof (Hlen (col "Nsubhalos" "SubLen" 4) ltac:(inlist)) as L3.
    pose proof (Hlen (vec "Nsubhalos" 3 "SubPos" 4) ltac:(inlist)) as L4. pose proof (Hlen (vec "Nsubhalos" 3 "SubVel" 4) ltac:(inlist)) as L5.
    cbn [fd_name fd_dims one col vec map extent fold_left] in R1, R2, R3, R4, R5, L2, L3, L4, L5. fold n in L2, L3, L4, L5.
    rewrite Z.mul_1_l in L2, L3, L4, L5.
    unfold show_file, read_sub_tab. rewrite Hfs. change mill_sub_tab with (lgadget2_sub_tab 8). rewrite Ho.
    change (lit "Nsubhalos") with (nm "Nsubhalos"). change (lit "SubParentHalo") with (nm "SubParentHalo"). change (lit "SubLen") with (nm "SubLen"). change (lit "SubPos") with (nm "SubPos"). change (lit "SubVel") with (nm "SubVel").
    rewrite R1, R2, R3, R4, R5. cbn [bind].
    assert (i32 (cat "Nsubhalos"%string) = n) as ->.
    { unfold i32. fold (scalar cat "Nsubhalos"). fold n. unfold signed32. destruct (Z.leb_spec (2 ^ 31) n); lia. }
    match goal with |- exists lines, print_each ?b _ = _ /\ _ => destruct (print_lines (fun i => line_for fmt_f cat (Z.to_nat i)) b (zseq 0 (Z.to_nat n))) as (lines & E & F) end.
    { intros i Hi. apply In_zseq in Hi. destruct (line_ok fmt_f cat n i L2 L3 L4 L5) as (line & El & Hl); [lia|]. exists line. rewrite El. now split. }
    exists lines. split; [exact E|]. apply Forall2_zseq in F. destruct F as [F1 F2]. split.
    - unfold zlen. fold n. lia.
    - intros i line Hi. specialize (F2 i line Hi). cbn beta in F2. now replace (Z.to_nat (0 + Z.of_nat i)) with i in F2 by lia.
  Qed.
  Lemma show_file_missing isnap ifile : 0 <= isnap <= 999 -> (forall name, file_name_is isnap ifile name -> fs name = None) -> show_file little fs fmt_f isnap ifile = ([], Err EIO).
  Proof. intros Hs H. unfold show_file, read_sub_tab. now rewrite (H _ (name_ok isnap ifile Hs)). Qed.

  (** *** several files *)
  Lemma print_app body l m : print_each body (l ++ m) = match print_each body l with (out, Ok _) => let '(out', r) := print_each body m in (out ++ out', r) | (out, Err e) => (out, Err e) end.
  Proof.
    induction l as [|i l IH]; cbn [app print_each].
    - now destruct (print_each body m).
    - destruct (body i) as [out [u|e]]; [|reflexivity]. rewrite IH. destruct (print_each body l) as [out' [u'|e']]; [|reflexivity]. destruct (print_each body m) as [out'' r]. now rewrite app_assoc.
  Qed.
  Lemma show_files isnap cats : 0 <= isnap <= 999 -> forall a, (forall i cat, nth_error cats i = Some cat -> holds fs isnap (a + Z.of_nat i) cat) ->
    exists out, print_each (show_file little fs fmt_f isnap) (zseq a (List.length cats)) = (out, Ok tt) /\ table_for fmt_f cats out.
  Proof.
    intro Hs. induction cats as [|cat cats IH]; intros a H.
    - exists []. split; [reflexivity|]. exists []. split; [constructor | reflexivity].
    - destruct (show_file_ok isnap a cat Hs) as (lines & E & Hl). { specialize (H 0%nat cat eq_refl). now rewrite Z.add_0_r in H. }
      destruct (IH (a + 1)) as (out & E' & parts & F & ->). { intros i c Hi. specialize (H (S i) c Hi). now replace (a + 1 + Z.of_nat i) with (a + Z.of_nat (S i)) by lia. }
      exists (lines ++ concat parts). cbn [List.length zseq print_each]. rewrite E, E'. split; [reflexivity|]. exists (lines :: parts). split; [now constructor | reflexivity].
  Qed.
  Lemma table_final isnap cats : 0 <= isnap <= 999 -> all_hold fs isnap cats ->
    exists out, read_subhalo_catalogue little fs fmt_f isnap (zlen cats) = (heading :: out, Ok tt) /\ table_for fmt_f cats out.
  Proof.
    intros Hs H. destruct (show_files isnap cats Hs 0 H) as (out & E & T). exists out. unfold read_subhalo_catalogue, zlen. rewrite Nat2Z.id, E. now split.
  Qed.
  Lemma split_files nfiles k : Z.of_nat k <= nfiles -> zseq 0 (Z.to_nat nfiles) = zseq 0 k ++ zseq (Z.of_nat k) (Z.to_nat nfiles - k).
  Proof. intro H. replace (Z.to_nat nfiles) with (k + (Z.to_nat nfiles - k))%nat at 1 by lia. rewrite zseq_app. f_equal. Qed.
  Lemma prefix_final isnap cats nfiles : 0 <= isnap <= 999 -> all_hold fs isnap cats -> zlen cats <= nfiles ->
    exists out more, fst (read_subhalo_catalogue little fs fmt_f isnap nfiles) = heading :: out ++ more /\ table_for fmt_f cats out.
  Proof.
    intros Hs H Hn. destruct (show_files isnap cats Hs 0 H) as (out & E & T). unfold read_subhalo_catalogue. rewrite (split_files nfiles (List.length cats)) by exact Hn. rewrite print_app, E.
    clear E. destruct (print_each _ _) as [more r]. exists out, more. split; [reflexivity | exact T].
  Qed.
  Lemma missing_final isnap cats nfiles : 0 <= isnap <= 999 -> all_hold fs isnap cats -> zlen cats < nfiles -> (forall name, file_name_is isnap (zlen cats) name -> fs name = None) ->
    exists out, read_subhalo_catalogue little fs fmt_f isnap nfiles = (heading :: out, Err EIO) /\ table_for fmt_f cats out.
  Proof.
    intros Hs H Hn Hm. destruct (show_files isnap cats Hs 0 H) as (out & E & T). exists out. split; [|exact T]. unfold read_subhalo_catalogue. unfold zlen in Hn, Hm. rewrite (split_files nfiles (List.length cats)) by lia. rewrite print_app, E.
    replace (Z.to_nat nfiles - List.length cats)%nat with (S (Z.to_nat nfiles - List.length cats - 1)) by lia. cbn [zseq print_each]. rewrite (show_file_missing isnap _ Hs Hm). now rewrite app_nil_r.
  Qed.
  (** the script *)
  Lemma script_final cats : List.length cats = 512%nat -> all_hold fs 63 cats ->
    exists out, read_subhalo_catalogue_py little fs fmt_f = (heading :: out, Ok tt) /\ table_for fmt_f cats out.
  Proof. intros L H. destruct (table_final 63 cats ltac:(lia) H) as (out & E & T). exists out. split; [|exact T]. unfold read_subhalo_catalogue_py. replace 512 with (zlen cats) by (unfold zlen; now rewrite L). rewrite E. reflexivity. Qed.
End File.

(** the number of lines *)
Lemma table_lines fmt_f cats out : table_for fmt_f cats out -> zlen out = sumZ (map (fun cat => scalar cat "Nsubhalos") cats).
Proof.
  intros (parts & F & ->). induction F as [|cat part cats parts [Hl _] F IH]; [reflexivity|]. cbn [concat map sumZ]. rewrite <- IH, <- Hl. unfold zlen. rewrite app_length. lia.
Qed.
