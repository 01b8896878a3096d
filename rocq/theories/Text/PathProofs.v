(** Proofs about the names of the Millennium files (for C80). *)
From Coq Require Import Ascii String NArith.
From Verif Require Import Base.Prelude Base.ListLemmas Text.StrModel Text.StrSpec Text.StrProofs Text.EagleFinal Text.PathModel Text.PathSpec.
From Coq Require Import ZifyBool ZifyNat.
Local Open Scope char_scope. Local Open Scope Z_scope. Local Open Scope list_scope.

Lemma kind_type itype d b : kind_of itype = Some (d, b) <-> file_type itype d b.
Proof.
  unfold kind_of. split.
  - repeat (match goal with |- context[if ?a =? ?b then _ else _] => destruct (Z.eqb_spec a b) end; [intros [= <- <-]; subst; constructor|]). discriminate.
  - intros []; reflexivity.
Qed.
Lemma kind_none itype : ~ 0 <= itype <= 4 -> kind_of itype = None.
Proof. intro H. unfold kind_of. repeat (match goal with |- context[if ?a =? ?b then _ else _] => destruct (Z.eqb_spec a b) end; [lia|]). reflexivity. Qed.
Lemma kind_some itype : 0 <= itype <= 4 -> exists d b, file_type itype d b.
Proof. intro H. assert (itype = 0 \/ itype = 1 \/ itype = 2 \/ itype = 3 \/ itype = 4) as [-> | [-> | [-> | [-> | ->]]]] by lia; do 2 eexists; constructor. Qed.
Lemma file_type_fun i j d b : file_type i d b -> file_type j d b -> i = j.
Proof. intros [] H; inversion H; reflexivity. Qed.
Lemma file_type_det i d b d' b' : file_type i d b -> file_type i d' b' -> d = d' /\ b = b'.
Proof. intros [] H; inversion H; auto. Qed.
Lemma type_base_fun i j d b d' b' : file_type i d b -> file_type j d' b' -> b = b' -> i = j.
Proof. intros [] [] H; try reflexivity; discriminate H. Qed.

Lemma fmt_p_pos w z : 0 <= z -> fmt_p w z = fmt_0d w z.
Proof. destruct z; [reflexivity | reflexivity | lia]. Qed.
Lemma fmt_p_digits w z : 0 <= z -> fmt_p w z = pad "0" w (dec (Z.to_N z)).
Proof. destruct z; [reflexivity | reflexivity | lia]. Qed.
Lemma fmt_d_digits z : 0 <= z -> fmt_d z = dec (Z.to_N z).
Proof. destruct z; [reflexivity | reflexivity | lia]. Qed.
Lemma number_pad w z : (1 <= w)%nat -> 0 <= z -> number w z (pad "0" w (dec (Z.to_N z))).
Proof.
  intros Hw H. split; [apply pad0_digits, dec_digits|]. split; [rewrite pad0_val, dec_val; lia|]. split; [rewrite pad_length; lia|].
  rewrite pad_length. intros Hl E. unfold pad in E. replace (w - length (dec (Z.to_N z)))%nat with 0%nat in E by lia. cbn [repeat app] in E.
  destruct (dec_decimal (Z.to_N z)) as [_ [_ Hd]]. rewrite (Hd E) in Hl. cbn in Hl. lia.
Qed.
Lemma number_p w z : (1 <= w)%nat -> 0 <= z -> number w z (fmt_p w z).
Proof. intros. rewrite fmt_p_digits by assumption. now apply number_pad. Qed.
Lemma number_d z : 0 <= z -> number 1 z (fmt_d z).
Proof.
  intros. rewrite fmt_d_digits by assumption. replace (dec (Z.to_N z)) with (pad "0" 1 (dec (Z.to_N z))); [now apply number_pad|].
  unfold pad. pose proof (dec_nonempty (Z.to_N z)). destruct (dec (Z.to_N z)); [congruence|]. reflexivity.
Qed.
Lemma number_fun w z z' s : number w z s -> number w z' s -> z = z'.
Proof. intros (_ & <- & _) (_ & E & _). exact E. Qed.
Lemma digits_not_in s c : all_digits s -> is_digit c = false -> ~ In c s.
Proof. intros H E I. unfold all_digits in H. rewrite Forall_forall in H. rewrite (H _ I) in E. discriminate. Qed.
Lemma number_not_in w z s c : number w z s -> is_digit c = false -> ~ In c s.
Proof. intros (H & _). now apply digits_not_in. Qed.

(** *** python *)
Lemma shape itype isnap ifile d b : 0 <= isnap -> 0 <= ifile -> file_type itype d b ->
  exists m s s' n, number 2 ((ifile + 3 * (63 - isnap)) mod 14) m /\ number 2 isnap s /\ number 3 isnap s' /\ number 1 ifile n /\
    cosma_file_path itype isnap ifile = Some (lit "/milli" ++ m ++ lit "/d" ++ s ++ lit "/" ++ lit d ++ lit "/" ++ lit b ++ lit "_" ++ s' ++ lit "." ++ n).
Proof.
  intros Hs Hf Ht. exists (fmt_p 2 ((ifile + 3 * (63 - isnap)) mod 14)), (fmt_p 2 isnap), (fmt_p 3 isnap), (fmt_d ifile).
  assert (0 <= (ifile + 3 * (63 - isnap)) mod 14) by (apply Z.mod_pos_bound; lia).
  repeat split; try (apply number_p; (lia || assumption)); try (now apply number_d); try (apply number_p; [lia | assumption]).
  unfold cosma_file_path. apply kind_type in Ht. rewrite Ht. reflexivity.
Qed.
(** the last "." and the last "_" determine the numbers *)
Lemma tail_numbers p p' w s s' n n' a b i j : number w a s -> number w b s' -> number 1 i n -> number 1 j n' ->
  p ++ lit "_" ++ s ++ lit "." ++ n = p' ++ lit "_" ++ s' ++ lit "." ++ n' -> a = b /\ i = j /\ p = p'.
Proof.
  intros Ha Hb Hi Hj E.
  assert (n = n') as En.
  { apply (last_occ "." (p ++ lit "_" ++ s) n (p' ++ lit "_" ++ s') n'); [|apply (number_not_in _ _ _ _ Hi); reflexivity | apply (number_not_in _ _ _ _ Hj); reflexivity].
    rewrite <- !app_assoc. exact E. }
  subst n'. assert (p ++ lit "_" ++ s = p' ++ lit "_" ++ s') as E'.
  { apply (app_inv_tail (lit "." ++ n)). rewrite <- !app_assoc. exact E. }
  assert (s = s') as Es.
  { apply (last_occ "_" p s p' s'); [exact E' | apply (number_not_in _ _ _ _ Ha); reflexivity | apply (number_not_in _ _ _ _ Hb); reflexivity]. }
  subst s'. split; [eapply number_fun; eassumption|]. split; [eapply number_fun; eassumption|]. exact (app_inv_tail _ _ _ E').
Qed.
Lemma lit_inj a b : lit a = lit b -> a = b.
Proof. intro H. rewrite <- (string_of_list_ascii_of_string a), <- (string_of_list_ascii_of_string b). unfold lit in H. now rewrite H. Qed.
Lemma type_no_slash i d b : file_type i d b -> ~ In "/" (lit b).
Proof. intros []; cbn; intuition discriminate. Qed.
Lemma python_inj i s f i' s' f' : 0 <= i <= 4 -> 0 <= i' <= 4 -> 0 <= s -> 0 <= s' -> 0 <= f -> 0 <= f' ->
  cosma_file_path i s f = cosma_file_path i' s' f' -> i = i' /\ s = s' /\ f = f'.
Proof.
  intros Hi Hi' Hs Hs' Hf Hf' E. destruct (kind_some i Hi) as (d & b & Ht). destruct (kind_some i' Hi') as (d' & b' & Ht').
  destruct (shape i s f d b Hs Hf Ht) as (m & t & u & n & Hm & H2 & H3 & Hn & E1). destruct (shape i' s' f' d' b' Hs' Hf' Ht') as (m' & t' & u' & n' & Hm' & H2' & H3' & Hn' & E2).
  rewrite E1, E2 in E. injection E as E.
  destruct (tail_numbers (lit "/milli" ++ m ++ lit "/d" ++ t ++ lit "/" ++ lit d ++ lit "/" ++ lit b) (lit "/milli" ++ m' ++ lit "/d" ++ t' ++ lit "/" ++ lit d' ++ lit "/" ++ lit b') 3 u u' n n' s s' f f') as (-> & -> & Ep); try assumption.
  { rewrite <- !app_assoc. cbn [lit list_ascii_of_string app]. do 6 f_equal. exact E. }
  split; [|auto]. apply (type_base_fun i i' d b d' b'); try assumption. apply lit_inj.
  apply (last_occ "/" (lit "/milli" ++ m ++ lit "/d" ++ t ++ lit "/" ++ lit d) (lit b) (lit "/milli" ++ m' ++ lit "/d" ++ t' ++ lit "/" ++ lit d') (lit b')).
  - rewrite <- !app_assoc. exact Ep.
  - eapply type_no_slash; eassumption.
  - eapply type_no_slash; eassumption.
Qed.

(** *** Fortran *)
Definition same (w : nat) (z : Z) : bool := str_eqb (f_int w w z) (fmt_p w z) && (length (f_int w w z) =? w)%nat.
Lemma f_int2 z : 0 <= z <= 99 -> f_int 2 2 z = fmt_p 2 z /\ length (f_int 2 2 z) = 2%nat.
Proof.
  intro H. assert (forallb (same 2) (zseq 0 100) = true) as C by (vm_compute; reflexivity).
  rewrite forallb_forall in C. specialize (C z). rewrite In_zseq in C. specialize (C ltac:(lia)). unfold same in C.
  apply andb_prop in C as [C1 C2]. apply str_eqb_eq in C1. split; [exact C1 | now apply Nat.eqb_eq].
Qed.
Lemma f_int3 z : 0 <= z <= 999 -> f_int 3 3 z = fmt_p 3 z /\ length (f_int 3 3 z) = 3%nat.
Proof.
  intro H. assert (forallb (same 3) (zseq 0 1000) = true) as C by (vm_compute; reflexivity).
  rewrite forallb_forall in C. specialize (C z). rewrite In_zseq in C. specialize (C ltac:(lia)). unfold same in C.
  apply andb_prop in C as [C1 C2]. apply str_eqb_eq in C1. split; [exact C1 | now apply Nat.eqb_eq].
Qed.
Definition fileno (ifile : Z) : res str :=
  if ifile <? 10 then f_write 4 (lit "." ++ f_int 1 1 ifile) else if ifile <? 100 then f_write 4 (lit "." ++ f_int 2 2 ifile) else f_write 4 (lit "." ++ f_int 3 3 ifile).
Definition same_no (i : Z) : bool :=
  match fileno i with Ok s => str_eqb s (("." :: fmt_d i) ++ repeat " " (3 - length (fmt_d i))) && (length (fmt_d i) <=? 3)%nat | Err _ => false end.
Lemma fileno_ok i : 0 <= i <= 999 -> fileno i = Ok (("." :: fmt_d i) ++ repeat " " (3 - length (fmt_d i))) /\ (length (fmt_d i) <= 3)%nat.
Proof.
  intro H. assert (forallb same_no (zseq 0 1000) = true) as C by (vm_compute; reflexivity).
  rewrite forallb_forall in C. specialize (C i). rewrite In_zseq in C. specialize (C ltac:(lia)). unfold same_no in C.
  destruct (fileno i) as [s|]; [|discriminate]. apply andb_prop in C as [C1 C2]. apply str_eqb_eq in C1. split; [now f_equal | now apply Nat.leb_le].
Qed.
Lemma f_int_len w m z : length (f_int w m z) = w.
Proof.
  unfold f_int. set (body := match z with Z.neg p => _ | _ => _ end). destruct (Nat.ltb_spec w (length body)) as [Q|Q].
  - apply repeat_length.
  - rewrite pad_length. lia.
Qed.
Lemma fileno_total i : exists s, fileno i = Ok s.
Proof. unfold fileno, f_write. destruct (i <? 10), (i <? 100); rewrite app_length, f_int_len; cbn; eexists; reflexivity. Qed.

Lemma trim_blank s c n : c <> " " -> f_trim ((s ++ [c]) ++ repeat " " n) = s ++ [c].
Proof.
  intro Hc. unfold f_trim. rewrite rev_app_distr, rev_unit.
  assert (rev (repeat " " n) = repeat " " n) as ->.
  { clear. induction n as [|n IH]; [reflexivity|]. cbn [repeat rev]. rewrite IH. clear. induction n as [|n IH]; [reflexivity|]. cbn [repeat app]. now rewrite IH. }
  induction n as [|n IH]; cbn [repeat app].
  - destruct (Ascii.eqb_spec c " "); [contradiction|]. cbn [rev]. now rewrite rev_involutive.
  - exact IH.
Qed.
Lemma number_last w z s : (1 <= w)%nat -> number w z s -> exists t c, s = t ++ [c] /\ c <> " ".
Proof.
  intros Hw (Hd & _ & Hl & _). destruct (exists_last (l := s)) as (t & c & E); [destruct s; [cbn in Hl; lia | discriminate]|].
  exists t, c. split; [exact E|]. intros ->. unfold all_digits in Hd. rewrite Forall_forall in Hd. specialize (Hd " "). rewrite E in Hd. discriminate Hd. apply in_or_app. right. now left.
Qed.
Lemma type_lengths i d b : file_type i d b -> (length (lit d) <= 9)%nat /\ (length (lit b) <= 15)%nat.
Proof. intros []; cbn; lia. Qed.
Lemma fortran_python itype isnap ifile : 0 <= itype <= 4 -> 0 <= isnap <= 99 -> 0 <= ifile <= 999 -> 0 <= ifile + 3 * (63 - isnap) ->
  exists p, cosma_file_path itype isnap ifile = Some p /\ filepath itype isnap ifile = Ok ((lit "/data" ++ p) ++ repeat " " (256 - length (lit "/data" ++ p))).
Proof.
  intros Hi Hs Hf Hd. destruct (kind_some itype Hi) as (d & b & Ht). pose proof (type_lengths _ _ _ Ht) as [Ld Lb].
  apply kind_type in Ht. unfold cosma_file_path, filepath. fold (fileno ifile). rewrite Ht. eexists. split; [reflexivity|].
  rewrite Z.rem_mod_nonneg by lia. assert (0 <= (ifile + 3 * (63 - isnap)) mod 14 < 14) as Hm by (apply Z.mod_pos_bound; lia).
  destruct (f_int2 ((ifile + 3 * (63 - isnap)) mod 14) ltac:(lia)) as [E1 L1]. destruct (f_int2 isnap ltac:(lia)) as [E2 L2]. destruct (f_int3 isnap ltac:(lia)) as [E3 L3].
  destruct (fileno_ok ifile Hf) as [E4 L4]. rewrite E1 in *. rewrite E2 in *. rewrite E3 in *. rewrite E4. cbn [bind].
  set (m := fmt_p 2 ((ifile + 3 * (63 - isnap)) mod 14)) in *. set (s2 := fmt_p 2 isnap) in *. set (s3 := fmt_p 3 isnap) in *. set (n := fmt_d ifile) in *.
  set (dir := lit "/data/milli" ++ m ++ lit "/d" ++ s2 ++ lit "/" ++ lit d ++ lit "/").
  assert (length dir <= 30)%nat as Ldir. { unfold dir. rewrite !app_length, L1, L2. cbn [length lit list_ascii_of_string]. lia. }
  unfold f_write at 1. destruct (Nat.ltb_spec 256 (length dir)) as [Q|_]; [lia|]. cbn [bind].
  assert (f_trim (dir ++ repeat " " (256 - length dir)) = dir) as ->.
  { unfold dir at 1 3. replace (lit "/data/milli" ++ m ++ lit "/d" ++ s2 ++ lit "/" ++ lit d ++ lit "/") with ((lit "/data/milli" ++ m ++ lit "/d" ++ s2 ++ lit "/" ++ lit d) ++ ["/"]) by (rewrite <- !app_assoc; reflexivity).
    apply trim_blank. discriminate. }
  set (name := lit b ++ lit "_" ++ s3 ++ ("." :: n)).
  assert (length name <= 23)%nat as Lname. { unfold name. rewrite !app_length, L3. cbn [length lit list_ascii_of_string]. lia. }
  assert (lit b ++ lit "_" ++ s3 ++ ("." :: n) ++ repeat " " (3 - length n) = name ++ repeat " " (3 - length n)) as ->.
  { unfold name. rewrite <- !app_assoc. reflexivity. }
  unfold f_write. rewrite app_length, repeat_length. destruct (Nat.ltb_spec 256 (length name + (3 - length n))) as [Q|_]; [lia|]. cbn [bind].
  rewrite <- app_assoc, <- repeat_app.
  destruct (number_last 1 ifile n ltac:(lia)) as (t & c & En & Hc); [apply number_d; lia|].
  assert (forall k, f_trim (name ++ repeat " " k) = name) as Etrim.
  { intro k. unfold name. rewrite En. replace (lit b ++ lit "_" ++ s3 ++ "." :: t ++ [c]) with ((lit b ++ lit "_" ++ s3 ++ "." :: t) ++ [c]) by (rewrite <- !app_assoc; reflexivity). now apply trim_blank. }
  rewrite Etrim. unfold f_assign.
  assert (lit "/data" ++ lit "/milli" ++ m ++ lit "/d" ++ s2 ++ lit "/" ++ lit d ++ lit "/" ++ lit b ++ lit "_" ++ s3 ++ lit "." ++ n = dir ++ name) as ->.
  { unfold dir, name. rewrite <- !app_assoc. reflexivity. }
  rewrite firstn_all2 by (rewrite app_length; lia). reflexivity.
Qed.
Lemma fortran_stop itype isnap ifile : ~ 0 <= itype <= 4 -> filepath itype isnap ifile = Err EAbort.
Proof. intro H. unfold filepath. fold (fileno ifile). destruct (fileno_total ifile) as [s ->]. cbn [bind]. rewrite kind_none by exact H. reflexivity. Qed.
Lemma blanks_inj (a b : str) k l : (exists t c, a = t ++ [c] /\ c <> " ") -> (exists t c, b = t ++ [c] /\ c <> " ") -> a ++ repeat " " k = b ++ repeat " " l -> a = b.
Proof.
  intros (t & c & -> & Hc) (u & e & -> & He) E. pose proof (trim_blank t c k Hc) as T1. pose proof (trim_blank u e l He) as T2. rewrite E, T2 in T1. now symmetry.
Qed.
Lemma cosma_last itype isnap ifile p : 0 <= itype <= 4 -> 0 <= isnap -> 0 <= ifile -> cosma_file_path itype isnap ifile = Some p -> exists t c, lit "/data" ++ p = t ++ [c] /\ c <> " ".
Proof.
  intros Hi Hs Hf E. destruct (kind_some itype Hi) as (d & b & Ht). destruct (shape itype isnap ifile d b Hs Hf Ht) as (m & s & u & n & _ & _ & _ & Hn & E1).
  rewrite E1 in E. injection E as E. destruct (number_last 1 ifile n ltac:(lia) Hn) as (t & c & En & Hc). subst n.
  exists (lit "/data" ++ lit "/milli" ++ m ++ lit "/d" ++ s ++ lit "/" ++ lit d ++ lit "/" ++ lit b ++ lit "_" ++ u ++ lit "." ++ t), c. split; [|exact Hc].
  rewrite <- E. rewrite <- !app_assoc. reflexivity.
Qed.
Lemma fortran_inj i s f i' s' f' : 0 <= i <= 4 -> 0 <= i' <= 4 -> 0 <= s <= 99 -> 0 <= s' <= 99 -> 0 <= f <= 999 -> 0 <= f' <= 999 ->
  0 <= f + 3 * (63 - s) -> 0 <= f' + 3 * (63 - s') -> filepath i s f = filepath i' s' f' -> i = i' /\ s = s' /\ f = f'.
Proof.
  intros Hi Hi' Hs Hs' Hf Hf' Hd Hd' E. destruct (fortran_python i s f Hi Hs Hf Hd) as (p & E1 & F1). destruct (fortran_python i' s' f' Hi' Hs' Hf' Hd') as (p' & E2 & F2).
  rewrite F1, F2 in E. assert (forall x y : str, Ok x = Ok y -> x = y) as OkI by (intros x y Q; now injection Q). apply OkI in E. apply python_inj; try assumption; try lia. rewrite E1, E2. f_equal.
  apply (app_inv_head (lit "/data")). eapply blanks_inj; [eapply (cosma_last i s f); (eassumption || lia) | eapply (cosma_last i' s' f'); (eassumption || lia) |]. exact E.
Qed.

(** *** Snapshot.open_file *)
Lemma name_shape basedir basename isnap ifile : basedir <> lit "COSMA" -> 0 <= isnap -> 0 <= ifile ->
  exists s n, number 3 isnap s /\ number 1 ifile n /\ snapshot_name basedir basename isnap ifile = Ok (basedir ++ lit "/snapdir_" ++ s ++ lit "/" ++ basename ++ lit "_" ++ s ++ lit "." ++ n).
Proof.
  intros Hb Hs Hf. exists (fmt_p 3 isnap), (fmt_d ifile). split; [now apply number_p; [lia|]|]. split; [now apply number_d|].
  unfold snapshot_name. destruct (str_eqb basedir (lit "COSMA")) eqn:E; [apply str_eqb_eq in E; contradiction|]. cbn [negb]. now rewrite <- fmt_p_pos by exact Hs.
Qed.
Lemma name_cosma basename isnap ifile : exists p, cosma_file_path 0 isnap ifile = Some p /\ snapshot_name (lit "COSMA") basename isnap ifile = Ok (lit "/gpfs/data/Millennium/" ++ p).
Proof. unfold snapshot_name, cosma_file_path. cbn. eexists. split; reflexivity. Qed.
Lemma name_inj basedir b b' s s' f f' : basedir <> lit "COSMA" -> 0 <= s -> 0 <= s' -> 0 <= f -> 0 <= f' ->
  snapshot_name basedir b s f = snapshot_name basedir b' s' f' -> b = b' /\ s = s' /\ f = f'.
Proof.
  intros Hb Hs Hs' Hf Hf' E. destruct (name_shape basedir b s f Hb Hs Hf) as (u & n & Hu & Hn & E1). destruct (name_shape basedir b' s' f' Hb Hs' Hf') as (u' & n' & Hu' & Hn' & E2).
  rewrite E1, E2 in E. injection E as E.
  destruct (tail_numbers (basedir ++ lit "/snapdir_" ++ u ++ lit "/" ++ b) (basedir ++ lit "/snapdir_" ++ u' ++ lit "/" ++ b') 3 u u' n n' s s' f f') as (-> & -> & Ep); try assumption.
  { rewrite <- !app_assoc. exact E. }
  split; [|auto]. assert (u = u') as ->.
  { destruct Hu as (Hu1 & Hu2 & _). destruct Hu' as (Hu1' & Hu2' & _).
    clear -Ep Hu1 Hu1'. apply app_inv_head in Ep. apply app_inv_head in Ep.
    revert u' Ep Hu1'. induction u as [|c u IH]; intros [|c' u'] Ep H'; [reflexivity | | |].
    - cbn in Ep. injection Ep as <- _. inversion H'; discriminate.
    - cbn in Ep. injection Ep as -> _. inversion Hu1; discriminate.
    - cbn [app] in Ep. injection Ep as -> Ep. inversion Hu1; inversion H'; subst. f_equal. now apply IH. }
  apply app_inv_head in Ep. apply app_inv_head in Ep. apply app_inv_head in Ep. now apply app_inv_head in Ep.
Qed.
