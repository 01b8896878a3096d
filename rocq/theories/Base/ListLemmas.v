(** Lemmas about the vocabulary of [Prelude]. *)
From Verif.Base Require Import Prelude.
From Coq Require Import ZifyBool ZifyNat.

Lemma bind_ok_inv {A B} (m : res A) (f : A -> res B) b :
  bind m f = Ok b -> exists a, m = Ok a /\ f a = Ok b.
Proof. destruct m as [a|e]; cbn; intro H; [exists a; auto | discriminate]. Qed.

Lemma check_ok b e u : check b e = Ok u -> b = true.
Proof. unfold check; destruct b; [reflexivity | discriminate]. Qed.

(** *** lengths *)
Lemma zlen_nil {A} : zlen (@nil A) = 0.
Proof. reflexivity. Qed.
Lemma zlen_cons {A} (x : A) l : zlen (x :: l) = 1 + zlen l.
Proof. unfold zlen; cbn [length]; lia. Qed.
Lemma zlen_app {A} (l m : list A) : zlen (l ++ m) = zlen l + zlen m.
Proof. unfold zlen; rewrite app_length; lia. Qed.
Lemma zlen_nonneg {A} (l : list A) : 0 <= zlen l.
Proof. unfold zlen; lia. Qed.
Lemma zlen_map {A B} (f : A -> B) l : zlen (map f l) = zlen l.
Proof. unfold zlen; now rewrite map_length. Qed.
Lemma to_nat_zlen {A} (l : list A) : Z.to_nat (zlen l) = length l.
Proof. unfold zlen; lia. Qed.
Lemma zlen_0_nil {A} (l : list A) : zlen l = 0 -> l = [].
Proof. destruct l; [auto|]. unfold zlen; cbn [length]; lia. Qed.

(** *** sums *)
Lemma sumZ_app l m : sumZ (l ++ m) = sumZ l + sumZ m.
Proof. induction l as [|x l IH]; cbn [sumZ app]; lia. Qed.
Lemma sumZ_nonneg l : Forall (fun x => 0 <= x) l -> 0 <= sumZ l.
Proof. induction 1; cbn [sumZ]; lia. Qed.
Lemma sumZ_perm l m : Permutation l m -> sumZ l = sumZ m.
Proof. induction 1; cbn [sumZ]; lia. Qed.
Lemma sumZ_firstn_S l k : sumZ (firstn (S k) l) = sumZ (firstn k l) + nth k l 0.
Proof.
  revert k; induction l as [|x l IH]; intro k.
  - destruct k; reflexivity.
  - destruct k as [|k]; cbn [firstn sumZ nth]; [lia|].
    specialize (IH k). cbn [firstn sumZ] in *. lia.
Qed.
Lemma sumZ_firstn_le l j k :
  Forall (fun x => 0 <= x) l -> (j <= k)%nat -> sumZ (firstn j l) <= sumZ (firstn k l).
Proof.
  intros Hl Hjk. induction Hjk as [|k Hjk IH]; [lia|].
  rewrite sumZ_firstn_S.
  assert (0 <= nth k l 0).
  { destruct (Nat.lt_ge_cases k (length l)) as [H|H].
    - rewrite Forall_forall in Hl. apply Hl, nth_In, H.
    - rewrite nth_overflow by lia. lia. }
  lia.
Qed.
Lemma sumZ_map_const {A} (c : Z) (l : list A) : sumZ (map (fun _ => c) l) = c * zlen l.
Proof. induction l as [|x l IH]; cbn [map sumZ]; [unfold zlen; cbn; lia | rewrite zlen_cons; lia]. Qed.
Lemma sumZ_map_add {A} (f g : A -> Z) l :
  sumZ (map (fun x => f x + g x) l) = sumZ (map f l) + sumZ (map g l).
Proof. induction l as [|x l IH]; cbn [map sumZ]; lia. Qed.
Lemma sumZ_map_ext_in {A} (f g : A -> Z) l :
  (forall x, In x l -> f x = g x) -> sumZ (map f l) = sumZ (map g l).
Proof. intro H. f_equal. now apply map_ext_in. Qed.
Lemma sumZ_map_le {A} (f g : A -> Z) l :
  (forall x, In x l -> f x <= g x) -> sumZ (map f l) <= sumZ (map g l).
Proof.
  induction l as [|x l IH]; cbn [map sumZ]; intro H; [lia|].
  specialize (IH (fun y Hy => H y (or_intror Hy))).
  specialize (H x (or_introl eq_refl)). lia.
Qed.
Lemma zlen_concat {A} (d : list (list A)) : zlen (concat d) = sumZ (map zlen d).
Proof. induction d as [|l d IH]; cbn [concat map sumZ]; [reflexivity|]. rewrite zlen_app. lia. Qed.

(** *** zseq *)
Lemma zseq_length s n : length (zseq s n) = n.
Proof. revert s; induction n; cbn [zseq length]; auto. Qed.
Lemma zlen_zseq s n : zlen (zseq s n) = Z.of_nat n.
Proof. unfold zlen; now rewrite zseq_length. Qed.
Lemma nth_zseq s n k d : (k < n)%nat -> nth k (zseq s n) d = s + Z.of_nat k.
Proof.
  revert s k; induction n as [|n IH]; intros s k H; [lia|].
  destruct k as [|k]; cbn [zseq nth]; [lia|]. rewrite IH by lia. lia.
Qed.
Lemma nth_error_zseq s n k : (k < n)%nat -> nth_error (zseq s n) k = Some (s + Z.of_nat k).
Proof.
  intro H. rewrite nth_error_nth' with (d := 0) by (rewrite zseq_length; lia).
  now rewrite nth_zseq.
Qed.
Lemma In_zseq x s n : In x (zseq s n) <-> s <= x < s + Z.of_nat n.
Proof.
  revert s; induction n as [|n IH]; intro s; cbn [zseq In]; [lia|].
  rewrite IH. lia.
Qed.
Lemma NoDup_zseq s n : NoDup (zseq s n).
Proof.
  revert s; induction n as [|n IH]; intro s; cbn [zseq]; constructor; auto.
  rewrite In_zseq. lia.
Qed.
Lemma zseq_app s n m : zseq s (n + m) = zseq s n ++ zseq (s + Z.of_nat n) m.
Proof.
  revert s; induction n as [|n IH]; intro s; cbn [zseq app Nat.add].
  - f_equal; lia.
  - rewrite IH. do 3 f_equal; lia.
Qed.
Lemma map_add_zseq k s n : map (Z.add k) (zseq s n) = zseq (k + s) n.
Proof.
  revert s; induction n as [|n IH]; intro s; cbn [zseq map]; [reflexivity|].
  rewrite IH. do 2 f_equal; lia.
Qed.

(** *** zipwith *)
Lemma zipwith_length {A B C} (f : A -> B -> C) l m :
  length (zipwith f l m) = Nat.min (length l) (length m).
Proof. revert m; induction l as [|a l IH]; destruct m; cbn [zipwith length Nat.min]; auto. Qed.
Lemma nth_error_zipwith {A B C} (f : A -> B -> C) l m k a b :
  nth_error l k = Some a -> nth_error m k = Some b -> nth_error (zipwith f l m) k = Some (f a b).
Proof.
  revert m k; induction l as [|x l IH]; intros m k Ha Hb.
  - destruct k; discriminate.
  - destruct m as [|y m]; [destruct k; discriminate|].
    destruct k as [|k]; cbn [nth_error zipwith] in *; [congruence|]. now apply IH.
Qed.
Lemma nth_zipwith {A B C} (f : A -> B -> C) l m k da db dc :
  (k < length l)%nat -> (k < length m)%nat ->
  nth k (zipwith f l m) dc = f (nth k l da) (nth k m db).
Proof.
  revert m k; induction l as [|x l IH]; intros m k Ha Hb; [cbn in Ha; lia|].
  destruct m as [|y m]; [cbn in Hb; lia|].
  destruct k as [|k]; cbn [nth zipwith]; [reflexivity|]. apply IH; cbn in *; lia.
Qed.

(** *** cumulative sums *)
Lemma cumsum_from_length acc l : length (cumsum_from acc l) = length l.
Proof. revert acc; induction l; intro acc; cbn [cumsum_from length]; auto. Qed.
Lemma nth_cumsum_from acc l k :
  (k < length l)%nat -> nth k (cumsum_from acc l) 0 = acc + sumZ (firstn (S k) l).
Proof.
  revert acc k; induction l as [|x l IH]; intros acc k H; [cbn in H; lia|].
  destruct k as [|k]; cbn [cumsum_from nth].
  - cbn [firstn sumZ]. lia.
  - rewrite IH by (cbn in H; lia). cbn [firstn sumZ]. lia.
Qed.
Lemma cumsum_length l : length (cumsum l) = length l.
Proof. apply cumsum_from_length. Qed.
Lemma nth_cumsum l k : (k < length l)%nat -> nth k (cumsum l) 0 = sumZ (firstn (S k) l).
Proof. intro H. unfold cumsum. rewrite nth_cumsum_from by assumption. lia. Qed.
Lemma excl_cumsum_length l : length (excl_cumsum l) = length l.
Proof. unfold excl_cumsum. rewrite zipwith_length, cumsum_length. lia. Qed.
Lemma nth_excl_cumsum l k :
  (k < length l)%nat -> nth k (excl_cumsum l) 0 = sumZ (firstn k l).
Proof.
  intro H. unfold excl_cumsum.
  rewrite nth_zipwith with (da := 0) (db := 0) by (rewrite ?cumsum_length; lia).
  rewrite nth_cumsum by lia. rewrite sumZ_firstn_S. lia.
Qed.

(** *** spmd *)
Lemma spmd_length {B} P (f : nat -> B) : length (spmd P f) = P.
Proof. unfold spmd. now rewrite map_length, seq_length. Qed.
Lemma nth_error_spmd {B} P (f : nat -> B) r : (r < P)%nat -> nth_error (spmd P f) r = Some (f r).
Proof.
  intro H. unfold spmd. apply map_nth_error.
  rewrite nth_error_nth' with (d := O) by (rewrite seq_length; lia).
  rewrite seq_nth by lia. reflexivity.
Qed.
Lemma nth_spmd {B} P (f : nat -> B) r d : (r < P)%nat -> nth r (spmd P f) d = f r.
Proof. intro H. apply nth_error_nth. now apply nth_error_spmd. Qed.
Lemma spmd_ext {B} P (f g : nat -> B) : (forall r, (r < P)%nat -> f r = g r) -> spmd P f = spmd P g.
Proof. intro H. unfold spmd. apply map_ext_in. intros r Hr. apply in_seq in Hr. apply H. lia. Qed.
Lemma map_spmd {B C} P (f : nat -> B) (g : B -> C) : map g (spmd P f) = spmd P (fun r => g (f r)).
Proof. unfold spmd. now rewrite map_map. Qed.
Lemma In_spmd {B} P (f : nat -> B) y : In y (spmd P f) <-> exists r, (r < P)%nat /\ y = f r.
Proof.
  unfold spmd. rewrite in_map_iff. split.
  - intros (r & Hr & Hin). apply in_seq in Hin. exists r. split; [lia | auto].
  - intros (r & Hr & ->). exists r. split; [reflexivity|]. apply in_seq. lia.
Qed.
Lemma spmd_S {B} P (f : nat -> B) : spmd (S P) f = spmd P f ++ [f P].
Proof. unfold spmd. rewrite seq_S, map_app. reflexivity. Qed.
Lemma spmd_nth {A} (l : list A) d : spmd (length l) (fun r => nth r l d) = l.
Proof.
  apply nth_ext with (d := d) (d' := d).
  - apply spmd_length.
  - intros n Hn. rewrite spmd_length in Hn. now rewrite nth_spmd.
Qed.
Lemma list_ext_nth {A} (l m : list A) d :
  length l = length m -> (forall k, (k < length l)%nat -> nth k l d = nth k m d) -> l = m.
Proof. intros H1 H2. apply nth_ext with (d := d) (d' := d); auto. Qed.
Lemma nth_error_ext {A} (l m : list A) : (forall k, nth_error l k = nth_error m k) -> l = m.
Proof.
  revert m; induction l as [|x l IH]; intros [|y m] H.
  - reflexivity.
  - specialize (H O). discriminate.
  - specialize (H O). discriminate.
  - f_equal.
    + specialize (H O). cbn in H. congruence.
    + apply IH. intro k. exact (H (S k)).
Qed.
Lemma firstn_spmd {B} P (f : nat -> B) k : (k <= P)%nat -> firstn k (spmd P f) = spmd k f.
Proof.
  intro H. unfold spmd. rewrite firstn_map. f_equal.
  replace P with (k + (P - k))%nat by lia. rewrite seq_app, firstn_app, seq_length.
  replace (k - k)%nat with O by lia. rewrite firstn_O, app_nil_r.
  apply firstn_all2. rewrite seq_length. lia.
Qed.

(** *** firstn / skipn / zslice *)
Lemma nth_firstn {A} (l : list A) n k d : (k < n)%nat -> nth k (firstn n l) d = nth k l d.
Proof.
  revert l k; induction n as [|n IH]; intros l k H; [lia|].
  destruct l as [|x l]; [destruct k; reflexivity|].
  destruct k as [|k]; cbn [firstn nth]; [reflexivity|]. apply IH. lia.
Qed.
Lemma nth_skipn {A} (l : list A) n k d : nth k (skipn n l) d = nth (n + k) l d.
Proof.
  revert l; induction n as [|n IH]; intro l; [reflexivity|].
  destruct l as [|x l]; cbn [skipn Nat.add nth]; [destruct k; reflexivity|]. apply IH.
Qed.
Lemma nth_error_skipn' {A} (l : list A) n k : nth_error (skipn n l) k = nth_error l (n + k).
Proof.
  revert l; induction n as [|n IH]; intro l; [reflexivity|].
  destruct l as [|x l]; cbn [skipn Nat.add nth_error]; [destruct k; reflexivity|]. apply IH.
Qed.
Lemma nth_error_firstn' {A} (l : list A) n k :
  nth_error (firstn n l) k = if (k <? n)%nat then nth_error l k else None.
Proof.
  revert l k; induction n as [|n IH]; intros l k.
  - cbn [firstn]. destruct k; reflexivity.
  - destruct l as [|x l].
    + cbn [firstn]. destruct (k <? S n)%nat; destruct k; reflexivity.
    + destruct k as [|k]; cbn [firstn nth_error]; [reflexivity|]. rewrite IH.
      destruct (Nat.ltb_spec k n), (Nat.ltb_spec (S k) (S n)); auto; lia.
Qed.
Lemma skipn_skipn' {A} (l : list A) a b : skipn a (skipn b l) = skipn (b + a) l.
Proof.
  revert l; induction b as [|b IH]; intro l; [reflexivity|].
  destruct l as [|x l]; cbn [skipn Nat.add]; [now destruct a|]. apply IH.
Qed.

Lemma zslice_length {A} (l : list A) a b :
  length (zslice l a b) = Nat.min (Z.to_nat b - Z.to_nat a) (length l - Z.to_nat a).
Proof. unfold zslice. now rewrite firstn_length, skipn_length. Qed.
Lemma zlen_zslice {A} (l : list A) a b :
  0 <= a -> a <= b -> b <= zlen l -> zlen (zslice l a b) = b - a.
Proof. unfold zlen. intros. rewrite zslice_length. lia. Qed.
Lemma nth_zslice {A} (l : list A) a b k d :
  0 <= a -> Z.of_nat k < b - a -> nth k (zslice l a b) d = nth (Z.to_nat a + k) l d.
Proof. intros Ha Hk. unfold zslice. rewrite nth_firstn by lia. apply nth_skipn. Qed.
Lemma zslice_nil {A} (a b : Z) : zslice (@nil A) a b = [].
Proof. unfold zslice. now rewrite skipn_nil, firstn_nil. Qed.
Lemma zslice_empty {A} (l : list A) a b : b <= a -> zslice l a b = [].
Proof. intro H. unfold zslice. replace (Z.to_nat b - Z.to_nat a)%nat with O by lia. reflexivity. Qed.
Lemma zslice_past {A} (l : list A) a b : zlen l <= a -> zslice l a b = [].
Proof. unfold zlen. intro H. unfold zslice. rewrite skipn_all2 by lia. apply firstn_nil. Qed.
Lemma zslice_neg {A} (l : list A) a b : b <= 0 -> zslice l a b = [].
Proof. intro H. unfold zslice. replace (Z.to_nat b - Z.to_nat a)%nat with O by lia. reflexivity. Qed.
Lemma zslice_all {A} (l : list A) a b : a <= 0 -> zlen l <= b -> zslice l a b = l.
Proof.
  unfold zlen. intros Ha Hb. unfold zslice. replace (Z.to_nat a) with O by lia. cbn [skipn].
  apply firstn_all2. lia.
Qed.
Lemma zslice_app {A} (l m : list A) a b :
  zslice (l ++ m) a b = zslice l a b ++ zslice m (a - zlen l) (b - zlen l).
Proof.
  unfold zslice, zlen. rewrite skipn_app, firstn_app, skipn_length.
  f_equal. f_equal; [|f_equal]; lia.
Qed.
Lemma zslice_split {A} (l : list A) a b c :
  a <= b -> b <= c -> zslice l a c = zslice l a b ++ zslice l b c.
Proof.
  intros Hab Hbc. unfold zslice.
  replace (skipn (Z.to_nat b) l) with (skipn (Z.to_nat b - Z.to_nat a) (skipn (Z.to_nat a) l))
    by (rewrite skipn_skipn'; f_equal; lia).
  generalize (skipn (Z.to_nat a) l) as m. intro m.
  remember (Z.to_nat b - Z.to_nat a)%nat as u.
  replace (Z.to_nat c - Z.to_nat a)%nat with (u + (Z.to_nat c - Z.to_nat b))%nat by lia.
  clear. revert m; induction u as [|u IH]; intro m; [reflexivity|].
  destruct m as [|x m]; cbn [Nat.add firstn skipn app]; [now rewrite firstn_nil|].
  now rewrite IH.
Qed.
Lemma zslice_clip {A} (l : list A) a b : zslice l a b = zslice l (Z.max 0 a) (Z.min b (zlen l)).
Proof.
  unfold zslice, zlen. replace (Z.to_nat (Z.max 0 a)) with (Z.to_nat a) by lia.
  destruct (Z.le_gt_cases b (Z.of_nat (length l))) as [H|H].
  - do 2 f_equal. lia.
  - rewrite firstn_all2 by (rewrite skipn_length; lia).
    rewrite firstn_all2; [reflexivity|]. rewrite skipn_length. lia.
Qed.
Lemma map_zslice {A B} (f : A -> B) l a b : map f (zslice l a b) = zslice (map f l) a b.
Proof. unfold zslice. now rewrite <- firstn_map, <- skipn_map. Qed.
Lemma zslice_zslice {A} (l : list A) a b c d :
  0 <= a -> 0 <= c -> d <= b - a -> zslice (zslice l a b) c d = zslice l (a + c) (a + d).
Proof.
  intros Ha Hc Hd. apply nth_error_ext. intro k. unfold zslice.
  rewrite !nth_error_firstn', !nth_error_skipn', nth_error_firstn', nth_error_skipn'.
  destruct (Nat.ltb_spec k (Z.to_nat d - Z.to_nat c)) as [H1|H1];
  destruct (Nat.ltb_spec k (Z.to_nat (a + d) - Z.to_nat (a + c))) as [H2|H2]; try lia; auto.
  destruct (Nat.ltb_spec (Z.to_nat c + k) (Z.to_nat b - Z.to_nat a)) as [H3|H3]; try lia.
  f_equal. lia.
Qed.
Lemma pyslice_zslice {A} (l : list A) a b :
  0 <= a -> 0 <= b -> pyslice l a b = zslice l a b.
Proof.
  intros Ha Hb. unfold pyslice, pyidx.
  destruct (Z.ltb_spec a 0); [lia|]. destruct (Z.ltb_spec b 0); [lia|].
  destruct (Z.le_gt_cases (zlen l) a) as [H1|H1].
  - rewrite (zslice_past l a) by lia. apply zslice_past. lia.
  - rewrite Z.min_l by lia. rewrite (zslice_clip l a b). now rewrite Z.max_r by lia.
Qed.

(** *** write_at *)
Lemma write_at_length {A} (buf : list A) off data :
  0 <= off -> off + zlen data <= zlen buf -> length (write_at buf off data) = length buf.
Proof.
  unfold zlen. intros H1 H2. unfold write_at.
  rewrite !app_length, firstn_length, skipn_length. lia.
Qed.
Lemma nth_write_at {A} (buf : list A) off data k d :
  0 <= off -> off + zlen data <= zlen buf ->
  nth k (write_at buf off data) d =
  if (off <=? Z.of_nat k) && (Z.of_nat k <? off + zlen data)
  then nth (k - Z.to_nat off) data d else nth k buf d.
Proof.
  unfold zlen. intros H1 H2. unfold write_at.
  destruct (Z.leb_spec off (Z.of_nat k)) as [H3|H3]; cbn [andb].
  - rewrite app_nth2 by (rewrite firstn_length; lia).
    rewrite firstn_length. replace (k - Nat.min (Z.to_nat off) (length buf))%nat with (k - Z.to_nat off)%nat by lia.
    destruct (Z.ltb_spec (Z.of_nat k) (off + Z.of_nat (length data))) as [H4|H4].
    + apply app_nth1. lia.
    + rewrite app_nth2 by lia. rewrite nth_skipn. f_equal. lia.
  - rewrite app_nth1 by (rewrite firstn_length; lia). apply nth_firstn. lia.
Qed.
Lemma write_at_nil {A} (buf : list A) off : write_at buf off [] = buf.
Proof. unfold write_at. cbn [app length]. rewrite Nat.add_0_r. apply firstn_skipn. Qed.

(** *** concatenation of blocks *)
Lemma nth_concat {A} (d : list (list A)) r k x :
  (r < length d)%nat -> (k < length (nth r d []))%nat ->
  nth (Z.to_nat (sumZ (firstn r (map zlen d))) + k) (concat d) x = nth k (nth r d []) x.
Proof.
  revert r k; induction d as [|l d IH]; intros r k Hr Hk; [cbn in Hr; lia|].
  destruct r as [|r]; cbn [map firstn sumZ nth concat] in *.
  - apply app_nth1. lia.
  - assert (0 <= sumZ (firstn r (map zlen d))).
    { apply sumZ_nonneg. apply Forall_forall. intros z Hz.
      assert (In z (map zlen d)) as Hz' by (rewrite <- (firstn_skipn r); apply in_or_app; auto).
      apply in_map_iff in Hz'. destruct Hz' as (y & <- & _). apply zlen_nonneg. }
    rewrite app_nth2 by (unfold zlen in *; lia).
    replace (Z.to_nat (zlen l + sumZ (firstn r (map zlen d))) + k - length l)%nat
      with (Z.to_nat (sumZ (firstn r (map zlen d))) + k)%nat by (unfold zlen in *; lia).
    apply IH; [cbn in Hr; lia | assumption].
Qed.

(** the slice [a,b) of a concatenation is the concatenation of the clipped slices *)
Lemma zslice_concat {A} (d : list (list A)) a b :
  zslice (concat d) a b =
  concat (spmd (length d) (fun r =>
     zslice (nth r d []) (a - sumZ (firstn r (map zlen d))) (b - sumZ (firstn r (map zlen d))))).
Proof.
  revert a b; induction d as [|l d IH]; intros a b.
  - apply zslice_nil.
  - cbn [concat length]. rewrite zslice_app, IH.
    unfold spmd. cbn [seq map concat firstn sumZ nth]. rewrite !Z.sub_0_r. f_equal.
    rewrite <- seq_shift, map_map. f_equal. apply map_ext. intro r.
    cbn [firstn sumZ map nth]. f_equal; lia.
Qed.

Lemma concat_spmd_app {A} P (f : nat -> list A) :
  concat (spmd (S P) f) = concat (spmd P f) ++ f P.
Proof. rewrite spmd_S, concat_app. cbn [concat]. now rewrite app_nil_r. Qed.

(** concatenating consecutive slices *)
Lemma concat_zslices {A} (l : list A) (b : nat -> Z) n :
  (forall k, (k < n)%nat -> b k <= b (S k)) ->
  concat (spmd n (fun k => zslice l (b k) (b (S k)))) = zslice l (b O) (b n).
Proof.
  induction n as [|n IH]; intro Hb.
  - cbn. symmetry. apply zslice_empty. lia.
  - rewrite concat_spmd_app, IH by (intros k Hk; apply Hb; lia).
    symmetry. apply zslice_split; [|apply Hb; lia].
    assert (forall m, (m <= n)%nat -> b O <= b m) as H.
    { induction m as [|m IHm]; intro Hm; [lia|].
      specialize (IHm ltac:(lia)). specialize (Hb m ltac:(lia)). lia. }
    apply H. lia.
Qed.

Lemma Forall_nonneg_zlen {A} (d : list (list A)) : Forall (fun x => 0 <= x) (map zlen d).
Proof. apply Forall_forall. intros z Hz. apply in_map_iff in Hz. destruct Hz as (y & <- & _). apply zlen_nonneg. Qed.

(** *** masks, scatter, take *)
Lemma set_nth_length {A} (l : list A) i x : length (set_nth l i x) = length l.
Proof. revert i; induction l as [|y l IH]; intros [|i]; cbn [set_nth length]; auto. Qed.
Lemma nth_set_nth {A} (l : list A) i x k d :
  (i < length l)%nat -> nth k (set_nth l i x) d = if (k =? i)%nat then x else nth k l d.
Proof.
  revert i k; induction l as [|y l IH]; intros i k H; [cbn in H; lia|].
  destruct i as [|i], k as [|k]; cbn [set_nth nth Nat.eqb]; try reflexivity.
  apply IH. cbn in H. lia.
Qed.
Lemma set_nth_same {A} (l : list A) i x : nth_error l i = Some x -> set_nth l i x = l.
Proof.
  revert i; induction l as [|y l IH]; intros [|i] H; cbn in *; try congruence.
  f_equal. auto.
Qed.

Lemma mapM_ok {A B} (f : A -> res B) l ys :
  mapM f l = Ok ys <-> Forall2 (fun x y => f x = Ok y) l ys.
Proof.
  revert ys; induction l as [|x l IH]; intro ys; cbn [mapM].
  - split; intro H; [injection H as <-; constructor | inversion H; reflexivity].
  - split; intro H.
    + apply bind_ok_inv in H. destruct H as (y & Hy & H).
      apply bind_ok_inv in H. destruct H as (ys' & Hys & H). injection H as <-.
      constructor; [assumption|]. now apply IH.
    + inversion H as [|x' y l' ys' Hy Hys]; subst. rewrite Hy. cbn.
      apply IH in Hys. now rewrite Hys.
Qed.
Lemma mapM_map_ok {A B} (f : A -> res B) (g : A -> B) l :
  (forall x, In x l -> f x = Ok (g x)) -> mapM f l = Ok (map g l).
Proof.
  induction l as [|x l IH]; intro H; [reflexivity|].
  cbn [mapM map]. rewrite (H x) by (now left). cbn.
  rewrite IH by (intros y Hy; apply H; now right). reflexivity.
Qed.
Lemma py_nth_ok {A} (l : list A) i d :
  0 <= i < zlen l -> py_nth l i = Ok (nth (Z.to_nat i) l d).
Proof.
  intro H. unfold py_nth. destruct (Z.ltb_spec i 0); [lia|].
  destruct (Z.leb_spec (zlen l) i); [lia|].
  destruct (Z.ltb_spec i 0); [lia|]. cbn [orb].
  rewrite nth_error_nth' with (d := d); [reflexivity|]. unfold zlen in *. lia.
Qed.
Lemma np_take_ok {A} (l : list A) idx d :
  (forall i, In i idx -> 0 <= i < zlen l) ->
  np_take l idx = Ok (map (fun i => nth (Z.to_nat i) l d) idx).
Proof. intro H. apply mapM_map_ok. intros i Hi. apply py_nth_ok. auto. Qed.

Lemma map_fst_combine' {A B} (l : list A) (m : list B) : length l = length m -> map fst (combine l m) = l.
Proof. revert m; induction l as [|a l IH]; intros [|b m] H; try discriminate; cbn; [reflexivity|]. f_equal. apply IH. now injection H. Qed.
Lemma map_snd_combine' {A B} (l : list A) (m : list B) : length l = length m -> map snd (combine l m) = m.
Proof. revert m; induction l as [|a l IH]; intros [|b m] H; try discriminate; cbn; [reflexivity|]. f_equal. apply IH. now injection H. Qed.
Lemma Forall2_len {A B} (R : A -> B -> Prop) l m : Forall2 R l m -> length l = length m.
Proof. induction 1; cbn; congruence. Qed.
