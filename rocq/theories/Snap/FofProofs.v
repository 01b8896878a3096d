From Coq Require Import String.
From Verif Require Import Base.Prelude Base.ListLemmas Util.RangesModel Index.IndexModel.
From Verif Require Import Snap.ReadModel Snap.ReadSpec Snap.RangeProofs.
From Coq Require Import ZifyBool ZifyNat.
Local Open Scope Z_scope.

(** ** rows of six numbers *)
Definition vec (f : Z -> Z) : list Z := map f types.
Lemma types_zseq : zseq 0 6 = types. Proof. reflexivity. Qed.
Lemma at_vec f t : In t types -> at_type (vec f) t = f t.
Proof. intro H. unfold types in H. cbn in H. decompose [or] H; subst; try reflexivity; easy. Qed.
Lemma vec_ext f g : (forall t, In t types -> f t = g t) -> vec f = vec g.
Proof. intro H. apply map_ext_in. exact H. Qed.
Lemma vec_of l : length l = 6%nat -> l = vec (at_type l).
Proof. destruct l as [|a [|b [|c [|d [|e [|f [|? ?]]]]]]]; try discriminate. intros _. reflexivity. Qed.
Lemma add_vec f g : zipwith Z.add (vec f) (vec g) = vec (fun t => f t + g t). Proof. reflexivity. Qed.
Lemma last_vec f g : zipwith (fun a b => a + b - 1) (vec f) (vec g) = vec (fun t => f t + g t - 1). Proof. reflexivity. Qed.
Lemma all_vec f g : forallb (fun p => fst p >=? snd p) (combine (vec f) (vec g)) = forallb (fun t => f t >=? g t) types. Proof. reflexivity. Qed.
Lemma zero_vec : repeat 0 6 = vec (fun _ => 0). Proof. reflexivity. Qed.

Lemma offsets_nth : forall rows acc g, (g < length rows)%nat -> Forall (fun r => length r = 6%nat) rows ->
  nth_error (offsets_from (vec acc) rows) g = Some (vec (fun t => acc t + sumZ (map (fun r => at_type r t) (firstn g rows)))).
Proof.
  induction rows as [|r rows IH]; intros acc g Hg Hr; [cbn in Hg; lia|]. inversion Hr as [|? ? R1 R2]; subst. destruct g as [|g].
  - cbn [offsets_from nth_error firstn map sumZ]. f_equal. apply vec_ext. intros t _. lia.
  - cbn [offsets_from nth_error]. rewrite (vec_of r R1) at 1. rewrite add_vec, IH; [|cbn in Hg; lia|easy]. f_equal. apply vec_ext. intros t _. cbn [firstn map sumZ]. lia.
Qed.
Lemma offsets_len : forall rows acc, length (offsets_from acc rows) = length rows.
Proof. induction rows as [|r rows IH]; intro acc; cbn; [reflexivity|]. now rewrite IH. Qed.

Section Fof.
  Context {A : Type}.

  Definition row_ok (x : @finfo A) (c : list Z) : Prop := c = repeat (-1) 6 \/ c = vec (f_n x).
  Definition all_rows (xs : list (@finfo A)) (t : Z) (nm : string) : list A := concat (map (fun x => f_rows x t nm) xs).

  Lemma npart_vec (x : @finfo A) : finfo_ok x -> sf_npart (f_file x) = vec (f_n x).
  Proof.
    intros [L H]. rewrite (vec_of _ L) at 1. apply vec_ext. intros t Ht. destruct (H t Ht) as (_ & E & _). unfold at_type.
    now apply nth_error_nth with (d := 0) in E.
  Qed.

  Definition tab (p : Z -> string -> list (list A)) : list (list (list (list A))) := map (fun t => map (fun nm => p t nm) three) types.
  Lemma append_tab p q : append_pieces (tab p) (tab q) = tab (fun t nm => p t nm ++ q t nm). Proof. reflexivity. Qed.
  Lemma empty_tab : repeat (repeat [] 3) 6 = tab (fun _ _ => []). Proof. reflexivity. Qed.

  Variables (first last : Z -> Z).

  Definition fpiece (x : @finfo A) (s : Z -> Z) (t : Z) (nm : string) : list (list A) :=
    match zslice (f_rows x t nm) (first t - s t) (last t + 1 - s t) with [] => [] | l => [l] end.

  Lemma fof_piece_ok (x : @finfo A) s t nm : finfo_ok x -> In t types -> In nm three ->
    fof_piece (f_file x) nm t (first t) (last t) (f_n x t) (s t) = Ok (fpiece x s t nm).
  Proof.
    intros [_ H] Ht Hi. destruct (H t Ht) as (H1 & _ & H3). destruct (H3 nm Hi) as [L D]. unfold fof_piece.
    set (a := if first t - s t <? 0 then 0 else first t - s t). set (b := if last t - s t >=? f_n x t then f_n x t - 1 else last t - s t).
    assert (P : zslice (f_rows x t nm) a (b + 1) = zslice (f_rows x t nm) (first t - s t) (last t + 1 - s t) /\
       (zslice (f_rows x t nm) (first t - s t) (last t + 1 - s t) <> [] <-> a <= b /\ 0 < f_n x t)).
    { unfold a, b. rewrite zslice_clamp by exact L.
      replace (last t - s t + 1) with (last t + 1 - s t) by lia. split; [reflexivity|]. rewrite zslice_nonempty, L.
      destruct (first t - s t <? 0) eqn:E1; destruct (last t - s t >=? f_n x t) eqn:E2; lia. }
    destruct P as [P Q]. unfold fpiece. replace (s t + f_n x t >=? s t) with true by lia.
    destruct ((b >=? a) && (f_n x t >? 0)) eqn:E2.
    - unfold read_rows. rewrite D by lia. assert (Ha : 0 <= a) by (unfold a; destruct (first t - s t <? 0) eqn:?; lia).
      rewrite pyslice_zslice by (clearbody a b; lia). cbn [bind]. rewrite P.
      destruct (zslice (f_rows x t nm) (first t - s t) (last t + 1 - s t)); [destruct (proj2 Q); [lia|reflexivity]|reflexivity].
    - destruct (zslice (f_rows x t nm) (first t - s t) (last t + 1 - s t)); [reflexivity|].
      destruct Q as [Q _]. specialize (Q ltac:(discriminate)). lia.
  Qed.

  Lemma fof_pieces_ok (x : @finfo A) s : finfo_ok x -> fof_pieces (f_file x) (vec first) (vec last) (vec (f_n x)) (vec s) = Ok (tab (fpiece x s)).
  Proof.
    intro H. unfold fof_pieces, tab. rewrite types_zseq. apply mapM_map_ok. intros t Ht.
    change fof_datasets with three. apply mapM_map_ok. intros nm Hi. rewrite !at_vec by easy. now apply fof_piece_ok.
  Qed.

  (** every type has reached its last particle after the first [j] files *)
  Definition reached (s : Z -> Z) (xs : list (@finfo A)) (j : nat) : Prop := forall t, In t types -> last t <= s t + tot (firstn j xs) t.

  Lemma fof_loop_ok : forall (xs : list (@finfo A)) cache s p, Forall finfo_ok xs -> Forall2 row_ok xs cache ->
    exists cache' p' m, fof_loop (vec first) (vec last) (map f_file xs) cache (vec s) (tab p) = (cache', Ok (tab p')) /\
      Forall2 row_ok xs cache' /\ (m <= length xs)%nat /\ (m = length xs \/ reached s xs m) /\
      (forall j, (0 < j < m)%nat -> ~ reached s xs j) /\ (xs <> [] -> (0 < m)%nat) /\
      forall t nm, In t types -> In nm three -> exists P, p' t nm = p t nm ++ P /\
         concat P = zslice (all_rows (firstn m xs) t nm) (first t - s t) (last t + 1 - s t) /\ (P = [] <-> concat P = []).
  Proof.
    induction xs as [|x xs IH]; intros cache s p Hx Hc; inversion Hc as [|? c ? cache0 C1 C2]; subst.
    { exists [], p, 0%nat. split; [reflexivity|]. split; [constructor|]. split; [easy|]. split; [now left|]. split; [lia|]. split; [easy|].
      intros t nm _ _. exists []. rewrite app_nil_r. cbn. now rewrite zslice_nil. }
    inversion Hx as [|? ? X1 X2]; subst. cbn [map fof_loop].
    assert (Ec : (if at_type c 0 =? -1 then sf_npart (f_file x) else c) = vec (f_n x)).
    { rewrite (npart_vec x X1). destruct C1 as [->| ->]; [reflexivity|]. now destruct (at_type (vec (f_n x)) 0 =? -1). }
    rewrite Ec. rewrite (fof_pieces_ok x s X1), append_tab, add_vec, all_vec. cbn zeta.
    assert (Pe : forall t nm, fpiece x s t nm = [] <-> concat (fpiece x s t nm) = []).
    { intros t nm. unfold fpiece. destruct (zslice (f_rows x t nm) (first t - s t) (last t + 1 - s t)); [easy|]. cbn. split; discriminate. }
    assert (Pc : forall t nm, concat (fpiece x s t nm) = zslice (f_rows x t nm) (first t - s t) (last t + 1 - s t)).
    { intros t nm. unfold fpiece. destruct (zslice (f_rows x t nm) (first t - s t) (last t + 1 - s t)); [reflexivity|]. cbn. now rewrite app_nil_r. }
    destruct (forallb (fun t => s t + f_n x t >=? last t) types) eqn:Eb.
    - exists (vec (f_n x) :: cache0), (fun t nm => p t nm ++ fpiece x s t nm), 1%nat. split; [reflexivity|]. split; [constructor; [now right|easy]|].
      split; [cbn; lia|]. split; [right|split; [lia|split; [lia|]]].
      + intros t Ht. rewrite forallb_forall in Eb. specialize (Eb t Ht). cbn. lia.
      + intros t nm Ht Hi. exists (fpiece x s t nm). split; [reflexivity|]. split; [|apply Pe]. rewrite Pc. cbn. unfold all_rows. cbn. now rewrite app_nil_r.
    - destruct (IH cache0 (fun t => s t + f_n x t) (fun t nm => p t nm ++ fpiece x s t nm) X2 C2) as (c2 & p2 & m & E2 & V2 & M1 & M2 & M3 & M4 & R2).
      rewrite E2. exists (vec (f_n x) :: c2), p2, (S m). split; [reflexivity|]. split; [constructor; [now right|easy]|].
      assert (Re : forall j, reached s (x :: xs) (S j) <-> reached (fun t => s t + f_n x t) xs j).
      { intro j. unfold reached, tot. cbn [firstn map sumZ]. split; intros H t Ht; specialize (H t Ht); lia. }
      split; [cbn; lia|]. split; [|split; [|split; [lia|]]].
      + destruct M2 as [->|M2]; [now left|]. right. now apply Re.
      + intros [|[|j]] Hj; [lia| |].
        * intro Hr. assert (forallb (fun t => s t + f_n x t >=? last t) types = true); [|congruence].
          apply forallb_forall. intros t Ht. specialize (Hr t Ht). unfold tot in Hr. cbn in Hr. lia.
        * rewrite Re. apply M3. lia.
      + intros t nm Ht Hi. destruct (R2 t nm Ht Hi) as (P & EP & CP & NP). exists (fpiece x s t nm ++ P).
        split; [rewrite EP; symmetry; apply app_assoc|]. rewrite concat_app. split.
        * cbn [firstn]. unfold all_rows. cbn [map concat]. rewrite zslice_app. rewrite Pc, CP. unfold all_rows. f_equal.
          destruct X1 as [_ X1]. destruct (X1 t Ht) as (_ & _ & X3). destruct (X3 nm Hi) as [L _]. rewrite L. f_equal; lia.
        * split; [intro H; apply app_eq_nil in H; destruct H as [-> ->]; reflexivity|].
          intro H. apply app_eq_nil in H. destruct H as [Ha Hb]. apply Pe in Ha. apply NP in Hb. now rewrite Ha, Hb.
  Qed.

  Lemma all_rows_len (xs : list (@finfo A)) t nm : Forall finfo_ok xs -> In t types -> In nm three -> zlen (all_rows xs t nm) = tot xs t.
  Proof using.
    intros H Ht Hi. unfold all_rows, tot. rewrite zlen_concat, map_map. f_equal. apply map_ext_in. intros x Hx. rewrite Forall_forall in H.
    destruct (H x Hx) as [_ H2]. destruct (H2 t Ht) as (_ & _ & H3). now apply H3.
  Qed.
End Fof.

(** ** SubNr *)
Lemma sub_total_sum c t : forall n first, 0 <= first -> (Z.to_nat first + n <= length (sublentype c))%nat ->
  sub_total c first t n = sumZ (map (fun row => at_type row t) (firstn n (skipn (Z.to_nat first) (sublentype c)))).
Proof.
  induction n as [|n IH]; intros first Hf Hn; [reflexivity|]. cbn [sub_total]. rewrite IH by lia.
  destruct (skipn (Z.to_nat first) (sublentype c)) as [|r l] eqn:E.
  { apply (f_equal (@length _)) in E. rewrite skipn_length in E. cbn in E. lia. }
  cbn [firstn map sumZ]. f_equal.
  - unfold sub_len, at_type. f_equal. replace (Z.to_nat first) with (Z.to_nat first + 0)%nat by lia. rewrite <- nth_skipn, E. reflexivity.
  - replace (Z.to_nat (first + 1)) with (Z.to_nat first + 1)%nat by lia. rewrite <- skipn_skipn', E. reflexivity.
Qed.

Lemma repeat_index : forall lens k0, Forall (fun x => 0 <= x) lens ->
  let r := concat (zipwith (fun x c => repeat x (Z.to_nat c)) (zseq k0 (length lens)) lens) in
  zlen r = sumZ lens /\ forall j, 0 <= j < sumZ lens -> exists k, (k < length lens)%nat /\
    sumZ (firstn k lens) <= j < sumZ (firstn (S k) lens) /\ nth (Z.to_nat j) r 0 = k0 + Z.of_nat k.
Proof.
  induction lens as [|n lens IH]; intros k0 H; [split; [reflexivity|]; cbn; lia|]. inversion H as [|? ? H1 H2]; subst.
  destruct (IH (k0 + 1) H2) as [L N]. cbn [length zseq zipwith concat]. set (q := concat _) in *. cbn zeta. split.
  - rewrite zlen_app, L. unfold zlen. rewrite repeat_length. cbn [sumZ]. lia.
  - intros j Hj. cbn [sumZ] in Hj. destruct (Z_lt_ge_dec j n) as [Lt|Ge].
    + exists 0%nat. cbn [firstn sumZ length]. split; [lia|]. split; [lia|]. rewrite app_nth1 by (rewrite repeat_length; lia).
      rewrite (nth_indep _ 0 k0) by (rewrite repeat_length; lia). rewrite nth_repeat. lia.
    + destruct (N (j - n) ltac:(lia)) as (k & K1 & K2 & K3). exists (S k). cbn [length]. split; [lia|].
      change (firstn (S (S k)) (n :: lens)) with (n :: firstn (S k) lens). change (firstn (S k) (n :: lens)) with (n :: firstn k lens).
      cbn [sumZ]. split; [lia|]. rewrite app_nth2 by (rewrite repeat_length; lia). rewrite repeat_length.
      replace (Z.to_nat j - Z.to_nat n)%nat with (Z.to_nat (j - n)) by lia. rewrite K3. lia.
Qed.

Lemma pyslice_firstn {B} (l : list B) a n : 0 <= a -> 0 <= n -> pyslice l a (a + n - 1 + 1) = firstn (Z.to_nat n) (skipn (Z.to_nat a) l).
Proof. intros. rewrite pyslice_zslice by lia. unfold zslice. f_equal. lia. Qed.

Lemma sub_nr_ok c i t n : cat_ok c -> 0 <= i < zlen (foflentype c) -> In t types -> 0 <= n ->
  let first := nth (Z.to_nat i) (fof_firstsub c) 0 in
  let ns := nth (Z.to_nat i) (fof_nsubs c) 0 in
  (sub_total c first t (Z.to_nat ns) <= n -> exists s, sub_nr c i t n = Ok s /\ zlen s = n /\
      forall j, 0 <= j < n -> in_subhalo c i t j (nth (Z.to_nat j) s 0)) /\
  (n < sub_total c first t (Z.to_nat ns) -> sub_nr c i t n = Err EValue).
Proof.
  intros (C1 & C2 & C3 & C4 & C5) Hi Ht Hn first ns. specialize (C5 i Hi). cbn zeta in C5. fold first ns in C5. destruct C5 as (N0 & N1 & N2).
  unfold sub_nr. assert (E1 : py_nth (fof_nsubs c) i = Ok ns) by (unfold ns; apply py_nth_ok; unfold zlen in *; lia).
  rewrite E1. cbn [bind]. destruct (ns >? 0) eqn:Ens.
  2: { replace ns with 0 by lia. cbn [Z.to_nat sub_total]. split; [|lia]. intros _. eexists. split; [reflexivity|].
       split; [unfold zlen; rewrite repeat_length; lia|]. intros j Hj. unfold in_subhalo. fold first ns. right.
       replace ns with 0 by lia. cbn [Z.to_nat sub_total]. split; [lia|]. rewrite (nth_indep _ 0 (-1)) by (rewrite repeat_length; lia). apply nth_repeat. }
  destruct (N1 ltac:(lia)) as [F1 F2].
  assert (E2 : py_nth (fof_firstsub c) i = Ok first) by (unfold first; apply py_nth_ok; unfold zlen in *; lia).
  rewrite E2. cbn [bind]. rewrite pyslice_firstn by lia.
  set (rows := firstn (Z.to_nat ns) (skipn (Z.to_nat first) (sublentype c))).
  assert (Lr : length rows = Z.to_nat ns) by (unfold rows; rewrite firstn_length, skipn_length; unfold zlen in F2; lia).
  set (lens := map (fun row => at_type row t) rows).
  assert (Hp : Forall (fun x => 0 <= x) lens).
  { apply Forall_map. apply Forall_forall. intros r Hr. rewrite Forall_forall in C2.
    assert (In r (sublentype c)) as Hr2.
    { unfold rows in Hr. rewrite <- (firstn_skipn (Z.to_nat first) (sublentype c)). apply in_or_app. right.
      rewrite <- (firstn_skipn (Z.to_nat ns) (skipn _ _)). apply in_or_app. now left. }
    destruct (C2 r Hr2) as [L P]. unfold at_type. rewrite Forall_forall in P. apply P. apply nth_In. rewrite L.
    unfold types in Ht. cbn in Ht. lia. }
  assert (Tot : forall k, (k <= Z.to_nat ns)%nat -> sub_total c first t k = sumZ (firstn k lens)).
  { intros k Hk. rewrite sub_total_sum by (unfold zlen in F2; lia). unfold lens, rows. rewrite firstn_map, firstn_firstn. do 3 f_equal. lia. }
  assert (Ll : length lens = Z.to_nat ns) by (unfold lens; now rewrite map_length).
  rewrite (Tot (Z.to_nat ns)) by lia. rewrite <- Ll, firstn_all.
  unfold np_repeat. replace (forallb (fun c => 0 <=? c) lens) with true.
  2: { symmetry. apply forallb_forall. intros x Hx. rewrite Forall_forall in Hp. specialize (Hp x Hx). lia. }
  cbn [check bind]. destruct (repeat_index lens 0 Hp) as [L R]. cbn zeta in L, R. set (q := concat _) in *. rewrite zlen_map, L.
  split; intro Hs.
  2: { replace (sumZ lens <=? n) with false by lia. reflexivity. }
  replace (sumZ lens <=? n) with true by lia. cbn [check bind]. eexists. split; [reflexivity|].
  pose proof (sumZ_nonneg _ Hp) as Hpos.
  assert (Lw : 0 + zlen (map (Z.add first) q) <= zlen (repeat (-1) (Z.to_nat n))).
  { rewrite zlen_map, L. unfold zlen. rewrite repeat_length. lia. }
  split; [unfold zlen; rewrite write_at_length, repeat_length by (exact Lw || lia); lia|].
  intros j Hj. rewrite nth_write_at by (exact Lw || lia). rewrite zlen_map, L. cbn [Z.to_nat].
  unfold in_subhalo. fold first ns. rewrite (Tot (Z.to_nat ns)) by lia.
  destruct (Z_lt_ge_dec j (sumZ lens)) as [Lt|Ge].
  - left. destruct (R j ltac:(lia)) as (k & K1 & K2 & K3). exists k. split; [lia|]. rewrite !Tot by lia. split; [exact K2|].
    replace ((0 <=? Z.of_nat (Z.to_nat j)) && (Z.of_nat (Z.to_nat j) <? 0 + sumZ lens)) with true by lia.
    rewrite Nat.sub_0_r. rewrite (nth_indep _ 0 (Z.add first 0)) by (rewrite map_length; unfold zlen in L; lia). rewrite map_nth, K3. lia.
  - right. rewrite <- Ll, firstn_all. split; [lia|].
    replace ((0 <=? Z.of_nat (Z.to_nat j)) && (Z.of_nat (Z.to_nat j) <? 0 + sumZ lens)) with false by lia.
    rewrite (nth_indep _ 0 (-1)) by (rewrite repeat_length; lia). apply nth_repeat.
Qed.
