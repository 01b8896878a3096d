From Coq Require Import String.
From Verif Require Import Base.Prelude Base.ListLemmas Peano.PeanoModel Util.RangesModel Index.IndexModel.
From Verif Require Import Snap.SanitySpec Snap.SanityProofs Snap.ReadModel Snap.ReadSpec.
From Coq Require Import ZifyBool ZifyNat.
Local Open Scope Z_scope.

(** ** the grid of requested cells *)
Definition wants (nhash : Z) (keys : list Z) (c : Z) : bool := existsb (fun k => (k =? c) || (k =? c - nhash)) keys.
Lemma wants_iff nhash keys c : wants nhash keys c = true <-> wanted nhash keys c.
Proof.
  unfold wants, wanted. rewrite existsb_exists. split.
  - intros (k & Hk & H). apply orb_true_iff in H. destruct H as [H|H]; apply Z.eqb_eq in H; subst; auto.
  - intros [H|H]; eexists; (split; [exact H|]); apply orb_true_iff; rewrite ?Z.eqb_refl; auto.
Qed.

Lemma hashgrid_from nhash : forall keys g, zlen g = nhash -> Forall (fun k => - nhash <= k < nhash) keys ->
  exists g', foldM (fun g k => py_set g k true) keys g = Ok g' /\ zlen g' = nhash /\
    forall c, (c < length g)%nat -> nth c g' false = nth c g false || wants nhash keys (Z.of_nat c).
Proof.
  induction keys as [|k keys IH]; intros g Hg Hk.
  { exists g. split; [reflexivity|]. split; [easy|]. intros c _. cbn. now rewrite orb_false_r. }
  inversion Hk as [|? ? K1 K2]; subst. cbn [foldM]. unfold py_set at 1.
  set (j := if k <? 0 then k + zlen g else k).
  assert (Hj : 0 <= j < zlen g) by (unfold j; destruct (k <? 0) eqn:E; lia).
  replace ((j <? 0) || (zlen g <=? j)) with false by lia. cbn [bind].
  destruct (IH (set_nth g (Z.to_nat j) true)) as (g' & E & L & N).
  { unfold zlen in *. now rewrite set_nth_length. } { assumption. }
  exists g'. split; [exact E|]. split; [exact L|]. intros c Hc. rewrite N by (now rewrite set_nth_length).
  rewrite nth_set_nth by (unfold zlen in Hj; lia). cbn [wants existsb]. fold (wants (zlen g) keys (Z.of_nat c)).
  destruct (c =? Z.to_nat j)%nat eqn:Ec.
  - replace ((k =? _) || _) with true; [cbn; now rewrite orb_true_r|]. unfold j, zlen in *. destruct (k <? 0) eqn:?; lia.
  - replace ((k =? _) || _) with false; [cbn; reflexivity|]. unfold j, zlen in *. destruct (k <? 0) eqn:?; lia.
Qed.

Lemma hashgrid_bad nhash : forall keys g, zlen g = nhash -> ~ Forall (fun k => - nhash <= k < nhash) keys ->
  foldM (fun g k => py_set g k true) keys g = Err EIndex.
Proof.
  induction keys as [|k keys IH]; intros g Hg Hk; [destruct Hk; constructor|].
  cbn [foldM]. unfold py_set at 1. set (j := if k <? 0 then k + zlen g else k).
  destruct ((j <? 0) || (zlen g <=? j)) eqn:E; [reflexivity|]. cbn [bind].
  apply IH; [unfold zlen in *; now rewrite set_nth_length|]. intro HF. apply Hk. constructor; [|easy].
  unfold j in E. destruct (k <? 0) eqn:?; lia.
Qed.

Lemma hashgrid_ok nhash keys : 0 <= nhash -> Forall (fun k => - nhash <= k < nhash) keys ->
  exists g, hashgrid nhash keys = Ok g /\ g = map (wants nhash keys) (zseq 0 (Z.to_nat nhash)).
Proof.
  intros Hn Hk. destruct (hashgrid_from nhash keys (repeat false (Z.to_nat nhash))) as (g & E & L & N).
  { unfold zlen. rewrite repeat_length. lia. } { easy. }
  exists g. split; [exact E|]. assert (Lg : length g = Z.to_nat nhash) by (unfold zlen in L; lia).
  apply (list_ext_nth _ _ false); [now rewrite map_length, zseq_length|]. intros c Hc.
  rewrite N by (rewrite repeat_length; lia). rewrite nth_repeat. cbn [orb].
  rewrite (nth_indep _ false (wants nhash keys 0)) by (rewrite map_length, zseq_length; lia). rewrite map_nth, nth_zseq by lia. f_equal.
Qed.

Lemma zslice_map_zseq {B} (f : Z -> B) n a k : 0 <= a -> a + Z.of_nat k <= Z.of_nat n ->
  zslice (map f (zseq 0 n)) a (a + Z.of_nat k) = map f (zseq a k).
Proof.
  intros Ha Hn. rewrite <- map_zslice. f_equal. apply (list_ext_nth _ _ 0).
  - rewrite zslice_length, !zseq_length. lia.
  - intros j Hj. rewrite zslice_length, zseq_length in Hj. rewrite nth_zslice by lia. rewrite !nth_zseq by lia. lia.
Qed.

(** ** one file *)
Section OneFile.
  Context {A : Type}.

  Fixpoint picked (want : Z -> bool) (n : Z) (cells : list (list (A * A * A))) : list (A * A * A) :=
    match cells with [] => [] | c :: cells' => (if want n then c else []) ++ picked want (n + 1) cells' end.

  Lemma picked_picks want W : (forall c, want c = true <-> W c) -> forall cells n, picks W n cells (picked want n cells).
  Proof.
    intros HW. induction cells as [|c cells IH]; intro n; cbn [picked]; [constructor|].
    destruct (want n) eqn:E; [apply picks_keep; [now apply HW|apply IH]|]. apply picks_drop; [|apply IH].
    intro H. apply HW in H. congruence.
  Qed.
  Lemma picks_fun W n (cells : list (list (A * A * A))) s1 : picks W n cells s1 -> forall s2, picks W n cells s2 -> s1 = s2.
  Proof. induction 1; intros s2 H2; inversion H2; subst; try contradiction; [reflexivity|f_equal; auto|auto]. Qed.

  Lemma mask_app {B} (l1 l2 : list B) m1 m2 : length l1 = length m1 -> np_mask (l1 ++ l2) (m1 ++ m2) = np_mask l1 m1 ++ np_mask l2 m2.
  Proof.
    revert m1. induction l1 as [|a l1 IH]; intros [|b m1] H; try discriminate; [reflexivity|]. cbn.
    rewrite IH by (now injection H). now destruct b.
  Qed.
  Lemma mask_repeat {B} (l : list B) b : np_mask l (repeat b (length l)) = if b then l else [].
  Proof. induction l as [|a l IH]; cbn; [now destruct b|]. rewrite IH. now destruct b. Qed.

  Definition cellmask (want : Z -> bool) (n : Z) (cells : list (list (A * A * A))) : list bool :=
    concat (zipwith (fun b c => repeat b (Z.to_nat c)) (map want (zseq n (length cells))) (map zlen cells)).
  Lemma cellmask_len want : forall cells n, length (cellmask want n cells) = length (concat cells).
  Proof.
    induction cells as [|c cells IH]; intro n; [reflexivity|]. unfold cellmask. cbn [length zseq map zipwith concat].
    rewrite !app_length, repeat_length, to_nat_zlen. f_equal. apply IH.
  Qed.
  Lemma mask_cells {B} (f : A * A * A -> B) want : forall cells n, np_mask (map f (concat cells)) (cellmask want n cells) = map f (picked want n cells).
  Proof.
    induction cells as [|c cells IH]; intro n; [reflexivity|]. unfold cellmask. cbn [length zseq map zipwith concat picked].
    rewrite !map_app, mask_app by (now rewrite map_length, repeat_length, to_nat_zlen). f_equal; [|apply IH].
    rewrite to_nat_zlen, <- (map_length f), mask_repeat. now destruct (want n).
  Qed.

  Lemma starts_len : forall (cells : list (list (A * A * A))) s, length (starts s cells) = length cells.
  Proof. induction cells as [|c cells IH]; intro s; cbn; [reflexivity|]. now rewrite IH. Qed.
  Lemma nums_ok : forall (cells : list (list (A * A * A))) s, cells <> [] -> 0 <= s -> s + zlen (concat cells) < 2 ^ 31 ->
    zipwith (fun a b => wrap32 (a - b)) (skipn 1 (starts s cells) ++ [wrap32 (s + zlen (concat cells))]) (starts s cells) = map zlen cells.
  Proof.
    induction cells as [|c cells IH]; intros s Hne Hs Ht; [easy|]. cbn [concat] in Ht. rewrite zlen_app in Ht.
    pose proof (zlen_nonneg c) as Hc. pose proof (zlen_nonneg (concat cells)) as Hcc.
    destruct cells as [|c2 cells].
    - cbn [concat starts skipn app zipwith map]. rewrite app_nil_r. cbn [concat] in Ht. change (zlen (@nil (A * A * A))) with 0 in *.
      rewrite (wrap32_id (s + zlen c)) by (unfold int32; lia). rewrite wrap32_id by (unfold int32; lia). f_equal. lia.
    - specialize (IH (s + zlen c) ltac:(easy) ltac:(lia)). cbn [concat] in *. rewrite zlen_app in *.
      replace (s + (zlen c + zlen (c2 ++ concat cells))) with (s + zlen c + (zlen c2 + zlen (concat cells))) by (rewrite zlen_app; lia).
      change (starts s (c :: c2 :: cells)) with (s :: starts (s + zlen c) (c2 :: cells)).
      change (skipn 1 (s :: starts (s + zlen c) (c2 :: cells))) with (s + zlen c :: skipn 1 (starts (s + zlen c) (c2 :: cells))).
      cbn [app zipwith]. rewrite IH by lia. cbn [map]. f_equal. rewrite wrap32_id by (unfold int32; lia). lia.
  Qed.

  Lemma read_file_ok nhash keys f : file_ok nhash f -> cf_cells f <> [] ->
    read_file_cells (file_of f) (map (wants nhash keys) (zseq (cf_first f) (length (cf_cells f)))) =
    (let s := picked (wants nhash keys) (cf_first f) (cf_cells f) in Ok (map (fun p => fst (fst p)) s, map (fun p => snd (fst p)) s, map snd s)).
  Proof.
    intros (F1 & F2 & F3) Hne. unfold read_file_cells. cbn [h_npart h_blockid file_of h_pos h_vel h_ids].
    replace (zlen (starts 0 (cf_cells f)) =? 0) with false.
    2: { unfold zlen. rewrite starts_len. destruct (cf_cells f); [easy|]. cbn [length]. lia. }
    cbn [negb check bind]. pose proof (nums_ok (cf_cells f) 0 Hne ltac:(lia) ltac:(lia)) as En. rewrite Z.add_0_l in En. rewrite En. clear En.
    replace (zlen (map (wants nhash keys) (zseq (cf_first f) (length (cf_cells f)))) =? zlen (map zlen (cf_cells f))) with true.
    2: { rewrite !zlen_map, zlen_zseq. unfold zlen. lia. }
    cbn [check bind]. unfold np_repeat. replace (forallb (fun c => 0 <=? c) (map zlen (cf_cells f))) with true.
    2: { symmetry. apply forallb_forall. intros x Hx. apply in_map_iff in Hx. destruct Hx as (c & <- & _). pose proof (zlen_nonneg c). lia. }
    cbn [check bind]. fold (cellmask (wants nhash keys) (cf_first f) (cf_cells f)). unfold mask_rows.
    assert (L : forall {B} (g : A * A * A -> B), (zlen (map g (concat (cf_cells f))) =? zlen (cellmask (wants nhash keys) (cf_first f) (cf_cells f))) = true).
    { intros B g. unfold zlen. rewrite map_length, cellmask_len. lia. }
    rewrite !L. cbn [check bind]. now rewrite !mask_cells.
  Qed.
End OneFile.

(** ** all files *)
Section Loop.
  Context {A : Type}.
  Variables (nhash : Z) (keys : list Z).
  Hypothesis Hn : 0 <= nhash.
  Hypothesis Hk : Forall (fun k => - nhash <= k < nhash) keys.
  Let want := wants nhash keys.
  Let grid := map want (zseq 0 (Z.to_nat nhash)).

  Definition file_here (f : cellfile A) : bool := existsb want (zseq (cf_first f) (length (cf_cells f))).
  Definition file_pick (f : cellfile A) : list (A * A * A) := picked want (cf_first f) (cf_cells f).
  (** each entry of the cache is empty or right *)
  Definition entry_ok (f : cellfile A) (e : option (Z * Z)) : Prop := e = None \/ e = Some (cf_first f, cf_first f + zlen (cf_cells f) - 1).

  Lemma cells_loop_ok : forall fs cache, Forall (file_ok nhash) fs -> Forall2 entry_ok fs cache ->
    exists cache', cells_loop grid (map file_of fs) cache =
        (cache', Ok (map (fun f => let s := file_pick f in (map (fun p => fst (fst p)) s, map (fun p => snd (fst p)) s, map snd s)) (filter file_here fs))) /\
      Forall2 entry_ok fs cache'.
  Proof using Hn.
    induction fs as [|f fs IH]; intros cache Hf Hc; inversion Hc as [|? e ? cache' He Hc']; subst.
    { exists []. split; [reflexivity|constructor]. }
    inversion Hf as [|? ? F1 F2]; subst. destruct (IH cache' F2 Hc') as (c2 & E & V). cbn [map cells_loop].
    assert (Efl : (match e with Some fl => fl | None => (h_first (file_of f), h_last (file_of f)) end) = (cf_first f, cf_first f + zlen (cf_cells f) - 1))
      by (destruct He as [->| ->]; reflexivity).
    rewrite Efl. cbn [fst snd].
    assert (Er : pyslice grid (cf_first f) (cf_first f + zlen (cf_cells f) - 1 + 1) = map want (zseq (cf_first f) (length (cf_cells f)))).
    { destruct F1 as (B1 & B2 & _). pose proof (zlen_nonneg (cf_cells f)). rewrite pyslice_zslice by lia.
      replace (cf_first f + zlen (cf_cells f) - 1 + 1) with (cf_first f + Z.of_nat (length (cf_cells f))) by (unfold zlen; lia).
      apply zslice_map_zseq; [easy|]. unfold zlen in *. lia. }
    rewrite Er. assert (Ee : existsb (fun b => b) (map want (zseq (cf_first f) (length (cf_cells f)))) = file_here f).
    { unfold file_here. generalize (zseq (cf_first f) (length (cf_cells f))). intro l. induction l as [|x l IHl]; [reflexivity|]. cbn. now rewrite IHl. }
    rewrite Ee. cbn [filter]. exists (Some (cf_first f, cf_first f + zlen (cf_cells f) - 1) :: c2).
    destruct (file_here f) eqn:Eh.
    - assert (Hne : cf_cells f <> []) by (intro H0; unfold file_here in Eh; rewrite H0 in Eh; discriminate).
      unfold want at 1. rewrite (read_file_ok nhash keys f F1 Hne). cbn zeta. cbn [bind]. rewrite E. cbn [bind app map].
      split; [reflexivity|]. constructor; [now right|easy].
    - rewrite E. cbn [bind app]. split; [reflexivity|]. constructor; [now right|easy].
  Qed.

  Lemma picked_none : forall (cells : list (list (A * A * A))) n, existsb want (zseq n (length cells)) = false -> picked want n cells = [].
  Proof using.
    clear Hn Hk. induction cells as [|c cells IH]; intros n H; [reflexivity|]. cbn in H |- *. apply orb_false_iff in H. destruct H as [H1 H2]. rewrite H1. now apply IH.
  Qed.
  Lemma picks_all : forall fs, picks_files (wanted nhash keys) fs (concat (map file_pick (filter file_here fs))).
  Proof using.
    clear Hn Hk. induction fs as [|f fs IH]; [constructor|]. cbn [filter].
    assert (P : picks (wanted nhash keys) (cf_first f) (cf_cells f) (file_pick f)) by (apply picked_picks; intro c; apply wants_iff).
    destruct (file_here f) eqn:E; [cbn [map concat]; now constructor|].
    unfold file_pick in P. rewrite picked_none in P by exact E. change (concat (map file_pick (filter file_here fs))) with ([] ++ concat (map file_pick (filter file_here fs))).
    now constructor.
  Qed.
  Lemma some_here fs : some_cell (wanted nhash keys) fs <-> filter file_here fs <> [].
  Proof using.
    clear Hn Hk. split.
    - intros (f & n & Hf & Hr & Hw) E. assert (In f (filter file_here fs)) as Hi; [|rewrite E in Hi; destruct Hi].
      apply filter_In. split; [easy|]. apply existsb_exists. exists n. split; [apply In_zseq; unfold zlen in Hr; lia|now apply wants_iff].
    - intro H. destruct (filter file_here fs) as [|f l] eqn:E; [easy|]. assert (In f (filter file_here fs)) as Hi by (rewrite E; now left).
      apply filter_In in Hi. destruct Hi as [Hf He]. apply existsb_exists in He. destruct He as (n & Hz & Hw). apply In_zseq in Hz.
      exists f, n. split; [easy|]. split; [unfold zlen; lia|now apply wants_iff].
  Qed.

  Lemma read_cells_ok fs cache : Forall (file_ok nhash) fs -> Forall2 entry_ok fs cache ->
    Forall2 entry_ok fs (fst (read_cells nhash (map file_of fs) cache keys)) /\
    (some_cell (wanted nhash keys) fs -> exists sel, picks_files (wanted nhash keys) fs sel /\
    snd (read_cells nhash (map file_of fs) cache keys) = Ok (map (fun p => fst (fst p)) sel, map (fun p => snd (fst p)) sel, map snd sel)) /\
    (~ some_cell (wanted nhash keys) fs -> snd (read_cells nhash (map file_of fs) cache keys) = Err EValue).
  Proof.
    intros Hf Hc. unfold read_cells. destruct (hashgrid_ok nhash keys Hn Hk) as (g & Eg & ->). rewrite Eg.
    destruct (cells_loop_ok fs cache Hf Hc) as (c2 & E & V). unfold grid, want in E. rewrite E. cbn [fst snd bind].
    split; [exact V|]. rewrite some_here. set (sel := filter file_here fs).
    assert (K : forall {B} (g : A * A * A -> B), sel <> [] -> np_concat (map (fun f => map g (file_pick f)) sel) = Ok (map g (concat (map file_pick sel)))).
    { intros B g Hs. unfold np_concat. rewrite concat_map, map_map. destruct sel; [easy|reflexivity]. }
    rewrite !map_map. cbn [fst snd]. split.
    - intro Hs. exists (concat (map file_pick sel)). split; [apply picks_all|].
      rewrite !K by exact Hs. reflexivity.
    - intro Hs. destruct sel; [reflexivity|]. destruct Hs. easy.
  Qed.
End Loop.

Lemma read_cells_bad {A} nhash keys fs cache : 0 <= nhash -> ~ Forall (fun k => - nhash <= k < nhash) keys ->
  @read_cells A nhash fs cache keys = (cache, Err EIndex).
Proof. intros Hn Hk. unfold read_cells, hashgrid. rewrite (hashgrid_bad nhash); [reflexivity| |easy]. unfold zlen. rewrite repeat_length. lia. Qed.

Lemma history_ok {A} nhash (fs : list (cellfile A)) : 0 <= nhash -> Forall (file_ok nhash) fs ->
  forall calls, Forall2 entry_ok fs (cells_history nhash (map file_of fs) calls).
Proof.
  intros Hn Hf calls. unfold cells_history. assert (HS : Forall2 entry_ok fs (new_hash_table (map file_of fs))).
  { unfold new_hash_table. clear. induction fs as [|f fs IH]; constructor; [now left|easy]. }
  revert HS. generalize (new_hash_table (map file_of fs)). induction calls as [|k calls IH]; intros c Hc; [exact Hc|]. cbn [fold_left]. apply IH.
  assert (Forall (fun x => - nhash <= x < nhash) k \/ ~ Forall (fun x => - nhash <= x < nhash) k) as [D|D].
  { destruct (Forall_dec (fun x => - nhash <= x < nhash)) with (l := k) as [D|D]; [|now left|now right].
    intro x. destruct (Z_le_dec (- nhash) x), (Z_lt_dec x nhash); [left|right|right|right]; lia. }
  - now apply read_cells_ok.
  - now rewrite read_cells_bad.
Qed.

Lemma read_cells_final {A} nhash (fs : list (cellfile A)) calls keys : 0 <= nhash -> Forall (file_ok nhash) fs ->
  let out := snd (read_cells nhash (map file_of fs) (cells_history nhash (map file_of fs) calls) keys) in
  (Forall (fun k => - nhash <= k < nhash) keys ->
     (some_cell (wanted nhash keys) fs -> exists sel, picks_files (wanted nhash keys) fs sel /\
    out = Ok (map (fun p => fst (fst p)) sel, map (fun p => snd (fst p)) sel, map snd sel)) /\
    (~ some_cell (wanted nhash keys) fs -> out = Err EValue)) /\
    (~ Forall (fun k => - nhash <= k < nhash) keys -> out = Err EIndex).
Proof.
  intros Hn Hf out. split.
  - intro Hk. destruct (read_cells_ok nhash keys Hn Hk fs _ Hf (history_ok nhash fs Hn Hf calls)) as (_ & H1 & H2). now split.
  - intro Hk. unfold out. now rewrite read_cells_bad.
Qed.

(** the particles picked: membership *)
Lemma picks_In {A} W n (cells : list (list (A * A * A))) sel : picks W n cells sel ->
  forall p, In p sel <-> exists k c, nth_error cells k = Some c /\ W (n + Z.of_nat k) /\ In p c.
Proof.
  induction 1 as [n|n c cells sel Hw H IH|n c cells sel Hw H IH]; intro p.
  - split; [intros []|]. intros (k & c & E & _). destruct k; discriminate.
  - rewrite in_app_iff, IH. split.
    + intros [Hi|(k & c' & E & Hw' & Hi)].
      * exists 0%nat, c. split; [reflexivity|]. split; [now rewrite Z.add_0_r|easy].
      * exists (S k), c'. split; [easy|]. split; [|easy]. replace (n + Z.of_nat (S k)) with (n + 1 + Z.of_nat k) by lia. easy.
    + intros ([|k] & c' & E & Hw' & Hi); [left; cbn in E; congruence|]. right. exists k, c'. split; [easy|]. split; [|easy].
      replace (n + 1 + Z.of_nat k) with (n + Z.of_nat (S k)) by lia. easy.
  - rewrite IH. split.
    + intros (k & c' & E & Hw' & Hi). exists (S k), c'. split; [easy|]. split; [|easy]. replace (n + Z.of_nat (S k)) with (n + 1 + Z.of_nat k) by lia. easy.
    + intros ([|k] & c' & E & Hw' & Hi); [rewrite Z.add_0_r in Hw'; contradiction|]. exists k, c'. split; [easy|]. split; [|easy].
      replace (n + 1 + Z.of_nat k) with (n + Z.of_nat (S k)) by lia. easy.
Qed.
Lemma picks_files_In {A} W (fs : list (cellfile A)) sel : picks_files W fs sel ->
  forall p, In p sel <-> exists f k c, In f fs /\ nth_error (cf_cells f) k = Some c /\ W (cf_first f + Z.of_nat k) /\ In p c.
Proof.
  induction 1 as [|f fs s sel P H IH]; intro p.
  - split; [intros []|intros (f & k & c & [] & _)].
  - rewrite in_app_iff, IH, (picks_In _ _ _ _ P). split.
    + intros [(k & c & Hc)|(f' & k & c & Hf & Hc)]; [exists f, k, c; split; [now left|easy]|exists f', k, c; split; [now right|easy]].
    + intros (f' & k & c & [->|Hf] & Hc); [left; now exists k, c|right; now exists f', k, c].
Qed.
