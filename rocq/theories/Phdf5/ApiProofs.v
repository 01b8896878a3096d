(** Proofs about the interface of MultiFile: paths, the form of the results, attributes. *)
From Coq Require Import Ascii String Sorted.
From Verif.Base Require Import Prelude ListLemmas.
From Verif.Psort Require Import MoveSpec MoveProofs.
From Verif.Mpi Require Import GroupIndexProofs UtilModel UtilProofs.
From Verif.Index Require Import IndexModel.
From Verif.Phdf5 Require Import AssignModel AssignProofs CollModel CollProofs MultiModel MultiSpec MultiProofs ApiModel ApiSpec.
From Coq Require Import ZifyBool ZifyNat.
Local Open Scope Z_scope.
Local Open Scope list_scope.

(** *** paths *)
Lemma str_app_assoc (a b c : string) : ((a ++ b) ++ c = a ++ (b ++ c))%string.
Proof. induction a as [|x a IH]; [reflexivity|]. cbn. now rewrite IH. Qed.
Lemma str_app_nil (a : string) : (a ++ "")%string = a.
Proof. induction a as [|x a IH]; [reflexivity|]. cbn. now rewrite IH. Qed.
Lemma parts_aux_plain s : forall cur, has_slash s = false -> parts_aux cur s = [(cur ++ s)%string].
Proof.
  induction s as [|c s IH]; intros cur H; cbn in *; [now rewrite str_app_nil|]. apply orb_false_iff in H. destruct H as [H1 H2]. rewrite H1, IH by assumption. now rewrite str_app_assoc.
Qed.
Lemma parts_aux_slash s t : forall cur, has_slash s = false -> parts_aux cur (s ++ String "/" t) = (cur ++ s)%string :: parts_aux "" t.
Proof.
  induction s as [|c s IH]; intros cur H; cbn in *; [now rewrite str_app_nil|]. apply orb_false_iff in H. destruct H as [H1 H2]. rewrite H1, IH by assumption. now rewrite str_app_assoc.
Qed.
Lemma keep_component c l : component c -> filter (fun c => negb (String.eqb c "" || String.eqb c ".")) (c :: l) = c :: filter (fun c => negb (String.eqb c "" || String.eqb c ".")) l.
Proof.
  intros (H1 & H2 & _). cbn [filter]. apply String.eqb_neq in H1. apply String.eqb_neq in H2. now rewrite H1, H2.
Qed.
Lemma parts_concat gp : Forall component gp -> parts (String.concat "/" gp) = gp.
Proof.
  unfold parts. induction gp as [|c gp IH]; intro H; [reflexivity|]. apply Forall_cons_iff in H. destruct H as [Hc H]. destruct gp as [|d gp].
  - cbn [String.concat]. rewrite parts_aux_plain by apply Hc. rewrite keep_component by assumption. reflexivity.
  - change (String.concat "/" (c :: d :: gp)) with (c ++ String "/" (String.concat "/" (d :: gp)))%string. rewrite parts_aux_slash by apply Hc.
    rewrite keep_component by assumption. now rewrite IH.
Qed.
Lemma not_absolute c t : component c -> absolute (c ++ t) = false.
Proof. intros (H1 & _ & H3). destruct c as [|x c]; [congruence|]. cbn in *. now apply orb_false_iff in H3. Qed.
Lemma resolve_group gp group : group_at gp group -> match group with None => [] | Some g => resolve [] g end = gp.
Proof.
  intros (Hc & [(-> & ->)|[->| ->]]); [reflexivity| |].
  - unfold resolve. destruct gp as [|c gp]; [reflexivity|]. apply Forall_cons_iff in Hc as Hc'. destruct Hc' as [H1 _].
    assert (absolute (String.concat "/" (c :: gp)) = false) as ->.
    { destruct gp as [|d gp]; [cbn [String.concat]; rewrite <- (str_app_nil c); now apply not_absolute|]. change (String.concat "/" (c :: d :: gp)) with (c ++ String "/" (String.concat "/" (d :: gp)))%string. now apply not_absolute. }
    cbn [app]. now apply parts_concat.
  - unfold resolve. cbn [absolute]. rewrite Ascii.eqb_refl. unfold parts. cbn [parts_aux]. rewrite Ascii.eqb_refl. cbn [filter]. cbn [String.eqb orb negb]. now apply parts_concat.
Qed.
Lemma resolve_name loc n : component n -> resolve loc n = loc ++ [n].
Proof.
  intro H. unfold resolve. rewrite <- (str_app_nil n) at 1. rewrite not_absolute by assumption. f_equal.
  change [n] with ([n] : list string). rewrite <- (parts_concat [n]) by (constructor; [assumption | constructor]). reflexivity.
Qed.

(** *** dicts *)
Lemma keys_in l x : In x (keys l) <-> In x l.
Proof.
  induction l as [|y l IH]; [reflexivity|]. cbn [keys]. split.
  - intros [->|H]; [now left|]. apply filter_In in H. right. now apply IH.
  - intros [->|H]; [now left|]. destruct (string_dec x y) as [->|Hn]; [now left|]. right. apply filter_In. split; [now apply IH|]. apply String.eqb_neq in Hn. now rewrite Hn.
Qed.
Lemma keys_nodup l : NoDup (keys l).
Proof.
  induction l as [|y l IH]; [constructor|]. cbn [keys]. constructor; [|now apply NoDup_filter]. intro H. apply filter_In in H. destruct H as [_ H]. now rewrite String.eqb_refl in H.
Qed.
Lemma look_map {X} (h : string -> X) n ks : look n (map (fun k => (k, h k)) ks) = if in_dec string_dec n ks then Ok (h n) else Err EKey.
Proof.
  induction ks as [|k ks IH]; [reflexivity|]. cbn [map look]. rewrite IH. destruct (String.eqb_spec k n) as [->|Hn].
  - destruct (in_dec string_dec n (n :: ks)) as [_|H]; [reflexivity|]. exfalso. apply H. now left.
  - destruct (in_dec string_dec n ks) as [H|H], (in_dec string_dec n (k :: ks)) as [H'|H']; try reflexivity; exfalso; [apply H'; now right|]. destruct H'; contradiction.
Qed.
Lemma look_map_in {X} (h : string -> X) n ks : In n ks -> look n (map (fun k => (k, h k)) ks) = Ok (h n).
Proof. intro H. rewrite look_map. destruct (in_dec string_dec n ks); [reflexivity | contradiction]. Qed.
Lemma mem_in n l : mem n l = true <-> In n l.
Proof. unfold mem. rewrite existsb_exists. split; [intros (x & H & E); apply String.eqb_eq in E; now subst | intro H; exists n; split; [assumption | apply String.eqb_refl]]. Qed.

Lemma pack_gives {X} datasets unpack (h : string -> X) ks :
  (forall n, In n ks <-> In n (name_list datasets)) -> NoDup ks ->
  exists v, pack datasets unpack (map (fun k => (k, h k)) ks) = Ok v /\ gives datasets unpack h v.
Proof.
  intros Hk Hn. unfold pack. destruct datasets as [n|l].
  - rewrite look_map_in by (apply Hk; now left). cbn [bind]. eexists. split; reflexivity.
  - cbn [name_list] in Hk. destruct unpack.
    + rewrite (mapM_map_ok _ h); [cbn [bind]; eexists; split; [reflexivity | split; reflexivity]|]. intros n H. apply look_map_in. now apply Hk.
    + eexists. split; [reflexivity|]. cbn [gives]. split; [reflexivity|]. split.
      * rewrite map_map. cbn [fst]. now rewrite map_id.
      * intros n x. rewrite in_map_iff. split; [intros (k & E & H); injection E as <- <-; split; [now apply Hk | reflexivity]|]. intros [H ->]. exists n. split; [reflexivity | now apply Hk].
Qed.

(** *** attributes *)
Section Attrs.
  Context {A V : Type}.
  Lemma first_attrs_some (v : list (option (dset A * attrs V))) fs a : first_attrs v fs = Some a -> first_with v fs a.
  Proof.
    unfold first_attrs. induction fs as [|f fs IH]; [discriminate|]. cbn [flat_map]. destruct (nth f v None) as [[d b]|] eqn:E.
    - cbn [app snd]. intro H. injection H as <-. exists [], f, fs, d. split; [reflexivity|]. split; [assumption | intros g []].
    - cbn [app]. intro H. destruct (IH H) as (l & f' & l' & d & -> & H1 & H2). exists (f :: l), f', l', d. split; [reflexivity|]. split; [assumption|]. intros g [<-|Hg]; [assumption | now apply H2].
  Qed.
  Lemma first_attrs_none (v : list (option (dset A * attrs V))) fs : first_attrs v fs = None <-> forall f, In f fs -> nth f v None = None.
  Proof.
    unfold first_attrs. induction fs as [|f fs IH]; [split; [intros _ f [] | reflexivity]|]. cbn [flat_map]. destruct (nth f v None) as [[d b]|] eqn:E.
    - cbn [app snd]. split; [discriminate|]. intro H. specialize (H f (or_introl eq_refl)). congruence.
    - cbn [app]. rewrite IH. split; [intros H g [<-|Hg]; [assumption | now apply H] | intros H g Hg; apply H; now right].
  Qed.
  Lemma fill_cons {X} (x : option X) l : fill None (x :: l) = match x with Some _ => x | None => fill None l end.
  Proof. destruct x as [x|]; [|reflexivity]. unfold fill. cbn [fold_left]. apply (fill_some x l). Qed.
  Lemma fill_first (v : list (option (dset A * attrs V))) own : fill None (map (first_attrs v) own) = first_attrs v (concat own).
  Proof.
    induction own as [|o own IH]; [reflexivity|]. cbn [map concat]. rewrite fill_cons, IH. unfold first_attrs. rewrite flat_map_app.
    destruct (flat_map _ o) as [|a l]; [reflexivity | reflexivity].
  Qed.
  Lemma sorted_tail l f l' g : Sorted le (l ++ f :: l') -> In g l' -> (f <= g)%nat.
  Proof.
    intros H Hg. assert (Sorted le (f :: l')) as H'. { clear Hg. induction l as [|x l IH]; [assumption|]. apply IH. now inversion H. }
    apply Sorted_StronglySorted in H'; [|intros a b c; lia]. apply StronglySorted_inv in H'. destruct H' as [_ H']. rewrite Forall_forall in H'. now apply H'.
  Qed.
  Lemma first_with_all (v : list (option (dset A * attrs V))) fs a : Sorted le fs -> (forall f, In f fs <-> (f < length v)%nat) ->
    first_with v fs a -> first_with v (seq 0 (length v)) a.
  Proof.
    intros Hs Hc (l & f & l' & d & -> & E & Hl). assert (f < length v)%nat as Hf by (apply Hc; apply in_or_app; right; now left).
    exists (seq 0 f), f, (seq (S f) (length v - S f)), d. split; [|split; [assumption|]].
    - change (f :: seq (S f) (length v - S f)) with (seq f (S (length v - S f))). change f with (0 + f)%nat at 2. rewrite <- seq_app. f_equal. lia.
    - intros g Hg. apply in_seq in Hg. assert (In g (l ++ f :: l')) as Hi by (apply Hc; lia). apply in_app_or in Hi. destruct Hi as [Hi|[Hi|Hi]]; [now apply Hl | lia|].
      pose proof (sorted_tail l f l' g Hs Hi). lia.
  Qed.
End Attrs.
Lemma map_option_none {X Y} (h : X -> Y) v f : nth f (map (option_map h) v) None = option_map h (nth f v None).
Proof. change None with (option_map h None) at 1. apply map_nth. Qed.

Lemma sorted_repeat n l : forall f, (forall g, In g l -> (f <= g)%nat) -> Sorted le l -> Sorted le (repeat f n ++ l).
Proof.
  induction n as [|n IH]; intros f H Hs; [assumption|]. cbn [repeat app]. constructor; [now apply IH|]. destruct n as [|n]; cbn [repeat app].
  - destruct l as [|x l]; constructor. apply H. now left.
  - constructor. lia.
Qed.
Lemma sorted_blocks (n : nat -> nat) k : forall a, Sorted le (concat (map (fun f => repeat f (n f)) (seq a k))) /\ forall g, In g (concat (map (fun f => repeat f (n f)) (seq a k))) -> (a <= g)%nat.
Proof.
  induction k as [|k IH]; intro a; [split; [constructor | intros g []]|]. cbn [seq map concat]. destruct (IH (S a)) as [H1 H2]. split.
  - apply sorted_repeat; [|assumption]. intros g Hg. specialize (H2 g Hg). lia.
  - intros g Hg. apply in_app_or in Hg. destruct Hg as [Hg|Hg]; [apply repeat_spec in Hg; lia | specialize (H2 g Hg); lia].
Qed.
Lemma Forall2_concat_spmd {X Y} (R : X -> Y -> Prop) n f g : (forall k, (k < n)%nat -> Forall2 R (f k) (g k)) -> Forall2 R (concat (spmd n f)) (concat (spmd n g)).
Proof.
  intro H. unfold spmd. assert (forall l, (forall k, In k l -> (k < n)%nat) -> Forall2 R (concat (map f l)) (concat (map g l))) as H'; [|apply H'; intros k Hk; apply in_seq in Hk; lia].
  induction l as [|x l IH]; intro Hl; [constructor|]. cbn [map concat]. apply Forall2_app; [apply H, Hl; now left | apply IH; intros; apply Hl; now right].
Qed.
Lemma sorted_seq k : forall a, Sorted le (seq a k).
Proof. induction k as [|k IH]; intro a; [constructor|]. cbn [seq]. constructor; [apply IH|]. destruct k; constructor. lia. Qed.
Lemma nth_map_in {X Y} (h : X -> Y) l r dx dy : (r < length l)%nat -> nth r (map h l) dy = h (nth r l dx).
Proof. intro H. rewrite (nth_indep _ dy (h dx)) by now rewrite map_length. apply map_nth. Qed.

(** *** one dataset *)
Section One.
  Context {A V : Type} (junk : A) (itemsize native : Z -> Z) (buffer : Z) (P : nat) (v : list (option (dset A * attrs V))) (idx : list Z) (dt : Z) (dims : list Z).
  Let files := dsets v.
  Hypothesis HP : (0 < P)%nat.
  Hypothesis HF : files <> [].
  Hypothesis Hidx : length idx = length files.
  Hypothesis Hu : uniform dt dims files.
  Hypothesis Hbuf : (length files < P)%nat -> 1 <= itemsize dt * prodZ dims <= buffer.
  Set Default Proof Using "All".
  Definition the_raws := raws junk itemsize buffer P files idx dt dims.

  Lemma len_v : length v = length files.
  Proof. unfold files, dsets. now rewrite map_length. Qed.

  Lemma own_ok : exists own, length own = P /\ Sorted le (concat own) /\ (forall f, In f (concat own) <-> (f < length v)%nat) /\
    own_attrs P v = Ok (map (first_attrs v) own) /\
    Forall2 (fun o x => forall t, In t (tags_of (snd x)) -> exists f, In f o /\ t = nth f idx 0) own the_raws.
  Proof.
    unfold the_raws, raws, own_attrs. rewrite len_v.
    destruct (setup_ok junk itemsize native buffer P files idx dt dims HP HF Hidx Hu Hbuf) as (num & H0 & [(HPF & -> & L & S)|(HPF & -> & L & S & H1)]); cbn [bind].
    - pose proof (my_files_all junk itemsize native buffer P files idx dt dims HP HF Hidx Hu Hbuf num (length files) H0 L S) as Hall.
      exists (spmd P (my_files (excl_cumsum num) num)). split; [apply spmd_length|]. rewrite Hall. split; [apply sorted_seq|]. split; [intro f; rewrite in_seq; lia|]. split; [now rewrite map_spmd|].
      unfold spmd. clear -junk native HP HF Hidx Hu Hbuf. generalize (seq 0 P) as l. induction l as [|r l IH]; [constructor|]. cbn [map]. constructor; [|assumption].
      intros t Ht. rewrite (ind_tags junk itemsize native buffer P files idx dt dims HP HF Hidx Hu Hbuf) in Ht. apply in_flat_map in Ht. destruct Ht as (f & Hf & Ht). apply repeat_spec in Ht. now exists f.
    - assert (forall f, (f < length files)%nat -> (0 < Z.to_nat (nth f num 0%Z))%nat) as Hpos by (intros f Hf; rewrite Forall_nth in H1; specialize (H1 f 0 ltac:(lia)); lia).
      exists (concat (spmd (length files) (fun f => repeat [f] (Z.to_nat (nth f num 0))))).
      pose proof (seq_groups num (length files) H0 ltac:(lia)) as Hg. rewrite goff_all, S, Nat2Z.id in Hg by lia.
      assert (concat (concat (spmd (length files) (fun f => repeat [f] (Z.to_nat (nth f num 0))))) = concat (spmd (length files) (fun f => repeat f (Z.to_nat (nth f num 0))))) as Ecc.
      { unfold spmd. clear. generalize (seq 0 (length files)) as l. induction l as [|f l IH]; [reflexivity|]. cbn [map concat]. rewrite concat_app, IH. f_equal.
        generalize (Z.to_nat (nth f num 0)) as n. induction n as [|n IHn]; [reflexivity|]. cbn [repeat concat app]. now rewrite IHn. }
      split; [|split; [|split; [|split]]].
      + apply (f_equal (@length _)) in Hg. rewrite seq_length in Hg. rewrite <- Hg. rewrite !(length_concat_spmd junk itemsize native buffer P files idx dt dims HP HF Hidx Hu Hbuf). f_equal. apply spmd_ext. intros f Hf. now rewrite repeat_length, seq_length.
      + rewrite Ecc. apply (sorted_blocks (fun f => Z.to_nat (nth f num 0)) (length files) 0).
      + intro f. rewrite Ecc. rewrite in_concat. split.
        * intros (l & Hl & Hf). apply In_spmd in Hl. destruct Hl as (g & Hg' & ->). apply repeat_spec in Hf. now subst.
        * intro Hf. exists (repeat f (Z.to_nat (nth f num 0))). split; [apply In_spmd; now exists f|]. specialize (Hpos f Hf). destruct (Z.to_nat (nth f num 0)); [lia | now left].
      + rewrite <- Hg. rewrite map_concat_spmd. apply mapM_concat_spmd. intros f Hf. specialize (Hpos f Hf). apply mapM_ok.
        assert (forall k, (k < Z.to_nat (nth f num 0%Z))%nat -> (do (fr, _) <- find_file (Z.of_nat (Z.to_nat (goff num f) + k)) 0 (combine (excl_cumsum num) num); Ok (option_map snd (nth (fst fr) v None))) = Ok (first_attrs v [f])) as Hk.
        { intros k Hk. rewrite find_file_ok by (try assumption; lia). cbn [bind fst]. f_equal. unfold first_attrs. cbn [flat_map]. destruct (nth f v None) as [[d a]|]; reflexivity. }
        clear -Hk. revert Hk. generalize (Z.to_nat (goff num f)) as o, (Z.to_nat (nth f num 0)) as m. intros o m. revert o. induction m as [|m IH]; intros o Hk; [constructor|]. cbn [seq repeat map]. constructor.
        * specialize (Hk O ltac:(lia)). rewrite Nat.add_0_r in Hk. exact Hk.
        * apply IH. intros k Hk'. specialize (Hk (Datatypes.S k) ltac:(lia)). rewrite <- plus_n_Sm in Hk. exact Hk.
      + apply Forall2_concat_spmd. intros f Hf. destruct (col_part_ok junk itemsize native buffer P files idx dt dims HP HF Hidx Hu Hbuf f _ HPF (Hpos f Hf)) as (Hl & _ & _ & Ht & _).
        revert Hl Ht. generalize (col_part junk itemsize buffer files idx dt dims f (Z.to_nat (nth f num 0))) as cp. intro cp. generalize (Z.to_nat (nth f num 0)) as n. intros n <-. 
        intro Ht. assert (forall x t, In x cp -> In t (tags_of (snd x)) -> t = nth f idx 0) as Hx.
        { intros x t Hx Hi. assert (In t (flat_map (fun x => tags_of (snd x)) cp)) as Hi' by (apply in_flat_map; now exists x). rewrite Ht in Hi'. now apply repeat_spec in Hi'. }
        clear -Hx. induction cp as [|x cp IH]; [constructor|]. cbn [length repeat]. constructor; [|apply IH; intros y t Hy; apply Hx; now right].
        intros t Hi. exists f. split; [now left|]. apply (Hx x); [now left | assumption].
  Qed.


  Lemma read1_ok ra : exists l, read1 junk itemsize native buffer P idx v ra = Ok l /\ distributed v idx P (native dt) dims ra l /\
    exists out, MultiModel.read junk itemsize native buffer P files idx = Ok out /\ map (fun x => option_map a_data (fst x)) l = map fst out.
  Proof.
    destruct own_ok as (own & Hlo & Hso & Hco & Eo & Ht).
    assert (exists owna, (if ra then own_attrs P v else Ok (repeat None P)) = Ok owna /\ length owna = P /\ owna = if ra then map (first_attrs v) own else repeat None P) as (owna & Eowna & Lowna & Downa).
    { destruct ra; [rewrite Eo; eexists; split; [reflexivity|]; rewrite map_length; now split | eexists; split; [reflexivity|]; split; [apply repeat_length | reflexivity]]. }
    unfold read1. fold (dsets v). fold files.
    destruct (existsb (fun o => match o with Some _ => true | None => false end) v) eqn:Ex.
    - assert (exists da, In (Some da) v) as (da & Hda). { apply existsb_exists in Ex. destruct Ex as ([da|] & Hi & Hd); [now exists da | discriminate]. }
      assert (exists d, In (Some d) files) as Hs. { exists (fst da). unfold files, dsets. apply in_map_iff. exists (Some da). split; [reflexivity | assumption]. }
      rewrite (read_some junk itemsize native buffer P files idx dt dims HP HF Hidx Hu Hbuf Hs), Eowna. fold the_raws. cbn [bind].
      destruct (raws_ok junk itemsize native buffer P files idx dt dims HP HF Hidx Hu Hbuf) as (Rl & Ro & Rr & Rt & Rx). fold the_raws in Rl, Ro, Rr, Rt, Rx.
      set (fn := fin native dt dims). eexists. split; [reflexivity|]. split.
      + split; [rewrite map_length, combine_length, map_length, Rl, Lowna; lia|]. split; [intro H; specialize (H _ Hda); discriminate|]. intros _.
        exists (map (fun x => rows_of (fst x)) the_raws), (map (fun x => tags_of (snd x)) the_raws), (map (fun m => fill m owna) owna).
        rewrite !map_length. split; [assumption|]. split; [assumption|]. split; [assumption|]. rewrite <- !flat_map_concat_map. split; [exact Rr|]. split; [exact Rt|]. split; [|split].
        * intro r. destruct (Nat.lt_ge_cases r (length the_raws)) as [Hr|Hr].
          -- rewrite !(nth_map_in _ the_raws r (None, None)) by assumption. rewrite Forall_forall in Ro. specialize (Ro (nth r the_raws (None, None)) (nth_In _ _ Hr)). unfold raw_ok in Ro.
             destruct (fst (nth r the_raws (None, None))) as [d|]; [destruct Ro as (_ & _ & nr & -> & E); exact E | rewrite Ro; reflexivity].
          -- rewrite !nth_overflow by (now rewrite map_length). reflexivity.
        * intros r Hr. rewrite (nth_map_in _ _ r ((None, None), None)) by (rewrite combine_length, map_length, Rl, Lowna; lia).
          rewrite combine_nth by (rewrite map_length; congruence). rewrite !(nth_map_in _ the_raws r (None, None)) by congruence. rewrite (nth_map_in _ owna r None) by congruence.
          unfold fn, fin. cbn [option_map]. reflexivity.
        * destruct ra.
          -- exists own. split.
             ++ split; [assumption|]. split; [assumption|]. split; [assumption|]. intros r t Hi. destruct (Nat.lt_ge_cases r (length the_raws)) as [Hr|Hr].
                ** rewrite (nth_map_in _ the_raws r (None, None)) in Hi by assumption. clear -Ht Hi Hr. revert r Hi Hr. induction Ht as [|o x os xs H1 H2 IH]; intros r Hi Hr; [cbn in Hr; lia|]. destruct r as [|r]; cbn [nth] in *; [now apply H1 | apply IH; [assumption | cbn in Hr; lia]].
                ** rewrite nth_overflow in Hi by (now rewrite map_length). destruct Hi.
             ++ intros r Hr. rewrite (nth_map_in _ owna r None) by congruence. rewrite Downa. rewrite (nth_map_in _ own r []) by congruence.
                destruct (first_attrs v (nth r own [])) as [a|] eqn:Ef.
                ** rewrite fill_some. exists a. split; [reflexivity|]. left. now apply first_attrs_some.
                ** rewrite fill_first. destruct (first_attrs v (concat own)) as [a|] eqn:Ec.
                   --- exists a. split; [reflexivity|]. right. split; [now apply first_attrs_none|]. apply (first_with_all v (concat own) a Hso Hco). now apply first_attrs_some.
                   --- exfalso. apply In_nth with (d := None) in Hda. destruct Hda as (f & Hf & Ef'). pose proof (proj1 (first_attrs_none v (concat own)) Ec f (proj2 (Hco f) Hf)). congruence.
          -- intro r. rewrite Downa. clear -HP. destruct (Nat.lt_ge_cases r P) as [Hr|Hr].
             ++ rewrite (nth_map_in _ _ r None) by (now rewrite repeat_length). rewrite nth_repeat.
                destruct (fill_none (repeat (None : option (attrs V)) P)) as [[E _]|(q & x & E & _)]; [assumption|]. apply nth_error_In, repeat_spec in E. discriminate.
             ++ apply nth_overflow. now rewrite map_length, repeat_length.
      + eexists. split; [reflexivity|]. rewrite map_map.
        assert (length (map fn the_raws) = length owna) as El by (rewrite map_length; congruence). fold fn. revert El. generalize (map fn the_raws) as rs. clear. revert owna. assert (forall G (owna : list (option (attrs V))) (rs : list (option (dset A) * option (list Z))), length rs = length owna ->
          map (fun x => option_map a_data (fst (let '((d, nr), mine) := x in (option_map (fun d0 : dset A => {| a_data := d0; a_attrs := fill mine G |}) d, nr)))) (combine rs owna) = map fst rs) as H; [|intros; now apply H].
        intros G owna. induction owna as [|m owna IH]; intros [|[d nr] rs] El; try discriminate; [reflexivity|]. cbn [combine map fst]. rewrite IH by (cbn in El; lia). f_equal. destruct d; reflexivity.
    - assert (forall o, In o v -> o = None) as Hn. { intros [da|] Ho; [|reflexivity]. exfalso. assert (existsb (fun o => match o with Some _ => true | None => false end) v = true) as E by (apply existsb_exists; exists (Some da); now split). congruence. }
      assert (forall o, In o files -> o = None) as Hn'. { intros o Ho. unfold files, dsets in Ho. apply in_map_iff in Ho. destruct Ho as (x & <- & Hx). now rewrite (Hn x Hx). }
      rewrite (read_none junk itemsize native buffer P files idx dt dims HP HF Hidx Hu Hbuf Hn'), Eowna. cbn [bind].
      eexists. split; [reflexivity|].
      assert (forall G n (o : list (option (attrs V))), length o = n -> map (fun x => let '((d, nr), mine) := x in (option_map (fun d0 : dset A => {| a_data := d0; a_attrs := fill mine G |}) d, nr)) (combine (repeat (None, None : option (list Z)) n) o) = repeat (None, None) n) as Hrep.
      { clear. intro G. induction n as [|n IH]; intros [|x o] E; try discriminate; [reflexivity|]. cbn [repeat combine map option_map]. rewrite IH by (cbn in E; lia). reflexivity. }
      rewrite Hrep by assumption. split.
      + split; [apply repeat_length|]. split; [reflexivity|]. intros (da & Hda). specialize (Hn _ Hda). discriminate.
      + eexists. split; [reflexivity|]. clear. induction P as [|n IH]; [reflexivity|]. cbn [repeat map]. now rewrite IH.
  Qed.
End One.
