(** Layout, reading and byte order of the blocks of a BinaryFile. *)
From Verif.Base Require Import Prelude ListLemmas Order.
From Verif.Binary Require Import BinModel NameProofs.
From Coq Require Import ZifyBool ZifyNat.
Local Open Scope Z_scope.

(** *** positions *)
(** a block without its byte order *)
Definition place (b : block) : dtype * Z * list Z := (b_dtype b, b_off b, b_shape b).
Lemma place_set e l : map place (map (set_b_endian e) l) = map place l.
Proof. rewrite map_map. apply map_ext. intro b. reflexivity. Qed.
Lemma place_nbytes b b' : place b = place b' -> b_off b = b_off b' /\ b_nbytes b = b_nbytes b'.
Proof. unfold place, b_nbytes, b_size. destruct b, b'. cbn. intro E. injection E as -> -> ->. auto. Qed.

Section Layout.
  Variable little : bool.
  Variable content : list Z.
  (** [f'] has the same blocks as [f], up to byte order, and maybe one more at the position of [f] *)
  Definition same_blocks (f f' : file) : Prop := map place (f_blocks f') = map place (f_blocks f).
  Definition one_more (f f' : file) : Prop :=
    exists b, map place (f_blocks f') = map place (f_blocks f) ++ [place b] /\ b_off b = f_off f /\ f_off f' = f_off f + b_nbytes b.
  Lemma push_more b f f0 : f_blocks f = f_blocks f0 -> f_off f = f_off f0 -> b_off b = f_off f0 -> one_more f0 (push b f).
  Proof. intros H1 H2 H3. exists b. cbn [push f_blocks f_off]. rewrite map_app, H1, H2. auto. Qed.
  Lemma f_add_step name d shape is_attr f : (fst (f_add name d shape is_attr f) = f /\ snd (f_add name d shape is_attr f) = Err EKey) \/
    (one_more f (fst (f_add name d shape is_attr f)) /\ snd (f_add name d shape is_attr f) = Ok tt).
  Proof.
    pose proof (f_add_error name d shape is_attr f) as He. unfold f_add in *. destruct (add_block _ _ _ _ _) as [g [b|e]]; cbn [fst snd] in *.
    - right. split; [|reflexivity]. apply push_more; reflexivity.
    - left. destruct (He e eq_refl) as [-> ->]. auto.
  Qed.
  Lemma read_step d shape f : (fst (read_and_skip little content d shape f) = f /\ exists e, snd (read_and_skip little content d shape f) = Err e) \/
    (one_more f (fst (read_and_skip little content d shape f)) /\ exists v, snd (read_and_skip little content d shape f) = Ok v).
  Proof. unfold read_and_skip. destruct (getitem _ _ _ _); cbn [fst snd]; [right | left; eauto]. split; [|eauto]. apply push_more; reflexivity. Qed.
  Lemma set_step e f : same_blocks f (fst (set_endian e f)) /\ f_off (fst (set_endian e f)) = f_off f.
  Proof. unfold set_endian, same_blocks. destruct (negb (valid_endian e)); cbn; [auto|]. split; [apply place_set | reflexivity]. Qed.
  Lemma toggle_step f : same_blocks f (fst (toggle_byteswap little f)) /\ f_off (fst (toggle_byteswap little f)) = f_off f.
  Proof. unfold toggle_byteswap. destruct (f_endian f); try (split; reflexivity). apply set_step. Qed.
  Lemma run_op_step f o :
    (same_blocks f (run_op little content f o) /\ f_off (run_op little content f o) = f_off f + match o with OSkip n => n | _ => 0 end) \/
    one_more f (run_op little content f o).
  Proof.
    destruct o as [name d shape is_attr|n|d shape|e|s| |a|]; cbn [run_op].
    - destruct (f_add_step name d shape is_attr f) as [[-> _]|[H _]]; [left | right; exact H]. split; [reflexivity | lia].
    - left. split; reflexivity.
    - destruct (read_step d shape f) as [[-> _]|[H _]]; [left | right; exact H]. split; [reflexivity | lia].
    - left. destruct (set_step e f) as [H1 H2]. split; [exact H1 | lia].
    - left. destruct (set_step (swap_endian little s) f) as [H1 H2]. split; [exact H1 | unfold enable_byteswap; lia].
    - left. destruct (toggle_step f) as [H1 H2]. split; [exact H1 | lia].
    - unfold start_fortran_record. destruct (f_rec f); [left; split; [reflexivity | cbn; lia]|]. destruct (read_step int32_t [] f) as [[E (e & E2)]|[H (v & E2)]]; destruct (read_and_skip little content int32_t [] f) as [f' r]; cbn [fst snd] in *; subst r.
      + left. subst f'. split; [reflexivity | cbn; lia].
      + right. exact H.
    - unfold end_fortran_record. destruct (f_rec f) as [[[m so] au]|]; [|left; split; [reflexivity | cbn; lia]]. destruct (read_step int32_t [] f) as [[E (e & E2)]|[H (v & E2)]]; destruct (read_and_skip little content int32_t [] f) as [f' r]; cbn [fst snd] in *; subst r.
      + left. subst f'. split; [reflexivity | cbn; lia].
      + right. assert (forall f2, same_blocks f' f2 -> f_off f2 = f_off f' -> one_more f f2) as Hm. { intros f2 S1 S2. destruct H as (b & H1 & H2 & H3). exists b. rewrite S1, S2. auto. }
        destruct (negb (m =? int32_of little v)); [exact H|]. destruct (au && (65535 <? f_off f - so)); [exact H|].
        set (sw := (f_off f - so =? bswap32 m) && negb (f_off f - so =? m) && au). set (f2 := if sw then fst (toggle_byteswap little f') else f'). assert (one_more f f2) as Hf2. { unfold f2. destruct sw; [|exact H]. destruct (toggle_step f'). now apply Hm. }
        destruct (negb (f_off f - so =? (if sw then bswap32 m else m))); cbn [fst]; exact Hf2.
  Qed.

  (** *** without skips blocks follow each other, without negative ones they never overlap *)
  Definition no_skip (o : op) : Prop := match o with OSkip _ => False | _ => True end.
  Definition fwd_skip (o : op) : Prop := match o with OSkip n => 0 <= n | OAdd _ d s _ | ORead d s => Forall (fun x => 0 <= x) (dt_fields d) /\ Forall (fun x => 0 <= x) s | _ => True end.
  Definition back_to_back (l : list block) (start finish : Z) : Prop := (fix go l c := match l with [] => c = finish | b :: l' => b_off b = c /\ go l' (c + b_nbytes b) end) l start.
  Lemma btb_cons b l s e : back_to_back (b :: l) s e <-> b_off b = s /\ back_to_back l (s + b_nbytes b) e.
  Proof. reflexivity. Qed.
  Lemma btb_place : forall l l' s e, map place l = map place l' -> back_to_back l s e -> back_to_back l' s e.
  Proof.
    induction l as [|b l IH]; intros [|b' l'] s e H Hb; try discriminate; [exact Hb|]. cbn [map] in H. injection H as H1 H2 H3 H4. destruct (place_nbytes b b') as [E1 E2]; [unfold place; congruence|].
    apply btb_cons in Hb. apply btb_cons. rewrite <- E1, <- E2. destruct Hb as [Hb1 Hb2]. split; [exact Hb1|]. now apply (IH l').
  Qed.
  Lemma btb_snoc b : forall l s, back_to_back l s (b_off b) -> back_to_back (l ++ [b]) s (b_off b + b_nbytes b).
  Proof. induction l as [|b' l IH]; intros s H; cbn [app]; [unfold back_to_back in *; subst s; auto|]. apply btb_cons in H. apply btb_cons. destruct H as [H1 H2]. split; [exact H1|]. now apply IH. Qed.
  Lemma run_btb ops : Forall no_skip ops -> forall f, back_to_back (f_blocks f) 0 (f_off f) -> back_to_back (f_blocks (run little content ops f)) 0 (f_off (run little content ops f)).
  Proof.
    induction ops as [|o ops IH]; intros H f Hf; [exact Hf|]. apply Forall_cons_iff in H. destruct H as [Ho H]. cbn [run fold_left]. apply (IH H). destruct (run_op_step f o) as [[S1 S2]|(b & S1 & S2 & S3)].
    - apply (btb_place (f_blocks f)); [symmetry; exact S1|]. destruct o; try contradiction; rewrite S2, Z.add_0_r; exact Hf.
    - apply (btb_place (f_blocks f ++ [b])); [rewrite map_app; symmetry; exact S1|]. rewrite S3, <- S2. apply btb_snoc. rewrite S2. exact Hf.
  Qed.
  (** blocks in file order without overlaps, ending before [finish] *)
  Fixpoint in_order (l : list block) (start finish : Z) : Prop := match l with [] => start <= finish | b :: l' => start <= b_off b /\ 0 <= b_nbytes b /\ in_order l' (b_off b + b_nbytes b) finish end.
  Lemma order_place : forall l l' s e, map place l = map place l' -> in_order l s e -> in_order l' s e.
  Proof.
    induction l as [|b l IH]; intros [|b' l'] s e H Hb; try discriminate; [exact Hb|]. cbn [map] in H. injection H as H1 H2 H3 H4. destruct (place_nbytes b b') as [E1 E2]; [unfold place; congruence|].
    cbn [in_order] in *. rewrite <- E1, <- E2. destruct Hb as (Hb1 & Hb2 & Hb3). split; [exact Hb1|]. split; [exact Hb2|]. now apply (IH l').
  Qed.
  Lemma order_snoc b : forall l s e, in_order l s e -> e <= b_off b -> 0 <= b_nbytes b -> in_order (l ++ [b]) s (b_off b + b_nbytes b).
  Proof. induction l as [|b' l IH]; intros s e H He Hn; cbn [app in_order] in *; [lia|]. destruct H as (H1 & H2 & H3). split; [exact H1|]. split; [exact H2|]. now apply (IH _ e). Qed.
  Lemma order_le : forall l s e e', in_order l s e -> e <= e' -> in_order l s e'.
  Proof. induction l as [|b' l IH]; intros s e e' H He; cbn [in_order] in *; [lia|]. destruct H as (H1 & H2 & H3). split; [exact H1|]. split; [exact H2|]. now apply (IH _ e). Qed.
  Lemma order_disjoint : forall l s e, in_order l s e -> s <= e /\ forall i j b b', (i < j)%nat -> nth_error l i = Some b -> nth_error l j = Some b' -> b_off b + b_nbytes b <= b_off b' /\ s <= b_off b /\ b_off b' + b_nbytes b' <= e.
  Proof.
    induction l as [|b0 l IH]; intros s e H; cbn [in_order] in H; [split; [exact H|]; intros [|i] j b b' _ E; discriminate|]. destruct H as (H1 & H2 & H3). destruct (IH _ _ H3) as [J1 J2]. split; [lia|].
    assert (forall b', In b' l -> b_off b0 + b_nbytes b0 <= b_off b' /\ b_off b' + b_nbytes b' <= e) as Hin.
    { clear -H3. revert H3. generalize (b_off b0 + b_nbytes b0) as c. induction l as [|b1 l IH]; intros c H b' Hb; [contradiction|]. cbn [in_order] in H. destruct H as (A1 & A2 & A3). destruct Hb as [<-|Hb]; [|destruct (IH _ A3 b' Hb); lia]. split; [lia|]. clear -A3. revert A3. generalize (b_off b1 + b_nbytes b1) as c. induction l as [|b2 l IH]; intros c H; cbn [in_order] in H; [lia|]. destruct H as (A1 & A2 & A3). apply IH in A3. lia. }
    intros [|i] [|j] b b' Hij E E'; try lia.
    - cbn in E, E'. injection E as <-. apply nth_error_In in E'. destruct (Hin _ E'). lia.
    - cbn in E, E'. destruct (J2 i j b b' ltac:(lia) E E') as (K1 & K2 & K3). lia.
  Qed.
  Lemma prod_nonneg l : Forall (fun x => 0 <= x) l -> forall a, 0 <= a -> 0 <= fold_left Z.mul l a.
  Proof. induction 1 as [|x l Hx _ IH]; intros a Ha; [exact Ha|]. cbn. apply IH. lia. Qed.
  Lemma sumZ_nonneg' l : Forall (fun x => 0 <= x) l -> 0 <= sumZ l.
  Proof. induction 1 as [|x l Hx _ IH]; cbn [sumZ]; lia. Qed.
  Lemma nbytes_nonneg d s o e : Forall (fun x => 0 <= x) (dt_fields d) -> Forall (fun x => 0 <= x) s -> 0 <= b_nbytes {| b_dtype := d; b_off := o; b_shape := s; b_endian := e |}.
  Proof. intros H1 H2. unfold b_nbytes, b_size, itemsize. cbn. apply Z.mul_nonneg_nonneg; [now apply sumZ_nonneg' | apply prod_nonneg; [assumption | lia]]. Qed.
  Lemma run_order ops : Forall fwd_skip ops -> forall f, in_order (f_blocks f) 0 (f_off f) -> in_order (f_blocks (run little content ops f)) 0 (f_off (run little content ops f)).
  Proof.
    induction ops as [|o ops IH]; intros H f Hf; [exact Hf|]. apply Forall_cons_iff in H. destruct H as [Ho H]. cbn [run fold_left]. apply (IH H). clear IH H.
    assert (forall b f2, one_more f f2 -> place b = place b -> (forall b0, map place (f_blocks f2) = map place (f_blocks f) ++ [place b0] -> 0 <= b_nbytes b0) -> in_order (f_blocks f2) 0 (f_off f2)) as Hmore.
    { intros _ f2 (b & S1 & S2 & S3) _ Hn. apply (order_place (f_blocks f ++ [b])); [rewrite map_app; symmetry; exact S1|]. rewrite S3, <- S2. apply (order_snoc b _ 0 (f_off f)); [exact Hf | lia | now apply Hn]. }
    destruct (run_op_step f o) as [[S1 S2]|Hm].
    - apply (order_place (f_blocks f)); [symmetry; exact S1|]. rewrite S2. apply (order_le _ _ (f_off f)); [exact Hf|]. destruct o; cbn [fwd_skip] in Ho; lia.
    - assert (forall d s o0 (e : ord), Forall (fun x => 0 <= x) (dt_fields d) -> Forall (fun x => 0 <= x) s -> map place (f_blocks (run_op little content f o)) = map place (f_blocks f) ++ [(d, o0, s)] -> in_order (f_blocks (run_op little content f o)) 0 (f_off (run_op little content f o))) as Hfin.
      { intros d s o0 e F1 F2 E. apply (Hmore {| b_dtype := d; b_off := o0; b_shape := s; b_endian := e |}); [exact Hm | reflexivity|]. intros b0 E0. rewrite E in E0. apply app_inj_tail in E0. destruct E0 as [_ E0].
        destruct (place_nbytes {| b_dtype := d; b_off := o0; b_shape := s; b_endian := e |} b0) as [_ <-]; [exact E0|]. now apply nbytes_nonneg. }
      assert (map place (f_blocks (run_op little content f o)) <> map place (f_blocks f)) as Hne. { destruct Hm as (b & -> & _). intro E. apply (f_equal (@length _)) in E. rewrite app_length in E. cbn in E. lia. }
      destruct o as [name d shape is_attr|n|d shape|e|s| |a|]; cbn [run_op fwd_skip] in *.
      + unfold f_add in *. destruct (add_block _ _ _ _ _) as [g [x|x]]; cbn [fst] in *; [|contradiction Hne; reflexivity]. apply (Hfin d shape (f_off f) NAT); [apply Ho | apply Ho|]. cbn [push f_blocks set_tree]. rewrite map_app. reflexivity.
      + contradiction Hne. reflexivity.
      + unfold read_and_skip in *. destruct (getitem _ _ _ _); cbn [fst] in *; [|contradiction Hne; reflexivity]. apply (Hfin d shape (f_off f) NAT); [apply Ho | apply Ho|]. cbn [push f_blocks]. rewrite map_app. reflexivity.
      + contradiction Hne. apply set_step.
      + contradiction Hne. apply set_step.
      + contradiction Hne. apply toggle_step.
      + apply (Hfin int32_t [] (f_off f) NAT); [repeat constructor; lia | constructor|]. unfold start_fortran_record, read_and_skip in *. destruct (f_rec f); [contradiction Hne; reflexivity|]. destruct (getitem _ _ _ _); cbn [fst] in *; [|contradiction Hne; reflexivity]. cbn [set_rec push f_blocks]. rewrite map_app. reflexivity.
      + apply (Hfin int32_t [] (f_off f) NAT); [repeat constructor; lia | constructor|]. unfold end_fortran_record, read_and_skip in *. destruct (f_rec f) as [[[m so] au]|]; [|contradiction Hne; reflexivity]. destruct (getitem _ _ _ _) as [v|]; cbn [fst] in *; [|contradiction Hne; reflexivity].
        set (b := {| b_dtype := int32_t; b_off := f_off f; b_shape := []; b_endian := f_endian f |}) in *. assert (forall f2, same_blocks (push b f) f2 -> map place (f_blocks f2) = map place (f_blocks f) ++ [(int32_t, f_off f, [])]) as Hp. { intros f2 ->. cbn [push f_blocks]. rewrite map_app. reflexivity. }
        destruct (negb (m =? _)); [apply Hp; reflexivity|]. destruct (au && _); [apply Hp; reflexivity|].
        destruct (andb _ au); destruct (negb _); apply Hp; cbn [fst]; try reflexivity; apply toggle_step.
  Qed.
End Layout.

(** *** reading *)
Section Reading.
  Variable little : bool.
  Definition dtype_ok (d : dtype) : Prop := Forall (fun x => 0 <= x) (dt_fields d).
  Lemma split_lengths fields : forall item, Forall (fun x => 0 <= x) fields -> zlen item = sumZ fields -> map zlen (split_fields fields item) = fields.
  Proof.
    induction fields as [|n fields IH]; intros item H E; [reflexivity|]. apply Forall_cons_iff in H. destruct H as [Hn H]. cbn [split_fields map sumZ] in *. assert (0 <= sumZ fields) by (now apply sumZ_nonneg'). unfold zlen in *. rewrite firstn_length. f_equal; [lia|]. apply IH; [exact H|]. unfold zlen. rewrite skipn_length. lia.
  Qed.
  Lemma split_concat fields : forall parts, map zlen parts = fields -> split_fields fields (concat parts) = parts.
  Proof.
    induction fields as [|n fields IH]; intros [|p parts] E; try discriminate; [reflexivity|]. cbn [map] in E. injection E as E1 E2. cbn [concat split_fields]. unfold zlen in E1.
    rewrite firstn_app, skipn_app, firstn_all2, skipn_all2 by lia. replace (Z.to_nat n - length p)%nat with O by lia. cbn [firstn skipn app]. rewrite app_nil_r. f_equal. now apply IH.
  Qed.
  Lemma concat_split fields : forall item, Forall (fun x => 0 <= x) fields -> zlen item = sumZ fields -> concat (split_fields fields item) = item.
  Proof.
    induction fields as [|n fields IH]; intros item H E; cbn [split_fields concat sumZ] in *; [now rewrite (zlen_0_nil _ E)|]. apply Forall_cons_iff in H. destruct H as [Hn H]. assert (0 <= sumZ fields) by (now apply sumZ_nonneg'). rewrite IH; [apply firstn_skipn | exact H|]. unfold zlen in *. rewrite skipn_length. lia.
  Qed.
  Lemma split_swap d item : dtype_ok d -> zlen item = itemsize d -> split_fields (dt_fields d) (swap_item d item) = map (@rev Z) (split_fields (dt_fields d) item).
  Proof.
    intros Hd Hi. unfold swap_item. apply split_concat. rewrite map_map. rewrite <- (split_lengths (dt_fields d) item Hd Hi) at 2. apply map_ext. intro p. unfold zlen. now rewrite rev_length.
  Qed.
  Lemma swap_length d item : dtype_ok d -> zlen item = itemsize d -> zlen (swap_item d item) = itemsize d.
  Proof.
    intros Hd Hi. rewrite <- Hi. rewrite <- (concat_split (dt_fields d) item Hd Hi) at 2. unfold swap_item. generalize (split_fields (dt_fields d) item) as l. induction l as [|p l IH]; [reflexivity|]. cbn [map concat]. rewrite !zlen_app, IH. unfold zlen. now rewrite rev_length.
  Qed.
  Lemma swap_swap d item : dtype_ok d -> zlen item = itemsize d -> swap_item d (swap_item d item) = item.
  Proof.
    intros Hd Hi. unfold swap_item at 1. rewrite split_swap by assumption. rewrite map_map, (map_ext _ (fun x => x)) by apply rev_involutive. rewrite map_id. now apply concat_split.
  Qed.
  (** the numbers of an item stored in byte order [e] *)
  Definition item_values (e : ord) (d : dtype) (item : list Z) : list Z := map (endian_value little e) (split_fields (dt_fields d) item).
  Lemma values_swap e e' d item : dtype_ok d -> zlen item = itemsize d -> valid_endian e = true -> valid_endian e' = true -> big_or_little little e <> big_or_little little e' -> item_values e d (swap_item d item) = item_values e' d item.
  Proof.
    intros Hd Hi Ve Ve' Hne. unfold item_values. rewrite split_swap by assumption. rewrite map_map. apply map_ext. intro p. unfold endian_value, big_or_little in *. destruct e, e', little; cbn in *; try discriminate; try (contradiction Hne; reflexivity); rewrite ?rev_involutive; reflexivity.
  Qed.
  Lemma view_len content off isize n : 0 <= off -> 0 <= isize -> off + isize * n <= zlen content -> Forall (fun item => zlen item = isize) (view content off isize n).
  Proof.
    intros Ho Hi Hn. apply Forall_forall. intros item Hin. unfold view in Hin. apply in_map_iff in Hin. destruct Hin as (k & <- & Hk). apply In_zseq in Hk. unfold zlen in *. unfold zslice. rewrite firstn_length, skipn_length. nia.
  Qed.
  (** dtypes for which the byte order of the file is handled: all but structured ones *)
  Definition plain (d : dtype) : Prop := dtype_ok d /\ (dt_order d <> NA \/ Forall (fun x => x <= 1) (dt_fields d)).
  Lemma values_bytes e e' d item : Forall (fun x => x <= 1) (dt_fields d) -> item_values e d item = item_values e' d item.
  Proof.
    intros H. unfold item_values. apply map_ext_in. intros p Hp. assert (length p <= 1)%nat as Hl.
    { revert item Hp H. generalize (dt_fields d) as fs. induction fs as [|n fs IH]; intros item Hp H; [contradiction|]. apply Forall_cons_iff in H. destruct H as [Hn H]. cbn [split_fields] in Hp. destruct Hp as [<-|Hp]; [rewrite firstn_length; lia | now apply (IH (skipn (Z.to_nat n) item))]. }
    unfold endian_value. assert (rev p = p) as -> by (destruct p as [|x [|y p]]; [reflexivity | reflexivity | cbn in Hl; lia]). destruct (big_or_little little e), (big_or_little little e'); reflexivity.
  Qed.
  Section Block.
    Variables (content : list Z) (b : block).
    Definition readable : Prop := content <> [] /\ 0 <= b_off b /\ b_off b + b_nbytes b <= zlen content /\ Forall (fun s => 0 <= s) (b_shape b) /\ (dt_order (b_dtype b) <> NA -> valid_endian (b_endian b) = true).
    Definition stored : list (list Z) := view content (b_off b) (itemsize (b_dtype b)) (b_size b).
    Definition swapped : bool := match need_byteswap little (b_endian b) (b_dtype b) with Ok s => s | Err _ => false end.
    Lemma getitem_ok : readable -> getitem little content b None = Ok (if swapped then map (swap_item (b_dtype b)) stored else stored).
    Proof.
      intros (H1 & H2 & H3 & H4 & H5). unfold getitem, swapped. assert (zlen content <> 0) by (intro E; apply zlen_0_nil in E; contradiction). replace (negb (zlen content =? 0)) with true by lia. replace (0 <=? b_off b) with true by lia. replace (b_off b + b_nbytes b <=? zlen content) with true by lia. cbn [check bind].
      replace (forallb (fun s => 0 <=? s) (b_shape b)) with true by (symmetry; apply forallb_forall; rewrite Forall_forall in H4; intros s Hs; specialize (H4 s Hs); lia). cbn [check bind]. cbv zeta. fold stored. unfold need_byteswap. destruct (ord_eqb (dt_order (b_dtype b)) NA) eqn:En; [reflexivity|].
      rewrite H5 by (intro E; rewrite E in En; discriminate). reflexivity.
    Qed.
    Lemma getitem_key idx items : getitem little content b None = Ok items -> getitem little content b (Some idx) = np_take items idx.
    Proof.
      unfold getitem. destruct (check (negb (zlen content =? 0)) EValue); [|discriminate]. destruct (check (0 <=? b_off b) EIO); [|discriminate]. destruct (check (b_off b + b_nbytes b <=? zlen content) EIO); [|discriminate]. destruct (check _ EValue); [|discriminate]. cbn [bind]. cbv zeta. fold stored. destruct (need_byteswap _ _ _) as [s|]; [|discriminate]. cbn [bind]. intro E. injection E as <-.
      destruct s; [|destruct (np_take stored idx); reflexivity]. unfold np_take. induction idx as [|i idx IH]; [reflexivity|]. cbn [mapM]. rewrite <- IH. assert (py_nth (map (swap_item (b_dtype b)) stored) i = do x <- py_nth stored i; Ok (swap_item (b_dtype b) x)) as ->.
      { unfold py_nth. rewrite zlen_map. destruct (orb _ _); [reflexivity|]. rewrite nth_error_map. destruct (nth_error stored _); reflexivity. }
      destruct (py_nth stored i); [|reflexivity]. cbn [bind]. destruct (mapM (py_nth stored) idx); reflexivity.
    Qed.
    Lemma getitem_iff items : getitem little content b None = Ok items -> readable.
    Proof.
      unfold getitem, readable. destruct (Z.eqb_spec (zlen content) 0) as [|Hc]; [discriminate|]. destruct (Z.leb_spec 0 (b_off b)); [|discriminate]. destruct (Z.leb_spec (b_off b + b_nbytes b) (zlen content)); [|discriminate]. cbn [check bind negb]. destruct (forallb _ _) eqn:F; [|discriminate]. cbn [check bind]. intro E.
      split; [intros ->; apply Hc; reflexivity|]. split; [assumption|]. split; [assumption|]. split; [apply Forall_forall; intros s Hs; rewrite forallb_forall in F; specialize (F s Hs); lia|].
      intro Hn. unfold need_byteswap in E. destruct (ord_eqb (dt_order (b_dtype b)) NA) eqn:En; [destruct (dt_order (b_dtype b)); try discriminate; contradiction|]. destruct (valid_endian (b_endian b)); [reflexivity | discriminate].
    Qed.
    Lemma getitem_past key : content <> [] -> 0 <= b_off b -> zlen content < b_off b + b_nbytes b -> getitem little content b key = Err EIO.
    Proof.
      intros H1 H2 H3. unfold getitem. assert (zlen content <> 0) by (intro E; apply zlen_0_nil in E; contradiction). replace (negb (zlen content =? 0)) with true by lia. replace (0 <=? b_off b) with true by lia. replace (b_off b + b_nbytes b <=? zlen content) with false by lia. reflexivity.
    Qed.
    Hypothesis Hd : dtype_ok (b_dtype b).
    Lemma isize_nonneg : 0 <= itemsize (b_dtype b). Proof. now apply sumZ_nonneg'. Qed.
    Lemma stored_len : readable -> Forall (fun item => zlen item = itemsize (b_dtype b)) stored.
    Proof. intros (_ & H2 & H3 & _ & _). apply view_len; [assumption | apply isize_nonneg | exact H3]. Qed.
    Lemma size_nonneg : readable -> 0 <= b_size b.
    Proof. intros (_ & _ & _ & H4 & _). unfold b_size. apply prod_nonneg; [assumption | lia]. Qed.
    (** item k is in the bytes [off + k * itemsize, off + (k + 1) * itemsize), and all bytes of the block are used *)
    Lemma stored_concat : readable -> concat stored = zslice content (b_off b) (b_off b + b_nbytes b).
    Proof.
      intro R. pose proof (size_nonneg R) as Hs. pose proof isize_nonneg as Hi. destruct R as (_ & H2 & H3 & _ & _). unfold stored, view, b_nbytes in *. set (isz := itemsize (b_dtype b)) in *. clearbody isz. set (n := b_size b) in *.
      replace n with (Z.of_nat (Z.to_nat n)) by lia. assert (Z.of_nat (Z.to_nat n) <= n) as Hle by lia. revert Hle. rewrite Nat2Z.id. induction (Z.to_nat n) as [|m IH]; intro Hle.
      - cbn [zseq map concat]. rewrite Z.mul_0_r, Z.add_0_r. symmetry. apply zslice_empty. lia.
      - replace (S m) with (m + 1)%nat by lia. rewrite zseq_app, map_app, concat_app, IH by lia. cbn [zseq map concat]. rewrite app_nil_r, Z.add_0_l. rewrite (zslice_split content (b_off b) (b_off b + isz * Z.of_nat m) (b_off b + isz * Z.of_nat (m + 1))) by nia. f_equal. f_equal; nia.
    Qed.
    Lemma getitem_values : plain (b_dtype b) -> readable -> valid_endian (b_endian b) = true -> exists items, getitem little content b None = Ok items /\ length items = Z.to_nat (b_size b) /\
      map (item_values (mem_endian little (b_dtype b)) (b_dtype b)) items = map (item_values (b_endian b) (b_dtype b)) stored.
    Proof.
      intros [_ Hp] R Hv. eexists. split; [now apply getitem_ok|]. assert (length stored = Z.to_nat (b_size b)) as Hlen by (unfold stored, view; now rewrite map_length, zseq_length). split; [destruct swapped; rewrite ?map_length; exact Hlen|].
      pose proof (stored_len R) as Hl. rewrite Forall_forall in Hl. unfold swapped, need_byteswap. destruct Hp as [Hp|Hp].
      - destruct (ord_eqb (dt_order (b_dtype b)) NA) eqn:En; [destruct (dt_order (b_dtype b)); try discriminate; contradiction|]. rewrite Hv. cbn [negb].
        assert (mem_endian little (b_dtype b) = big_or_little little (dt_order (b_dtype b))) as Em by (unfold mem_endian; destruct (dt_order (b_dtype b)); try discriminate; reflexivity).
        destruct (ord_eqb (big_or_little little (dt_order (b_dtype b))) (big_or_little little (b_endian b))) eqn:Eo; cbn [negb].
        + apply map_ext_in. intros item _. unfold item_values. apply map_ext. intro p. unfold endian_value. rewrite Em. destruct (dt_order (b_dtype b)), (b_endian b), little; try discriminate; reflexivity.
        + rewrite map_map. apply map_ext_in. intros item Hin. apply values_swap; [exact Hd | now apply Hl | rewrite Em; destruct (dt_order (b_dtype b)), little; try discriminate; reflexivity | exact Hv|]. rewrite Em. destruct (dt_order (b_dtype b)), (b_endian b), little; try discriminate; cbn in *; discriminate.
      - destruct (if ord_eqb (dt_order (b_dtype b)) NA then _ else _) as [s|]; [|apply map_ext_in; intros item _; now apply values_bytes]. destruct s; [|apply map_ext_in; intros item _; now apply values_bytes].
        rewrite map_map. apply map_ext_in. intros item Hin. unfold item_values at 1. rewrite split_swap by (try assumption; now apply Hl). rewrite map_map. unfold item_values. apply map_ext_in. intros p Hpin.
        assert (rev p = p) as ->. { assert (length p <= 1)%nat as Hlp. { revert item Hin Hpin Hp. clear. generalize (dt_fields (b_dtype b)) as fs. intros fs item _. revert item. induction fs as [|n fs IH]; intros item Hp H; [contradiction|]. apply Forall_cons_iff in H. destruct H as [Hn H]. cbn [split_fields] in Hp. destruct Hp as [<-|Hp]; [rewrite firstn_length; lia | now apply (IH (skipn (Z.to_nat n) item))]. } destruct p as [|x [|y p]]; [reflexivity | reflexivity | cbn in Hlp; lia]. }
        pose proof (values_bytes (mem_endian little (b_dtype b)) (b_endian b) {| dt_order := NA; dt_fields := [zlen p] |} p) as Hv1. unfold item_values in Hv1. cbn [dt_fields split_fields map] in Hv1. assert (zlen p <= 1) as Hz. { clear -Hpin Hp. revert item Hpin Hp. generalize (dt_fields (b_dtype b)) as fs. induction fs as [|n fs IH]; intros item Hp H; [contradiction|]. apply Forall_cons_iff in H. destruct H as [Hn H]. cbn [split_fields] in Hp. destruct Hp as [<-|Hp]; [unfold zlen; rewrite firstn_length; lia | now apply (IH (skipn (Z.to_nat n) item))]. }
        specialize (Hv1 ltac:(constructor; [exact Hz | constructor])). unfold zlen in Hv1. rewrite Nat2Z.id, firstn_all in Hv1. now injection Hv1.
    Qed.
  End Block.
End Reading.
