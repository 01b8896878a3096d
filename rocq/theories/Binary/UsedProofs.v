(** all_bytes_used, hash and write_binary. *)
From Verif.Base Require Import Prelude ListLemmas Order.
From Verif.Binary Require Import BinModel NameProofs LayoutProofs EndianProofs.
From Coq Require Import ZifyBool ZifyNat Permutation.
Local Open Scope Z_scope.

(** *** all_bytes_used *)
Lemma chain_iff : forall l b, forallb (fun p : Z * Z => fst p =? snd p) (combine (tl (map b_off (b :: l))) (zipwith Z.add (removelast (map b_off (b :: l))) (removelast (map b_nbytes (b :: l))))) = true
  <-> back_to_back l (b_off b + b_nbytes b) (b_off b + sumZ (map b_nbytes (b :: l))).
Proof.
  induction l as [|b' l IH]; intro b.
  - cbn. split; [intros _; lia | reflexivity].
  - specialize (IH b'). change (removelast (map b_off (b :: b' :: l))) with (b_off b :: removelast (map b_off (b' :: l))). change (removelast (map b_nbytes (b :: b' :: l))) with (b_nbytes b :: removelast (map b_nbytes (b' :: l))).
    cbn [map tl zipwith combine forallb fst snd] in *. rewrite andb_true_iff, Z.eqb_eq, btb_cons. cbn [sumZ] in *. split; intros [H1 H2].
    + split; [exact H1|]. apply IH in H2. rewrite <- H1. replace (b_off b + (b_nbytes b + (b_nbytes b' + sumZ (map b_nbytes l)))) with (b_off b' + (b_nbytes b' + sumZ (map b_nbytes l))) by lia. exact H2.
    + split; [exact H1|]. apply IH. rewrite <- H1 in H2. replace (b_off b + (b_nbytes b + (b_nbytes b' + sumZ (map b_nbytes l)))) with (b_off b' + (b_nbytes b' + sumZ (map b_nbytes l))) in H2 by lia. exact H2.
Qed.
Lemma btb_sum : forall l s e, back_to_back l s e -> e = s + sumZ (map b_nbytes l).
Proof. induction l as [|b l IH]; intros s e H; [unfold back_to_back in H; cbn; lia|]. apply btb_cons in H. destruct H as [_ H]. apply IH in H. cbn [map sumZ]. lia. Qed.
Lemma used_iff content f : all_bytes_used content f = true <-> back_to_back (sorted_blocks f) 0 (zlen content).
Proof.
  unfold all_bytes_used. cbv zeta. destruct (sorted_blocks f) as [|b l].
  - cbn [map sumZ]. unfold back_to_back. change (zlen (@nil block)) with 0. cbn. destruct (Z.eqb_spec (zlen content) 0); cbn; split; intro; try lia; discriminate.
  - pose proof (chain_iff l b) as C. assert (forall e, back_to_back (b :: l) 0 e <-> b_off b = 0 /\ back_to_back l (b_off b + b_nbytes b) e) as Hb. { intro e. rewrite btb_cons. split; intros [H1 H2]; (split; [exact H1|]); rewrite H1 in *; exact H2. }
    rewrite Hb. replace (0 <? zlen (b :: l)) with true by (rewrite zlen_cons; unfold zlen; lia). cbn [andb]. change (hd 0 (map b_off (b :: l))) with (b_off b). destruct (Z.eqb_spec (b_off b) 0) as [E|E]; cbn [negb]; [|split; [discriminate | intros [? _]; contradiction]].
    assert (forall x, forallb (fun p : Z * Z => fst p =? snd p) x = true -> (1 <? zlen (b :: l)) && negb (forallb (fun p : Z * Z => fst p =? snd p) x) = false) as Hf by (intros x ->; now rewrite andb_false_r).
    split.
    + destruct (_ && negb (forallb _ _)) eqn:Eq; [discriminate|]. destruct (Z.eqb_spec (zlen content) (sumZ (map b_nbytes (b :: l)))) as [En|En]; [|discriminate]. intros _. split; [exact E|]. rewrite En. replace (sumZ (map b_nbytes (b :: l))) with (b_off b + sumZ (map b_nbytes (b :: l))) by lia. apply C.
      apply andb_false_iff in Eq. destruct Eq as [Eq|Eq]; [|now apply negb_false_iff in Eq]. rewrite zlen_cons in Eq. assert (l = []) as ->; [|reflexivity]. apply zlen_0_nil. unfold zlen in *. lia.
    + intros [_ H2]. pose proof (btb_sum _ _ _ H2) as Hs. assert (zlen content = sumZ (map b_nbytes (b :: l))) as En by (cbn [map sumZ]; lia). rewrite Hf; [rewrite En, Z.eqb_refl; reflexivity|]. apply C. rewrite En in H2. replace (b_off b + sumZ (map b_nbytes (b :: l))) with (sumZ (map b_nbytes (b :: l))) by lia. exact H2.
Qed.
Lemma btb_order : forall l s e, Forall (fun b => 0 <= b_nbytes b) l -> back_to_back l s e -> in_order l s e.
Proof. induction l as [|b l IH]; intros s e H Hb; [unfold back_to_back in Hb; cbn; lia|]. apply Forall_cons_iff in H. destruct H as [Hn H]. apply btb_cons in Hb. destruct Hb as [H1 H2]. cbn [in_order]. split; [lia|]. split; [exact Hn|]. rewrite H1. now apply IH. Qed.
Lemma order_range : forall l s e b, in_order l s e -> In b l -> s <= b_off b /\ 0 <= b_nbytes b /\ b_off b + b_nbytes b <= e.
Proof.
  assert (forall l s e, in_order l s e -> s <= e) as Hle. { induction l as [|b l IH]; intros s e H; cbn [in_order] in H; [exact H|]. destruct H as (H1 & H2 & H3). apply IH in H3. lia. }
  induction l as [|b0 l IH]; intros s e b H Hin; [contradiction|]. cbn [in_order] in H. destruct H as (H1 & H2 & H3). destruct Hin as [->|Hin]; [apply Hle in H3; lia|]. destruct (IH _ _ _ H3 Hin) as (J1 & J2 & J3). lia.
Qed.
Definition covers (k : Z) (b : block) : bool := (b_off b <=? k) && (k <? b_off b + b_nbytes b).
Lemma covered_once : forall l s e k, Forall (fun b => 0 <= b_nbytes b) l -> back_to_back l s e -> length (filter (covers k) l) = if (s <=? k) && (k <? e) then 1%nat else 0%nat.
Proof.
  induction l as [|b l IH]; intros s e k H Hb; [unfold back_to_back in Hb; subst e; cbn; destruct (s <=? k) eqn:E1, (k <? s) eqn:E2; try reflexivity; lia|]. apply Forall_cons_iff in H. destruct H as [Hn H]. apply btb_cons in Hb. destruct Hb as [H1 H2]. cbn [filter]. unfold covers at 1.
  pose proof (IH _ _ k H H2) as Hi. pose proof (btb_sum _ _ _ H2) as Hs. assert (0 <= sumZ (map b_nbytes l)) as Hp by (apply sumZ_nonneg'; apply Forall_map; exact H). rewrite H1. destruct ((s <=? k) && (k <? s + b_nbytes b)) eqn:E; cbn [length]; rewrite Hi.
  - replace ((s + b_nbytes b <=? k) && (k <? e)) with false by lia. replace ((s <=? k) && (k <? e)) with true by lia. reflexivity.
  - destruct ((s + b_nbytes b <=? k) && (k <? e)) eqn:E2, ((s <=? k) && (k <? e)) eqn:E3; try reflexivity; lia.
Qed.
Lemma filter_perm_length {A} (p : A -> bool) l l' : Permutation l l' -> length (filter p l) = length (filter p l').
Proof. induction 1 as [|x l l' _ IH|x y l|l l1 l2 _ IH1 _ IH2]; cbn; [reflexivity | destruct (p x); cbn; congruence | destruct (p x), (p y); reflexivity | congruence]. Qed.
Lemma sorted_perm f : Permutation (sorted_blocks f) (f_blocks f). Proof. apply sort_by_perm. Qed.
Lemma sorted_Forall (P : block -> Prop) f : Forall P (f_blocks f) -> Forall P (sorted_blocks f).
Proof. rewrite !Forall_forall. intros H b Hb. apply H. apply (Permutation_in _ (sorted_perm f)). exact Hb. Qed.
Lemma used_once content f : Forall (fun b => 0 <= b_nbytes b) (f_blocks f) -> all_bytes_used content f = true ->
  (forall k, 0 <= k < zlen content -> length (filter (covers k) (f_blocks f)) = 1%nat) /\ (forall b, In b (f_blocks f) -> 0 <= b_off b /\ b_off b + b_nbytes b <= zlen content).
Proof.
  intros Hn H. apply used_iff in H. pose proof (sorted_Forall _ f Hn) as Hn'. split.
  - intros k Hk. rewrite <- (filter_perm_length _ _ _ (sorted_perm f)). rewrite (covered_once _ _ _ k Hn' H). replace ((0 <=? k) && (k <? zlen content)) with true by lia. reflexivity.
  - intros b Hb. apply (Permutation_in _ (Permutation_sym (sorted_perm f))) in Hb. destruct (order_range _ _ _ b (btb_order _ _ _ Hn' H) Hb) as (? & ? & ?). lia.
Qed.
Lemma sort_in_order : forall l s e, in_order l s e -> sort_by ZOrd b_off l = l.
Proof.
  induction l as [|b l IH]; intros s e H; [reflexivity|]. cbn [in_order] in H. destruct H as (H1 & H2 & H3). cbn [sort_by]. rewrite (IH _ _ H3). destruct l as [|b' l]; [reflexivity|]. cbn [insert_by]. cbn [in_order] in H3. destruct H3 as (J1 & _ & _). replace (leb ZOrd (b_off b) (b_off b')) with true by (cbn; lia). reflexivity.
Qed.
Lemma used_in_sequence content f : Forall (fun b => 0 <= b_nbytes b) (f_blocks f) -> back_to_back (f_blocks f) 0 (zlen content) -> all_bytes_used content f = true.
Proof. intros Hn H. apply used_iff. unfold sorted_blocks. rewrite (sort_in_order _ 0 (zlen content)); [exact H | now apply btb_order]. Qed.

(** *** the hash *)
Section Hash.
  Variable little : bool.
  Definition le_image (content : list Z) (b : block) : list Z :=
    concat (if ord_eqb (big_or_little little (b_endian b)) LE then stored content b else map (swap_item (b_dtype b)) (stored content b)).
  Lemma readable_used content f b : Forall (fun b => Forall (fun s => 0 <= s) (b_shape b) /\ dtype_ok (b_dtype b) /\ valid_endian (b_endian b) = true) (f_blocks f) -> content <> [] -> all_bytes_used content f = true -> In b (f_blocks f) -> readable content b.
  Proof.
    intros Hb Hc Hu Hin. assert (Forall (fun b => 0 <= b_nbytes b) (f_blocks f)) as Hn. { apply Forall_forall. intros b0 H0. rewrite Forall_forall in Hb. destruct (Hb b0 H0) as (J1 & J2 & _). destruct b0. now apply nbytes_nonneg. }
    destruct (used_once content f Hn Hu) as [_ Hr]. specialize (Hr b Hin). rewrite Forall_forall in Hb. destruct (Hb b Hin) as (J1 & J2 & J3). split; [exact Hc|]. split; [apply Hr|]. split; [apply Hr|]. split; [exact J1|]. intros _. exact J3.
  Qed.
  Lemma to_le content b : plain (b_dtype b) -> readable content b -> valid_endian (b_endian b) = true ->
    exists data, getitem little content b None = Ok data /\ concat (map (to_order little LE (b_dtype b)) data) = le_image content b.
  Proof.
    intros [Hd Hp] R Hv. eexists. split; [now apply getitem_ok|]. unfold le_image. f_equal. pose proof (stored_len content b Hd R) as Hl. rewrite Forall_forall in Hl.
    assert (map (swap_item (b_dtype b)) (map (swap_item (b_dtype b)) (stored content b)) = stored content b) as Hss. { rewrite map_map. rewrite <- map_id. apply map_ext_in. intros x Hx. apply swap_swap; [exact Hd | now apply Hl]. }
    assert (forall l, map (to_order little LE (b_dtype b)) l = if ord_eqb (mem_endian little (b_dtype b)) LE then l else map (swap_item (b_dtype b)) l) as Ht. { intro l. unfold to_order. change (big_or_little little LE) with LE. destruct (ord_eqb (mem_endian little (b_dtype b)) LE); [apply map_id | reflexivity]. }
    rewrite Ht. destruct Hp as [Hp|Hp].
    - unfold swapped, need_byteswap, mem_endian. rewrite Hv. destruct (dt_order (b_dtype b)); try contradiction; cbn [ord_eqb negb]; destruct (b_endian b), little; try discriminate; cbn in *; rewrite ?Hss; reflexivity.
    - assert (map (swap_item (b_dtype b)) (stored content b) = stored content b) as Hid. { rewrite <- map_id. apply map_ext_in. intros x Hx. apply swap_bytes; [exact Hd | exact Hp | now apply Hl]. }
      rewrite !Hid. destruct (swapped little b); rewrite ?Hid; repeat (match goal with |- context [if ?c then _ else _] => destruct c end); rewrite ?Hid; reflexivity.
  Qed.
  Definition proper (b : block) : Prop := Forall (fun s => 0 <= s) (b_shape b) /\ plain (b_dtype b) /\ valid_endian (b_endian b) = true.
  Lemma proper_weak f : Forall proper (f_blocks f) -> Forall (fun b => Forall (fun s => 0 <= s) (b_shape b) /\ dtype_ok (b_dtype b) /\ valid_endian (b_endian b) = true) (f_blocks f).
  Proof. apply Forall_impl. intros b (H1 & [H2 _] & H3). auto. Qed.
  Lemma hash_image content f : Forall proper (f_blocks f) -> content <> [] ->
    hash_stream little content f = if all_bytes_used content f then Ok (concat (map (le_image content) (sorted_blocks f))) else Err EIO.
  Proof.
    intros Hb Hc. unfold hash_stream. destruct (all_bytes_used content f) eqn:Hu; [|reflexivity]. cbn [check bind]. rewrite (mapM_map_ok _ (le_image content)); [reflexivity|]. intros b Hin. apply (Permutation_in _ (sorted_perm f)) in Hin. pose proof Hb as Hb'. rewrite Forall_forall in Hb'. destruct (Hb' b Hin) as (J1 & J2 & J3).
    destruct (to_le content b J2 (readable_used content f b (proper_weak f Hb) Hc Hu Hin) J3) as (data & -> & E). cbn [bind]. now rewrite E.
  Qed.
  Lemma btb_cover content : forall l s, 0 <= s -> s <= zlen content -> Forall (fun b => dtype_ok (b_dtype b) /\ Forall (fun s => 0 <= s) (b_shape b) /\ 0 <= b_nbytes b) l -> content <> [] -> Forall (fun b => dt_order (b_dtype b) <> NA -> valid_endian (b_endian b) = true) l ->
    back_to_back l s (zlen content) -> concat (map (fun b => concat (stored content b)) l) = zslice content s (zlen content).
  Proof.
    induction l as [|b l IH]; intros s H0 Hs Hl Hc Hv H; cbn [map concat].
    - unfold back_to_back in H. symmetry. apply zslice_empty. lia.
    - apply Forall_cons_iff in Hl. destruct Hl as [(J1 & J2 & J3) Hl]. apply Forall_cons_iff in Hv. destruct Hv as [Hv1 Hv]. apply btb_cons in H. destruct H as [H1 H2]. pose proof (btb_sum _ _ _ H2) as Hsum. assert (0 <= sumZ (map b_nbytes l)) as Hp by (apply sumZ_nonneg'; apply Forall_map; eapply Forall_impl; [|exact Hl]; intros a Ha; apply Ha).
      rewrite (IH (s + b_nbytes b)); [|lia|lia|exact Hl|exact Hc|exact Hv|exact H2]. rewrite (stored_concat content b J1); [|split; [exact Hc|]; split; [lia|]; split; [lia|]; split; [exact J2 | exact Hv1]]. rewrite H1. symmetry. apply zslice_split; lia.
  Qed.
  Lemma hash_little content f : Forall proper (f_blocks f) -> content <> [] -> all_bytes_used content f = true -> Forall (fun b => big_or_little little (b_endian b) = LE) (f_blocks f) -> hash_stream little content f = Ok content.
  Proof.
    intros Hb Hc Hu Hle. rewrite hash_image by assumption. rewrite Hu. f_equal. rewrite <- (zslice_all content 0 (zlen content)) at 2 by lia. rewrite <- (btb_cover content (sorted_blocks f) 0); [| lia | unfold zlen; lia | | exact Hc | | now apply used_iff].
    - f_equal. apply map_ext_in. intros b Hin. apply (Permutation_in _ (sorted_perm f)) in Hin. rewrite Forall_forall in Hle. unfold le_image. rewrite (Hle b Hin). reflexivity.
    - apply sorted_Forall. eapply Forall_impl; [|exact Hb]. intros [d o sh en] (J1 & [J2 _] & J3). split; [exact J2|]. split; [exact J1|]. now apply nbytes_nonneg.
    - apply sorted_Forall. eapply Forall_impl; [|exact Hb]. intros b (_ & _ & J) _. exact J.
  Qed.
  Lemma insert_by_map (g : block -> block) (Hg : forall b, b_off (g b) = b_off b) x l : insert_by ZOrd b_off (g x) (map g l) = map g (insert_by ZOrd b_off x l).
  Proof. induction l as [|y l IH]; [reflexivity|]. cbn [insert_by map]. rewrite !Hg. destruct (leb ZOrd (b_off x) (b_off y)); [reflexivity|]. cbn [map]. now rewrite IH. Qed.
  Lemma sort_by_map (g : block -> block) (Hg : forall b, b_off (g b) = b_off b) l : sort_by ZOrd b_off (map g l) = map g (sort_by ZOrd b_off l).
  Proof. induction l as [|y l IH]; [reflexivity|]. cbn [sort_by map]. now rewrite IH, insert_by_map. Qed.
  Lemma hash_opposite content content' f f' bs e e' : f_blocks f = map (set_b_endian e) bs -> f_blocks f' = map (set_b_endian e') bs -> valid_endian e = true -> valid_endian e' = true -> big_or_little little e <> big_or_little little e' ->
    Forall (fun b => Forall (fun s => 0 <= s) (b_shape b) /\ plain (b_dtype b)) bs -> zlen content' = zlen content -> (forall b, In b bs -> stored content' b = map (swap_item (b_dtype b)) (stored content b)) ->
    hash_stream little content' f' = hash_stream little content f.
  Proof.
    intros Hf Hf' Ve Ve' Hne Hb Hlen Hst. unfold hash_stream. assert (sorted_blocks f = map (set_b_endian e) (sort_by ZOrd b_off bs)) as Es by (unfold sorted_blocks; rewrite Hf; apply sort_by_map; reflexivity). assert (sorted_blocks f' = map (set_b_endian e') (sort_by ZOrd b_off bs)) as Es' by (unfold sorted_blocks; rewrite Hf'; apply sort_by_map; reflexivity).
    assert (all_bytes_used content' f' = all_bytes_used content f) as Hu. { unfold all_bytes_used. rewrite Es, Es', Hlen. rewrite !map_map. unfold zlen at 1 2 4 5. rewrite !map_length. reflexivity. }
    rewrite Hu. destruct (all_bytes_used content f) eqn:Eu; [|reflexivity]. cbn [check bind]. f_equal. rewrite Es, Es'.
    assert (forall b, In b (sort_by ZOrd b_off bs) -> getitem little content' (set_b_endian e' b) None = getitem little content (set_b_endian e b) None) as Hg.
    { intros b Hin. apply (Permutation_in _ (sort_by_perm ZOrd b_off bs)) in Hin. destruct content as [|c0 content]; [change (zlen []) with 0 in Hlen; apply zlen_0_nil in Hlen; subst content'; reflexivity|]. assert (content' <> []) as Hc' by (intros ->; rewrite zlen_cons in Hlen; change (zlen (@nil Z)) with 0 in Hlen; unfold zlen in Hlen; lia).
      rewrite Forall_forall in Hb. assert (forall e0 f0, valid_endian e0 = true -> f_blocks f0 = map (set_b_endian e0) bs -> Forall (fun b => Forall (fun s => 0 <= s) (b_shape b) /\ dtype_ok (b_dtype b) /\ valid_endian (b_endian b) = true) (f_blocks f0)) as Hok. { intros e0 f0 V0 ->. apply Forall_forall. intros b0 H0. apply in_map_iff in H0. destruct H0 as (b1 & <- & H1). destruct (Hb b1 H1) as (J1 & J2 & _). auto. }
      apply getitem_opposite; try assumption; [apply (Hb b Hin) | apply (readable_used _ f); [now apply (Hok e) | discriminate | exact Eu | rewrite Hf; now apply in_map] | apply (readable_used _ f'); [now apply (Hok e') | exact Hc' | exact Hu | rewrite Hf'; now apply in_map] | now apply Hst]. }
    revert Hg. generalize (sort_by ZOrd b_off bs) as l. induction l as [|b l IH]; intro Hg; [reflexivity|]. cbn [map mapM]. rewrite (Hg b (or_introl eq_refl)). change (b_dtype (set_b_endian e' b)) with (b_dtype b). change (b_dtype (set_b_endian e b)) with (b_dtype b). rewrite IH; [reflexivity|]. intros b0 H0. apply Hg. now right.
  Qed.
End Hash.

(** *** write_binary *)
Section Write.
  Variable little : bool.
  Variable content : list Z.
  Variable endian : option ord.
  Hypothesis Hend : match endian with Some e => valid_endian e = true | None => True end.
  Definition out_items (b : block) : list (list Z) :=
    match getitem little content b None with
    | Ok data => match endian with None => data | Some e => map (to_order little e (b_dtype b)) data end
    | Err _ => []
    end.
  Definition out_bytes (b : block) : list Z := concat (out_items b).
  (** the bytes of the output from position [pos] *)
  Fixpoint image (l : list block) (pos : Z) : list Z :=
    match l with
    | [] => []
    | b :: l' => match out_bytes b with [] => image l' pos | _ => repeat 0 (Z.to_nat (b_off b - pos)) ++ out_bytes b ++ image l' (b_off b + b_nbytes b) end
    end.
  Lemma concat_len n : forall l : list (list Z), Forall (fun x => zlen x = n) l -> zlen (concat l) = n * zlen l.
  Proof. induction l as [|x l IH]; intro H; [unfold zlen; cbn; lia|]. apply Forall_cons_iff in H. destruct H as [H1 H2]. cbn [concat]. rewrite zlen_app, zlen_cons, IH by exact H2. lia. Qed.
  Lemma swap_all_len d l : dtype_ok d -> Forall (fun x => zlen x = itemsize d) l -> Forall (fun x => zlen x = itemsize d) (map (swap_item d) l).
  Proof. intros Hd H. apply Forall_map. eapply Forall_impl; [|exact H]. intros x Hx. now apply swap_length. Qed.
  Lemma items_len b data : dtype_ok (b_dtype b) -> getitem little content b None = Ok data -> Forall (fun x => zlen x = itemsize (b_dtype b)) data /\ zlen data = b_size b.
  Proof.
    intros Hd E. pose proof (getitem_iff little content b data E) as R. rewrite (getitem_ok little content b R) in E. injection E as <-. pose proof (stored_len content b Hd R) as Hl. pose proof (size_nonneg content b R) as Hs. assert (zlen (stored content b) = b_size b) as Hz by (unfold stored, view, zlen; rewrite map_length, zseq_length; lia).
    destruct (swapped little b); [rewrite zlen_map; split; [now apply swap_all_len | exact Hz] | split; assumption].
  Qed.
  Lemma out_items_len b : dtype_ok (b_dtype b) -> readable content b -> Forall (fun x => zlen x = itemsize (b_dtype b)) (out_items b) /\ zlen (out_items b) = b_size b.
  Proof.
    intros Hd R. unfold out_items. destruct (getitem little content b None) as [data|] eqn:E; [|rewrite (getitem_ok little content b R) in E; discriminate E]. destruct (items_len b data Hd E) as [H1 H2]. destruct endian as [e|]; [|split; assumption]. rewrite zlen_map. split; [|exact H2].
    apply Forall_map. eapply Forall_impl; [|exact H1]. intros x Hx. cbn beta. unfold to_order. destruct (ord_eqb _ _); [exact Hx | now apply swap_length].
  Qed.
  Lemma out_bytes_len b : dtype_ok (b_dtype b) -> readable content b -> zlen (out_bytes b) = b_nbytes b.
  Proof. intros Hd R. destruct (out_items_len b Hd R) as [H1 H2]. unfold out_bytes. rewrite (concat_len _ _ H1), H2. reflexivity. Qed.
  Lemma write_append buf off data : zlen buf <= off -> fwrite buf off data = match data with [] => buf | _ => buf ++ repeat 0 (Z.to_nat (off - zlen buf)) ++ data end.
  Proof.
    intro H. unfold fwrite. destruct data as [|x data]; [reflexivity|]. unfold write_at. assert (length (buf ++ repeat 0 (Z.to_nat (off - zlen buf))) = Z.to_nat off) as Hl by (rewrite app_length, repeat_length; unfold zlen in *; lia). rewrite <- Hl, firstn_all, skipn_all2 by lia. rewrite app_nil_r. now rewrite <- app_assoc.
  Qed.
  Lemma write_fold : forall l buf s e, in_order l s e -> zlen buf <= s -> Forall (fun b => dtype_ok (b_dtype b) /\ readable content b) l ->
    fold_left (fun acc b => do out <- acc; do data <- getitem little content b None; let data := match endian with None => data | Some e => map (to_order little e (b_dtype b)) data end in Ok (fwrite out (b_off b) (concat data))) l (Ok buf) = Ok (buf ++ image l (zlen buf)).
  Proof.
    induction l as [|b l IH]; intros buf s e H Hs Hr; [cbn; now rewrite app_nil_r|]. apply Forall_cons_iff in Hr. destruct Hr as [[Hd R] Hr]. cbn [in_order] in H. destruct H as (H1 & H2 & H3). cbn [fold_left bind image]. pose proof (out_bytes_len b Hd R) as Hlen. unfold out_bytes, out_items in *. rewrite (getitem_ok little content b R) in *. cbn [bind]. cbv zeta. set (data := match endian with None => _ | Some e0 => map _ _ end) in *. rewrite write_append by lia.
    destruct (concat data) as [|x dd] eqn:Ed.
    - apply (IH buf (b_off b + b_nbytes b) e); [exact H3 | lia | exact Hr].
    - set (buf2 := buf ++ repeat 0 (Z.to_nat (b_off b - zlen buf)) ++ x :: dd) in *. assert (zlen buf2 = b_off b + b_nbytes b) as Hb2. { unfold buf2. rewrite !zlen_app, Hlen. unfold zlen at 2. rewrite repeat_length. lia. }
      rewrite (IH buf2 (b_off b + b_nbytes b) e); [|exact H3 | lia | exact Hr]. rewrite Hb2. unfold buf2. now rewrite <- !app_assoc.
  Qed.
  Lemma image_slice : forall l s e pos b, in_order l s e -> 0 <= pos -> pos <= s -> Forall (fun b => dtype_ok (b_dtype b) /\ readable content b) l -> In b l -> 0 < b_nbytes b -> zslice (image l pos) (b_off b - pos) (b_off b - pos + b_nbytes b) = out_bytes b /\ b_off b - pos + b_nbytes b <= zlen (image l pos).
  Proof.
    induction l as [|b0 l IH]; intros s e pos b H Hp Hs Hr Hin Hn; [contradiction|]. apply Forall_cons_iff in Hr. destruct Hr as [[Hd R] Hr]. cbn [in_order] in H. destruct H as (H1 & H2 & H3). pose proof (out_bytes_len b0 Hd R) as Hlen. cbn [image]. destruct (out_bytes b0) as [|x dd] eqn:Ed.
    - destruct Hin as [->|Hin]; [unfold zlen in Hlen; cbn in Hlen; lia|]. apply (IH (b_off b0 + b_nbytes b0) e); try assumption; lia.
    - rewrite <- Ed in *. assert (zlen (repeat 0 (Z.to_nat (b_off b0 - pos))) = b_off b0 - pos) as Hz by (unfold zlen; rewrite repeat_length; lia). destruct Hin as [<-|Hin].
      + rewrite zslice_app, Hz, zslice_past by lia. cbn [app]. rewrite Z.sub_diag. replace (b_off b0 - pos + b_nbytes b0 - (b_off b0 - pos)) with (b_nbytes b0) by lia. rewrite zslice_app. rewrite (zslice_all (out_bytes b0)) by lia. rewrite zslice_neg by lia. rewrite app_nil_r. split; [reflexivity|]. rewrite !zlen_app, Hz, Hlen. unfold zlen. lia.
      + destruct (IH (b_off b0 + b_nbytes b0) e (b_off b0 + b_nbytes b0) b H3 ltac:(lia) ltac:(lia) Hr Hin Hn) as [J1 J2]. destruct (order_range _ _ _ _ H3 Hin) as (K1 & K2 & K3). rewrite zslice_app, Hz, zslice_past by lia. cbn [app]. rewrite zslice_app, Hlen, (zslice_past (out_bytes b0)) by lia. cbn [app]. split.
        * rewrite <- J1. f_equal; lia.
        * rewrite !zlen_app, Hz, Hlen. lia.
  Qed.
  Lemma image_gap : forall l s e pos k, in_order l s e -> 0 <= pos -> pos <= s -> Forall (fun b => dtype_ok (b_dtype b) /\ readable content b) l -> (forall b, In b l -> covers (pos + Z.of_nat k) b = false) -> nth k (image l pos) 0 = 0.
  Proof.
    induction l as [|b0 l IH]; intros s e pos k H Hp Hs Hr Hc; [destruct k; reflexivity|]. apply Forall_cons_iff in Hr. destruct Hr as [[Hd R] Hr]. cbn [in_order] in H. destruct H as (H1 & H2 & H3). pose proof (out_bytes_len b0 Hd R) as Hlen. cbn [image]. destruct (out_bytes b0) as [|x dd] eqn:Ed.
    - apply (IH (b_off b0 + b_nbytes b0) e); try assumption; [lia|]. intros b Hb. apply Hc. now right.
    - rewrite <- Ed in *. pose proof (Hc b0 (or_introl eq_refl)) as Hc0. unfold covers in Hc0. assert (length (repeat 0 (Z.to_nat (b_off b0 - pos))) = Z.to_nat (b_off b0 - pos)) as Hz by apply repeat_length. destruct (Nat.ltb_spec k (Z.to_nat (b_off b0 - pos))) as [Hk|Hk].
      + rewrite app_nth1 by lia. apply nth_repeat.
      + rewrite app_nth2 by lia. rewrite Hz. unfold zlen in Hlen. rewrite app_nth2 by lia. apply (IH (b_off b0 + b_nbytes b0) e); try assumption; try lia. intros b Hb. specialize (Hc b (or_intror Hb)). replace (b_off b0 + b_nbytes b0 + Z.of_nat (k - Z.to_nat (b_off b0 - pos) - length (out_bytes b0))) with (pos + Z.of_nat k) by lia. exact Hc.
  Qed.
  (** reading the output back *)
  Definition target (b : block) : ord := match endian with Some e => e | None => mem_endian little (b_dtype b) end.
  Lemma view_of_slice out b : 0 <= b_off b -> 0 <= itemsize (b_dtype b) -> 0 <= b_size b -> view out (b_off b) (itemsize (b_dtype b)) (b_size b) = view (zslice out (b_off b) (b_off b + b_nbytes b)) 0 (itemsize (b_dtype b)) (b_size b).
  Proof.
    intros H1 H2 H3. unfold view. apply map_ext_in. intros k Hk. apply In_zseq in Hk. rewrite zslice_zslice; [f_equal; lia | lia | nia | unfold b_nbytes; nia].
  Qed.
  Lemma view_concat n : 0 <= n -> forall (l : list (list Z)), Forall (fun x => zlen x = n) l -> view (concat l) 0 n (zlen l) = l.
  Proof.
    intros Hn l H. unfold view. unfold zlen at 1. rewrite Nat2Z.id. enough (forall k (l : list (list Z)), Forall (fun x => zlen x = n) l -> forall pre : list Z, zlen pre = n * k -> 0 <= k -> map (fun j => zslice (pre ++ concat l) (0 + n * j) (0 + n * (j + 1))) (zseq k (length l)) = l) as G by (apply (G 0 l H []); [unfold zlen; cbn; lia | lia]).
    clear l H. intros k l H. revert k. induction H as [|x l Hx Hl IH]; intros k pre Hp Hk; [reflexivity|]. cbn [length zseq map concat]. f_equal.
    - rewrite !Z.add_0_l. rewrite zslice_app, zslice_past by nia. rewrite Hp. cbn [app]. rewrite zslice_app, Hx. replace (n * k - n * k) with 0 by lia. replace (n * (k + 1) - n * k) with n by lia. rewrite zslice_all by lia. rewrite zslice_neg by lia. apply app_nil_r.
    - replace (Z.succ k) with (k + 1) by lia. rewrite app_assoc. apply (IH (k + 1) (pre ++ x)); [rewrite zlen_app; lia | lia].
  Qed.
  Lemma read_back l e b : in_order l 0 e -> Forall (fun b => dtype_ok (b_dtype b) /\ readable content b) l -> In b l -> 0 < b_nbytes b -> plain (b_dtype b) ->
    getitem little (image l 0) (set_b_endian (target b) b) None = getitem little content b None.
  Proof.
    intros Ho Hr Hin Hn [Hd Hp]. destruct (image_slice l 0 e 0 b Ho ltac:(lia) ltac:(lia) Hr Hin Hn) as [J1 J2]. rewrite Z.sub_0_r in *. rewrite Forall_forall in Hr. destruct (Hr b Hin) as [_ R]. assert (0 <= itemsize (b_dtype b)) as Hi by now apply sumZ_nonneg'. pose proof (size_nonneg content b R) as Hs. destruct (out_items_len b Hd R) as [L1 L2].
    assert (stored (image l 0) (set_b_endian (target b) b) = out_items b) as Hst. { unfold stored. cbn [set_b_endian b_off b_dtype b_shape b_size]. change (b_size (set_b_endian (target b) b)) with (b_size b). rewrite view_of_slice; [|apply R | exact Hi | exact Hs]. rewrite J1. unfold out_bytes. rewrite <- L2. now apply view_concat. }
    assert (valid_endian (target b) = true) as Vt. { unfold target. destruct endian as [e0|]; [exact Hend|]. unfold mem_endian, big_or_little. destruct (dt_order (b_dtype b)), little; reflexivity. }
    assert (readable (image l 0) (set_b_endian (target b) b)) as R'. { split; [intro E; rewrite E in J2; unfold zlen in J2; cbn in J2; destruct R as (_ & R2 & _); lia|]. split; [apply R|]. split; [exact J2|]. split; [apply R | intros _; exact Vt]. }
    rewrite (getitem_ok little _ _ R'). rewrite Hst. unfold out_items in *. destruct (getitem little content b None) as [data|] eqn:E; [|rewrite (getitem_ok little content b R) in E; discriminate E]. f_equal. change (b_dtype (set_b_endian (target b) b)) with (b_dtype b).
    assert (map (swap_item (b_dtype b)) (map (swap_item (b_dtype b)) data) = data) as Hss. { rewrite map_map. rewrite <- map_id. apply map_ext_in. intros x Hx. destruct (items_len b data Hd E) as [H1 _]. rewrite Forall_forall in H1. apply swap_swap; [exact Hd | now apply H1]. }
    assert (forall e0, map (to_order little e0 (b_dtype b)) data = if ord_eqb (mem_endian little (b_dtype b)) (big_or_little little e0) then data else map (swap_item (b_dtype b)) data) as Ht. { intro e0. unfold to_order. destruct (ord_eqb _ _); [apply map_id | reflexivity]. }
    destruct Hp as [Hp|Hp].
    - unfold swapped, need_byteswap. change (b_dtype (set_b_endian (target b) b)) with (b_dtype b). cbn [b_endian set_b_endian]. rewrite Vt. unfold target in *. destruct endian as [e0|]; rewrite ?Ht; unfold mem_endian in *; destruct (dt_order (b_dtype b)); try contradiction; cbn [ord_eqb negb]; [destruct e0, little | destruct e0, little | destruct e0, little | destruct little | destruct little | destruct little]; try discriminate; cbn in *; rewrite ?Hss; reflexivity.
    - assert (map (swap_item (b_dtype b)) data = data) as Hid. { rewrite <- map_id. apply map_ext_in. intros x Hx. destruct (items_len b data Hd E) as [H1 _]. rewrite Forall_forall in H1. apply swap_bytes; [exact Hd | exact Hp | now apply H1]. }
      destruct endian as [e0|]; rewrite ?Ht, ?Hid; repeat (match goal with |- context [if ?c then _ else _] => destruct c end); rewrite ?Hid; reflexivity.
  Qed.
  Lemma write_spec f e : in_order (sorted_blocks f) 0 e -> Forall (fun b => dtype_ok (b_dtype b) /\ readable content b) (f_blocks f) ->
    exists out, write_binary little content true endian f = Ok out /\
      (forall b, In b (f_blocks f) -> plain (b_dtype b) -> 0 < b_nbytes b -> getitem little out (set_b_endian (target b) b) None = getitem little content b None) /\
      (forall k, (forall b, In b (f_blocks f) -> covers (Z.of_nat k) b = false) -> nth k out 0 = 0).
  Proof.
    intros Ho Hr. pose proof (sorted_Forall _ f Hr) as Hr'. exists (image (sorted_blocks f) 0). split; [|split].
    - apply (write_fold (sorted_blocks f) [] 0 e); [exact Ho | unfold zlen; cbn; lia | exact Hr'].
    - intros b Hin Hp Hn. apply (read_back (sorted_blocks f) e); try assumption. apply (Permutation_in _ (Permutation_sym (sorted_perm f))). exact Hin.
    - intros k Hk. apply (image_gap (sorted_blocks f) 0 e 0 k); try assumption; try lia. intros b Hb. apply Hk. apply (Permutation_in _ (sorted_perm f)). exact Hb.
  Qed.
  Lemma write_default f : write_binary little content false endian f = Err EValue. Proof. reflexivity. Qed.
End Write.
