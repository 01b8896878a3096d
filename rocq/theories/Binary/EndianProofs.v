(** Byte order of the file and of its blocks. *)
From Verif.Base Require Import Prelude ListLemmas Order.
From Verif.Binary Require Import BinModel NameProofs LayoutProofs.
From Coq Require Import ZifyBool ZifyNat.
Local Open Scope Z_scope.

(** *** no name is both a dataset and a group *)
Fixpoint wfn (n : nat) (g : group) : Prop :=
  match n, g with
  | O, _ => True
  | S n', Group _ dsets groups => (forall k v, get k dsets = Some v -> get k groups = None) /\ forall k sub, get k groups = Some sub -> wfn n' sub
  end.
Definition wf (g : group) : Prop := forall n, wfn n g.
Lemma wf_empty : wf empty_group. Proof. intros [|n]; [exact I|]. split; discriminate. Qed.
Lemma wf_inv a d g : wf (Group a d g) -> (forall k v, get k d = Some v -> get k g = None) /\ forall k sub, get k g = Some sub -> wf sub.
Proof. intro H. split; [apply (H 1%nat)|]. intros k sub E n. exact (proj2 (H (S n)) k sub E). Qed.
Lemma wf_intro a d g : (forall k v, get k d = Some v -> get k g = None) -> (forall k sub, get k g = Some sub -> wf sub) -> wf (Group a d g).
Proof. intros H1 H2 [|n]; [exact I|]. split; [exact H1|]. intros k sub E. now apply (H2 k). Qed.
Lemma add_wf fuel : forall g name id is_attr, wf g -> wf (fst (add_block fuel g name id is_attr)).
Proof.
  induction fuel as [|fuel IH]; intros [attrs dsets groups] name id is_attr H; [exact H|]. destruct (wf_inv _ _ _ H) as [H1 H2]. cbn [add_block]. destruct (split_path name) as [[h|] t].
  - destruct (if is_attr then get h dsets else None) as [[did dattrs]|] eqn:Ed.
    + destruct (has t dattrs); [exact H|]. apply wf_intro; [|exact H2]. intros k v. rewrite get_put. destruct (str_eqb k h) eqn:Ek; [|apply H1]. intros _. apply str_eqb_eq in Ek. subst k. destruct is_attr; [|discriminate]. now apply (H1 h (did, dattrs)).
    + assert (forall sub, wf sub -> get h dsets = None -> wf (fst (let (sub', r) := add_block fuel sub t id is_attr in (Group attrs dsets (put h sub' groups), r)))) as Hput.
      { intros sub Hs Hn. specialize (IH sub t id is_attr Hs). destruct (add_block fuel sub t id is_attr) as [sub' r]. cbn [fst] in *. apply wf_intro.
        - intros k v Hk. rewrite get_put. destruct (str_eqb k h) eqn:Ek; [apply str_eqb_eq in Ek; subst k; congruence | now apply (H1 k v)].
        - intros k s. rewrite get_put. destruct (str_eqb k h); [intro E; injection E as <-; exact IH | apply H2]. }
      destruct (get h groups) as [sub|] eqn:Eg.
      * apply Hput; [now apply (H2 h)|]. destruct (get h dsets) as [v|] eqn:E; [|reflexivity]. specialize (H1 h v E). congruence.
      * destruct (has h dsets) eqn:Eh; [exact H|]. apply Hput; [apply wf_empty|]. unfold has in Eh. destruct (get h dsets); [discriminate | reflexivity].
  - destruct is_attr; [destruct (has t attrs); [exact H | cbn [fst]; now apply wf_intro]|]. destruct (has t dsets) eqn:E1; [exact H|]. destruct (has t groups) eqn:E2; [exact H|]. cbn [fst]. apply wf_intro; [|exact H2].
    intros k v. rewrite get_put. destruct (str_eqb k t) eqn:Ek; [|apply H1]. intros _. apply str_eqb_eq in Ek. subst k. unfold has in E2. destruct (get t groups); [discriminate | reflexivity].
Qed.
Lemma add_no_dataset fuel : forall g name id is_attr, wf g -> ~ (is_attr = true /\ through_dataset g (keys name)) -> snd (add_block fuel g name id is_attr) <> Ok true.
Proof.
  induction fuel as [|fuel IH]; intros [attrs dsets groups] name id is_attr H Ht; [discriminate|]. destruct (wf_inv _ _ _ H) as [H1 H2]. cbn [add_block]. pose proof (split_path_spec name) as S. destruct (split_path name) as [[h|] t].
  - destruct S as (Ek & _ & _ & _). rewrite Ek in Ht. assert (keys t <> []) as Hk by (unfold keys; destruct (comps t); discriminate).
    destruct (if is_attr then get h dsets else None) as [[did dattrs]|] eqn:Ed.
    + destruct is_attr; [|discriminate]. contradict Ht. split; [reflexivity|]. exists 1%nat, did, dattrs. split; [destruct (keys t); [contradiction | cbn; lia]|]. cbn [firstn find]. rewrite (H1 h _ Ed), Ed. reflexivity.
    + assert (forall sub, wf sub -> get h groups = Some sub \/ sub = empty_group -> snd (let (sub', r) := add_block fuel sub t id is_attr in (Group attrs dsets (put h sub' groups), r)) <> Ok true) as Hput.
      { intros sub Hs Hg. specialize (IH sub t id is_attr Hs). destruct (add_block fuel sub t id is_attr) as [sub' r]. cbn [snd] in *. apply IH. intros (-> & n & i & a & Hn & Hf). destruct Hg as [Hg| ->].
        - apply Ht. split; [reflexivity|]. exists (Datatypes.S n), i, a. split; [cbn [length]; lia|]. cbn [firstn find]. rewrite Hg. destruct n as [|n]; [lia|]. destruct (keys t); [contradiction|]. exact Hf.
        - destruct (firstn n (keys t)) as [|c [|c' cs]]; cbn in Hf; discriminate. }
      destruct (get h groups) as [sub|] eqn:Eg; [apply Hput; [now apply (H2 h) | auto]|]. destruct (has h dsets); [discriminate|]. apply Hput; [apply wf_empty | auto].
  - destruct is_attr; [destruct (has t attrs); discriminate|]. destruct (has t dsets); [discriminate|]. destruct (has t groups); discriminate.
Qed.

Section Endian.
  Variable little : bool.
  Variable content : list Z.
  Definition agree (f : file) : Prop := Forall (fun b => b_endian b = f_endian f) (f_blocks f).
  Definition good (f : file) : Prop := agree f /\ wf (f_tree f) /\ valid_endian (f_endian f) = true.
  Lemma set_all e f : valid_endian e = true -> snd (set_endian e f) = Ok tt /\ f_endian (fst (set_endian e f)) = e /\ agree (fst (set_endian e f)).
  Proof. intro H. unfold set_endian, agree. rewrite H. cbn. split; [reflexivity|]. split; [reflexivity|]. apply Forall_forall. intros b Hb. apply in_map_iff in Hb. destruct Hb as (b0 & <- & _). reflexivity. Qed.
  Lemma set_invalid e f : valid_endian e = false -> set_endian e f = (f, Err EValue).
  Proof. intro H. unfold set_endian. now rewrite H. Qed.
  Lemma set_good e f : good f -> good (fst (set_endian e f)).
  Proof. intro H. destruct (valid_endian e) eqn:E; [|rewrite set_invalid by exact E; exact H]. destruct (set_all e f E) as (_ & H2 & H3). split; [exact H3|]. split; [|rewrite H2; exact E]. unfold set_endian. rewrite E. apply H. Qed.
  Lemma push_agree d off shape f : agree f -> agree (push {| b_dtype := d; b_off := off; b_shape := shape; b_endian := f_endian f |} f).
  Proof. intro H. unfold agree. cbn [push f_blocks f_endian]. apply Forall_app. split; [exact H|]. repeat constructor. Qed.
  (** histories in which the byte order cannot get out of step *)
  Definition clean_op (f : file) (o : op) : Prop :=
    match o with
    | OAdd name _ _ true => ~ through_dataset (f_tree f) (keys name)
    | OToggle => f_endian f = NAT
    | OEnd => match f_rec f with Some (_, _, true) => f_endian f = NAT | _ => True end
    | _ => True
    end.
  Fixpoint clean (f : file) (ops : list op) : Prop := match ops with [] => True | o :: ops' => clean_op f o /\ clean (run_op little content f o) ops' end.
  Lemma read_good d shape f : good f -> good (fst (read_and_skip little content d shape f)) /\ f_endian (fst (read_and_skip little content d shape f)) = f_endian f.
  Proof. intros (H1 & H2 & H3). unfold read_and_skip. destruct (getitem _ _ _ _); cbn [fst]; [|repeat split; assumption]. split; [|reflexivity]. split; [now apply push_agree | split; assumption]. Qed.
  Lemma rec_good r f : good f -> good (set_rec r f). Proof. exact (fun H => H). Qed.
  Lemma toggle_good f : good f -> f_endian f = NAT -> good (fst (toggle_byteswap little f)).
  Proof. intros H E. unfold toggle_byteswap. rewrite E. now apply set_good. Qed.
  Lemma step_good f o : good f -> clean_op f o -> good (run_op little content f o).
  Proof.
    intros H C. destruct o as [name d shape is_attr|n|d shape|e|s| |a|]; cbn [run_op clean_op] in *.
    - destruct H as (H1 & H2 & H3). unfold f_add. pose proof (add_wf (fuel_for name) (f_tree f) name (length (f_blocks f)) is_attr H2) as Hw. pose proof (add_no_dataset (fuel_for name) (f_tree f) name (length (f_blocks f)) is_attr H2) as Hn.
      destruct (add_block _ _ _ _ _) as [g [x|x]]; cbn [fst snd] in *; [|split; [exact H1 | split; assumption]]. destruct x; [contradiction Hn; [|reflexivity]; intros [-> Ht]; contradiction|]. split; [|split; assumption].
      change (f_endian f) with (f_endian (set_tree g f)). apply push_agree. exact H1.
    - exact H.
    - now apply read_good.
    - now apply set_good.
    - now apply set_good.
    - now apply toggle_good.
    - unfold start_fortran_record. destruct (f_rec f); [exact H|]. destruct (read_good int32_t [] f H) as [Hr _]. destruct (read_and_skip little content int32_t [] f) as [f' [v|v]]; exact Hr.
    - unfold end_fortran_record. destruct (f_rec f) as [[[m so] au]|]; [|exact H]. destruct (read_good int32_t [] f H) as [Hr He]. destruct (read_and_skip little content int32_t [] f) as [f' [v|v]]; cbn [fst] in *; [|exact Hr].
      destruct (negb (m =? int32_of little v)); [exact Hr|]. destruct (au && (65535 <? f_off f - so)); [exact Hr|]. set (sw := andb _ au). set (f2 := if sw then _ else f').
      assert (good f2) as Hf2. { unfold f2. destruct sw eqn:Es; [|exact Hr]. unfold sw in Es. apply andb_true_iff in Es. destruct Es as [_ ->]. apply toggle_good; [exact Hr | now rewrite He]. }
      destruct (negb (f_off f - so =? (if sw then bswap32 m else m))); exact Hf2.
  Qed.
  Lemma run_good ops : forall f, good f -> clean f ops -> good (run little content ops f).
  Proof. induction ops as [|o ops IH]; intros f H C; [exact H|]. destruct C as [C1 C2]. cbn [run fold_left]. apply IH; [now apply step_good | exact C2]. Qed.
  Lemma new_good : good new_file. Proof. split; [constructor|]. split; [apply wf_empty | reflexivity]. Qed.
End Endian.

(** *** files in the opposite byte order *)
Section Opposite.
  Variable little : bool.
  Lemma swap_bytes d item : dtype_ok d -> Forall (fun x => x <= 1) (dt_fields d) -> zlen item = itemsize d -> swap_item d item = item.
  Proof.
    intros Hd H Hi. rewrite <- (concat_split (dt_fields d) item Hd Hi) at 2. unfold swap_item. f_equal. rewrite <- (map_id (split_fields (dt_fields d) item)) at 2. apply map_ext_in. intros p Hp.
    assert (length p <= 1)%nat as Hlp. { revert item Hi Hp H. clear. generalize (dt_fields d) as fs. intros fs item _. revert item. induction fs as [|n fs IH]; intros item Hp H; [contradiction|]. apply Forall_cons_iff in H. destruct H as [Hn H]. cbn [split_fields] in Hp. destruct Hp as [<-|Hp]; [rewrite firstn_length; lia | now apply (IH (skipn (Z.to_nat n) item))]. }
    destruct p as [|x [|y p]]; [reflexivity | reflexivity | cbn in Hlp; lia].
  Qed.
  Lemma getitem_opposite content content' b e e' : plain (b_dtype b) -> readable content (set_b_endian e b) -> readable content' (set_b_endian e' b) ->
    valid_endian e = true -> valid_endian e' = true -> big_or_little little e <> big_or_little little e' ->
    stored content' b = map (swap_item (b_dtype b)) (stored content b) ->
    getitem little content' (set_b_endian e' b) None = getitem little content (set_b_endian e b) None.
  Proof.
    intros [Hd Hp] R R' Ve Ve' Hne Hs. rewrite (getitem_ok little _ _ R), (getitem_ok little _ _ R'). f_equal. pose proof (stored_len content (set_b_endian e b) Hd R) as Hl. rewrite Forall_forall in Hl.
    change (b_dtype (set_b_endian e' b)) with (b_dtype b). change (b_dtype (set_b_endian e b)) with (b_dtype b). change (stored content' (set_b_endian e' b)) with (stored content' b). change (stored content (set_b_endian e b)) with (stored content b) in *. change (itemsize (b_dtype (set_b_endian e b))) with (itemsize (b_dtype b)) in *.
    rewrite Hs. assert (map (swap_item (b_dtype b)) (map (swap_item (b_dtype b)) (stored content b)) = stored content b) as Hss. { rewrite map_map. rewrite <- map_id. apply map_ext_in. intros x Hx. apply swap_swap; [exact Hd | now apply Hl]. }
    destruct Hp as [Hp|Hp].
    - unfold swapped, need_byteswap. change (b_dtype (set_b_endian e' b)) with (b_dtype b). change (b_dtype (set_b_endian e b)) with (b_dtype b). cbn [b_endian set_b_endian]. rewrite Ve, Ve'. destruct (dt_order (b_dtype b)); try contradiction; cbn [ord_eqb negb]; destruct e, e', little; try discriminate; cbn in *; try (contradiction Hne; reflexivity); rewrite ?Hss; reflexivity.
    - assert (map (swap_item (b_dtype b)) (stored content b) = stored content b) as Hid. { rewrite <- map_id. apply map_ext_in. intros x Hx. apply swap_bytes; [exact Hd | exact Hp | now apply Hl]. }
      rewrite !Hid. destruct (swapped little (set_b_endian e' b)), (swapped little (set_b_endian e b)); reflexivity.
  Qed.
End Opposite.
