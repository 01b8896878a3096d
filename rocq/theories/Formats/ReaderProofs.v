(** Running a constructor over a file made of known pieces. *)
From Coq Require Import Ascii String.
From Verif.Base Require Import Prelude ListLemmas Order.
From Verif.Binary Require Import BinModel NameProofs LayoutProofs EndianProofs FortranProofs UsedProofs TreeProofs.
From Verif.Formats Require Import ReaderModel FileSpec.
From Coq Require Import ZifyBool ZifyNat.
Local Open Scope Z_scope.

(** *** numbers *)
Lemma digits_le n : forall v, digits n v = le_bytes n v.
Proof.
  unfold digits. induction n as [|n IH]; intro v; [reflexivity|]. cbn [le_bytes]. rewrite <- IH. change (zseq 0 (S n)) with (0 :: zseq (0 + 1) n). cbn [map]. rewrite Z.pow_0_r, Z.div_1_r. f_equal.
  rewrite <- (map_id (zseq (0 + 1) n)). assert (zseq (0 + 1) n = map (fun i => i + 1) (zseq 0 n)) as -> by (clear; generalize 0; induction n as [|n IH]; intro z; [reflexivity|]; cbn [zseq map]; now rewrite IH).
  rewrite !map_map. apply map_ext_in. intros i Hi. apply In_zseq in Hi. rewrite Z.pow_add_r, Z.pow_1_r, Z.mul_comm by lia. now rewrite Z.div_div by lia.
Qed.
Lemma number_len lf size v : 0 <= size -> zlen (number_bytes lf size v) = size.
Proof. intro H. unfold number_bytes, zlen. destruct lf; rewrite ?rev_length, digits_le, le_bytes_length; lia. Qed.
Definition file_ord (lf : bool) : ord := if lf then LE else BE.
(** a number read with the right or the wrong byte order *)
Definition seen (right : bool) (size v : Z) : Z := if right then v else le_value (rev (le_bytes (Z.to_nat size) v)).
Definition rightly (little : bool) (lf : bool) (e : ord) : bool := ord_eqb (big_or_little little e) (file_ord lf).
Lemma seen_number little lf e size v : valid_endian e = true -> 0 <= size -> 0 <= v < 256 ^ size -> endian_value little e (number_bytes lf size v) = seen (rightly little lf e) size v.
Proof.
  intros Hv Hs H. unfold endian_value, number_bytes, seen, rightly. rewrite digits_le. assert (le_value (le_bytes (Z.to_nat size) v) = v) as E by (apply le_bytes_value; rewrite Z2Nat.id by lia; exact H).
  destruct lf; cbn [file_ord]; destruct e, little; try discriminate; cbn [big_or_little ord_eqb]; rewrite ?rev_involutive; auto.
Qed.
Lemma chunks_inj n : 0 < n -> forall l l' : list (list Z), Forall (fun x => zlen x = n) l -> Forall (fun x => zlen x = n) l' -> concat l = concat l' -> l = l'.
Proof.
  intros Hn. induction l as [|x l IH]; intros [|y l'] H H' E; [reflexivity| | |].
  - exfalso. apply Forall_cons_iff in H'. destruct H' as [H' _]. cbn in E. destruct y; [unfold zlen in H'; cbn in H'; lia | discriminate].
  - exfalso. apply Forall_cons_iff in H. destruct H as [H _]. cbn in E. destruct x; [unfold zlen in H; cbn in H; lia | discriminate].
  - apply Forall_cons_iff in H, H'. destruct H as [Hx H], H' as [Hy H']. cbn [concat] in E. assert (length x = length y) as El by (unfold zlen in *; lia).
    assert (x = y) as ->. { apply (f_equal (firstn (length x))) in E. rewrite firstn_app, Nat.sub_diag, firstn_all, El, firstn_app, Nat.sub_diag, firstn_all in E. cbn in E. now rewrite !app_nil_r in E. }
    apply app_inv_head in E. f_equal. now apply IH.
Qed.
Lemma num_ok size : 0 < size -> dtype_ok (num size) /\ plain (num size) /\ itemsize (num size) = size.
Proof.
  intro H. assert (dtype_ok (num size)) as Hd by (unfold dtype_ok, num; cbn; repeat constructor; lia). split; [exact Hd|]. split; [split; [exact Hd|]|unfold itemsize, num; cbn; lia].
  unfold num. cbn [dt_order dt_fields]. destruct (Z.eqb_spec size 1); [right; repeat constructor; lia | left; discriminate].
Qed.
Lemma size_one_right size v : size = 1 -> 0 <= v < 256 ^ size -> le_value (rev (le_bytes (Z.to_nat size) v)) = v.
Proof. intros -> H. change (Z.to_nat 1) with 1%nat. cbn [le_bytes rev app le_value]. rewrite Z.mod_small by exact H. lia. Qed.
Lemma vals_bytes_len lf size vals : 0 <= size -> zlen (concat (map (number_bytes lf size) vals)) = size * zlen vals.
Proof. intro H. rewrite (concat_len size); [now rewrite zlen_map|]. apply Forall_map. apply Forall_forall. intros v _. now apply number_len. Qed.

(** *** names *)
Record ent := { e_name : str; e_attr : bool; e_off : Z; e_size : Z; e_shape : list Z; e_vals : list Z }.
Definition strict_prefix (a b : list str) : Prop := prefix_of a b /\ a <> b.
Definition only (env : list ent) (g : group) : Prop :=
  (forall ks id at_, find g ks = Some (EDset id at_) -> exists q, In q env /\ e_attr q = false /\ keys (e_name q) = ks) /\
  (forall ks sub, find g ks = Some (EGroup sub) -> exists q, In q env /\ strict_prefix ks (keys (e_name q))) /\
  (forall ks id, attr_at g ks = Some id -> exists q, In q env /\ e_attr q = true /\ keys (e_name q) = ks).
Fixpoint keys_eqb (a b : list str) : bool := match a, b with [], [] => true | x :: a', y :: b' => str_eqb x y && keys_eqb a' b' | _, _ => false end.
Fixpoint prefixb (a b : list str) : bool := match a, b with [], _ => true | x :: a', y :: b' => str_eqb x y && prefixb a' b' | _, _ => false end.
Lemma keys_eqb_eq a : forall b, keys_eqb a b = true <-> a = b.
Proof. induction a as [|x a IH]; intros [|y b]; cbn; split; intro H; try reflexivity; try discriminate; [apply andb_true_iff in H; destruct H as [H1 H2]; apply str_eqb_eq in H1; apply IH in H2; congruence | injection H as -> ->; rewrite str_eqb_refl; now apply IH]. Qed.
Lemma prefixb_iff a : forall b, prefixb a b = true <-> prefix_of a b.
Proof.
  induction a as [|x a IH]; intros [|y b]; cbn; split; intro H; try reflexivity; try discriminate; try apply prefix_nil.
  - apply prefix_nil_inv in H. discriminate.
  - apply andb_true_iff in H. destruct H as [H1 H2]. apply str_eqb_eq in H1. apply prefix_cons. split; [exact H1 | now apply IH].
  - apply prefix_cons in H. destruct H as [-> H]. rewrite str_eqb_refl. now apply IH.
Qed.
Definition compatible (name : str) (is_attr : bool) (qname : str) (qattr : bool) : bool :=
  let ks := keys name in let kq := keys qname in
  match is_attr, qattr with
  | false, false => negb (prefixb ks kq) && negb (prefixb kq ks)
  | false, true => negb (prefixb ks kq) || keys_eqb ks kq
  | true, false => negb (prefixb kq ks) || keys_eqb kq ks
  | true, true => negb (keys_eqb kq ks)
  end.
Definition fresh (env : list ent) (name : str) (is_attr : bool) : bool := forallb (fun q => compatible name is_attr (e_name q) (e_attr q)) env.
Lemma fresh_in env name is_attr q : fresh env name is_attr = true -> In q env -> compatible name is_attr (e_name q) (e_attr q) = true.
Proof. unfold fresh. rewrite forallb_forall. auto. Qed.
Lemma firstn_prefix (n : nat) (ks : list str) : prefix_of (firstn n ks) ks.
Proof. exists (skipn n ks). symmetry. apply firstn_skipn. Qed.
Lemma firstn_strict (n : nat) (ks : list str) : (n < List.length ks)%nat -> firstn n ks <> ks.
Proof. intros H E. apply (f_equal (@List.length str)) in E. rewrite firstn_length in E. lia. Qed.
Lemma not_through env g name is_attr : only env g -> fresh env name is_attr = true -> ~ through_dataset g (keys name).
Proof.
  intros (O1 & _ & _) Hf (n & id & a & Hn & E). destruct (O1 _ _ _ E) as (q & Hq & Hqa & Hk). pose proof (fresh_in _ _ _ _ Hf Hq) as Hc. unfold compatible in Hc. rewrite Hqa, Hk in Hc.
  pose proof (proj2 (prefixb_iff _ _) (firstn_prefix n (keys name))) as Hp. destruct is_attr; rewrite Hp in Hc; cbn [negb] in Hc.
  - cbn [orb] in Hc. apply keys_eqb_eq in Hc. apply (firstn_strict n (keys name)); [lia | exact Hc].
  - rewrite andb_false_r in Hc. discriminate.
Qed.
Lemma prefix_dec a b : {prefix_of a b} + {~ prefix_of a b}.
Proof. destruct (prefixb a b) eqn:E; [left; now apply prefixb_iff | right; intro H; apply prefixb_iff in H; congruence]. Qed.
Lemma keys_dec (a b : list str) : {a = b} + {a <> b}.
Proof. destruct (keys_eqb a b) eqn:E; [left; now apply keys_eqb_eq | right; intro H; apply keys_eqb_eq in H; congruence]. Qed.

Lemma add_tree env g name is_attr id q : wf g -> only env g -> fresh env name is_attr = true -> e_name q = name -> e_attr q = is_attr ->
  let g' := fst (add_block (fuel_for name) g name id is_attr) in
  snd (add_block (fuel_for name) g name id is_attr) = Ok false /\ only (env ++ [q]) g' /\
  (if is_attr then attr_at g' (keys name) = Some id else find g' (keys name) = Some (EDset id [])) /\
  (forall r i, In r env -> (if e_attr r then attr_at g (keys (e_name r)) = Some i else find g (keys (e_name r)) = Some (EDset i [])) ->
     if e_attr r then attr_at g' (keys (e_name r)) = Some i else find g' (keys (e_name r)) = Some (EDset i [])).
Proof.
  intros W O Hf Hn Ha. cbv zeta. pose proof (not_through env g name is_attr O Hf) as Ht. destruct O as (O1 & O2 & O3).
  assert (snd (add_block (fuel_for name) g name id is_attr) = Ok false) as Hok.
  { destruct is_attr.
    - apply add_attr_ok; [exact W | unfold fuel_for; lia | | exact Ht]. destruct (attr_at g (keys name)) as [i|] eqn:E; [|reflexivity]. exfalso. destruct (O3 _ _ E) as (r & Hr & Hra & Hrk). pose proof (fresh_in _ _ _ _ Hf Hr) as Hc. unfold compatible in Hc. rewrite Hra, Hrk in Hc. rewrite (proj2 (keys_eqb_eq _ _) eq_refl) in Hc. discriminate.
    - apply add_dataset_iff; [unfold fuel_for; lia|]. apply free_iff; [apply keys_ne|]. split.
      + destruct (find g (keys name)) as [[i a|sub]|] eqn:E; [| |reflexivity]; exfalso.
        * destruct (O1 _ _ _ E) as (r & Hr & Hra & Hrk). pose proof (fresh_in _ _ _ _ Hf Hr) as Hc. unfold compatible in Hc. rewrite Hra, Hrk in Hc. rewrite (proj2 (prefixb_iff _ _) (ex_intro _ [] (eq_sym (app_nil_r _)))) in Hc. discriminate.
        * destruct (O2 _ _ E) as (r & Hr & Hp & Hs). pose proof (fresh_in _ _ _ _ Hf Hr) as Hc. unfold compatible in Hc. apply prefixb_iff in Hp. rewrite Hp in Hc. destruct (e_attr r); cbn in Hc; [apply keys_eqb_eq in Hc; contradiction | discriminate].
      + intros n Hlt. destruct (find g (firstn n (keys name))) as [[i a|sub]|] eqn:E; auto. apply Ht. exists n, i, a. auto. }
  split; [exact Hok|]. destruct (add_attr (fuel_for name) g name id is_attr ltac:(unfold fuel_for; lia) Hok) as [A1 A2]. pose proof (add_find (fuel_for name) g name id is_attr ltac:(unfold fuel_for; lia) Hok) as F. cbv zeta in A1, A2, F.
  set (g' := fst (add_block (fuel_for name) g name id is_attr)) in *. clearbody g'.
  assert (forall ks, ks <> [] -> (strict_prefix ks (keys name) /\ exists sub, find g' ks = Some (EGroup sub)) \/ (ks = keys name /\ is_attr = false /\ find g' ks = Some (EDset id [])) \/ like (find g ks) (find g' ks)) as Hcase.
  { intros ks Hks. destruct (F ks Hks) as (F1 & F2 & F3). destruct (prefix_dec ks (keys name)) as [Hp|Hp]; [|right; right; apply F3; now left]. destruct (keys_dec ks (keys name)) as [E|E]; [|left; split; [split; assumption | now apply F2]]. destruct is_attr eqn:Eat; [right; right; apply F3; right; auto | right; left; auto]. }
  split; [|split].
  - split; [|split].
    + intros ks i a E. destruct ks as [|c ks]; [destruct g'; discriminate|]. destruct (Hcase (c :: ks) ltac:(discriminate)) as [(_ & sub & E')|[(Ek & Eat & E')|L]].
      * rewrite E in E'. discriminate.
      * exists q. split; [apply in_app_iff; right; now left|]. rewrite Ha, Hn. auto.
      * rewrite E in L. destruct (find g (c :: ks)) as [[j b|]|] eqn:Eg; try contradiction. destruct (O1 _ _ _ Eg) as (r & Hr & Hr2). exists r. split; [apply in_app_iff; now left | exact Hr2].
    + intros ks sub E. destruct ks as [|c ks]; [destruct g'; discriminate|]. destruct (Hcase (c :: ks) ltac:(discriminate)) as [(Hp & _)|[(Ek & Eat & E')|L]].
      * exists q. split; [apply in_app_iff; right; now left | now rewrite Hn].
      * rewrite E in E'. discriminate.
      * rewrite E in L. destruct (find g (c :: ks)) as [[j b|]|] eqn:Eg; try contradiction. destruct (O2 _ _ Eg) as (r & Hr & Hr2). exists r. split; [apply in_app_iff; now left | exact Hr2].
    + intros ks i E. destruct (keys_dec ks (keys name)) as [Ek|Ek]; [destruct is_attr eqn:Eat|].
      * exists q. split; [apply in_app_iff; right; now left|]. rewrite Hn. auto.
      * rewrite A2 in E by auto. destruct (O3 _ _ E) as (r & Hr & Hr2). exists r. split; [apply in_app_iff; now left | exact Hr2].
      * rewrite A2 in E by auto. destruct (O3 _ _ E) as (r & Hr & Hr2). exists r. split; [apply in_app_iff; now left | exact Hr2].
  - destruct is_attr; [now apply A1|]. destruct (F (keys name) (keys_ne name)) as (F1 & _ & _). now apply F1.
  - intros r i Hr E. pose proof (fresh_in _ _ _ _ Hf Hr) as Hc. unfold compatible in Hc. destruct (e_attr r).
    + rewrite A2; [exact E|]. destruct is_attr; [|now right]. left. intro Ek. rewrite Ek in Hc. rewrite (proj2 (keys_eqb_eq _ _) eq_refl) in Hc. discriminate.
    + destruct (F (keys (e_name r)) (keys_ne _)) as (_ & _ & F3). assert (like (find g (keys (e_name r))) (find g' (keys (e_name r)))) as L.
      { apply F3. destruct is_attr.
        - destruct (prefix_dec (keys (e_name r)) (keys name)) as [Hp|Hp]; [|now left]. right. split; [|reflexivity]. apply prefixb_iff in Hp. rewrite Hp in Hc. cbn in Hc. now apply keys_eqb_eq in Hc.
        - left. intro Hp. apply prefixb_iff in Hp. rewrite Hp in Hc. rewrite andb_false_r in Hc. discriminate. }
      rewrite E in L. destruct (find g' (keys (e_name r))) as [[j b|]|]; try contradiction. destruct L as [<- <-]. reflexivity.
Qed.

Section Reader.
  Variables (little lf : bool) (content post : list Z).
  Hypothesis Hne : content <> [].
  Set Default Proof Using "All".

  Lemma read_block b size vals : b_dtype b = num size -> 0 < size -> 0 <= b_off b -> Forall (fun s => 0 <= s) (b_shape b) -> valid_endian (b_endian b) = true ->
    zlen vals = fold_left Z.mul (b_shape b) 1 -> Forall (fun v => 0 <= v < 256 ^ size) vals -> b_off b + size * zlen vals <= zlen content ->
    zslice content (b_off b) (b_off b + size * zlen vals) = concat (map (number_bytes lf size) vals) ->
    exists items, getitem little content b None = Ok items /\ numbers little (b_dtype b) items = map (seen (rightly little lf (b_endian b)) size) vals.
  Proof.
    intros Ed Hs Ho Hsh Hv Hlen Hval Hin Hsl. destruct (num_ok size Hs) as (D1 & D2 & D3). rewrite <- Ed in D1, D2, D3.
    assert (readable content b) as R. { split; [exact Hne|]. split; [exact Ho|]. split; [unfold b_nbytes, b_size; rewrite D3, <- Hlen; exact Hin|]. split; [exact Hsh|]. intros _. exact Hv. }
    destruct (getitem_values little content b D1 D2 R Hv) as (items & H1 & H2 & H3). exists items. split; [exact H1|].
    assert (stored content b = map (number_bytes lf size) vals) as Hst.
    { apply (chunks_inj size Hs); [pose proof (stored_len content b D1 R) as Hsl2; rewrite D3 in Hsl2; exact Hsl2 | apply Forall_map; apply Forall_forall; intros v _; apply number_len; lia|]. rewrite (stored_concat content b D1 R), <- Hsl. unfold b_nbytes, b_size. now rewrite D3, <- Hlen. }
    destruct (items_len little content b items D1 H1) as [Hil _]. rewrite Hst in H3.
    assert (map (fun x => [x]) (numbers little (b_dtype b) items) = map (fun x => [x]) (map (endian_value little (b_endian b)) (map (number_bytes lf size) vals))) as E.
    { unfold numbers. rewrite map_map. etransitivity; [|etransitivity; [exact H3|]].
      - apply map_ext_in. intros it Hit. unfold item_values. rewrite Ed. unfold num. cbn [dt_fields split_fields map]. rewrite Forall_forall in Hil. specialize (Hil it Hit). rewrite D3 in Hil. unfold zlen in Hil. rewrite firstn_all2 by lia. reflexivity.
      - rewrite !map_map. apply map_ext. intros v. unfold item_values. rewrite Ed. unfold num. cbn [dt_fields split_fields map]. pose proof (number_len lf size v ltac:(lia)) as Hnl. unfold zlen in Hnl. rewrite firstn_all2 by lia. reflexivity. }
    assert (forall a b0 : list Z, map (fun x => [x]) a = map (fun x => [x]) b0 -> a = b0) as Hinj. { clear. induction a as [|x a IH]; intros [|y b] H; try discriminate; [reflexivity|]. cbn in H. injection H as -> H. f_equal. now apply IH. }
    apply Hinj in E. rewrite E, map_map. apply map_ext_in. intros v Hvin. rewrite Forall_forall in Hval. apply seen_number; [exact Hv | lia | now apply Hval].
  Qed.

  (** *** what is known about a file *)
  Record lst := { l_env : list ent; l_cur : ord; l_rec : option (Z * Z * bool); l_pos : Z; l_gap : Z }.
  Definition ent_ok (f : file) (q : ent) : Prop :=
    exists id b, (if e_attr q then attr_at (f_tree f) (keys (e_name q)) = Some id else find (f_tree f) (keys (e_name q)) = Some (EDset id [])) /\
      nth_error (f_blocks f) id = Some b /\ b_dtype b = num (e_size q) /\ b_off b = e_off q /\ b_shape b = e_shape q.
  Definition ent_data (q : ent) : Prop :=
    0 < e_size q /\ 0 <= e_off q /\ Forall (fun s => 0 <= s) (e_shape q) /\ zlen (e_vals q) = fold_left Z.mul (e_shape q) 1 /\ Forall (fun v => 0 <= v < 256 ^ e_size q) (e_vals q) /\
    e_off q + e_size q * zlen (e_vals q) <= zlen content /\ zslice content (e_off q) (e_off q + e_size q * zlen (e_vals q)) = concat (map (number_bytes lf (e_size q)) (e_vals q)).
  Definition tight (f : file) : Prop := back_to_back (f_blocks f) 0 (f_off f).
  Definition inv (st : lst) (rest : list piece) (f : file) : Prop :=
    f_off f = l_pos st /\ f_endian f = l_cur st /\ f_rec f = l_rec st /\ 0 <= l_pos st /\ good f /\ Forall (fun b => 0 <= b_nbytes b) (f_blocks f) /\
    ((l_gap st = 0 -> tight f) /\ 0 <= l_gap st /\ sumZ (map b_nbytes (f_blocks f)) = l_pos st - l_gap st) /\
    (exists pre, content = pre ++ file_bytes lf rest ++ post /\ zlen pre = l_pos st) /\
    Forall ent_data (l_env st) /\ Forall (ent_ok f) (l_env st) /\ only (l_env st) (f_tree f).
  (** [Q] holds of the outcome of [p] in a file of which [st] is known, when [rest] is still to be read *)
  Definition runs (st : lst) (p : prog) (rest : list piece) (Q : file -> res unit -> Prop) : Prop :=
    forall f, inv st rest f -> Q (fst (exec little content p f)) (snd (exec little content p f)).
  Definition start_state : lst := {| l_env := []; l_cur := NAT; l_rec := None; l_pos := 0; l_gap := 0 |}.
  Lemma start_inv pieces : content = file_bytes lf pieces ++ post -> inv start_state pieces new_file.
  Proof.
    intro H. split; [reflexivity|]. split; [reflexivity|]. split; [reflexivity|]. split; [cbn; lia|]. split; [apply new_good|]. split; [constructor|]. split; [split; [reflexivity|]; split; [cbn; lia | reflexivity]|]. split; [exists []; split; [exact H | reflexivity]|]. split; [constructor|]. split; [constructor|].
    split; [|split].
    - intros [|c [|c' ks]] id at_ E; discriminate.
    - intros [|c [|c' ks]] sub E; discriminate.
    - intros [|c [|c' ks]] id E; discriminate.
  Qed.

End Reader.
