(** Opening files with arrays of structures. *)
From Coq Require Import Ascii String.
From Verif.Base Require Import Prelude ListLemmas Order.
From Verif.Binary Require Import BinModel NameProofs LayoutProofs EndianProofs FortranProofs UsedProofs TreeProofs.
From Verif.Text Require StrModel StrProofs.
From Verif.Formats Require Import ReaderModel StructModel FileSpec ReaderProofs RunProofs CatSpec CatProofs SnapProofs CatFinal StructSpec StructLayout StructProofs.
From Coq Require Import ZifyBool ZifyNat.
Local Open Scope Z_scope.

(** *** the items of an array of structures *)
Lemma Forall2_map_eq {A B} (f : A -> B) l l' : map f l = map f l' -> Forall2 (fun a b => f a = f b) l l'.
Proof. revert l'. induction l as [|a l IH]; intros [|b l'] H; try discriminate; constructor; cbn [map] in H; injection H as H1 H2; auto. Qed.
Lemma items_are little content f name size images :
  native_file f -> 0 < size -> isbytes content -> Forall (fun a => isbytes a /\ zlen a = size) images ->
  dataset_is little content f name size [zlen images] (map (as_number little) images) -> read_items little content f name = Ok images.
Proof.
  intros Hn Hs Hc Him (id & attrs & b & items & E1 & E2 & E3 & E4 & E5 & E6). unfold read_items. rewrite E1. cbn [bind]. rewrite E2, E5. f_equal.
  destruct (native_nth f id b Hn E2) as [N1 N2]. unfold getitem in E5. destruct (zlen content =? 0); [discriminate|]. cbn [negb check bind] in E5. destruct (Z.leb_spec 0 (b_off b)) as [H0|H0]; [|discriminate]. destruct (Z.leb_spec (b_off b + b_nbytes b) (zlen content)) as [H1|H1]; [|discriminate].
  cbn [check bind] in E5. destruct (forallb _ _); [|discriminate]. cbn [check bind] in E5. rewrite N1, (no_swap little _ N2) in E5. cbn [bind] in E5. injection E5 as E5.
  assert (Forall (fun a => isbytes a /\ zlen a = size) items) as Hit.
  { rewrite <- E5, E4. unfold b_nbytes in H1. rewrite E4 in H1. pose proof (view_len content (b_off b) size (b_size b) H0 ltac:(lia) H1) as Hl. apply Forall_forall. intros a Ha. rewrite Forall_forall in Hl. split; [|now apply Hl]. unfold view in Ha. apply in_map_iff in Ha. destruct Ha as (k & <- & _). now apply zslice_isbytes. }
  assert (map (as_number little) items = map (as_number little) images) as Em.
  { rewrite <- E6. unfold numbers. apply map_ext. intro a. rewrite as_number_value. unfold endian_value. rewrite (native_mem little _ N2). destruct little; reflexivity. }
  apply Forall2_map_eq in Em. clear - Em Him Hit. induction Em as [|a a' l l' Ha HF IH]; [reflexivity|]. apply Forall_cons_iff in Him, Hit. destruct Him as [[A1 A2] Him], Hit as [[B1 B2] Hit]. f_equal; [apply (as_number_inj little); congruence || assumption | now apply IH].
Qed.

Lemma find_member l offs : NoDup (map m_name l) -> forall m off, In (m, off) (combine l offs) -> List.find (fun p : member * Z => String.eqb (m_name (fst p)) (m_name m)) (combine l offs) = Some (m, off).
Proof.
  revert offs. induction l as [|m' l IH]; intros offs Hd m off Hin; [destruct Hin|]. destruct offs as [|o offs]; [destruct Hin|]. cbn [combine map] in *. apply NoDup_cons_iff in Hd. destruct Hd as [Hn Hd]. cbn [List.find fst].
  destruct Hin as [E|Hin].
  - injection E as -> ->. now rewrite String.eqb_refl.
  - destruct (String.eqb_spec (m_name m') (m_name m)) as [E|_]; [|now apply IH]. exfalso. apply Hn. rewrite E. apply in_map. now apply in_combine_l in Hin.
Qed.
Lemma member_values little m off bytes vals : 0 < m_size m -> 0 <= off -> zlen vals = m_count m -> Forall (fun v => 0 <= v < 256 ^ m_size m) vals ->
  zslice bytes off (off + m_size m * m_count m) = concat (map (number_bytes little (m_size m)) vals) -> map (endian_value little NAT) (view bytes off (m_size m) (m_count m)) = vals.
Proof.
  intros Hs Ho Hl Hv E. set (b := {| b_dtype := num (m_size m); b_off := off; b_shape := [m_count m]; b_endian := NAT |}).
  assert (itemsize (b_dtype b) = m_size m) as Ei by (cbn [b b_dtype]; unfold num, itemsize; cbn [dt_fields]; unfold sumZ; cbn [fold_right]; lia).
  assert (b_size b = m_count m) as Eb by (unfold b_size; cbn [b b_shape fold_left]; lia).
  pose proof (view_of_slice bytes b Ho) as V. rewrite Ei, Eb in V. unfold b_nbytes in V. rewrite Ei, Eb in V. cbn [b b_off] in V. rewrite V by (pose proof (zlen_nonneg vals); lia). rewrite E, <- Hl. replace (zlen vals) with (zlen (map (number_bytes little (m_size m)) vals)) by (unfold zlen; now rewrite map_length).
  rewrite (view_concat []); [|lia|].
  - rewrite map_map. rewrite <- (map_id vals) at 2. apply map_ext_in. intros v Hin. rewrite Forall_forall in Hv. rewrite (seen_number little little NAT) by (auto; lia || now apply Hv). unfold seen, rightly. destruct little; reflexivity.
  - apply Forall_map. apply Forall_forall. intros v _. apply number_len. lia.
Qed.
Lemma columns_are little align l offs size images structures : sizes_ok l -> NoDup (map m_name l) -> layout_of align l offs size -> Forall2 (image little l offs size) structures images ->
  forall m, In m l -> column little align l (m_name m) images = Ok (map (fun s => s (m_name m)) structures).
Proof.
  intros Hl Hd Hlay HF m Hm. pose proof (rising_in l 0 offs size (layout_rising align l offs size Hl Hlay)) as HR. assert (exists off, In (m, off) (combine l offs)) as (off & Hin).
  { clear - Hm HR. induction HR as [|x o l' offs' _ _ IH]; [destruct Hm|]. destruct Hm as [->|Hm]; [exists o; now left|]. destruct (IH Hm) as (off & H). exists off. now right. }
  unfold column. rewrite (np_layout_eq align l offs size Hl Hlay). cbn [fst]. rewrite (find_member l offs Hd m off Hin). f_equal.
  clear Hm. induction HF as [|s a ss as_ Hi _ IH]; [reflexivity|]. cbn [map]. f_equal; [|exact IH]. destruct Hi as (_ & _ & Hmem).
  assert (0 <= off /\ 0 < m_size m) as [Ho Hs]. { clear - Hin HR. revert Hin. induction HR as [|x o l' offs' Hx _ IH]; intro Hin; [destruct Hin|]. destruct Hin as [E|Hin]; [injection E as -> ->; lia | now apply IH]. }
  assert (zlen (s (m_name m)) = m_count m /\ Forall (fun v => 0 <= v < 256 ^ m_size m) (s (m_name m)) /\ zslice a off (off + m_size m * m_count m) = concat (map (number_bytes little (m_size m)) (s (m_name m)))) as (A & B & C).
  { clear - Hin Hmem. revert Hin. induction Hmem as [|x o l' offs' Hx _ IH]; intro Hin; [destruct Hin|]. destruct Hin as [E|Hin]; [injection E as -> ->; exact Hx | now apply IH]. }
  now apply (member_values little m off a).
Qed.
Lemma layout_in align l p : forall off mx, In p (fst (np_layout align off mx l)) -> In (fst p) l.
Proof.
  induction l as [|m' l IH]; intros off mx; cbn [np_layout fst]; [intros []|].
  match goal with |- context [np_layout align ?a ?b l] => specialize (IH a b); destruct (np_layout align a b l) as [r t] end. cbn [fst] in *. intros [<-|Hin]; [now left | right; now apply IH].
Qed.
Lemma column_missing little align l name items : ~ In name (map m_name l) -> column little align l name items = Err EValue.
Proof.
  intro H. unfold column. destruct (List.find _ _) as [[m off]|] eqn:E; [|reflexivity]. exfalso. apply List.find_some in E. destruct E as [E1 E2]. cbn [fst] in E2. apply String.eqb_eq in E2. apply H. rewrite <- E2. apply in_map. now apply layout_in in E1.
Qed.
Lemma image_ok little l offs size structures images : Forall2 (image little l offs size) structures images -> Forall (fun a => isbytes a /\ zlen a = size) images.
Proof. induction 1 as [|s a ss as_ (H1 & H2 & _) _ IH]; constructor; [split; [exact H2 | exact H1] | exact IH]. Qed.

(** *** the outcome for a file with an array of structures *)
Definition has_columns (little : bool) (content : list Z) (f : file) (name : str) (align : bool) (l : list member) (structures : list structure) : Prop :=
  exists items, read_items little content f name = Ok items /\ zlen items = zlen structures /\
    forall n, column little align l n items = if existsb (String.eqb n) (map m_name l) then Ok (map (fun s => s n) structures) else Err EValue.
Lemma struct_opens p pieces name align l offs size structures images little rest :
  plain p -> opens (flat p) pieces little little rest -> sizes_ok l -> NoDup (map m_name l) -> layout_of align l offs size -> 0 < size ->
  Forall2 (image little l offs size) structures images -> Forall byte rest -> Forall (fun p => match p with Raw _ => False | _ => True end) pieces ->
  In (Data name false size [zlen images] (map (as_number little) images)) pieces ->
  let content := file_bytes little pieces ++ rest in
  exists f, open_file little content p = (f, Ok tt) /\ reads_back little content pieces f /\ order_is little little f /\ (all_bytes_used content f = true <-> rest = []) /\
    has_columns little content f name align l structures.
Proof.
  intros Hp Ho Hl Hd Hlay Hs HF Hr Hraw Hin content. destruct (plain_opens p pieces little rest Hp Ho) as (f & E & R & O & U). fold content in E, R, U. exists f. split; [exact E|]. split; [exact R|]. split; [exact O|]. split; [exact U|].
  assert (native_file f) as Hn by (destruct (flat_exec little content p Hp new_file new_native) as [H _]; unfold open_file in E; rewrite E in H; exact H).
  assert (isbytes content) as Hc by (unfold content, isbytes; apply Forall_app; split; [now apply pieces_isbytes | exact Hr]).
  exists images. split; [apply (items_are little content f name size images); auto; [exact (image_ok _ _ _ _ _ _ HF) | now apply R]|].
  split. { unfold zlen. f_equal. symmetry. clear - HF. induction HF; [reflexivity|]. cbn [List.length]. congruence. }
  intro n. destruct (existsb (String.eqb n) (map m_name l)) eqn:En.
  - apply existsb_exists in En. destruct En as (n' & Hn' & E'). apply String.eqb_eq in E'. subst n'. apply in_map_iff in Hn'. destruct Hn' as (m & <- & Hm). now apply (columns_are little align l offs size).
  - apply column_missing. intro Hi. assert (existsb (String.eqb n) (map m_name l) = true); [|congruence]. apply existsb_exists. exists n. split; [exact Hi | apply String.eqb_refl].
Qed.
