(** A constructor which does not set a byte order sees a structure as one long number;
    the numbers in a structure. *)
From Coq Require Import Ascii String.
From Verif.Base Require Import Prelude ListLemmas Order.
From Verif.Binary Require Import BinModel NameProofs LayoutProofs EndianProofs FortranProofs UsedProofs TreeProofs.
From Verif.Formats Require Import ReaderModel StructModel FileSpec ReaderProofs RunProofs CatSpec CatProofs SnapProofs CatFinal StructSpec StructLayout.
From Coq Require Import ZifyBool ZifyNat.
Local Open Scope Z_scope.

(** *** a type replaced by a number of the same size *)
Definition flat_t (d : dtype) : dtype := num (itemsize d).
Definition flat_b (b : block) : block := {| b_dtype := flat_t (b_dtype b); b_off := b_off b; b_shape := b_shape b; b_endian := b_endian b |}.
Definition flat_f (f : file) : file := {| f_off := f_off f; f_endian := f_endian f; f_blocks := map flat_b (f_blocks f); f_tree := f_tree f; f_rec := f_rec f |}.
Fixpoint flat (p : prog) : prog :=
  match p with
  | Done => Done
  | Fail e => Fail e
  | Add name d shape is_attr k => Add name (flat_t d) shape is_attr (flat k)
  | Get name k => Get name (fun v => flat (k v))
  | GetAttr grp name k => GetAttr grp name (fun v => flat (k v))
  | Swap s k => Swap s (flat k)
  | Start a k => Start a (flat k)
  | End_ k => End_ (flat k)
  | ReadSkip d k h => ReadSkip d (fun v => flat (k v)) (flat h)
  | SkipTo off k => SkipTo off (flat k)
  | OffsetIs off k => OffsetIs off (flat k)
  end.
Definition native (d : dtype) : Prop := dt_order d = NA \/ dt_order d = NAT.
(** constructors with these instructions only *)
Inductive plain : prog -> Prop :=
  | pl_done : plain Done
  | pl_fail e : plain (Fail e)
  | pl_add name d shape is_attr k : native d -> plain k -> plain (Add name d shape is_attr k)
  | pl_get name k : (forall v, plain (k v)) -> plain (Get name k)
  | pl_getattr grp name k : (forall v, plain (k v)) -> plain (GetAttr grp name k)
  | pl_offset off k : plain k -> plain (OffsetIs off k).
Lemma flat_size d : itemsize (flat_t d) = itemsize d.
Proof. unfold flat_t, num, itemsize. cbn [dt_fields]. unfold sumZ at 1. cbn [fold_right]. lia. Qed.
Lemma flat_native d : native (flat_t d).
Proof. unfold native, flat_t, num. cbn [dt_order]. destruct (itemsize d =? 1); auto. Qed.
Lemma flat_nbytes b : b_nbytes (flat_b b) = b_nbytes b.
Proof. unfold b_nbytes. cbn [flat_b b_dtype b_shape]. rewrite flat_size. reflexivity. Qed.

Definition native_file (f : file) : Prop := f_endian f = NAT /\ Forall (fun b => b_endian b = NAT /\ native (b_dtype b)) (f_blocks f).
Section Flat.
  Variables (little : bool) (content : list Z).
  Lemma no_swap d : native d -> need_byteswap little NAT d = Ok false.
  Proof. unfold need_byteswap. intros [-> | ->]; [reflexivity|]. cbn. destruct little; reflexivity. Qed.
  Lemma flat_getitem b key : b_endian b = NAT -> native (b_dtype b) -> getitem little content (flat_b b) key = getitem little content b key.
  Proof.
    intros He Hd. unfold getitem. rewrite flat_nbytes. cbn [flat_b b_off b_shape b_dtype b_endian]. rewrite He, (no_swap _ Hd), (no_swap _ (flat_native _)), flat_size. reflexivity.
  Qed.
  Lemma native_mem d : native d -> mem_endian little d = big_or_little little NAT.
  Proof. unfold mem_endian. intros [-> | ->]; reflexivity. Qed.
  Lemma flat_numbers d items : native d -> numbers little (flat_t d) items = numbers little d items.
  Proof. intro H. unfold numbers. rewrite !native_mem; [reflexivity | exact H | apply flat_native]. Qed.
  Lemma flat_nth f id b : nth_error (f_blocks f) id = Some b -> nth_error (f_blocks (flat_f f)) id = Some (flat_b b).
  Proof. intro H. cbn [flat_f f_blocks]. now apply map_nth_error. Qed.
  Lemma flat_none f id : nth_error (f_blocks f) id = None -> nth_error (f_blocks (flat_f f)) id = None.
  Proof. intro H. cbn [flat_f f_blocks]. apply nth_error_None. apply nth_error_None in H. now rewrite map_length. Qed.
  Lemma native_nth f id b : native_file f -> nth_error (f_blocks f) id = Some b -> b_endian b = NAT /\ native (b_dtype b).
  Proof. intros [_ H] E. apply nth_error_In in E. rewrite Forall_forall in H. now apply H. Qed.
  Lemma flat_read f name : native_file f -> read_dataset little content (flat_f f) name = read_dataset little content f name.
  Proof.
    intro Hn. unfold read_dataset. cbn [flat_f f_tree]. destruct (g_getitem (f_tree f) name) as [[id at_|g]|e]; [|reflexivity|reflexivity]. cbn [bind]. destruct (nth_error (f_blocks f) id) as [b|] eqn:E.
    - destruct (native_nth f id b Hn E) as [H1 H2]. change (map flat_b (f_blocks f)) with (f_blocks (flat_f f)). rewrite (flat_nth f id b E), flat_getitem by assumption. destruct (getitem little content b None); [|reflexivity]. cbn [bind flat_b b_dtype]. now rewrite flat_numbers.
    - change (map flat_b (f_blocks f)) with (f_blocks (flat_f f)). now rewrite (flat_none f id E).
  Qed.
  Lemma flat_attr f grp name : native_file f -> read_attr little content (flat_f f) grp name = read_attr little content f grp name.
  Proof.
    intro Hn. unfold read_attr. cbn [flat_f f_tree]. destruct (g_getitem (f_tree f) grp) as [e|e]; [|reflexivity]. cbn [bind].
    assert (forall attrs, match get name attrs with None => Err EKey | Some id => match nth_error (f_blocks (flat_f f)) id with Some b => do items <- getitem little content b None; Ok (numbers little (b_dtype b) items) | None => Err EFuel end end =
      match get name attrs with None => Err EKey | Some id => match nth_error (f_blocks f) id with Some b => do items <- getitem little content b None; Ok (numbers little (b_dtype b) items) | None => Err EFuel end end) as H.
    { intro attrs. destruct (get name attrs) as [id|]; [|reflexivity]. destruct (nth_error (f_blocks f) id) as [b|] eqn:E.
      - destruct (native_nth f id b Hn E) as [H1 H2]. rewrite (flat_nth f id b E), flat_getitem by assumption. destruct (getitem little content b None); [|reflexivity]. cbn [bind flat_b b_dtype]. now rewrite flat_numbers.
      - now rewrite (flat_none f id E). }
    destruct e as [id attrs|[attrs ds gs]]; apply H.
  Qed.
  Lemma flat_exec p : plain p -> forall f, native_file f -> native_file (fst (exec little content p f)) /\ exec little content (flat p) (flat_f f) = (flat_f (fst (exec little content p f)), snd (exec little content p f)).
  Proof.
    induction 1 as [| |name d shape is_attr k Hd Hk IH|name k Hk IH|grp name k Hk IH|off k Hk IH]; intros f Hn; cbn [flat exec].
    - auto.
    - auto.
    - unfold f_add. cbn [flat_f f_tree f_blocks]. rewrite map_length. destruct (add_block _ _ _ _ _) as [g r]. destruct r as [on_dset|e].
      + cbn [flat_f f_off f_endian].
        match goal with |- context [exec little content k ?f'] => set (f1 := f') end.
        assert (native_file f1) as Hn1. { destruct Hn as [H1 H2]. subst f1. split; [exact H1|]. cbn [push set_tree f_blocks f_endian]. apply Forall_app. split; [exact H2|]. apply Forall_cons; [|constructor]. split; [|exact Hd]. cbn [b_endian]. destruct on_dset; [reflexivity | exact H1]. }
        destruct (IH f1 Hn1) as [A B]. split; [exact A|]. rewrite <- B. f_equal. unfold f1, flat_f, push, set_tree. cbn [f_off f_endian f_blocks f_tree f_rec]. rewrite map_app. cbn [map]. f_equal. exact (f_equal (Z.add (f_off f)) (flat_nbytes {| b_dtype := d; b_off := f_off f; b_shape := shape; b_endian := if on_dset then NAT else f_endian f |})).
      + cbn [fst snd]. split; [exact Hn | reflexivity].
    - rewrite flat_read by exact Hn. destruct (read_dataset little content f name) as [v|e]; [apply IH; exact Hn | cbn [fst snd]; auto].
    - rewrite flat_attr by exact Hn. destruct (read_attr little content f grp name) as [v|e]; [apply IH; exact Hn | cbn [fst snd]; auto].
    - cbn [flat_f f_off]. destruct (f_off f =? off); [apply IH; exact Hn | cbn [fst snd]; auto].
  Qed.
  Lemma new_native : native_file new_file. Proof. split; [reflexivity | constructor]. Qed.
  Lemma flat_used f : all_bytes_used content (flat_f f) = all_bytes_used content f.
  Proof.
    unfold all_bytes_used, sorted_blocks. cbn [flat_f f_blocks]. rewrite (sort_by_map flat_b) by reflexivity. set (s := sort_by ZOrd b_off (f_blocks f)).
    rewrite !map_map. cbn [flat_b b_off]. rewrite (map_ext (fun b => b_nbytes (flat_b b)) b_nbytes flat_nbytes). change (map (fun x => b_off x) s) with (map b_off s).
    assert (zlen (map flat_b s) = zlen s) as -> by (unfold zlen; now rewrite map_length). reflexivity.
  Qed.
  Lemma flat_reads pieces f : native_file f -> reads_back little content pieces (flat_f f) -> reads_back little content pieces f.
  Proof.
    intros Hn (H1 & H2 & H3 & H4). split; [|split; [|split]]; [| | exact H3 | exact H4].
    - intros name size shape vals Hin. destruct (H1 _ _ _ _ Hin) as (id & attrs & b & items & A & B & C & D & E & F). cbn [flat_f f_blocks f_tree] in A, B. rewrite nth_error_map in B. destruct (nth_error (f_blocks f) id) as [b'|] eqn:Eb; [|discriminate]. injection B as <-.
      destruct (native_nth f id b' Hn Eb) as [N1 N2]. rewrite flat_getitem in E by assumption. cbn [flat_b b_shape b_dtype] in *. rewrite flat_size in D. rewrite flat_numbers in F by assumption. exists id, attrs, b', items. repeat split; assumption.
    - intros grp name full size shape vals Hin Hk. destruct (H2 _ _ _ _ _ _ Hin Hk) as (attrs & ds & gs & id & b & items & A & A' & B & C & D & E & F). cbn [flat_f f_blocks f_tree] in A, B. rewrite nth_error_map in B. destruct (nth_error (f_blocks f) id) as [b'|] eqn:Eb; [|discriminate]. injection B as <-.
      destruct (native_nth f id b' Hn Eb) as [N1 N2]. rewrite flat_getitem in E by assumption. cbn [flat_b b_shape b_dtype] in *. rewrite flat_size in D. rewrite flat_numbers in F by assumption. exists attrs, ds, gs, id, b', items. repeat split; assumption.
  Qed.
End Flat.
Lemma plain_opens p pieces little rest : plain p -> opens (flat p) pieces little little rest -> opens p pieces little little rest.
Proof.
  intros Hp (f & E & R & O & U). set (content := file_bytes little pieces ++ rest) in *. unfold open_file in E. change new_file with (flat_f new_file) in E. destruct (flat_exec little content p Hp new_file new_native) as [Hn E']. rewrite E' in E. injection E as E1 E2.
  exists (fst (exec little content p new_file)). fold content. unfold open_file. rewrite <- E2. split; [now destruct (exec little content p new_file)|].
  rewrite <- E1 in R, O, U. split; [now apply flat_reads|]. split; [|rewrite <- flat_used; exact U].
  unfold order_is in *. cbn [flat_f f_blocks] in O. rewrite Forall_map in O. exact O.
Qed.

(** *** the bytes of structures *)
Lemma base256_le l : base256 l = le_value l.
Proof. induction l as [|b l IH]; [reflexivity|]. cbn. now rewrite IH. Qed.
Lemma as_number_value little l : as_number little l = endian_value little NAT l.
Proof. unfold as_number, endian_value. rewrite base256_le. cbn [big_or_little]. destruct little; reflexivity. Qed.
Lemma isbytes_rev l : isbytes l -> isbytes (rev l).
Proof. unfold isbytes. intro H. apply Forall_forall. intros x Hx. apply in_rev in Hx. rewrite Forall_forall in H. now apply H. Qed.
Lemma as_number_inj little a b : isbytes a -> isbytes b -> zlen a = zlen b -> as_number little a = as_number little b -> a = b.
Proof.
  intros Ha Hb Hl. assert (List.length a = List.length b) as Hl' by (unfold zlen in Hl; lia). unfold as_number. rewrite !base256_le. destruct little.
  - now apply le_value_inj.
  - intro E. apply le_value_inj in E; [|now apply isbytes_rev | now apply isbytes_rev | now rewrite !rev_length]. apply (f_equal (@rev Z)) in E. now rewrite !rev_involutive in E.
Qed.
Lemma as_number_range little a : isbytes a -> 0 <= as_number little a < 256 ^ zlen a.
Proof.
  intro H. unfold as_number. rewrite base256_le. destruct little; [now apply le_value_range|]. assert (zlen (rev a) = zlen a) as <- by (unfold zlen; now rewrite rev_length). apply le_value_range. now apply isbytes_rev.
Qed.
Lemma as_number_bytes little a : isbytes a -> number_bytes little (zlen a) (as_number little a) = a.
Proof.
  intro H. unfold number_bytes, as_number. rewrite digits_le, base256_le. unfold zlen. rewrite Nat2Z.id. destruct little; [now apply le_value_bytes|].
  rewrite <- (rev_length a), le_value_bytes by now apply isbytes_rev. apply rev_involutive.
Qed.
Lemma images_bytes little size images : Forall (fun a => isbytes a /\ zlen a = size) images -> concat (map (number_bytes little size) (map (as_number little) images)) = concat images.
Proof.
  intro H. f_equal. rewrite map_map. rewrite <- (map_id images) at 2. apply map_ext_in. intros a Ha. rewrite Forall_forall in H. destruct (H a Ha) as [Hb <-]. now apply as_number_bytes.
Qed.
Lemma number_isbytes lf size v : isbytes (number_bytes lf size v).
Proof. unfold number_bytes. rewrite digits_le. destruct lf; [apply le_bytes_bytes | apply isbytes_rev, le_bytes_bytes]. Qed.
Lemma pieces_isbytes lf pieces : Forall (fun p => match p with Raw _ => False | _ => True end) pieces -> isbytes (file_bytes lf pieces).
Proof.
  intro H. unfold file_bytes. unfold isbytes. apply Forall_concat. apply Forall_map. rewrite Forall_forall in *. intros p Hp. specialize (H p Hp). destruct p; cbn [piece_bytes]; [|apply number_isbytes|contradiction].
  apply Forall_concat. apply Forall_map. apply Forall_forall. intros v _. apply number_isbytes.
Qed.
Lemma zslice_isbytes l a b : isbytes l -> isbytes (zslice l a b).
Proof. unfold isbytes, zslice. intro H. apply Forall_forall. intros x Hx. rewrite Forall_forall in H. apply H. rewrite <- (firstn_skipn (Z.to_nat a) l). apply in_or_app. right. rewrite <- (firstn_skipn (Z.to_nat b - Z.to_nat a) (skipn (Z.to_nat a) l)). apply in_or_app. now left. Qed.
