(** The lemmas behind the properties of BinaryProps.v, in the form used there. *)
From Coq Require Import Ascii.
From Verif.Base Require Import Prelude ListLemmas Order.
From Verif.Binary Require Import BinModel NameProofs LayoutProofs EndianProofs FortranProofs UsedProofs CacheModel CacheProofs.
From Coq Require Import ZifyBool ZifyNat Permutation Sorted.
Local Open Scope Z_scope.

(** *** C32 *)
Lemma positions_final little content ops o :
  let f := run little content ops new_file in
  let f' := run little content (ops ++ [o]) new_file in
  (map place (f_blocks f') = map place (f_blocks f) /\ f_off f' = f_off f + match o with OSkip n => n | _ => 0 end) \/
  exists b, map place (f_blocks f') = map place (f_blocks f) ++ [place b] /\ b_off b = f_off f /\ f_off f' = f_off f + b_nbytes b.
Proof. cbv zeta. assert (run little content (ops ++ [o]) new_file = run_op little content (run little content ops new_file) o) as -> by (unfold run; now rewrite fold_left_app). apply run_op_step. Qed.
Lemma no_skip_Forall ops : (forall n, ~ In (OSkip n) ops) -> Forall no_skip ops.
Proof. intro H. apply Forall_forall. intros [| n | | | | | |] Ho; cbn; auto. exact (H n Ho). Qed.
Lemma btb_nth : forall l s e i b, back_to_back l s e -> nth_error l i = Some b -> b_off b = s + sumZ (map b_nbytes (firstn i l)).
Proof. induction l as [|b0 l IH]; intros s e [|i] b H E; try discriminate; apply btb_cons in H; destruct H as [H1 H2]; cbn in E; [injection E as <-; cbn; lia|]. rewrite (IH _ _ _ _ H2 E). cbn [firstn map sumZ]. lia. Qed.
Lemma back_to_back_final little content ops : (forall n, ~ In (OSkip n) ops) ->
  let f := run little content ops new_file in
  forall i b, nth_error (f_blocks f) i = Some b ->
    b_off b = sumZ (map b_nbytes (firstn i (f_blocks f))) /\
    f_off f = sumZ (map b_nbytes (f_blocks f)).
Proof.
  intros H f i b E. pose proof (run_btb little content ops (no_skip_Forall ops H) new_file eq_refl) as B. fold f in B. split; [apply (btb_nth _ _ _ _ _ B E) | apply (btb_sum _ _ _ B)].
Qed.
Lemma no_overlap_final little content ops : Forall fwd_skip ops ->
  let f := run little content ops new_file in
  forall i j b b', (i < j)%nat -> nth_error (f_blocks f) i = Some b -> nth_error (f_blocks f) j = Some b' ->
    0 <= b_off b /\ b_off b + b_nbytes b <= b_off b' /\ b_off b' + b_nbytes b' <= f_off f.
Proof.
  intros H f i j b b' Hij E E'. pose proof (run_order little content ops H new_file ltac:(cbn; lia)) as B. fold f in B. destruct (order_disjoint _ _ _ B) as [_ D]. destruct (D i j b b' Hij E E') as (D1 & D2 & D3). auto.
Qed.
Lemma read_final little content b items : dtype_ok (b_dtype b) -> getitem little content b None = Ok items ->
  zlen items = b_size b /\ 0 <= b_off b /\ b_off b + b_nbytes b <= zlen content /\
  exists swap, forall k, 0 <= k < b_size b ->
    let own := zslice content (b_off b + itemsize (b_dtype b) * k) (b_off b + itemsize (b_dtype b) * (k + 1)) in
    zlen own = itemsize (b_dtype b) /\
    nth (Z.to_nat k) items [] = if swap : bool then concat (map (@rev Z) (split_fields (dt_fields (b_dtype b)) own)) else own.
Proof.
  intros Hd E. pose proof (getitem_iff little content b items E) as R. destruct (items_len little content b items Hd E) as [H1 H2]. split; [exact H2|]. split; [apply R|]. split; [apply R|]. exists (swapped little b). intros k Hk own.
  assert (nth (Z.to_nat k) (stored content b) [] = own) as Hst. { unfold stored, view. rewrite (nth_indep _ [] (zslice content (b_off b + itemsize (b_dtype b) * 0) (b_off b + itemsize (b_dtype b) * (0 + 1)))) by (rewrite map_length, zseq_length; lia). rewrite (map_nth (fun k => zslice content (b_off b + itemsize (b_dtype b) * k) (b_off b + itemsize (b_dtype b) * (k + 1)))). rewrite nth_zseq by lia. rewrite Z.add_0_l, Z2Nat.id by lia. reflexivity. }
  assert (length (stored content b) = Z.to_nat (b_size b)) as Hl by (unfold stored, view; now rewrite map_length, zseq_length).
  pose proof (stored_len content b Hd R) as Hls. rewrite Forall_forall in Hls. split; [apply Hls; rewrite <- Hst; apply nth_In; lia|]. rewrite (getitem_ok little content b R) in E. injection E as <-.
  destruct (swapped little b); [|exact Hst]. rewrite (nth_indep _ [] (swap_item (b_dtype b) [])) by (rewrite map_length; lia). rewrite map_nth, Hst. reflexivity.
Qed.
Lemma select_final little content b items idx : getitem little content b None = Ok items -> getitem little content b (Some idx) = np_take items idx.
Proof. apply getitem_key. Qed.
Lemma past_end_final little content b key : 0 <= b_off b -> zlen content < b_off b + b_nbytes b -> forall items, getitem little content b key <> Ok items.
Proof.
  intros H1 H2 items. destruct content as [|c content]; [discriminate|]. rewrite getitem_past by (try assumption; discriminate). discriminate.
Qed.

(** *** C33 *)
Lemma values_final little content b items : plain (b_dtype b) -> valid_endian (b_endian b) = true -> getitem little content b None = Ok items ->
  map (item_values little (mem_endian little (b_dtype b)) (b_dtype b)) items =
  map (item_values little (b_endian b) (b_dtype b)) (view content (b_off b) (itemsize (b_dtype b)) (b_size b)).
Proof.
  intros Hp Hv E. destruct (getitem_values little content b (proj1 Hp) Hp (getitem_iff little content b items E) Hv) as (items' & H1 & _ & H3). rewrite E in H1. injection H1 as <-. exact H3.
Qed.
Lemma opposite_final little content content' b e e' items : plain (b_dtype b) ->
  valid_endian e = true -> valid_endian e' = true -> big_or_little little e <> big_or_little little e' ->
  zlen content' = zlen content ->
  view content' (b_off b) (itemsize (b_dtype b)) (b_size b) = map (swap_item (b_dtype b)) (view content (b_off b) (itemsize (b_dtype b)) (b_size b)) ->
  getitem little content (set_b_endian e b) None = Ok items -> getitem little content' (set_b_endian e' b) None = Ok items.
Proof.
  intros Hp Ve Ve' Hne Hlen Hst E. rewrite <- E. pose proof (getitem_iff _ _ _ _ E) as R. apply getitem_opposite; try assumption. destruct R as (R1 & R2 & R3 & R4 & R5). split; [|split; [exact R2|]; split; [rewrite Hlen; exact R3|]; split; [exact R4 | intros _; exact Ve']].
  intros ->. symmetry in Hlen. change (zlen (@nil Z)) with 0 in Hlen. apply zlen_0_nil in Hlen. contradiction.
Qed.
Lemma structured_final : ~ (forall little content b items, dtype_ok (b_dtype b) -> valid_endian (b_endian b) = true -> getitem little content b None = Ok items ->
  map (item_values little (mem_endian little (b_dtype b)) (b_dtype b)) items =
  map (item_values little (b_endian b) (b_dtype b)) (view content (b_off b) (itemsize (b_dtype b)) (b_size b))).
Proof.
  intro H. specialize (H true [0; 1; 0; 2] {| b_dtype := {| dt_order := NA; dt_fields := [2; 2] |}; b_off := 0; b_shape := []; b_endian := BE |} [[0; 1; 0; 2]] ltac:(repeat constructor; lia) eq_refl eq_refl). vm_compute in H. discriminate H.
Qed.

(** *** C34 *)
Lemma set_final e f :
  if valid_endian e then snd (set_endian e f) = Ok tt /\ f_endian (fst (set_endian e f)) = e /\ Forall (fun b => b_endian b = e) (f_blocks (fst (set_endian e f)))
  else set_endian e f = (f, Err EValue).
Proof. destruct (valid_endian e) eqn:E; [|now apply set_invalid]. destruct (set_all e f E) as (H1 & H2 & H3). unfold agree in H3. rewrite H2 in H3. auto. Qed.
Lemma history_final little content ops : clean little content new_file ops ->
  let f := run little content ops new_file in Forall (fun b => b_endian b = f_endian f) (f_blocks f) /\ valid_endian (f_endian f) = true.
Proof. intros H f. destruct (run_good little content ops new_file new_good H) as (H1 & _ & H3). auto. Qed.
Definition i16 : dtype := {| dt_order := NAT; dt_fields := [2] |}.
Definition nm (c : ascii) : str := [c].
Lemma attribute_final : ~ (forall little content ops, (forall o, In o ops -> o <> OToggle /\ o <> OEnd) ->
  let f := run little content ops new_file in Forall (fun b => b_endian b = f_endian f) (f_blocks f)).
Proof.
  intro H. specialize (H true [] [OSet BE; OAdd (nm "a") i16 [] false; OAdd ["a"%char; "/"%char; "x"%char] i16 [] true]).
  assert (forall o, In o [OSet BE; OAdd (nm "a") i16 [] false; OAdd ["a"%char; "/"%char; "x"%char] i16 [] true] -> o <> OToggle /\ o <> OEnd) as Ho by (intros o [<-|[<-|[<-|[]]]]; split; discriminate).
  specialize (H Ho). vm_compute in H. apply Forall_cons_iff in H. destruct H as [_ H]. apply Forall_cons_iff in H. destruct H as [H _]. discriminate H.
Qed.
Lemma toggle_final : ~ (forall little content ops, (forall name d s, ~ In (OAdd name d s true) ops) ->
  let f := run little content ops new_file in Forall (fun b => b_endian b = f_endian f) (f_blocks f)).
Proof.
  intro H. specialize (H true [] [OSet BE; OAdd (nm "a") i16 [] false; OToggle] ltac:(intros name d s [C|[C|[C|[]]]]; discriminate C)). vm_compute in H. apply Forall_cons_iff in H. destruct H as [H _]. discriminate H.
Qed.
Lemma toggle_twice_final : ~ (forall little f, Forall (fun b => b_endian b = f_endian f) (f_blocks f) -> valid_endian (f_endian f) = true ->
  map (fun b => big_or_little little (b_endian b)) (f_blocks (fst (toggle_byteswap little (fst (toggle_byteswap little f))))) = map (fun b => big_or_little little (b_endian b)) (f_blocks f)).
Proof.
  intro H. specialize (H true (run true [] [OAdd (nm "a") i16 [] false] new_file) ltac:(vm_compute; repeat constructor) eq_refl). vm_compute in H. discriminate H.
Qed.
Lemma history_example :
  let ops := [OAdd (nm "a") i16 [2] false; OToggle; OAdd ["g"%char; "/"%char; "b"%char] i16 [] true; OSet LE; OAdd (nm "c") i16 [2] false] in
  clean true [] new_file ops /\ map b_endian (f_blocks (run true [] ops new_file)) = [LE; LE; LE].
Proof.
  cbv zeta. split; [|reflexivity]. cbn [clean clean_op]. repeat split; try exact I. intros (n & id & a & Hn & Hf). vm_compute in Hn. destruct n as [|[|n]]; [lia| |lia]. vm_compute in Hf. discriminate Hf.
Qed.

(** *** C35 *)
(** [f] is at a record with a payload of the given length whose markers are in byte order [e]; [f2] is
    the file after reading the payload *)
Definition at_record (little : bool) (content pre m1 payload m2 post : list Z) (auto : bool) (f f2 : file) : Prop :=
  content = pre ++ m1 ++ payload ++ m2 ++ post /\ f_off f = zlen pre /\ f_rec f = None /\ valid_endian (f_endian f) = true /\
  let f1 := fst (start_fortran_record little content auto f) in
  f_rec f2 = f_rec f1 /\ f_off f2 = f_off f1 + zlen payload /\ f_endian f2 = f_endian f1.
Lemma start_final little content pre m1 payload m2 post auto f : content = pre ++ m1 ++ payload ++ m2 ++ post -> length m1 = 4%nat -> length m2 = 4%nat -> isbytes m1 -> isbytes m2 ->
  f_off f = zlen pre -> f_rec f = None -> valid_endian (f_endian f) = true ->
  let f1 := fst (start_fortran_record little content auto f) in
  snd (start_fortran_record little content auto f) = Ok tt /\ f_off f1 = zlen pre + 4 /\ f_endian f1 = f_endian f.
Proof. intros H1 H2 H3 H4 H5 H6 H7 H8. destruct (start_ok little content pre m1 payload m2 post auto f H1 (conj H4 H2) (conj H5 H3) H6 H7 H8) as (J1 & J2 & J3 & _). auto. Qed.
Lemma same_order_final little content pre payload post e auto f f2 : (e = LE \/ e = BE) -> zlen payload < 2 ^ 31 -> (auto = true -> zlen payload <= 65535) ->
  at_record little content pre (marker e (zlen payload)) payload (marker e (zlen payload)) post auto f f2 -> big_or_little little (f_endian f) = e ->
  let '(f3, r) := end_fortran_record little content f2 in
  r = Ok tt /\ f_off f3 = zlen pre + 4 + zlen payload + 4 /\ f_rec f3 = None /\ f_endian f3 = f_endian f /\
  forall i b, nth_error (f_blocks f2) i = Some b -> nth_error (f_blocks f3) i = Some b.
Proof.
  intros He Hl Ha (H1 & H2 & H3 & H4 & H5 & H6 & H7) Hm. destruct (wf_matching little content pre payload post e auto f H1 He Hl H2 H3 H4 f2 H5 H6 H7 Hm Ha) as [J1 J2]. destruct (wf_start little content pre payload post e auto f H1 H2 H3 H4) as (_ & _ & S). rewrite J1 in *. cbn [fst] in J2. split; [reflexivity|]. split; [exact J2|]. split; [reflexivity|]. split; [cbn [set_rec push f_endian]; congruence|].
  intros i b E. cbn [set_rec push f_blocks]. rewrite nth_error_app1; [exact E | apply nth_error_Some; congruence].
Qed.
Lemma detected_final little content pre payload post e f f2 : (e = LE \/ e = BE) -> 1 <= zlen payload <= 65535 ->
  at_record little content pre (marker e (zlen payload)) payload (marker e (zlen payload)) post true f f2 -> big_or_little little (f_endian f) <> e ->
  let '(f3, r) := end_fortran_record little content f2 in
  r = Ok tt /\ f_off f3 = zlen pre + 4 + zlen payload + 4 /\ f_rec f3 = None /\ big_or_little little (f_endian f3) = e /\
  (f_endian f = NAT -> Forall (fun b => big_or_little little (b_endian b) = e) (f_blocks f3)).
Proof.
  intros He Hl (H1 & H2 & H3 & H4 & H5 & H6 & H7) Hm. destruct (wf_opposite_auto little content pre payload post e true f H1 He ltac:(lia) H2 H3 H4 f2 H5 H6 H7 Hm eq_refl Hl) as (J1 & J2 & J3 & J4). rewrite J1 in *. cbn [fst] in *. split; [reflexivity|]. split; [exact J3|]. split; [reflexivity|]. split; [exact J2|].
  intro En. specialize (J4 En). eapply Forall_impl; [|exact J4]. cbn beta. intros b Hb. rewrite Hb. exact J2.
Qed.
Lemma not_swapped_final little content pre payload post e f f2 : (e = LE \/ e = BE) -> 1 <= zlen payload <= 65535 ->
  at_record little content pre (marker e (zlen payload)) payload (marker e (zlen payload)) post false f f2 -> big_or_little little (f_endian f) <> e ->
  snd (end_fortran_record little content f2) = Err EIO.
Proof. intros He Hl (H1 & H2 & H3 & H4 & H5 & H6 & H7) Hm. apply (wf_opposite_plain little content pre payload post e false f H1 He ltac:(lia) H2 H3 H4 f2 H5 H6 H7 Hm eq_refl). now apply bswap_differs. Qed.
Lemma wrong_final little content pre m1 payload m2 post auto f f2 : length m1 = 4%nat -> length m2 = 4%nat -> isbytes m1 -> isbytes m2 ->
  at_record little content pre m1 payload m2 post auto f f2 ->
  m1 <> m2 \/ (signed32 (le_value m1) <> zlen payload /\ signed32 (le_value (rev m1)) <> zlen payload) ->
  snd (end_fortran_record little content f2) = Err EIO.
Proof. intros L1 L2 B1 B2 (H1 & H2 & H3 & H4 & H5 & H6 & H7) Hw. apply (end_wrong little content pre m1 payload m2 post auto f f2 H1 (conj B1 L1) (conj B2 L2) H2 H3 H4 H5 H6 H7 Hw). Qed.
Lemma explicit_final : ~ (forall little content pre payload post e f f2, (e = LE \/ e = BE) -> 1 <= zlen payload <= 65535 ->
  at_record little content pre (marker e (zlen payload)) payload (marker e (zlen payload)) post true f f2 -> big_or_little little (f_endian f) <> e ->
  Forall (fun b => big_or_little little (b_endian b) = e) (f_blocks (fst (end_fortran_record little content f2)))).
Proof.
  intro H. pose (content := [0; 0; 0; 2; 1; 44; 0; 0; 0; 2]). pose (f := fst (set_endian LE new_file)). specialize (H true content [] [1; 44] [] BE f (fst (f_add (nm "x") i16 [] false (fst (start_fortran_record true content true f)))) ltac:(auto) ltac:(vm_compute; split; discriminate) ltac:(vm_compute; repeat split) ltac:(vm_compute; discriminate)).
  vm_compute in H. apply Forall_cons_iff in H. destruct H as [H _]. discriminate H.
Qed.
Lemma empty_final : ~ (forall little content pre payload post e f f2, (e = LE \/ e = BE) -> 0 <= zlen payload <= 65535 ->
  at_record little content pre (marker e (zlen payload)) payload (marker e (zlen payload)) post true f f2 ->
  big_or_little little (f_endian (fst (end_fortran_record little content f2))) = e).
Proof.
  intro H. pose (content := [0; 0; 0; 0; 0; 0; 0; 0]). specialize (H true content [] [] [] BE new_file (fst (start_fortran_record true content true new_file)) ltac:(auto) ltac:(vm_compute; split; discriminate) ltac:(vm_compute; repeat split)). vm_compute in H. discriminate H.
Qed.

(** *** C36 *)
Lemma used_final little content ops : (forall n, ~ In (OSkip n) ops) -> Forall fwd_skip ops ->
  let f := run little content ops new_file in f_off f = zlen content -> all_bytes_used content f = true.
Proof.
  intros H1 H2 f Hf. pose proof (run_btb little content ops (no_skip_Forall ops H1) new_file eq_refl) as B. pose proof (run_order little content ops H2 new_file ltac:(cbn; lia)) as O. fold f in B, O. rewrite Hf in *. apply used_in_sequence; [|exact B]. apply Forall_forall. intros b Hb. destruct (order_range _ _ _ b O Hb) as (_ & H & _). exact H.
Qed.
Lemma cover_btb : forall l s e, StronglySorted (fun a b => b_off a <= b_off b) l -> Forall (fun b => 0 < b_nbytes b /\ s <= b_off b /\ b_off b + b_nbytes b <= e) l -> s <= e ->
  (forall k, s <= k < e -> length (filter (covers k) l) = 1%nat) -> back_to_back l s e.
Proof.
  induction l as [|b l IH]; intros s e Hs Hb Hle Hc.
  - unfold back_to_back. destruct (Z.eq_dec s e) as [|Hn]; [assumption|]. specialize (Hc s ltac:(lia)). discriminate Hc.
  - apply Forall_cons_iff in Hb. destruct Hb as [(B1 & B2 & B3) Hb]. inversion Hs as [|? ? Hs1 Hs2 E]; clear Hs. apply btb_cons.
    assert (b_off b = s) as Hoff. { destruct (Z.eq_dec (b_off b) s) as [|Hn]; [assumption|]. specialize (Hc s ltac:(lia)). exfalso. assert (filter (covers s) (b :: l) = []) as E0; [|rewrite E0 in Hc; discriminate Hc]. cbn [filter]. unfold covers at 1. replace (b_off b <=? s) with false by lia. cbn [andb]. clear -Hs2 Hn B2. induction Hs2 as [|x l Hx _ IH]; [reflexivity|]. cbn [filter]. unfold covers at 1. replace (b_off x <=? s) with false by lia. exact IH. }
    split; [exact Hoff|]. apply IH; [exact Hs1 | | lia |].
    + apply Forall_forall. intros x Hx. rewrite Forall_forall in Hb, Hs2. specialize (Hb x Hx). specialize (Hs2 x Hx). split; [lia|]. split; [|lia]. destruct (Z.le_gt_cases (s + b_nbytes b) (b_off x)) as [|Hlt]; [assumption|]. exfalso. specialize (Hc (b_off x) ltac:(lia)). cbn [filter] in Hc. unfold covers at 1 in Hc. replace ((b_off b <=? b_off x) && (b_off x <? b_off b + b_nbytes b)) with true in Hc by lia. cbn [length] in Hc. injection Hc as Hc.
      assert (In x (filter (covers (b_off x)) l)) as Hin by (apply filter_In; split; [exact Hx | unfold covers; lia]). destruct (filter (covers (b_off x)) l); [contradiction | discriminate Hc].
    + intros k Hk. rewrite <- (Hc k ltac:(lia)). cbn [filter]. unfold covers at 2. replace ((b_off b <=? k) && (k <? b_off b + b_nbytes b)) with false by lia. reflexivity.
Qed.
Lemma used_any_order content f : Forall (fun b => 0 < b_nbytes b /\ 0 <= b_off b /\ b_off b + b_nbytes b <= zlen content) (f_blocks f) ->
  (forall k, 0 <= k < zlen content -> length (filter (fun b => (b_off b <=? k) && (k <? b_off b + b_nbytes b)) (f_blocks f)) = 1%nat) ->
  all_bytes_used content f = true.
Proof.
  intros Hb Hc. apply used_iff. apply cover_btb; [| now apply sorted_Forall | unfold zlen; lia |].
  - pose proof (sort_by_sorted_keys ZOrd b_off (f_blocks f)) as S. unfold sorted in S. apply StronglySorted_map in S. eapply StronglySorted_weaken; [|exact S]. cbn. intros a b E. lia.
  - intros k Hk. rewrite (filter_perm_length _ _ _ (sorted_perm f)). now apply Hc.
Qed.
Lemma hash_unused little content f : all_bytes_used content f = false -> hash_stream little content f = Err EIO.
Proof. intro H. unfold hash_stream. now rewrite H. Qed.

(** *** C38 *)
Lemma reachable_inv openable ops : cinv MAX_FILES (run_cops openable MAX_FILES ops no_files).
Proof. apply run_inv; [vm_compute; discriminate | exact (init_inv openable MAX_FILES ltac:(vm_compute; discriminate))]. Qed.
Lemma cache_bound_final openable ops : zlen (filter (fun e : Z * bool => snd e) (c_maps (run_cops openable MAX_FILES ops no_files))) <= 32.
Proof. apply (n_open_bound MAX_FILES). apply reachable_inv. Qed.
Lemma cache_reads_final openable ops d fname file : let s := run_cops openable MAX_FILES ops no_files in
  nth_error (c_dsets s) d = Some (fname, file) ->
  let '(s', r) := mmap_file openable MAX_FILES d s in
  if openable fname then exists m, r = Ok m /\ nth_error (c_maps s') m = Some (fname, true) /\ nth_error (c_dsets s') d = Some (fname, Some m)
  else (r = Err EIO \/ exists m, r = Ok m /\ nth_error (c_maps s') m = Some (fname, true)).
Proof.
  intros s Hd. destruct (mmap_spec openable MAX_FILES ltac:(unfold MAX_FILES; lia) s d fname file (reachable_inv openable ops) Hd) as [_ H]. destruct (mmap_file openable MAX_FILES d s) as [s' [m|e]]; cbn [fst snd] in H.
  - destruct (openable fname); [eauto | right; exists m; split; [reflexivity | apply H]].
  - destruct H as [-> ->]. now left.
Qed.
Lemma cache_one_final openable ops m m' f : let s := run_cops openable MAX_FILES ops no_files in
  nth_error (c_maps s) m = Some (f, true) -> nth_error (c_maps s) m' = Some (f, true) -> m = m'.
Proof. intros s H H'. exact (open_unique MAX_FILES s m m' f (reachable_inv openable ops) H H'). Qed.

(** *** C39 *)
Lemma added_final name d shape f : g_getitem (f_tree f) name = Err EKey -> ~ through_dataset (f_tree f) (keys name) ->
  snd (f_add name d shape false f) = Ok tt /\
  forall name', keys name' = keys name -> g_getitem (f_tree (fst (f_add name d shape false f))) name' = Ok (EDset (length (f_blocks f)) []).
Proof. intros H1 H2. apply f_add_dataset. split; [|exact H2]. rewrite getitem_find in H1. destruct (find (f_tree f) (keys name)); [discriminate | reflexivity]. Qed.
Lemma refused_final name d shape f : (exists e, g_getitem (f_tree f) name = Ok e) \/ through_dataset (f_tree f) (keys name) ->
  f_add name d shape false f = (f, Err EKey).
Proof.
  intro H. destruct (proj2 (f_add_dataset name d shape f)) as [H1 H2]; [|destruct (f_add name d shape false f); cbn in *; congruence]. destruct H as [[e H]|H]; [left | now right]. rewrite getitem_find in H. destruct (find (f_tree f) (keys name)); discriminate.
Qed.
Lemma kept_final name d shape is_attr f name' :
  match g_getitem (f_tree f) name' with
  | Ok (EDset id attrs) => exists attrs', g_getitem (f_tree (fst (f_add name d shape is_attr f))) name' = Ok (EDset id attrs') /\ (forall k v, get k attrs = Some v -> get k attrs' = Some v)
  | Ok (EGroup _) => exists g, g_getitem (f_tree (fst (f_add name d shape is_attr f))) name' = Ok (EGroup g)
  | Err _ => True
  end.
Proof.
  destruct (g_getitem (f_tree f) name') as [e|] eqn:E; [|exact I]. destruct (f_add_keeps name d shape is_attr f name' e E) as (e' & E' & H). destruct e as [id attrs|g], e' as [id' attrs'|g']; cbn in H; try contradiction.
  - destruct H as [-> H]. eauto.
  - eauto.
Qed.
Lemma error_final name d shape is_attr f e : snd (f_add name d shape is_attr f) = Err e -> e = EKey /\ fst (f_add name d shape is_attr f) = f.
Proof. intro H. destruct (f_add_error name d shape is_attr f e H) as [H1 H2]. auto. Qed.

(** *** C58 *)
Lemma disjoint_order : forall l s e, StronglySorted (fun a b => b_off a <= b_off b) l -> Forall (fun b => 0 < b_nbytes b /\ s <= b_off b /\ b_off b + b_nbytes b <= e) l -> s <= e ->
  ForallOrdPairs (fun b b' => b_off b + b_nbytes b <= b_off b' \/ b_off b' + b_nbytes b' <= b_off b) l -> in_order l s e.
Proof.
  induction l as [|b l IH]; intros s e Hs Hb Hle Hd; [exact Hle|]. apply Forall_cons_iff in Hb. destruct Hb as [(B1 & B2 & B3) Hb]. inversion Hs as [|? ? Hs1 Hs2 E]; clear Hs. inversion Hd as [|? ? Hd1 Hd2 E']; clear Hd. cbn [in_order]. split; [exact B2|]. split; [lia|]. apply IH; [exact Hs1 | | lia | exact Hd2].
  rewrite Forall_forall in *. intros x Hx. specialize (Hb x Hx). specialize (Hs2 x Hx). specialize (Hd1 x Hx). lia.
Qed.
Lemma fop_nth {A} (R : A -> A -> Prop) : forall l, (forall i j a b, i <> j -> nth_error l i = Some a -> nth_error l j = Some b -> R a b) -> ForallOrdPairs R l.
Proof.
  induction l as [|x l IH]; intro H; constructor.
  - apply Forall_forall. intros y Hy. apply In_nth_error in Hy. destruct Hy as (n & Hn). apply (H O (S n)); [lia | reflexivity | exact Hn].
  - apply IH. intros i j a b Hij Hi Hj. apply (H (S i) (S j)); [lia | exact Hi | exact Hj].
Qed.
Lemma fop_perm {A} (R : A -> A -> Prop) (Hsym : forall a b, R a b -> R b a) l l' : Permutation l l' -> ForallOrdPairs R l -> ForallOrdPairs R l'.
Proof.
  induction 1 as [|x l l' P IH|x y l|l l1 l2 _ IH1 _ IH2]; intro H; [constructor | | | auto].
  - inversion H as [|? ? H1 H2]; subst. constructor; [|auto]. rewrite Forall_forall in *. intros z Hz. apply H1. apply (Permutation_in _ (Permutation_sym P)). exact Hz.
  - inversion H as [|? ? H1 H2]; subst. inversion H2 as [|? ? H3 H4]; subst. apply Forall_cons_iff in H1. destruct H1 as [H0 H1]. constructor; [constructor; [now apply Hsym | exact H3] | constructor; assumption].
Qed.
Lemma written_final little content endian f :
  match endian with Some e => valid_endian e = true | None => True end ->
  (forall i j b b', i <> j -> nth_error (f_blocks f) i = Some b -> nth_error (f_blocks f) j = Some b' -> b_off b + b_nbytes b <= b_off b' \/ b_off b' + b_nbytes b' <= b_off b) ->
  Forall (fun b => plain (b_dtype b) /\ 0 < b_nbytes b /\ exists items, getitem little content b None = Ok items) (f_blocks f) ->
  exists out, write_binary little content true endian f = Ok out /\
    (forall b, In b (f_blocks f) -> let e := match endian with Some e => e | None => mem_endian little (b_dtype b) end in
       getitem little out (set_b_endian e b) None = getitem little content b None) /\
    (forall k, (forall b, In b (f_blocks f) -> ~ (b_off b <= Z.of_nat k < b_off b + b_nbytes b)) -> nth k out 0 = 0).
Proof.
  intros He Hdis Hb. rewrite Forall_forall in Hb. assert (in_order (sorted_blocks f) 0 (zlen content)) as Ho.
  { apply disjoint_order; [| |unfold zlen; lia|].
    - pose proof (sort_by_sorted_keys ZOrd b_off (f_blocks f)) as S. unfold sorted in S. apply StronglySorted_map in S. eapply StronglySorted_weaken; [|exact S]. cbn. intros a b E. lia.
    - apply sorted_Forall. apply Forall_forall. intros b Hin. destruct (Hb b Hin) as (_ & H2 & items & H3). apply getitem_iff in H3. destruct H3 as (_ & R2 & R3 & _). lia.
    - apply (fop_perm _ (fun a b (H : _ \/ _) => match H with or_introl h => or_intror h | or_intror h => or_introl h end) (f_blocks f)); [apply Permutation_sym; apply sorted_perm|]. apply fop_nth. exact Hdis. }
  destruct (write_spec little content endian He f (zlen content) Ho) as (out & W1 & W2 & W3).
  - apply Forall_forall. intros b Hin. destruct (Hb b Hin) as ([H1 _] & H2 & items & H3). split; [exact H1 | exact (getitem_iff _ _ _ _ H3)].
  - exists out. split; [exact W1|]. split.
    + intros b Hin. destruct (Hb b Hin) as (H1 & H2 & _). now apply W2.
    + intros k Hk. apply W3. intros b Hin. specialize (Hk b Hin). unfold covers. lia.
Qed.

(** records that are started twice, or ended without being started *)
Lemma unpaired_final little content auto f :
  (f_rec f <> None -> start_fortran_record little content auto f = (f, Err EIO)) /\
  (f_rec f = None -> end_fortran_record little content f = (f, Err EIO)).
Proof.
  unfold start_fortran_record, end_fortran_record. split; intros H; destruct (f_rec f) as [[[a b] c]|]; congruence.
Qed.
