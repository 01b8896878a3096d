(** Properties C32-C39 and C58 of python/virgo/util/read_binary.py. *)
From Coq Require Import Ascii.
From Verif.Base Require Import Prelude ListLemmas Order.
From Verif.Binary Require Import BinModel NameProofs LayoutProofs EndianProofs FortranProofs UsedProofs CacheModel CacheProofs BinaryFinal.
Local Open Scope Z_scope.

(** *** C32: layout *)
(** each call leaves the blocks there are where they are ([place] is type, offset and
    shape), and either moves the position (skip_bytes only) or adds one block at it *)
Theorem C32_positions : forall little content ops o,
  let f := run little content ops new_file in
  let f' := run little content (ops ++ [o]) new_file in
  (map place (f_blocks f') = map place (f_blocks f) /\ f_off f' = f_off f + match o with OSkip n => n | _ => 0 end) \/
  exists b, map place (f_blocks f') = map place (f_blocks f) ++ [place b] /\ b_off b = f_off f /\ f_off f' = f_off f + b_nbytes b.
Proof. exact @positions_final. Qed.
Print Assumptions C32_positions.
Theorem C32_back_to_back : forall little content ops, (forall n, ~ In (OSkip n) ops) ->
  let f := run little content ops new_file in
  forall i b, nth_error (f_blocks f) i = Some b ->
    b_off b = sumZ (map b_nbytes (firstn i (f_blocks f))) /\
    f_off f = sumZ (map b_nbytes (f_blocks f)).
Proof. exact @back_to_back_final. Qed.
Print Assumptions C32_back_to_back.
Theorem C32_no_overlap : forall little content ops, Forall fwd_skip ops ->
  let f := run little content ops new_file in
  forall i j b b', (i < j)%nat -> nth_error (f_blocks f) i = Some b -> nth_error (f_blocks f) j = Some b' ->
    0 <= b_off b /\ b_off b + b_nbytes b <= b_off b' /\ b_off b' + b_nbytes b' <= f_off f.
Proof. exact @no_overlap_final. Qed.
Print Assumptions C32_no_overlap.
(** item k of a block read in the byte order of its type is made of its own bytes; in the other
    order each number of the item is reversed *)
Theorem C32_read : forall little content b items, dtype_ok (b_dtype b) -> getitem little content b None = Ok items ->
  zlen items = b_size b /\ 0 <= b_off b /\ b_off b + b_nbytes b <= zlen content /\
  exists swap, forall k, 0 <= k < b_size b ->
    let own := zslice content (b_off b + itemsize (b_dtype b) * k) (b_off b + itemsize (b_dtype b) * (k + 1)) in
    zlen own = itemsize (b_dtype b) /\
    nth (Z.to_nat k) items [] = if swap : bool then concat (map (@rev Z) (split_fields (dt_fields (b_dtype b)) own)) else own.
Proof. exact @read_final. Qed.
Print Assumptions C32_read.
Theorem C32_select : forall little content b items idx, getitem little content b None = Ok items -> getitem little content b (Some idx) = np_take items idx.
Proof. exact @select_final. Qed.
Print Assumptions C32_select.
Theorem C32_past_end : forall little content b key, 0 <= b_off b -> zlen content < b_off b + b_nbytes b -> forall items, getitem little content b key <> Ok items.
Proof. exact @past_end_final. Qed.
Print Assumptions C32_past_end.
Example C32_example :
  let content := [1; 2; 3; 4; 5; 6; 7; 8; 9] in
  let f := run true content [OAdd (nm "a") i16 [2] false; OSkip 1; OAdd (nm "b") i16 [] true; OAdd (nm "c") i16 [2] false] new_file in
  map b_off (f_blocks f) = [0; 5; 7] /\ f_off f = 11 /\ getitem true content (nth 0 (f_blocks f) {| b_dtype := i16; b_off := 0; b_shape := []; b_endian := NAT |}) None = Ok [[1; 2]; [3; 4]] /\
  getitem true content (nth 2 (f_blocks f) {| b_dtype := i16; b_off := 0; b_shape := []; b_endian := NAT |}) None = Err EIO.
Proof. vm_compute. repeat split; reflexivity. Qed.

(** *** C33: byte order *)
(** the numbers of the items, as held in memory, are the numbers in the file read in the
    byte order of the block *)
Theorem C33_values : forall little content b items, plain (b_dtype b) -> valid_endian (b_endian b) = true -> getitem little content b None = Ok items ->
  map (item_values little (mem_endian little (b_dtype b)) (b_dtype b)) items =
  map (item_values little (b_endian b) (b_dtype b)) (view content (b_off b) (itemsize (b_dtype b)) (b_size b)).
Proof. exact @values_final. Qed.
Print Assumptions C33_values.
Theorem C33_opposite : forall little content content' b e e' items, plain (b_dtype b) ->
  valid_endian e = true -> valid_endian e' = true -> big_or_little little e <> big_or_little little e' ->
  zlen content' = zlen content ->
  view content' (b_off b) (itemsize (b_dtype b)) (b_size b) = map (swap_item (b_dtype b)) (view content (b_off b) (itemsize (b_dtype b)) (b_size b)) ->
  getitem little content (set_b_endian e b) None = Ok items -> getitem little content' (set_b_endian e' b) None = Ok items.
Proof. exact @opposite_final. Qed.
Print Assumptions C33_opposite.
(** structured types are never swapped *)
Theorem C33_structured_refuted : ~ (forall little content b items, dtype_ok (b_dtype b) -> valid_endian (b_endian b) = true -> getitem little content b None = Ok items ->
  map (item_values little (mem_endian little (b_dtype b)) (b_dtype b)) items =
  map (item_values little (b_endian b) (b_dtype b)) (view content (b_off b) (itemsize (b_dtype b)) (b_size b))).
Proof. exact @structured_final. Qed.
Print Assumptions C33_structured_refuted.
Example C33_example :
  getitem true [0; 1; 0; 2] {| b_dtype := i16; b_off := 0; b_shape := [2]; b_endian := BE |} None = Ok [[1; 0]; [2; 0]] /\
  getitem true [1; 0; 2; 0] {| b_dtype := i16; b_off := 0; b_shape := [2]; b_endian := LE |} None = Ok [[1; 0]; [2; 0]] /\
  item_values true BE i16 [0; 1] = [1].
Proof. vm_compute. repeat split; reflexivity. Qed.

(** *** C34: the byte order of the blocks *)
Theorem C34_set : forall e f, 
  if valid_endian e then snd (set_endian e f) = Ok tt /\ f_endian (fst (set_endian e f)) = e /\ Forall (fun b => b_endian b = e) (f_blocks (fst (set_endian e f)))
  else set_endian e f = (f, Err EValue).
Proof. exact @set_final. Qed.
Print Assumptions C34_set.
Theorem C34_history : forall little content ops, clean little content new_file ops ->
  let f := run little content ops new_file in Forall (fun b => b_endian b = f_endian f) (f_blocks f) /\ valid_endian (f_endian f) = true.
Proof. exact @history_final. Qed.
Print Assumptions C34_history.
(** an attribute of a dataset does not get the byte order of the file *)
Theorem C34_attribute_refuted : ~ (forall little content ops, (forall o, In o ops -> o <> OToggle /\ o <> OEnd) ->
  let f := run little content ops new_file in Forall (fun b => b_endian b = f_endian f) (f_blocks f)).
Proof. exact @attribute_final. Qed.
Print Assumptions C34_attribute_refuted.
(** toggling an explicit byte order leaves the blocks as they are, and toggling twice after the
    default byte order does not give back the byte order of the blocks *)
Theorem C34_toggle_refuted : ~ (forall little content ops, (forall name d s, ~ In (OAdd name d s true) ops) ->
  let f := run little content ops new_file in Forall (fun b => b_endian b = f_endian f) (f_blocks f)).
Proof. exact @toggle_final. Qed.
Print Assumptions C34_toggle_refuted.
Theorem C34_toggle_twice_refuted : ~ (forall little f, Forall (fun b => b_endian b = f_endian f) (f_blocks f) -> valid_endian (f_endian f) = true ->
  map (fun b => big_or_little little (b_endian b)) (f_blocks (fst (toggle_byteswap little (fst (toggle_byteswap little f))))) = map (fun b => big_or_little little (b_endian b)) (f_blocks f)).
Proof. exact @toggle_twice_final. Qed.
Print Assumptions C34_toggle_twice_refuted.
Example C34_example :
  let ops := [OAdd (nm "a") i16 [2] false; OToggle; OAdd ["g"%char; "/"%char; "b"%char] i16 [] true; OSet LE; OAdd (nm "c") i16 [2] false] in
  clean true [] new_file ops /\ map b_endian (f_blocks (run true [] ops new_file)) = [LE; LE; LE].
Proof. exact @history_example. Qed.

(** *** C35: fortran records *)
Theorem C35_start : forall little content pre m1 payload m2 post auto f, content = pre ++ m1 ++ payload ++ m2 ++ post -> length m1 = 4%nat -> length m2 = 4%nat -> isbytes m1 -> isbytes m2 ->
  f_off f = zlen pre -> f_rec f = None -> valid_endian (f_endian f) = true ->
  let f1 := fst (start_fortran_record little content auto f) in
  snd (start_fortran_record little content auto f) = Ok tt /\ f_off f1 = zlen pre + 4 /\ f_endian f1 = f_endian f.
Proof. exact @start_final. Qed.
Print Assumptions C35_start.
Theorem C35_same_order : forall little content pre payload post e auto f f2, (e = LE \/ e = BE) -> zlen payload < 2 ^ 31 -> (auto = true -> zlen payload <= 65535) ->
  at_record little content pre (marker e (zlen payload)) payload (marker e (zlen payload)) post auto f f2 -> big_or_little little (f_endian f) = e ->
  let '(f3, r) := end_fortran_record little content f2 in
  r = Ok tt /\ f_off f3 = zlen pre + 4 + zlen payload + 4 /\ f_rec f3 = None /\ f_endian f3 = f_endian f /\
  forall i b, nth_error (f_blocks f2) i = Some b -> nth_error (f_blocks f3) i = Some b.
Proof. exact @same_order_final. Qed.
Print Assumptions C35_same_order.
Theorem C35_detected : forall little content pre payload post e f f2, (e = LE \/ e = BE) -> 1 <= zlen payload <= 65535 ->
  at_record little content pre (marker e (zlen payload)) payload (marker e (zlen payload)) post true f f2 -> big_or_little little (f_endian f) <> e ->
  let '(f3, r) := end_fortran_record little content f2 in
  r = Ok tt /\ f_off f3 = zlen pre + 4 + zlen payload + 4 /\ f_rec f3 = None /\ big_or_little little (f_endian f3) = e /\
  (f_endian f = NAT -> Forall (fun b => big_or_little little (b_endian b) = e) (f_blocks f3)).
Proof. exact @detected_final. Qed.
Print Assumptions C35_detected.
Theorem C35_not_swapped : forall little content pre payload post e f f2, (e = LE \/ e = BE) -> 1 <= zlen payload <= 65535 ->
  at_record little content pre (marker e (zlen payload)) payload (marker e (zlen payload)) post false f f2 -> big_or_little little (f_endian f) <> e ->
  snd (end_fortran_record little content f2) = Err EIO.
Proof. exact @not_swapped_final. Qed.
Print Assumptions C35_not_swapped.
Theorem C35_wrong : forall little content pre m1 payload m2 post auto f f2, length m1 = 4%nat -> length m2 = 4%nat -> isbytes m1 -> isbytes m2 ->
  at_record little content pre m1 payload m2 post auto f f2 ->
  m1 <> m2 \/ (signed32 (le_value m1) <> zlen payload /\ signed32 (le_value (rev m1)) <> zlen payload) ->
  snd (end_fortran_record little content f2) = Err EIO.
Proof. exact @wrong_final. Qed.
Print Assumptions C35_wrong.
(** a record started twice, or ended without being started, is an error that leaves the
    file as it is *)
Theorem C35_unpaired : forall little content auto f,
  (f_rec f <> None -> start_fortran_record little content auto f = (f, Err EIO)) /\
  (f_rec f = None -> end_fortran_record little content f = (f, Err EIO)).
Proof. exact @unpaired_final. Qed.
Print Assumptions C35_unpaired.
(** with an explicit byte order the blocks read in the record are left in the wrong one *)
Theorem C35_explicit_refuted : ~ (forall little content pre payload post e f f2, (e = LE \/ e = BE) -> 1 <= zlen payload <= 65535 ->
  at_record little content pre (marker e (zlen payload)) payload (marker e (zlen payload)) post true f f2 -> big_or_little little (f_endian f) <> e ->
  Forall (fun b => big_or_little little (b_endian b) = e) (f_blocks (fst (end_fortran_record little content f2)))).
Proof. exact @explicit_final. Qed.
Print Assumptions C35_explicit_refuted.
(** the byte order of an empty record can not be told *)
Theorem C35_empty_refuted : ~ (forall little content pre payload post e f f2, (e = LE \/ e = BE) -> 0 <= zlen payload <= 65535 ->
  at_record little content pre (marker e (zlen payload)) payload (marker e (zlen payload)) post true f f2 ->
  big_or_little little (f_endian (fst (end_fortran_record little content f2))) = e).
Proof. exact @empty_final. Qed.
Print Assumptions C35_empty_refuted.
Example C35_example :
  let content := [9; 0; 0; 0; 2; 1; 44; 0; 0; 0; 2; 7] in
  let f := skip_bytes 1 new_file in
  let f1 := fst (start_fortran_record true content true f) in
  let f2 := fst (f_add (nm "x") i16 [] false f1) in
  at_record true content [9] (marker BE 2) [1; 44] (marker BE 2) [7] true f f2 /\ 
  map b_endian (f_blocks (fst (end_fortran_record true content f2))) = [BE; BE; BE] /\ f_off (fst (end_fortran_record true content f2)) = 11.
Proof. vm_compute. repeat split; reflexivity. Qed.

(** *** C36: all_bytes_used *)
Theorem C36_only_if : forall content f, Forall (fun b => 0 <= b_nbytes b) (f_blocks f) -> all_bytes_used content f = true ->
  (forall k, 0 <= k < zlen content -> length (filter (fun b => (b_off b <=? k) && (k <? b_off b + b_nbytes b)) (f_blocks f)) = 1%nat) /\
  (forall b, In b (f_blocks f) -> 0 <= b_off b /\ b_off b + b_nbytes b <= zlen content).
Proof. exact @used_once. Qed.
Print Assumptions C36_only_if.
Theorem C36_if : forall little content ops, (forall n, ~ In (OSkip n) ops) -> Forall fwd_skip ops ->
  let f := run little content ops new_file in f_off f = zlen content -> all_bytes_used content f = true.
Proof. exact @used_final. Qed.
Print Assumptions C36_if.
(** whatever the order in which they are added, if non-empty blocks cover each byte once *)
Theorem C36_any_order : forall content f, Forall (fun b => 0 < b_nbytes b /\ 0 <= b_off b /\ b_off b + b_nbytes b <= zlen content) (f_blocks f) ->
  (forall k, 0 <= k < zlen content -> length (filter (fun b => (b_off b <=? k) && (k <? b_off b + b_nbytes b)) (f_blocks f)) = 1%nat) ->
  all_bytes_used content f = true.
Proof. exact @used_any_order. Qed.
Print Assumptions C36_any_order.
(** blocks added out of order, then one twice, then a longer file *)
Example C36_example :
  let content := [1; 2; 3; 4] in
  let f := run true content [OSkip 2; OAdd (nm "b") i16 [] false; OSkip (-4); OAdd (nm "a") i16 [] false] new_file in
  all_bytes_used content f = true /\ all_bytes_used content (fst (f_add (nm "c") i16 [] false f)) = false /\ all_bytes_used (content ++ [0]) f = false.
Proof. vm_compute. repeat split; reflexivity. Qed.

(** *** C37: hash *)
Theorem C37_image : forall little content f, Forall proper (f_blocks f) -> content <> [] ->
  hash_stream little content f =
  if all_bytes_used content f then Ok (concat (map (fun b =>
    concat (if ord_eqb (big_or_little little (b_endian b)) LE then view content (b_off b) (itemsize (b_dtype b)) (b_size b)
            else map (swap_item (b_dtype b)) (view content (b_off b) (itemsize (b_dtype b)) (b_size b)))) (sorted_blocks f)))
  else Err EIO.
Proof. exact @hash_image. Qed.
Print Assumptions C37_image.
Theorem C37_opposite : forall little content content' f f' bs e e',
  f_blocks f = map (set_b_endian e) bs -> f_blocks f' = map (set_b_endian e') bs -> valid_endian e = true -> valid_endian e' = true -> big_or_little little e <> big_or_little little e' ->
  Forall (fun b => Forall (fun s => 0 <= s) (b_shape b) /\ plain (b_dtype b)) bs -> zlen content' = zlen content ->
  (forall b, In b bs -> view content' (b_off b) (itemsize (b_dtype b)) (b_size b) = map (swap_item (b_dtype b)) (view content (b_off b) (itemsize (b_dtype b)) (b_size b))) ->
  hash_stream little content' f' = hash_stream little content f.
Proof. exact @hash_opposite. Qed.
Print Assumptions C37_opposite.
Theorem C37_little : forall little content f, Forall proper (f_blocks f) -> content <> [] -> all_bytes_used content f = true ->
  Forall (fun b => big_or_little little (b_endian b) = LE) (f_blocks f) -> hash_stream little content f = Ok content.
Proof. exact @hash_little. Qed.
Print Assumptions C37_little.
Theorem C37_unused : forall little content f, all_bytes_used content f = false -> hash_stream little content f = Err EIO.
Proof. exact @hash_unused. Qed.
Print Assumptions C37_unused.
Example C37_example :
  let ops e := [OAdd (nm "a") i16 [2] false; OAdd (nm "b") {| dt_order := NA; dt_fields := [1] |} [] true; OSet e] in
  hash_stream true [1; 2; 3; 4; 5] (run true [] (ops LE) new_file) = Ok [1; 2; 3; 4; 5] /\ hash_stream true [2; 1; 4; 3; 5] (run true [] (ops BE) new_file) = Ok [1; 2; 3; 4; 5].
Proof. vm_compute. repeat split; reflexivity. Qed.

(** *** C38: mapped files *)
Theorem C38_bound : forall openable ops, zlen (filter (fun e : Z * bool => snd e) (c_maps (run_cops openable MAX_FILES ops no_files))) <= 32.
Proof. exact @cache_bound_final. Qed.
Print Assumptions C38_bound.
Theorem C38_reads : forall openable ops d fname file, let s := run_cops openable MAX_FILES ops no_files in
  nth_error (c_dsets s) d = Some (fname, file) ->
  let '(s', r) := mmap_file openable MAX_FILES d s in
  if openable fname then exists m, r = Ok m /\ nth_error (c_maps s') m = Some (fname, true) /\ nth_error (c_dsets s') d = Some (fname, Some m)
  else (r = Err EIO \/ exists m, r = Ok m /\ nth_error (c_maps s') m = Some (fname, true)).
Proof. exact @cache_reads_final. Qed.
Print Assumptions C38_reads.
Theorem C38_one_each : forall openable ops m m' f, let s := run_cops openable MAX_FILES ops no_files in
  nth_error (c_maps s) m = Some (f, true) -> nth_error (c_maps s) m' = Some (f, true) -> m = m'.
Proof. exact @cache_one_final. Qed.
Print Assumptions C38_one_each.
Example C38_example :
  let ops := map CNew (zseq 0 40) ++ map (fun d => CRead (Z.to_nat d)) (zseq 0 40) ++ [CClose 20; CRead 3; CRead 3] in
  let s := run_cops (fun _ => true) MAX_FILES ops no_files in
  zlen (filter (fun e : Z * bool => snd e) (c_maps s)) = 31 /\ snd (mmap_file (fun _ => true) MAX_FILES 20 s) = Ok 41%nat.
Proof. vm_compute. repeat split; reflexivity. Qed.

(** *** C39: names *)
(** [keys] are the parts of a name between slashes *)
Theorem C39_added : forall name d shape f, g_getitem (f_tree f) name = Err EKey -> ~ through_dataset (f_tree f) (keys name) ->
  snd (f_add name d shape false f) = Ok tt /\
  forall name', keys name' = keys name -> g_getitem (f_tree (fst (f_add name d shape false f))) name' = Ok (EDset (length (f_blocks f)) []).
Proof. exact @added_final. Qed.
Print Assumptions C39_added.
Theorem C39_refused : forall name d shape f, (exists e, g_getitem (f_tree f) name = Ok e) \/ through_dataset (f_tree f) (keys name) ->
  f_add name d shape false f = (f, Err EKey).
Proof. exact @refused_final. Qed.
Print Assumptions C39_refused.
Theorem C39_kept : forall name d shape is_attr f name' , 
  match g_getitem (f_tree f) name' with
  | Ok (EDset id attrs) => exists attrs', g_getitem (f_tree (fst (f_add name d shape is_attr f))) name' = Ok (EDset id attrs') /\ (forall k v, get k attrs = Some v -> get k attrs' = Some v)
  | Ok (EGroup _) => exists g, g_getitem (f_tree (fst (f_add name d shape is_attr f))) name' = Ok (EGroup g)
  | Err _ => True
  end.
Proof. exact @kept_final. Qed.
Print Assumptions C39_kept.
Theorem C39_error : forall name d shape is_attr f e, snd (f_add name d shape is_attr f) = Err e -> e = EKey /\ fst (f_add name d shape is_attr f) = f.
Proof. exact @error_final. Qed.
Print Assumptions C39_error.
Theorem C39_slashes : forall a b name, keys (repeat slash a ++ name ++ repeat slash b) = keys name.
Proof. exact @keys_slashes. Qed.
Print Assumptions C39_slashes.
Example C39_example :
  let p := ["g"%char; "/"%char; "x"%char] in
  let f := fst (f_add p i16 [3] false new_file) in
  g_getitem (f_tree f) ("/"%char :: p ++ ["/"%char]) = Ok (EDset 0 []) /\ snd (f_add p i16 [] false f) = Err EKey /\ snd (f_add (p ++ ["/"%char; "y"%char]) i16 [] false f) = Err EKey /\ snd (f_add (nm "g") i16 [] false f) = Err EKey.
Proof. vm_compute. repeat split; reflexivity. Qed.

(** *** C58: write_binary *)
(** with mode "wb"; [endian] is the argument of write_binary *)
Theorem C58_written : forall little content endian f,
  match endian with Some e => valid_endian e = true | None => True end ->
  (forall i j b b', i <> j -> nth_error (f_blocks f) i = Some b -> nth_error (f_blocks f) j = Some b' -> b_off b + b_nbytes b <= b_off b' \/ b_off b' + b_nbytes b' <= b_off b) ->
  Forall (fun b => plain (b_dtype b) /\ 0 < b_nbytes b /\ exists items, getitem little content b None = Ok items) (f_blocks f) ->
  exists out, write_binary little content true endian f = Ok out /\
    (forall b, In b (f_blocks f) -> let e := match endian with Some e => e | None => mem_endian little (b_dtype b) end in
       getitem little out (set_b_endian e b) None = getitem little content b None) /\
    (forall k, (forall b, In b (f_blocks f) -> ~ (b_off b <= Z.of_nat k < b_off b + b_nbytes b)) -> nth k out 0 = 0).
Proof. exact @written_final. Qed.
Print Assumptions C58_written.
(** without a mode argument nothing is written: "wb-" is not a mode of open() *)
Theorem C58_default_refuted : forall little content endian f, write_binary little content false endian f = Err EValue.
Proof. exact @write_default. Qed.
Print Assumptions C58_default_refuted.
Example C58_example :
  let content := [9; 0; 1; 8; 0; 2; 7] in
  let f := run true content [OSkip 1; OAdd (nm "a") i16 [] false; OSkip 1; OAdd (nm "b") i16 [1] false; OSet BE] new_file in
  write_binary true content true None f = Ok [0; 1; 0; 0; 2; 0] /\ write_binary true content true (Some BE) f = Ok [0; 0; 1; 0; 0; 2].
Proof. vm_compute. repeat split; reflexivity. Qed.
