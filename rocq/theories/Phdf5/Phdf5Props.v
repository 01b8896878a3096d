(** Theorems about parallel_hdf5.py (C21 to C25). *)
From Verif.Base Require Import Prelude ListLemmas.
From Verif.Phdf5 Require Import AssignModel AssignProofs CollModel CollProofs MultiModel MultiSpec MultiProofs.
Local Open Scope Z_scope.

(** every file is assigned once and every rank gets at least the average rounded down *)
Theorem C21_assign_files : forall F R, 0 <= F -> 1 <= R ->
  exists files, assign_files F R = Ok files /\ length files = Z.to_nat R /\ sumZ files = F /\
    Forall (fun c => F / R <= c <= F / R + F mod R) files.
Proof. exact @assign_files_main. Qed.
Print Assumptions C21_assign_files.
(** exactly when the counts are as even as possible *)
Theorem C21_balanced_iff : forall F R, 0 <= F -> 1 <= R ->
  exists files, assign_files F R = Ok files /\
    ((forall a b, In a files -> In b files -> a - b <= 1) <-> F mod R * Z.gcd (Z.max (F / (F mod R + 1)) 1) R <= R).
Proof. exact @assign_files_balanced. Qed.
Print Assumptions C21_balanced_iff.
Theorem C21_few_files : forall F R, 0 <= F < R -> exists files, assign_files F R = Ok files /\ (forall a b, In a files -> In b files -> a - b <= 1).
Proof. exact @assign_files_few. Qed.
Print Assumptions C21_few_files.
Theorem C21_multiple : forall q R, 0 <= q -> 1 <= R -> assign_files (q * R) R = Ok (repeat q (Z.to_nat R)).
Proof. exact @assign_files_multiple. Qed.
Print Assumptions C21_multiple.
(** eleven files on four ranks are not spread evenly: one rank gets four, another two *)
Theorem C21_even_refuted : ~ forall F R, 0 <= F -> 1 <= R -> exists files, assign_files F R = Ok files /\ forall a b, In a files -> In b files -> a - b <= 1.
Proof. intro H. destruct (H 11 4) as (files & E & Hf); [discriminate..|]. vm_compute in E. injection E as <-. specialize (Hf 4 2 ltac:(cbn; tauto) ltac:(cbn; tauto)). apply Hf. reflexivity. Qed.
Print Assumptions C21_even_refuted.
Example C21_case : assign_files 11 4 = Ok [4; 2; 3; 2] /\ assign_files 7 3 = Ok [3; 2; 2] /\ assign_files 2 5 = Ok [1; 1; 0; 0; 0].
Proof. repeat split; vm_compute; reflexivity. Qed.

Theorem C22_collective_read : forall A (junk : A) itemsize P buffer (d : dset A),
  (0 < P)%nat -> 1 <= element_size itemsize d -> element_size itemsize d <= buffer ->
  exists parts, collective_read junk itemsize P buffer d = Ok parts /\
    length parts = P /\ concat (map fst parts) = d_rows d /\
    (forall r, (r < P)%nat -> zlen (fst (nth r parts ([], []))) = nth r (num_on_task P (zlen (d_rows d))) 0) /\
    (exists n, forall p, In p parts -> length (snd p) = n) /\
    (forall p k, In p parts -> In k (snd p) -> 0 <= k /\ k * element_size itemsize d <= buffer).
Proof. exact @collective_read_main. Qed.
Print Assumptions C22_collective_read.
(** the shares: ntot / P, one more on the first ntot mod P ranks *)
Theorem C22_shares : forall P n r, (r < P)%nat -> nth r (num_on_task P n) 0 = n / Z.of_nat P + if Z.of_nat r <? n mod Z.of_nat P then 1 else 0.
Proof. exact @num_nth. Qed.
Print Assumptions C22_shares.
(** when one row is larger than the buffer nothing is read at all: every rank returns
    uninitialised memory, without an error *)
Theorem C22_small_buffer_refuted : forall A (junk : A) itemsize P buffer (d : dset A),
  (0 < P)%nat -> 0 <= buffer < element_size itemsize d -> 10 * Z.of_nat P <= zlen (d_rows d) ->
  collective_read junk itemsize P buffer d = Ok (spmd P (fun r => (repeat junk (Z.to_nat (nth r (num_on_task P (zlen (d_rows d))) 0)), []))).
Proof. exact @collective_read_small_buffer. Qed.
Print Assumptions C22_small_buffer_refuted.

Definition rows23 : dset Z := {| d_dtype := 8; d_dims := [3]; d_rows := [11; 12; 13; 14; 15; 16; 17; 18; 19; 20; 21; 22; 23; 24; 25; 26; 27; 28; 29; 30; 31; 32; 33] |}.
(** rows of 24 bytes, a buffer of 100 bytes, two ranks: three reads of at most 4 rows *)
Example C22_case : collective_read (-1) (fun x => x) 2 100 rows23 =
  Ok [([11; 12; 13; 14; 15; 16; 17; 18; 19; 20; 21; 22], [4; 4; 4]); ([23; 24; 25; 26; 27; 28; 29; 30; 31; 32; 33], [4; 4; 3])].
Proof. vm_compute. reflexivity. Qed.
Example C22_small_case : collective_read (-1) (fun x => x) 2 20 rows23 = Ok [(repeat (-1) 12, []); (repeat (-1) 11, [])].
Proof. vm_compute. reflexivity. Qed.

(** writing at the start of a new or existing dataset: the arrays in rank order,
    anything after them left alone; in each round every rank takes part with at most a
    buffer's worth, and over all rounds it writes as many rows as it has *)
Theorem C23_collective_write : forall A fuel (junk : A) itemsize buffer old dt dims (data : list (dset A)),
  data <> [] -> Forall (fun d => d_dtype d = dt /\ d_dims d = dims) data ->
  1 <= itemsize dt * prodZ dims <= buffer ->
  let rows := map d_rows data in
  (forall o, old = Some o -> (length (concat rows) <= length o)%nat) ->
  (length (concat rows) <= fuel)%nat ->
  exists trace, collective_write fuel junk itemsize buffer old data = Ok (concat rows ++ match old with None => [] | Some o => skipn (length (concat rows)) o end, trace) /\
    Forall (fun n => length n = length data /\ Forall (fun k => 0 <= k /\ k * (itemsize dt * prodZ dims) <= buffer) n) trace /\
    forall r d, nth_error data r = Some d -> sumZ (map (fun n => nth r n 0) trace) = zlen (d_rows d).
Proof. exact @collective_write_main. Qed.
Print Assumptions C23_collective_write.
Theorem C23_mismatch : forall A fuel (junk : A) itemsize buffer old d0 (data : list (dset A)) d,
  In d data -> d_dims d <> d_dims d0 \/ d_dtype d <> d_dtype d0 ->
  collective_write fuel junk itemsize buffer old (d0 :: data) = Err EValue.
Proof. exact @collective_write_mismatch. Qed.
Print Assumptions C23_mismatch.
(** when one row is larger than the buffer the loop does not end, whatever the fuel *)
Theorem C23_small_buffer_refuted : forall A fuel (junk : A) itemsize buffer dt dims (data : list (dset A)),
  data <> [] -> Forall (fun d => d_dtype d = dt /\ d_dims d = dims) data ->
  0 <= buffer < itemsize dt * prodZ dims -> concat (map d_rows data) <> [] ->
  collective_write fuel junk itemsize buffer None data = Err EFuel.
Proof. exact @collective_write_small_buffer. Qed.
Print Assumptions C23_small_buffer_refuted.

Definition vec (l : list Z) : dset Z := {| d_dtype := 8; d_dims := [3]; d_rows := l |}.
Example C23_case : collective_write 9 (-1) (fun x => x) 50 None [vec [1; 2; 3; 4; 5]; vec []; vec [6; 7; 8]] =
  Ok ([1; 2; 3; 4; 5; 6; 7; 8], [[2; 0; 2]; [2; 0; 1]; [1; 0; 0]]).
Proof. vm_compute. reflexivity. Qed.
Example C23_existing : collective_write 9 (-1) (fun x => x) 50 (Some [90; 91; 92; 93; 94]) [vec [1; 2; 3]; vec [4]] =
  Ok ([1; 2; 3; 4; 94], [[2; 1]; [1; 0]]).
Proof. vm_compute. reflexivity. Qed.

(** some file has the dataset: every rank gets an array of the native type; together, in
    rank order, they hold all files' rows in file order, each tagged with its file's index *)
Theorem C24_read : forall A (junk : A) itemsize native buffer P (files : list (option (dset A))) idx dt dims,
  (0 < P)%nat -> files <> [] -> length idx = length files -> uniform dt dims files ->
  ((length files < P)%nat -> 1 <= itemsize dt * prodZ dims <= buffer) ->
  (exists d, In (Some d) files) ->
  exists out, read junk itemsize native buffer P files idx = Ok (map (fun x => (Some {| d_dtype := native dt; d_dims := dims; d_rows := fst x |}, Some (snd x))) out) /\
    length out = P /\ concat (map fst out) = all_rows files /\ concat (map snd out) = all_tags idx files /\
    Forall (fun x => length (snd x) = length (fst x)) out.
Proof. exact @read_main. Qed.
Print Assumptions C24_read.
(** no file has it: every rank gets None *)
Theorem C24_absent : forall A (junk : A) itemsize native buffer P (files : list (option (dset A))) idx dt dims,
  (0 < P)%nat -> files <> [] -> length idx = length files -> uniform dt dims files ->
  ((length files < P)%nat -> 1 <= itemsize dt * prodZ dims <= buffer) ->
  (forall o, In o files -> o = None) -> read junk itemsize native buffer P files idx = Ok (repeat (None, None) P).
Proof. exact @read_none. Qed.
Print Assumptions C24_absent.
(** types 4 and 1004 are the two byte orders of the same native type: whether files that
    mix them can be read depends on the number of ranks *)
Theorem C24_byte_order_refuted : exists (files : list (option (dset Z))) idx,
  read (-1) (fun _ => 4) (fun x => x mod 1000) 1000 1 files idx = Err ERuntime /\
  exists out, read (-1) (fun _ => 4) (fun x => x mod 1000) 1000 2 files idx = Ok out.
Proof.
  exists [Some {| d_dtype := 4; d_dims := []; d_rows := [1; 2] |}; Some {| d_dtype := 1004; d_dims := []; d_rows := [3] |}], [0; 1].
  split; [vm_compute; reflexivity | eexists; vm_compute; reflexivity].
Qed.
Print Assumptions C24_byte_order_refuted.

Definition files3 : list (option (dset Z)) := [Some (vec [1; 2; 3]); None; Some (vec [4; 5])].
Definition arr (l nr : list Z) : option (dset Z) * option (list Z) := (Some (vec l), Some nr).
(** two ranks: independent reading; five ranks: groups of ranks read a file each *)
Example C24_case : read (-1) (fun x => x) (fun x => x) 50 2 files3 [7; 8; 9] = Ok [arr [1; 2; 3] [7; 7; 7]; arr [4; 5] [9; 9]] /\
  read (-1) (fun x => x) (fun x => x) 50 5 files3 [7; 8; 9] = Ok [arr [1; 2] [7; 7]; arr [3] [7]; arr [] []; arr [] []; arr [4; 5] [9; 9]] /\
  read (-1) (fun x => x) (fun x => x) 50 2 [None; None; None] [7; 8; 9] = Ok [(None, None); (None, None) : option (dset Z) * option (list Z)].
Proof. repeat split; vm_compute; reflexivity. Qed.

(** reading and writing back: every output file gets the rows of its input file; a file
    without the dataset gets an empty one *)
Theorem C25_round_trip : forall A (junk : A) itemsize native buffer fuel P (files : list (option (dset A))) idx dt dims,
  (0 < P)%nat -> files <> [] -> length idx = length files -> uniform dt dims files ->
  ((length files < P)%nat -> 1 <= itemsize dt * prodZ dims <= buffer) ->
  ((length files < P)%nat -> 1 <= itemsize (native dt) * prodZ dims <= buffer) ->
  NoDup idx -> (length (all_rows files) <= fuel)%nat -> (exists d, In (Some d) files) ->
  exists out epf, read junk itemsize native buffer P files idx = Ok out /\ get_elements_per_file P files idx = Ok epf /\
    write junk itemsize buffer fuel P idx (map fst out) epf =
    Ok (map (fun o => {| d_dtype := native dt; d_dims := dims; d_rows := rows_of o |}) files).
Proof. exact @round_trip. Qed.
Print Assumptions C25_round_trip.
(** with two files under the same index the counts overwrite each other and rows are
    lost without an error *)
Theorem C25_duplicate_index_refuted : exists out epf,
  read (-1) (fun x => x) (fun x => x) 50 1 [Some (vec [1; 2; 3]); Some (vec [4])] [0; 0] = Ok out /\
  get_elements_per_file 1 [Some (vec [1; 2; 3]); Some (vec [4])] [0; 0] = Ok epf /\
  write (-1) (fun x => x) 50 10 1 [0; 0] (map fst out) epf = Ok [vec [1]; vec [2]].
Proof. eexists. eexists. repeat split; vm_compute; reflexivity. Qed.
Print Assumptions C25_duplicate_index_refuted.
(** a dataset that no file has cannot be written back *)
Theorem C25_all_absent_refuted : exists out epf,
  read (-1) (fun x => x) (fun x => x) 50 1 [None : option (dset Z)] [0] = Ok out /\
  get_elements_per_file 1 [None : option (dset Z)] [0] = Ok epf /\
  write (-1) (fun x => x) 50 10 1 [0] (map fst out) epf = Err EType.
Proof. eexists. eexists. repeat split; vm_compute; reflexivity. Qed.
Print Assumptions C25_all_absent_refuted.
Example C25_case : exists out epf,
  read (-1) (fun x => x) (fun x => x) 50 5 files3 [7; 8; 9] = Ok out /\ get_elements_per_file 5 files3 [7; 8; 9] = Ok epf /\
  epf = [[(7, 2)]; [(7, 1)]; [(8, 0)]; [(8, 0)]; [(9, 2)]] /\
  write (-1) (fun x => x) 50 10 5 [7; 8; 9] (map fst out) epf = Ok [vec [1; 2; 3]; vec []; vec [4; 5]].
Proof. eexists. eexists. repeat split; vm_compute; reflexivity. Qed.
