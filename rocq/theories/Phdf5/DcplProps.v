(** Theorems about compress_dcpl() (C82). *)
From Verif Require Import Base.Prelude Phdf5.DcplModel Phdf5.DcplProofs.
Local Open Scope Z_scope.

(** *** C82; [filters_of]: shuffle before deflate, those which were asked for *)
(** the dataset is chunked by rows; nothing else in the list changes *)
Theorem C82_chunks : forall (P : Type) v (d : plist P) n rest gzip shuffle chunk rows, ~ version_lt v (1, 12, 0) -> Forall (fun n => 1 <= n) (n :: rest) -> p_layout d <> Chunked ->
  (forall g, gzip = Some g -> 0 <= g <= 9) -> (gzip <> None \/ shuffle = true) ->
  (match chunk with Some c => rows = Z.min n c | None => rows = Z.min n 8388608 end) -> 1 <= rows ->
  compress_dcpl v d (n :: rest) gzip shuffle chunk = Ok (Some {| p_layout := Chunked; p_chunk := rows :: rest; p_filters := p_filters d ++ filters_of gzip shuffle; p_other := p_other d |}).
Proof. exact @chunks. Qed.
Print Assumptions C82_chunks.
(** the caller's chunks are kept *)
Theorem C82_already : forall (P : Type) v (d : plist P) shape gzip shuffle chunk, ~ version_lt v (1, 12, 0) -> Forall (fun n => 1 <= n) shape -> p_layout d = Chunked ->
  (forall g, gzip = Some g -> 0 <= g <= 9) ->
  compress_dcpl v d shape gzip shuffle chunk = Ok (Some {| p_layout := Chunked; p_chunk := p_chunk d; p_filters := p_filters d ++ filters_of gzip shuffle; p_other := p_other d |}).
Proof. exact @already. Qed.
Print Assumptions C82_already.
Theorem C82_not_asked : forall (P : Type) v (d : plist P) shape chunk, Forall (fun n => 1 <= n) shape -> compress_dcpl v d shape None false chunk = Ok (Some d).
Proof. exact @not_asked. Qed.
Print Assumptions C82_not_asked.
Theorem C82_old : forall (P : Type) v (d : plist P) shape gzip shuffle chunk, version_lt v (1, 12, 0) -> compress_dcpl v d shape gzip shuffle chunk = Ok (Some d).
Proof. exact @old. Qed.
Print Assumptions C82_old.
Theorem C82_bad_chunk : forall (P : Type) v (d : plist P) n rest gzip shuffle c, ~ version_lt v (1, 12, 0) -> Forall (fun n => 1 <= n) (n :: rest) -> p_layout d <> Chunked ->
  (gzip <> None \/ shuffle = true) -> c <= 0 -> compress_dcpl v d (n :: rest) gzip shuffle (Some c) = Err EValue.
Proof. exact @bad_chunk. Qed.
Print Assumptions C82_bad_chunk.
Theorem C82_bad_level : forall (P : Type) v (d : plist P) shape g shuffle chunk r, ~ version_lt v (1, 12, 0) -> Forall (fun n => 1 <= n) shape -> ~ 0 <= g <= 9 ->
  compress_dcpl v d shape (Some g) shuffle chunk <> Ok r.
Proof. exact @bad_level. Qed.
Print Assumptions C82_bad_level.
Theorem C82_scalar : forall (P : Type) v (d : plist P) gzip shuffle chunk, ~ version_lt v (1, 12, 0) -> p_layout d <> Chunked -> (gzip <> None \/ shuffle = true) ->
  compress_dcpl v d [] gzip shuffle chunk = Err EIndex.
Proof. exact @scalar_shape. Qed.
Print Assumptions C82_scalar.
(** for a dataset without elements None is returned *)
Theorem C82_empty : forall (P : Type) v (d : plist P) shape gzip shuffle chunk, ~ version_lt v (1, 12, 0) -> In 0 shape -> compress_dcpl v d shape gzip shuffle chunk = Ok None.
Proof. exact @empty. Qed.
Print Assumptions C82_empty.
(** so the documented result, a property list with the caller's other properties, is not always given *)
Theorem C82_list_refuted : ~ forall v (d : plist Z) shape gzip shuffle chunk r, compress_dcpl v d shape gzip shuffle chunk = Ok r -> exists d', r = Some d' /\ p_other d' = p_other d.
Proof.
  intro H. destruct (H (1, 14, 0) {| p_layout := Contiguous; p_chunk := []; p_filters := []; p_other := 7 |} [0; 3] None false None None eq_refl) as (d' & E & _). discriminate E.
Qed.
Print Assumptions C82_list_refuted.

Example C82_case :
  let d := {| p_layout := Contiguous; p_chunk := []; p_filters := [OtherFilter 3]; p_other := 7 |} in
  ~ version_lt (1, 14, 2) (1, 12, 0) /\ version_lt (1, 10, 9) (1, 12, 0) /\
  compress_dcpl (1, 14, 2) d [100; 3] (Some 6) true (Some 10) = Ok (Some {| p_layout := Chunked; p_chunk := [10; 3]; p_filters := [OtherFilter 3; Shuffle; Deflate 6]; p_other := 7 |}) /\
  compress_dcpl (1, 14, 2) d [5; 3] (Some 6) false None = Ok (Some {| p_layout := Chunked; p_chunk := [5; 3]; p_filters := [OtherFilter 3; Deflate 6]; p_other := 7 |}).
Proof. repeat split; try reflexivity; cbn; lia. Qed.
