(** What the readers of parts of Millennium snapshot files should return, stated without
    their code. *)
From Coq Require Import String.
From Verif Require Import Base.Prelude Formats.FileSpec Formats.CatSpec Snap.ReadSpec.
Local Open Scope Z_scope.

(** [content] is a snapshot file with these contents, and anything after them *)
Definition snapshot_file (lf : bool) (cat : catalogue) (extra content : list Z) : Prop := Forall piece_ok (L2_snapshot cat) /\ content = file_bytes lf (L2_snapshot cat) ++ extra.
(** the number of particles *)
Definition npart_of (cat : catalogue) : Z := nth 1 (cat "Header/NumPart_ThisFile"%string) 0.
(** a 64 bit pattern as a signed number *)
Definition signed64 (v : Z) : Z := if v <? 2 ^ 63 then v else v - 2 ^ 64.
(** component [k] of the [count] vectors from number [from] on *)
Definition column (vals : list Z) (k from count : Z) : list Z :=
  map (fun j => nth (Z.to_nat (3 * j + k)) vals 0) (zseq from (Z.to_nat count)).

(** [content] is the bytes of a snapshot file with the given hash cells. A particle is its
    position and velocity (three bit patterns each) and its id. The file is small enough for
    int offsets. *)
Definition hash_file (lf : bool) (f : cellfile (list Z)) (content : list Z) : Prop :=
  exists cat extra, let all := concat (cf_cells f) in
  content = file_bytes lf (L2_snapshot cat) ++ extra /\ Forall piece_ok (L2_snapshot cat) /\
  Forall (fun p => zlen (fst (fst p)) = 3 /\ zlen (snd (fst p)) = 3) all /\
  nth 1 (cat "Header/NumPart_ThisFile"%string) 0 = zlen all /\
  cat "PartType1/Coordinates"%string = concat (map (fun p => fst (fst p)) all) /\
  cat "PartType1/Velocities"%string = concat (map (fun p => snd (fst p)) all) /\
  map snd all = map (fun v => [signed64 v]) (cat "PartType1/ParticleIDs"%string) /\
  scalar cat "first_hash_cell" = cf_first f /\ scalar cat "last_hash_cell" = cf_first f + zlen (cf_cells f) - 1 /\
  cat "blockid"%string = starts 0 (cf_cells f) /\
  292 + 32 * zlen all < 2 ^ 31 /\ cf_first f < 2 ^ 31 /\ cf_first f + zlen (cf_cells f) < 2 ^ 31.

(** the files hold the cells from number [from] up to [nhash] - 1, one file after the other *)
Fixpoint covers (from nhash : Z) (fs : list (cellfile (list Z))) : Prop :=
  match fs with
  | [] => from = nhash
  | f :: fs' => cf_first f = from /\ covers (from + zlen (cf_cells f)) nhash fs'
  end.
(** cell [c] is flagged *)
Definition flagged (hashmap : list bool) (c : Z) : Prop := nth_error hashmap (Z.to_nat c) = Some true.
(** a component of the positions, velocities *)
Definition pos_of (k : nat) (sel : list (list Z * list Z * list Z)) : list Z := map (fun p => nth k (fst (fst p)) 0) sel.
Definition vel_of (k : nat) (sel : list (list Z * list Z * list Z)) : list Z := map (fun p => nth k (snd (fst p)) 0) sel.
Definition ids_of (sel : list (list Z * list Z * list Z)) : list Z := map (fun p => nth 0 (snd p) 0) sel.
