(** What the programs which find the particles of groups should write, stated without their
    code. *)
From Verif Require Import Base.Prelude Snap.ReadSpec.
Local Open Scope Z_scope.

Notation particle := (list Z * list Z * list Z)%type.
(** the top 30 of the 64 bits of an id in a group file are a hash key, the others are the id of the particle *)
Definition hash_key (gid : Z) : Z := gid mod 2 ^ 64 / 2 ^ 34.
Definition plain_id (gid : Z) : Z := gid mod 2 ^ 34.
Definition id_of (p : particle) : Z := nth 0 (snd p) 0.
(** particle [p] is in hash cell number [hash] *)
Definition in_cell (fs : list (cellfile (list Z))) (hash : Z) (p : particle) : Prop :=
  exists f k c, In f fs /\ nth_error (cf_cells f) k = Some c /\ cf_first f + Z.of_nat k = hash /\ In p c.
(** [chosen] has the particle of each id, from a cell with the key of one of the ids *)
Definition chooses (fs : list (cellfile (list Z))) (gids : list Z) (chosen : list particle) : Prop :=
  Forall2 (fun gid p => id_of p = plain_id gid /\ exists gid', In gid' gids /\ in_cell fs (hash_key gid') p) gids chosen.
(** a line of the output file *)
Definition line (label : list Z) (p : particle) : list Z * Z * Z * Z := (label, nth 0 (fst (fst p)) 0, nth 1 (fst (fst p)) 0, nth 2 (fst (fst p)) 0).
(** all members of all groups; a group is a label, an offset and a length *)
Definition lines (groups : list (list Z * Z * Z)) (chosen : list particle) : list (list Z * Z * Z * Z) :=
  concat (map (fun '(label, off, len) => map (line label) (zslice chosen off (off + len))) groups).
(** group number i is a range of the ids *)
Definition groups_ok (nid : Z) (len offset : list Z) : Prop := Forall2 (fun l o => 0 <= l /\ 0 <= o /\ o + l <= nid) len offset.
(** FoF groups are labelled with their number, subhalos with their number and the number of their FoF group *)
Definition fof_groups (len offset : list Z) : list (list Z * Z * Z) :=
  combine (combine (map (fun i => [i]) (zseq 0 (length len))) offset) len.
Definition sub_groups (len offset par : list Z) : list (list Z * Z * Z) :=
  combine (combine (map (fun '(i, p) => [i; p]) (combine (zseq 0 (length len)) par)) offset) len.
