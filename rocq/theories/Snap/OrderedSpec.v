(** Group ordered snapshots as files. Specification. *)
From Coq Require Import Ascii String.
From Verif Require Import Base.Prelude Base.NdArray Binary.BinModel Formats.ReaderModel Formats.FileSpec Formats.CatSpec Formats.GadgetSpec Multi.GroupCatSpec Snap.ReadModel Snap.ReadSpec.
Local Open Scope Z_scope.

(** [n] rows of [k] numbers *)
Fixpoint cut {A} (k n : nat) (l : list A) : list (list A) :=
  match n with O => [] | S n' => firstn k l :: cut k n' (skipn k l) end.
(** 32 bit two's complement *)
Definition int32 (v : Z) : Z := (v + 2 ^ 31) mod 2 ^ 32 - 2 ^ 31.

(** a snapshot file: header, unused bytes of the header, which types have their own masses, bytes
    per number, the numbers, and how many of the possible blocks are there *)
Record snapfile := { sn_cat : catalogue; sn_fill : list Z; sn_mass : list bool; sn_size : str -> Z; sn_vals : str -> nat -> list Z; sn_blocks : nat }.
Definition sn_all (s : snapfile) : nat := List.length (present (npart_of (sn_cat s)) (the_quantities (sn_mass s) [])).
Definition sn_pieces (s : snapfile) : list piece := snapshot_pieces (sn_cat s) (sn_fill s) (sn_mass s) [] (sn_size s) (sn_vals s) (sn_blocks s).
Definition sn_ok (s : snapfile) : Prop :=
  well_formed (sn_cat s) (sn_fill s) (sn_mass s) [] (sn_size s) (sn_vals s) /\
  Forall piece_ok (stored_blocks (sn_cat s) (sn_mass s) [] (sn_size s) (sn_vals s) (sn_blocks s)) /\
  (sn_blocks s <= sn_all s)%nat /\ (sn_blocks s = sn_all s \/ (3 <= sn_blocks s)%nat).
(** the files numbered from 0 are these *)
Definition snaps_stored (snaps : Z -> option (list Z)) (ss : list snapfile) : Prop :=
  forall i s, nth_error ss i = Some s -> exists lf rest, snaps (Z.of_nat i) = Some (file_bytes lf (sn_pieces s) ++ rest)%list /\ (sn_blocks s = sn_all s \/ zlen rest < 4).

(** number of particles of a type and their rows in one file *)
Definition sn_count (s : snapfile) (t : Z) : Z := nth (Z.to_nat t) (npart_of (sn_cat s)) 0.
Definition sn_rows (s : snapfile) (t : Z) (name : string) : list (list Z) :=
  cut (if String.eqb name "ParticleIDs" then 1 else 3) (Z.to_nat (sn_count s t)) (sn_vals s (list_ascii_of_string name) (Z.to_nat t)).
(** all the rows of the snapshot *)
Definition all_rows (ss : list snapfile) (t : Z) (name : string) : list (list Z) := concat (map (fun s => sn_rows s t name) ss).
Definition all_count (ss : list snapfile) (t : Z) : Z := sumZ (map (fun s => sn_count s t) ss).

(** all the numbers under a name *)
Definition in_all (cs : list catalogue) (name : string) : list Z := concat (map (fun c => c name) cs).
(** the Gadget-4 tables *)
Definition the_fofcat (cs : list catalogue) : fofcat :=
  {| foflentype := cut 6 (Z.to_nat (sumZ (map (fun c => scalar c "Ngroups") cs))) (map int32 (in_all cs "GroupLenType"));
     fof_nsubs := map int32 (in_all cs "Nsubs"); fof_firstsub := map int32 (in_all cs "FirstSub");
     sublentype := cut 6 (Z.to_nat (sumZ (map (fun c => scalar c "Nsubgroups") cs))) (map int32 (in_all cs "SubLenType"));
     nfof_file := map (fun c => scalar c "Ngroups") cs |}.
