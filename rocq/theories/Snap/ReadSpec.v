(** What the snapshot readers should return, stated without their code. *)
From Coq Require Import String.
From Verif Require Import Base.Prelude Snap.ReadModel.
Local Open Scope Z_scope.

(** ** hash cells *)
Section Cells.
  Context {A : Type}.

  (** the contents of one snapshot file: the number of its first hash cell and the
      particles (position, velocity, id) in each of its cells *)
  Record cellfile := { cf_first : Z; cf_cells : list (list (A * A * A)) }.

  (** exclusive prefix sums: where each cell begins *)
  Fixpoint starts (from : Z) (cells : list (list (A * A * A))) : list Z :=
    match cells with [] => [] | c :: cells' => from :: starts (from + zlen c) cells' end.

  (** the file that holds these cells *)
  Definition file_of (f : cellfile) : hfile A :=
    let all := concat (cf_cells f) in
    {| h_first := cf_first f; h_last := cf_first f + zlen (cf_cells f) - 1; h_npart := zlen all;
       h_blockid := starts 0 (cf_cells f); h_pos := map (fun p => fst (fst p)) all; h_vel := map (fun p => snd (fst p)) all; h_ids := map snd all |}.

  (** every cell number exists and the particles can be counted in an int32 *)
  Definition file_ok (nhash : Z) (f : cellfile) : Prop :=
    0 <= cf_first f /\ cf_first f + zlen (cf_cells f) <= nhash /\ zlen (concat (cf_cells f)) < 2 ^ 31.

  (** cell [c] is one of the keys; python lets -1 name the last cell, and so on *)
  Definition wanted (nhash : Z) (keys : list Z) (c : Z) : Prop := In c keys \/ In (c - nhash) keys.

  (** [sel] is exactly the particles of the wanted cells, in file order: for each
      file in turn the cells of that file, kept or dropped whole *)
  Inductive picks (want : Z -> Prop) : Z -> list (list (A * A * A)) -> list (A * A * A) -> Prop :=
  | picks_nil n : picks want n [] []
  | picks_keep n c cells sel : want n -> picks want (n + 1) cells sel -> picks want n (c :: cells) (c ++ sel)
  | picks_drop n c cells sel : ~ want n -> picks want (n + 1) cells sel -> picks want n (c :: cells) sel.
  Inductive picks_files (want : Z -> Prop) : list cellfile -> list (A * A * A) -> Prop :=
  | pf_nil : picks_files want [] []
  | pf_cons f fs s sel : picks want (cf_first f) (cf_cells f) s -> picks_files want fs sel -> picks_files want (f :: fs) (s ++ sel).

  (** some file has a wanted cell *)
  Definition some_cell (want : Z -> Prop) (fs : list cellfile) : Prop :=
    exists f n, In f fs /\ cf_first f <= n < cf_first f + zlen (cf_cells f) /\ want n.
End Cells.
Arguments cellfile : clear implicits.

(** ** multi-file snapshots *)
Section Snap.
  Context {A : Type}.

  (** file [f] holds the particles [g] of type [t] (one list of rows for each of
      the datasets [names], all of length n); the datasets need not exist if n = 0 *)
  Definition holds (names : list string) (t : Z) (f : sfile A) (g : string -> list A) (n : Z) : Prop :=
    0 <= n /\ nth_error (sf_npart f) (Z.to_nat t) = Some n /\
    forall name, In name names -> zlen (g name) = n /\ (0 < n -> sf_data f t name = Some (g name)).

  (** the whole dataset: the files' parts one after the other *)
  Definition whole (gs : list (string -> list A)) (name : string) : list A := concat (map (fun g => g name) gs).

  (** a file, its rows of each dataset and its number of particles *)
  Definition fileinfo : Type := (sfile A * (string -> list A) * Z)%type.
  Definition i_file (x : fileinfo) := fst (fst x).
  Definition i_rows (x : fileinfo) := snd (fst x).
  Definition i_n (x : fileinfo) := snd x.
  Definition info_ok (names : list string) (x : fileinfo) : Prop := holds names 1 (i_file x) (i_rows x) (i_n x).
  Definition total (xs : list fileinfo) : Z := sumZ (map i_n xs).
End Snap.

(** ** FoF groups in a snapshot sorted by group *)
Section Fof.
  Context {A : Type}.

  Definition types : list Z := [0; 1; 2; 3; 4; 5].
  Definition three : list string := ["Coordinates"; "Velocities"; "ParticleIDs"]%string.

  (** file [f] holds the particles [g t] of every type, [n t] of them *)
  Definition holds_all (f : sfile A) (g : Z -> string -> list A) (n : Z -> Z) : Prop :=
    length (sf_npart f) = 6%nat /\ forall t, In t types -> holds three t f (g t) (n t).

  (** number of particles of type [t] in group [i] and in all groups before it *)
  Definition group_len (c : fofcat) (i t : Z) : Z := nth (Z.to_nat t) (nth (Z.to_nat i) (foflentype c) []) 0.
  Definition group_start (c : fofcat) (i t : Z) : Z := sumZ (map (fun r => nth (Z.to_nat t) r 0) (firstn (Z.to_nat i) (foflentype c))).

  (** the rows of the group: a contiguous range of the particles of that type *)
  Definition group_rows (c : fofcat) (gs : list (Z -> string -> list A)) (i t : Z) (name : string) : list A :=
    let all := concat (map (fun g => g t name) gs) in
    zslice all (group_start c i t) (group_start c i t + group_len c i t).

  (** number of particles of type [t] in subhalo [k] *)
  Definition sub_len (c : fofcat) (k t : Z) : Z := nth (Z.to_nat t) (nth (Z.to_nat k) (sublentype c) []) 0.
  Fixpoint sub_total (c : fofcat) (first t : Z) (n : nat) : Z :=
    match n with O => 0 | S n' => sub_len c first t + sub_total c (first + 1) t n' end.

  (** the [j]th particle of type [t] of group [i] is in subhalo [s], or in none
      ([s] = -1). The subhalos of a group come first, in order. *)
  Definition in_subhalo (c : fofcat) (i t j s : Z) : Prop :=
    let first := nth (Z.to_nat i) (fof_firstsub c) 0 in
    let n := nth (Z.to_nat i) (fof_nsubs c) 0 in
    (exists k : nat, Z.of_nat k < n /\ sub_total c first t k <= j < sub_total c first t (S k) /\ s = first + Z.of_nat k) \/
    (sub_total c first t (Z.to_nat n) <= j /\ s = -1).

  (** a catalogue whose tables fit together *)
  Definition cat_ok (c : fofcat) : Prop :=
    Forall (fun r => length r = 6%nat /\ Forall (fun x => 0 <= x) r) (foflentype c) /\
    Forall (fun r => length r = 6%nat /\ Forall (fun x => 0 <= x) r) (sublentype c) /\
    length (fof_nsubs c) = length (foflentype c) /\ length (fof_firstsub c) = length (foflentype c) /\
    forall i, 0 <= i < zlen (foflentype c) ->
      let first := nth (Z.to_nat i) (fof_firstsub c) 0 in
      let n := nth (Z.to_nat i) (fof_nsubs c) 0 in
      0 <= n /\ (0 < n -> 0 <= first /\ first + n <= zlen (sublentype c)) /\
      forall t, In t types -> sub_total c first t (Z.to_nat n) <= group_len c i t.

  (** a file, its rows and its number of particles of each type *)
  Definition finfo : Type := (sfile A * (Z -> string -> list A) * (Z -> Z))%type.
  Definition f_file (x : finfo) := fst (fst x).
  Definition f_rows (x : finfo) := snd (fst x).
  Definition f_n (x : finfo) := snd x.
  Definition finfo_ok (x : finfo) : Prop := holds_all (f_file x) (f_rows x) (f_n x).
  Definition tot (xs : list finfo) (t : Z) : Z := sumZ (map (fun x => f_n x t) xs).

  (** a type is returned completely, with the right SubNr *)
  Definition type_complete (c : fofcat) (gs : list (Z -> string -> list A)) (i t : Z) (r : @fof_result A) : Prop :=
    (group_len c i t = 0 -> r = None) /\
    (0 < group_len c i t -> exists s, r = Some (map (group_rows c gs i t) three, s) /\ zlen s = group_len c i t /\
        forall j, 0 <= j < group_len c i t -> in_subhalo c i t j (nth (Z.to_nat j) s 0)).

  (** in every case: nothing but the last particle of a type can be missing *)
  Definition type_short (c : fofcat) (gs : list (Z -> string -> list A)) (i t : Z) (r : @fof_result A) : Prop :=
    exists lost, (lost = 0 \/ lost = 1 /\ 0 < group_len c i t) /\
      (group_len c i t - lost = 0 -> r = None) /\
      (0 < group_len c i t - lost -> exists s, r = Some (map (fun nm => firstn (Z.to_nat (group_len c i t - lost)) (group_rows c gs i t nm)) three, s) /\
         zlen s = group_len c i t - lost /\ forall j, 0 <= j < group_len c i t - lost -> in_subhalo c i t j (nth (Z.to_nat j) s 0)).
End Fof.
