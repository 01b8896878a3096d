(** C43-C45: reading cells, particle ranges and groups out of multi-file snapshots. *)
From Coq Require Import String.
From Verif Require Import Base.Prelude Base.ListLemmas Peano.PeanoModel.
From Verif Require Import Snap.ReadModel Snap.ReadSpec Snap.CellsProofs Snap.RangeProofs Snap.FofProofs Snap.FofFinal Snap.ReadFinal.
Local Open Scope Z_scope.

(** ** C43: Snapshot.read_cells, after any earlier calls *)

(** the particles of exactly the requested cells, in file order, with positions,
    velocities and ids in step *)
Theorem C43_exact : forall A nhash (fs : list (cellfile A)) calls keys, 0 <= nhash -> Forall (file_ok nhash) fs ->
  Forall (fun k => - nhash <= k < nhash) keys -> some_cell (wanted nhash keys) fs ->
  exists sel, picks_files (wanted nhash keys) fs sel /\
    snd (read_cells nhash (map file_of fs) (cells_history nhash (map file_of fs) calls) keys) =
    Ok (map (fun p => fst (fst p)) sel, map (fun p => snd (fst p)) sel, map snd sel).
Proof. exact @cells_exact. Qed.
Print Assumptions C43_exact.

Theorem C43_members : forall A nhash (fs : list (cellfile A)) calls keys, 0 <= nhash -> Forall (file_ok nhash) fs ->
  Forall (fun k => - nhash <= k < nhash) keys -> some_cell (wanted nhash keys) fs ->
  exists pos vel ids sel,
    snd (read_cells nhash (map file_of fs) (cells_history nhash (map file_of fs) calls) keys) = Ok (pos, vel, ids) /\
    pos = map (fun p => fst (fst p)) sel /\ vel = map (fun p => snd (fst p)) sel /\ ids = map snd sel /\
    forall p, In p sel <-> exists f k c, In f fs /\ nth_error (cf_cells f) k = Some c /\ wanted nhash keys (cf_first f + Z.of_nat k) /\ In p c.
Proof. exact @cells_members. Qed.
Print Assumptions C43_members.

(** no file has a requested cell: a ValueError, not an empty result *)
Theorem C43_none : forall A nhash (fs : list (cellfile A)) calls keys, 0 <= nhash -> Forall (file_ok nhash) fs ->
  Forall (fun k => - nhash <= k < nhash) keys -> ~ some_cell (wanted nhash keys) fs ->
  snd (read_cells nhash (map file_of fs) (cells_history nhash (map file_of fs) calls) keys) = Err EValue.
Proof. exact @cells_none. Qed.
Print Assumptions C43_none.

Theorem C43_bad_key : forall A nhash (fs : list (cellfile A)) calls keys, 0 <= nhash -> Forall (file_ok nhash) fs ->
  ~ Forall (fun k => - nhash <= k < nhash) keys ->
  snd (read_cells nhash (map file_of fs) (cells_history nhash (map file_of fs) calls) keys) = Err EIndex.
Proof. exact @cells_bad. Qed.
Print Assumptions C43_bad_key.

Definition ex_cells : list (cellfile Z) :=
  [{| cf_first := 0; cf_cells := [[(10, 20, 1); (11, 21, 2)]; []; [(12, 22, 3)]] |};
   {| cf_first := 3; cf_cells := [[(13, 23, 4)]; [(14, 24, 5); (15, 25, 6)]] |}].
Example C43_ex : Forall (file_ok 8) ex_cells /\ some_cell (wanted 8 [4; 0; 4; -1]) ex_cells /\ ~ some_cell (wanted 8 [6]) ex_cells /\
  read_cells 8 (map file_of ex_cells) (cells_history 8 (map file_of ex_cells) [[1]; [100]; [7]]) [4; 0; 4; -1] =
  ([Some (0, 2); Some (3, 4)], Ok ([10; 11; 14; 15], [20; 21; 24; 25], [1; 2; 5; 6])).
Proof.
  split; [repeat constructor; cbn; lia|]. split; [exists (nth 1 ex_cells (Build_cellfile 0 [])), 4; cbn; unfold zlen, wanted; cbn; intuition|].
  split; [|vm_compute; reflexivity]. intros (f & n & [<-|[<-|[]]] & H1 & H2); cbn in H1; unfold zlen, wanted in *; cbn in *; lia.
Qed.

(** ** C44: GroupOrderedSnapshot.read_particle_range (P-Gadget3), after any earlier calls *)

Theorem C44_range : forall A (all names : list string) (xs : list (@fileinfo A)) calls,
  Forall (info_ok all) xs -> (forall c, In c calls -> NoDup (snd c) /\ incl (snd c) all) -> NoDup names -> incl names all ->
  forall offset count, 0 <= offset -> 0 < count -> offset + count <= total xs ->
  snd (read_particle_range (fun x => x) (map i_file xs) (range_history (map i_file xs) calls) offset count names) =
  Ok (map (fun nm => (nm, zslice (whole (map i_rows xs) nm) offset (offset + count))) names).
Proof. exact @rr_exact. Qed.
Print Assumptions C44_range.

(** a range without particles is a ValueError, in particular count = 0 *)
Theorem C44_nothing : forall A (all names : list string) (xs : list (@fileinfo A)) calls,
  Forall (info_ok all) xs -> (forall c, In c calls -> NoDup (snd c) /\ incl (snd c) all) -> NoDup names -> incl names all ->
  forall offset count, names <> [] -> (forall k, offset <= k < offset + count -> ~ 0 <= k < total xs) ->
  snd (read_particle_range (fun x => x) (map i_file xs) (range_history (map i_file xs) calls) offset count names) = Err EValue.
Proof. exact @rr_nothing. Qed.
Print Assumptions C44_nothing.

Theorem C44_empty_refuted : forall A (all names : list string) (xs : list (@fileinfo A)) calls,
  Forall (info_ok all) xs -> (forall c, In c calls -> NoDup (snd c) /\ incl (snd c) all) -> NoDup names -> incl names all ->
  forall offset, names <> [] ->
  snd (read_particle_range (fun x => x) (map i_file xs) (range_history (map i_file xs) calls) offset 0 names) = Err EValue.
Proof. exact @rr_empty. Qed.
Print Assumptions C44_empty_refuted.

(** read_fof_group and read_subfind_group return the rows the catalogue gives *)
Theorem C44_fof_group : forall A (all names : list string) (xs : list (@fileinfo A)) calls,
  Forall (info_ok all) xs -> (forall c, In c calls -> NoDup (snd c) /\ incl (snd c) all) -> NoDup names -> incl names all ->
  forall cat_offset cat_len g, 0 <= g < zlen cat_offset -> zlen cat_len = zlen cat_offset ->
  0 <= nth (Z.to_nat g) cat_offset 0 -> 0 < nth (Z.to_nat g) cat_len 0 ->
  nth (Z.to_nat g) cat_offset 0 + nth (Z.to_nat g) cat_len 0 <= total xs ->
  snd (p3_read_fof_group (map i_file xs) (range_history (map i_file xs) calls) cat_offset cat_len g names) =
  Ok (map (fun nm => (nm, zslice (whole (map i_rows xs) nm) (nth (Z.to_nat g) cat_offset 0)
                            (nth (Z.to_nat g) cat_offset 0 + nth (Z.to_nat g) cat_len 0))) names).
Proof. exact @rr_fof. Qed.
Print Assumptions C44_fof_group.

Theorem C44_subfind_group : forall A (all names : list string) (xs : list (@fileinfo A)) calls,
  Forall (info_ok all) xs -> (forall c, In c calls -> NoDup (snd c) /\ incl (snd c) all) -> NoDup names -> incl names all ->
  forall cat_offset cat_len g, 0 <= g < zlen cat_offset -> zlen cat_len = zlen cat_offset ->
  0 <= nth (Z.to_nat g) cat_offset 0 -> 0 < nth (Z.to_nat g) cat_len 0 ->
  nth (Z.to_nat g) cat_offset 0 + nth (Z.to_nat g) cat_len 0 <= total xs ->
  nth (Z.to_nat g) cat_offset 0 + nth (Z.to_nat g) cat_len 0 <= 2 ^ 31 ->
  snd (p3_read_subfind_group (map i_file xs) (range_history (map i_file xs) calls) cat_offset cat_len g names) =
  Ok (map (fun nm => (nm, zslice (whole (map i_rows xs) nm) (nth (Z.to_nat g) cat_offset 0)
                            (nth (Z.to_nat g) cat_offset 0 + nth (Z.to_nat g) cat_len 0))) names).
Proof. exact @rr_sub. Qed.
Print Assumptions C44_subfind_group.

(** SubOffset and SubLen are int32: a subhalo ending after particle 2^31 cannot
    be read even though it is in the snapshot *)
Theorem C44_subfind_overflow_refuted : forall A (all names : list string) (xs : list (@fileinfo A)) calls,
  Forall (info_ok all) xs -> (forall c, In c calls -> NoDup (snd c) /\ incl (snd c) all) -> NoDup names -> incl names all ->
  forall cat_offset cat_len g, 0 <= g < zlen cat_offset -> zlen cat_len = zlen cat_offset ->
  names <> [] -> nth (Z.to_nat g) cat_offset 0 < 2 ^ 31 -> nth (Z.to_nat g) cat_len 0 < 2 ^ 31 ->
  2 ^ 31 < nth (Z.to_nat g) cat_offset 0 + nth (Z.to_nat g) cat_len 0 ->
  snd (p3_read_subfind_group (map i_file xs) (range_history (map i_file xs) calls) cat_offset cat_len g names) = Err EValue.
Proof. exact @rr_sub_over. Qed.
Print Assumptions C44_subfind_overflow_refuted.

Definition ex_file (n : Z) (p v : list Z) : @fileinfo Z :=
  ({| sf_npart := [0; n; 0; 0; 0; 0];
      sf_data := fun t nm => if (t =? 1) && (0 <? n) then (if String.eqb nm "P" then Some p else if String.eqb nm "V" then Some v else None) else None |},
   (fun nm => if String.eqb nm "P" then p else v), n).
Definition ex_snap : list (@fileinfo Z) := [ex_file 3 [1; 2; 3] [11; 12; 13]; ex_file 0 [] []; ex_file 4 [4; 5; 6; 7] [14; 15; 16; 17]].
Example C44_ex : Forall (info_ok ["P"; "V"]%string) ex_snap /\ total ex_snap = 7 /\
  read_particle_range (fun x => x) (map i_file ex_snap) (range_history (map i_file ex_snap) [((fun x => x), 0, 1, ["V"]%string); ((fun x => x), 9, 1, ["P"]%string)]) 2 3 ["V"; "P"]%string =
  ([3; 0; 4], Ok [("V", [13; 14; 15]); ("P", [3; 4; 5])]%string) /\
  snd (p3_read_fof_group (map i_file ex_snap) (new_npart (map i_file ex_snap)) [0; 2] [2; 5] 1 ["P"]%string) = Ok [("P"%string, [3; 4; 5; 6; 7])] /\
  snd (p3_read_subfind_group (map i_file ex_snap) (new_npart (map i_file ex_snap)) [0; 2] [2; 5] 1 ["P"]%string) = Ok [("P"%string, [3; 4; 5; 6; 7])] /\
  snd (p3_read_subfind_group (map i_file ex_snap) (new_npart (map i_file ex_snap)) [0; 2 ^ 31 - 2] [2; 3] 1 ["P"]%string) = Err EValue.
Proof.
  split; [|repeat split; vm_compute; reflexivity].
  repeat constructor; cbn; try lia; cbn in *; intuition; subst; cbn; try reflexivity; try lia.
Qed.

(** a dataset named twice comes back with each part doubled *)
Theorem C44_duplicate_refuted : exists (xs : list (@fileinfo Z)), Forall (info_ok ["P"]%string) xs /\ total xs = 2 /\
  whole (map i_rows xs) "P" = [1; 2] /\
  snd (read_particle_range (fun x => x) (map i_file xs) (new_npart (map i_file xs)) 0 2 ["P"; "P"]%string) = Ok [("P"%string, [1; 1; 2; 2])].
Proof.
  exists [ex_file 1 [1] [0]; ex_file 1 [2] [0]]. split; [|repeat split; vm_compute; reflexivity].
  repeat constructor; cbn; try lia; cbn in *; intuition; subst; cbn; try reflexivity; try lia.
Qed.
Print Assumptions C44_duplicate_refuted.

(** ** C45: GroupOrderedSnapshot.read_fof_group (Gadget-4), after any earlier calls *)

(** if no type's last group particle is the first of its type in a file at whose
    beginning all other types are complete, the group comes back whole, with the
    right subhalo for every particle *)
Theorem C45_complete : forall A c (xs : list (@finfo A)) calls, cat_ok c -> Forall finfo_ok xs ->
  forall i, 0 <= i < zlen (foflentype c) ->
  (forall t, In t types -> group_start c i t + group_len c i t <= tot xs t) ->
  (forall j, (0 < j < length xs)%nat -> (forall t, In t types -> group_start c i t + group_len c i t - 1 <= tot (firstn j xs) t) ->
     forall t, In t types -> 0 < group_len c i t -> tot (firstn j xs) t <> group_start c i t + group_len c i t - 1) ->
  exists out, snd (g4_read_fof_group c (map f_file xs) (fof_history c (map f_file xs) calls) (GrNr i)) = Ok out /\
              Forall2 (type_complete c (map f_rows xs) i) types out.
Proof. exact @g4_complete. Qed.
Print Assumptions C45_complete.

(** whatever the layout: at most the last particle of a type is missing, or the
    call fails with a ValueError *)
Theorem C45_at_most_one : forall A c (xs : list (@finfo A)) calls, cat_ok c -> Forall finfo_ok xs ->
  forall i, 0 <= i < zlen (foflentype c) ->
  (forall t, In t types -> group_start c i t + group_len c i t <= tot xs t) ->
  (exists out, snd (g4_read_fof_group c (map f_file xs) (fof_history c (map f_file xs) calls) (GrNr i)) = Ok out /\
               Forall2 (type_short c (map f_rows xs) i) types out) \/
  snd (g4_read_fof_group c (map f_file xs) (fof_history c (map f_file xs) calls) (GrNr i)) = Err EValue.
Proof. exact @g4_short. Qed.
Print Assumptions C45_at_most_one.

(** (file number, position in file) means the same group as its global number *)
Theorem C45_pair : forall A c (xs : list (@finfo A)) calls f k, (f < length (nfof_file c))%nat ->
  g4_read_fof_group c (map f_file xs) (fof_history c (map f_file xs) calls) (GrPair (Z.of_nat f) k) =
  g4_read_fof_group c (map f_file xs) (fof_history c (map f_file xs) calls) (GrNr (sumZ (firstn f (nfof_file c)) + k)).
Proof. exact @g4_pair. Qed.
Print Assumptions C45_pair.

Definition ex_g4 (n : Z) (rows : list Z) : @finfo Z :=
  ({| sf_npart := [0; n; 0; 0; 0; 0];
      sf_data := fun t nm => if (t =? 1) && (0 <? n) then (if existsb (String.eqb nm) three then Some rows else None) else None |},
   (fun t nm => if t =? 1 then rows else []), (fun t => if t =? 1 then n else 0)).
Lemma ex_g4_ok n rows : zlen rows = n -> 0 <= n -> finfo_ok (ex_g4 n rows).
Proof.
  intros H H0. split; [reflexivity|]. intros t Ht. unfold types in Ht. cbn in Ht.
  destruct Ht as [<-|[<-|[<-|[<-|[<-|[<-|[]]]]]]]; (split; [cbn; lia|]; split; [reflexivity|]); intros nm Hn; cbn; (split; [easy|]); try lia.
  intro Hp. assert (E : (0 <? n) = true) by now apply Z.ltb_lt. rewrite E. cbn in Hn. destruct Hn as [<-|[<-|[<-|[]]]]; reflexivity.
Qed.
(** two groups of 3 and 4 particles of type 1; group 1 has one subhalo of 3 *)
Definition ex_cat : fofcat :=
  {| foflentype := [[0; 3; 0; 0; 0; 0]; [0; 4; 0; 0; 0; 0]]; fof_nsubs := [0; 1]; fof_firstsub := [-1; 0]; sublentype := [[0; 3; 0; 0; 0; 0]]; nfof_file := [1; 1] |}.
Lemma ex_cat_ok : cat_ok ex_cat.
Proof.
  split; [repeat constructor; lia|]. split; [repeat constructor; lia|]. split; [reflexivity|]. split; [reflexivity|].
  intros i Hi. assert (i = 0 \/ i = 1) as [->| ->] by (cbn in Hi; unfold zlen in Hi; cbn in Hi; lia);
    (cbv zeta; split; [vm_compute; congruence|]; split; [vm_compute; intuition congruence|]; intros t Ht; cbn in Ht; intuition; subst; vm_compute; congruence).
Qed.
Example C45_ex : let xs := [ex_g4 5 [1; 2; 3; 4; 5]; ex_g4 0 []; ex_g4 2 [6; 7]] in
  cat_ok ex_cat /\ Forall finfo_ok xs /\
  g4_read_fof_group ex_cat (map f_file xs) (fof_history ex_cat (map f_file xs) [GrNr 0; GrNr 5]) (GrPair 1 0) =
  ([[0; 5; 0; 0; 0; 0]; repeat 0 6; [0; 2; 0; 0; 0; 0]],
   Ok [None; Some ([[4; 5; 6; 7]; [4; 5; 6; 7]; [4; 5; 6; 7]], [0; 0; 0; -1]); None; None; None; None]).
Proof.
  split; [exact ex_cat_ok|]. split; [|vm_compute; reflexivity]. repeat constructor; now apply ex_g4_ok.
Qed.

(** the loop over files stops one particle early: the last particle of the
    group, the first of the second file, is lost *)
Theorem C45_last_particle_refuted : exists (xs : list (@finfo Z)), cat_ok ex_cat /\ Forall finfo_ok xs /\
  (forall t, In t types -> group_start ex_cat 1 t + group_len ex_cat 1 t <= tot xs t) /\
  group_rows ex_cat (map f_rows xs) 1 1 "ParticleIDs" = [4; 5; 6; 7] /\
  snd (g4_read_fof_group ex_cat (map f_file xs) (new_npart6 (map f_file xs)) (GrNr 1)) =
  Ok [None; Some ([[4; 5; 6]; [4; 5; 6]; [4; 5; 6]], [0; 0; 0]); None; None; None; None].
Proof.
  exists [ex_g4 6 [1; 2; 3; 4; 5; 6]; ex_g4 1 [7]]. split; [exact ex_cat_ok|]. split; [repeat constructor; now apply ex_g4_ok|].
  split; [intros t Ht; cbn in Ht; intuition; subst; vm_compute; congruence|]. split; vm_compute; reflexivity.
Qed.
Print Assumptions C45_last_particle_refuted.

(** ... and if the lost particle is in a subhalo the call raises a ValueError *)
Theorem C45_subnr_refuted : exists c (xs : list (@finfo Z)), cat_ok c /\ Forall finfo_ok xs /\
  (forall t, In t types -> group_start c 0 t + group_len c 0 t <= tot xs t) /\
  snd (g4_read_fof_group c (map f_file xs) (new_npart6 (map f_file xs)) (GrNr 0)) = Err EValue.
Proof.
  exists {| foflentype := [[0; 3; 0; 0; 0; 0]]; fof_nsubs := [1]; fof_firstsub := [0]; sublentype := [[0; 3; 0; 0; 0; 0]]; nfof_file := [1] |}.
  exists [ex_g4 2 [1; 2]; ex_g4 1 [3]].
  split. { split; [repeat constructor; lia|]. split; [repeat constructor; lia|]. split; [reflexivity|]. split; [reflexivity|].
    intros i Hi. assert (i = 0) as -> by (cbn in Hi; unfold zlen in Hi; cbn in Hi; lia).
    cbv zeta; split; [vm_compute; congruence|]; split; [vm_compute; intuition congruence|]; intros t Ht; cbn in Ht; intuition; subst; vm_compute; congruence. }
  split; [repeat constructor; now apply ex_g4_ok|].
  split; [intros t Ht; cbn in Ht; intuition; subst; vm_compute; congruence|]. vm_compute; reflexivity.
Qed.
Print Assumptions C45_subnr_refuted.
