(** C69: the programs which write the particles of groups. *)
From Coq Require Import Ascii String.
From Verif Require Import Base.Prelude Snap.ReadSpec Fortran.RegionModel Fortran.RegionSpec Fortran.FofModel Fortran.FofSpec Fortran.FofFinal Fortran.RegionProps.
Local Open Scope Z_scope.

(** readfofgroupsexample.f90: every id of the group file has a particle in the cell of its
    hash key; the lines are the members of the groups in order, each with the coordinates of
    a particle with the id *)
Theorem C69_fof : forall little lf shrink nhash fs contents junk gids len offset,
  shrink 1 <= 0 -> (forall inc, 3 <= inc < 50 -> 1 <= shrink inc < inc) -> Forall2 (hash_file lf) fs contents -> covers 0 nhash fs ->
  Forall (fun g => hash_key g < nhash) gids -> gids <> [] -> (forall g, In g gids -> exists p, in_cell fs (hash_key g) p /\ id_of p = plain_id g) -> groups_ok (zlen gids) len offset ->
  exists chosen, chooses fs gids chosen /\ fof_program little (negb (Bool.eqb lf little)) shrink nhash contents junk gids len offset = Ok (lines (fof_groups len offset) chosen).
Proof. intros little lf shrink nhash fs contents junk gids len offset H1 H2 H3 H4. exact (fof_final little lf shrink nhash fs contents junk gids (conj H1 (conj H2 (conj H3 H4))) len offset). Qed.
Print Assumptions C69_fof.
(** readgroupsexample.f90: the same for subhalos *)
Theorem C69_sub : forall little lf shrink nhash fs contents junk gids len offset par,
  shrink 1 <= 0 -> (forall inc, 3 <= inc < 50 -> 1 <= shrink inc < inc) -> Forall2 (hash_file lf) fs contents -> covers 0 nhash fs ->
  Forall (fun g => hash_key g < nhash) gids -> gids <> [] -> (forall g, In g gids -> exists p, in_cell fs (hash_key g) p /\ id_of p = plain_id g) -> groups_ok (zlen gids) len offset -> length par = length len ->
  exists chosen, chooses fs gids chosen /\ sub_program little (negb (Bool.eqb lf little)) shrink nhash contents junk gids len offset par = Ok (lines (sub_groups len offset par) chosen).
Proof. intros little lf shrink nhash fs contents junk gids len offset par H1 H2 H3 H4. exact (sub_final little lf shrink nhash fs contents junk gids (conj H1 (conj H2 (conj H3 H4))) len offset par). Qed.
Print Assumptions C69_sub.
(** with unique ids the chosen particle is the one of the cell of the key *)
Theorem C69_unique : forall fs gids chosen, chooses fs gids chosen -> (forall g, In g gids -> exists p, in_cell fs (hash_key g) p /\ id_of p = plain_id g) ->
  (forall h h' p q, in_cell fs h p -> in_cell fs h' q -> id_of p = id_of q -> p = q) -> Forall2 (fun g p => in_cell fs (hash_key g) p /\ id_of p = plain_id g) gids chosen.
Proof. exact unique_final. Qed.
Print Assumptions C69_unique.
(** an id which no particle of the cells has: the program stops with an error and writes nothing *)
Theorem C69_missing : forall little lf shrink nhash fs contents junk gids g len offset par,
  shrink 1 <= 0 -> (forall inc, 3 <= inc < 50 -> 1 <= shrink inc < inc) -> Forall2 (hash_file lf) fs contents -> covers 0 nhash fs ->
  Forall (fun g => hash_key g < nhash) gids -> (exists p g', In g' gids /\ in_cell fs (hash_key g') p) -> In g gids -> (forall p, (exists g', In g' gids /\ in_cell fs (hash_key g') p) -> id_of p <> plain_id g) ->
  fof_program little (negb (Bool.eqb lf little)) shrink nhash contents junk gids len offset = Err ERuntime /\ sub_program little (negb (Bool.eqb lf little)) shrink nhash contents junk gids len offset par = Err ERuntime.
Proof. intros little lf shrink nhash fs contents junk gids g len offset par H1 H2 H3 H4. exact (missing_final little lf shrink nhash fs contents junk gids (conj H1 (conj H2 (conj H3 H4))) g len offset par). Qed.
Print Assumptions C69_missing.
(** a file without group particles (or ids of empty cells only): not handled, readregion closes
    a file which it has not opened *)
Theorem C69_no_groups_refuted : forall little lf shrink nhash fs contents junk gids len offset par,
  shrink 1 <= 0 -> (forall inc, 3 <= inc < 50 -> 1 <= shrink inc < inc) -> Forall2 (hash_file lf) fs contents -> covers 0 nhash fs ->
  Forall (fun g => hash_key g < nhash) gids -> (forall p, ~ exists g', In g' gids /\ in_cell fs (hash_key g') p) ->
  fof_program little (negb (Bool.eqb lf little)) shrink nhash contents junk gids len offset = Err EAbort /\ sub_program little (negb (Bool.eqb lf little)) shrink nhash contents junk gids len offset par = Err EAbort.
Proof. intros little lf shrink nhash fs contents junk gids len offset par H1 H2 H3 H4. exact (nothing_final little lf shrink nhash fs contents junk gids (conj H1 (conj H2 (conj H3 H4))) len offset par). Qed.
Print Assumptions C69_no_groups_refuted.
(** a key beyond the hash table is an access outside of the array of flags *)
Theorem C69_key_range : forall little lf shrink nhash contents junk gids g len offset par, In g gids -> nhash <= hash_key g ->
  fof_program little (negb (Bool.eqb lf little)) shrink nhash contents junk gids len offset = Err EIndex /\ sub_program little (negb (Bool.eqb lf little)) shrink nhash contents junk gids len offset par = Err EIndex.
Proof. exact wild_final. Qed.
Print Assumptions C69_key_range.

(** ids 8 (cell 4), 7 (cell 3), 9 (cell 4) and 102 (cell 2) *)
Definition ex_gids : list Z := [4 * 2 ^ 34 + 8; 3 * 2 ^ 34 + 7; 4 * 2 ^ 34 + 9; 2 * 2 ^ 34 + 102].
Definition ex_shrink (inc : Z) : Z := if inc =? 1 then 0 else if inc <? 3 then 0 else inc / 2.
Definition ex_chosen : list particle := [([31; 32; 33], [34; 35; 36], [8]); ([21; 22; 23], [24; 25; 26], [7]); ([41; 42; 43], [44; 45; 46], [9]); ([7; 8; 9], [17; 18; 19], [102])].
Example C69_ex : ex_shrink 1 <= 0 /\ (forall inc, 3 <= inc < 50 -> 1 <= ex_shrink inc < inc) /\ Forall2 (hash_file false) ex_region ex_bytes /\ covers 0 6 ex_region /\
  Forall (fun g => hash_key g < 6) ex_gids /\ (forall g, In g ex_gids -> exists p, in_cell ex_region (hash_key g) p /\ id_of p = plain_id g) /\ groups_ok (zlen ex_gids) [1; 2] [3; 0] /\
  fof_program true true ex_shrink 6 ex_bytes 77 ex_gids [1; 2] [3; 0] = Ok [([0], 7, 8, 9); ([1], 31, 32, 33); ([1], 21, 22, 23)] /\
  sub_program true true ex_shrink 6 ex_bytes 77 ex_gids [1; 2] [3; 0] [5; 6] = Ok [([0; 5], 7, 8, 9); ([1; 6], 31, 32, 33); ([1; 6], 21, 22, 23)] /\
  fof_program true true ex_shrink 6 ex_bytes 77 (4 * 2 ^ 34 + 10 :: ex_gids) [1; 2] [3; 0] = Err ERuntime /\
  fof_program true true ex_shrink 6 ex_bytes 77 [] [] [] = Err EAbort /\
  fof_program true true ex_shrink 6 ex_bytes 77 [6 * 2 ^ 34] [] [] = Err EIndex /\ fof_program true true ex_shrink 6 ex_bytes 77 [-1] [] [] = Err EIndex.
Proof.
  split; [vm_compute; congruence|]. split; [intros inc H; unfold ex_shrink; replace (inc =? 1) with false by lia; replace (inc <? 3) with false by lia; split; [apply Z.div_le_lower_bound; lia | apply Z.div_lt; lia]|].
  split; [apply C68_ex|]. split; [apply C68_ex|]. split; [repeat constructor|]. split; [|split; [unfold groups_ok; repeat (constructor; [unfold zlen; cbn; lia|]); constructor|]].
  - intros g Hg. cbn [ex_gids In] in Hg. destruct Hg as [<-|[<-|[<-|[<-|[]]]]].
    + exists ([31; 32; 33], [34; 35; 36], [8]). split; [|reflexivity]. do 2 eexists. eexists. split; [right; left; reflexivity|]. split; [instantiate (2 := 1%nat); reflexivity|]. split; [reflexivity | now left].
    + exists ([21; 22; 23], [24; 25; 26], [7]). split; [|reflexivity]. do 2 eexists. eexists. split; [right; left; reflexivity|]. split; [instantiate (2 := 0%nat); reflexivity|]. split; [reflexivity | now left].
    + exists ([41; 42; 43], [44; 45; 46], [9]). split; [|reflexivity]. do 2 eexists. eexists. split; [right; left; reflexivity|]. split; [instantiate (2 := 1%nat); reflexivity|]. split; [reflexivity | right; now left].
    + exists ([7; 8; 9], [17; 18; 19], [102]). split; [|reflexivity]. do 2 eexists. eexists. split; [left; reflexivity|]. split; [instantiate (2 := 2%nat); reflexivity|]. split; [reflexivity | now left].
  - vm_compute. repeat split.
Qed.
