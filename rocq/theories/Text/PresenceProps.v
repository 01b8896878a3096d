(** C79: the programs which check for missing files. *)
From Coq Require Import Ascii String.
From Verif Require Import Base.Prelude Formats.ReaderModel Formats.FileSpec Formats.CatSpec.
From Verif Require Import Text.StrModel Text.StrProofs Text.EagleModel Text.EagleSpec Text.EagleProofs Text.PresenceModel Text.PresenceSpec Text.PresenceProofs Text.PresenceFinal Text.PresenceRun.
Local Open Scope char_scope.
Local Open Scope Z_scope.
Local Open Scope list_scope.

(** P-Gadget3: one output of a snapshot. [get] gives the number of files from the first of them *)
Theorem C79_pgadget3_check : forall listing basedir dirbase filebase isnap get, ~ In "/" filebase ->
  let dir := pg_dir basedir dirbase isnap in
  let first := get (dir ++ "/" :: pg_file filebase isnap 0) in
  let r := pg_check_dir listing basedir dirbase filebase isnap get in
  (snd r = true <-> complete first (listing dir) (pg_file filebase isnap)) /\ says dirbase filebase isnap first (listing dir) (pg_file filebase isnap) (fst r).
Proof. exact pg_check. Qed.
Print Assumptions C79_pgadget3_check.
(** a whole run: a line for each output of each snapshot, and a summary with the number of
    incomplete outputs of each type *)
Theorem C79_pgadget3_run : forall listing little contents snap_nfiles basedir snapbase max_num first_num step, ~ In "/" snapbase -> step <> 0 ->
  let outputs := pg_outputs snapbase snap_nfiles (ntask little contents (pgadget3_group_tab 8 4)) (ntask little contents (pgadget3_group_ids 8)) (ntask little contents (pgadget3_sub_tab false false false 8 4)) (ntask little contents (pgadget3_sub_ids 8)) in
  exists snaps lines s, pg_run listing little contents snap_nfiles basedir snapbase max_num first_num step = Ok (lines, s) /\ steps first_num max_num step snaps /\ NoDup snaps /\
    Forall2 (fun x line => let '(i, (dirbase, filebase, _, g)) := x in let dir := pg_dir basedir dirbase i in
      says dirbase filebase i (g (dir ++ "/" :: pg_file filebase i 0)) (listing dir) (pg_file filebase i) line) (flat_map (fun i => map (fun k => (i, k)) outputs) snaps) lines /\
    NoDup (map (fun x => fst (fst x)) s) /\ (forall n m e, In (n, m, e) s -> In n (map (fun k => snd (fst k)) outputs)) /\
    forall dirbase filebase n g, In (dirbase, filebase, n, g) outputs -> exists ok : Z -> bool,
      (forall i, ok i = true <-> let dir := pg_dir basedir dirbase i in complete (g (dir ++ "/" :: pg_file filebase i 0)) (listing dir) (pg_file filebase i)) /\
      forall m e, In (n, m, e) s <-> 0 < m /\ m = zlen (filter (fun i => negb (ok i)) snaps) /\ e = zlen snaps.
Proof. exact pg_run_ok. Qed.
Print Assumptions C79_pgadget3_run.
Theorem C79_pgadget3_step : forall listing little contents snap_nfiles basedir snapbase max_num first_num, pg_run listing little contents snap_nfiles basedir snapbase max_num first_num 0 = Err EValue.
Proof. exact pg_run_zero. Qed.
Print Assumptions C79_pgadget3_step.
(** the number of files of a catalogue is that in the bytes of the first file *)
Theorem C79_pgadget3_ntask : forall little contents p l cat lf rest fname, reads p "NTask" l -> consistent cat l -> 1 <= scalar cat "NTask" <= 65535 -> contents fname = Some (file_bytes lf (pieces_of cat l) ++ rest) ->
  ntask little contents p fname = Ok (scalar cat "NTask").
Proof. exact ntask_ok. Qed.
Print Assumptions C79_pgadget3_ntask.

(** Eagle: one output of a snapshot, after any checks of other outputs. [ok_name]: not empty,
    no slash or special characters, does not start with a dot *)
Theorem C79_eagle_check : forall F listing attribute, proper F -> forall basedir, plain basedir -> forall calls dirbase filebase attr isnap, ok_name dirbase = true -> ~ In "/" filebase ->
  match fst (eg_check_dir F listing attribute (eg_history F listing attribute calls) basedir dirbase filebase attr isnap) with
  | Ok (line, ok) => (ok = true <-> eg_complete F listing attribute basedir dirbase filebase attr isnap) /\ eg_says F listing attribute basedir dirbase filebase attr isnap line
  | Err e => e <> EIO /\ exists z, only_label F basedir dirbase isnap z /\ eg_first attribute basedir dirbase filebase attr isnap z = Err e
  end.
Proof. exact eg_check. Qed.
Print Assumptions C79_eagle_check.
(** a whole run, if files can be opened and have the attribute or can not be opened *)
Theorem C79_eagle_run : forall F listing attribute, proper F -> forall basedir, plain basedir -> forall num_snaps num_snips, (forall fname a e, attribute fname a = Err e -> e = EIO) ->
  exists lines s, eg_run F listing attribute basedir num_snaps num_snips = Ok (lines, s) /\
    Forall2 (fun x line => let '(i, (d, f, _, a)) := x in eg_says F listing attribute basedir d f a i line)
      (flat_map (fun i => map (fun k => (i, k)) (eg_outputs false)) (zseq 0 (Z.to_nat num_snaps)) ++ flat_map (fun i => map (fun k => (i, k)) (eg_outputs true)) (zseq 0 (Z.to_nat num_snips))) lines /\
    NoDup (map (fun x => fst (fst x)) s) /\ (forall n m e, In (n, m, e) s -> In n (map (fun k => snd (fst k)) (eg_outputs false) ++ map (fun k => snd (fst k)) (eg_outputs true))) /\
    forall (snip : bool) d f n a, In (d, f, n, a) (eg_outputs snip) -> let num := if snip then num_snips else num_snaps in exists ok : Z -> bool,
      (forall i, ok i = true <-> eg_complete F listing attribute basedir d f a i) /\
      forall m e, In (n, m, e) s <-> 0 < m /\ m = zlen (filter (fun i => negb (ok i)) (zseq 0 (Z.to_nat num))) /\ e = Z.max 0 num.
Proof. exact eg_run_ok. Qed.
Print Assumptions C79_eagle_run.
(** the program only stops for an attribute which can not be read *)
Theorem C79_eagle_error : forall F listing attribute, proper F -> forall basedir, plain basedir -> forall num_snaps num_snips e, eg_run F listing attribute basedir num_snaps num_snips = Err e -> e <> EIO /\ exists fname a, attribute fname a = Err e.
Proof. exact eg_run_err. Qed.
Print Assumptions C79_eagle_error.

(** three snapshot files, of which the second is missing, and complete group catalogues *)
Definition ex_listing (d : str) : option (list str) :=
  if str_eqb d (lit "/sim/snapdir_007") then Some [lit "snap_007.2"; lit "snap_007.0"; lit "snap_007.10"]
  else if str_eqb d (lit "/sim/groups_007") then Some (map lit ["subhalo_tab_007.0"; "subhalo_tab_007.1"; "group_tab_007.1"; "group_tab_007.0"]%string)
  else None.
Definition ex_tab (n : Z) : catalogue := fun name => if String.eqb name "NTask" then [n] else if String.eqb name "Ngroups" then [0] else if String.eqb name "Nsubgroups" then [0] else if String.eqb name "Nids" then [0]
  else if existsb (String.eqb name) ["TotNgroups"; "TotNids"; "SendOffset"; "TotNsubgroups"]%string then [0] else [].
Definition ex_contents (f : str) : option (list Z) :=
  if str_eqb f (lit "/sim/groups_007/group_tab_007.0") then Some (file_bytes false (pieces_of (ex_tab 2) (P3_group_tab 4)) ++ []) else None.
Definition ex_snap (f : str) : res Z := if str_eqb f (lit "/sim/snapdir_007/snap_007.0") then Ok 3 else Err EIO.
Example C79_ex_pgadget3 : consistent (ex_tab 2) (P3_group_tab 4) /\
  (forall listing, fst (pg_check_dir listing (lit "/sim") (lit "snapdir") (lit "snap") 7 (fun _ => Ok 0)) = lit "             snapdir 007: OK      - 0 of 0 snap files present") /\
  pg_run ex_listing true ex_contents ex_snap (lit "/sim") (lit "snap") 8 7 3 =
    Ok (map lit ["             snapdir 007: MISSING - 2 of 3 snap files present"; "              groups 007: OK      - 2 of 2 group_tab files present"; "              groups 007: MISSING - no group_ids files present!";
                 "              groups 007: MISSING - no subhalo_tab files present!"; "              groups 007: MISSING - no subhalo_ids files present!"]%string,
        [(lit "snapshot", 1, 1); (lit "group_ids", 1, 1); (lit "subhalo_tab", 1, 1); (lit "subhalo_ids", 1, 1)]).
Proof.
  split; [split; [|repeat constructor; vm_compute; repeat split; congruence]|split; [intro listing; vm_compute; now destruct (listing _)|vm_compute; reflexivity]].
  apply Forall_forall. intros p Hp. vm_compute in Hp. repeat (destruct Hp as [<-|Hp]; [cbn [piece_ok]; repeat split; try lia; repeat constructor; lia|]). contradiction.
Qed.
(** directories for two redshifts *)
Definition ex_fs : fs := {| listdir := fun d => if str_eqb d (lit "/L100") then [(lit "snapshot_000_z020p000", true); (lit "groups_000_z020p000", true); (lit "groups_000_z010p000", true); (lit "readme", false)] else []; lexists := fun _ => true; isdir := fun _ => true |}.
Definition ex_names (d : str) : option (list str) := if str_eqb d (lit "/L100/snapshot_000_z020p000") then Some [lit "snap_000_z020p000.1.hdf5"; lit "snap_000_z020p000.0.hdf5"] else if str_eqb d (lit "/L100/groups_000_z020p000") then Some [lit "group_tab_000_z020p000.0.hdf5"] else None.
Definition ex_attr (f a : str) : res Z := if str_eqb f (lit "/L100/snapshot_000_z020p000/snap_000_z020p000.0.hdf5") && str_eqb a (lit "NumFilesPerSnapshot") then Ok 2 else Err EIO.
Example C79_ex_eagle : proper ex_fs /\ plain (lit "/L100") /\ (forall fname a e, ex_attr fname a = Err e -> e = EIO) /\
  eg_run ex_fs ex_names ex_attr (lit "/L100") 1 0 =
    Ok (map lit ["            snapshot 000: OK      - 2 of 2 snap files present"; "              groups 000: MISSING - no group_tab files present!";
                 "        particledata 000: MISSING - no eagle_subfind_particles files present!"; "              groups 000: MISSING - no eagle_subfind_tab files present!"]%string,
        [(lit "group_tab", 1, 1); (lit "eagle_subfind_particles", 1, 1); (lit "eagle_subfind_tab", 1, 1)]) /\
  eg_run ex_fs ex_names (fun _ _ => Err EKey) (lit "/L100") 1 0 = Err EKey.
Proof.
  split.
  { intro d. cbn [listdir ex_fs]. destruct (str_eqb d (lit "/L100")); [|split; [constructor | contradiction]]. split; [repeat constructor; cbn; intro N; repeat destruct N as [N|N]; try discriminate; contradiction|].
    intros n Hn. apply mem_false. cbn in Hn. repeat destruct Hn as [<-|Hn]; try contradiction; reflexivity. }
  split; [repeat split; try (apply mem_false; reflexivity); right; intros b E; apply (f_equal (@rev ascii)) in E; rewrite rev_app_distr in E; discriminate|].
  split; [unfold ex_attr; intros f a e; destruct (_ && _); congruence|]. split; vm_compute; reflexivity.
Qed.
