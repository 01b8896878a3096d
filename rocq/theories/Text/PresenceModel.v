(** Model of the programs which check for missing files:
    consistency_check/p-gadget3/check_pgadget3_file_presence.py and
    consistency_check/eagle/check_eagle_file_presence.py (python 2).

    Simplified: the file system does not change while a program runs. The number of files in a
    file is one integer. Python's dictionary of counts is a list of the names in the order of
    their first use; the order of the lines of the summary is not specified. *)
From Coq Require Import Ascii String.
From Verif Require Import Base.Prelude Base.NdArray Formats.ReaderModel Multi.GroupCatModel.
From Verif Require Import Text.StrModel Text.EagleModel.
Local Open Scope char_scope.
Local Open Scope Z_scope.
Local Open Scope list_scope.

Definition in_names (n : str) (names : list str) : bool := existsb (str_eqb n) names.
(** os.path.dirname, os.path.basename *)
Definition dirname (p : str) : str := fst (path_split p).
Definition basename (p : str) : str := snd (path_split p).
(** range(start, stop, step) *)
Definition py_range (start stop step : Z) : res (list Z) :=
  if step =? 0 then Err EValue
  else let n := if 0 <? step then (stop - start + step - 1) / step else (start - stop - step - 1) / (- step) in
       Ok (map (fun k => start + k * step) (zseq 0 (Z.to_nat n))).

(** the line which check_dir prints, and what it returns; both programs, p-gadget3 lines 50-58 and eagle
    lines 66-74 *)
Definition verdict (dirbase filebase : str) (isnap files_ok nfiles : Z) : str * bool :=
  let head := pad " " 20 dirbase ++ " " :: fmt_0d 3 isnap in
  let counts := fmt_d files_ok ++ lit " of " ++ fmt_d nfiles ++ " " :: filebase ++ lit " files present" in
  if files_ok =? nfiles then (head ++ lit ": OK      - " ++ counts, true)
  else if nfiles =? -1 then (head ++ lit ": MISSING - no " ++ filebase ++ lit " files present!", false)
  else (head ++ lit ": MISSING - " ++ counts, false).

(** count_missing and count_expected, as the list of their common names; the summary is made of
    the names with missing directories *)
Definition tally : Type := list (str * (Z * Z)).
Fixpoint count (t : tally) (name : str) (ok : bool) : tally :=
  match t with
  | [] => [(name, (if ok then 0 else 1, 1))]
  | (n, (m, e)) :: t' => if str_eqb n name then (n, (if ok then m else m + 1, e + 1)) :: t' else (n, (m, e)) :: count t' name ok
  end.
Definition summary (t : tally) : list (str * Z * Z) :=
  flat_map (fun x => let '(n, (m, e)) := x in if 0 <? m then [(n, m, e)] else []) t.

(** ** p-gadget3 *)
(** pgadget3_filename, lines 14-21 *)
Definition pgadget3_filename (simdir dirbase filebase : str) (isnap ifile : Z) : str :=
  if str_eqb filebase (lit "500_dm")
  then simdir ++ "/" :: dirbase ++ "_" :: fmt_0d 3 isnap ++ "/" :: filebase ++ "_" :: fmt_0d 3 isnap ++ "." :: fmt_d ifile ++ lit ".hdf5"
  else simdir ++ "/" :: dirbase ++ "_" :: fmt_0d 3 isnap ++ "/" :: filebase ++ "_" :: fmt_0d 3 isnap ++ "." :: fmt_d ifile.

Section Files.
  (** os.listdir; None for an OSError *)
  Variable listing : str -> option (list str).

  (** check_dir, lines 25-58 *)
  Definition pg_check_dir (basedir dirbase filebase : str) (isnap : Z) (get_nfiles : str -> res Z) : str * bool :=
    let fname := pgadget3_filename basedir dirbase filebase isnap 0 in
    let '(files_ok, nfiles) :=
      match get_nfiles fname with
      | Err _ => (0, -1)
      | Ok nfiles =>
          match listing (dirname fname) with
          | None => (0, nfiles)
          | Some fnames => (zlen (filter (fun ifile => in_names (basename (pgadget3_filename basedir dirbase filebase isnap ifile)) fnames) (zseq 0 (Z.to_nat nfiles))), nfiles)
          end
      end in
    verdict dirbase filebase isnap files_ok nfiles.

  (** the functions which give the number of files, lines 72-96: [contents] are those of the
      files; how many files a snapshot file says there are is an argument *)
  Variable little : bool.
  Variable contents : str -> option (list Z).
  Variable snap_nfiles : str -> res Z.
  Definition ntask (p : prog) (fname : str) : res Z :=
    match contents fname with
    | None => Err EIO
    | Some c => match open_file little c p with
                | (_, Err e) => Err e
                | (f, Ok _) => match lookup_array little c f (nm "NTask") with None => Err EKey | Some r => do a <- r; Ok (i32 (data a)) end
                end
    end.
  Definition pg_kinds (snapbase : str) : list (str * str * str * (str -> res Z)) :=
    [(lit "snapdir", snapbase, lit "snapshot", snap_nfiles);
     (lit "groups", lit "group_tab", lit "group_tab", ntask (pgadget3_group_tab 8 4));
     (lit "groups", lit "group_ids", lit "group_ids", ntask (pgadget3_group_ids 8));
     (lit "groups", lit "subhalo_tab", lit "subhalo_tab", ntask (pgadget3_sub_tab false false false 8 4));
     (lit "groups", lit "subhalo_ids", lit "subhalo_ids", ntask (pgadget3_sub_ids 8))].
  (** check_pgadget3_run, lines 61-110: the lines and the summary *)
  Definition pg_run (basedir snapbase : str) (max_num first_num step : Z) : res (list str * list (str * Z * Z)) :=
    do snaps <- py_range first_num (max_num + 1) step;
    let '(lines, t) :=
      fold_left (fun st isnap =>
        fold_left (fun (st : list str * tally) kind =>
          let '(lines, t) := st in
          let '(dirbase, filebase, outtype, get) := kind in
          let '(line, ok) := pg_check_dir basedir dirbase filebase isnap get in
          (lines ++ [line], count t outtype ok)) (pg_kinds snapbase) st) snaps ([], []) in
    Ok (lines, summary t).
End Files.

(** ** eagle *)
Section Eagle.
  Variable F : fs.
  Variable listing : str -> option (list str).
  (** opening the file and reading the attribute of the header *)
  Variable attribute : str -> str -> res Z.

  Definition last8 (s : str) : str := skipn (length s - 8) s.
  (** eagle_filename, lines 13-36; the cache is the default argument *)
  Definition eg_filename (c : cache) (simdir dirbase filebase : str) (isnap ifile : Z) : res str * cache :=
    let key := (simdir, dirbase, isnap) in
    let name (zstring : str) := simdir ++ "/" :: dirbase ++ "_" :: fmt_0d 3 isnap ++ "_" :: zstring ++ "/" ::
                                filebase ++ "_" :: fmt_0d 3 isnap ++ "_" :: zstring ++ "." :: fmt_d ifile ++ lit ".hdf5" in
    match lookup c key with
    | Some z => (Ok (name z), c)
    | None =>
        match glob F (simdir ++ "/" :: dirbase ++ "_" :: fmt_0d 3 isnap ++ lit "_z???p???") with
        | [d] => let z := last8 d in (Ok (name z), (key, z) :: c)
        | _ => (Err EIO, c)
        end
    end.
  (** lines 62-65: the number of files found *)
  Fixpoint eg_count (c : cache) (basedir dirbase filebase : str) (isnap : Z) (fnames : list str) (l : list Z) (files_ok : Z) : res Z * cache :=
    match l with
    | [] => (Ok files_ok, c)
    | i :: l' =>
        match eg_filename c basedir dirbase filebase isnap i with
        | (Ok fname, c') => eg_count c' basedir dirbase filebase isnap fnames l' (if in_names (basename fname) fnames then files_ok + 1 else files_ok)
        | (Err e, c') => (Err e, c')
        end
    end.
  (** check_dir, lines 39-74 *)
  Definition eg_check_dir (c : cache) (basedir dirbase filebase nfiles_attr : str) (isnap : Z) : res (str * bool) * cache :=
    match eg_filename c basedir dirbase filebase isnap 0 with
    | (Err EIO, c1) => (Ok (verdict dirbase filebase isnap 0 (-1)), c1)
    | (Err e, c1) => (Err e, c1)
    | (Ok fname, c1) =>
        match attribute fname nfiles_attr with
        | Err EIO => (Ok (verdict dirbase filebase isnap 0 (-1)), c1)
        | Err e => (Err e, c1)
        | Ok nfiles =>
            match listing (dirname fname) with
            | None => (Ok (verdict dirbase filebase isnap 0 nfiles), c1)
            | Some fnames =>
                match eg_count c1 basedir dirbase filebase isnap fnames (zseq 0 (Z.to_nat nfiles)) 0 with
                | (Ok files_ok, c2) => (Ok (verdict dirbase filebase isnap files_ok nfiles), c2)
                | (Err e, c2) => (Err e, c2)
                end
            end
        end
    end.

  (** lines 85-130: (directory, file, type, attribute) *)
  Definition eg_kinds (snip : bool) : list (str * str * str * str) :=
    if snip
    then [(lit "snipshot", lit "snip", lit "snip", lit "NumFilesPerSnapshot");
          (lit "groups_snip", lit "group_snip_tab", lit "group_snip_tab", lit "NTask");
          (lit "particledata_snip", lit "eagle_subfind_snip_particles", lit "eagle_subfind_snip_particles", lit "NumFilesPerSnapshot");
          (lit "groups_snip", lit "eagle_subfind_snip_tab", lit "eagle_subfind_snip_tab", lit "NTask")]
    else [(lit "snapshot", lit "snap", lit "snap", lit "NumFilesPerSnapshot");
          (lit "groups", lit "group_tab", lit "group_tab", lit "NTask");
          (lit "particledata", lit "eagle_subfind_particles", lit "eagle_subfind_particles", lit "NumFilesPerSnapshot");
          (lit "groups", lit "eagle_subfind_tab", lit "eagle_subfind_tab", lit "NTask")].
  Fixpoint eg_steps (basedir : str) (steps : list (Z * (str * str * str * str))) (c : cache) (lines : list str) (t : tally) : res (list str * tally) :=
    match steps with
    | [] => Ok (lines, t)
    | (isnap, (dirbase, filebase, outtype, attr)) :: steps' =>
        match eg_check_dir c basedir dirbase filebase attr isnap with
        | (Ok (line, ok), c') => eg_steps basedir steps' c' (lines ++ [line]) (count t outtype ok)
        | (Err e, _) => Err e
        end
    end.
  (** check_eagle_run, lines 77-140 *)
  Definition eg_run (basedir : str) (num_snaps num_snips : Z) : res (list str * list (str * Z * Z)) :=
    let steps snip num := flat_map (fun isnap => map (fun k => (isnap, k)) (eg_kinds snip)) (zseq 0 (Z.to_nat num)) in
    do (lines, t) <- eg_steps basedir (steps false num_snaps ++ steps true num_snips) [] [] [];
    Ok (lines, summary t).
End Eagle.
