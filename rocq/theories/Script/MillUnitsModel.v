(** Model of /repo/examples/millennium/python/check_units.py, lines 31-105: the subhalo of each
    particle from the files of the catalogue, and positions, velocities and angular momenta of the
    subhalos from their particles. The names np and sqrt, which the script does not import, are
    taken to be numpy and np.sqrt. Exact arithmetic and np.argsort as in CheckUnitsModel.v. *)
From Coq Require Import QArith Qcanon.
From Verif Require Import Base.Prelude Base.Order Psort.MatchModel Util.UMatchModel Util.RangesModel Script.FofPlotModel Script.CheckUnitsModel.
Local Open Scope Z_scope.
Local Open Scope list_scope.

(** SubLen and SubOffset of a sub_tab file, and GroupIDs of the sub_ids file of the same number *)
Record catfile := { c_sublen : list Z; c_suboff : list Z; c_gids : list Z }.

(** lines 36-56: the loop over files; [offset] is the number of subhalos so far. The lists to which
    the script appends. *)
Fixpoint read_files (offset : Z) (files : list catfile) : res (list (list Z) * list (list Z)) :=
  match files with
  | [] => Ok ([], [])
  | f :: files' =>
      (* lines 50-54 *)
      let nsub := zlen (c_sublen f) in
      let nr := map (fun _ => -1) (c_gids f) in
      do nr <- assign_ranges nr (c_suboff f) (c_sublen f) (map (fun i => i + offset) (zseq 0 (Z.to_nat nsub)));
      (* line 56 *)
      do r <- read_files (offset + nsub) files';
      let '(groupids, subnr) := r in Ok (c_gids f :: groupids, nr :: subnr)
  end.
(** np.concatenate *)
Definition np_concatenate {A} (l : list (list A)) : res (list A) := match l with [] => Err EValue | _ => Ok (concat l) end.

Section Script.
  Variable np_argsort : list Z -> list Z.
  (** lines 67-86: position, velocity and subhalo of the particles in subhalos, in order of subhalo *)
  Definition members (pos vel : list vec) (ids groupids subnr : list Z) : res (list vec * list vec * list Z) :=
    (* line 67 *)
    do ptr <- match_ ZOrd (np_argsort ids) false None groupids ids;
    (* lines 70-72 *)
    do pos <- np_take pos ptr;
    do vel <- np_take vel ptr;
    do ids <- np_take ids ptr;
    (* lines 75-79 *)
    let idx := np_argsort subnr in
    do pos <- np_take pos idx;
    do vel <- np_take vel idx;
    do ids <- np_take ids idx;
    do subnr <- np_take subnr idx;
    (* lines 82-86 *)
    let ind := map (fun n => 0 <=? n) subnr in
    Ok (np_mask pos ind, np_mask vel ind, np_mask subnr ind).
  (** lines 31-105; lines 89-105 are the same as lines 72-88 of the script for Millennium-2 *)
  Definition mill_check_units (box a s : Qc) (pos vel : list vec) (ids : list Z) (files : list catfile) : res (list vec * list vec * list vec) :=
    do r <- read_files 0 files;
    let '(groupids, subnr) := r in
    (* lines 58-59 *)
    do groupids <- np_concatenate groupids;
    do subnr <- np_concatenate subnr;
    (* line 64 *)
    let groupids := map check_units_id groupids in
    do m <- members pos vel ids groupids subnr;
    let '(pos, vel, subnr) := m in sub_means box a s pos vel subnr.
End Script.
