(** Model of /repo/examples/millennium2/python/check_units.py, lines 44-88: positions, velocities
    and angular momenta of subhalos from their particles. The arithmetic is exact; [s] stands for
    np.sqrt(a). np.argsort is an argument. Integers are not limited to 32 bits. *)
From Coq Require Import QArith Qcanon Qround.
From Verif Require Import Base.Prelude Base.Order Psort.MatchModel Util.UMatchModel Util.RangesModel.
Local Open Scope Z_scope.
Local Open Scope list_scope.

(** a row of an array with three columns *)
Notation vec := (Qc * Qc * Qc)%type.
Definition vzero : vec := (0, 0, 0)%Qc.
Definition vadd (u v : vec) : vec := let '(a, b, c) := u in let '(d, e, f) := v in (a + d, b + e, c + f)%Qc.
Definition vsub (u v : vec) : vec := let '(a, b, c) := u in let '(d, e, f) := v in (a - d, b - e, c - f)%Qc.
Definition vmap (g : Qc -> Qc) (u : vec) : vec := let '(a, b, c) := u in (g a, g b, g c).
Definition vscale (u : vec) (x : Qc) : vec := vmap (fun a => a * x)%Qc u.
(** np.cross for one row *)
Definition np_cross (u v : vec) : vec :=
  let '(a, b, c) := u in let '(d, e, f) := v in (b * f - c * e, c * d - a * f, a * e - b * d)%Qc.
Definition of_Z (n : Z) : Qc := Q2Qc (inject_Z n).
(** the operator [%] of numpy for floats *)
Definition qmod (x y : Qc) : Qc := (x - y * of_Z (Qfloor (this (x / y))))%Qc.
(** np.amax *)
Definition amax (l : list Z) : res Z := match l with [] => Err EValue | x :: l' => Ok (fold_left Z.max l' x) end.
(** sum_ranges(array, offset, length, normalize=True, dtype=np.float64) of an array with three columns *)
Definition mean_ranges (array : list vec) (offset length : list Z) : res (list vec) :=
  sum_ranges vadd vzero vscale (fun v n => vmap (fun x => x / of_Z n)%Qc v) (fun v w => vmap (fun x => x / w)%Qc v) Qcplus 0%Qc array offset length None true.

Section Script.
  Variable np_argsort : list Z -> list Z.
  (** lines 44-69: position, velocity and subhalo of the particles in subhalos, in order of subhalo *)
  Definition sub_particles (pos vel : list vec) (ids sublen suboffset gids : list Z) : res (list vec * list vec * list Z) :=
    (* lines 44-47 *)
    let nsub := zlen sublen in
    let subnr := map (fun _ => -1) gids in
    do subnr <- assign_ranges subnr suboffset sublen (zseq 0 (Z.to_nat nsub));
    (* line 50 *)
    do ptr <- match_ ZOrd (np_argsort ids) false None gids ids;
    (* lines 53-55 *)
    do pos <- np_take pos ptr;
    do vel <- np_take vel ptr;
    do ids <- np_take ids ptr;
    (* lines 58-62 *)
    let idx := np_argsort subnr in
    do pos <- np_take pos idx;
    do vel <- np_take vel idx;
    do ids <- np_take ids idx;
    do subnr <- np_take subnr idx;
    (* lines 65-69 *)
    let ind := map (fun n => 0 <=? n) subnr in
    Ok (np_mask pos ind, np_mask vel ind, np_mask subnr ind).
  (** lines 72-88: mean_pos, mean_vel and am *)
  Definition sub_means (box a s : Qc) (pos vel : list vec) (subnr : list Z) : res (list vec * list vec * list vec) :=
    (* lines 72-74 *)
    do m <- amax subnr;
    let nsub := zseq 0 (Z.to_nat (m + 1)) in
    let first_particle := map (searchsorted_left ZOrd subnr) nsub in
    let num_particles := zipwith Z.sub (map (searchsorted_right ZOrd subnr) nsub) first_particle in
    (* lines 77-79 *)
    do f <- np_take first_particle subnr;
    do pos_f <- np_take pos f;
    let pos_rel := zipwith vsub pos pos_f in
    let pos_rel := map (vmap (fun x => qmod (x + box / of_Z 2) box - box / of_Z 2)%Qc) pos_rel in
    let pos := zipwith vadd pos_rel pos_f in
    (* lines 83-84 *)
    do mean_pos <- mean_ranges pos first_particle num_particles;
    do mean_vel <- mean_ranges vel first_particle num_particles;
    let mean_vel := map (fun v => vscale v s) mean_vel in
    (* lines 87-88 *)
    do mp <- np_take mean_pos subnr;
    do mv <- np_take mean_vel subnr;
    let l := zipwith np_cross (map (fun v => vscale v a) (zipwith vsub pos mp)) (map (fun v => vscale v s) (zipwith vsub vel mv)) in
    do am <- mean_ranges l first_particle num_particles;
    Ok (mean_pos, mean_vel, am).
  Definition check_units (box a s : Qc) (pos vel : list vec) (ids sublen suboffset gids : list Z) : res (list vec * list vec * list vec) :=
    do r <- sub_particles pos vel ids sublen suboffset gids;
    let '(pos, vel, subnr) := r in sub_means box a s pos vel subnr.
End Script.
