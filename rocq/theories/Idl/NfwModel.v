(** Model of what /repo/examples/millennium/idl/IdlGroupLib/plot_profile_dens.pro does with the
    numbers of particles in bins (lines 262-332): densities of shells, and the fit of an NFW profile
    by Newton's method.

    Numbers of type FLOAT are exact; what would be NaN or infinite is None, and a comparison with it
    is false. (A single infinite value always gives NaN in the next pass of the loop, with which it
    goes on for ever.) The numbers of particles come from [countarr] of ProfModel.v (C106). [steps]
    bounds the number of passes through the inner loop. *)
From Coq Require Import Reals QArith Qreals.
From Verif Require Import Base.Prelude Idl.ProfModel.
Local Open Scope R_scope. Local Open Scope list_scope.

(** *** arithmetic *)
Definition num := option R.
Definition fin1 (f : R -> R) (a : num) : num := match a with Some x => Some (f x) | None => None end.
Definition fin2 (f : R -> R -> R) (a b : num) : num := match a, b with Some x, Some y => Some (f x y) | _, _ => None end.
Definition oadd := fin2 Rplus.
Definition osub := fin2 Rminus.
Definition omul := fin2 Rmult.
Definition odiv (a b : num) : num := match a, b with Some x, Some y => if Req_EM_T y 0 then None else Some (x / y) | _, _ => None end.
Definition sqr (a : num) : num := omul a a.
Definition alog (a : num) : num := match a with Some x => if Rlt_dec 0 x then Some (ln x) else None | None => None end.
Definition le (a : num) (b : R) : bool := match a with Some x => if Rle_dec x b then true else false | None => false end.
Definition total (l : list num) : num := fold_left oadd l (Some 0).
Definition c (x : R) : num := Some x.

(** *** lines 262-282 *)
Definition mi : R := 1 / 1000.
Definition ma : R := 5.
Definition BINS : Z := 25.
(** line 271: b as an integer, for a radius r; of r = 0 the logarithm is minus infinity *)
Definition bin_of (r : R) : Z := if Rlt_dec 0 r then Int_part ((ln r - ln mi) / (ln ma - ln mi) * IZR BINS) else (-1)%Z.
(** lines 278-280: the middle, and the limits of a bin, for [k] = i + 0.5, i + 0.0, i + 1.0 *)
Definition at_bin (k : R) : R := exp (k * (ln ma - ln mi) / IZR BINS + ln mi).
(** line 244: radii are multiplied by Time; they are given by their squares as in ProfModel.v *)
Definition radius (time : R) (r2 : Q) : R := sqrt (Q2R r2) * time.
(** lines 265-282 *)
Definition rho_bins (partmass time : R) (r2 : list Q) : list R :=
  map (fun '(i, n) => IZR n * partmass / (4 * PI / 3 * (at_bin (IZR i + 1) ^ 3 - at_bin (IZR i) ^ 3)))
    (combine (zseq 0 (Z.to_nat BINS)) (countarr BINS (fun q => bin_of (radius time q)) r2)).
(** lines 45 and 47 *)
Definition Hubble (time : R) : R := 100 * sqrt ((25 / 100) / time ^ 3 + 75 / 100).
Definition RhoCrit (time : R) : R := 3 * Hubble time ^ 2 / (8 * PI * (430071 / 10000)).
(** lines 291-299: radius and density of the bins for the fit *)
Definition fit_bins (time : R) (rho : list R) : list (R * R) :=
  filter (fun '(r, d) => (if Rlt_dec 20 (d / RhoCrit time) then true else false) && (if Rlt_dec (5 / 10 * (5 / 1000) * time) r then true else false))
    (combine (map (fun i => at_bin (IZR i + 5 / 10)) (zseq 0 (Z.to_nat BINS))) rho).

(** *** lines 303-325: the fit *)
Section Fit.
  Variable pts : list (R * R).
  (** line 305 *)
  Definition logRho0 (rs : num) : num :=
    odiv (total (map (fun '(r, d) => oadd (oadd (alog (odiv (c r) rs)) (omul (c 2) (alog (oadd (c 1) (odiv (c r) rs))))) (alog (c d))) pts)) (c (IZR (zlen pts))).
  (** lines 310-316: logRho0 -alog(R/rs)-2*alog(1+R/Rs)-alog(Rho) and what it is multiplied with *)
  Definition resid (l rs : num) (p : R * R) : num :=
    let '(r, d) := p in osub (osub (osub l (alog (odiv (c r) rs))) (omul (c 2) (alog (oadd (c 1) (odiv (c r) rs))))) (alog (c d)).
  Definition slope (rs : num) (p : R * R) : num :=
    let '(r, _) := p in oadd (odiv (c 1) rs) (odiv (odiv (omul (c 2) (c r)) (sqr rs)) (oadd (c 1) (odiv (c r) rs))).
  Definition curve (rs : num) (p : R * R) : num :=
    let '(r, _) := p in osub (odiv (c (-1)) (sqr rs)) (omul (odiv (omul (c 2) (c r)) (sqr (omul rs (oadd rs (c r))))) (oadd (omul (c 2) rs) (c r))).
  (** line 312 *)
  Definition dS (l rs : num) : num := omul (c 2) (total (map (fun p => omul (resid l rs p) (slope rs p)) pts)).
  (** lines 314-316 *)
  Definition ddS (l rs : num) : num := omul (c 2) (total (map (fun p => oadd (omul (resid l rs p) (curve rs p)) (sqr (slope rs p))) pts)).
  (** lines 307-323 *)
  Fixpoint newton (steps : nat) (l rs : num) : res num :=
    match steps with
    | O => Err EFuel
    | Datatypes.S steps =>
      let drs := odiv (fin1 Ropp (dS l rs)) (ddS l rs) in
      let rs := oadd rs drs in
      if le (fin1 Rabs (odiv drs rs)) (1 / 100000000) then Ok rs else newton steps l rs
    end.
  (** lines 303-325 *)
  Fixpoint repetitions (steps : nat) (n : nat) (l rs : num) : res (num * num) :=
    match n with
    | O => Ok (l, rs)
    | Datatypes.S n =>
      let l := logRho0 rs in
      do rs <- newton steps l rs;
      repetitions steps n l rs
    end.
  (** lines 294-325; without bins R is Rbin(-1), an error *)
  Definition nfw_fit (steps : nat) : res (num * num) :=
    do _ <- check (0 <? zlen pts)%Z EIndex;
    repetitions steps 201 (Some 0) (Some (1 / 100)).
End Fit.
(** lines 328-330: the curve which is drawn *)
Definition drawn (l rs : num) (r : R) : num := odiv (fin1 exp l) (omul (odiv (c r) rs) (sqr (oadd (c 1) (odiv (c r) rs)))).
