(** Model of /repo/examples/millennium/idl/IdlGroupLib/plot_profile_dens.pro: the loop over the groups
    number 100 to 108 (from line 50 on) for given Time and PartMass, and the whole program with these
    from the header (lines 15-42). What is done before the radii are known is as in plot_profile_vmax.pro (ProfModel.v), the
    densities and the fit are in NfwModel.v. The result is what is printed and plotted. *)
From Coq Require Import Reals QArith Qreals.
From Coq Require Import Ascii String.
From Verif Require Import Base.Prelude Binary.BinModel Text.StrModel Fortran.SortModel Fortran.RegionModel Fortran.GroupTabModel Pro.ProModel Idl.LibModel Idl.ProgModel Idl.ProfModel Idl.NfwModel.
Local Open Scope R_scope. Local Open Scope list_scope.

(** lines 245-253: [r] is sorted, m the mass up to it; m/(4*!PI/3.0 * r^3), which is infinite for r = 0 *)
Definition delta_ge (m r d : R) : bool := match odiv (c m) (c (4 * PI / 3 * r ^ 3)) with Some x => if Rle_dec d x then true else false | None => true end.
(** line 253: max *)
Definition rmax (l : list R) : R := match l with [] => 0 | x :: l => fold_left Rmax l x end.
Definition R200 (partmass time : R) (r2 : list Q) : res R :=
  let r := map (radius time) (sorted r2) in
  let m := map (fun i => partmass * IZR i) (zseq 1 (List.length r)) in
  let ind := filter (fun '(m, r) => delta_ge m r (200 * RhoCrit time)) (combine m r) in
  do _ <- check (0 <? zlen ind)%Z EIndex;
  Ok (rmax (map snd ind)).
(** line 254 *)
Definition M200 (time r200 : R) : R := 200 * 4 * PI / 3 * r200 ^ 3 * RhoCrit time.
(** lines 245-334 for the particles of a group: R200, M200, the densities of the bins, and the result of the fit *)
Definition dens (partmass time : R) (r2 : list Q) (steps : nat) : res (R * R * list R * (num * num)) :=
  do r200 <- R200 partmass time r2;
  let rho := rho_bins partmass time r2 in
  do fit <- nfw_fit (fit_bins time rho) steps;
  Ok (r200, M200 time r200, rho, fit).

Section Prog.
  Variable little : bool.
  Variable fs : str -> option (list Z).
  Variable qsort : forall A : Type, (A -> A -> Z) -> list A -> list A.
  Variable lim : Z.
  Variables basedir snapbase : str.
  Variable n : Z.
  Variable fuel : nat.
  Variables value4 value8 : Z -> Q.
  Variable root : Q -> Q.
  Variables steps newton_steps : nat.
  Variables partmass time : R.

  (** lines 120-337 *)
  Fixpoint dens_loop (g : groups) (size : Z) (t : hash) (box : Q) (ns : list Z) : res (list (Z * Z * (Q * Q * Q) * (R * R * list R * (num * num)))) :=
    match ns with
    | [] => Ok []
    | k :: ns =>
      do (r, box) <- profile little fs qsort lim basedir snapbase n fuel value4 value8 root steps g size t box k;
      let '(k, len, centre, rs, t) := r in
      do d <- dens partmass time rs newton_steps;
      do rest <- dens_loop g size t box ns;
      Ok ((k, len, centre, d) :: rest)
    end.
  (** lines 50-337 *)
  Definition plot_profile_dens : res (list (Z * Z * (Q * Q * Q) * (R * R * list R * (num * num)))) :=
    do (_, g) <- load_groups little fs qsort lim basedir n fuel;
    do (sn, t) <- load_hash little fs lim basedir snapbase n fuel;
    dens_loop g (fst sn) t 0%Q (zseq 100 9).
End Prog.

(** lines 15-42: PartMass and Time, as bit patterns, from the header of the first file; Num is a LONG,
    but 0 is not *)
Definition header_name (basedir snapbase : str) (num : Z) : str :=
  let e := lit "000" ++ strcompress (idl_string 12 num) in
  let e := strmid e (zlen e - 3) 3 in
  strcompress (basedir ++ lit "/snapdir_" ++ e ++ lit "/" ++ snapbase ++ lit "_" ++ e ++ lit "." ++ idl_string 8 0).
Definition dens_header (little : bool) (fs : str -> option (list Z)) (basedir snapbase : str) (num : Z) : res (Z * Z) :=
  do content <- openr fs (header_name basedir snapbase num);
  do (h, _) <- read_record little content 0 single_items;
  Ok (nth 1 (item h 1) 0%Z, nth 0 (item h 2) 0%Z).
(** all lines *)
Definition dens_program (little : bool) (fs : str -> option (list Z)) (qsort : forall A : Type, (A -> A -> Z) -> list A -> list A) (lim : Z) (basedir snapbase : str) (number : Z) (fuel : nat)
    (value4 value8 : Z -> Q) (root : Q -> Q) (steps newton_steps : nat) : res (list (Z * Z * (Q * Q * Q) * (R * R * list R * (num * num)))) :=
  do (mass, time) <- dens_header little fs basedir snapbase number;
  plot_profile_dens little fs qsort lim basedir snapbase number fuel value4 value8 root steps newton_steps (Q2R (value8 mass)) (Q2R (value8 time)).
