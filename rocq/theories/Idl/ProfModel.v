(** Model of the IDL programs for profiles in /repo/examples/millennium/idl/IdlGroupLib:
    show_profile.pro and plot_profile_vmax.pro, whole programs up to the plots, and of
    plot_profile_dens.pro what it does with the radii (lines 56-243 are those of
    plot_profile_vmax.pro, with the groups number 100 to 108).

    As in ProgModel.v the result is what is plotted. Radii are given by their squares, numbers are
    exact; the radius of the sphere which is passed to the library is [root] of its square. A point
    (r2, m) of the plot is at r = sqrt(r2), v = sqrt(m / r). [steps] bounds the number of spheres. *)
From Coq Require Import QArith.
From Coq Require Import Ascii String.
From Verif.Base Require Import Prelude.
From Verif.Binary Require Import BinModel.
From Verif.Text Require Import StrModel.
From Verif.Idl Require Import LibModel ProgModel.
Local Open Scope Z_scope. Local Open Scope list_scope.

(** the columns of Pos: show_profile.pro lines 112-114, plot_profile_vmax.pro lines 128-130 *)
Fixpoint columns (l : list Q) : list (Q * Q * Q) := match l with x :: y :: z :: l => (x, y, z) :: columns l | _ => [] end.
(** show_profile.pro lines 116, 120 and 138 *)
Definition r2_of (p : Q * Q * Q) : Q := let '(x, y, z) := p in (x * x + y * y + z * z)%Q.
Definition q_lt (a b : Q) : bool := negb (Qle_bool b a).
(** the function max: show_profile.pro line 117, plot_profile_vmax.pro line 170 *)
Definition max_of (l : list Q) : Q := match l with [] => 0%Q | x :: l => fold_left (fun a b => if q_lt a b then b else a) l x end.
(** r(sort(r)) *)
Fixpoint insert (x : Q) (l : list Q) : list Q := match l with [] => [x] | y :: l' => if Qle_bool x y then x :: l else y :: insert x l' end.
Definition sorted (l : list Q) : list Q := fold_right insert [] l.
(** where(r lt rmax): without such elements the result is -1, which has one element *)
Definition where_lt (l : list (Q * Q * Q)) (rmax2 : Q) : list (Q * Q * Q) := filter (fun p => q_lt (r2_of p) rmax2) l.
Definition n_elements {B} (ind : list B) : Z := Z.max 1 (zlen ind).
(** total(x(ind), /double)/n_elements(ind) *)
Definition mean (f : Q * Q * Q -> Q) (ind : list (Q * Q * Q)) : Q := (fold_left Qplus (map f ind) 0 / inject_Z (n_elements ind))%Q.

(** show_profile.pro lines 119-136, plot_profile_vmax.pro lines 137-162: the positions and the sum of the shifts *)
Fixpoint shrink (least : Z) (steps : nat) (l : list (Q * Q * Q)) (rmax2 : Q) (acc : Q * Q * Q) : res (list (Q * Q * Q) * (Q * Q * Q)) :=
  match steps with
  | O => Err EFuel
  | Datatypes.S steps =>
    let ind := where_lt l rmax2 in
    if least <=? n_elements ind then
      let xc := mean (fun p => fst (fst p)) ind in
      let yc := mean (fun p => snd (fst p)) ind in
      let zc := mean snd ind in
      let l := map (fun '(x, y, z) => (x - xc, y - yc, z - zc)%Q) l in
      let '(xxc, yyc, zzc) := acc in
      shrink least steps l ((81 # 100) * rmax2)%Q (xxc + xc, yyc + yc, zzc + zc)%Q
    else Ok (l, acc)
  end.

Section Prof.
  Variable little : bool.
  Variable fs : str -> option (list Z).
  Variable qsort : forall A : Type, (A -> A -> Z) -> list A -> list A.
  Variable limit : Z.
  Variables basedir snapbase : str.
  Variable num : Z.
  Variable fuel : nat.
  Variables value4 value8 : Z -> Q.
  (** the radius for its square *)
  Variable root : Q -> Q.
  Variable steps : nat.

  (** show_profile.pro lines 138-146: the points of the plot *)
  Definition plot (rs : list Q) : res (list (Q * Z)) :=
    do m <- lindgen limit (zlen rs);
    Ok (combine (sorted rs) (map (fun i => long (i + 1)) m)).
  (** lines 82-108, plot_profile_vmax.pro lines 89-118: a group *)
  Definition group_positions (g : groups) (size : Z) (t : hash) (box : Q) (n : Z) : res (Z * coords) :=
    do finr <- subscript (g_file g) n;
    do grnr <- subscript (g_nr g) n;
    do len <- subscript (g_len g) n;
    do _ <- new limit (3 * len);
    do c <- get_group_coordinates little fs qsort (outputdir basedir num) num snapbase value4 value8 fuel t (long size) grnr finr len (repeat 0%Q (Z.to_nat (3 * len))) [0%Q; 0%Q; 0%Q] box;
    Ok (len, c).
  (** show_profile.pro lines 7-146 *)
  Definition show_profile : res (list (Q * Z)) :=
    do (_, g) <- load_groups little fs qsort limit basedir num fuel;
    do (sn, t) <- load_hash little fs limit basedir snapbase num fuel;
    do (_, c) <- group_positions g (fst sn) t 0%Q 0;
    let l := columns (c_pos c) in
    do (l, _) <- shrink 15 steps l (max_of (map r2_of l)) (0, 0, 0)%Q;
    plot (map r2_of l).

  (** plot_profile_vmax.pro lines 93-217: group number, length, centre, and squares of the radii
      of the particles in the sphere, in any order; the state of the library *)
  Definition profile (g : groups) (size : Z) (t : hash) (box : Q) (n : Z) : res (Z * Z * (Q * Q * Q) * list Q * hash * Q) :=
    do (len, c) <- group_positions g size t box n;
    let t := {| Hashtable := Hashtable t; Filetable := c_file c; LastHashCell := LastHashCell t; NInFiles := NInFiles t |} in
    let l := columns (c_pos c) in
    do (l, off) <- shrink 25 steps l (max_of (map r2_of l)) (0, 0, 0)%Q;
    do sx <- subscript (c_centre c) 0;
    do sy <- subscript (c_centre c) 1;
    do sz <- subscript (c_centre c) 2;
    let '(xxc, yyc, zzc) := off in
    let cx := (sx + xxc)%Q in
    let cy := (sy + yyc)%Q in
    let cz := (sz + zzc)%Q in
    let rad2 := max_of (map r2_of l) in
    do (ncount, box) <- get_spherical_region_count little fs (outputdir basedir num) num snapbase value8 t (long size) cx cy cz (root rad2) (c_box c);
    let ncount := ulong ncount in
    do _ <- new limit (3 * ncount);
    do (ret_pp, box) <- get_spherical_region_coordinates little fs (outputdir basedir num) num snapbase value4 value8 t (long size) cx cy cz (root rad2) (repeat 0%Q (Z.to_nat (3 * ncount))) box;
    let rs := filter (fun r2 => q_lt r2 rad2) (map r2_of (columns (snd ret_pp))) in
    do _ <- check (0 <? zlen rs) EIndex;                            (* r(-1) *)
    Ok (n, len, (cx, cy, cz), rs, t, box).
  (** plot_profile_vmax.pro lines 89-226: the loop over the groups *)
  Fixpoint profiles (g : groups) (size : Z) (t : hash) (box : Q) (ns : list Z) : res (list (Z * Z * (Q * Q * Q) * list (Q * Z))) :=
    match ns with
    | [] => Ok []
    | n :: ns =>
      do (r, box) <- profile g size t box n;
      let '(n, len, c, rs, t) := r in
      do points <- plot rs;
      do rest <- profiles g size t box ns;
      Ok ((n, len, c, points) :: rest)
    end.
  (** plot_profile_vmax.pro lines 8-225: groups number 0 to 8 *)
  Definition plot_profile_vmax : res (list (Z * Z * (Q * Q * Q) * list (Q * Z))) :=
    do (_, g) <- load_groups little fs qsort limit basedir num fuel;
    do (sn, t) <- load_hash little fs limit basedir snapbase num fuel;
    profiles g (fst sn) t 0%Q (zseq 0 9).
End Prof.

(** plot_profile_dens.pro lines 245-253: the radius R200 for radii in units of the plot;
    [mean_mass r] is 200 rhocrit 4 pi / 3 r^3 *)
Definition r200 (partmass : Q) (mean_mass : Q -> Q) (r : list Q) : res Q :=
  let r := sorted r in
  let m := map (fun i => partmass * inject_Z i)%Q (zseq 1 (length r)) in
  let ind := filter (fun '(m, r) => Qle_bool (mean_mass r) m) (combine m r) in
  do _ <- check (0 <? zlen ind) EIndex;
  Ok (max_of (map snd ind)).
(** lines 265-276: the number of particles in each bin, where [bin r] is b as an integer for b >= 0 *)
Definition countarr (bins : Z) (bin : Q -> Z) (r : list Q) : list Z :=
  fold_left (fun countarr r => let b := bin r in if (0 <=? b) && (b <? bins) then set_nth countarr (Z.to_nat b) (nth (Z.to_nat b) countarr 0 + 1) else countarr)
    r (zseq 0 (Z.to_nat bins)).
