(** Model of /repo/examples/millennium2/python/compute_rvmax.py, lines 34-71: the maximum of the
    circular velocity of a subhalo and its radius, from the particles of a FoF group. Real numbers
    stand for floats; np.argsort is an argument. *)
From Coq Require Import Reals.
From Verif Require Import Base.Prelude Util.UMatchModel.
Local Open Scope Z_scope.
Local Open Scope list_scope.

Notation vec := (R * R * R)%type.
(** lines 12-14 *)
Definition G_SI : R := (667408 / 10 ^ 16)%R.
Definition MPC_IN_M : R := (3086 * 10 ^ 19)%R.
Definition MSOLAR_IN_KG : R := (198855 * 10 ^ 25)%R.
(** the operator [%] of numpy for floats *)
Definition rmod (x y : R) : R := (x - y * IZR (Int_part (x / y)))%R.
Definition vmap (g : R -> R) (u : vec) : vec := let '(a, b, c) := u in (g a, g b, g c).
Definition vsub (u v : vec) : vec := let '(a, b, c) := u in let '(d, e, f) := v in (a - d, b - e, c - f)%R.
(** np.argmax: the first of the largest *)
Fixpoint argmax_from (best i : Z) (x : R) (l : list R) : Z :=
  match l with
  | [] => best
  | y :: l => if Rlt_dec x y then argmax_from i (i + 1) y l else argmax_from best (i + 1) x l
  end.
Definition np_argmax (l : list R) : res Z := match l with [] => Err EValue | x :: l => Ok (argmax_from 0 1 x l) end.

Section Script.
  Variable np_argsort : list R -> list Z.
  (** lines 45-52 *)
  Definition radii (pos : list vec) (subnr : list Z) (isub : Z) (centre : vec) (boxsize : R) : res (list R) :=
    let pos_rel := map (fun p => vsub p centre) pos in
    let pos_rel := map (vmap (fun x => rmod (x + boxsize / 2) boxsize - boxsize / 2)%R) pos_rel in
    let ind := map (fun n => n =? isub) subnr in
    do _ <- check (zlen ind =? zlen pos_rel) EIndex;
    let pos_rel := np_mask pos_rel ind in
    Ok (map (fun '(x, y, z) => sqrt (x ^ 2 + y ^ 2 + z ^ 2)) pos_rel).
  (** lines 58-63, for one element *)
  Definition vcirc_of (mpart a : R) (i : Z) (r : R) : R :=
    let m_interior_si := (IZR i * mpart * 10 ^ 10 * MSOLAR_IN_KG)%R in
    let radius_si := (r * a * MPC_IN_M)%R in
    if Rlt_dec 0 r then (sqrt (G_SI * m_interior_si / radius_si) / 1000)%R else 0%R.
  (** lines 38 and 45-71: the two numbers which are printed, RVmax and Vmax *)
  Definition compute_rvmax (pos : list vec) (subnr : list Z) (isub : Z) (centre : vec) (boxsize mpart redshift : R) : res (R * R) :=
    let a := (1 / (1 + redshift))%R in
    do radius <- radii pos subnr isub centre boxsize;
    let idx := np_argsort radius in
    do radius <- np_take radius idx;
    let vcirc := zipwith (vcirc_of mpart a) (zseq 0 (length radius)) radius in
    do imax <- np_argmax vcirc;
    Ok (nth (Z.to_nat imax) radius 0 * a, nth (Z.to_nat imax) vcirc 0)%R.
End Script.
