(** The cell of a coordinate in double precision arithmetic (for C78): monotone. *)
From Coq Require Import ZArith Reals Lra.
From Flocq Require Import Core.
From Verif Require Import Base.Prelude Fortran.VolumeSpec.
Local Open Scope R_scope.

(** rounding to the nearest double precision number (no overflow) *)
Definition double (x : R) : R := round radix2 (FLT_exp (-1074) 53) ZnearestE x.
(** floor(x / (boxsize / ncell)) *)
Definition floor_cell (boxsize : R) (ncell : Z) (x : R) : Z := Zfloor (double (x / double (boxsize / IZR ncell))).
Lemma double_le x y : x <= y -> double x <= double y.
Proof. intro H. assert (Prec_gt_0 53) as P by reflexivity. apply round_le; [apply (FLT_exp_valid (-1074) 53) | apply valid_rnd_N | exact H]. Qed.
Lemma floor_cell_le boxsize n x y : 0 < double (boxsize / IZR n) -> x <= y -> (floor_cell boxsize n x <= floor_cell boxsize n y)%Z.
Proof. intros Hl H. apply Zfloor_le, double_le. unfold Rdiv. apply Rmult_le_compat_r; [|exact H]. left. now apply Rinv_0_lt_compat. Qed.
Lemma double_monotone (val : Z -> R) boxsize n : 0 < double (boxsize / IZR n) -> monotone (fun a b => Rle_bool (val a) (val b)) (fun a => floor_cell boxsize n (val a)).
Proof. intros Hl a b H. apply floor_cell_le; [exact Hl|]. destruct (Rle_bool_spec (val a) (val b)) as [Q|Q]; [exact Q | discriminate]. Qed.
Lemma double_pos x : 1 <= x -> 0 < double x.
Proof.
  intro H. apply Rlt_le_trans with 1; [lra|]. assert (Prec_gt_0 53) as P by reflexivity.
  apply round_ge_generic; [apply (FLT_exp_valid (-1074) 53) | apply valid_rnd_N | | exact H]. apply generic_format_FLT_1; [exact P | apply (Zle_bool_imp_le (-1074) 0); reflexivity].
Qed.
