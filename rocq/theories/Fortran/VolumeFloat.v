(** The cell of a position in single precision arithmetic (for C72): monotone. *)
From Coq Require Import ZArith Reals Lra.
From Flocq Require Import Core.
From Verif Require Import Base.Prelude Fortran.VolumeSpec.
Local Open Scope R_scope.

(** rounding to the nearest single precision number (no overflow) *)
Definition single (x : R) : R := round radix2 (FLT_exp (-149) 24) ZnearestE x.
(** INT((x/lbox)*float(ncellbox)) *)
Definition int_cell (lbox : R) (n : Z) (x : R) : Z := Ztrunc (single (single (x / lbox) * IZR n)).
Lemma single_le x y : x <= y -> single x <= single y.
Proof. intro H. assert (Prec_gt_0 24) as P by reflexivity. apply round_le; [apply (FLT_exp_valid (-149) 24) | apply valid_rnd_N | exact H]. Qed.
Lemma int_cell_le lbox n x y : 0 < lbox -> (0 <= n)%Z -> x <= y -> (int_cell lbox n x <= int_cell lbox n y)%Z.
Proof.
  intros Hl Hn H. apply Ztrunc_le, single_le. apply Rmult_le_compat_r; [now apply IZR_le|]. apply single_le. unfold Rdiv. apply Rmult_le_compat_r; [|exact H]. left. now apply Rinv_0_lt_compat.
Qed.
Lemma float_monotone (val : Z -> R) lbox n : 0 < lbox -> (0 <= n)%Z -> monotone (fun a b => Rle_bool (val a) (val b)) (fun a => int_cell lbox n (val a)).
Proof. intros Hl Hn a b H. apply int_cell_le; [exact Hl | exact Hn|]. destruct (Rle_bool_spec (val a) (val b)) as [Q|Q]; [exact Q | discriminate]. Qed.
