(** What the units should be. *)
From Coq Require Import QArith Qreals Reals.
From Verif Require Import Base.Prelude Swift.SwiftModel.
Local Open Scope Z_scope.

(** the attributes give exponent [q] for symbol [s] *)
Definition declares (a : attrs) (s : sym) (q : Q) : Prop := a_exp a s = Some q.
(** the value of [x] is [y] to one part in 10^9 *)
Definition agrees (x y : R) : Prop := (Rabs (y - x) <= 1 / 1000000000 * x)%R.
(** the conversion factor to physical CGS *)
Definition physical_cgs (a : attrs) (x : R) : Prop := a_phys a = Some x \/ (a_phys a = None /\ a_cosmo a = Some x).
(** the value of a product of powers, for positive values of the symbols *)
Definition value (cgs_of : sym -> R) (u : unit_t) : R :=
  (scale u * Rpower (cgs_of SI) (Q2R (expo u SI)) * Rpower (cgs_of SL) (Q2R (expo u SL)) * Rpower (cgs_of SM) (Q2R (expo u SM))
   * Rpower (cgs_of ST) (Q2R (expo u ST)) * Rpower (cgs_of St) (Q2R (expo u St)) * Rpower (cgs_of Sa) (Q2R (expo u Sa)) * Rpower (cgs_of Sh) (Q2R (expo u Sh)))%R.
