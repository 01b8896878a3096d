(** Decimal notation, stated by its value. *)
From Coq Require Import Ascii String NArith.
From Verif Require Import Base.Prelude Text.StrModel.
Local Open Scope list_scope.

(** the number written by a string of digits *)
Definition sval (s : str) : N := fold_left (fun a c => (10 * a + (N_of_ascii c - 48))%N) s 0%N.
Definition all_digits (s : str) : Prop := Forall (fun c => is_digit c = true) s.
(** digits without leading zeros *)
Definition decimal (s : str) : Prop :=
  all_digits s /\ s <> [] /\ (hd_error s = Some "0"%char -> s = ["0"%char]).
