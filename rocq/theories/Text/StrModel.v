(** Strings as lists of characters, and python's decimal formatting of integers. *)
From Coq Require Import Ascii String.
From Coq Require Import NArith.
From Verif Require Import Base.Prelude.
Local Open Scope Z_scope.

Definition str : Type := list ascii.
(** a literal *)
Definition lit (s : string) : str := list_ascii_of_string s.
Definition str_eqb (s t : str) : bool := if list_eq_dec ascii_dec s t then true else false.
Definition mem (c : ascii) (s : str) : bool := existsb (Ascii.eqb c) s.

Definition digit (d : N) : ascii := ascii_of_N (48 + d).
Definition is_digit (c : ascii) : bool := ((48 <=? N_of_ascii c) && (N_of_ascii c <=? 57))%N.
Fixpoint digs (fuel : nat) (n : N) : str :=
  match fuel with
  | O => []
  | S f => if (n <? 10)%N then [digit n] else (digs f (n / 10) ++ [digit (n mod 10)])%list
  end.
(** str(n) for n >= 0 *)
Definition dec (n : N) : str := digs (S (N.size_nat n)) n.
(** pad on the left to width [w] *)
Definition pad (c : ascii) (w : nat) (s : str) : str := (repeat c (w - length s) ++ s)%list.

(** "%d" % z *)
Definition fmt_d (z : Z) : str :=
  match z with Z.neg p => "-"%char :: dec (N.pos p) | _ => dec (Z.to_N z) end.
(** "%0wd" % z: zeros between the sign and the digits *)
Definition fmt_0d (w : nat) (z : Z) : str :=
  match z with Z.neg p => "-"%char :: pad "0" (w - 1) (dec (N.pos p)) | _ => pad "0" w (dec (Z.to_N z)) end.
(** "%wd" % z: blanks before the sign *)
Definition fmt_wd (w : nat) (z : Z) : str := pad " " w (fmt_d z).
