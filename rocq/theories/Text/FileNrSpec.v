(** Names of files with the file number in them. *)
From Coq Require Import Ascii String NArith ZArith.
From Verif Require Import Base.Prelude Text.StrModel Text.FmtModel.
Local Open Scope char_scope.
Local Open Scope list_scope.

(** text, or the number in one of the two notations: with leading zeros or not, minimum
    width (0 if none is given), and whether the letter d is written *)
Inductive npart := NLit (s : str) | NPct (zero : bool) (w : nat) | NBr (zero : bool) (w : nat) (d : bool).
Definition num_spec (zero : bool) (w : nat) (d : bool) : str :=
  (if zero then ["0"] else []) ++ (if Nat.eqb w 0 then [] else dec (N.of_nat w)) ++ (if d then ["d"] else []).
Definition ntext1 (p : npart) : str :=
  match p with
  | NLit s => s
  | NPct z w => lit "%(file_nr)" ++ num_spec z w true
  | NBr z w d => lit "{file_nr" ++ (match num_spec z w d with [] => [] | s => ":" :: s end) ++ ["}"]
  end.
Definition ntext (t : list npart) : str := concat (map ntext1 t).
(** text without the characters of either notation *)
Definition nwf (p : npart) : Prop := match p with NLit s => forall c, In c s -> mem c (lit "%{}") = false | _ => True end.
(** the number in decimal, at least [w] characters *)
Definition number (zero : bool) (w : nat) (n : Z) : str := if zero then fmt_0d w n else fmt_wd w n.
Definition nvalue1 (n : Z) (p : npart) : str :=
  match p with NLit s => s | NPct z w => number z w n | NBr z w _ => number z w n end.
Definition nvalue (n : Z) (t : list npart) : str := concat (map (nvalue1 n) t).
Definition has_pct (t : list npart) : Prop := exists z w, In (NPct z w) t.
Definition has_br (t : list npart) : Prop := exists z w d, In (NBr z w d) t.
