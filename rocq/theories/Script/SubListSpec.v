(** The table of subhalos: one line for each subhalo of each file of the catalogue.
    Specification, in terms of the format of the files (CatSpec.v). *)
From Coq Require Import Ascii String.
From Verif.Base Require Import Prelude.
From Verif.Formats Require Import FileSpec CatSpec.
From Verif.Text Require Import StrModel StrSpec.
Local Open Scope Z_scope.
Local Open Scope list_scope.

(** an integer in decimal, with a sign only if it is negative *)
Definition shows (s : str) (z : Z) : Prop :=
  (0 <= z /\ decimal s /\ Z.of_N (sval s) = z) \/ (exists t, s = "-"%char :: t /\ z < 0 /\ decimal t /\ Z.of_N (sval t) = - z).
(** the integer with this bit pattern in two's complement *)
Definition int_of_bits (b : Z) : Z := if b <? 2147483648 then b else b - 4294967296.
(** numbers separated by a comma and a blank *)
Fixpoint separated (l : list str) : str := match l with [] => [] | [s] => s | s :: l' => s ++ ","%char :: " "%char :: separated l' end.

(** the line for subhalo [i] of a file: group, number of particles, position, velocity *)
Definition line_for (fmt_f : Z -> str) (cat : catalogue) (i : nat) (line : str) : Prop :=
  exists g n, shows g (int_of_bits (nth i (cat "SubParentHalo"%string) 0)) /\ shows n (int_of_bits (nth i (cat "SubLen"%string) 0)) /\
  line = separated (g :: n :: map (fun k => fmt_f (nth (3 * i + k) (cat "SubPos"%string) 0)) [0; 1; 2]%nat ++ map (fun k => fmt_f (nth (3 * i + k) (cat "SubVel"%string) 0)) [0; 1; 2]%nat).
(** the lines for a file *)
Definition lines_for (fmt_f : Z -> str) (cat : catalogue) (lines : list str) : Prop :=
  zlen lines = scalar cat "Nsubhalos" /\ forall i line, nth_error lines i = Some line -> line_for fmt_f cat i line.
(** the lines for several files, one after another *)
Definition table_for (fmt_f : Z -> str) (cats : list catalogue) (out : list str) : Prop :=
  exists parts, Forall2 (lines_for fmt_f) cats parts /\ out = concat parts.

(** the name of a file of the catalogue: the number of the snapshot has three digits *)
Definition file_name_is (isnap ifile : Z) (name : str) : Prop :=
  exists a b, List.length a = 3%nat /\ all_digits a /\ Z.of_N (sval a) = isnap /\ shows b ifile /\
  name = lit "/virgo/data/Millennium/postproc_" ++ a ++ lit "/sub_tab_" ++ a ++ lit "." ++ b.
(** file [ifile] contains the catalogue, in some byte order, and perhaps something else after it *)
Definition holds (fs : str -> option (list Z)) (isnap ifile : Z) (cat : catalogue) : Prop :=
  consistent cat (L2_sub_tab 8) /\ 1 <= scalar cat "NFiles" <= 65535 /\
  exists lf rest name, file_name_is isnap ifile name /\ fs name = Some (file_bytes lf (pieces_of cat (L2_sub_tab 8)) ++ rest).
Definition all_hold (fs : str -> option (list Z)) (isnap : Z) (cats : list catalogue) : Prop :=
  forall i cat, nth_error cats i = Some cat -> holds fs isnap (Z.of_nat i) cat.
Definition heading : str := lit "Parent halo, Number of particles, x, y, z, vx, vy, vz".

(** the number of subhalos in the header of any file: the integer in bytes 16 to 19 *)
Fixpoint base256 (bytes : list Z) : Z := match bytes with [] => 0 | b :: bytes' => b + 256 * base256 bytes' end.
Definition subhalos_of_header (little_file : bool) (content : list Z) : Z :=
  let b := firstn 4 (skipn 16 content) in int_of_bits (base256 (if little_file then b else rev b)).
