(** What is in a file: a list of pieces one after another, and the bytes of these pieces
    in a given byte order. Specification, independent of how files are read. *)
From Coq Require Import Ascii String.
From Verif.Base Require Import Prelude.
Local Open Scope Z_scope.

(** the [n] bytes of a number, least significant byte first *)
Definition digits (n : nat) (v : Z) : list Z := map (fun i => (v / 256 ^ i) mod 256) (zseq 0 n).
(** a number of [size] bytes in a file with little endian or big endian numbers *)
Definition number_bytes (little_file : bool) (size v : Z) : list Z :=
  if little_file then digits (Z.to_nat size) v else rev (digits (Z.to_nat size) v).

(** an array with a name (of a dataset or of an attribute), whose numbers have [size]
    bytes each; a record length; bytes of no interest *)
Inductive piece :=
  | Data (name : list ascii) (is_attr : bool) (size : Z) (shape : list Z) (vals : list Z)
  | Mark (n : Z)
  | Raw (bytes : list Z).
Definition piece_bytes (little_file : bool) (p : piece) : list Z :=
  match p with
  | Data _ _ size _ vals => concat (map (number_bytes little_file size) vals)
  | Mark n => number_bytes little_file 4 n
  | Raw bytes => bytes
  end.
Definition file_bytes (little_file : bool) (l : list piece) : list Z := concat (map (piece_bytes little_file) l).
(** the size of a piece in bytes *)
Definition piece_size (p : piece) : Z :=
  match p with Data _ _ size _ vals => size * zlen vals | Mark _ => 4 | Raw bytes => zlen bytes end.
(** an array has as many numbers as its shape says, and they fit in the given size *)
Definition piece_ok (p : piece) : Prop :=
  match p with
  | Data _ _ size shape vals =>
    0 < size /\ Forall (fun s => 0 <= s) shape /\ zlen vals = fold_left Z.mul shape 1 /\ Forall (fun v => 0 <= v < 256 ^ size) vals
  | Mark n => 0 <= n < 2 ^ 32
  | Raw _ => True
  end.
(** a Fortran record: its length in bytes is written before and after it *)
Definition record (l : list piece) : list piece :=
  let n := sumZ (map piece_size l) in Mark n :: l ++ [Mark n].
