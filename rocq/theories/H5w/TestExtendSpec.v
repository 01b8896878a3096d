(** What test_extend.f90 should leave in its file, from its comments. *)
From Coq Require Import Ascii String.
From Verif Require Import Base.Prelude Text.StrModel H5w.H5wModel H5w.H5wSpec.
Local Open Scope Z_scope.
Local Open Scope list_scope.

(** dataset [name] is a list of [n] elements, f 1, ..., f n *)
Definition is_list (h : list obj) (name : string) (n : Z) (f : Z -> elt) : Prop :=
  exists d, dataset_at h [lit name] d /\ d_dims d = [n] /\ zlen (d_data d) = n /\ forall i, 1 <= i <= n -> elem [n] (d_data d) [i - 1] = Some (f i).
(** dataset [name] is a table of [n] times [m] elements *)
Definition is_table (h : list obj) (name : string) (n m : Z) (f : Z -> Z -> elt) : Prop :=
  exists d, dataset_at h [lit name] d /\ d_dims d = [n; m] /\ zlen (d_data d) = n * m /\ forall i j, 1 <= i <= n -> 1 <= j <= m -> elem [n; m] (d_data d) [i - 1; j - 1] = Some (f i j).
Definition between (a i b : Z) : bool := (a <=? i) && (i <=? b).
(** the file before: it can be written; there are other files *)
Definition before (old : list obj) (others : list (str * dfile)) : wst := {|
  disk := (lit "./test2.hdf5", {| heap := old; writable := true |}) :: others;
  lib := []; next := 100; slots := repeat {| s_id := 0; s_ro := false; s_name := [] |} 1000; nopen := 0; need_init := true; cached := false; c_id := ([], 0%nat); c_file := []; c_dset := [] |}.
(** an element which has not been written *)
Definition nothing (size : Z) : elt := repeat 0 (Z.to_nat size).
