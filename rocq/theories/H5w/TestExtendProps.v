(** C113: the test program test_extend.f90 of the wrapper. *)
From Coq Require Import Ascii String.
From Verif Require Import Base.Prelude Text.StrModel H5w.H5wModel H5w.H5wSpec H5w.H5wCases H5w.TestExtendModel H5w.TestExtendSpec H5w.TestExtendFinal.
Local Open Scope Z_scope.
Local Open Scope list_scope.

(** No call of the program is ended, its file has the contents which the comments say, whatever was in it before, and other files stay the same. *)
Theorem C113_test_extend : forall (int real : Z -> elt) (old : list obj) (others : list (str * dfile)), exists t s h,
  play no_cv (test_extend int real) [] (before old others) = Some (t, s) /\ disk s = (lit "./test2.hdf5", {| heap := h; writable := true |}) :: others /\ nopen s = 0 /\
  is_list h "idata" 100 (fun i => int (if between 50 i 59 then -1 else 10001 * i)) /\
  is_table h "rdata1" 10 5 (fun i j => real (if between 8 i 10 && between 4 j 5 then -1000 else i + 1000 * j)) /\
  is_table h "rdata2" 10 5 (fun i j => real (i + 1000 * j)) /\
  is_table h "rdata3" 10 10 (fun i j => if between 6 j 10 then real 10 else nothing 4) /\
  is_table h "strdata" 4 8 (fun i j => if between 2 i 4 && between 4 j 8 then [100; 101; 102] else if between 1 i 3 && between 1 j 5 then [97; 98; 99] else nothing 3) /\
  is_table h "Array2D" 10 5 (fun i j => real (if (i =? 4) && (j =? 4) then 3 else if i =? 3 then 2 else if between 1 i 8 && (j =? 1) then 1 else 0)) /\
  is_list h "itest" 5 (fun i => if i =? 1 then int 1 else nothing 4).
Proof. exact test_extend_final. Qed.
Print Assumptions C113_test_extend.
(** the program has not called the wrapper before *)
Example C113_case : fresh (before (heap ex_old) [(lit "z", ex_old)]) /\ List.length (test_extend n4 n4) = 33%nat.
Proof. split; [repeat split; try reflexivity; discriminate | reflexivity]. Qed.
