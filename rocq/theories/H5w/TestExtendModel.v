(** /repo/fortran/hdf5_wrapper/test/test_extend.f90 as the sequence of its calls of the wrapper (H5wModel.v).

    Simplifications.  [int] and [real] give the bytes of a number; HDF_VERBOSITY and HDF_ERROR_SUPPRESS do not matter.  The handle is 1, as for the
    first file of any program (C88).  Arrays are lists in the order of memory, the first index fastest. *)
From Coq Require Import Ascii String.
From Verif Require Import Base.Prelude Text.StrModel H5w.H5wModel.
Local Open Scope Z_scope.
Local Open Scope list_scope.

Section Program.
  Variables int real : Z -> elt.
  Definition text (s : string) : elt := map (fun c => Z.of_N (N_of_ascii c)) (lit s).
  Definition t_int : ty := {| t_class := CInt; t_size := 4 |}.
  Definition t_real : ty := {| t_class := CFloat; t_size := 4 |}.
  Definition t_text : ty := {| t_class := CString; t_size := 3 |}.
  (** all (i,j) with 1 <= i <= n and 1 <= j <= m, i fastest *)
  Definition upto2 (n m : Z) (f : Z -> Z -> elt) : list elt := flat_map (fun j => map (fun i => f i j) (zseq 1 (Z.to_nat n))) (zseq 1 (Z.to_nat m)).
  Definition ints (l : list Z) : marr := {| m_ty := t_int; m_dims := [zlen l]; m_buf := map int l |}.
  Definition reals (l : list Z) : marr := {| m_ty := t_real; m_dims := [zlen l]; m_buf := map real l |}.
  Definition reals2 (n m : Z) (f : Z -> Z -> Z) : marr := {| m_ty := t_real; m_dims := [n; m]; m_buf := upto2 n m (fun i j => real (f i j)) |}.
  Definition texts (n m : Z) (s : string) : marr := {| m_ty := t_text; m_dims := [n; m]; m_buf := upto2 n m (fun _ _ => text s) |}.
  Definition part (ext : option bool) (start count : list Z) (initial : option (list Z)) : wopts :=
    {| w_gzip := None; w_overwrite := None; w_szip := None; w_extensible := ext; w_start := Some start; w_count := Some count; w_initial := initial; w_chunk := None |}.
  (** lines 27-29 *)
  Definition idata (i : Z) : Z := i + 10000 * i.
  (** lines 31-35 *)
  Definition rdata (i j : Z) : Z := i + 1000 * j.
  Definition test_extend : list call :=
    (* line 37 *)
    CCreate (fit 500 (lit "./test2.hdf5")) ::
    (* lines 40-43 *)
    map (fun k => CWrite 1 (lit "idata") (ints (map idata (zseq (10 * k + 1) 10))) (part (Some true) [10 * k + 1] [10] None)) (zseq 0 10) ++
    (* lines 46-48 *)
    CWrite 1 (lit "idata") (ints (map (fun i => if i <=? 10 then -1 else idata i) (zseq 1 100))) (part (Some true) [50] [10] None) ::
    (* line 51 *)
    CWrite 1 (lit "rdata1") (reals2 10 5 rdata) plain ::
    (* lines 54-57 *)
    map (fun i => CWrite 1 (lit "rdata2") (reals2 1 5 (fun _ j => rdata i j)) (part (Some true) [i; 1] [1; 5] None)) (zseq 1 10) ++
    (* lines 60-62 *)
    CWrite 1 (lit "rdata1") (reals2 3 2 (fun _ _ => -1000)) (part (Some true) [8; 4] [3; 2] None) ::
    (* lines 65-66 *)
    CWrite 1 (lit "rdata3") (reals2 10 5 (fun _ _ => 10)) (part None [1; 6] [10; 5] None) ::
    (* lines 69-73 *)
    CWrite 1 (lit "strdata") (texts 3 5 "abc") (part None [1; 1] [3; 5] (Some [4; 8])) ::
    CWrite 1 (lit "strdata") (texts 3 5 "def") (part None [2; 4] [3; 5] None) ::
    (* lines 76-83 *)
    CWrite 1 (lit "Array2D") (reals2 10 5 (fun _ _ => 0)) plain ::
    CWrite 1 (lit "Array2D") (reals (repeat 1 10)) (part None [1; 1] [8; 1] None) ::
    CWrite 1 (lit "Array2D") (reals (repeat 2 5)) (part None [3; 1] [1; 5] None) ::
    (* line 86 *)
    CWrite 1 (lit "Array2D") {| m_ty := t_real; m_dims := []; m_buf := [real 3] |} (part None [4; 4] [1; 1] None) ::
    (* lines 90-92 *)
    CWrite 1 (lit "itest") (ints [1]) (part None [1] [1] (Some [5])) ::
    [CClose 1].
End Program.
