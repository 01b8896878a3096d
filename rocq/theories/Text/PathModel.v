(** Model of the functions which compute where a file of the Millennium simulation is:
    cosma_file_path() and Snapshot.open_file() of formats/subfind_lgadget2.py and
    filepath() of examples/millennium/fortran/file_path.f90. *)
From Coq Require Import Ascii String NArith.
From Verif Require Import Base.Prelude Text.StrModel.
Local Open Scope char_scope. Local Open Scope Z_scope. Local Open Scope list_scope.

(** python's "%w.wi" % z: at least [w] digits, the sign before them *)
Definition fmt_p (w : nat) (z : Z) : str :=
  match z with Z.neg p => "-" :: pad "0" w (dec (N.pos p)) | _ => pad "0" w (dec (Z.to_N z)) end.

(** the directory and the start of the name for each type of file *)
Definition kind_of (itype : Z) : option (string * string) :=
  if itype =? 0 then Some ("snapshot", "snap_millennium")%string
  else if itype =? 1 then Some ("group_tab", "group_tab")%string
  else if itype =? 2 then Some ("sub_tab", "sub_tab")%string
  else if itype =? 3 then Some ("sub_ids", "sub_ids")%string
  else if itype =? 4 then Some ("group_ids", "group_ids")%string
  else None.

(** subfind_lgadget2.py lines 12-24. The five format strings differ in the two
    names only. For another [itype] the function returns python's None. *)
Definition cosma_file_path (itype isnap ifile : Z) : option str :=
  let idest := (ifile + 3 * (63 - isnap)) mod 14 in
  match kind_of itype with
  | Some (dir, base) =>
      Some (lit "/milli" ++ fmt_p 2 idest ++ lit "/d" ++ fmt_p 2 isnap ++ lit "/" ++ lit dir ++ lit "/" ++ lit base ++ lit "_" ++ fmt_p 3 isnap ++ lit "." ++ fmt_d ifile)
  | None => None
  end.

(** subfind_lgadget2.py lines 445-454, Snapshot.open_file: the name of the file it opens *)
Definition snapshot_name (basedir basename : str) (isnap ifile : Z) : res str :=
  if negb (str_eqb basedir (lit "COSMA")) then
    Ok (basedir ++ lit "/snapdir_" ++ fmt_0d 3 isnap ++ lit "/" ++ basename ++ lit "_" ++ fmt_0d 3 isnap ++ lit "." ++ fmt_d ifile)
  else
    match cosma_file_path 0 isnap ifile with
    | Some p => Ok (lit "/gpfs/data/Millennium/" ++ p)
    | None => Err EType
    end.

(** Fortran's edit descriptor Iw.m: at least [m] digits, right justified; [w]
    asterisks if the field is too narrow *)
Definition f_int (w m : nat) (z : Z) : str :=
  let body := match z with Z.neg p => "-" :: pad "0" m (dec (N.pos p)) | _ => pad "0" m (dec (Z.to_N z)) end in
  if (w <? length body)%nat then repeat "*" w else pad " " w body.
(** a formatted WRITE to a CHARACTER(LEN=n) variable: the rest is blank; a longer
    record is an error *)
Definition f_write (n : nat) (s : str) : res str :=
  if (n <? length s)%nat then Err EIO else Ok (s ++ repeat " " (n - length s)).
(** assignment to a CHARACTER(LEN=n) variable *)
Definition f_assign (n : nat) (s : str) : str := firstn n s ++ repeat " " (n - length s).
(** s(1:lnblnk(s)) *)
Definition f_trim (s : str) : str :=
  rev ((fix go l := match l with [] => [] | c :: t => if Ascii.eqb c " " then go t else l end) (rev s)).

(** file_path.f90 lines 5-62. Integers do not overflow for the arguments used. *)
Definition filepath (itype isnap ifile : Z) : res str :=
  (* line 25: the sign of MOD is that of its first argument *)
  let idest := Z.rem (ifile + 3 * (63 - isnap)) 14 in
  (* lines 28-34 *)
  do fileno <- (if ifile <? 10 then f_write 4 (lit "." ++ f_int 1 1 ifile)
                else if ifile <? 100 then f_write 4 (lit "." ++ f_int 2 2 ifile)
                else f_write 4 (lit "." ++ f_int 3 3 ifile));
  (* lines 37-59; STOP is EAbort *)
  match kind_of itype with
  | Some (d, base) =>
      do dir <- f_write 256 (lit "/data/milli" ++ f_int 2 2 idest ++ lit "/d" ++ f_int 2 2 isnap ++ lit "/" ++ lit d ++ lit "/");
      do filename <- f_write 256 (lit base ++ lit "_" ++ f_int 3 3 isnap ++ fileno);
      (* line 61 *)
      Ok (f_assign 256 (f_trim dir ++ f_trim filename))
  | None => Err EAbort
  end.
