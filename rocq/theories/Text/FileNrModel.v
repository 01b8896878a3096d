(** Model of substitute_file_nr (mpi/parallel_hdf5.py lines 14-30), with python's %
    operator (CPython, Objects/unicodeobject.c: PyUnicode_Format,
    unicode_format_arg_parse) applied to the dictionary {"file_nr" : n}, and str.format.

    Simplified: str.format follows the algorithm of string.Formatter (FmtModel.v); the
    formats of the number other than decimal ones are an oracle, as are attributes and
    items of the number and the text of the dictionary; a width or precision given as *
    is an error. *)
From Coq Require Import Ascii String NArith ZArith.
From Verif Require Import Base.Prelude Text.StrModel Text.FmtModel.
Local Open Scope char_scope.
Local Open Scope list_scope.

(** ** integers in str.format *)
Definition take_digits : str -> str * str := until (fun c => negb (is_digit c)).
(** the specification [[0][width][d]] *)
Definition int_spec (s : str) : option (bool * nat) :=
  let (z, s1) := match s with c :: s' => if Ascii.eqb c "0" then (true, s') else (false, s) | [] => (false, s) end in
  let (w, s2) := take_digits s1 in
  if str_eqb s2 [] || str_eqb s2 ["d"] then Some (z, nat_of_str w) else None.
Definition fmt_dec (z : bool) (w : nat) (n : Z) : str := if z then fmt_0d w n else fmt_wd w n.

(** ** the % operator *)
(** the key in parentheses, [k] of which are open inside it *)
Fixpoint scan_key (k : nat) (s : str) : res (str * str) :=
  match s with
  | [] => Err EValue
  | c :: s' =>
      if Ascii.eqb c "(" then do (p, r) <- scan_key (S k) s'; Ok (c :: p, r)
      else if Ascii.eqb c ")" then
        match k with O => Ok ([], s') | S k' => do (p, r) <- scan_key k' s'; Ok (c :: p, r) end
      else do (p, r) <- scan_key k s'; Ok (c :: p, r)
  end.
Definition flag_char (c : ascii) : bool := mem c (lit "-+ #0").
Inductive arg := ADict | AInt.
Record directive := { d_flags : str; d_width : str; d_prec : option str; d_char : ascii }.
(** after the % sign: the argument to use if a key is given, the directive, the rest *)
Definition parse_directive (s : str) : res (option arg * directive * str) :=
  do (key, s) <- (match s with
                  | c :: s' => if Ascii.eqb c "(" then
                                 do (k, r) <- scan_key 0 s';
                                 do _ <- check (str_eqb k (lit "file_nr")) EKey;
                                 Ok (Some AInt, r)
                               else Ok (None, s)
                  | [] => Ok (None, s)
                  end);
  let (fl, s) := until (fun c => negb (flag_char c)) s in
  let (w, s) := take_digits s in
  do (p, s) <- (match s with
                | c :: s' => if Ascii.eqb c "*" && str_eqb w [] then Err EType
                             else if Ascii.eqb c "." then
                               let (p, r) := take_digits s' in
                               match r with d :: _ => if Ascii.eqb d "*" && str_eqb p [] then Err EType else Ok (Some p, r) | [] => Ok (Some p, r) end
                             else Ok (None, s)
                | [] => Ok (None, s)
                end);
  let s := match s with c :: s' => if mem c (lit "hlL") then s' else s | [] => s end in
  match s with
  | [] => Err EValue
  | c :: r => Ok (key, {| d_flags := fl; d_width := w; d_prec := p; d_char := c |}, r)
  end.

Section Subst.
  (** values of other formats of the number, in % and in str.format, and of the text of
      the dictionary *)
  Variable pct_other : directive -> Z -> res str.
  Variable dict_text : directive -> Z -> res str.
  Variable spec_other : str -> Z -> res str.
  Variable text_spec : str -> str -> res str.        (** format(text, spec) *)
  Variable text_of : ascii -> str -> str.            (** repr and ascii of a text *)
  Inductive value := VInt (n : Z) | VText (s : str).
  Variable get_attr : @obj value -> str -> res (@obj value).
  Variable get_item : @obj value -> key_t -> res (@obj value).

  Definition pyformat (v : value) (spec : str) : res str :=
    match v with
    | VInt n => match int_spec spec with Some (z, w) => Ok (fmt_dec z w n) | None => spec_other spec n end
    | VText s => text_spec s spec
    end.
  Definition convert (c : ascii) (o : @obj value) : value :=
    match o with
    | Val (VInt n) => VText (fmt_d n)
    | Val (VText s) => VText (if Ascii.eqb c "s" then s else text_of c s)
    | FormatKey k => VText k      (* does not occur *)
    end.
  (** format_string.format(file_nr=file_nr) *)
  Definition str_format (s : str) (n : Z) : res str :=
    pformat pyformat convert get_attr get_item false [] [(lit "file_nr", Some (VInt n))] s.

  (** one directive; [avail] is the argument not used yet *)
  Definition pct_value (d : directive) (a : arg) (n : Z) : res str :=
    let c := d_char d in
    match a with
    | AInt =>
        let plain := forallb (Ascii.eqb "0") (d_flags d) && match d_prec d with None => true | _ => false end in
        if mem c (lit "diu") && plain then Ok (fmt_dec (mem "0" (d_flags d)) (nat_of_str (d_width d)) n)
        else if mem c (lit "sra") && plain then Ok (fmt_wd (nat_of_str (d_width d)) n)
        else if mem c (lit "diusraoxXeEfFgGc") then pct_other d n
        else Err EValue
    | ADict =>
        if mem c (lit "sra") then dict_text d n
        else if mem c (lit "diuoxXeEfFgGc") then Err EType
        else Err EValue
    end.
  Fixpoint pct_loop (fuel : nat) (s : str) (avail : option arg) (n : Z) : res str :=
    match fuel with
    | O => Err EFuel
    | S fuel' =>
        match s with
        | [] => Ok []
        | c :: s' =>
            if Ascii.eqb c "%" then
              do (key, d, r) <- parse_directive s';
              let avail := match key with Some a => Some a | None => avail end in
              if Ascii.eqb (d_char d) "%" then do rest <- pct_loop fuel' r avail n; Ok ("%" :: rest)
              else
                match avail with
                | None => Err EType
                | Some a => do out <- pct_value d a n; do rest <- pct_loop fuel' r None n; Ok (out ++ rest)
                end
            else do rest <- pct_loop fuel' s' avail n; Ok (c :: rest)
        end
    end.
  (** format_string % {"file_nr" : file_nr} *)
  Definition pct_format (s : str) (n : Z) : res str := pct_loop (S (length s)) s (Some ADict) n.

  (** lines 14-30 *)
  Definition substitute_file_nr (format_string : str) (file_nr : Z) : res str :=
    do str1 <- pct_format format_string file_nr;
    do str2 <- str_format format_string file_nr;
    if negb (str_eqb str1 format_string) && negb (str_eqb str2 format_string) then Err ERuntime
    else if negb (str_eqb str1 format_string) then Ok str1
    else if negb (str_eqb str2 format_string) then Ok str2
    else do _ <- check (str_eqb str1 str2) EAssert; Ok str1.
End Subst.
