(** Model of util/partial_formatter.py together with the parts of python it is built
    on: string.Formatter (Lib/string.py: vformat, _vformat, get_field, convert_field)
    and the parser of format strings (CPython, Objects/stringlib/unicode_format.h:
    MarkupIterator_next, parse_field, field_name_split, FieldNameIterator_next), which
    are in python's library and not in /repo.

    Simplified: characters are 8 bit; format(value, spec), conversions, attributes and
    items of values are oracles. *)
From Coq Require Import Ascii String NArith.
From Verif Require Import Base.Prelude Text.StrModel.
Local Open Scope char_scope.
Local Open Scope list_scope.

(** ** the parser *)
Record field := { f_name : str; f_spec : str; f_conv : option ascii }.

(** the text before the first brace, and the rest *)
Fixpoint lit_end (s : str) : str * str :=
  match s with
  | [] => ([], [])
  | c :: s' => if Ascii.eqb c "{" || Ascii.eqb c "}" then ([], s) else let (l, r) := lit_end s' in (c :: l, r)
  end.
(** parse_field, first loop: the name, the character ending it and the rest;
    [inbr] inside square brackets *)
Fixpoint scan_name (inbr : bool) (s : str) : res (str * ascii * str) :=
  match s with
  | [] => Err EValue
  | c :: s' =>
      if inbr then do (n, t, r) <- scan_name (negb (Ascii.eqb c "]")) s'; Ok (c :: n, t, r)
      else if Ascii.eqb c "{" then Err EValue
      else if Ascii.eqb c "[" then do (n, t, r) <- scan_name true s'; Ok (c :: n, t, r)
      else if Ascii.eqb c "}" || Ascii.eqb c ":" || Ascii.eqb c "!" then Ok ([], c, s')
      else do (n, t, r) <- scan_name false s'; Ok (c :: n, t, r)
  end.
(** parse_field, last loop: the specification up to the matching brace; [k] braces are
    open inside it *)
Fixpoint scan_spec (k : nat) (s : str) : res (str * str) :=
  match s with
  | [] => Err EValue
  | c :: s' =>
      if Ascii.eqb c "{" then do (p, r) <- scan_spec (S k) s'; Ok (c :: p, r)
      else if Ascii.eqb c "}" then
        match k with
        | O => Ok ([], s')
        | S k' => do (p, r) <- scan_spec k' s'; Ok (c :: p, r)
        end
      else do (p, r) <- scan_spec k s'; Ok (c :: p, r)
  end.
Definition parse_field (s : str) : res (field * str) :=
  do (n, t, r) <- scan_name false s;
  if Ascii.eqb t "}" then Ok ({| f_name := n; f_spec := []; f_conv := None |}, r)
  else if Ascii.eqb t "!" then
    match r with
    | [] => Err EValue
    | v :: r1 =>
        match r1 with
        | [] => Err EValue
        | c :: r2 =>
            if Ascii.eqb c "}" then Ok ({| f_name := n; f_spec := []; f_conv := Some v |}, r2)
            else if Ascii.eqb c ":" then do (p, r3) <- scan_spec 0 r2; Ok ({| f_name := n; f_spec := p; f_conv := Some v |}, r3)
            else Err EValue
        end
    end
  else do (p, r1) <- scan_spec 0 r; Ok ({| f_name := n; f_spec := p; f_conv := None |}, r1).
(** MarkupIterator_next on a string that is not empty: literal, field if there is one, rest *)
Definition next (s : str) : res (str * option field * str) :=
  let (l, r) := lit_end s in
  match r with
  | [] => Ok (l, None, [])
  | c :: r1 =>
      if Ascii.eqb c "}" then
        match r1 with
        | d :: r2 => if Ascii.eqb d "}" then Ok (l ++ [c], None, r2) else Err EValue
        | [] => Err EValue
        end
      else
        match r1 with
        | [] => Err EValue
        | d :: r2 =>
            if Ascii.eqb d "{" then Ok (l ++ [c], None, r2)
            else do (f, r3) <- parse_field r1; Ok (l, Some f, r3)
        end
  end.

(** ** names of fields: _string.formatter_field_name_split *)
Definition all_digit (s : str) : bool := negb (str_eqb s []) && forallb is_digit s.
Definition nat_of_str (s : str) : nat := N.to_nat (fold_left (fun a c => (10 * a + (N_of_ascii c - 48))%N) s 0%N).
Inductive key_t := KInt (n : nat) | KStr (s : str).
Definition to_key (s : str) : key_t := if all_digit s then KInt (nat_of_str s) else KStr s.
(** up to the first of the characters [p] *)
Fixpoint until (p : ascii -> bool) (s : str) : str * str :=
  match s with [] => ([], []) | c :: s' => if p c then ([], s) else let (l, r) := until p s' in (c :: l, r) end.
Definition dot_or_open (c : ascii) : bool := Ascii.eqb c "." || Ascii.eqb c "[".
Inductive access := AAttr (s : str) | AItem (k : key_t).
(** FieldNameIterator_next on a string that is not empty *)
Definition next_access (s : str) : res (access * str) :=
  match s with
  | [] => Err EValue
  | c :: s' =>
      if Ascii.eqb c "." then
        let (n, r) := until dot_or_open s' in
        do _ <- check (negb (str_eqb n [])) EValue;
        Ok (AAttr n, r)
      else if Ascii.eqb c "[" then
        let (n, r) := until (Ascii.eqb "]") s' in
        match r with
        | [] => Err EValue
        | _ :: r' => do _ <- check (negb (str_eqb n [])) EValue; Ok (AItem (to_key n), r')
        end
      else Err EValue
  end.

(** ** Formatter *)
Section Formatter.
  Context {V : Type}.
  (** a value, or a FormatKey (lines 5-7) *)
  Inductive obj := Val (v : V) | FormatKey (k : str).
  (** format(value, spec), conversions, attributes and items *)
  Variable pyformat : V -> str -> res str.
  Variable convert : ascii -> obj -> V.
  Variable get_attr : obj -> str -> res obj.
  Variable get_item : obj -> key_t -> res obj.

  Variable ignore_missing : bool.
  Variable args : list V.
  Variable kwargs : list (str * option V).    (** None is python's None *)
  Fixpoint kw (l : list (str * option V)) (k : str) : option (option V) :=
    match l with [] => None | (k', v) :: l' => if str_eqb k k' then Some v else kw l' k end.

  (** get_value, lines 33-46 *)
  Definition get_value (key : key_t) : res obj :=
    match key with
    | KInt n => match nth_error args n with Some v => Ok (Val v) | None => Err EIndex end
    | KStr k =>
        match kw kwargs k with
        | None => if ignore_missing then Ok (FormatKey k) else Err EKey
        | Some None => Ok (FormatKey k)
        | Some (Some v) => Ok (Val v)
        end
    end.
  (** format_field, lines 48-56 *)
  Definition format_field (value : obj) (spec : str) : res str :=
    match value with
    | FormatKey k => Ok ("{" :: k ++ (if str_eqb spec [] then spec else ":" :: spec) ++ ["}"])
    | Val v => pyformat v spec
    end.

  (** string.Formatter.get_field; the fuel is the length of the name *)
  Fixpoint follow (fuel : nat) (s : str) (o : obj) : res obj :=
    match fuel with
    | O => Err EFuel
    | S fuel' =>
        match s with
        | [] => Ok o
        | _ =>
            do (a, r) <- next_access s;
            do o' <- (match a with AAttr n => get_attr o n | AItem k => get_item o k end);
            follow fuel' r o'
        end
    end.
  Definition get_field (name : str) : res obj :=
    let (first, rest) := until dot_or_open name in
    do o <- get_value (to_key first);
    follow (S (length rest)) rest o.
  (** string.Formatter.convert_field *)
  Definition convert_field (o : obj) (c : option ascii) : res obj :=
    match c with
    | None => Ok o
    | Some c => if Ascii.eqb c "s" || Ascii.eqb c "r" || Ascii.eqb c "a" then Ok (Val (convert c o)) else Err EValue
    end.
  (** str(auto_arg_index) and the check of field names; None is False *)
  Definition auto_name (name : str) (auto : option nat) : res (str * option nat) :=
    match name with
    | [] => match auto with None => Err EValue | Some n => Ok (dec (N.of_nat n), Some (S n)) end
    | _ => if all_digit name then match auto with Some (S _) => Err EValue | _ => Ok (name, None) end else Ok (name, auto)
    end.

  (** string.Formatter._vformat; [depth] is recursion_depth + 1 *)
  Fixpoint vformat (depth : nat) (fmt : str) (auto : option nat) : res (str * option nat) :=
    match depth with
    | O => Err EValue
    | S d =>
        (fix loop (fuel : nat) (s : str) (auto : option nat) : res (str * option nat) :=
           match fuel with
           | O => Err EFuel
           | S fuel' =>
               match s with
               | [] => Ok ([], auto)
               | _ =>
                   do (l, f, r) <- next s;
                   do (out, auto) <-
                     (match f with
                      | None => Ok ([], auto)
                      | Some f =>
                          do (name, auto) <- auto_name (f_name f) auto;
                          do o <- get_field name;
                          do o <- convert_field o (f_conv f);
                          do (spec, auto) <- vformat d (f_spec f) auto;
                          do out <- format_field o spec;
                          Ok (out, auto)
                      end);
                   do (rest, auto) <- loop fuel' r auto;
                   Ok (l ++ out ++ rest, auto)
               end
           end) (S (length fmt)) fmt auto
    end.
  (** PartialFormatter(ignore_missing=...).format(fmt, *args, **kwargs) *)
  Definition pformat (fmt : str) : res str := do (s, _) <- vformat 3 fmt (Some O); Ok s.
End Formatter.
