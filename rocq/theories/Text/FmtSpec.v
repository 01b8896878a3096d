(** Templates as structures, what is written in a template and what substituting the
    values of some of the keys should leave. *)
From Coq Require Import Ascii String NArith.
From Verif Require Import Base.Prelude Text.StrModel.
Local Open Scope char_scope.
Local Open Scope list_scope.

(** a part of a format specification: text, or a field with a specification of its own *)
Inductive spart := SLit (s : str) | SFld (k : str) (p : option str).
(** a part of a template: text, or a field with conversion and specification *)
Inductive part := Lit (s : str) | Fld (k : str) (c : option ascii) (p : option (list spart)).

Definition brace (c : ascii) : bool := Ascii.eqb c "{" || Ascii.eqb c "}".
Definition no_brace (s : str) : Prop := forall c, In c s -> brace c = false.
Definition opt_spec (p : option str) : str := match p with None => [] | Some s => ":" :: s end.
Definition opt_conv (c : option ascii) : str := match c with None => [] | Some c => ["!"; c] end.
(** the text of a part, braces in literal text as they are *)
Definition stext (p : spart) : str := match p with SLit s => s | SFld k p => "{" :: k ++ opt_spec p ++ ["}"] end.
Definition stexts (l : list spart) : str := concat (map stext l).
Definition text (p : part) : str :=
  match p with Lit s => s | Fld k c p => "{" :: k ++ opt_conv c ++ opt_spec (option_map stexts p) ++ ["}"] end.
Definition texts (l : list part) : str := concat (map text l).
(** as a template: braces in literal text are doubled *)
Definition escape (s : str) : str := concat (map (fun c => if brace c then [c; c] else [c]) s).
Definition source1 (p : part) : str := match p with Lit s => escape s | _ => text p end.
Definition source (l : list part) : str := concat (map source1 l).

(** names of keys: not a number, not empty, no attributes or items, none of the
    characters of the syntax *)
Definition key_char (c : ascii) : bool := negb (mem c (lit "{}:![.")).
Definition plain_key (k : str) : Prop := k <> [] /\ (forall c, In c k -> key_char c = true) /\ exists c, In c k /\ is_digit c = false.
Definition swf (p : spart) : Prop :=
  match p with SLit s => no_brace s | SFld k p => plain_key k /\ (forall s, p = Some s -> no_brace s) end.
Definition wf (p : part) : Prop :=
  match p with
  | Lit _ => True
  | Fld k c p => plain_key k /\ (forall c', c = Some c' -> In c' (lit "sra")) /\ (forall l, p = Some l -> Forall swf l)
  end.

(** what is known about a key: its value, that it is to be kept, or nothing *)
Inductive known (V : Type) := Value (v : V) | Keep | Unknown.
Arguments Value {V} v. Arguments Keep {V}. Arguments Unknown {V}.

Section Fill.
  Context {V : Type}.
  Variable format : V -> str -> res str.      (** format(value, spec) *)
  Variable conv : ascii -> V -> V.            (** str, repr, ascii of a value *)
  Variable conv_kept : ascii -> str -> V.     (** the same of the object that stands for a key that is kept *)

  Section Env.
  Variable env : str -> known V.
  Definition some_text (s : str) : option str := if str_eqb s [] then None else Some s.
  Definition fill_spart (p : spart) : res spart :=
    match p with
    | SLit s => Ok (SLit s)
    | SFld k p =>
        let s := match p with None => [] | Some s => s end in
        match env k with
        | Unknown => Err EKey
        | Keep => Ok (SFld k (some_text s))
        | Value v => do out <- format v s; Ok (SLit out)
        end
    end.
  (** fields whose key has a value become text, fields whose key is kept remain *)
  Definition fill_part (p : part) : res part :=
    match p with
    | Lit s => Ok (Lit s)
    | Fld k c p =>
        let l := match p with None => [] | Some l => l end in
        match env k with
        | Unknown => Err EKey
        | Keep =>
            do l' <- mapM fill_spart l;
            match c with
            | None => Ok (Fld k None (if str_eqb (stexts l') [] then None else Some l'))
            | Some c => do out <- format (conv_kept c k) (stexts l'); Ok (Lit out)
            end
        | Value v =>
            do l' <- mapM fill_spart l;
            do out <- format (match c with None => v | Some c => conv c v end) (stexts l');
            Ok (Lit out)
        end
    end.
  Definition fill (t : list part) : res (list part) := mapM fill_part t.
  End Env.

  (** [e2] knows the values that [e1] knows and perhaps more; what it knows nothing of
      [e1] does not know the value of either *)
  Definition extends (e1 e2 : str -> known V) : Prop := forall k v, e1 k = Value v -> e2 k = Value v.

  (** the first stage can be continued: text has no braces; kept fields have no
      conversion; a field formatted in the first stage has no field in its
      specification that is kept; nothing formatted in the first stage has braces *)
  Definition svalue_ok (e : str -> known V) (p : spart) : Prop :=
    match p with
    | SLit _ => True
    | SFld k p => forall v out, e k = Value v -> format v (match p with None => [] | Some s => s end) = Ok out -> no_brace out
    end.
  Definition stage_ok (e : str -> known V) (p : part) : Prop :=
    match p with
    | Lit s => no_brace s
    | Fld k c p =>
        let l := match p with None => [] | Some l => l end in
        Forall (svalue_ok e) l /\
        (e k = Keep -> c = None) /\
        (forall v, e k = Value v ->
           (forall k' p', In (SFld k' p') l -> e k' <> Keep) /\
           (forall l' out, mapM (fill_spart e) l = Ok l' -> format (match c with None => v | Some c => conv c v end) (stexts l') = Ok out -> no_brace out))
    end.
End Fill.

(** fields by position: the text before the field, the number in the field if one is written, and
    the specification *)
Definition pitem : Type := (str * option nat * option str)%type.
Definition ptext (x : pitem) : str :=
  let '(l, n, p) := x in escape l ++ "{" :: match n with None => [] | Some n => dec (N.of_nat n) end ++ opt_spec p ++ ["}"].
Definition specs_plain (items : list pitem) : Prop := forall l n t, In (l, n, Some t) items -> no_brace t.
Section Pos.
  Context {V : Type}.
  Variable format : V -> str -> res str.
  Variable args : list V.
  (** each field is replaced by the argument with its number, or by the next one *)
  Fixpoint pfill (i : nat) (items : list pitem) (last : str) : res str :=
    match items with
    | [] => Ok last
    | (l, n, p) :: items' =>
        do v <- match nth_error args (match n with None => i | Some n => n end) with Some v => Ok v | None => Err EIndex end;
        do o <- format v (match p with None => [] | Some t => t end);
        do t <- pfill (S i) items' last;
        Ok (l ++ o ++ t)
    end.
End Pos.
