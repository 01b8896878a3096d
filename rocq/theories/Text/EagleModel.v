(** Model of sims/eagle.py: eagle_filename, with the parts of posixpath, glob and
    re that it uses.

    Simplified: a [\[] in a pattern is not given its meaning by fnmatch (it can only
    come from basedir); isnap and ifile are integers. *)
From Coq Require Import Ascii String.
From Verif Require Import Base.Prelude Text.StrModel.
Local Open Scope Z_scope.
Local Open Scope char_scope.
Local Open Scope list_scope.

(** ** posixpath *)
Definition slash : ascii := "/".
Fixpoint lstrip (s : str) : str := match s with c :: s' => if Ascii.eqb c slash then lstrip s' else s | [] => [] end.
Definition rstrip (s : str) : str := rev (lstrip (rev s)).
(** [p.rfind('/') + 1] splits [p] into these two *)
Fixpoint rsplit (p : str) : str * str :=
  match p with
  | [] => ([], [])
  | c :: p' => let (h, t) := rsplit p' in
               match h with
               | [] => if Ascii.eqb c slash then ([c], t) else ([], c :: t)
               | _ => (c :: h, t)
               end
  end.
(** os.path.split *)
Definition path_split (p : str) : str * str :=
  let (h, t) := rsplit p in
  (if forallb (Ascii.eqb slash) h then h else rstrip h, t).
(** os.path.join(a, b) *)
Definition path_join (a b : str) : str :=
  match b with
  | c :: _ => if Ascii.eqb c slash then b
              else match rev a with [] => b | d :: _ => if Ascii.eqb d slash then a ++ b else a ++ slash :: b end
  | [] => match rev a with [] => [] | d :: _ => if Ascii.eqb d slash then a else a ++ [slash] end
  end.

(** ** glob *)
Definition has_magic (s : str) : bool := mem "*" s || mem "?" s || mem "[" s.
(** fnmatch.fnmatchcase(s, pat) *)
Fixpoint fnmatch (pat s : str) : bool :=
  match pat with
  | [] => match s with [] => true | _ => false end
  | c :: pat' =>
      if Ascii.eqb c "*" then
        (fix star (t : str) : bool := fnmatch pat' t || match t with [] => false | _ :: t' => star t' end) s
      else match s with
           | [] => false
           | d :: s' => (Ascii.eqb c "?" || Ascii.eqb c d) && fnmatch pat' s'
           end
  end.
Definition hidden (s : str) : bool := match s with c :: _ => Ascii.eqb c "." | [] => false end.

Section Fs.
  (** the file system: the entries of a directory, each with a flag for
      directories (none if there is no such directory); os.path.lexists and isdir *)
  Record fs := { listdir : str -> list (str * bool); lexists : str -> bool; isdir : str -> bool }.
  Variable F : fs.

  (** glob.glob1 *)
  Definition glob1 (dirname pat : str) (dironly : bool) : list str :=
    filter (fun n => (hidden pat || negb (hidden n)) && fnmatch pat n)
      (map fst (filter (fun e => negb dironly || snd e) (listdir F dirname))).
  (** glob.glob0 *)
  Definition glob0 (dirname base : str) : list str :=
    match base with
    | [] => if isdir F dirname then [base] else []
    | _ => if lexists F (path_join dirname base) then [base] else []
    end.
  (** glob._iglob with recursive=False *)
  Fixpoint iglob (fuel : nat) (p : str) (dironly : bool) : list str :=
    match fuel with
    | O => []
    | S f =>
        let (d, b) := path_split p in
        if negb (has_magic p) then
          match b with
          | [] => if isdir F d then [p] else []
          | _ => if lexists F p then [p] else []
          end
        else match d with
             | [] => glob1 [] b dironly
             | _ =>
                 let dirs := if negb (str_eqb d p) && has_magic d then iglob f d true else [d] in
                 flat_map (fun d' => map (path_join d') (if has_magic b then glob1 d' b dironly else glob0 d' b)) dirs
             end
    end.
  (** glob.glob *)
  Definition glob (p : str) : list str := iglob (S (length p)) p false.

  (** ** the regular expression of line 39 *)
  Definition is_lf (c : ascii) : bool := Ascii.eqb c (ascii_of_nat 10).
  (** dots, digits and extension after the label *)
  Fixpoint take_digits (s : str) : str * str :=
    match s with
    | c :: s' => if is_digit c then let (d, r) := take_digits s' in (c :: d, r) else ([], s)
    | [] => ([], [])
    end.
  Definition tail_ok (s : str) : bool :=
    match s with
    | c :: s' =>
        Ascii.eqb c "." &&
        (let (d, r) := take_digits s' in
         negb (str_eqb d []) && (str_eqb r (lit ".hdf5") || str_eqb r (lit ".hdf5" ++ [ascii_of_nat 10])))
    | [] => false
    end.
  (** the label, if the rest of the name starting here matches *)
  Definition label_here (s : str) : option str :=
    match s with
    | z :: a :: b :: c :: p :: d :: e :: f :: r =>
        if Ascii.eqb z "z" && is_digit a && is_digit b && is_digit c && Ascii.eqb p "p" && is_digit d && is_digit e && is_digit f && tail_ok r
        then Some [z; a; b; c; p; d; e; f] else None
    | _ => None
    end.
  (** re.match(...).group(1): the leading .* takes as much as it can, and does not
      go past a line feed *)
  Fixpoint re_label (s : str) : option str :=
    match s with
    | [] => None
    | c :: s' =>
        match (if is_lf c then None else re_label s') with
        | Some l => Some l
        | None => label_here s
        end
    end.

  (** ** eagle_filename *)
  (** lines 13-22 *)
  Definition dir_names : list (str * str) :=
    [(lit "eagle_subfind_tab", lit "groups");
     (lit "eagle_subfind_snip_tab", lit "groups_snip");
     (lit "group_tab", lit "groups");
     (lit "group_snip_tab", lit "groups_snip");
     (lit "eagle_subfind_particles", lit "particledata");
     (lit "eagle_subfind_snip_particles", lit "particledata_snip");
     (lit "snapshot", lit "snapshot");
     (lit "snipshot", lit "snipshot")].
  Definition dir_of (basename : str) : option str :=
    option_map snd (find (fun kv => str_eqb (fst kv) basename) dir_names).

  Definition key : Type := (str * str * Z)%type.
  Definition key_eqb (a b : key) : bool :=
    str_eqb (fst (fst a)) (fst (fst b)) && str_eqb (snd (fst a)) (snd (fst b)) && Z.eqb (snd a) (snd b).
  (** the default argument [cache], shared between calls *)
  Definition cache : Type := list (key * str).
  Definition lookup (c : cache) (k : key) : option str := option_map snd (find (fun kv => key_eqb (fst kv) k) c).

  (** the format of lines 29 and 33 *)
  Definition fmt_name (basedir dir base : str) (isnap : Z) (z z' : str) (ifile : Z) : str :=
    basedir ++ lit "/" ++ dir ++ lit "_" ++ fmt_0d 3 isnap ++ lit "_" ++ z ++ lit "/" ++
    base ++ lit "_" ++ fmt_0d 3 isnap ++ lit "_" ++ z' ++ lit "." ++ fmt_d ifile ++ lit ".hdf5".

  (** lines 6-43: the name, and the cache afterwards *)
  Definition eagle_filename (c : cache) (basedir base : str) (isnap ifile : Z) : res str * cache :=
    match dir_of base with
    | None => (Err EKey, c)
    | Some dir =>
        let k := (basedir, base, isnap) in
        match lookup c k with
        | Some z => (Ok (fmt_name basedir dir base isnap z z ifile), c)
        | None =>
            match glob (fmt_name basedir dir base isnap (lit "z???p???") (lit "z???p???") ifile) with
            | [fname] =>
                match re_label fname with
                | Some l => (Ok fname, (k, l) :: c)
                | None => (Err EType, c) (* None has no attribute group *)
                end
            | _ => (Err EIO, c)
            end
        end
    end.
  (** the caches between the calls of a sequence *)
  Fixpoint history (c : cache) (calls : list (str * str * Z * Z)) : cache :=
    match calls with
    | [] => c
    | (basedir, base, isnap, ifile) :: calls' => history (snd (eagle_filename c basedir base isnap ifile)) calls'
    end.
End Fs.
