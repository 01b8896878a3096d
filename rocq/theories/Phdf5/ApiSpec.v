(** What the whole interface of MultiFile should do. *)
From Coq Require Import Ascii String Sorted.
From Verif.Base Require Import Prelude.
From Verif.Phdf5 Require Import CollModel MultiSpec ApiModel.
Local Open Scope Z_scope.
Local Open Scope list_scope.

(** *** names of groups and datasets *)
Fixpoint has_slash (s : string) : bool := match s with EmptyString => false | String c s' => Ascii.eqb c "/" || has_slash s' end.
Definition component (c : string) : Prop := c <> ""%string /\ c <> "."%string /\ has_slash c = false.
(** the argument [group] names the group at [gp] *)
Definition group_at (gp : list string) (group : option string) : Prop :=
  Forall component gp /\
  ((gp = [] /\ group = None) \/ group = Some (String.concat "/" gp) \/ group = Some (String "/" (String.concat "/" gp))).

Section Spec.
  Context {A V : Type}.
  (** the dataset [n] in group [gp] of a file: its contents and attributes, or nothing *)
  Definition stored (f : h5file A V) (gp : list string) (n : string) (o : option (dset A * attrs V)) : Prop :=
    match o with
    | Some (d, a) => (exists ga, f gp = Some (NGroup ga)) /\ f (gp ++ [n]) = Some (NData d a)
    | None => (f gp = None /\ gp <> []) \/ ((exists ga, f gp = Some (NGroup ga)) /\ f (gp ++ [n]) = None)
    end.
  Definition content : Type := list (option (dset A * attrs V)).
  Definition dsets (c : content) : list (option (dset A)) := map (option_map fst) c.

  (** the attributes of the first of the files [fs] that has the dataset *)
  Definition first_with (c : content) (fs : list nat) (a : attrs V) : Prop :=
    exists l f l' d, fs = l ++ f :: l' /\ nth f c None = Some (d, a) /\ forall g, In g l -> nth g c None = None.
  (** the attributes of rank [r]: those of the first of its own files that has the dataset; if none
      has, those of the first of all files. [own] says which files each rank reads. *)
  Definition attrs_right (c : content) (own : list (list nat)) (r : nat) (a : attrs V) : Prop :=
    first_with c (nth r own []) a \/
    ((forall f, In f (nth r own []) -> nth f c None = None) /\ first_with c (seq 0 (length c)) a).
  (** the ranks read the files in order, every file is read, and the rows of a rank come from its files *)
  Definition reads_files (F P : nat) (idx : list Z) (own : list (list nat)) (tags : list (list Z)) : Prop :=
    length own = P /\ Sorted le (concat own) /\ (forall f, In f (concat own) <-> (f < F)%nat) /\
    forall r t, In t (nth r tags []) -> exists f, In f (nth r own []) /\ t = nth f idx 0.

  (** what the ranks get for one dataset *)
  Definition distributed (c : content) (idx : list Z) (P : nat) (ndt : Z) (dims : list Z) (with_attrs : bool)
      (l : list (option (array A V) * option (list Z))) : Prop :=
    length l = P /\
    ((forall o, In o c -> o = None) -> l = repeat (None, None) P) /\
    ((exists o, In (Some o) c) ->
      exists (rows : list (list A)) (tags : list (list Z)) (ats : list (option (attrs V))),
        length rows = P /\ length tags = P /\ length ats = P /\
        concat rows = all_rows (dsets c) /\ concat tags = all_tags idx (dsets c) /\
        (forall r, length (nth r tags []) = length (nth r rows [])) /\
        (forall r, (r < P)%nat -> nth r l (None, None) =
           (Some {| a_data := {| d_dtype := ndt; d_dims := dims; d_rows := nth r rows [] |}; a_attrs := nth r ats None |}, Some (nth r tags []))) /\
        if with_attrs
        then exists own, reads_files (length c) P idx own tags /\
             forall r, (r < P)%nat -> exists a, nth r ats None = Some a /\ attrs_right c own r a
        else forall r, nth r ats None = None).

  (** the form of the result: one thing, a list, or a dict *)
  Definition gives {X} (datasets : names) (unpack : bool) (g : string -> X) (v : value X) : Prop :=
    match datasets, v with
    | One n, VOne x => x = g n
    | Many l, VList xs => unpack = true /\ xs = map g l
    | Many l, VDict m => unpack = false /\ NoDup (map fst m) /\ forall n x, In (n, x) m <-> In n l /\ x = g n
    | _, _ => False
    end.
  (** the dict of file numbers: names that were not read can be in it with None *)
  Definition gives_nr {X} (datasets : names) (unpack : bool) (rn : list string) (g : string -> option X) (v : value (option X)) : Prop :=
    match datasets, v with
    | Many l, VDict m => unpack = false /\ NoDup (map fst m) /\
        (forall n x, In n l -> (In (n, x) m <-> In n rn /\ x = g n)) /\ (forall n x, ~ In n l -> In (n, x) m -> In n rn /\ x = None)
    | _, _ => gives datasets unpack g v
    end.
  (** the file numbers are asked for in a way that makes sense *)
  Definition nr_sensible (datasets : names) (unpack : bool) (return_file_nr : option (list string)) : Prop :=
    match return_file_nr, datasets with
    | None, _ => True
    | Some rn, One n => In n rn
    | Some rn, Many l => unpack = true -> incl l rn
    end.

  (** *** writing *)
  (** the file that is written to, for each mode *)
  Definition base_file (m : mode) (old : option (h5file A V)) : option (h5file A V) :=
    match m, old with
    | W, _ => Some empty_file
    | Append, Some f | RPlus, Some f => Some f
    | Append, None | Excl, None => Some empty_file
    | RPlus, None | Excl, Some _ => None
    end.
  Definition prefix (p q : list string) : Prop := exists r, q = p ++ r.
  (** there can be a group at [gp], and the names are free in it *)
  Definition room (f : h5file A V) (gp : list string) (l : list string) : Prop :=
    (exists a, f [] = Some (NGroup a)) /\
    (forall p, prefix p gp -> f p = None \/ exists a, f p = Some (NGroup a)) /\ (forall n, In n l -> f (gp ++ [n]) = None).
  (** [f'] is [f] with the datasets [ds] put in group [gp]; nothing else is changed except that the group
      is there *)
  Definition written (f f' : h5file A V) (gp : list string) (ds : list (string * (dset A * attrs V))) : Prop :=
    (exists a, f' gp = Some (NGroup a)) /\
    (forall n d a, In (n, (d, a)) ds -> f' (gp ++ [n]) = Some (NData d a)) /\
    (forall p, (forall n, In n (map fst ds) -> p <> gp ++ [n]) ->
       f' p = f p \/ (f p = None /\ prefix p gp /\ f' p = Some (NGroup []))).
End Spec.

(** the array of every rank for the name [n], out of the dicts that read returned *)
Definition picked {A V X} (out : list (value (option (array A V)) * X)) (n : string) : list (option (dset A)) :=
  map (fun vw => match fst vw with
                 | VDict m => match find (fun kx => String.eqb (fst kx) n) m with Some (_, Some a) => Some (a_data a) | _ => None end
                 | _ => None
                 end) out.
(** the attributes given for the name [n] *)
Definition attrs_given {V} (at_ : option (list (string * attrs V))) (n : string) (a : attrs V) : Prop :=
  match at_ with
  | None => a = []
  | Some d => NoDup (map fst d) /\ (In (n, a) d \/ (~ In n (map fst d) /\ a = []))
  end.
Definition picked_attrs {A V X} (out : list (value (option (array A V)) * X)) (n : string) : list (option (attrs V)) :=
  map (fun vw => match fst vw with
                 | VDict m => match find (fun kx => String.eqb (fst kx) n) m with Some (_, Some a) => a_attrs a | _ => None end
                 | _ => None
                 end) out.
(** the files hold [c] under the name [n] in group [gp] *)
Definition holds {A V} (files : list (h5file A V)) (gp : list string) (n : string) (c : content) : Prop := Forall2 (fun f o => stored f gp n o) files c.
(** one type and shape everywhere; when ranks share a file a row fits into the buffer *)
Definition fits {A V} (itemsize : Z -> Z) (buffer : Z) (P : nat) (fnames : list string) (dt : Z) (dims : list Z) (c : content (A := A) (V := V)) : Prop :=
  uniform dt dims (dsets c) /\ ((length fnames < P)%nat -> 1 <= itemsize dt * prodZ dims <= buffer).
