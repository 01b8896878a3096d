(** What the properties of the HDF5 wrapper for Fortran say, apart from how the wrapper works. *)
From Coq Require Import Ascii String.
From Verif Require Import Base.Prelude Text.StrModel H5w.H5wModel.
Local Open Scope Z_scope.
Local Open Scope list_scope.

(** ** File handles *)
Definition ro_of (r : option bool) : bool := match r with Some true => true | _ => false end.
(** the file a handle stands for, and whether it was opened for reading only, told from the calls made so far (the last one first): a handle stands for the
    file it was last given out for, until it is closed *)
Fixpoint current (t : list (call * result)) (h : Z) : option (str * bool) :=
  match t with
  | [] => None
  | (COpen f r, RHandle k) :: t' => if k =? h then Some (trim f, ro_of r) else current t' h
  | (CCreate f, RHandle k) :: t' => if k =? h then Some (trim f, false) else current t' h
  | (CClose k, _) :: t' => if k =? h then None else current t' h
  | _ :: t' => current t' h
  end.
(** the handle the next file is given *)
Definition lowest_free (t : list (call * result)) (h : Z) : Prop :=
  1 <= h <= 1000 /\ current t h = None /\ forall k, 1 <= k < h -> current t k <> None.
(** the handle a call names, for all calls but those which open files *)
Definition handle_of (c : call) : option Z :=
  match c with
  | COpen _ _ | CCreate _ => None
  | CClose h | CFileId h | CGroup h _ | CRead h _ _ _ _ | CWrite h _ _ _ | CReadAttr h _ _ | CWriteAttr h _ _ _
  | CDims h _ | CType h _ | CListDatasets h _ _ _ | CListGroups h _ _ _ | CListAttributes h _ _ _ => Some h
  end.
(** the calls which change a file *)
Definition writes (c : call) : bool := match c with CGroup _ _ | CWrite _ _ _ _ | CWriteAttr _ _ _ _ => true | _ => false end.
(** the contents of all files but one are as before *)
Definition others_same (f : str) (s s' : wst) : Prop := forall g, g <> f -> assoc g (disk s') = assoc g (disk s).
(** a file has been opened *)
Fixpoint opened (t : list (call * result)) : bool :=
  match t with [] => false | (COpen _ _, _) :: _ | (CCreate _, _) :: _ => true | _ :: t' => opened t' end.
Definition some_free (t : list (call * result)) : Prop := exists h, 1 <= h <= 1000 /\ current t h = None.
(** when a file can be opened, and when it can be created *)
Definition can_open (t : list (call * result)) (s : wst) (f : str) (ro : bool) : Prop :=
  exists d, assoc f (disk s) = Some d /\ (ro = false -> writable d = true /\ forall h, current t h <> Some (f, true)).
Definition can_create (t : list (call * result)) (s : wst) (f : str) : Prop :=
  (forall h ro, current t h <> Some (f, ro)) /\ (forall d, assoc f (disk s) = Some d -> writable d = true).

(** ** Arrays *)
Definition index_in (dims idx : list Z) : Prop := Forall2 (fun d i => 0 <= i < d) dims idx.
(** the coordinates along the dimensions above 1 *)
Fixpoint squeeze (dims idx : list Z) : list Z :=
  match dims, idx with d :: ds, i :: is => if 1 <? d then i :: squeeze ds is else squeeze ds is | _, _ => [] end.
(** the element with this index in an array stored with the first dimension varying fastest *)
Definition elem (dims : list Z) (data : list elt) (idx : list Z) : option elt := nth_error data (Z.to_nat (offset dims idx)).
(** an array has as many elements as its dimensions say *)
Definition full (dims : list Z) (data : list elt) : Prop := zlen data = prod dims.
Definition positive (dims : list Z) : Prop := Forall (fun d => 1 <= d) dims.
(** an element of a part with dimensions [count] corresponds to the element of an array with dimensions [mdims] which has the same coordinates along the
    dimensions above 1 *)
Definition pairs (count mdims : list Z) (i j : list Z) : Prop := index_in count i /\ index_in mdims j /\ squeeze count i = squeeze mdims j.
Definition shifted (start i : list Z) : list Z := zipwith (fun s x => s - 1 + x) start i.
(** the dimensions above 1 of the array are in order at least as large as those of the part *)
Definition roomy (mdims count : list Z) : Prop := Forall2 (fun m c => c <= m) (filter (fun d => 1 <? d) mdims) (filter (fun d => 1 <? d) count).
(** the part lies in the array *)
Definition inside (dims start count : list Z) : Prop := Forall2 (fun d sc => 1 <= fst sc /\ fst sc + snd sc - 1 <= d) dims (combine start count).

(** ** Names *)
(** the name of a member of a group *)
Definition good_part (c : str) : Prop := c <> [] /\ ~ In slash c /\ c <> lit "." /\ hd "x"%char c <> " "%char /\ last c "x"%char <> " "%char.
Fixpoint spell (p : list str) : str := match p with [] => [] | [c] => c | c :: r => c ++ slash :: spell r end.
(** a name for the path [p]: the parts with slashes between them, perhaps a slash in front, and blanks at the end *)
Definition names (n : str) (p : list str) : Prop :=
  p <> [] /\ Forall good_part p /\ exists k, n = spell p ++ repeat " "%char k \/ n = slash :: spell p ++ repeat " "%char k.
(** where a path leads *)
Inductive leads (h : list obj) : nat -> list str -> nat -> Prop :=
| leads_here a : leads h a [] a
| leads_on a o l c b p z : nth_error h a = Some o -> o_node o = Group l -> In (c, b) l -> leads h b p z -> leads h a (c :: p) z.
Definition dataset_at (h : list obj) (p : list str) (d : dset) : Prop := exists a o, leads h 0 p a /\ nth_error h a = Some o /\ o_node o = Dset d.
Definition group_at (h : list obj) (p : list str) : Prop := exists a o l, leads h 0 p a /\ nth_error h a = Some o /\ o_node o = Group l.
(** a sound file: the root is a group, the names in a group differ and lead to objects, and arrays have as many elements as their dimensions say *)
Definition sound_obj (n : nat) (o : obj) : Prop :=
  match o_node o with
  | Group l => NoDup (map fst l) /\ Forall (fun e => (snd e < n)%nat) l
  | Dset d => Forall (fun x => 0 <= x) (d_dims d) /\ full (d_dims d) (d_data d) /\ List.length (d_max d) = List.length (d_dims d)
  end /\ NoDup (map fst (o_attrs o)) /\ Forall (fun e => full (a_dims (snd e)) (a_data (snd e))) (o_attrs o).
Definition sound (h : list obj) : Prop := (exists o l, nth_error h 0 = Some o /\ o_node o = Group l) /\ Forall (sound_obj (List.length h)) h.
Definition sound_files (s : wst) : Prop := forall f d, assoc f (disk s) = Some d -> sound (heap d).
(** the arrays a program passes *)
Definition sound_arr (a : marr) : Prop := Forall (fun x => 0 <= x) (m_dims a) /\ full (m_dims a) (m_buf a).
Definition sound_call (c : call) : Prop := match c with CWrite _ _ a _ | CWriteAttr _ _ a _ | CRead _ _ a _ _ | CReadAttr _ _ a => sound_arr a | _ => True end.

(** ** Programs *)
(** the file of the dataset which was last read, if no handle of that file has been closed since *)
Fixpoint kept (t : list (call * result)) : option str :=
  match t with
  | [] => None
  | (CRead h _ _ _ _, _) :: t' => option_map fst (current t' h)
  | (CClose h, _) :: t' =>
      match kept t', current t' h with Some f, Some (g, _) => if str_eqb f g then None else Some f | k, _ => k end
  | _ :: t' => kept t'
  end.
(** a program which passes proper arrays and names of files and datasets of at most 1000 characters, and does not overwrite datasets of a file while the file
    is the one last read *)
Definition short (f : str) : Prop := (List.length (trim f) <= 1000)%nat /\ hd "x"%char f <> " "%char.
Definition calm_call (t : list (call * result)) (c : call) : Prop :=
  sound_call c /\
  match c with
  | COpen f _ | CCreate f => short f
  | CRead _ n _ _ _ => (exists p, names n p) /\ (List.length (trim n) <= 1000)%nat
  | CWrite h _ _ o => w_overwrite o = Some true -> forall f ro, current t h = Some (f, ro) -> kept t <> Some f
  | _ => True
  end.
Fixpoint calm (t : list (call * result)) : Prop := match t with [] => True | (c, _) :: t' => calm_call t' c /\ calm t' end.

(** ** Reading *)
(** an element of a dataset in the type of the array: numbers as they are, strings cut or with blanks added *)
Definition as_type (t : ty) (e : elt) : elt := match t_class t with CString => firstn (Z.to_nat (t_size t)) (e ++ repeat 32 (Z.to_nat (t_size t))) | _ => e end.
Definition type_fits (from to : ty) : Prop :=
  t_class from = t_class to /\ (t_class to = CString -> t_size from <= t_size to) /\ (t_class to <> CString -> t_size from = t_size to).
(** the part of the dataset a call asks for: first elements and numbers of elements along each dimension *)
Definition part (dims : list Z) (start count : option (list Z)) : list Z * list Z :=
  match start, count with
  | Some st, Some ct => (firstn (List.length dims) st, firstn (List.length dims) ct)
  | _, _ => (map (fun _ => 1) dims, dims)
  end.
Definition both_long (dims : list Z) (start count : option (list Z)) : Prop :=
  match start, count with Some st, Some ct => dims <> [] /\ (List.length dims <= List.length st)%nat /\ (List.length dims <= List.length ct)%nat | None, None => True | _, _ => False end.
Definition can_read (d : dset) (arr : marr) (start count : option (list Z)) : Prop :=
  both_long (d_dims d) start count /\ type_fits (d_ty d) (m_ty arr) /\ roomy (m_dims arr) (snd (part (d_dims d) start count)) /\
  inside (d_dims d) (fst (part (d_dims d) start count)) (snd (part (d_dims d) start count)).
(** the array holds the part of the dataset, and what it held before where the part has no element *)
Definition filled (d : dset) (arr : marr) (start count : option (list Z)) (b : list elt) : Prop :=
  zlen b = zlen (m_buf arr) /\
  (forall i j, pairs (snd (part (d_dims d) start count)) (m_dims arr) i j ->
     exists e, elem (d_dims d) (d_data d) (shifted (fst (part (d_dims d) start count)) i) = Some e /\ elem (m_dims arr) b j = Some (as_type (m_ty arr) e)) /\
  (forall j, index_in (m_dims arr) j -> (forall i, ~ pairs (snd (part (d_dims d) start count)) (m_dims arr) i j) -> elem (m_dims arr) b j = elem (m_dims arr) (m_buf arr) j).

(** ** What is in a file *)
Inductive thing := AGroup | ADset (d : dset).
Definition kind (n : node) : thing := match n with Group _ => AGroup | Dset d => ADset d end.
(** at a path there is a group or a dataset with these attributes *)
Definition holds (h : list obj) (p : list str) (x : thing) (l : list (str * attr)) : Prop :=
  exists a o, leads h 0 p a /\ nth_error h a = Some o /\ kind (o_node o) = x /\ o_attrs o = l.
Definition nothing_at (h : list obj) (p : list str) : Prop := forall x l, ~ holds h p x l.
(** an object has one path *)
Definition tree (h : list obj) : Prop := forall p q a, leads h 0 p a -> leads h 0 q a -> p = q.
Definition tree_files (s : wst) : Prop := forall f d, assoc f (disk s) = Some d -> tree (heap d).
Definition prefix (q p : list str) : Prop := exists r, p = q ++ r.
(** the groups which the path names have been added, and nothing else has changed *)
Definition groups_made (p : list str) (h h' : list obj) : Prop :=
  forall q x l, holds h' q x l <-> holds h q x l \/ (nothing_at h q /\ prefix q p /\ x = AGroup /\ l = []).

(** ** Writing *)
Definition long_enough (rank : nat) (start count : option (list Z)) : Prop :=
  match start, count with Some st, Some ct => (rank <= List.length st)%nat /\ (rank <= List.length ct)%nat | None, None => True | _, _ => False end.
(** the dimensions of a new dataset *)
Definition new_dims (arr : marr) (o : wopts) : list Z :=
  let rank := List.length (m_dims arr) in
  match w_initial o, w_start o, w_count o with
  | Some l, _, _ => firstn rank l
  | None, Some st, Some ct => zipwith (fun a b => a + b - 1) (firstn rank st) (firstn rank ct)
  | None, _, _ => m_dims arr
  end.
Definition one_method (o : wopts) : Prop := forall g, w_gzip o = Some g -> 0 < g -> w_szip o <> Some true.
Definition compressed (o : wopts) : Prop := exists g, w_gzip o = Some g /\ 0 < g /\ g <> 10.
Definition good_chunks (o : wopts) (rank : nat) : Prop := forall l, w_chunk o = Some l -> Forall (fun c => 1 <= c) (firstn rank l).
(** what HDF5 asks for when a dataset is to be compressed or extended *)
Definition can_store (o : wopts) (rank : nat) : Prop :=
  (compressed o -> rank <> 0%nat /\ good_chunks o rank) /\ (w_extensible o <> None -> rank <> 0%nat -> good_chunks o rank).
Definition can_write_new (arr : marr) (o : wopts) : Prop :=
  let rank := List.length (m_dims arr) in
  one_method o /\ long_enough rank (w_start o) (w_count o) /\ (forall l, w_initial o = Some l -> (rank <= List.length l)%nat) /\ can_store o rank /\
  roomy (m_dims arr) (snd (part (new_dims arr o) (w_start o) (w_count o))) /\
  inside (new_dims arr o) (fst (part (new_dims arr o) (w_start o) (w_count o))) (snd (part (new_dims arr o) (w_start o) (w_count o))).
(** the part of the dataset holds the array, and the other elements of the dataset are [old] *)
Definition written (arr : marr) (st ct : list Z) (old : list Z -> elt -> Prop) (r : dset) : Prop :=
  full (d_dims r) (d_data r) /\
  (forall i j, pairs ct (m_dims arr) i j -> exists e, elem (m_dims arr) (m_buf arr) j = Some e /\ elem (d_dims r) (d_data r) (shifted st i) = Some (as_type (d_ty r) e)) /\
  (forall k e, index_in (d_dims r) k -> (forall i, index_in ct i -> shifted st i <> k) -> old k e -> elem (d_dims r) (d_data r) k = Some e).
Definition zero (t : ty) : elt := repeat 0 (Z.to_nat (t_size t)).
(** the new dataset *)
Definition new_written (arr : marr) (o : wopts) (r : dset) : Prop :=
  d_ty r = m_ty arr /\ d_dims r = new_dims arr o /\
  (forall k m, nth_error (d_max r) k = Some m -> m = if w_extensible o then None else nth_error (d_dims r) k) /\
  written arr (fst (part (new_dims arr o) (w_start o) (w_count o))) (snd (part (new_dims arr o) (w_start o) (w_count o))) (fun _ e => e = zero (m_ty arr)) r.
(** the dataset [r] without attributes has come to the path, the groups on the way to it have been added, and nothing else has changed *)
Definition put_dataset (p : list str) (r : dset) (h h' : list obj) : Prop :=
  forall q x l, holds h' q x l <->
    (q = p /\ x = ADset r /\ l = []) \/ (q <> p /\ (holds h q x l \/ (nothing_at h q /\ prefix q p /\ x = AGroup /\ l = []))).
(** nothing but the path and the groups on the way to it may have changed *)
Definition rest_same (p : list str) (h h' : list obj) : Prop :=
  (forall q x l, q <> p -> holds h q x l -> holds h' q x l) /\
  (forall q x l, q <> p -> holds h' q x l -> holds h q x l \/ (nothing_at h q /\ prefix q p /\ x = AGroup /\ l = [])).
(** no dataset is on the way, and no group has the name *)
Definition free_way (h : list obj) (p : list str) : Prop :=
  (forall q d l, prefix q p -> q <> p -> ~ holds h q (ADset d) l) /\ (forall l, ~ holds h p AGroup l).
(** a dataset which is there already is extended for the part if that goes beyond it *)
Definition grown (d : dset) (st ct : list Z) : list Z := zipwith Z.max (d_dims d) (zipwith (fun a b => a + b - 1) (firstn (List.length (d_dims d)) st) (firstn (List.length (d_dims d)) ct)).
Definition can_grow (d : dset) (dims : list Z) : Prop :=
  dims = d_dims d \/ (d_chunked d = true /\ forall k m x, nth_error (d_max d) k = Some (Some m) -> nth_error dims k = Some x -> x <= m).
Definition can_write_part (d : dset) (arr : marr) (o : wopts) (st ct : list Z) : Prop :=
  let rank := List.length (d_dims d) in
  one_method o /\ w_start o = Some st /\ w_count o = Some ct /\ (rank <= List.length st)%nat /\ (rank <= List.length ct)%nat /\ type_fits (m_ty arr) (d_ty d) /\
  Forall (fun z => 1 <= z) (firstn rank st) /\ can_grow d (grown d st ct) /\ roomy (m_dims arr) (firstn rank ct).
(** the elements of the dataset, and zeros beyond it *)
Definition element_or_zero (d : dset) (k : list Z) (e : elt) : Prop :=
  (index_in (d_dims d) k /\ elem (d_dims d) (d_data d) k = Some e) \/ (~ index_in (d_dims d) k /\ e = zero (d_ty d)).
Definition same_kind (d r : dset) : Prop := d_ty r = d_ty d /\ d_max r = d_max d /\ d_chunked r = d_chunked d.
Definition part_written (d : dset) (arr : marr) (st ct : list Z) (r : dset) : Prop :=
  same_kind d r /\ d_dims r = grown d st ct /\ written arr (firstn (List.length (d_dims d)) st) (firstn (List.length (d_dims d)) ct) (element_or_zero d) r.
(** at most extended *)
Definition still_there (d r : dset) : Prop :=
  same_kind d r /\ Forall2 Z.le (d_dims d) (d_dims r) /\ full (d_dims r) (d_data r) /\ forall k e, index_in (d_dims r) k -> element_or_zero d k e -> elem (d_dims r) (d_data r) k = Some e.
(** the dataset has become [r], and nothing else has changed *)
Definition dataset_changed (p : list str) (r : dset) (a : list (str * attr)) (h h' : list obj) : Prop :=
  forall q x l, holds h' q x l <-> (q = p /\ x = ADset r /\ l = a) \/ (q <> p /\ holds h q x l).
