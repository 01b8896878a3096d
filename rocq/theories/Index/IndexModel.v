(** Model of /repo/python/virgo/database/index_trees.py. Node and descendant indexes
    and snapshot numbers are integers; overflow of the integer types and unsigned types
    (for which -ones_like is not -1) are not modelled. Masses are exact (see below). *)
From Verif.Base Require Import Prelude Order.
From Verif.Util Require Import UMatchModel.
Local Open Scope Z_scope.

(** [l[i] = x], with Python's rule for negative indexes and its IndexError *)
Definition py_set {A} (l : list A) (i : Z) (x : A) : res (list A) :=
  let j := if i <? 0 then i + zlen l else i in
  if (j <? 0) || (zlen l <=? j) then Err EIndex else Ok (set_nth l (Z.to_nat j) x).

Fixpoint foldM {S A} (f : S -> A -> res S) (l : list A) (s : S) : res S :=
  match l with
  | [] => Ok s
  | a :: l' => do s' <- f s a; foldM f l' s'
  end.

(** -np.ones_like(l) *)
Definition minus_ones {A} (l : list A) : list Z := map (fun _ => -1) l.

(** ** depth_first_index (lines 10-116) *)

(** body of the loop over possible progenitors (lines 32-46) *)
Definition link (desc_ptr : list Z) (s : list Z * list Z) (iprog : Z) : res (list Z * list Z) :=
  let (prog_ptr, next_ptr) := s in
  do idesc <- py_nth desc_ptr iprog;                    (* line 33 *)
  if 0 <=? idesc then
    do first <- py_nth prog_ptr idesc;
    if first =? -1 then                                 (* lines 39-41 *)
      do prog_ptr <- py_set prog_ptr idesc iprog; Ok (prog_ptr, next_ptr)
    else                                                (* lines 42-46 *)
      let itmp := first in
      do prog_ptr <- py_set prog_ptr idesc iprog;
      do next_ptr <- py_set next_ptr iprog itmp;
      Ok (prog_ptr, next_ptr)
  else Ok (prog_ptr, next_ptr).

(** The walk over one tree (lines 56-90) as steps between the points of its loops. *)
Inductive pc : Type :=
| PAssign   (* line 62: start of the body of the outer while loop *)
| PDown     (* line 67: test of the loop going to first progenitors *)
| PUp       (* line 76: test of the loop going back up *)
| PCheck.   (* line 89 *)

Record walker : Type := { w_pc : pc; w_halo : Z; w_stack : list Z; w_index : list Z; w_next : Z }.

(** one step; the right of the sum means that the outer loop has been left *)
Definition walk_step (prog_ptr next_ptr desc_ptr : list Z) (ifinal : Z) (w : walker) : res (walker + (list Z * Z)) :=
  match w_pc w with
  | PAssign => (* lines 62-63 *)
      do df <- py_set (w_index w) (w_halo w) (w_next w);
      Ok (inl {| w_pc := PDown; w_halo := w_halo w; w_stack := w_stack w; w_index := df; w_next := w_next w + 1 |})
  | PDown => (* lines 67-72 *)
      do p <- py_nth prog_ptr (w_halo w);
      if 0 <=? p then
        do nx <- py_nth next_ptr p;
        do df <- py_set (w_index w) p (w_next w);
        Ok (inl {| w_pc := PDown; w_halo := p; w_stack := nx :: w_stack w; w_index := df; w_next := w_next w + 1 |})
      else Ok (inl {| w_pc := PUp; w_halo := w_halo w; w_stack := w_stack w; w_index := w_index w; w_next := w_next w |})
  | PUp => (* lines 76-86 *)
      do d <- py_nth desc_ptr (w_halo w);
      if 0 <=? d then
        match w_stack w with
        | [] => Err EIndex (* pop from empty list *)
        | isibling :: rest =>
            if 0 <=? isibling then
              do nx <- py_nth next_ptr isibling;
              Ok (inl {| w_pc := PCheck; w_halo := isibling; w_stack := nx :: rest; w_index := w_index w; w_next := w_next w |})
            else Ok (inl {| w_pc := PUp; w_halo := d; w_stack := rest; w_index := w_index w; w_next := w_next w |})
        end
      else Ok (inl {| w_pc := PCheck; w_halo := w_halo w; w_stack := w_stack w; w_index := w_index w; w_next := w_next w |})
  | PCheck => (* lines 89-90 *)
      if w_halo w =? ifinal then Ok (inr (w_index w, w_next w))
      else Ok (inl {| w_pc := PAssign; w_halo := w_halo w; w_stack := w_stack w; w_index := w_index w; w_next := w_next w |})
  end.

(** running out of [fuel] is the error EFuel, which the theorems exclude *)
Fixpoint walk (prog_ptr next_ptr desc_ptr : list Z) (ifinal : Z) (fuel : nat) (w : walker) : res (list Z * Z) :=
  match fuel with
  | O => Err EFuel
  | S fuel =>
      do s <- walk_step prog_ptr next_ptr desc_ptr ifinal w;
      match s with
      | inl w' => walk prog_ptr next_ptr desc_ptr ifinal fuel w'
      | inr out => Ok out
      end
  end.

Definition walk_tree (prog_ptr next_ptr desc_ptr : list Z) (s : list Z * Z) (ifinal : Z) : res (list Z * Z) :=
  walk prog_ptr next_ptr desc_ptr ifinal (5 * length desc_ptr + 5)
    {| w_pc := PAssign; w_halo := ifinal; w_stack := [-1]; w_index := fst s; w_next := snd s |}.

(** np.where(desc_ptr < 0)[0] (line 54) *)
Definition final_halos (desc_ptr : list Z) : list Z := np_mask (zseq 0 (length desc_ptr)) (map (fun d => d <? 0) desc_ptr).

(** body of the loop of lines 97-104 on (endMainBranch, lastProgenitor) *)
Definition update_ends (prog_ptr desc_ptr : list Z) (s : list Z * list Z) (iprog : Z) : res (list Z * list Z) :=
  let (endm, lastp) := s in
  do idesc <- py_nth desc_ptr iprog;
  if 0 <=? idesc then
    do a <- py_nth lastp iprog; do b <- py_nth lastp idesc;
    do lastp <- py_set lastp idesc (Z.max a b);          (* line 101 *)
    do first <- py_nth prog_ptr idesc;
    if first =? iprog then                               (* lines 103-104 *)
      do a <- py_nth endm iprog; do b <- py_nth endm idesc;
      do endm <- py_set endm idesc (Z.max a b);
      Ok (endm, lastp)
    else Ok (endm, lastp)
  else Ok (endm, lastp).

Section Dfi.
  Context {M : Type} (Od : TOrd M).
  (** [node_order] is the result of argsort(nodeIndex) inside match, [mass_order] that of
      np.argsort(mBranch) and [index_order l] that of np.argsort(l): none of them is a
      stable sort *)
  Definition depth_first_index (node_order mass_order : list Z) (index_order : list Z -> list Z) (nodeIndex descendantIndex : list Z) (mBranch : list M)
      : res (list Z * list Z * list Z) :=
    do desc_ptr <- match_ ZOrd node_order false None descendantIndex nodeIndex;       (* line 23 *)
    do (prog_ptr, next_ptr) <- foldM (link desc_ptr) mass_order (minus_ones desc_ptr, minus_ones desc_ptr); (* 27-46 *)
    do (depthFirst, _) <- foldM (walk_tree prog_ptr next_ptr desc_ptr) (final_halos desc_ptr) (minus_ones descendantIndex, 1); (* 49-90 *)
    do (endMainBranch, lastProgenitor) <-
       foldM (update_ends prog_ptr desc_ptr) (index_order (map Z.opp depthFirst)) (depthFirst, depthFirst); (* 93-104 *)
    do _ <- check (forallb (fun x => 0 <=? x) endMainBranch) EAssert;                 (* lines 107-113 *)
    do _ <- check (forallb (fun x => 0 <=? x) lastProgenitor) EAssert;
    do _ <- check (forallb (fun x => 0 <=? x) depthFirst) EAssert;
    do _ <- check (forallb (fun ab => snd ab <=? fst ab) (combine lastProgenitor endMainBranch)) EAssert;
    do _ <- check (forallb (fun ab => snd ab <=? fst ab) (combine endMainBranch depthFirst)) EAssert;
    Ok (depthFirst, endMainBranch, lastProgenitor).
End Dfi.

(** ** Branch masses (lines 119-241) *)

(** np.lexsort((-nodeIndex, snapnum)): by snapnum, then by -nodeIndex; a stable sort *)
Definition lexsort2 (minor major : list Z) : res (list Z) :=
  let i1 := argsort ZOrd minor in
  do m <- np_take major i1;
  np_take i1 (argsort ZOrd m).

(** find_progenitor_tree_mass (163-197). Masses are exact numbers, here integers (any
    finite set of rational masses becomes integer on changing the unit); rounding is not
    modelled. [node_order l] is argsort(l) inside match; mdesc (lines 183-184) is unused
    and left out. *)
Definition add_mass (ptr : list Z) (mbranch : list Z) (i : Z) : res (list Z) :=
  do p <- py_nth ptr i;
  if 0 <=? p then
    do a <- py_nth mbranch p; do b <- py_nth mbranch i; py_set mbranch p (a + b)
  else Ok mbranch.

Definition find_progenitor_tree_mass (node_order : list Z -> list Z) (junk nodeIndex descendantIndex snapnum mass : list Z) : res (list Z) :=
  let n := length nodeIndex in
  do idx <- lexsort2 (map Z.opp nodeIndex) snapnum;
  do ni <- np_take nodeIndex idx;
  do di <- np_take descendantIndex idx;
  do mbranch <- np_take mass idx;
  do ptr <- match_ ZOrd (node_order ni) false None di ni;
  do mbranch <- foldM (add_mass ptr) (zseq 0 n) mbranch;
  Ok (np_put junk idx mbranch).

(** find_progenitor_branch_mass_delucia (200-241) *)
Definition delucia_step (ptr mdesc : list Z) (mbranch : list Z) (i : Z) : res (list Z) :=
  do p <- py_nth ptr i;
  if 0 <=? p then
    do desc_mbranch <- py_nth mbranch p;
    do md <- py_nth mdesc i; do mb <- py_nth mbranch i;
    let prog_mbranch := md + mb in
    if desc_mbranch <? prog_mbranch then py_set mbranch p prog_mbranch else Ok mbranch
  else Ok mbranch.

Definition find_progenitor_branch_mass_delucia (node_order : list Z -> list Z) (junk nodeIndex descendantIndex snapnum mass : list Z) : res (list Z) :=
  let n := length nodeIndex in
  do idx <- lexsort2 (map Z.opp nodeIndex) snapnum;
  do ni <- np_take nodeIndex idx;
  do di <- np_take descendantIndex idx;
  do mbranch <- np_take mass idx;
  do ptr <- match_ ZOrd (node_order ni) false None di ni;
  do mdesc <- mapM (fun p => if 0 <=? p then py_nth mbranch p else Ok 0) ptr;     (* lines 222-223 *)
  do mbranch <- foldM (delucia_step ptr mdesc) (zseq 0 n) mbranch;
  Ok (np_put junk idx mbranch).

(** find_main_progenitor (119-160). [close x m] is the test abs(x-m)/x < 1e-5 of line 155;
    min_prog_snap is not returned and left out. *)
Section MainProg.
  Context (close : Z -> Z -> bool).
  Definition main_step (nodeIndex mbranch ptr : list Z) (s : list Z * list Z) (i : Z) : res (list Z * list Z) :=
    let (mbranch_max, mainprog) := s in
    do j <- py_nth ptr i;
    if 0 <=? j then
      do mi <- py_nth mbranch i; do mj <- py_nth mbranch_max j;
      if mj <? mi then
        do mbranch_max <- py_set mbranch_max j mi;
        do ni <- py_nth nodeIndex i;
        do mainprog <- py_set mainprog j ni;
        Ok (mbranch_max, mainprog)
      else Ok (mbranch_max, mainprog)
    else Ok (mbranch_max, mainprog).

  Definition tie_step (mbranch ptr mbranch_max : list Z) (ntie : list Z) (i : Z) : res (list Z) :=
    do j <- py_nth ptr i;
    if 0 <=? j then
      do mi <- py_nth mbranch i; do mj <- py_nth mbranch_max j;
      if close mi mj then do t <- py_nth ntie j; py_set ntie j (t + 1) else Ok ntie
    else Ok ntie.

  Definition find_main_progenitor (node_order nodeIndex descendantIndex snapnum mbranch : list Z) : res (list Z * list Z) :=
    do idx <- lexsort2 (map Z.opp nodeIndex) snapnum;                               (* line 133 *)
    do ptr <- match_ ZOrd node_order false None descendantIndex nodeIndex;          (* line 136 *)
    do (mbranch_max, mainprog) <- foldM (main_step nodeIndex mbranch ptr) idx (map (fun _ => 0) mbranch, minus_ones nodeIndex); (* 139-147 *)
    do ntie <- foldM (tie_step mbranch ptr mbranch_max) idx (map (fun _ => 0) nodeIndex); (* 151-156 *)
    let ntie := map (fun t => t - 1) ntie in
    Ok (map (fun t => if t <? 0 then 0 else t) ntie, mainprog).                     (* lines 157-160 *)
End MainProg.
