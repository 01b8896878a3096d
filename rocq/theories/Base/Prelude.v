(** Common vocabulary of the model: python exceptions as values, python slices,
    the numpy primitives used by the modelled code, and rank-indexed values. *)
From Coq Require Export List ZArith Lia Bool Permutation.
From Coq Require Export Sorting.Sorted.
From Coq Require Import ZifyBool ZifyNat.
Export ListNotations.
Global Open Scope Z_scope.

(** ** Exceptions as values *)

(** The python exception classes that the modelled code can raise, plus
    [EAbort] (comm.Abort()), [EMpi] (an MPI call that cannot complete or is
    erroneous: mismatched counts, truncated message, buffer overrun) and [EFuel]
    (the model's loop bound was exhausted; never a python behaviour). *)
Inductive exn : Type :=
| EValue | EIndex | EKey | EAssert | EIO | ERuntime | EType | EZeroDiv | EName
| EAbort | EMpi | EFuel.

Inductive res (A : Type) : Type :=
| Ok (a : A)
| Err (e : exn).
Arguments Ok {A} a.
Arguments Err {A} e.

Definition bind {A B} (m : res A) (f : A -> res B) : res B :=
  match m with Ok a => f a | Err e => Err e end.
Notation "'do' x <- m ; f" := (bind m (fun x => f))
  (at level 200, x pattern, m at level 100, f at level 200, right associativity).

Definition is_ok {A} (m : res A) : bool := match m with Ok _ => true | Err _ => false end.

(** [if not b: raise e] *)
Definition check (b : bool) (e : exn) : res unit := if b then Ok tt else Err e.

Fixpoint mapM {A B} (f : A -> res B) (l : list A) : res (list B) :=
  match l with
  | [] => Ok []
  | x :: l' => do y <- f x; do ys <- mapM f l'; Ok (y :: ys)
  end.

(** ** Lists and integers *)

Definition zlen {A} (l : list A) : Z := Z.of_nat (length l).

(** python's sum() of a list of ints *)
Fixpoint sumZ (l : list Z) : Z :=
  match l with [] => 0 | x :: l' => x + sumZ l' end.

(** np.arange(n) and range(n) as a list of integers *)
Fixpoint zseq (start : Z) (n : nat) : list Z :=
  match n with O => [] | S n' => start :: zseq (start + 1) n' end.

(** np.cumsum *)
Fixpoint cumsum_from (acc : Z) (l : list Z) : list Z :=
  match l with [] => [] | x :: l' => (acc + x) :: cumsum_from (acc + x) l' end.
Definition cumsum (l : list Z) : list Z := cumsum_from 0 l.

(** elementwise binary operation on arrays of equal length *)
Fixpoint zipwith {A B C} (f : A -> B -> C) (l : list A) (m : list B) : list C :=
  match l, m with
  | a :: l', b :: m' => f a b :: zipwith f l' m'
  | _, _ => []
  end.

(** the idiom [np.cumsum(n) - n]: offset of each block *)
Definition excl_cumsum (l : list Z) : list Z := zipwith Z.sub (cumsum l) l.

(** scalar * array *)
Definition scale (k : Z) (l : list Z) : list Z := map (Z.mul k) l.

(** [l[a:b]] for non-negative a and b (numbers below zero are treated as 0; see
    [pyslice] for python's treatment of negative numbers) *)
Definition zslice {A} (l : list A) (a b : Z) : list A :=
  firstn (Z.to_nat b - Z.to_nat a) (skipn (Z.to_nat a) l).

(** python [l[a:b]], including negative indexes counted from the end *)
Definition pyidx (n a : Z) : Z := if a <? 0 then Z.max 0 (a + n) else Z.min a n.
Definition pyslice {A} (l : list A) (a b : Z) : list A :=
  zslice l (pyidx (zlen l) a) (pyidx (zlen l) b).

(** [buf[off:off+len(data)] = data] for a slice inside the buffer *)
Definition write_at {A} (buf : list A) (off : Z) (data : list A) : list A :=
  firstn (Z.to_nat off) buf ++ data ++ skipn (Z.to_nat off + length data) buf.

(** python / numpy integer indexing [l[i]]: negative indexes count from the end,
    anything out of range is an IndexError *)
Definition py_nth {A} (l : list A) (i : Z) : res A :=
  let j := if i <? 0 then i + zlen l else i in
  if (j <? 0) || (zlen l <=? j) then Err EIndex
  else match nth_error l (Z.to_nat j) with Some a => Ok a | None => Err EIndex end.

(** numpy fancy indexing [l[idx]] *)
Definition np_take {A} (l : list A) (idx : list Z) : res (list A) := mapM (py_nth l) idx.

(** replace one element: [l[i] = x] for i in range *)
Fixpoint set_nth {A} (l : list A) (i : nat) (x : A) : list A :=
  match l, i with
  | [], _ => []
  | _ :: l', O => x :: l'
  | y :: l', S i' => y :: set_nth l' i' x
  end.

(** numpy scatter [l[idx] = vals] for non-negative in-range indexes, in order *)
Definition np_put {A} (l : list A) (idx : list Z) (vals : list A) : list A :=
  fold_left (fun acc iv => set_nth acc (Z.to_nat (fst iv)) (snd iv)) (combine idx vals) l.

(** boolean mask indexing [l[mask]] *)
Fixpoint np_mask {A} (l : list A) (m : list bool) : list A :=
  match l, m with
  | a :: l', b :: m' => if b then a :: np_mask l' m' else np_mask l' m'
  | _, _ => []
  end.

(** ** Rank-indexed values

    A value held by each of the [P] ranks of a communicator is a list of length
    [P]; [spmd P f] is the result of every rank [r] computing [f r]. *)
Definition spmd {B} (P : nat) (f : nat -> B) : list B := map f (seq 0 P).

(** the whole distributed array: the ranks' parts one after the other *)
Definition global {A} (d : list (list A)) : list A := concat d.

(** number of local elements on every rank (comm.allgather(len(arr))) *)
Definition nperproc {A} (d : list (list A)) : list Z := map zlen d.

(** same per-rank sizes *)
Definition same_layout {A B} (d : list (list A)) (e : list (list B)) : Prop :=
  map (@length A) d = map (@length B) e.
