(** Model of the small collective helpers of /repo/python/virgo/mpi/util.py. *)
From Verif.Base Require Import Prelude NdArray.
Local Open Scope Z_scope.

(** *** broadcast_dtype_and_dims and replace_none_with_zero_size (lines 43-104) *)
Section Arrays.
  Context {D A : Type}.
  (** an array is its dtype, shape and contents; None where a rank has none *)
  Definition arr : Type := option (D * nd A).

  (** lines 62-65 and 67-70: [for x in gathered: if x is not None and mine is None: mine = x] *)
  Definition fill {X} (mine : option X) (gathered : list (option X)) : option X :=
    fold_left (fun cur x => match x, cur with Some _, None => x | _, _ => cur end) gathered mine.
  (** lines 43-74 on a rank holding [mine] *)
  Definition broadcast_dtype_and_dims (all : list arr) (mine : arr) : option D * option (list nat) :=
    let dtype : arr -> option D := option_map fst in
    let dims : arr -> option (list nat) := option_map (fun x => tl (shape (snd x))) in
    (fill (dtype mine) (map dtype all), fill (dims mine) (map dims all)).
  (** lines 77-104 on a rank holding [mine]; list(None) is a TypeError *)
  Definition replace_none_on (all : list arr) (mine : arr) : res arr :=
    match broadcast_dtype_and_dims all mine with
    | (None, _) => Ok None
    | (Some dt, dims) =>
      match mine with
      | Some a => Ok (Some a)
      | None => match dims with
                | Some s => Ok (Some (dt, {| shape := 0%nat :: s; data := [] |}))
                | None => Err EType
                end
      end
    end.
  Definition replace_none_with_zero_size (all : list arr) : res (list arr) := mapM (replace_none_on all) all.
End Arrays.
Arguments arr : clear implicits.

(** *** MPIArgumentParser.parse_args (lines 26-40) *)
Section Parser.
  Context {N : Type}.  (* argparse.Namespace *)
  (** what argparse does with one rank's command line: it returns a namespace, calls
      [error] (which here raises MPIArgumentParserError), or leaves with SystemExit or
      another exception (--help, --version, a failing user callback) *)
  Inductive outcome := Parsed (ns : N) | Bad | Leaves.
  (** what a rank ends up doing: returning from parse_args, MPI.Finalize() followed by
      sys.exit(0), leaving parse_args with argparse's own exception, or waiting for ever in the
      broadcast because rank 0 never calls it *)
  Inductive fate := Returns (ns : N) | Finalizes | Escapes | Waits.
  (** lines 27-40 on a rank, given what rank 0's parsing did: comm.bcast(result) with root 0 *)
  Definition parse_args_on (rank0 mine : outcome) : fate :=
    match mine with
    | Leaves => Escapes
    | _ => match rank0 with
           | Leaves => Waits
           | Parsed ns => Returns ns
           | Bad => Finalizes
           end
    end.
  Definition parse_args (ranks : list outcome) : list fate :=
    map (parse_args_on (nth 0 ranks Leaves)) ranks.
  (** lines 21-24: which ranks write the error message *)
  Definition messages (ranks : list outcome) : list nat :=
    filter (fun r => match nth r ranks Leaves with Bad => (r =? 0)%nat | _ => false end) (seq 0 (length ranks)).
End Parser.
Arguments outcome : clear implicits.
Arguments fate : clear implicits.
