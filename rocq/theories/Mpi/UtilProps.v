(** Property theorems C19 (gather_array), C20 (replace_none_with_zero_size) and
    C57 (MPIArgumentParser). *)
From Verif.Base Require Import Prelude NdArray.
From Verif.Mpi Require Import GatherModel GatherSpec GatherProofs UtilModel UtilProofs.
Local Open Scope Z_scope.

(** C19. gather_array returns, on the root (on all ranks if root is None), the
    concatenation of all ranks' arrays along the axis, and None elsewhere. *)
Theorem C19_gather_array :
  forall (A : Type) (junk : A) (axis : Z) (arrs : list (nd A)) (n k : nat),
  arrs <> [] -> Forall nd_ok arrs -> Forall (fun a => length (shape a) = n) arrs -> (0 < n)%nat ->
  - Z.of_nat n <= axis < Z.of_nat n -> Z.of_nat k = (if axis <? 0 then axis + Z.of_nat n else axis) ->
  (forall a b, In a arrs -> In b arrs -> upd k (fun _ => 0%nat) (shape a) = upd k (fun _ => 0%nat) (shape b)) ->
  forall root, (match root with Some q => q < length arrs | None => True end)%nat ->
  exists outs, gather_array junk root axis arrs = Ok outs /\ length outs = length arrs /\
    forall q o, nth_error outs q = Some o ->
      if match root with Some r => (q =? r)%nat | None => true end
      then exists out, o = Some out /\ concatenation k arrs out else o = None.
Proof. exact @gather_array_ok. Qed.
Print Assumptions C19_gather_array.

(** C20. Ranks with an array keep it; the others get a zero size array with the dtype and
    trailing dimensions of the first rank that has one. *)
Theorem C20_replace_none :
  forall (D A : Type) (all : list (arr D A)) (r : nat) (dt : D) (a : nd A),
  nth_error all r = Some (Some (dt, a)) -> (forall j, (j < r)%nat -> nth_error all j = Some None) ->
  exists out, replace_none_with_zero_size all = Ok out /\ length out = length all /\
    forall q o, nth_error out q = Some o ->
      (forall b, nth_error all q = Some (Some b) -> o = Some b) /\
      (nth_error all q = Some None -> o = Some (dt, {| shape := 0%nat :: tl (shape a); data := [] |})).
Proof. exact @replace_none_ok. Qed.
Print Assumptions C20_replace_none.

Theorem C20_all_none :
  forall (D A : Type) (all : list (arr D A)), (forall m, In m all -> m = None) -> replace_none_with_zero_size all = Ok all.
Proof. exact @replace_none_all_none. Qed.
Print Assumptions C20_all_none.

(** C57. If no rank's argparse leaves by itself, all ranks do the same thing: return rank
    0's namespace, or finalize and exit. *)
Theorem C57_parse_args :
  forall (N : Type) (ranks : list (outcome N)), ranks <> [] -> (forall o, In o ranks -> o <> Leaves) ->
  length (parse_args ranks) = length ranks /\
  ((exists ns, nth_error ranks 0 = Some (Parsed ns) /\ forall f, In f (parse_args ranks) -> f = Returns ns) \/
   (nth_error ranks 0 = Some Bad /\ forall f, In f (parse_args ranks) -> f = Finalizes)).
Proof. exact @parse_args_agree. Qed.
Print Assumptions C57_parse_args.

(** the error message is written by rank 0 and only when its arguments are wrong *)
Theorem C57_messages :
  forall (N : Type) (ranks : list (outcome N)) (r : nat), In r (messages ranks) <-> r = 0%nat /\ nth_error ranks 0 = Some Bad.
Proof. exact @parse_args_messages. Qed.
Print Assumptions C57_messages.

(** Finding: if only rank 0 sees an option such as --help, which makes argparse exit without
    calling error(), rank 0 leaves and the other ranks wait for ever. *)
Theorem C57_help_refuted :
  exists ranks : list (outcome nat), nth_error ranks 0 = Some Leaves /\ In Waits (parse_args ranks) /\ In Escapes (parse_args ranks).
Proof. exists [Leaves; Parsed 1%nat]. repeat split; [right; now left | now left]. Qed.
Print Assumptions C57_help_refuted.

(** *** Concrete cases *)
Definition ex_a : nd Z := {| shape := [2%nat; 1%nat]; data := [1; 2] |}.
Definition ex_b : nd Z := {| shape := [2%nat; 0%nat]; data := [] |}.
Definition ex_c : nd Z := {| shape := [2%nat; 2%nat]; data := [3; 4; 5; 6] |}.
Example ex_gather_axis1 : gather_array 99 None 1 [ex_a; ex_b; ex_c] =
  let o := Some {| shape := [2%nat; 3%nat]; data := [1; 3; 4; 2; 5; 6] |} in Ok [o; o; o].
Proof. vm_compute. reflexivity. Qed.
Example ex_gather_root : gather_array 99 (Some 1%nat) (-1) [ex_a; ex_b; ex_c] =
  Ok [None; Some {| shape := [2%nat; 3%nat]; data := [1; 3; 4; 2; 5; 6] |}; None].
Proof. vm_compute. reflexivity. Qed.
Example ex_gather_axis0 : gather_array 99 (Some 0%nat) 0 [ex_c; ex_c] =
  Ok [Some {| shape := [4%nat; 2%nat]; data := [3; 4; 5; 6; 3; 4; 5; 6] |}; None].
Proof. vm_compute. reflexivity. Qed.
Example ex_gather_hyp : Forall nd_ok [ex_a; ex_b; ex_c] /\
  forall a b, In a [ex_a; ex_b; ex_c] -> In b [ex_a; ex_b; ex_c] -> upd 1 (fun _ => 0%nat) (shape a) = upd 1 (fun _ => 0%nat) (shape b).
Proof. split; [repeat constructor|]. intros a b [<-|[<-|[<-|[]]]] [<-|[<-|[<-|[]]]]; reflexivity. Qed.
(** different trailing shapes: the message sizes disagree *)
Example ex_gather_mismatch : gather_array 99 None 0 [ex_a; ex_c] = Err EMpi.
Proof. vm_compute. reflexivity. Qed.
(** three ranks of which only the second has data; dtypes are not compared *)
Example ex_replace_none : replace_none_with_zero_size [None; Some (8, ex_a); None; Some (4, ex_c)] =
  let z := Some (8, {| shape := [0%nat; 1%nat]; data := [] |}) in Ok [z; Some (8, ex_a); z; Some (4, ex_c)].
Proof. vm_compute. reflexivity. Qed.
Example ex_parse : parse_args [Parsed 7; Bad; Parsed 8] = [Returns 7; Returns 7; Returns 7].
Proof. reflexivity. Qed.
Example ex_parse_bad : parse_args [Bad; Parsed 3] = [Finalizes; Finalizes].
Proof. reflexivity. Qed.
