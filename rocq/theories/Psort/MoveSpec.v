(** Specification vocabulary for repartition and fetch_elements. *)
From Verif.Base Require Import Prelude.

(** the element at global position [i] of a distributed array *)
Definition global_at {A} (d : list (list A)) (i : Z) (x : A) : Prop :=
  0 <= i /\ nth_error (concat d) (Z.to_nat i) = Some x.

(** rank-indexed lists agree element by element *)
Definition on_all_ranks {A B} (R : A -> B -> Prop) (d : list (list A)) (e : list (list B)) : Prop :=
  Forall2 (Forall2 R) d e.

(** every rank's rows have [nv] values *)
Definition row_width {A} (nv : Z) (d : list (list (list A))) : Prop :=
  Forall (Forall (fun row => Z.of_nat (length row) = nv)) d.

(** number of elements over all ranks *)
Definition total {A} (d : list (list A)) : Z := Z.of_nat (length (concat d)).
