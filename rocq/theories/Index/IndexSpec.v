(** Merger trees, described on the input arrays alone. *)
From Verif.Base Require Import Prelude Order.
From Coq Require Import Relation_Operators.
Local Open Scope Z_scope.

Section Trees.
  (** node indexes and descendant indexes *)
  Context (ni di : list Z).
  (** halo number h (position in the arrays) is the descendant of halo number p *)
  Definition direct (p h : nat) : Prop := exists x, nth_error di p = Some x /\ nth_error ni h = Some x.
  (** a halo counts as a progenitor of itself *)
  Definition progenitor : nat -> nat -> Prop := clos_refl_trans nat direct.
  Definition cyclic : Prop := exists h, clos_trans nat direct h h.

  Context {M : Type} (Od : TOrd M) (mb : list M).
  Definition mass_le (p q : nat) : Prop := forall a b, nth_error mb p = Some a -> nth_error mb q = Some b -> leb Od a b = true.
  (** following a progenitor of highest mass up to a halo without progenitors *)
  Inductive main_branch : nat -> list nat -> Prop :=
  | main_end h : (forall p, ~ direct p h) -> main_branch h [h]
  | main_more h p br : direct p h -> (forall q, direct q h -> mass_le q p) -> main_branch p br -> main_branch h (h :: br).
End Trees.

Section Chains.
  Context (ni di : list Z).
  (** a halo, one of its progenitors, one of that halo's progenitors, ... *)
  Inductive chain : nat -> list nat -> Prop :=
  | chain_one h : chain h [h]
  | chain_more h p l : direct ni di p h -> chain p l -> chain h (h :: l).
  Definition total (mass : list Z) (l : list nat) : Z := sumZ (map (fun p => nth p mass 0) l).
End Chains.
