(** What an accepted catalogue should mean, stated without the checking code. *)
From Verif Require Import Base.Prelude.

(** the [k]th group or subhalo owns the ids [off_k, off_k + len_k) *)
Definition owns (len off : list Z) (k : nat) (x : Z) : Prop :=
  (k < length len)%nat /\ nth k off 0 <= x < nth k off 0 + nth k len 0.

(** the ranges lie one after the other, the first beginning at [a] and the last
    ending at [b] *)
Fixpoint consecutive (a : Z) (len off : list Z) (b : Z) : Prop :=
  match len, off with
  | [], [] => a = b
  | l :: len', o :: off' => o = a /\ consecutive (a + l) len' off' b
  | _, _ => False
  end.

(** every x of [a, b) is owned by exactly one group, and nothing outside is owned *)
Definition partitions (len off : list Z) (a b : Z) : Prop :=
  forall x, (a <= x < b -> exists! k, owns len off k x) /\ (~ (a <= x < b) -> forall k, ~ owns len off k x).

(** the value fits an int32 *)
Definition int32 (x : Z) : Prop := - 2 ^ 31 <= x < 2 ^ 31.

(** the subhalos of group [g] number [nth g nsub 0], every parent is an existing
    group and the subhalos are stored in order of their parent *)
Definition parents_ok (nsub parent : list Z) : Prop :=
  StronglySorted Z.le parent /\ Forall (fun g => 0 <= g < zlen nsub) parent /\
  forall g, (g < length nsub)%nat -> Z.of_nat (count_occ Z.eq_dec parent (Z.of_nat g)) = nth g nsub 0.

(** the range [o, o + l) lies inside [0, n) *)
Definition inside (o l n : Z) : Prop := 0 <= o /\ 0 <= l /\ o + l <= n.
