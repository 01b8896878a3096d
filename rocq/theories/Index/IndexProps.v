(** C46, C47 and C48: index_trees.py. *)
From Verif.Base Require Import Prelude Order.
From Verif.Index Require Import IndexModel IndexSpec DfiMain MassFinal MainProgProofs.
From Coq Require Import Relation_Operators.
Local Open Scope Z_scope.

(** *** C46 *)
Theorem C46_intervals : forall M (Od : TOrd M) node_order mass_order index_order (ni di : list Z) (mb : list M),
  length di = length ni -> length mb = length ni -> NoDup ni ->
  is_argsort ZOrd ni node_order -> is_argsort Od mb mass_order -> (forall l, is_argsort ZOrd l (index_order l)) ->
  ~ cyclic ni di ->
  exists df em lp, depth_first_index node_order mass_order index_order ni di mb = Ok (df, em, lp) /\
    length df = length ni /\ length em = length ni /\ length lp = length ni /\
    (* every number from 1 to n is given once *)
    Permutation df (zseq 1 (length ni)) /\
    forall h a e l, nth_error df h = Some a -> nth_error em h = Some e -> nth_error lp h = Some l ->
      (* the progenitors, transitively and including the halo *)
      (forall p b, nth_error df p = Some b -> (progenitor ni di p h <-> a <= b <= l)) /\
      (* the main branch, in order *)
      (exists br, main_branch ni di Od mb h br /\ (forall k p, nth_error br k = Some p -> nth_error df p = Some (a + Z.of_nat k)) /\
         (forall p b, nth_error df p = Some b -> (In p br <-> a <= b <= e))) /\
      (* siblings in descending order of mass *)
      (forall p q b c, direct ni di p h -> direct ni di q h -> nth_error df p = Some b -> nth_error df q = Some c -> b < c -> mass_le Od mb q p).
Proof. exact @dfi_main. Qed.
Print Assumptions C46_intervals.

Theorem C46_cycle : forall M (Od : TOrd M) node_order mass_order index_order (ni di : list Z) (mb : list M),
  length di = length ni -> length mb = length ni -> NoDup ni ->
  is_argsort ZOrd ni node_order -> is_argsort Od mb mass_order -> (forall l, is_argsort ZOrd l (index_order l)) ->
  cyclic ni di -> depth_first_index node_order mass_order index_order ni di mb = Err EAssert.
Proof. exact @dfi_err. Qed.
Print Assumptions C46_cycle.

(** node 14 and the tree of node 11 with progenitors 10 (itself with progenitor 13) and 12 *)
Example C46_case :
  NoDup [10; 11; 12; 13; 14] /\ ~ cyclic [10; 11; 12; 13; 14] [11; 99; 11; 10; -1] /\
  depth_first_index (argsort ZOrd [10; 11; 12; 13; 14]) (argsort ZOrd [5; 9; 3; 4; 7]) (argsort ZOrd) [10; 11; 12; 13; 14] [11; 99; 11; 10; -1] [5; 9; 3; 4; 7]
    = Ok ([2; 1; 4; 3; 5], [3; 3; 4; 3; 5], [3; 4; 4; 3; 5]).
Proof.
  split; [repeat constructor; cbn; intuition discriminate|]. split; [|vm_compute; reflexivity].
  assert (forall p h, direct [10; 11; 12; 13; 14] [11; 99; 11; 10; -1] p h -> (p = 0 /\ h = 1 \/ p = 2 /\ h = 1 \/ p = 3 /\ h = 0)%nat) as Hd.
  { intros p h (x & H1 & H2). do 5 (destruct p as [|p]; [cbn in H1; injection H1 as <-; do 5 (destruct h as [|h]; [cbn in H2; first [discriminate H2 | tauto] |]); destruct h; discriminate H2|]). destruct p; discriminate H1. }
  intros (h & H). assert (forall p q, clos_trans nat (direct [10; 11; 12; 13; 14] [11; 99; 11; 10; -1]) p q -> (nth q [1; 0; 2; 2; 0] 0 < nth p [1; 0; 2; 2; 0] 0)%nat \/ (p = 0 /\ q = 1 \/ p = 2 /\ q = 1 \/ p = 3 /\ q = 0)%nat) as Hlt.
  { intros p q Hc. induction Hc as [p q Hc|p q r H1 IH1 H2 IH2]; [right; now apply Hd|]. left.
    assert (nth q [1; 0; 2; 2; 0] 0 < nth p [1; 0; 2; 2; 0] 0)%nat as L1 by (destruct IH1 as [?|[[-> ->]|[[-> ->]|[-> ->]]]]; [assumption | cbn; auto ..]).
    assert (nth r [1; 0; 2; 2; 0] 0 < nth q [1; 0; 2; 2; 0] 0)%nat as L2 by (destruct IH2 as [?|[[-> ->]|[[-> ->]|[-> ->]]]]; [assumption | cbn; auto ..]). now transitivity (nth q [1; 0; 2; 2; 0] 0)%nat. }
  destruct (Hlt h h H) as [Hl|[[-> Hx]|[[-> Hx]|[-> Hx]]]]; try discriminate Hx. now apply (Nat.lt_irrefl _ Hl).
Qed.

(** two nodes that are each other's descendant *)
Example C46_cycle_case :
  cyclic [10; 11; 12] [11; 10; 10] /\
  depth_first_index (argsort ZOrd [10; 11; 12]) (argsort ZOrd [5; 9; 3]) (argsort ZOrd) [10; 11; 12] [11; 10; 10] [5; 9; 3] = Err EAssert.
Proof.
  split; [|vm_compute; reflexivity]. exists 0%nat. apply t_trans with (y := 1%nat); apply t_step; eexists; split; reflexivity.
Qed.

(** *** C47 *)
Theorem C47_tree_mass : forall node_order (ni di snap mass junk : list Z),
  length di = length ni -> length snap = length ni -> length mass = length ni -> length junk = length ni ->
  NoDup ni -> (forall l, is_argsort ZOrd l (node_order l)) ->
  (forall p h a b, direct ni di p h -> nth_error snap p = Some a -> nth_error snap h = Some b -> a < b) ->
  exists out, find_progenitor_tree_mass node_order junk ni di snap mass = Ok out /\ length out = length ni /\
    forall h, (h < length ni)%nat -> exists ps, NoDup ps /\ (forall p, In p ps <-> progenitor ni di p h) /\ nth_error out h = Some (total mass ps).
Proof. exact @tree_mass_main. Qed.
Print Assumptions C47_tree_mass.

Theorem C47_branch_mass : forall node_order (ni di snap mass junk : list Z),
  length di = length ni -> length snap = length ni -> length mass = length ni -> length junk = length ni ->
  NoDup ni -> (forall l, is_argsort ZOrd l (node_order l)) ->
  (forall p h a b, direct ni di p h -> nth_error snap p = Some a -> nth_error snap h = Some b -> a < b) ->
  exists out, find_progenitor_branch_mass_delucia node_order junk ni di snap mass = Ok out /\ length out = length ni /\
    forall h, (h < length ni)%nat -> exists l v, nth_error out h = Some v /\
      chain ni di h l /\ total mass l = v /\ (forall l', chain ni di h l' -> total mass l' <= v).
Proof. exact @delucia_main. Qed.
Print Assumptions C47_branch_mass.

Example C47_case :
  find_progenitor_tree_mass (argsort ZOrd) [0; 0; 0; 0; 0] [10; 11; 12; 13; 14] [11; 99; 11; 10; -1] [2; 3; 2; 1; 3] [5; 9; 30; 4; 7] = Ok [9; 48; 30; 4; 7] /\
  find_progenitor_branch_mass_delucia (argsort ZOrd) [0; 0; 0; 0; 0] [10; 11; 12; 13; 14] [11; 99; 11; 10; -1] [2; 3; 2; 1; 3] [5; 9; 30; 4; 7] = Ok [9; 39; 30; 4; 7].
Proof. vm_compute. auto. Qed.

(** the condition on the snapshots is needed: with a progenitor at a later snapshot the
    mass of its own progenitors is lost *)
Theorem C47_snapshots_refuted :
  find_progenitor_tree_mass (argsort ZOrd) [0; 0; 0] [10; 11; 12] [11; -1; 10] [1; 3; 2] [5; 9; 4] = Ok [9; 14; 4].
Proof. vm_compute. reflexivity. Qed.
Print Assumptions C47_snapshots_refuted.

(** *** C48 *)
Theorem C48_main_progenitor : forall close node_order (ni di snap mb : list Z),
  length di = length ni -> length snap = length ni -> length mb = length ni -> NoDup ni -> is_argsort ZOrd ni node_order ->
  (forall q, In q mb -> 0 < q) ->
  exists ntie mainprog, find_main_progenitor close node_order ni di snap mb = Ok (ntie, mainprog) /\ length ntie = length ni /\ length mainprog = length ni /\
    forall h, (h < length ni)%nat ->
      ((forall p, ~ direct ni di p h) /\ nth_error mainprog h = Some (-1) /\ nth_error ntie h = Some 0) \/
      (exists p x, direct ni di p h /\ nth_error ni p = Some x /\ nth_error mainprog h = Some x /\
         (forall q, direct ni di q h -> nth q mb 0 < nth p mb 0 \/
            nth q mb 0 = nth p mb 0 /\ (nth p snap 0 < nth q snap 0 \/ nth p snap 0 = nth q snap 0 /\ nth q ni 0 <= nth p ni 0)) /\
         exists ties, NoDup ties /\ (forall q, In q ties <-> direct ni di q h /\ close (nth q mb 0) (nth p mb 0) = true) /\
           nth_error ntie h = Some (Z.max 0 (zlen ties - 1))).
Proof. exact @main_progenitor. Qed.
Print Assumptions C48_main_progenitor.

(** three progenitors, two of them with the largest mass at the same snapshot *)
Example C48_case :
  find_main_progenitor Z.eqb (argsort ZOrd [20; 11; 13; 12]) [20; 11; 13; 12] [-1; 20; 20; 20] [3; 2; 2; 1] [50; 30; 30; 10] = Ok ([1; 0; 0; 0], [13; -1; -1; -1]).
Proof. vm_compute. reflexivity. Qed.

(** without positive masses no progenitor is chosen *)
Theorem C48_zero_mass_refuted :
  find_main_progenitor Z.eqb (argsort ZOrd [20; 11]) [20; 11] [-1; 20] [3; 2] [50; 0] = Ok ([0; 0], [-1; -1]).
Proof. vm_compute. reflexivity. Qed.
Print Assumptions C48_zero_mass_refuted.
