(** Theorems about the Peano-Hilbert keys (C29 to C31). *)
From Verif.Base Require Import Prelude ListLemmas.
From Verif.Peano Require Import PeanoModel PeanoCurve PeanoProofs.
Local Open Scope Z_scope.

(** *** C29; [grid bits p]: all coordinates of p are in [0, 2^bits) *)
Theorem C29_inverse_of_keys : forall junk junk' bits ps, 1 <= bits <= 21 ->
  Forall (fun p => let '(x, y, z) := p in 0 <= x < 2 ^ bits /\ 0 <= y < 2 ^ bits /\ 0 <= z < 2 ^ bits) ps ->
  exists keys, peano_hilbert_keys junk bits ps = Ok keys /\ Forall (fun k => 0 <= k < 8 ^ bits) keys /\ peano_hilbert_key_inverses junk' bits keys = Ok ps.
Proof. exact @inverse_of_keys. Qed.
Print Assumptions C29_inverse_of_keys.
Theorem C29_keys_of_inverse : forall junk junk' bits ks, 1 <= bits <= 21 -> Forall (fun k => 0 <= k < 8 ^ bits) ks ->
  exists ps, peano_hilbert_key_inverses junk' bits ks = Ok ps /\
    Forall (fun p => let '(x, y, z) := p in 0 <= x < 2 ^ bits /\ 0 <= y < 2 ^ bits /\ 0 <= z < 2 ^ bits) ps /\ peano_hilbert_keys junk bits ps = Ok ks.
Proof. exact @keys_of_inverse. Qed.
Print Assumptions C29_keys_of_inverse.
Theorem C29_scalar : forall junk bits p k, 1 <= bits <= 21 -> grid bits p -> 0 <= k < 8 ^ bits -> (key_scalar bits p = Ok k <-> inv_scalar junk bits k = Ok p).
Proof. exact @scalar_bijection. Qed.
Print Assumptions C29_scalar.
Theorem C29_injective : forall junk bits p q, 1 <= bits <= 21 -> grid bits p -> grid bits q -> peano_hilbert_keys junk bits [p] = peano_hilbert_keys junk bits [q] -> p = q.
Proof. exact @keys_injective. Qed.
Print Assumptions C29_injective.
(** from 22 bits on the key does not fit: different cells get the same one *)
Theorem C29_22_bits_refuted : ~ forall junk p q, grid 22 p -> grid 22 q -> peano_hilbert_keys junk 22 [p] = peano_hilbert_keys junk 22 [q] -> p = q.
Proof.
  intro H. assert ((0, 0, 0) = I 22 s0 (2 * 8 ^ 21)) as E.
  { apply (H 0); [vm_compute; intuition discriminate | vm_compute; intuition discriminate | vm_compute; reflexivity]. }
  vm_compute in E. discriminate E.
Qed.
Print Assumptions C29_22_bits_refuted.
Example C29_case : peano_hilbert_keys 7 2 [(0, 0, 0); (3, 1, 2); (3, 3, 3); (0, 0, 1)] = Ok [0; 32; 41; 1] /\ peano_hilbert_key_inverses 7 2 [0; 32; 41; 1] = Ok [(0, 0, 0); (3, 1, 2); (3, 3, 3); (0, 0, 1)].
Proof. split; vm_compute; reflexivity. Qed.

(** *** C30; [dist] is the sum of the absolute coordinate differences *)
Theorem C30_continuous : forall junk bits k, 1 <= bits <= 21 -> 0 <= k -> k + 1 < 8 ^ bits ->
  exists p q, peano_hilbert_key_inverses junk bits [k; k + 1] = Ok [p; q] /\ dist p q = 1.
Proof. exact @adjacent. Qed.
Print Assumptions C30_continuous.
Example C30_case : 0 <= 31 /\ 31 + 1 < 8 ^ 2 /\ peano_hilbert_key_inverses 0 2 [31; 32] = Ok [(3, 1, 1); (3, 1, 2)].
Proof. repeat split; vm_compute; try reflexivity; discriminate. Qed.

(** *** C31 *)
(** the key on a coarser grid is a prefix of the key *)
Theorem C31_hierarchy : forall junk bits m ps, 1 <= bits -> 0 <= m -> bits + m <= 21 -> Forall (grid (bits + m)) ps ->
  exists fine, peano_hilbert_keys junk (bits + m) ps = Ok fine /\
    peano_hilbert_keys junk bits (map (fun p => let '(x, y, z) := p in (Z.shiftr x m, Z.shiftr y m, Z.shiftr z m)) ps) = Ok (map (fun k => Z.shiftr k (3 * m)) fine).
Proof. exact @hierarchy. Qed.
Print Assumptions C31_hierarchy.
(** arrays, in blocks of any size, give the keys of their elements: for all bits and coordinates, errors included *)
Theorem C31_elementwise : forall block junk bits ps, 1 <= block -> by_blocks block junk (key_block bits) ps = mapM (key_scalar bits) ps.
Proof. exact @keys_blocks. Qed.
Print Assumptions C31_elementwise.
Theorem C31_keys_elementwise : forall junk bits ps, peano_hilbert_keys junk bits ps = mapM (key_scalar bits) ps.
Proof. exact @keys_elementwise. Qed.
Print Assumptions C31_keys_elementwise.
Theorem C31_inverses_elementwise : forall junk bits ks, peano_hilbert_key_inverses junk bits ks = mapM (inv_scalar junk bits) ks.
Proof. exact @inverses_elementwise. Qed.
Print Assumptions C31_inverses_elementwise.
Example C31_case : grid (1 + 2) (5, 6, 3) /\ peano_hilbert_keys 0 3 [(5, 6, 3)] = Ok [148] /\ peano_hilbert_keys 0 1 [(Z.shiftr 5 2, Z.shiftr 6 2, Z.shiftr 3 2)] = Ok [Z.shiftr 148 6] /\
  by_blocks 2 0 (key_block 3) [(5, 6, 3); (0, 0, 1); (1, 1, 1)] = mapM (key_scalar 3) [(5, 6, 3); (0, 0, 1); (1, 1, 1)].
Proof. repeat split; vm_compute; try reflexivity; discriminate. Qed.
