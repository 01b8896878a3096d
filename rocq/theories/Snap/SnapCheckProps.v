(** Theorems about SnapshotFile.sanity_check() of the L-Gadget2 readers (C83). *)
From Coq Require Import QArith.
From Verif Require Import Base.Prelude Base.ListLemmas Peano.PeanoModel Snap.SanityModel Snap.SnapCheckModel Snap.SnapCheckProofs.
Local Open Scope Z_scope.

(** *** C83; [tests_hold]: finite positions in the box, finite moderate velocities, ids up to the total;
    [total_of]: the number of particles as numpy 1 or 2 computes it *)
(** a file with particles is never accepted: bad ones are refused, good ones stop the check with a TypeError *)
Theorem C83_particles : forall np2 junk n a lo hi rest hashtabsize pf pi vf vs ids first last blockid in_cells,
  0 <= lo < 2 ^ 32 -> 0 <= hi < 2 ^ 31 -> hashtabsize < 2 ^ 31 -> Forall (fun i => 0 <= i) ids -> 0 <= first -> first <= last < 2 ^ 31 -> zlen blockid = last - first + 1 -> 0 <= n -> 1 <= n ->
  (tests_hold (total_of np2 lo hi) pf pi vf vs ids -> snapshot_check np2 32 junk n (a :: lo :: hi :: rest) hashtabsize pf pi vf vs ids first last blockid in_cells = Err EType) /\
  (~ tests_hold (total_of np2 lo hi) pf pi vf vs ids -> snapshot_check np2 32 junk n (a :: lo :: hi :: rest) hashtabsize pf pi vf vs ids first last blockid in_cells = Err ERuntime).
Proof. exact with_particles. Qed.
Print Assumptions C83_particles.
Theorem C83_no_particles : forall np2 junk n a lo hi rest hashtabsize pf pi vf vs ids first last blockid in_cells,
  0 <= lo < 2 ^ 32 -> 0 <= hi < 2 ^ 31 -> hashtabsize < 2 ^ 31 -> Forall (fun i => 0 <= i) ids -> 0 <= first -> first <= last < 2 ^ 31 -> zlen blockid = last - first + 1 -> 0 <= n -> n = 0 ->
  (tests_hold (total_of np2 lo hi) pf pi vf vs ids -> snapshot_check np2 32 junk n (a :: lo :: hi :: rest) hashtabsize pf pi vf vs ids first last blockid in_cells = if in_cells [] then Ok tt else Err ERuntime) /\
  (~ tests_hold (total_of np2 lo hi) pf pi vf vs ids -> snapshot_check np2 32 junk n (a :: lo :: hi :: rest) hashtabsize pf pi vf vs ids first last blockid in_cells = Err ERuntime).
Proof. exact without_particles. Qed.
Print Assumptions C83_no_particles.
(** the number of bits of the hash table is right, but a float *)
Theorem C83_bits : forall bits, 1 <= bits <= 10 -> exists q, hash_bits 32 (inject_Z (8 ^ bits)) 1 = Ok (PyFloat q) /\ (q == inject_Z bits)%Q.
Proof. exact hash_bits_power. Qed.
Print Assumptions C83_bits.
(** the keys which the check gives to the particles before that: those of their blocks in the hash table *)
Theorem C83_keys : forall n first last blockid, 0 <= first -> first <= last < 2 ^ 31 -> zlen blockid = last - first + 1 -> 0 <= n -> Forall (fun o => 0 <= o <= n) blockid ->
  (forall i j oi oj, (i <= j)%nat -> nth_error blockid i = Some oi -> nth_error blockid j = Some oj -> oi <= oj) ->
  exists keys, hash_keys n first last blockid = Ok keys /\ zlen keys = n /\
    (forall i p a b, nth_error blockid i = Some a -> nth_error blockid (S i) = Some b -> a <= Z.of_nat p < b -> nth_error keys p = Some (first + Z.of_nat i)) /\
    (forall p a, nth_error blockid (length blockid - 1) = Some a -> a <= Z.of_nat p < n -> nth_error keys p = Some last) /\
    (forall p a, nth_error blockid 0 = Some a -> Z.of_nat p < a -> nth_error keys p = Some (-1)).
Proof. exact keys_are. Qed.
Print Assumptions C83_keys.
(** the check does not accept good files, and with numpy 2 reports ids above 2^32 as out of range *)
Theorem C83_accepts_refuted :
  (~ forall np2 ids, Forall (fun i => 0 <= i <= 2 ^ 32 + 5) ids -> snapshot_check np2 32 0 (zlen ids) [0; 5; 1; 0; 0; 0] 8 true true true true ids 0 7 [0; 0; 0; 0; 0; 0; 0; 0] (fun _ => true) = Ok tt) /\
  snapshot_check true 32 0 1 [0; 5; 1; 0; 0; 0] 8 true true true true [2 ^ 32] 0 7 [0; 0; 0; 0; 0; 0; 0; 0] (fun _ => true) = Err ERuntime.
Proof.
  split; [|vm_compute; reflexivity]. intro H. specialize (H false [3]). assert (Forall (fun i => 0 <= i <= 2 ^ 32 + 5) [3]) as F by (constructor; [lia | constructor]).
  specialize (H F). vm_compute in H. discriminate H.
Qed.
Print Assumptions C83_accepts_refuted.

Example C83_case : tests_hold (total_of false 5 1) true true true true [3; 2 ^ 32] /\
  snapshot_check false 32 0 2 [0; 5; 1; 0; 0; 0] 8 true true true true [3; 2 ^ 32] 0 7 [0; 0; 1; 2; 2; 2; 2; 2] (fun _ => true) = Err EType /\
  snapshot_check false 32 0 0 [0; 5; 1; 0; 0; 0] 8 true true true true [] 0 7 [0; 0; 0; 0; 0; 0; 0; 0] (fun _ => true) = Ok tt /\
  hash_keys 4 2 5 [0; 1; 1; 3] = Ok [2; 4; 4; 5].
Proof. split; [repeat split; repeat constructor; vm_compute; discriminate|]. repeat split; vm_compute; reflexivity. Qed.
