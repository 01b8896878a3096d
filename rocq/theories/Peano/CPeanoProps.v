(** Theorems about the C version of the Peano-Hilbert keys (C65). *)
From Verif.Base Require Import Prelude ListLemmas.
From Verif.Peano Require Import PeanoModel PeanoProofs CPeanoModel CPeanoProofs.
Local Open Scope Z_scope.

(** *** C65; the python functions are those of C29 to C31 *)
(** up to 10 bits the C function and the python function give the same key *)
Theorem C65_key : forall x y z bits, 1 <= bits <= 10 -> 0 <= x < 2 ^ bits -> 0 <= y < 2 ^ bits -> 0 <= z < 2 ^ bits ->
  peano_hilbert_key_ x y z bits = key_scalar bits (x, y, z).
Proof. intros x y z bits Hb Hx Hy Hz. exact (c_key_same x y z bits Hb (conj Hx (conj Hy Hz))). Qed.
Print Assumptions C65_key.
(** with more bits: the same key if it fits into an int, undefined otherwise; no array is accessed outside its bounds *)
Theorem C65_key_wide : forall x y z bits, 1 <= bits <= 21 -> 0 <= x < 2 ^ bits -> 0 <= y < 2 ^ bits -> 0 <= z < 2 ^ bits ->
  exists k, key_scalar bits (x, y, z) = Ok k /\ peano_hilbert_key_ x y z bits = if k <? 2 ^ 31 then Ok k else Err EAbort.
Proof. intros x y z bits Hb Hx Hy Hz. exact (c_key_python x y z bits Hb (conj Hx (conj Hy Hz))). Qed.
Print Assumptions C65_key_wide.
(** any sequence of calls of the inverse, the first of which fills the static tables *)
Theorem C65_inverse : forall junk calls, Forall (fun c => 1 <= snd c <= 10) calls ->
  c_inverses start_of_program calls = mapM (fun c => inv_scalar junk (snd c) (fst c)) calls.
Proof. exact @c_inverses_same. Qed.
Print Assumptions C65_inverse.
(** from 11 bits on the inverse is undefined for every key *)
Theorem C65_inverse_11_bits_refuted : forall s key bits, 11 <= bits -> peano_hilbert_key_inverse_ s key bits = Err EAbort.
Proof. exact @c_inverse_11. Qed.
Print Assumptions C65_inverse_11_bits_refuted.
Example C65_case : peano_hilbert_key_ 3 1 2 2 = Ok 32 /\ c_inverses start_of_program [(32, 2); (41, 2); (32, 10)] = Ok [(3, 1, 2); (3, 3, 3); (3, 1, 2)] /\
  peano_hilbert_key_ 2047 0 0 11 = Err EAbort /\ peano_hilbert_key_ 0 0 1 11 = key_scalar 11 (0, 0, 1) /\ key_scalar 11 (2047, 0, 0) = Ok 3374617161.
Proof. repeat split; vm_compute; reflexivity. Qed.
