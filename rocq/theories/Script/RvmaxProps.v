(** C102: the maximum of the circular velocity of a subhalo (compute_rvmax.py). *)
From Coq Require Import Reals Lra.
From Verif Require Import Base.Prelude Script.RvmaxModel Script.RvmaxSpec Script.RvmaxFinal.
Local Open Scope Z_scope.
Local Open Scope list_scope.

(** the numbers which are printed are the largest velocity, and the smallest radius with it, for any
    order of particles at the same radius *)
Theorem C102_rvmax np_argsort pos subnr isub centre box mpart redshift rs : sorts np_argsort -> (0 < box)%R -> zlen pos = zlen subnr ->
  Forall2 (distance box centre) (members pos subnr isub) rs -> rs <> [] -> (0 <= mpart)%R -> (-1 < redshift)%R ->
  let a := (1 / (1 + redshift))%R in
  exists r0, In r0 rs /\ compute_rvmax np_argsort pos subnr isub centre box mpart redshift = Ok (a * r0, profile rs mpart a r0)%R /\
    (forall r, In r rs -> (profile rs mpart a r <= profile rs mpart a r0)%R) /\ (forall r, In r rs -> profile rs mpart a r = profile rs mpart a r0 -> (r0 <= r)%R).
Proof. intros Hs. exact (rvmax_top np_argsort Hs pos subnr isub centre box mpart redshift rs). Qed.
Print Assumptions C102_rvmax.
(** every particle has a distance *)
Theorem C102_distance box centre p : (0 < box)%R -> exists r, distance box centre p r /\ forall r', distance box centre p r' -> r' = r.
Proof. intro H. exact (ex_intro _ _ (conj (has_distance box centre p H) (fun r' D => radius_distance box centre p r' H D))). Qed.
Print Assumptions C102_distance.
(** an error without particles *)
Theorem C102_none np_argsort pos subnr isub centre box mpart redshift rs : sorts np_argsort -> (0 < box)%R -> zlen pos = zlen subnr ->
  Forall2 (distance box centre) (members pos subnr isub) rs -> rs = [] -> compute_rvmax np_argsort pos subnr isub centre box mpart redshift = Err EValue.
Proof. intros Hs. exact (rvmax_none np_argsort Hs pos subnr isub centre box mpart redshift rs). Qed.
Print Assumptions C102_none.
(** it is not the velocity for the mass within the radius: the particle itself is left out *)
Theorem C102_itself_refuted : ~ (forall np_argsort pos subnr isub centre box mpart redshift rs, sorts np_argsort -> (0 < box)%R -> zlen pos = zlen subnr ->
  Forall2 (distance box centre) (members pos subnr isub) rs -> rs <> [] -> (0 <= mpart)%R -> (-1 < redshift)%R ->
  exists r0, In r0 rs /\ compute_rvmax np_argsort pos subnr isub centre box mpart redshift = Ok (1 / (1 + redshift) * r0, with_itself rs mpart (1 / (1 + redshift)) r0)%R).
Proof. exact itself_refuted. Qed.
Print Assumptions C102_itself_refuted.

(** two particles of subhalo 7, across the boundary of a box of length 10, and one of another *)
Example C102_ex : sorts isort /\ members [(2, 2, 3); (4, 4, 4); (9, 2, 3)]%R [7; 8; 7] 7 = [(2, 2, 3); (9, 2, 3)]%R /\
  Forall2 (distance 10 (1, 2, 3)%R) [(2, 2, 3); (9, 2, 3)]%R [1; 2]%R.
Proof.
  split; [exact isort_sorts|]. split; [reflexivity|]. constructor; [|constructor; [|constructor]].
  - exists 1%R, 0%R, 0%R. unfold nearest. cbn [fst snd]. repeat split; try lra; [exists 0; lra | exists 0; lra | exists 0; lra|]. replace (1 * 1 + 0 * 0 + 0 * 0)%R with 1%R by ring. now rewrite sqrt_1.
  - exists (-2)%R, 0%R, 0%R. unfold nearest. cbn [fst snd]. repeat split; try lra; [exists (-1); lra | exists 0; lra | exists 0; lra|]. replace (-2 * -2 + 0 * 0 + 0 * 0)%R with (2 * 2)%R by ring. rewrite sqrt_square; lra.
Qed.
