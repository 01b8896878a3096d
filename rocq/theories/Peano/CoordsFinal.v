(** The two types of coordinates, and a box size which is not of the type (for C81). *)
From Coq Require Import ZArith Reals Lra Lia.
From Flocq Require Import Core.
From Verif Require Import Base.Prelude Base.ListLemmas Peano.PeanoModel Peano.PeanoProofs Peano.CoordsModel Peano.CoordsSpec Peano.CoordsProofs.
Local Open Scope R_scope.

Definition inside (emin prec : Z) (boxsize : R) (x : R) : Prop := floating emin prec x /\ 0 <= x <= boxsize.
Lemma coords64 boxsize bits junk pos : (1 <= bits <= 21)%Z -> floating (-1074) 53 boxsize -> bpow radix2 (-1000) <= boxsize ->
  Forall (fun p => let '(x, y, z) := p in inside (-1074) 53 boxsize x /\ inside (-1074) 53 boxsize y /\ inside (-1074) 53 boxsize z) pos ->
  exists keys, keys_from_coords (-1074) 53 junk boxsize bits pos = Ok keys /\
    Forall2 (fun p k => (0 <= k < 8 ^ bits)%Z /\ exists c, cells_of 53 bits boxsize p c /\ forall junk', inv_scalar junk' bits k = Ok c) pos keys.
Proof.
  intros Hb Fb Bb H. apply from_coords_ok; try lia; try assumption. eapply Rle_trans; [apply bpow_le | exact Bb]. lia.
Qed.
Lemma coords32 boxsize bits junk pos : (1 <= bits <= 21)%Z -> floating (-149) 24 boxsize -> bpow radix2 (-104) <= boxsize ->
  Forall (fun p => let '(x, y, z) := p in inside (-149) 24 boxsize x /\ inside (-149) 24 boxsize y /\ inside (-149) 24 boxsize z) pos ->
  exists keys, keys_from_coords (-149) 24 junk boxsize bits pos = Ok keys /\
    Forall2 (fun p k => (0 <= k < 8 ^ bits)%Z /\ exists c, cells_of 24 bits boxsize p c /\ forall junk', inv_scalar junk' bits k = Ok c) pos keys.
Proof.
  intros Hb Fb Bb H. apply from_coords_ok; try lia; try assumption. eapply Rle_trans; [apply bpow_le | exact Bb]. lia.
Qed.

Lemma keys_mapM emin prec junk boxsize bits pos : keys_from_coords emin prec junk boxsize bits pos = mapM (fun p => key_scalar bits (pos_cell emin prec boxsize bits p)) pos.
Proof.
  apply by_blocks_ok; [unfold blocksize; lia|]. intros m Hm. rewrite key_block_mapM by (destruct m; [congruence | discriminate]). clear. induction m as [|a m IH]; [reflexivity|]. cbn [map mapM]. now rewrite IH.
Qed.
Section Case32.
  Lemma fl32_id x : floating (-149) 24 x -> fl (-149) 24 x = x.
  Proof. intro H. apply rnd_id, floating_format, H. Qed.
  Lemma fl64_id x : floating (-1074) 53 x -> fl (-1074) 53 x = x.
  Proof. intro H. apply rnd_id, floating_format, H. Qed.
  Lemma zero32 : floating (-149) 24 0. Proof. exists 0%Z, 0%Z. repeat split; try lia. lra. Qed.
  Lemma one32 : floating (-149) 24 1. Proof. exists 1%Z, 0%Z. repeat split; try lia. cbn. lra. Qed.
  Lemma two32 : floating (-149) 24 2. Proof. exists 2%Z, 0%Z. repeat split; try lia. cbn. lra. Qed.
  Lemma half32 : floating (-149) 24 (/ 2). Proof. exists 1%Z, (-1)%Z. repeat split; try lia. cbn. lra. Qed.
  Lemma one64 : floating (-1074) 53 1. Proof. exists 1%Z, 0%Z. repeat split; try lia. cbn. lra. Qed.
  (** the box of size 2 in 2^3 cells *)
  Lemma case_cell0 : coord_cell (-149) 24 2 1 0 = 0%Z.
  Proof. unfold coord_cell. replace (0 / _) with 0 by (unfold Rdiv; ring). rewrite (fl32_id 0 zero32). rewrite (Zfloor_IZR 0). reflexivity. Qed.
  Lemma case_cell1 : coord_cell (-149) 24 2 1 1 = 1%Z.
  Proof.
    unfold coord_cell, cellsize. replace (2 / IZR (2 ^ 1)) with 1 by (cbn; lra). rewrite (fl64_id 1 one64), (fl32_id 1 one32). replace (1 / 1) with 1 by lra. rewrite (fl32_id 1 one32), (Zfloor_IZR 1). reflexivity.
  Qed.
  Lemma case_keys : keys_from_coords (-149) 24 0 2 1 [(0, 0, 0); (1, 0, 1)] = Ok [0; 4]%Z.
  Proof. rewrite keys_mapM. cbn [mapM pos_cell]. rewrite !case_cell0, !case_cell1. vm_compute. reflexivity. Qed.

  (** a box size between two float32 numbers *)
  Definition odd_box : R := 1 + bpow radix2 (-30).
  Lemma odd_half : floating (-1074) 53 (odd_box / 2).
  Proof.
    exists (2 ^ 30 + 1)%Z, (-31)%Z. split; [|split; [reflexivity | lia]]. unfold odd_box. rewrite plus_IZR. change (IZR (2 ^ 30)) with (bpow radix2 30).
    rewrite Rmult_plus_distr_r, <- bpow_plus. change (30 + -31)%Z with (-1)%Z. replace (bpow radix2 (-1)) with (/ 2) by (cbn; lra).
    change (-31)%Z with (-30 + -1)%Z. rewrite bpow_plus. replace (bpow radix2 (-1)) with (/ 2) by (cbn; lra). lra.
  Qed.
  Lemma fl_half : fl (-149) 24 (odd_box / 2) = / 2.
  Proof.
    assert (Prec_gt_0 24) as P by reflexivity. assert (Valid_exp (FLT_exp (-149) 24)) as V by (apply FLT_exp_valid; exact P).
    pose proof (bpow_gt_0 radix2 (-30)) as G. apply Rle_antisym.
    - unfold fl. apply round_N_le_midp; [exact V | apply floating_format, half32 |].
      rewrite succ_eq_pos by lra. replace (/ 2) with (bpow radix2 (-1)) by (cbn; lra). rewrite ulp_bpow. unfold FLT_exp. change (Z.max (-1 + 1 - 24) (-149)) with (-24)%Z.
      replace (bpow radix2 (-1)) with (/ 2) by (cbn; lra). unfold odd_box.
      assert (bpow radix2 (-30) < bpow radix2 (-24)) by (apply bpow_lt; lia). lra.
    - rewrite <- (fl32_id (/ 2) half32). apply rnd_le; [lia|]. unfold odd_box. lra.
  Qed.
  Lemma odd_cell1 : coord_cell (-149) 24 odd_box 1 1 = 2%Z.
  Proof.
    unfold coord_cell, cellsize. change (IZR (2 ^ 1)) with 2. rewrite (fl64_id _ odd_half), fl_half. replace (1 / / 2) with 2 by lra. rewrite (fl32_id 2 two32), (Zfloor_IZR 2). reflexivity.
  Qed.
  Lemma odd_cell0 : coord_cell (-149) 24 odd_box 1 0 = 0%Z.
  Proof. unfold coord_cell. replace (0 / _) with 0 by (unfold Rdiv; ring). rewrite (fl32_id 0 zero32). rewrite (Zfloor_IZR 0). reflexivity. Qed.
  Lemma odd_keys : keys_from_coords (-149) 24 0 odd_box 1 [(1, 0, 0)] = Ok [0]%Z.
  Proof. rewrite keys_mapM. cbn [mapM pos_cell]. rewrite !odd_cell0, !odd_cell1. vm_compute. reflexivity. Qed.
  Lemma odd_refuted : ~ forall boxsize x, floating (-1074) 53 boxsize -> floating (-149) 24 x -> 1 <= boxsize -> 0 <= x < boxsize ->
    exists k c, keys_from_coords (-149) 24 0 boxsize 1 [(x, 0, 0)] = Ok [k] /\ cells_of 24 1 boxsize (x, 0, 0) c /\ inv_scalar 0 1 k = Ok c.
  Proof.
    intro H. pose proof (bpow_gt_0 radix2 (-30)) as G. destruct (H odd_box 1) as (k & c & E1 & E2 & E3).
    - destruct odd_half as (m & e & E & Hm & He). exists m, (e + 1)%Z. split; [|split; [exact Hm | lia]]. rewrite bpow_plus. change (bpow radix2 1) with 2. rewrite <- Rmult_assoc, <- E. field.
    - apply one32.
    - unfold odd_box. lra.
    - unfold odd_box. lra.
    - rewrite odd_keys in E1. injection E1 as <-. vm_compute in E3. injection E3 as <-. cbn in E2. destruct E2 as ((i & B & I1 & I2 & I3) & _).
      change (2 ^ 1)%Z with 2%Z in *. specialize (I2 ltac:(unfold odd_box; lra)). assert (i = 0)%Z as ->. { assert (i = 0 \/ i = 1)%Z as [-> | ->] by lia; [reflexivity | discriminate I3]. }
      destruct B as [_ B]. change (IZR (0 + 1)) with 1 in B. unfold odd_box in B.
      assert (bpow radix2 (-30) < bpow radix2 0) as L by (apply bpow_lt; lia). change (bpow radix2 0) with 1 in L. lra.
  Qed.
End Case32.
