(** Proofs about peano_hilbert_keys_from_coords() (for C81). *)
From Coq Require Import ZArith Reals Lra Lia.
From Flocq Require Import Core Relative Mult_error.
From Verif Require Import Base.Prelude Base.ListLemmas Peano.PeanoModel Peano.PeanoCurve Peano.PeanoProofs Peano.CoordsModel Peano.CoordsSpec.
Local Open Scope R_scope.

Section Type_.
  Variables emin prec : Z.
  Hypothesis prec_pos : (1 < prec)%Z.
  Hypothesis emin_small : (emin + prec <= 0)%Z.
  Local Instance prec_gt_0_ : Prec_gt_0 prec. Proof. unfold Prec_gt_0. lia. Qed.
  Notation fexp := (FLT_exp emin prec).
  Notation rnd := (fl emin prec).

  Lemma floating_format x : floating emin prec x -> generic_format radix2 fexp x.
  Proof. intros (m & e & -> & Hm & He). apply generic_format_FLT. exists (Float radix2 m e); [reflexivity | exact Hm | exact He]. Qed.
  Lemma rnd_id x : generic_format radix2 fexp x -> rnd x = x.
  Proof. intro. apply round_generic; [apply valid_rnd_N | assumption]. Qed.
  Lemma rnd_le x y : x <= y -> rnd x <= rnd y.
  Proof. intro H. apply round_le; [apply FLT_exp_valid; exact prec_gt_0_ | apply valid_rnd_N | exact H]. Qed.
  Lemma int_format k : (Z.abs k < 2 ^ prec)%Z -> generic_format radix2 fexp (IZR k).
  Proof. intro H. apply floating_format. exists k, 0%Z. cbn. split; [lra|]. split; [exact H|]. lia. Qed.
  Lemma pow_format k : (emin <= k)%Z -> generic_format radix2 fexp (bpow radix2 k).
  Proof. intro H. apply floating_format. exists 1%Z, k. split; [lra|]. split; [|exact H]. change (Z.abs 1) with 1%Z. apply Z.pow_gt_1; lia. Qed.

  (** a quotient rounded to [i] or more is at least [i (1 - 2^-prec)] *)
  Lemma rnd_lower y i : (1 <= i)%Z -> 0 <= y -> IZR i <= rnd y -> IZR i * (1 - bpow radix2 (- prec)) <= y.
  Proof.
    intros Hi Hy H. apply Rnot_lt_le. intro L. assert (1 <= IZR i) as Hi' by (apply IZR_le in Hi; exact Hi).
    assert (0 < bpow radix2 (- prec) < 1) as Be. { split; [apply bpow_gt_0|]. change 1 with (bpow radix2 0). apply bpow_lt. lia. }
    destruct (Rle_or_lt (bpow radix2 (emin + prec - 1)) y) as [Q|Q].
    - pose proof (relative_error_N_FLT radix2 emin prec prec_gt_0_ (fun z => negb (Z.even z)) y) as E.
      rewrite Rabs_pos_eq in E by exact Hy. specialize (E Q). fold (rnd y) in E. change (round radix2 fexp ZnearestE y) with (rnd y) in E.
      assert (/ 2 * bpow radix2 (- prec + 1) = bpow radix2 (- prec)) as EB.
      { rewrite bpow_plus. change (bpow radix2 1) with 2. lra. }
      rewrite EB in E. apply Rabs_def2b in E || idtac. assert (rnd y - y <= bpow radix2 (- prec) * y) as E' by (eapply Rle_trans; [apply Rle_abs | exact E]).
      assert (rnd y <= y * (1 + bpow radix2 (- prec))) by lra.
      assert (y * (1 + bpow radix2 (- prec)) < IZR i * (1 - bpow radix2 (- prec)) * (1 + bpow radix2 (- prec))) by (apply Rmult_lt_compat_r; lra).
      nra.
    - assert (rnd y <= bpow radix2 (emin + prec - 1)) as E. { rewrite <- (rnd_id (bpow radix2 (emin + prec - 1))) by (apply pow_format; lia). apply rnd_le. lra. }
      assert (bpow radix2 (emin + prec - 1) < 1) by (change 1 with (bpow radix2 0); apply bpow_lt; lia). lra.
  Qed.
  (** numbers of the type below [b] are below [b (1 - 2^-prec)] *)
  Lemma below b x : generic_format radix2 fexp b -> generic_format radix2 fexp x -> 0 < b -> x < b -> x <= b * (1 - bpow radix2 (- prec)).
  Proof.
    intros Fb Fx Hb H. assert (Valid_exp fexp) as V by (apply FLT_exp_valid; exact prec_gt_0_).
    apply Rle_trans with (pred radix2 fexp b); [apply pred_ge_gt; assumption|]. rewrite pred_eq_pos by lra. unfold pred_pos.
    assert (bpow radix2 (mag radix2 b) * bpow radix2 (- prec) = bpow radix2 (mag radix2 b - prec)) as E1 by (rewrite <- bpow_plus; reflexivity).
    destruct (Req_bool_spec b (bpow radix2 (mag radix2 b - 1))) as [Q|Q].
    - assert (bpow radix2 (mag radix2 b - 1 - prec) <= bpow radix2 (fexp (mag radix2 b - 1))) as L by (apply bpow_le; unfold FLT_exp; lia).
      assert (b * bpow radix2 (- prec) = bpow radix2 (mag radix2 b - 1 - prec)) as E2 by (rewrite Q at 1; rewrite <- bpow_plus; reflexivity). lra.
    - rewrite ulp_neq_0 by lra. unfold cexp. assert (bpow radix2 (mag radix2 b - prec) <= bpow radix2 (fexp (mag radix2 b))) as L by (apply bpow_le; unfold FLT_exp; lia).
      pose proof (bpow_mag_gt radix2 b) as G. rewrite Rabs_pos_eq in G by lra.
      assert (b * bpow radix2 (- prec) <= bpow radix2 (mag radix2 b) * bpow radix2 (- prec)) by (apply Rmult_le_compat_r; [apply bpow_ge_0 | lra]). lra.
  Qed.

  Hypothesis prec_53 : (prec <= 53)%Z.
  Hypothesis emin_1074 : (-1074 <= emin)%Z.
  Variables (boxsize : R) (bits : Z).
  Hypothesis bits_21 : (1 <= bits <= 21)%Z.
  Hypothesis bits_prec : (bits <= prec)%Z.
  Hypothesis Fbox : floating emin prec boxsize.
  Hypothesis box_big : bpow radix2 (emin + prec + bits) <= boxsize.
  Lemma box_pos : 0 < boxsize. Proof. eapply Rlt_le_trans; [apply bpow_gt_0 | exact box_big]. Qed.
  Lemma pow_bits : IZR (2 ^ bits) = bpow radix2 bits.
  Proof. rewrite <- IZR_Zpower by lia. reflexivity. Qed.
  Lemma cell_format : generic_format radix2 fexp (boxsize / IZR (2 ^ bits)).
  Proof.
    rewrite pow_bits. unfold Rdiv. rewrite <- bpow_opp. apply mult_bpow_exact_FLT; [now apply floating_format |].
    assert (emin + prec + bits + 1 <= mag radix2 boxsize)%Z; [|lia]. apply mag_ge_bpow. rewrite Rabs_pos_eq by (apply Rlt_le, box_pos). replace (emin + prec + bits + 1 - 1)%Z with (emin + prec + bits)%Z by lia. exact box_big.
  Qed.
  Lemma cell_is : rnd (cellsize boxsize bits) = boxsize / IZR (2 ^ bits).
  Proof.
    unfold cellsize. assert (generic_format radix2 (FLT_exp (-1074) 53) (boxsize / IZR (2 ^ bits))) as F.
    { apply (generic_inclusion_mag radix2 fexp (FLT_exp (-1074) 53)); [|exact cell_format]. intros _. unfold FLT_exp. lia. }
    unfold fl at 2. rewrite round_generic; [|apply valid_rnd_N | exact F]. apply rnd_id, cell_format.
  Qed.
  Lemma cell_pos : 0 < boxsize / IZR (2 ^ bits).
  Proof. rewrite pow_bits. apply Rdiv_lt_0_compat; [apply box_pos | apply bpow_gt_0]. Qed.
  Lemma int_bits k : (0 <= k <= 2 ^ bits)%Z -> generic_format radix2 fexp (IZR k).
  Proof.
    intro H. destruct (Z.eq_dec k (2 ^ bits)) as [E|E].
    - rewrite E, pow_bits. apply pow_format. lia.
    - apply int_format. assert (2 ^ bits <= 2 ^ prec)%Z by (apply Z.pow_le_mono_r; lia). lia.
  Qed.
  Lemma cell_ok x : floating emin prec x -> 0 <= x <= boxsize ->
    exists i, coord_cell emin prec boxsize bits x = i /\ (0 <= i <= 2 ^ bits)%Z /\ cell_of prec bits boxsize x (i mod 2 ^ bits).
  Proof.
    intros Fx Hx. pose proof cell_pos as Cp. pose proof box_pos as Bp. set (u := boxsize / IZR (2 ^ bits)) in *. set (y := rnd (x / u)). set (i := Zfloor y).
    assert (boxsize = IZR (2 ^ bits) * u) as EB. { unfold u. field. rewrite pow_bits. apply Rgt_not_eq, bpow_gt_0. }
    assert (0 <= x / u) as Q0. { apply Rmult_le_pos; [lra|]. apply Rlt_le, Rinv_0_lt_compat, Cp. }
    assert (x / u <= IZR (2 ^ bits)) as Q1. { apply Rmult_le_reg_r with u; [exact Cp|]. unfold Rdiv. rewrite Rmult_assoc, Rinv_l by lra. lra. }
    assert (0 <= y) as Y0. { unfold y. rewrite <- (rnd_id 0) by apply generic_format_0. apply rnd_le. exact Q0. }
    assert (0 < 2 ^ bits)%Z as P2 by (apply Z.pow_pos_nonneg; lia).
    assert (y <= IZR (2 ^ bits)) as Y1. { unfold y. rewrite <- (rnd_id (IZR (2 ^ bits))) by (apply int_bits; lia). apply rnd_le. exact Q1. }
    assert (0 <= i)%Z as I0. { unfold i. apply Zfloor_lub. exact Y0. }
    assert (i <= 2 ^ bits)%Z as I1. { unfold i. rewrite <- (Zfloor_IZR (2 ^ bits)). apply Zfloor_le, Y1. }
    assert (2 ^ bits <= 2 ^ 21)%Z as B21 by (apply Z.pow_le_mono_r; lia).
    assert (coord_cell emin prec boxsize bits x = i) as Ei.
    { unfold coord_cell. rewrite cell_is. fold u. fold y. fold i. unfold wrap32. rewrite Z.mod_small; lia. }
    exists i. split; [exact Ei|]. split; [lia|]. exists i. fold u. split; [|split; [lia|split; [|reflexivity]]].
    - pose proof (Zfloor_lb y) as Lb. fold i in Lb. split.
      + destruct (Z.eq_dec i 0) as [-> | Hi]; [lra|]. pose proof (rnd_lower (x / u) i ltac:(lia) Q0 Lb) as L.
        apply Rmult_le_compat_r with (r := u) in L; [|lra]. replace (x / u * u) with x in L by (field; lra). lra.
      + apply Rnot_le_lt. intro L. assert (IZR (i + 1) <= x / u) as L'.
        { apply Rmult_le_reg_r with u; [exact Cp|]. replace (x / u * u) with x by (field; lra). exact L. }
        assert (i + 1 <= 2 ^ bits)%Z as I2. { apply le_IZR. lra. }
        assert (IZR (i + 1) <= y) as L2. { unfold y. rewrite <- (rnd_id (IZR (i + 1))) by (apply int_bits; lia). apply rnd_le. exact L'. }
        pose proof (Zfloor_lub (i + 1) y L2) as L3. fold i in L3. lia.
    - intro Hb. assert (x <= boxsize * (1 - bpow radix2 (- prec))) as L by (apply below; [now apply floating_format | now apply floating_format | exact Bp | exact Hb]).
      assert (IZR (2 ^ bits) * (1 - bpow radix2 (- prec)) = IZR (2 ^ prec - 1) * bpow radix2 (bits - prec)) as Et.
      { rewrite minus_IZR, pow_bits. replace (IZR (2 ^ prec)) with (bpow radix2 prec) by (rewrite <- IZR_Zpower by lia; reflexivity). unfold Z.sub. rewrite bpow_plus. 
        rewrite Rmult_minus_distr_r. rewrite <- Rmult_assoc. rewrite (Rmult_comm (bpow radix2 prec)). rewrite (Rmult_assoc _ (bpow radix2 prec)). rewrite <- bpow_plus. replace (prec + - prec)%Z with 0%Z by lia. cbn [bpow]. ring. }
      assert (y <= IZR (2 ^ bits) * (1 - bpow radix2 (- prec))) as L2.
      { unfold y. rewrite <- (rnd_id (IZR (2 ^ bits) * (1 - bpow radix2 (- prec)))).
        - apply rnd_le. apply Rmult_le_reg_r with u; [exact Cp|]. replace (x / u * u) with x by (field; lra). rewrite EB in L. lra.
        - rewrite Et. apply floating_format. exists (2 ^ prec - 1)%Z, (bits - prec)%Z. split; [reflexivity|]. split; [|lia]. assert (0 < 2 ^ prec)%Z by (apply Z.pow_pos_nonneg; lia). lia. }
      assert (y < IZR (2 ^ bits)) as L3. { pose proof (bpow_gt_0 radix2 (- prec)). apply IZR_lt in P2. nra. }
      apply lt_IZR. apply Rle_lt_trans with y; [apply Zfloor_lb | exact L3].
  Qed.

  Lemma key_wrap p : (let '(x, y, z) := p in 0 <= x <= 2 ^ bits /\ 0 <= y <= 2 ^ bits /\ 0 <= z <= 2 ^ bits)%Z ->
    exists k, key_scalar bits p = Ok k /\ (0 <= k < 8 ^ bits)%Z /\ forall junk, inv_scalar junk bits k = Ok (let '(x, y, z) := p in (x mod 2 ^ bits, y mod 2 ^ bits, z mod 2 ^ bits)%Z).
  Proof.
    intro H. assert (2 ^ bits <= 2 ^ 21)%Z as B21 by (apply Z.pow_le_mono_r; lia). rewrite key_scalar_ok by lia. eexists. split; [reflexivity|].
    assert (pwrap p = p) as Ew. { destruct p as [[x y] z]. unfold pwrap, wrap32. rewrite !Z.mod_small by lia. f_equal; [f_equal|]; lia. }
    unfold the_key. rewrite Ew. pose proof (K_range (Z.to_nat bits) s0 p s0_in) as Kr. rewrite Z2Nat.id in Kr by lia.
    assert (8 ^ bits <= 8 ^ 21)%Z as B8 by (apply Z.pow_le_mono_r; lia).
    rewrite wrap64_id by (change (2 ^ 63)%Z with (8 ^ 21)%Z; lia). split; [exact Kr|].
    intro junk. rewrite inv_scalar_ok by assumption. f_equal. unfold the_pos. rewrite I_K by exact s0_in. destruct p as [[x y] z]. unfold pmod. rewrite Z2Nat.id by lia. reflexivity.
  Qed.
  Lemma from_coords_ok junk pos :
    Forall (fun p => let '(x, y, z) := p in (floating emin prec x /\ 0 <= x <= boxsize) /\ (floating emin prec y /\ 0 <= y <= boxsize) /\ (floating emin prec z /\ 0 <= z <= boxsize)) pos ->
    exists keys, keys_from_coords emin prec junk boxsize bits pos = Ok keys /\
      Forall2 (fun p k => (0 <= k < 8 ^ bits)%Z /\ exists c, cells_of prec bits boxsize p c /\ forall junk', inv_scalar junk' bits k = Ok c) pos keys.
  Proof.
    intro H. unfold keys_from_coords. rewrite (by_blocks_ok blocksize junk _ (fun p => key_scalar bits (pos_cell emin prec boxsize bits p))).
    2: { unfold blocksize. lia. }
    2: { intros m Hm. rewrite key_block_mapM by (destruct m; [congruence | discriminate]). clear. induction m as [|a m IH]; [reflexivity|]. cbn [map mapM]. now rewrite IH. }
    induction pos as [|p pos IH].
    - exists []. split; [reflexivity | constructor].
    - inversion H as [|? ? Hp Hr]; subst. destruct (IH Hr) as (ks & Ek & Fk). destruct p as [[x y] z]. destruct Hp as ((Fx & Hx) & (Fy & Hy) & (Fz & Hz)).
      destruct (cell_ok x Fx Hx) as (i & Ei & Bi & Ci). destruct (cell_ok y Fy Hy) as (j & Ej & Bj & Cj). destruct (cell_ok z Fz Hz) as (l & El & Bl & Cl).
      destruct (key_wrap (i, j, l)) as (k & Kk & Rk & Ik); [auto|].
      exists (k :: ks). cbn [mapM pos_cell]. rewrite Ei, Ej, El, Kk. cbn [bind]. rewrite Ek. split; [reflexivity|]. constructor; [|exact Fk].
      split; [exact Rk|]. exists (i mod 2 ^ bits, j mod 2 ^ bits, l mod 2 ^ bits)%Z. split; [cbn; auto | exact Ik].
  Qed.
End Type_.
