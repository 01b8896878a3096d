(** The C functions compute the same curve. *)
From Verif.Base Require Import Prelude ListLemmas.
From Verif.Peano Require Import PeanoModel PeanoCurve PeanoProofs CPeanoModel.
From Coq Require Import ZifyBool ZifyNat.
Local Open Scope Z_scope.

Definition is_ok (m : res Z) (v : Z) : bool := match m with Ok a => a =? v | Err _ => false end.
Lemma is_ok_eq m v : is_ok m v = true -> m = Ok v.
Proof. destruct m; cbn; [|discriminate]. intro H. f_equal. lia. Qed.
Definition gets (m : res Z) : Z := match m with Ok a => a | Err _ => -1 end.
Definition ctab (s : state) (o : Z) : bool :=
  let q := quad s o in let r := fst s in
  is_ok (c_quad r (bit3 0 o) (bit3 1 o) (bit3 2 o)) q.
Definition cturn (s : state) (q : Z) : bool :=
  let r := fst s in
  is_ok (c_at c_rotx q) (gets (c_at c_rotx q)) && is_ok (c_at c_roty q) (gets (c_at c_roty q)) && is_ok (c_at c_sense q) (look sense_table q) &&
  match c_turn C_FUEL c_rotxmap r (gets (c_at c_rotx q)) with Ok r1 => is_ok (c_turn C_FUEL c_rotymap r1 (gets (c_at c_roty q))) (turn q r) | Err _ => false end.
Lemma ctab_all : pairs_ok ctab = true. Proof. vm_compute. reflexivity. Qed.
Lemma cturn_all : pairs_ok cturn = true. Proof. vm_compute. reflexivity. Qed.
Lemma c_quad_ok s o : In s states -> 0 <= o < 8 -> c_quad (fst s) (bit3 0 o) (bit3 1 o) (bit3 2 o) = Ok (quad s o).
Proof. intros Hs Ho. exact (is_ok_eq _ _ (pairs_all _ ctab_all s o Hs Ho)). Qed.
Lemma c_turn_ok s q : In s states -> 0 <= q < 8 -> exists rx ry r1, c_at c_rotx q = Ok rx /\ c_at c_roty q = Ok ry /\ c_at c_sense q = Ok (look sense_table q) /\
  c_turn C_FUEL c_rotxmap (fst s) rx = Ok r1 /\ c_turn C_FUEL c_rotymap r1 ry = Ok (turn q (fst s)).
Proof.
  intros Hs Hq. pose proof (pairs_all _ cturn_all s q Hs Hq) as H. unfold cturn in H. rewrite !andb_true_iff in H. destruct H as (((H1 & H2) & H3) & H4).
  destruct (c_turn C_FUEL c_rotxmap (fst s) (gets (c_at c_rotx q))) as [r1|] eqn:E; [|discriminate].
  exists (gets (c_at c_rotx q)), (gets (c_at c_roty q)), r1. repeat split; try (now apply is_ok_eq). exact E.
Qed.

(** *** keys *)
Lemma c_bit_where x mask : c_bit x mask = where_bit x mask.
Proof. reflexivity. Qed.
Lemma c_key_loop_ok n : forall x y z key s, In s states -> 0 <= key < 2 ^ 31 ->
  c_key_loop n x y z (Z.shiftr (2 ^ Z.of_nat n) 1) key (fst s) (snd s) =
  if key * 8 ^ Z.of_nat n + K n s (x, y, z) <? 2 ^ 31 then Ok (key * 8 ^ Z.of_nat n + K n s (x, y, z)) else Err EAbort.
Proof.
  induction n as [|n IH]; intros x y z key s Hs Hk.
  - cbn [c_key_loop K]. change (8 ^ Z.of_nat 0) with 1. rewrite Z.mul_1_r, Z.add_0_r. replace (key <? 2 ^ 31) with true by lia. reflexivity.
  - cbn [c_key_loop]. rewrite half_pow, !c_bit_where, !where_bit_tb.
    destruct (bit3_oct n x y z) as (Ex & Ey & Ez). rewrite <- Ex at 1. rewrite <- Ey at 1. rewrite <- Ez at 1.
    set (o := oct n (x, y, z)). assert (0 <= o < 8) as Ho by apply oct_range. rewrite c_quad_ok by assumption. cbn [bind].
    destruct (f1 s o Hs Ho) as (Hd & Hn & _ & Hq & _). destruct (c_turn_ok s (quad s o) Hs Hq) as (rx & ry & r1 & E1 & E2 & E3 & E4 & E5).
    unfold c_shl. replace ((0 <=? 3) && (3 <? 32) && (0 <=? key)) with true by lia. change (2 ^ 3) with 8.
    cbn [K]. fold o. rewrite pow8S. pose proof (pow8 n) as Hp. pose proof (K_range n (next s o) (x, y, z) Hn) as HK.
    replace (key * (8 * 8 ^ Z.of_nat n) + (digit s o * 8 ^ Z.of_nat n + K n (next s o) (x, y, z))) with ((key * 8 + digit s o) * 8 ^ Z.of_nat n + K n (next s o) (x, y, z)) by ring.
    unfold c_int at 1. destruct (Z.ltb_spec (key * 8) (2 ^ 31)) as [Hlt|Hge].
    + replace (- 2 ^ 31 <=? key * 8) with true by lia. cbn [andb bind]. change (if snd s =? 1 then quad s o else 7 - quad s o) with (digit s o).
      assert (key * 8 + 8 <= 2 ^ 31) as H8. { change (2 ^ 31) with (8 * 268435456) in *. lia. }
      unfold c_int. replace ((- 2 ^ 31 <=? key * 8 + digit s o) && (key * 8 + digit s o <? 2 ^ 31)) with true by lia. cbn [bind].
      rewrite E1. cbn [bind]. rewrite E2. cbn [bind]. rewrite E3. cbn [bind]. rewrite E4. cbn [bind]. rewrite E5. cbn [bind].
      apply (IH x y z (key * 8 + digit s o) (next s o) Hn). lia.
    + rewrite andb_false_r. cbn [bind]. destruct (Z.ltb_spec ((key * 8 + digit s o) * 8 ^ Z.of_nat n + K n (next s o) (x, y, z)) (2 ^ 31)); [|reflexivity]. exfalso. nia.
Qed.
Lemma c_key_ok x y z bits : 1 <= bits <= 31 -> peano_hilbert_key_ x y z bits = let k := K (Z.to_nat bits) s0 (x, y, z) in if k <? 2 ^ 31 then Ok k else Err EAbort.
Proof.
  intro Hb. unfold peano_hilbert_key_, c_shl. replace ((0 <=? bits - 1) && (bits - 1 <? 32) && (0 <=? 1)) with true by lia. rewrite Z.mul_1_l. unfold c_int.
  assert (0 < 2 ^ (bits - 1) <= 2 ^ 30) by (split; [apply Z.pow_pos_nonneg; lia | apply Z.pow_le_mono_r; lia]).
  replace ((- 2 ^ 31 <=? 2 ^ (bits - 1)) && (2 ^ (bits - 1) <? 2 ^ 31)) with true by lia. cbn [bind].
  replace (2 ^ (bits - 1)) with (Z.shiftl 1 (bits - 1)) by (rewrite Z.shiftl_mul_pow2 by lia; lia). rewrite first_mask by lia.
  pose proof (c_key_loop_ok (Z.to_nat bits) x y z 0 s0 s0_in ltac:(lia)) as E. cbn [s0 fst snd] in E. rewrite E. rewrite Z.mul_0_l, Z.add_0_l. reflexivity.
Qed.

(** *** inverses *)
Definition filled : statics := Eval vm_compute in fill start_of_program.
Lemma filled_ok : fill start_of_program = filled. Proof. vm_compute. reflexivity. Qed.
Lemma filled_again : fill filled = filled. Proof. vm_compute. reflexivity. Qed.
Definition at2 (t : list (list Z)) (r q : Z) : res Z := do row <- c_at t r; c_at row q.
Definition citab (s : state) (q : Z) : bool :=
  is_ok (at2 (qix filled) (fst s) q) (ibx s q) && is_ok (at2 (qiy filled) (fst s) q) (iby s q) && is_ok (at2 (qiz filled) (fst s) q) (ibz s q) &&
  (0 <=? ibx s q) && (ibx s q <=? 1) && (0 <=? iby s q) && (iby s q <=? 1) && (0 <=? ibz s q) && (ibz s q <=? 1).
Lemma citab_all : pairs_ok citab = true. Proof. vm_compute. reflexivity. Qed.
Lemma c_itab s q : In s states -> 0 <= q < 8 ->
  at2 (qix filled) (fst s) q = Ok (ibx s q) /\ at2 (qiy filled) (fst s) q = Ok (iby s q) /\ at2 (qiz filled) (fst s) q = Ok (ibz s q) /\ 0 <= ibx s q <= 1 /\ 0 <= iby s q <= 1 /\ 0 <= ibz s q <= 1.
Proof.
  intros Hs Hq. pose proof (pairs_all _ citab_all s q Hs Hq) as H. unfold citab in H. rewrite !andb_true_iff in H. destruct H as ((((((((H1 & H2) & H3) & H4) & H5) & H6) & H7) & H8) & H9).
  split; [now apply is_ok_eq|]. split; [now apply is_ok_eq|]. split; [now apply is_ok_eq|]. lia.
Qed.
Lemma at2_bind {B} t r q v (k : Z -> res B) : at2 t r q = Ok v -> (do row <- c_at t r; do b <- c_at row q; k b) = k v.
Proof. unfold at2. destruct (c_at t r) as [row|]; cbn [bind]; [|discriminate]. destruct (c_at row q) as [b|]; cbn [bind]; [|discriminate]. now intros [= ->]. Qed.
Lemma c_shl1 v : 0 <= v < 2 ^ 30 -> c_shl v 1 = Ok (v * 2).
Proof. intro H. unfold c_shl, c_int. change (2 ^ 1) with 2. replace ((0 <=? 1) && (1 <? 32) && (0 <=? v)) with true by lia. replace ((- 2 ^ 31 <=? v * 2) && (v * 2 <? 2 ^ 31)) with true by lia. reflexivity. Qed.
Lemma c_int1 v b : 0 <= v < 2 ^ 30 -> 0 <= b <= 1 -> c_int (v * 2 + b) = Ok (v * 2 + b).
Proof. intros H Hb. unfold c_int. replace ((- 2 ^ 31 <=? v * 2 + b) && (v * 2 + b <? 2 ^ 31)) with true by lia. reflexivity. Qed.
Lemma c_inv_loop_ok key n : forall m x y z s, (m + n <= 30)%nat -> In s states -> 0 <= x < 2 ^ Z.of_nat m -> 0 <= y < 2 ^ Z.of_nat m -> 0 <= z < 2 ^ Z.of_nat m ->
  c_inv_loop filled n key x y z (Z.shiftr (7 * 8 ^ Z.of_nat n) 3) (3 * Z.of_nat n - 3) (fst s) (snd s) = Ok (pscale (x, y, z) n (I n s key)).
Proof.
  induction n as [|n IH]; intros m x y z s Hm Hs Hx Hy Hz.
  - cbn. rewrite !Z.mul_1_r, !Z.add_0_r. reflexivity.
  - cbn [c_inv_loop]. rewrite eighth_pow, shift_S, keypart_ok. change (if snd s =? 1 then part n key else 7 - part n key) with (flip s (part n key)). cbv zeta.
    destruct (f2 s (part n key) Hs (part_range n key)) as (Ho & _ & Ex & Ey & Ez & Hq & Eq). set (q := flip s (part n key)) in *.
    destruct (c_itab s q Hs Hq) as (Tx & Ty & Tz & Bx & By & Bz). destruct (c_turn_ok s q Hs Hq) as (rx & ry & r1 & E1 & E2 & E3 & E4 & E5).
    assert (2 ^ Z.of_nat m <= 2 ^ 29) as Hp by (apply Z.pow_le_mono_r; lia).
    rewrite (at2_bind _ _ _ _ _ Tx). rewrite c_shl1 by lia. cbn [bind]. rewrite c_int1 by lia. cbn [bind].
    rewrite (at2_bind _ _ _ _ _ Ty). rewrite c_shl1 by lia. cbn [bind]. rewrite c_int1 by lia. cbn [bind].
    rewrite (at2_bind _ _ _ _ _ Tz). rewrite c_shl1 by lia. cbn [bind]. rewrite c_int1 by lia. cbn [bind].
    rewrite E1. cbn [bind]. rewrite E2. cbn [bind]. rewrite E3. cbn [bind]. rewrite E4. cbn [bind]. rewrite E5. cbn [bind].
    assert (next s (undigit s (part n key)) = (turn q (fst s), snd s * look sense_table q)) as En by (unfold next; rewrite Eq; reflexivity).
    change (turn q (fst s)) with (fst (turn q (fst s), snd s * look sense_table q)). change (snd s * look sense_table q) with (snd (turn q (fst s), snd s * look sense_table q)) at 2.
    rewrite <- En. rewrite (IH (S m)).
    + f_equal. cbn [I]. cbv zeta. set (w := I n _ key). destruct w as [[u v] t]. cbn [padd pscale]. rewrite pow2S, Ex, Ey, Ez. f_equal; [f_equal|]; ring.
    + lia.
    + now apply next_ok.
    + rewrite pow2S. lia.
    + rewrite pow2S. lia.
    + rewrite pow2S. lia.
Qed.
Definition ready (s : statics) : Prop := s = start_of_program \/ s = filled.
Lemma ready_fill s : ready s -> fill s = filled.
Proof. intros [-> | ->]; [exact filled_ok | exact filled_again]. Qed.
Lemma c_inverse_ok s key bits : ready s -> 1 <= bits <= 10 -> peano_hilbert_key_inverse_ s key bits = Ok (filled, I (Z.to_nat bits) s0 key).
Proof.
  intros Hs Hb. unfold peano_hilbert_key_inverse_. rewrite ready_fill by assumption. cbv zeta.
  assert (c_shl 7 (3 * (bits - 1)) = Ok (Z.shiftl 7 (3 * (bits - 1)))) as ->.
  { unfold c_shl, c_int. replace ((0 <=? 3 * (bits - 1)) && (3 * (bits - 1) <? 32) && (0 <=? 7)) with true by lia. assert (0 < 2 ^ (3 * (bits - 1)) <= 2 ^ 27) by (split; [apply Z.pow_pos_nonneg; lia | apply Z.pow_le_mono_r; lia]).
    replace ((- 2 ^ 31 <=? 7 * 2 ^ (3 * (bits - 1))) && (7 * 2 ^ (3 * (bits - 1)) <? 2 ^ 31)) with true by lia. rewrite Z.shiftl_mul_pow2 by lia. reflexivity. }
  cbn [bind]. destruct (first_imask bits ltac:(lia)) as [-> ->].
  pose proof (c_inv_loop_ok key (Z.to_nat bits) 0 0 0 0 s0) as E. cbn [s0 fst snd] in E. rewrite E by (try exact s0_in; change (2 ^ Z.of_nat 0) with 1; lia). change (0, 1) with s0. cbn [bind].
  destruct (I (Z.to_nat bits) s0 key) as [[u v] t]. cbn [pscale]. rewrite !Z.mul_0_l, !Z.add_0_l. reflexivity.
Qed.
Lemma c_inverses_ok s calls : ready s -> Forall (fun c => 1 <= snd c <= 10) calls -> c_inverses s calls = Ok (map (fun c => I (Z.to_nat (snd c)) s0 (fst c)) calls).
Proof.
  intros Hs H. revert s Hs. induction H as [|[key bits] l Hc Hl IH]; intros s Hs; [reflexivity|]. cbn [c_inverses map fst snd] in *. rewrite c_inverse_ok by assumption. cbn [bind]. rewrite IH by now right. reflexivity.
Qed.

(** *** the properties *)
Lemma c_key_python x y z bits : 1 <= bits <= 21 -> grid bits (x, y, z) ->
  exists k, key_scalar bits (x, y, z) = Ok k /\ peano_hilbert_key_ x y z bits = if k <? 2 ^ 31 then Ok k else Err EAbort.
Proof.
  intros Hb Hg. exists (K (Z.to_nat bits) s0 (x, y, z)). rewrite key_scalar_ok by lia. rewrite the_key_K by assumption. split; [reflexivity|]. rewrite c_key_ok by lia. reflexivity.
Qed.
Lemma c_key_same x y z bits : 1 <= bits <= 10 -> grid bits (x, y, z) -> peano_hilbert_key_ x y z bits = key_scalar bits (x, y, z).
Proof.
  intros Hb Hg. rewrite key_scalar_ok by lia. rewrite the_key_K by (assumption || lia). rewrite c_key_ok by lia. cbv zeta.
  pose proof (K_range (Z.to_nat bits) s0 (x, y, z) s0_in) as HK. assert (8 ^ Z.of_nat (Z.to_nat bits) <= 8 ^ 10) by (apply Z.pow_le_mono_r; lia). change (8 ^ 10) with (2 ^ 30) in *. replace (K (Z.to_nat bits) s0 (x, y, z) <? 2 ^ 31) with true by lia. reflexivity.
Qed.
Lemma c_inverses_same junk calls : Forall (fun c => 1 <= snd c <= 10) calls -> c_inverses start_of_program calls = mapM (fun c => inv_scalar junk (snd c) (fst c)) calls.
Proof.
  intro H. rewrite c_inverses_ok by (assumption || now left). symmetry. apply mapM_map_ok. intros c Hc. rewrite Forall_forall in H. specialize (H c Hc). apply inv_scalar_ok. lia.
Qed.
Lemma c_inverse_11 s key bits : 11 <= bits -> peano_hilbert_key_inverse_ s key bits = Err EAbort.
Proof.
  intro Hb. unfold peano_hilbert_key_inverse_. cbv zeta. assert (c_shl 7 (3 * (bits - 1)) = Err EAbort) as ->; [|reflexivity].
  unfold c_shl, c_int. destruct ((0 <=? 3 * (bits - 1)) && (3 * (bits - 1) <? 32) && (0 <=? 7)); [|reflexivity].
  assert (2 ^ 30 <= 2 ^ (3 * (bits - 1))) by (apply Z.pow_le_mono_r; lia). replace (7 * 2 ^ (3 * (bits - 1)) <? 2 ^ 31) with false by lia. now rewrite andb_false_r.
Qed.
