(** The key functions compute the curve. *)
From Verif.Base Require Import Prelude ListLemmas.
From Verif.Peano Require Import PeanoModel PeanoCurve.
From Coq Require Import ZifyBool ZifyNat.
Local Open Scope Z_scope.

(** *** rotations *)
Lemma iter_S_r {A} n (f : A -> A) x : Nat.iter (S n) f x = Nat.iter n f (f x).
Proof. induction n as [|n IH]; [reflexivity|]. exact (f_equal f IH). Qed.
Definition good_table (t : list Z) : Prop := length t = 24%nat /\ Forall (fun r => 0 <= r < 24) t.
Lemma good_x : good_table rotxmap_table. Proof. split; [reflexivity|]. repeat constructor; lia. Qed.
Lemma good_y : good_table rotymap_table. Proof. split; [reflexivity|]. repeat constructor; lia. Qed.
Lemma good_look t r : good_table t -> 0 <= r < 24 -> py_nth t r = Ok (look t r) /\ 0 <= look t r < 24.
Proof.
  intros [H1 H2] Hr. split; [apply py_nth_ok; unfold zlen; lia|]. rewrite Forall_forall in H2. apply H2. apply nth_In. lia.
Qed.
Lemma iter_range t : good_table t -> forall n r, 0 <= r < 24 -> 0 <= Nat.iter n (look t) r < 24.
Proof. intros Ht n r Hr. induction n as [|n IH]; [assumption|]. cbn [Nat.iter nat_rect]. now apply good_look. Qed.
Lemma rotate_ok t : good_table t -> forall fuel r k, 0 <= r < 24 -> (Z.to_nat k < fuel)%nat -> rotate fuel t r k = Ok (Nat.iter (Z.to_nat k) (look t) r).
Proof.
  intro Ht. induction fuel as [|fuel IH]; intros r k Hr Hk; [lia|]. cbn [rotate]. destruct (Z.ltb_spec 0 k).
  - destruct (good_look t r Ht Hr) as [E Hl]. rewrite E. cbn [bind]. rewrite IH by (assumption || lia). replace (Z.to_nat k) with (S (Z.to_nat (k - 1))) by lia. now rewrite iter_S_r.
  - replace (Z.to_nat k) with O by lia. reflexivity.
Qed.
Lemma rotate_any_ok t : good_table t -> forall fuel l, (forall e, In e l -> 0 <= fst e < 24 /\ (Z.to_nat (snd e) < fuel)%nat) -> (1 <= fuel)%nat ->
  rotate_any fuel t l = Ok (map (fun e : Z * Z => Nat.iter (Z.to_nat (snd e)) (look t) (fst e)) l).
Proof.
  intro Ht. induction fuel as [|fuel IH]; intros l Hl Hf; [lia|]. cbn [rotate_any]. destruct (existsb _ l) eqn:B.
  - set (g := fun e : Z * Z => if 0 <? snd e then (look t (fst e), snd e - 1) else e). rewrite (mapM_map_ok _ g).
    2: { intros e He. destruct (Hl e He) as [Hr _]. unfold g. destruct (0 <? snd e); [|reflexivity]. rewrite (proj1 (good_look t _ Ht Hr)). reflexivity. }
    cbn [bind]. apply existsb_exists in B. destruct B as (e0 & He0 & B0). pose proof (proj2 (Hl e0 He0)) as Hf0. rewrite IH.
    + f_equal. rewrite map_map. apply map_ext_in. intros e He. unfold g. destruct (Z.ltb_spec 0 (snd e)); [|reflexivity]. cbn [fst snd]. rewrite <- iter_S_r. f_equal. lia.
    + intros e He. apply in_map_iff in He. destruct He as (e1 & <- & He1). destruct (Hl e1 He1) as [Hr Hs]. unfold g. destruct (Z.ltb_spec 0 (snd e1)); cbn [fst snd]; [|split; [assumption|lia]]. split; [now apply good_look|lia].
    + lia.
  - f_equal. apply map_ext_in. intros e He. destruct (Z.ltb_spec 0 (snd e)) as [H|H].
    + exfalso. assert (existsb (fun e => 0 <? snd e) l = true) by (apply existsb_exists; exists e; split; [assumption | lia]). congruence.
    + replace (Z.to_nat (snd e)) with O by lia. reflexivity.
Qed.
Lemma state_rot s : In s states -> 0 <= fst s < 24 /\ (snd s = 1 \/ snd s = -1).
Proof.
  intro H. unfold states in H. apply in_flat_map in H. destruct H as (r & Hr & H). apply In_zseq in Hr. destruct H as [<-|[<-|[]]]; cbn; lia.
Qed.
Lemma rots_small q : 0 <= q < 8 -> (Z.to_nat (look rotx_table q) < FUEL)%nat /\ (Z.to_nat (look roty_table q) < FUEL)%nat /\ py_nth rotx_table q = Ok (look rotx_table q) /\ py_nth roty_table q = Ok (look roty_table q) /\ py_nth sense_table q = Ok (look sense_table q).
Proof.
  intro H. assert (forallb (fun q => (Z.to_nat (look rotx_table q) <? FUEL)%nat && (Z.to_nat (look roty_table q) <? FUEL)%nat) octants = true) as F by (vm_compute; reflexivity).
  rewrite forallb_forall in F. specialize (F q). rewrite andb_true_iff, !Nat.ltb_lt in F. destruct F as [F1 F2]; [apply In_zseq; lia|].
  split; [assumption|]. split; [assumption|]. repeat split; apply py_nth_ok; unfold zlen; cbn; lia.
Qed.

(** *** wrapping *)
Lemma wrap64_eq a b : a mod 2 ^ 64 = b mod 2 ^ 64 -> wrap64 a = wrap64 b.
Proof. intro H. unfold wrap64. f_equal. rewrite Z.add_mod, H, <- Z.add_mod by lia. reflexivity. Qed.
Lemma wrap64_mod a : wrap64 a mod 2 ^ 64 = a mod 2 ^ 64.
Proof. unfold wrap64. rewrite Zminus_mod_idemp_l. f_equal. lia. Qed.
Lemma wrap64_id a : 0 <= a < 2 ^ 63 -> wrap64 a = a.
Proof. intro H. unfold wrap64. rewrite Z.mod_small; lia. Qed.
Lemma wrap64_affine a m d : wrap64 (wrap64 a * m + d) = wrap64 (a * m + d).
Proof.
  apply wrap64_eq. rewrite <- (Z.add_mod_idemp_l (wrap64 a * m)), <- (Z.add_mod_idemp_l (a * m)) by lia. rewrite <- (Z.mul_mod_idemp_l (wrap64 a)), wrap64_mod, Z.mul_mod_idemp_l by lia. reflexivity.
Qed.
Lemma wrap64_add a d : wrap64 (wrap64 a + d) = wrap64 (a + d).
Proof. pose proof (wrap64_affine a 1 d) as H. now rewrite !Z.mul_1_r in H. Qed.
Lemma wrap32_eq a b : a mod 2 ^ 32 = b mod 2 ^ 32 -> wrap32 a = wrap32 b.
Proof. intro H. unfold wrap32. f_equal. rewrite Z.add_mod, H, <- Z.add_mod by lia. reflexivity. Qed.
Lemma wrap32_mod a : wrap32 a mod 2 ^ 32 = a mod 2 ^ 32.
Proof. unfold wrap32. rewrite Zminus_mod_idemp_l. f_equal. lia. Qed.
Lemma wrap32_id a : 0 <= a < 2 ^ 31 -> wrap32 a = a.
Proof. intro H. unfold wrap32. rewrite Z.mod_small; lia. Qed.
Lemma wrap32_affine a m d : wrap32 (wrap32 a * m + d) = wrap32 (a * m + d).
Proof.
  apply wrap32_eq. rewrite <- (Z.add_mod_idemp_l (wrap32 a * m)), <- (Z.add_mod_idemp_l (a * m)) by lia. rewrite <- (Z.mul_mod_idemp_l (wrap32 a)), wrap32_mod, Z.mul_mod_idemp_l by lia. reflexivity.
Qed.
Lemma wrap32_add a d : wrap32 (wrap32 a + d) = wrap32 (a + d).
Proof. pose proof (wrap32_affine a 1 d) as H. now rewrite !Z.mul_1_r in H. Qed.

(** *** one level of the key *)
Definition kstate (s : kst) : state := (k_rot s, k_sense s).
Lemma where_bit_tb x n : where_bit x (2 ^ Z.of_nat n) = tb x n.
Proof.
  unfold where_bit, tb. destruct (Z.testbit x (Z.of_nat n)) eqn:T.
  - replace (Z.land x (2 ^ Z.of_nat n) =? 0) with false; [reflexivity|]. symmetry. apply Z.eqb_neq. intro H. assert (Z.testbit (Z.land x (2 ^ Z.of_nat n)) (Z.of_nat n) = true) as E by (rewrite Z.land_spec, T, Z.pow2_bits_true by lia; reflexivity). rewrite H, Z.bits_0 in E. discriminate.
  - replace (Z.land x (2 ^ Z.of_nat n) =? 0) with true; [reflexivity|]. symmetry. apply Z.eqb_eq. apply Z.bits_inj'. intros i Hi. rewrite Z.land_spec, Z.bits_0. destruct (Z.eq_dec i (Z.of_nat n)) as [->|Hne]; [now rewrite T|]. rewrite Z.pow2_bits_false by lia. apply andb_false_r.
Qed.
Definition kq (n : nat) (s : kst) : Z := quad (kstate s) (oct n (k_pos s)).
Definition kdig (n : nat) (s : kst) : kst := {| k_pos := k_pos s; k_key := wrap64 (k_key s * 8 + digit (kstate s) (oct n (k_pos s))); k_rot := k_rot s; k_sense := k_sense s * look sense_table (kq n s) |}.
Definition knext (n : nat) (s : kst) : kst := set_rot (kdig n s) (turn (kq n s) (k_rot s)).
Lemma knext_state n s : kstate (knext n s) = next (kstate s) (oct n (k_pos s)).
Proof. reflexivity. Qed.
Lemma key_digit_ok n s : In (kstate s) states -> key_digit (2 ^ Z.of_nat n) s = Ok (kdig n s, (look rotx_table (kq n s), look roty_table (kq n s))).
Proof.
  intro Hs. unfold key_digit, kdig. destruct (k_pos s) as [[x y] z] eqn:Ep. rewrite !where_bit_tb.
  pose proof (oct_range n (x, y, z)) as Ho. destruct (f1 _ _ Hs Ho) as (Hd & Hn & _ & Hq & _). pose proof (state_rot _ Hs) as [Hr _]. cbn [kstate fst] in Hr.
  replace (8 * k_rot s + 4 * tb x n + 2 * tb y n + tb z n) with (8 * k_rot s + oct n (x, y, z)) by (unfold oct; lia).
  rewrite (py_nth_ok _ _ 0) by (change (zlen quadrants) with 192; lia). cbn [bind].
  assert (nth (Z.to_nat (8 * k_rot s + oct n (x, y, z))) quadrants 0 = kq n s) as -> by (unfold kq; rewrite Ep; reflexivity).
  assert (0 <= kq n s < 8) as Hk by (unfold kq; rewrite Ep; exact Hq).
  destruct (rots_small _ Hk) as (_ & _ & -> & -> & ->). cbn [bind]. rewrite wrap64_add. unfold kq. rewrite Ep. reflexivity.
Qed.
Lemma turn_eq q r : turn q r = Nat.iter (Z.to_nat (look roty_table q)) (look rotymap_table) (Nat.iter (Z.to_nat (look rotx_table q)) (look rotxmap_table) r).
Proof. reflexivity. Qed.
Lemma half_pow n : Z.shiftr (2 ^ Z.of_nat (S n)) 1 = 2 ^ Z.of_nat n.
Proof. rewrite Z.shiftr_div_pow2 by lia. rewrite pow2S, Z.pow_1_r, Z.mul_comm. apply Z.div_mul. lia. Qed.
Fixpoint kT (n : nat) (s : kst) : kst := match n with O => s | S n' => kT n' (knext n' s) end.
Lemma kq_range n s : In (kstate s) states -> 0 <= kq n s < 8.
Proof. intro Hs. pose proof (oct_range n (k_pos s)) as Ho. now destruct (f1 _ _ Hs Ho) as (_ & _ & _ & Hq & _). Qed.
Lemma key_loop_ok n : forall s, In (kstate s) states -> key_loop n (Z.shiftr (2 ^ Z.of_nat n) 1) s = Ok (kT n s).
Proof.
  induction n as [|n IH]; intros s Hs; [reflexivity|]. cbn [key_loop kT]. rewrite half_pow, key_digit_ok by assumption. cbn [bind fst snd].
  destruct (rots_small _ (kq_range n s Hs)) as (Hx & Hy & _). pose proof (state_rot _ Hs) as [Hr _]. cbn [kstate fst] in Hr.
  rewrite (rotate_ok _ good_x) by assumption. cbn [bind]. rewrite (rotate_ok _ good_y) by (first [assumption | apply iter_range; [exact good_x | assumption]]). cbn [bind].
  apply (IH (knext n s)). rewrite knext_state. apply next_ok; [assumption | apply oct_range].
Qed.
Lemma combine_maps {X Y Z0} (f : X -> Y) (g : X -> Z0) l : combine (map f l) (map g l) = map (fun x => (f x, g x)) l.
Proof. induction l as [|x l IH]; [reflexivity|]. cbn. now rewrite IH. Qed.
Lemma zipwith_maps {X Y Z0 W} (h : Y -> Z0 -> W) (f : X -> Y) (g : X -> Z0) l : zipwith h (map f l) (map g l) = map (fun x => h (f x) (g x)) l.
Proof. induction l as [|x l IH]; [reflexivity|]. cbn. now rewrite IH. Qed.
Lemma key_loop_array_ok n : forall l, Forall (fun s => In (kstate s) states) l -> key_loop_array n (Z.shiftr (2 ^ Z.of_nat n) 1) l = Ok (map (kT n) l).
Proof.
  induction n as [|n IH]; intros l Hl; [cbn; now rewrite map_id|]. rewrite Forall_forall in Hl. cbn [key_loop_array]. rewrite half_pow.
  rewrite (mapM_map_ok _ (fun s => (kdig n s, (look rotx_table (kq n s), look roty_table (kq n s))))) by (intros s Hs; apply key_digit_ok; now apply Hl). cbn [bind]. rewrite !map_map. cbn [fst snd].
  rewrite (rotate_any_ok _ good_x).
  2: { intros e He. apply in_map_iff in He. destruct He as (s & <- & Hs). apply Hl in Hs. cbn [fst snd kdig k_rot]. destruct (rots_small _ (kq_range n s Hs)) as (Hx & _). pose proof (state_rot _ Hs) as [Hr _]. split; assumption. }
  2: unfold FUEL; lia.
  cbn [bind]. rewrite map_map. cbn [fst snd]. rewrite combine_maps. rewrite (rotate_any_ok _ good_y).
  2: { intros e He. apply in_map_iff in He. destruct He as (s & <- & Hs). apply Hl in Hs. cbn [fst snd kdig k_rot]. destruct (rots_small _ (kq_range n s Hs)) as (_ & Hy & _). pose proof (state_rot _ Hs) as [Hr _]. split; [apply iter_range; [exact good_x | exact Hr] | assumption]. }
  2: unfold FUEL; lia.
  cbn [bind]. rewrite map_map. cbn [fst snd]. rewrite zipwith_maps. rewrite IH.
  - f_equal. rewrite map_map. reflexivity.
  - apply Forall_forall. intros s' Hs'. apply in_map_iff in Hs'. destruct Hs' as (s & <- & Hs). apply Hl in Hs. change (In (kstate (knext n s)) states). rewrite knext_state. apply next_ok; [assumption | apply oct_range].
Qed.
Lemma kT_key n : forall s, k_key (kT n s) = match n with O => k_key s | _ => wrap64 (k_key s * 8 ^ Z.of_nat n + K n (kstate s) (k_pos s)) end.
Proof.
  induction n as [|n IH]; intro s; [reflexivity|]. cbn [kT]. rewrite IH. destruct n as [|n].
  - cbn [K knext set_rot kdig k_key]. change (8 ^ Z.of_nat 1) with 8. change (8 ^ Z.of_nat 0) with 1. f_equal. lia.
  - rewrite knext_state. cbn [knext set_rot kdig k_key k_pos]. rewrite wrap64_affine. f_equal. rewrite (pow8S (S n)). cbn [K]. lia.
Qed.
Definition s0 : state := (0, 1).
Lemma s0_in : In s0 states. Proof. apply in_states_ok. reflexivity. Qed.
Definition pwrap (p : Z * Z * Z) : Z * Z * Z := let '(x, y, z) := p in (wrap32 x, wrap32 y, wrap32 z).
Definition the_key (n : nat) (p : Z * Z * Z) : Z := wrap64 (K n s0 (pwrap p)).
Lemma init_key n p : (1 <= n)%nat -> k_key (kT n (key_init p)) = the_key n p.
Proof.
  intro H. rewrite kT_key. destruct n as [|n]; [lia|]. destruct p as [[x y] z]. unfold key_init, the_key, pwrap, kstate. cbn [k_key k_pos k_rot k_sense]. rewrite Z.mul_0_l, Z.add_0_l. reflexivity.
Qed.
Lemma init_state p : In (kstate (key_init p)) states.
Proof. destruct p as [[x y] z]. exact s0_in. Qed.
Lemma first_mask bits : 1 <= bits -> Z.shiftl 1 (bits - 1) = Z.shiftr (2 ^ Z.of_nat (Z.to_nat bits)) 1.
Proof.
  intro H. destruct (Z.to_nat bits) as [|n] eqn:E; [lia|]. rewrite half_pow, Z.shiftl_mul_pow2 by lia. rewrite Z.mul_1_l. f_equal. lia.
Qed.
Lemma key_scalar_ok bits p : 1 <= bits <= 31 -> key_scalar bits p = Ok (the_key (Z.to_nat bits) p).
Proof.
  intro H. unfold key_scalar, bits_ok. replace ((1 <=? bits) && (bits <=? 31)) with true by lia. cbn [check bind]. rewrite first_mask by lia. rewrite key_loop_ok by apply init_state. cbn [bind]. f_equal. apply init_key. lia.
Qed.
Lemma key_block_ok bits ps : key_block bits ps = if (1 <=? bits) && (bits <=? 31) then Ok (map (the_key (Z.to_nat bits)) ps) else Err EValue.
Proof.
  unfold key_block, bits_ok. destruct ((1 <=? bits) && (bits <=? 31)) eqn:B; [|reflexivity]. cbn [check bind]. rewrite first_mask by lia. rewrite key_loop_array_ok.
  - cbn [bind]. f_equal. rewrite !map_map. apply map_ext. intro p. apply init_key. lia.
  - apply Forall_forall. intros s Hs. apply in_map_iff in Hs. destruct Hs as (p & <- & _). apply init_state.
Qed.
Lemma mapM_Err {A B} (f : A -> res B) e l : l <> [] -> (forall x, f x = Err e) -> mapM f l = Err e.
Proof. intros Hl Hf. destruct l as [|x l]; [contradiction|]. cbn [mapM]. now rewrite Hf. Qed.
Lemma key_block_mapM bits ps : ps <> [] -> key_block bits ps = mapM (key_scalar bits) ps.
Proof.
  intro Hne. rewrite key_block_ok. destruct ((1 <=? bits) && (bits <=? 31)) eqn:B.
  - symmetry. apply mapM_map_ok. intros p _. apply key_scalar_ok. lia.
  - symmetry. apply mapM_Err; [assumption|]. intro p. unfold key_scalar, bits_ok. rewrite B. reflexivity.
Qed.

(** *** one level of the inverse *)
Lemma inv_tables junk : quadrants_inverse_x junk = inv_x /\ quadrants_inverse_y junk = inv_y /\ quadrants_inverse_z junk = inv_z.
Proof. repeat split; vm_compute; reflexivity. Qed.
Lemma inv_len : zlen inv_x = 192 /\ zlen inv_y = 192 /\ zlen inv_z = 192.
Proof. repeat split; vm_compute; reflexivity. Qed.
Section Inv.
  Variable junk : Z.
  Definition istate (s : ist) : state := (i_rot s, i_sense s).
  Definition iq (n : nat) (s : ist) : Z := flip (istate s) (part n (i_key s)).
  Definition iadd (p : Z * Z * Z) (s : state) (q : Z) : Z * Z * Z := let '(x, y, z) := p in (wrap32 (x * 2 + ibx s q), wrap32 (y * 2 + iby s q), wrap32 (z * 2 + ibz s q)).
  Definition idig (n : nat) (s : ist) : ist := {| i_key := i_key s; i_pos := iadd (i_pos s) (istate s) (iq n s); i_rot := i_rot s; i_sense := i_sense s * look sense_table (iq n s) |}.
  Definition inext (n : nat) (s : ist) : ist := set_irot (idig n s) (turn (iq n s) (i_rot s)).
  Lemma iq_range n s : In (istate s) states -> 0 <= iq n s < 8.
  Proof. intro Hs. destruct (f2 _ _ Hs (part_range n (i_key s))) as (_ & _ & _ & _ & _ & H & _). exact H. Qed.
  Lemma inext_state n s : In (istate s) states -> istate (inext n s) = next (istate s) (undigit (istate s) (part n (i_key s))).
  Proof. intro Hs. destruct (f2 _ _ Hs (part_range n (i_key s))) as (_ & _ & _ & _ & _ & _ & E). unfold next. rewrite E. reflexivity. Qed.
  Lemma inext_ok n s : In (istate s) states -> In (istate (inext n s)) states.
  Proof. intro Hs. rewrite inext_state by assumption. apply next_ok; [assumption|]. now destruct (f2 _ _ Hs (part_range n (i_key s))). Qed.
  Lemma keypart_ok k n : Z.shiftr (Z.land k (7 * 8 ^ Z.of_nat n)) (3 * Z.of_nat n) = part n k.
  Proof.
    unfold part. replace (7 * 8 ^ Z.of_nat n) with (Z.shiftl 7 (3 * Z.of_nat n)) by (rewrite Z.shiftl_mul_pow2 by lia; rewrite (Z.pow_mul_r 2 3) by lia; reflexivity).
    rewrite Z.shiftr_land, Z.shiftr_shiftl_l by lia. rewrite Z.sub_diag, Z.shiftl_0_r. change 7 with (Z.ones 3). rewrite Z.land_ones by lia. rewrite Z.shiftr_div_pow2 by lia. rewrite (Z.pow_mul_r 2 3) by lia. reflexivity.
  Qed.
  Lemma inv_digit_ok n s : In (istate s) states -> inv_digit junk (7 * 8 ^ Z.of_nat n) (3 * Z.of_nat n) s = Ok (idig n s, (look rotx_table (iq n s), look roty_table (iq n s))).
  Proof.
    intro Hs. unfold inv_digit, idig. rewrite keypart_ok. change (if i_sense s =? 1 then part n (i_key s) else 7 - part n (i_key s)) with (iq n s). cbv zeta.
    pose proof (iq_range n s Hs) as Hq. pose proof (state_rot _ Hs) as [Hr _]. cbn [istate fst] in Hr. destruct (inv_tables junk) as (-> & -> & ->). destruct inv_len as (Lx & Ly & Lz).
    destruct (i_pos s) as [[x y] z]. rewrite !(py_nth_ok _ _ 0) by lia. cbn [bind]. destruct (rots_small _ Hq) as (_ & _ & -> & -> & ->). cbn [bind]. rewrite !wrap32_add. reflexivity.
  Qed.
  Fixpoint iT (n : nat) (s : ist) : ist := match n with O => s | S n' => iT n' (inext n' s) end.
  Lemma eighth_pow n : Z.shiftr (7 * 8 ^ Z.of_nat (S n)) 3 = 7 * 8 ^ Z.of_nat n.
  Proof. rewrite Z.shiftr_div_pow2 by lia. rewrite pow8S. change (2 ^ 3) with 8. rewrite Z.mul_assoc, (Z.mul_comm 7), <- Z.mul_assoc, Z.mul_comm. apply Z.div_mul. lia. Qed.
  Lemma shift_S n : 3 * Z.of_nat (S n) - 3 = 3 * Z.of_nat n. Proof. lia. Qed.
  Lemma inv_loop_ok n : forall s, In (istate s) states -> inv_loop junk n (Z.shiftr (7 * 8 ^ Z.of_nat n) 3) (3 * Z.of_nat n - 3) s = Ok (iT n s).
  Proof.
    induction n as [|n IH]; intros s Hs; [reflexivity|]. cbn [inv_loop iT]. rewrite eighth_pow, shift_S, inv_digit_ok by assumption. cbn [bind fst snd].
    destruct (rots_small _ (iq_range n s Hs)) as (Hx & Hy & _). pose proof (state_rot _ Hs) as [Hr _]. cbn [istate fst] in Hr.
    rewrite (rotate_ok _ good_x) by assumption. cbn [bind]. rewrite (rotate_ok _ good_y) by (first [assumption | apply iter_range; [exact good_x | assumption]]). cbn [bind].
    apply (IH (inext n s)). now apply inext_ok.
  Qed.
  Lemma inv_loop_array_ok n : forall l, Forall (fun s => In (istate s) states) l -> inv_loop_array junk n (Z.shiftr (7 * 8 ^ Z.of_nat n) 3) (3 * Z.of_nat n - 3) l = Ok (map (iT n) l).
  Proof.
    induction n as [|n IH]; intros l Hl; [cbn; now rewrite map_id|]. rewrite Forall_forall in Hl. cbn [inv_loop_array]. rewrite eighth_pow, shift_S.
    rewrite (mapM_map_ok _ (fun s => (idig n s, (look rotx_table (iq n s), look roty_table (iq n s))))) by (intros s Hs; apply inv_digit_ok; now apply Hl). cbn [bind]. rewrite !map_map. cbn [fst snd].
    rewrite (rotate_any_ok _ good_x).
    2: { intros e He. apply in_map_iff in He. destruct He as (s & <- & Hs). apply Hl in Hs. cbn [fst snd idig i_rot]. destruct (rots_small _ (iq_range n s Hs)) as (Hx & _). pose proof (state_rot _ Hs) as [Hr _]. split; assumption. }
    2: unfold FUEL; lia.
    cbn [bind]. rewrite map_map. cbn [fst snd]. rewrite combine_maps. rewrite (rotate_any_ok _ good_y).
    2: { intros e He. apply in_map_iff in He. destruct He as (s & <- & Hs). apply Hl in Hs. cbn [fst snd idig i_rot]. destruct (rots_small _ (iq_range n s Hs)) as (_ & Hy & _). pose proof (state_rot _ Hs) as [Hr _]. split; [apply iter_range; [exact good_x | exact Hr] | assumption]. }
    2: unfold FUEL; lia.
    cbn [bind]. rewrite map_map. cbn [fst snd]. rewrite zipwith_maps. rewrite IH.
    - f_equal. rewrite map_map. reflexivity.
    - apply Forall_forall. intros s' Hs'. apply in_map_iff in Hs'. destruct Hs' as (s & <- & Hs). apply Hl in Hs. change (In (istate (inext n s)) states). now apply inext_ok.
  Qed.
  Definition pscale (p : Z * Z * Z) (n : nat) (q : Z * Z * Z) : Z * Z * Z := let '(x, y, z) := p in let '(u, v, w) := q in (x * 2 ^ Z.of_nat n + u, y * 2 ^ Z.of_nat n + v, z * 2 ^ Z.of_nat n + w).
  Lemma iT_pos n : forall s, In (istate s) states -> i_pos (iT n s) = match n with O => i_pos s | _ => pwrap (pscale (i_pos s) n (I n (istate s) (i_key s))) end.
  Proof.
    induction n as [|n IH]; intros s Hs; [reflexivity|]. cbn [iT]. rewrite IH by (now apply inext_ok). rewrite inext_state by assumption.
    destruct (f2 _ _ Hs (part_range n (i_key s))) as (_ & _ & Ex & Ey & Ez & _). cbn [I]. cbv zeta. change (i_key (inext n s)) with (i_key s).
    assert (i_pos (inext n s) = iadd (i_pos s) (istate s) (iq n s)) as -> by reflexivity. unfold iq.
    destruct (i_pos s) as [[x y] z]. unfold iadd. rewrite Ex, Ey, Ez. destruct n as [|n].
    - cbn [I padd pscale pwrap]. change (2 ^ Z.of_nat 1) with 2. change (2 ^ Z.of_nat 0) with 1. f_equal; [f_equal|]; f_equal; lia.
    - destruct (I (S n) _ _) as [[u v] w]. cbn [padd pscale pwrap]. rewrite !wrap32_affine. rewrite (pow2S (S n)). f_equal; [f_equal|]; f_equal; lia.
  Qed.
  Definition the_pos (n : nat) (k : Z) : Z * Z * Z := I n s0 k.
  Lemma init_pos n k : (1 <= n <= 31)%nat -> i_pos (iT n (inv_init k)) = the_pos n k.
  Proof.
    intro H. rewrite iT_pos by exact s0_in. destruct n as [|n]; [lia|]. unfold the_pos. change (istate (inv_init k)) with s0. cbn [inv_init i_pos i_key]. pose proof (I_range (S n) s0 k s0_in) as Hr. destruct (I (S n) s0 k) as [[x y] z]. cbn [in_grid pscale pwrap] in *. rewrite !Z.mul_0_l, !Z.add_0_l.
    assert (2 ^ Z.of_nat (S n) <= 2 ^ 31) by (apply Z.pow_le_mono_r; lia). rewrite !wrap32_id by lia. reflexivity.
  Qed.
  Lemma first_imask bits : 1 <= bits -> Z.shiftl 7 (3 * (bits - 1)) = Z.shiftr (7 * 8 ^ Z.of_nat (Z.to_nat bits)) 3 /\ 3 * (bits - 1) = 3 * Z.of_nat (Z.to_nat bits) - 3.
  Proof.
    intro H. split; [|lia]. destruct (Z.to_nat bits) as [|n] eqn:E; [lia|]. rewrite eighth_pow, Z.shiftl_mul_pow2 by lia. f_equal. rewrite Z.pow_mul_r by lia. f_equal. lia.
  Qed.
  Lemma inv_scalar_ok bits k : 1 <= bits <= 21 -> inv_scalar junk bits k = Ok (the_pos (Z.to_nat bits) k).
  Proof.
    intro H. unfold inv_scalar, bits_ok. replace ((1 <=? bits) && (bits <=? 21)) with true by lia. cbn [check bind]. cbv zeta. destruct (first_imask bits ltac:(lia)) as [-> E2]. rewrite E2. rewrite inv_loop_ok by exact s0_in. cbn [bind]. f_equal. apply init_pos. lia.
  Qed.
  Lemma inv_block_ok bits ks : inv_block junk bits ks = if (1 <=? bits) && (bits <=? 21) then Ok (map (the_pos (Z.to_nat bits)) ks) else Err EValue.
  Proof.
    unfold inv_block, bits_ok. destruct ((1 <=? bits) && (bits <=? 21)) eqn:B; [|reflexivity]. cbn [check bind]. cbv zeta. destruct (first_imask bits ltac:(lia)) as [-> E2]. rewrite E2. rewrite inv_loop_array_ok.
    - cbn [bind]. f_equal. rewrite !map_map. apply map_ext. intro p. apply init_pos. lia.
    - apply Forall_forall. intros s Hs. apply in_map_iff in Hs. destruct Hs as (p & <- & _). exact s0_in.
  Qed.
  Lemma inv_block_mapM bits ks : ks <> [] -> inv_block junk bits ks = mapM (inv_scalar junk bits) ks.
  Proof.
    intro Hne. rewrite inv_block_ok. destruct ((1 <=? bits) && (bits <=? 21)) eqn:B.
    - symmetry. apply mapM_map_ok. intros p _. apply inv_scalar_ok. lia.
    - symmetry. apply mapM_Err; [assumption|]. intro p. unfold inv_scalar, bits_ok. rewrite B. reflexivity.
  Qed.
End Inv.

(** *** blocks *)
Lemma mapM_app {A B} (g : A -> res B) a b : mapM g (a ++ b) = do x <- mapM g a; do y <- mapM g b; Ok (x ++ y).
Proof.
  induction a as [|v a IH]; cbn [app mapM bind]; [destruct (mapM g b); reflexivity|]. destruct (g v); [|reflexivity]. cbn [bind]. rewrite IH. destruct (mapM g a); [|reflexivity]. cbn [bind]. destruct (mapM g b); reflexivity.
Qed.
Lemma mapM_length {A B} (g : A -> res B) a x : mapM g a = Ok x -> length x = length a.
Proof. intro H. apply mapM_ok in H. now apply Forall2_len in H. Qed.
Lemma by_blocks_ok {A B} block (junk : B) (f : list A -> res (list B)) g l : 1 <= block -> (forall m, m <> [] -> f m = mapM g m) -> by_blocks block junk f l = mapM g l.
Proof.
  intros Hb Hf. unfold by_blocks, range_step. set (n := zlen l). set (N := Z.to_nat ((n + block - 1) / block)).
  set (body := fun (acc : res (list B)) i1 => _).
  assert (forall k, (k <= N)%nat -> fold_left body (map (Z.mul block) (zseq 0 k)) (Ok (repeat junk (length l))) =
    do o <- mapM g (firstn (Z.to_nat (block * Z.of_nat k)) l); Ok (o ++ repeat junk (length l - length o))) as H.
  { induction k as [|k IH]; intro Hk.
    - rewrite Z.mul_0_r. cbn. now rewrite Nat.sub_0_r.
    - replace (S k) with (k + 1)%nat by lia. rewrite zseq_app, map_app, fold_left_app, IH by lia. cbn [zseq map fold_left]. rewrite Z.add_0_l.
      assert (block * Z.of_nat k < n) as Hlt. { assert (Z.of_nat k + 1 <= (n + block - 1) / block) by lia. pose proof (Z.mul_div_le (n + block - 1) block ltac:(lia)). nia. }
      set (a := Z.to_nat (block * Z.of_nat k)). set (i2 := if n <? block * Z.of_nat k + block then n else block * Z.of_nat k + block).
      assert (firstn (Z.to_nat (block * Z.of_nat (k + 1))) l = firstn a l ++ zslice l (block * Z.of_nat k) i2) as Esp.
      { unfold zslice. fold a. rewrite <- (firstn_skipn a (firstn _ l)). rewrite firstn_firstn, Nat.min_l by lia. f_equal. rewrite skipn_firstn_comm. unfold i2, n, zlen. destruct (Z.ltb_spec (Z.of_nat (length l)) (block * Z.of_nat k + block)); [|f_equal; lia].
        rewrite !firstn_all2 by (rewrite skipn_length; lia). reflexivity. }
      rewrite Esp, mapM_app. unfold body at 1. destruct (mapM g (firstn a l)) as [o|e] eqn:Eo; [|reflexivity]. cbn [bind]. fold n i2. rewrite Hf.
      2: { intro E. apply (f_equal (@length A)) in E. unfold zslice in E. rewrite firstn_length, skipn_length in E. cbn in E. unfold i2, n, zlen in *. destruct (Z.ltb_spec (Z.of_nat (length l)) (block * Z.of_nat k + block)); lia. }
      destruct (mapM g (zslice l (block * Z.of_nat k) i2)) as [p|e] eqn:Ep; [|reflexivity]. cbn [bind]. f_equal. apply mapM_length in Eo. apply mapM_length in Ep. unfold zslice in Ep. rewrite firstn_length, skipn_length in Ep. rewrite firstn_length in Eo.
      unfold write_at. fold a. unfold n, zlen in Hlt. assert (length o = a) as Eo' by lia. rewrite firstn_app, <- Eo', Nat.sub_diag, firstn_all, firstn_O, app_nil_r. rewrite <- app_assoc. f_equal. f_equal.
      rewrite skipn_app, skipn_all2 by lia. cbn [app]. rewrite app_length. replace (length o + length p - length o)%nat with (length p) by lia.
      replace (length l - length o)%nat with (length p + (length l - (length o + length p)))%nat.
      + rewrite repeat_app, skipn_app, skipn_all2 by (rewrite repeat_length; lia). rewrite repeat_length, Nat.sub_diag. reflexivity.
      + fold a in Ep. assert (Z.to_nat i2 <= length l)%nat by (unfold i2, n, zlen; destruct (Z.ltb_spec (Z.of_nat (length l)) (block * Z.of_nat k + block)); lia). lia. }
  rewrite H by lia. assert (n <= block * Z.of_nat N) as Hge.
  { unfold N. pose proof (Z.mul_succ_div_gt (n + block - 1) block ltac:(lia)). assert (0 <= n) by (unfold n; apply zlen_nonneg). assert (0 <= (n + block - 1) / block) by (apply Z.div_pos; lia). rewrite Z2Nat.id by lia. nia. }
  rewrite firstn_all2 by (unfold n, zlen in Hge; lia). destruct (mapM g l) as [o|e] eqn:E; [|reflexivity]. cbn [bind]. apply mapM_length in E. rewrite E, Nat.sub_diag. cbn. now rewrite app_nil_r.
Qed.
Lemma keys_elementwise junk bits ps : peano_hilbert_keys junk bits ps = mapM (key_scalar bits) ps.
Proof. apply by_blocks_ok; [unfold blocksize; lia | apply key_block_mapM]. Qed.
Lemma keys_blocks block junk bits ps : 1 <= block -> by_blocks block junk (key_block bits) ps = mapM (key_scalar bits) ps.
Proof. intro H. apply by_blocks_ok; [assumption | apply key_block_mapM]. Qed.
Lemma inverses_elementwise junk bits ks : peano_hilbert_key_inverses junk bits ks = mapM (inv_scalar junk bits) ks.
Proof. apply by_blocks_ok; [unfold blocksize; lia | apply inv_block_mapM]. Qed.

(** *** the properties *)
Definition grid (bits : Z) (p : Z * Z * Z) : Prop := let '(x, y, z) := p in 0 <= x < 2 ^ bits /\ 0 <= y < 2 ^ bits /\ 0 <= z < 2 ^ bits.
Lemma grid_in bits p : 0 <= bits -> grid bits p -> in_grid (Z.to_nat bits) p.
Proof. intros Hb H. destruct p as [[x y] z]. unfold grid, in_grid in *. rewrite Z2Nat.id by lia. exact H. Qed.
Lemma in_grid_of bits p : 0 <= bits -> in_grid (Z.to_nat bits) p -> grid bits p.
Proof. intros Hb H. destruct p as [[x y] z]. unfold grid, in_grid in *. rewrite Z2Nat.id in H by lia. exact H. Qed.
Lemma pwrap_grid bits p : 1 <= bits <= 31 -> grid bits p -> pwrap p = p.
Proof.
  intros Hb H. destruct p as [[x y] z]. cbn [grid pwrap] in *. assert (2 ^ bits <= 2 ^ 31) by (apply Z.pow_le_mono_r; lia). rewrite !wrap32_id by lia. reflexivity.
Qed.
Lemma the_key_K bits p : 1 <= bits <= 21 -> grid bits p -> the_key (Z.to_nat bits) p = K (Z.to_nat bits) s0 p.
Proof.
  intros Hb Hp. unfold the_key. rewrite (pwrap_grid bits) by (assumption || lia). apply wrap64_id. pose proof (K_range (Z.to_nat bits) s0 p s0_in) as H. assert (8 ^ Z.of_nat (Z.to_nat bits) <= 8 ^ 21) by (apply Z.pow_le_mono_r; lia). change (2 ^ 63) with (8 ^ 21). lia.
Qed.
Lemma keys_ok junk bits ps : 1 <= bits <= 21 -> Forall (grid bits) ps -> peano_hilbert_keys junk bits ps = Ok (map (K (Z.to_nat bits) s0) ps).
Proof.
  intros Hb H. rewrite keys_elementwise. apply mapM_map_ok. intros p Hp. rewrite Forall_forall in H. rewrite key_scalar_ok by lia. f_equal. apply the_key_K; auto.
Qed.
Lemma inverses_ok junk bits ks : 1 <= bits <= 21 -> peano_hilbert_key_inverses junk bits ks = Ok (map (I (Z.to_nat bits) s0) ks).
Proof. intros Hb. rewrite inverses_elementwise. apply mapM_map_ok. intros k _. now apply inv_scalar_ok. Qed.
Lemma pmod_id n p : in_grid n p -> pmod n p = p.
Proof. destruct p as [[x y] z]. cbn [in_grid pmod]. intros (H1 & H2 & H3). now rewrite !Z.mod_small. Qed.
Lemma inverse_of_keys junk junk' bits ps : 1 <= bits <= 21 -> Forall (grid bits) ps ->
  exists keys, peano_hilbert_keys junk bits ps = Ok keys /\ Forall (fun k => 0 <= k < 8 ^ bits) keys /\ peano_hilbert_key_inverses junk' bits keys = Ok ps.
Proof.
  intros Hb H. eexists. split; [now apply keys_ok|]. split.
  - apply Forall_forall. intros k Hk. apply in_map_iff in Hk. destruct Hk as (p & <- & _). pose proof (K_range (Z.to_nat bits) s0 p s0_in) as Hr. rewrite Z2Nat.id in Hr by lia. exact Hr.
  - rewrite inverses_ok by assumption. f_equal. rewrite map_map. rewrite <- (map_id ps) at 2. apply map_ext_in. intros p Hp. rewrite Forall_forall in H. rewrite I_K by exact s0_in. apply pmod_id. apply grid_in; [lia | auto].
Qed.
Lemma keys_of_inverse junk junk' bits ks : 1 <= bits <= 21 -> Forall (fun k => 0 <= k < 8 ^ bits) ks ->
  exists ps, peano_hilbert_key_inverses junk' bits ks = Ok ps /\ Forall (grid bits) ps /\ peano_hilbert_keys junk bits ps = Ok ks.
Proof.
  intros Hb H. eexists. split; [now apply inverses_ok|].
  assert (Forall (grid bits) (map (I (Z.to_nat bits) s0) ks)) as Hg.
  { apply Forall_forall. intros p Hp. apply in_map_iff in Hp. destruct Hp as (k & <- & _). apply in_grid_of; [lia|]. apply I_range. exact s0_in. }
  split; [assumption|]. rewrite keys_ok by assumption. f_equal. rewrite map_map. rewrite <- (map_id ks) at 2. apply map_ext_in. intros k Hk. rewrite Forall_forall in H. rewrite K_I by exact s0_in. rewrite Z2Nat.id by lia. apply Z.mod_small. auto.
Qed.
Lemma scalar_bijection junk bits p k : 1 <= bits <= 21 -> grid bits p -> 0 <= k < 8 ^ bits -> (key_scalar bits p = Ok k <-> inv_scalar junk bits k = Ok p).
Proof.
  intros Hb Hp Hk. rewrite key_scalar_ok by lia. rewrite inv_scalar_ok, the_key_K by assumption. unfold the_pos. split; intro E; injection E as E; f_equal.
  - rewrite <- E, I_K by exact s0_in. apply pmod_id. apply grid_in; [lia | auto].
  - rewrite <- E, K_I by exact s0_in. rewrite Z2Nat.id by lia. apply Z.mod_small. auto.
Qed.
Lemma keys_injective junk bits p q : 1 <= bits <= 21 -> grid bits p -> grid bits q -> peano_hilbert_keys junk bits [p] = peano_hilbert_keys junk bits [q] -> p = q.
Proof.
  intros Hb Hp Hq E. destruct (inverse_of_keys junk 0 bits [p] Hb) as (k & E1 & _ & I1); [auto|]. destruct (inverse_of_keys junk 0 bits [q] Hb) as (k' & E2 & _ & I2); [auto|]. rewrite E1, E2 in E. injection E as <-. rewrite I1 in I2. now injection I2.
Qed.
Lemma adjacent junk bits k : 1 <= bits <= 21 -> 0 <= k -> k + 1 < 8 ^ bits ->
  exists p q, peano_hilbert_key_inverses junk bits [k; k + 1] = Ok [p; q] /\ dist p q = 1.
Proof.
  intros Hb H0 Hk. rewrite inverses_ok by assumption. cbn [map]. do 2 eexists. split; [reflexivity|]. apply I_adjacent; [exact s0_in | assumption | now rewrite Z2Nat.id by lia].
Qed.
Lemma hierarchy junk bits m ps : 1 <= bits -> 0 <= m -> bits + m <= 21 -> Forall (grid (bits + m)) ps ->
  exists fine, peano_hilbert_keys junk (bits + m) ps = Ok fine /\
    peano_hilbert_keys junk bits (map (fun p => let '(x, y, z) := p in (Z.shiftr x m, Z.shiftr y m, Z.shiftr z m)) ps) = Ok (map (fun k => Z.shiftr k (3 * m)) fine).
Proof.
  intros Hb Hm Hs H. eexists. split; [apply keys_ok; [lia | assumption]|]. rewrite Forall_forall in H. rewrite keys_ok; [|lia|].
  - f_equal. rewrite !map_map. apply map_ext_in. intros p Hp. assert ((let '(x, y, z) := p in (Z.shiftr x m, Z.shiftr y m, Z.shiftr z m)) = pdiv p (Z.to_nat m)) as ->.
    { destruct p as [[x y] z]. unfold pdiv. rewrite Z2Nat.id by lia. now rewrite !Z.shiftr_div_pow2 by lia. }
    rewrite K_coarse by exact s0_in. rewrite Z.shiftr_div_pow2 by lia. rewrite (Z.pow_mul_r 2 3) by lia. change (2 ^ 3) with 8. rewrite Z2Nat.id by lia. f_equal. f_equal. lia.
  - apply Forall_forall. intros p' Hp'. apply in_map_iff in Hp'. destruct Hp' as (p & <- & Hp). specialize (H p Hp). destruct p as [[x y] z]. cbn [grid] in *. rewrite !Z.shiftr_div_pow2 by lia. rewrite Z.pow_add_r in H by lia. assert (0 < 2 ^ m) by (apply Z.pow_pos_nonneg; lia).
    assert (forall v, 0 <= v < 2 ^ bits * 2 ^ m -> 0 <= v / 2 ^ m < 2 ^ bits) as Hd. { intros v Hv. split; [apply Z.div_pos; lia | apply Z.div_lt_upper_bound; lia]. }
    destruct H as (H1 & H2 & H3). auto.
Qed.
