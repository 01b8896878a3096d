(** The Peano-Hilbert curve as a map of digit sequences. *)
From Verif.Base Require Import Prelude ListLemmas.
From Verif.Peano Require Import PeanoModel.
From Coq Require Import ZifyBool ZifyNat.
Local Open Scope Z_scope.

Definition state : Type := Z * Z.
Definition states : list state := flat_map (fun r => [(r, 1); (r, -1)]) (zseq 0 24).
Definition octants : list Z := zseq 0 8.
Definition look (t : list Z) (i : Z) : Z := nth (Z.to_nat i) t 0.
Definition turn (q r : Z) : Z :=
  Nat.iter (Z.to_nat (look roty_table q)) (look rotymap_table) (Nat.iter (Z.to_nat (look rotx_table q)) (look rotxmap_table) r).
(** one level: digit and state in the octant *)
Definition quad (s : state) (o : Z) : Z := look quadrants (8 * fst s + o).
Definition flip (s : state) (q : Z) : Z := if snd s =? 1 then q else 7 - q.
Definition digit (s : state) (o : Z) : Z := flip s (quad s o).
Definition sub (s : state) (q : Z) : state := (turn q (fst s), snd s * look sense_table q).
Definition next (s : state) (o : Z) : state := sub s (quad s o).
(** the tables built by the loops of lines 51-62, see [inv_tables] in PeanoProofs.v *)
Definition inv_x : list Z := Eval vm_compute in quadrants_inverse_x 0.
Definition inv_y : list Z := Eval vm_compute in quadrants_inverse_y 0.
Definition inv_z : list Z := Eval vm_compute in quadrants_inverse_z 0.
Definition ibx (s : state) (q : Z) := look inv_x (8 * fst s + q).
Definition iby (s : state) (q : Z) := look inv_y (8 * fst s + q).
Definition ibz (s : state) (q : Z) := look inv_z (8 * fst s + q).
Definition undigit (s : state) (d : Z) : Z := 4 * ibx s (flip s d) + 2 * iby s (flip s d) + ibz s (flip s d).

Definition bit3 (i o : Z) : Z := if i =? 0 then o / 4 else if i =? 1 then o / 2 mod 2 else o mod 2.

(** *** facts about the tables, checked by computation *)
Definition pairs_ok (f : state -> Z -> bool) : bool := forallb (fun s => forallb (f s) octants) states.
Lemma pairs_all f : pairs_ok f = true -> forall s o, In s states -> 0 <= o < 8 -> f s o = true.
Proof.
  intros H s o Hs Ho. unfold pairs_ok in H. rewrite forallb_forall in H. specialize (H s Hs). rewrite forallb_forall in H. apply H. apply In_zseq. lia.
Qed.
Definition in_states (s : state) : bool := existsb (fun t : state => (fst s =? fst t) && (snd s =? snd t)) states.
Lemma in_states_ok s : in_states s = true -> In s states.
Proof.
  unfold in_states. rewrite existsb_exists. intros (t & Ht & E). destruct s as [a b], t as [c d]. cbn in E. assert (a = c /\ b = d) as [-> ->] by lia. assumption.
Qed.
Definition in8 (z : Z) : bool := (0 <=? z) && (z <? 8).
Definition fact1 (s : state) (o : Z) : bool := in8 (digit s o) && in_states (next s o) && (undigit s (digit s o) =? o) && in8 (quad s o) && (flip s (digit s o) =? quad s o).
Lemma fact1_all : pairs_ok fact1 = true.
Proof. vm_compute. reflexivity. Qed.
Definition fact2 (s : state) (d : Z) : bool := in8 (undigit s d) && (digit s (undigit s d) =? d) && (ibx s (flip s d) =? bit3 0 (undigit s d)) && (iby s (flip s d) =? bit3 1 (undigit s d)) && (ibz s (flip s d) =? bit3 2 (undigit s d)) && in8 (flip s d) && (quad s (undigit s d) =? flip s d).
Lemma fact2_all : pairs_ok fact2 = true.
Proof. vm_compute. reflexivity. Qed.
(** the first (last) octant stays first (last) at the next level *)
Definition fact3 (s : state) (_ : Z) : bool := (undigit (next s (undigit s 0)) 0 =? undigit s 0) && (undigit (next s (undigit s 7)) 7 =? undigit s 7).
Lemma fact3_all : pairs_ok fact3 = true.
Proof. vm_compute. reflexivity. Qed.
(** along one axis the curve stays, or crosses the middle *)
Definition axis (i o o' e b : Z) : Z :=
  if (bit3 i o =? bit3 i o') && (bit3 i e =? bit3 i b) then 0
  else if ((bit3 i o =? 0) && (bit3 i o' =? 1) && (bit3 i e =? 1) && (bit3 i b =? 0)) || ((bit3 i o =? 1) && (bit3 i o' =? 0) && (bit3 i e =? 0) && (bit3 i b =? 1)) then 1 else 100.
Definition fact4 (s : state) (d : Z) : bool :=
  (d =? 7) ||
  (let o := undigit s d in let o' := undigit s (d + 1) in
   let e := undigit (next s o) 7 in let b := undigit (next s o') 0 in
   axis 0 o o' e b + axis 1 o o' e b + axis 2 o o' e b =? 1).
Lemma fact4_all : pairs_ok fact4 = true.
Proof. vm_compute. reflexivity. Qed.

Section Facts.
  Variables (s : state) (o : Z).
  Hypothesis Hs : In s states.
  Hypothesis Ho : 0 <= o < 8.
  Set Default Proof Using "All".
  Lemma f1 : 0 <= digit s o < 8 /\ In (next s o) states /\ undigit s (digit s o) = o /\ 0 <= quad s o < 8 /\ flip s (digit s o) = quad s o.
  Proof. pose proof (pairs_all _ fact1_all s o Hs Ho) as H. unfold fact1, in8 in H. rewrite !andb_true_iff in H. destruct H as ((((H1 & H2) & H3) & H4) & H5). apply in_states_ok in H2. repeat split; try assumption; lia. Qed.
  Lemma f2 : 0 <= undigit s o < 8 /\ digit s (undigit s o) = o /\ ibx s (flip s o) = bit3 0 (undigit s o) /\ iby s (flip s o) = bit3 1 (undigit s o) /\ ibz s (flip s o) = bit3 2 (undigit s o) /\ 0 <= flip s o < 8 /\ quad s (undigit s o) = flip s o.
  Proof. pose proof (pairs_all _ fact2_all s o Hs Ho) as H. unfold fact2, in8 in H. rewrite !andb_true_iff in H. lia. Qed.
End Facts.
Lemma f3 s : In s states -> undigit (next s (undigit s 0)) 0 = undigit s 0 /\ undigit (next s (undigit s 7)) 7 = undigit s 7.
Proof. intro Hs. pose proof (pairs_all _ fact3_all s 0 Hs ltac:(lia)) as H. unfold fact3 in H. lia. Qed.
Lemma f4 s d : In s states -> 0 <= d < 7 ->
  let o := undigit s d in let o' := undigit s (d + 1) in
  let e := undigit (next s o) 7 in let b := undigit (next s o') 0 in
  axis 0 o o' e b + axis 1 o o' e b + axis 2 o o' e b = 1.
Proof. intros Hs Hd. pose proof (pairs_all _ fact4_all s d Hs ltac:(lia)) as H. unfold fact4 in H. rewrite orb_true_iff in H. destruct H as [H|H]; [lia|]. cbv zeta in *. now apply Z.eqb_eq. Qed.
Lemma next_ok s o : In s states -> 0 <= o < 8 -> In (next s o) states.
Proof. intros Hs Ho. now destruct (f1 s o Hs Ho) as (_ & H & _). Qed.

(** *** the curve *)
Definition tb (x : Z) (n : nat) : Z := Z.b2z (Z.testbit x (Z.of_nat n)).
Definition oct (n : nat) (p : Z * Z * Z) : Z := let '(x, y, z) := p in 4 * tb x n + 2 * tb y n + tb z n.
Fixpoint K (n : nat) (s : state) (p : Z * Z * Z) : Z :=
  match n with
  | O => 0
  | S n' => digit s (oct n' p) * 8 ^ Z.of_nat n' + K n' (next s (oct n' p)) p
  end.
Definition part (n : nat) (k : Z) : Z := k / 8 ^ Z.of_nat n mod 8.
Definition padd (o : Z) (n : nat) (p : Z * Z * Z) : Z * Z * Z :=
  let '(x, y, z) := p in (bit3 0 o * 2 ^ Z.of_nat n + x, bit3 1 o * 2 ^ Z.of_nat n + y, bit3 2 o * 2 ^ Z.of_nat n + z).
Fixpoint I (n : nat) (s : state) (k : Z) : Z * Z * Z :=
  match n with
  | O => (0, 0, 0)
  | S n' => let o := undigit s (part n' k) in padd o n' (I n' (next s o) k)
  end.
Definition in_grid (n : nat) (p : Z * Z * Z) : Prop := let '(x, y, z) := p in 0 <= x < 2 ^ Z.of_nat n /\ 0 <= y < 2 ^ Z.of_nat n /\ 0 <= z < 2 ^ Z.of_nat n.
Definition pmod (n : nat) (p : Z * Z * Z) : Z * Z * Z := let '(x, y, z) := p in (x mod 2 ^ Z.of_nat n, y mod 2 ^ Z.of_nat n, z mod 2 ^ Z.of_nat n).

Lemma tb_01 x n : tb x n = 0 \/ tb x n = 1.
Proof. unfold tb. destruct (Z.testbit x (Z.of_nat n)); cbn; lia. Qed.
Lemma oct_range n p : 0 <= oct n p < 8.
Proof. destruct p as [[x y] z]. unfold oct. pose proof (tb_01 x n). pose proof (tb_01 y n). pose proof (tb_01 z n). lia. Qed.
Lemma part_range n k : 0 <= part n k < 8.
Proof. unfold part. apply Z.mod_pos_bound. lia. Qed.
Lemma bit3_oct n x y z : bit3 0 (oct n (x, y, z)) = tb x n /\ bit3 1 (oct n (x, y, z)) = tb y n /\ bit3 2 (oct n (x, y, z)) = tb z n.
Proof. unfold oct. destruct (tb_01 x n) as [-> | ->], (tb_01 y n) as [-> | ->], (tb_01 z n) as [-> | ->]; repeat split. Qed.
Lemma oct_bit3 o : 0 <= o < 8 -> 4 * bit3 0 o + 2 * bit3 1 o + bit3 2 o = o /\ (forall i, 0 <= i < 3 -> bit3 i o = 0 \/ bit3 i o = 1).
Proof.
  intro H. assert (o = 0 \/ o = 1 \/ o = 2 \/ o = 3 \/ o = 4 \/ o = 5 \/ o = 6 \/ o = 7) as D by lia.
  split; [decompose [or] D; subst o; reflexivity|]. intros i Hi. assert (i = 0 \/ i = 1 \/ i = 2) as Di by lia. destruct Di as [-> | [-> | ->]]; decompose [or] D; subst o; cbn; auto.
Qed.
Lemma pow8 n : 0 < 8 ^ Z.of_nat n. Proof. apply Z.pow_pos_nonneg; lia. Qed.
Lemma pow2 n : 0 < 2 ^ Z.of_nat n. Proof. apply Z.pow_pos_nonneg; lia. Qed.
Lemma pow8S n : 8 ^ Z.of_nat (S n) = 8 * 8 ^ Z.of_nat n. Proof. rewrite Nat2Z.inj_succ, Z.pow_succ_r; lia. Qed.
Lemma pow2S n : 2 ^ Z.of_nat (S n) = 2 * 2 ^ Z.of_nat n. Proof. rewrite Nat2Z.inj_succ, Z.pow_succ_r; lia. Qed.

Lemma K_range n : forall s p, In s states -> 0 <= K n s p < 8 ^ Z.of_nat n.
Proof.
  induction n as [|n IH]; intros s p Hs; [cbn; lia|]. cbn [K]. rewrite pow8S. pose proof (oct_range n p) as Ho. destruct (f1 s _ Hs Ho) as (Hd & Hn & _). specialize (IH _ p Hn). pose proof (pow8 n). nia.
Qed.
Lemma part_add n d k : 0 <= d < 8 -> 0 <= k < 8 ^ Z.of_nat n -> part n (d * 8 ^ Z.of_nat n + k) = d.
Proof. intros Hd Hk. unfold part. rewrite Z.div_add_l by (pose proof (pow8 n); lia). rewrite Z.div_small by assumption. rewrite Z.add_0_r. apply Z.mod_small. assumption. Qed.
Lemma part_low n m a k : (m < n)%nat -> part m (a * 8 ^ Z.of_nat n + k) = part m k.
Proof.
  intro H. unfold part. replace (8 ^ Z.of_nat n) with (8 ^ Z.of_nat (n - m - 1) * 8 * 8 ^ Z.of_nat m).
  - rewrite !Z.mul_assoc, Z.div_add_l by (pose proof (pow8 m); lia). rewrite Z.add_comm. apply Z.mod_add. lia.
  - replace (Z.of_nat n) with (Z.of_nat (n - m - 1) + 1 + Z.of_nat m) by lia. rewrite !Z.pow_add_r by lia. rewrite Z.pow_1_r. lia.
Qed.
Lemma I_low n : forall m s a k, (m <= n)%nat -> I m s (a * 8 ^ Z.of_nat n + k) = I m s k.
Proof.
  intros m. revert n. induction m as [|m IH]; intros n s a k H; [reflexivity|]. cbn [I]. rewrite part_low by lia. cbv zeta. rewrite IH by lia. reflexivity.
Qed.
Lemma xmod x n : tb x n * 2 ^ Z.of_nat n + x mod 2 ^ Z.of_nat n = x mod 2 ^ Z.of_nat (S n).
Proof.
  unfold tb. rewrite Z.testbit_spec' by lia. rewrite pow2S. rewrite (Z.mul_comm 2). rewrite Z.rem_mul_r by (pose proof (pow2 n); lia). lia.
Qed.
Lemma I_K n : forall s p, In s states -> I n s (K n s p) = pmod n p.
Proof.
  induction n as [|n IH]; intros s [[x y] z] Hs.
  - cbn [I pmod]. rewrite !Z.mod_1_r. reflexivity.
  - cbn [I K]. set (p := (x, y, z)). pose proof (oct_range n p) as Ho. destruct (f1 s _ Hs Ho) as (Hd & Hn & Hu & _).
    rewrite part_add by (try assumption; now apply K_range). rewrite Hu. cbv zeta. rewrite I_low by lia. rewrite IH by assumption. unfold p, pmod, padd. destruct (bit3_oct n x y z) as (-> & -> & ->). now rewrite !xmod.
Qed.
Lemma I_range n : forall s k, In s states -> in_grid n (I n s k).
Proof.
  induction n as [|n IH]; intros s k Hs; [cbn; lia|]. cbn [I]. pose proof (part_range n k) as Hp. destruct (f2 s _ Hs Hp) as (Ho & _). specialize (IH _ k (next_ok _ _ Hs Ho)). destruct (oct_bit3 _ Ho) as [_ Hb].
  destruct (I n _ k) as [[x y] z]. cbn [padd in_grid] in *. rewrite pow2S. pose proof (pow2 n). pose proof (Hb 0 ltac:(lia)). pose proof (Hb 1 ltac:(lia)). pose proof (Hb 2 ltac:(lia)). nia.
Qed.
Lemma tb_add n b x : b = 0 \/ b = 1 -> 0 <= x < 2 ^ Z.of_nat n -> tb (b * 2 ^ Z.of_nat n + x) n = b.
Proof.
  intros Hb Hx. unfold tb. rewrite Z.testbit_spec' by lia. rewrite Z.div_add_l by lia. rewrite Z.div_small by assumption. rewrite Z.add_0_r. apply Z.mod_small. lia.
Qed.
Lemma tb_low n m a x : (m < n)%nat -> tb (a * 2 ^ Z.of_nat n + x) m = tb x m.
Proof.
  intro H. unfold tb. rewrite !Z.testbit_spec' by lia. replace (2 ^ Z.of_nat n) with (2 ^ Z.of_nat (n - m - 1) * 2 * 2 ^ Z.of_nat m).
  - rewrite !Z.mul_assoc, Z.div_add_l by (pose proof (pow2 m); lia). rewrite Z.add_comm. apply Z.mod_add. lia.
  - replace (Z.of_nat n) with (Z.of_nat (n - m - 1) + 1 + Z.of_nat m) by lia. rewrite !Z.pow_add_r by lia. rewrite Z.pow_1_r. lia.
Qed.
Lemma K_low n o : forall m s p, (m <= n)%nat -> K m s (padd o n p) = K m s p.
Proof.
  induction m as [|m IH]; intros s p H; [reflexivity|]. cbn [K].
  assert (oct m (padd o n p) = oct m p) as E by (destruct p as [[x y] z]; unfold padd, oct; now rewrite !tb_low by lia).
  rewrite E, IH by lia. reflexivity.
Qed.
Lemma K_I n : forall s k, In s states -> K n s (I n s k) = k mod 8 ^ Z.of_nat n.
Proof.
  induction n as [|n IH]; intros s k Hs; [cbn; now rewrite Z.mod_1_r|]. cbn [I K]. cbv zeta. pose proof (part_range n k) as Hp. destruct (f2 s _ Hs Hp) as (Ho & Hd & _).
  set (o := undigit s (part n k)) in *. assert (In (next s o) states) as Hn by (now apply next_ok).
  assert (oct n (padd o n (I n (next s o) k)) = o) as E.
  { pose proof (I_range n _ k Hn) as Hr. destruct (I n (next s o) k) as [[x y] z]. cbn [padd in_grid oct] in *. destruct (oct_bit3 _ Ho) as [E Hb]. destruct Hr as (R1 & R2 & R3). rewrite !tb_add by (assumption || (apply Hb; lia)). exact E. }
  rewrite E, K_low by lia. rewrite IH by assumption. rewrite Hd. unfold part. rewrite pow8S, (Z.mul_comm 8). rewrite Z.rem_mul_r by (pose proof (pow8 n); lia). lia.
Qed.

(** *** continuity *)
Definition dist (p q : Z * Z * Z) : Z := let '(x, y, z) := p in let '(u, v, w) := q in Z.abs (x - u) + Z.abs (y - v) + Z.abs (z - w).
Definition corner (o : Z) (n : nat) : Z * Z * Z := let m := 2 ^ Z.of_nat n - 1 in (bit3 0 o * m, bit3 1 o * m, bit3 2 o * m).
Lemma first_corner n : forall s, In s states -> I n s 0 = corner (undigit s 0) n.
Proof.
  induction n as [|n IH]; intros s Hs; [unfold corner; cbn [I]; cbn; f_equal; [f_equal|]; lia|]. cbn [I]. unfold part. rewrite Z.div_0_l by (pose proof (pow8 n); lia). cbn [Z.modulo Z.div_eucl]. change (0 mod 8) with 0. cbv zeta.
  destruct (f2 s 0 Hs ltac:(lia)) as (Ho & _). rewrite IH by (now apply next_ok). rewrite (proj1 (f3 s Hs)). unfold corner, padd. rewrite pow2S. f_equal; [f_equal|]; lia.
Qed.
Lemma last_corner n : forall s, In s states -> I n s (8 ^ Z.of_nat n - 1) = corner (undigit s 7) n.
Proof.
  induction n as [|n IH]; intros s Hs; [unfold corner; cbn [I]; cbn; f_equal; [f_equal|]; lia|]. cbn [I]. rewrite pow8S.
  replace (8 * 8 ^ Z.of_nat n - 1) with (7 * 8 ^ Z.of_nat n + (8 ^ Z.of_nat n - 1)) by lia. rewrite part_add by (pose proof (pow8 n); lia). cbv zeta.
  destruct (f2 s 7 Hs ltac:(lia)) as (Ho & _). rewrite I_low by lia. rewrite IH by (now apply next_ok). rewrite (proj2 (f3 s Hs)). unfold corner, padd. rewrite pow2S. f_equal; [f_equal|]; lia.
Qed.
Lemma axis_dist i o o' e b n : axis i o o' e b <= 1 ->
  Z.abs ((bit3 i o * 2 ^ Z.of_nat n + bit3 i e * (2 ^ Z.of_nat n - 1)) - (bit3 i o' * 2 ^ Z.of_nat n + bit3 i b * (2 ^ Z.of_nat n - 1))) = axis i o o' e b.
Proof.
  unfold axis. destruct (andb (bit3 i o =? bit3 i o') (bit3 i e =? bit3 i b)) eqn:B1.
  - intros _. assert (bit3 i o = bit3 i o' /\ bit3 i e = bit3 i b) as [-> ->] by lia. rewrite Z.sub_diag. reflexivity.
  - destruct (orb _ _) eqn:B2; [|lia]. intros _. rewrite orb_true_iff, !andb_true_iff, !Z.eqb_eq in B2. destruct B2 as [(((-> & ->) & ->) & ->)|(((-> & ->) & ->) & ->)]; lia.
Qed.
Lemma axis_nonneg i o o' e b : 0 <= axis i o o' e b.
Proof. unfold axis. destruct (andb _ _); [lia|]. destruct (orb _ _); lia. Qed.
Lemma dist_padd o n p q : dist (padd o n p) (padd o n q) = dist p q.
Proof. destruct p as [[x y] z], q as [[u v] w]. unfold dist, padd. f_equal; [f_equal|]; f_equal; lia. Qed.
Lemma I_adjacent n : forall s k, In s states -> 0 <= k -> k + 1 < 8 ^ Z.of_nat n -> dist (I n s k) (I n s (k + 1)) = 1.
Proof.
  induction n as [|n IH]; intros s k Hs H0 Hk; [cbn in Hk; lia|]. rewrite pow8S in Hk. pose proof (pow8 n) as Hp.
  set (d := k / 8 ^ Z.of_nat n). set (k' := k mod 8 ^ Z.of_nat n). pose proof (Z.div_mod k (8 ^ Z.of_nat n) ltac:(lia)) as Ek. rewrite Z.mul_comm in Ek. fold d k' in Ek. pose proof (Z.mod_pos_bound k (8 ^ Z.of_nat n) Hp) as Hk'. fold k' in Hk'.
  assert (0 <= d < 8) as Hd by nia. destruct (f2 s d Hs Hd) as (Ho & _). cbn [I].
  destruct (Z.eq_dec k' (8 ^ Z.of_nat n - 1)) as [El|El].
  - assert (d < 7) as Hd7 by nia. assert (k = d * 8 ^ Z.of_nat n + (8 ^ Z.of_nat n - 1)) as E1 by lia. assert (k + 1 = (d + 1) * 8 ^ Z.of_nat n + 0) as E2 by lia. rewrite E2, E1. rewrite !part_add by lia. cbv zeta. rewrite !I_low by lia.
    destruct (f2 s (d + 1) Hs ltac:(lia)) as (Ho' & _). rewrite last_corner, first_corner by (now apply next_ok). pose proof (f4 s d Hs ltac:(lia)) as F. cbv zeta in F.
    set (o := undigit s d) in *. set (o' := undigit s (d + 1)) in *. set (e := undigit (next s o) 7) in *. set (b := undigit (next s o') 0) in *.
    pose proof (axis_nonneg 0 o o' e b). pose proof (axis_nonneg 1 o o' e b). pose proof (axis_nonneg 2 o o' e b). unfold corner, padd, dist. rewrite !axis_dist by lia. exact F.
  - assert (k + 1 = d * 8 ^ Z.of_nat n + (k' + 1)) as E2 by lia. rewrite E2. rewrite Ek. rewrite !part_add by lia. cbv zeta. rewrite !I_low by lia. rewrite dist_padd. apply IH; [now apply next_ok | lia | lia].
Qed.

(** *** hierarchy *)
Lemma tb_div x m n : tb (x / 2 ^ Z.of_nat m) n = tb x (n + m).
Proof. unfold tb. rewrite <- Z.shiftr_div_pow2 by lia. rewrite Z.shiftr_spec by lia. do 2 f_equal. lia. Qed.
Definition pdiv (p : Z * Z * Z) (m : nat) : Z * Z * Z := let '(x, y, z) := p in (x / 2 ^ Z.of_nat m, y / 2 ^ Z.of_nat m, z / 2 ^ Z.of_nat m).
Lemma oct_div n p m : oct n (pdiv p m) = oct (n + m) p.
Proof. destruct p as [[x y] z]. unfold oct, pdiv. now rewrite !tb_div. Qed.
Lemma K_coarse m n : forall s p, In s states -> K n s (pdiv p m) = K (n + m) s p / 8 ^ Z.of_nat m.
Proof.
  induction n as [|n IH]; intros s p Hs; cbn [K Nat.add].
  - symmetry. apply Z.div_small. now apply K_range.
  - rewrite oct_div. pose proof (oct_range (n + m) p) as Ho. rewrite IH by (now apply next_ok). rewrite Nat2Z.inj_add, Z.pow_add_r by lia. rewrite Z.mul_assoc, Z.div_add_l by (pose proof (pow8 m); lia). reflexivity.
Qed.
