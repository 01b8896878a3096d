(** Proofs about SnapshotFile.sanity_check() (for C83). *)
From Coq Require Import QArith Lqa.
From Verif Require Import Base.Prelude Base.ListLemmas Base.Order Peano.PeanoModel Peano.PeanoProofs Snap.SanityModel Snap.SnapCheckModel.
From Coq Require Import ZifyBool ZifyNat.
Local Open Scope Z_scope.

Lemma hash_bits_ok fuel : forall k h b, (h <= inject_Z (2 ^ Z.of_nat (S k)))%Q -> (k < fuel)%nat -> exists q, hash_bits fuel h b = Ok (PyFloat q).
Proof.
  induction fuel as [|f IH]; intros k h b Hh Hk; [lia|]. cbn [hash_bits]. destruct (Qle_bool h 2) eqn:E; [eexists; reflexivity|].
  assert (2 < h)%Q as L. { apply Qnot_le_lt. intro Q. apply Qle_bool_iff in Q. congruence. }
  destruct k as [|k].
  - exfalso. change (inject_Z (2 ^ Z.of_nat 1)) with 2%Q in Hh. lra.
  - apply (IH k); [|lia]. rewrite Nat2Z.inj_succ, Z.pow_succ_r in Hh by lia. rewrite inject_Z_mult in Hh. change (inject_Z 2) with 2%Q in Hh.
    apply Qle_shift_div_r; lra.
Qed.
Lemma hash_bits_float h : h < 2 ^ 31 -> exists q, hash_bits 32 (inject_Z h) 1 = Ok (PyFloat q).
Proof. intro H. apply (hash_bits_ok 32 30); [|lia]. rewrite <- Zle_Qle. change (2 ^ Z.of_nat 31) with (2 ^ 31). lia. Qed.

Lemma hash_bits_value fuel : forall k b, (k < fuel)%nat -> exists h, (forall x, (x == inject_Z (2 ^ Z.of_nat (S k)))%Q -> hash_bits fuel x b = Ok (PyFloat h)) /\ h = (inject_Z (b + Z.of_nat k) / 3)%Q.
Proof.
  induction fuel as [|f IH]; intros k b Hk; [lia|]. destruct k as [|k].
  - exists (inject_Z b / 3)%Q. split; [|now rewrite Z.add_0_r]. intros x Hx. cbn [hash_bits]. assert (Qle_bool x 2 = true) as -> by (apply Qle_bool_iff; change (inject_Z (2 ^ Z.of_nat 1)) with 2%Q in Hx; lra). reflexivity.
  - destruct (IH k (b + 1) ltac:(lia)) as (h & H & E). exists h. split.
    + intros x Hx. cbn [hash_bits]. assert (inject_Z (2 ^ Z.of_nat (S (S k))) == 2 * inject_Z (2 ^ Z.of_nat (S k)))%Q as D. { rewrite (Nat2Z.inj_succ (S k)), Z.pow_succ_r, inject_Z_mult by lia. reflexivity. }
      assert (2 <= inject_Z (2 ^ Z.of_nat (S k)))%Q as G. { change 2%Q with (inject_Z 2). rewrite <- Zle_Qle. rewrite Nat2Z.inj_succ, Z.pow_succ_r by lia. assert (0 < 2 ^ Z.of_nat k) by (apply Z.pow_pos_nonneg; lia). lia. }
      destruct (Qle_bool x 2) eqn:B; [apply Qle_bool_iff in B; lra|]. apply H. rewrite Hx, D. field.
    + rewrite E. f_equal. f_equal. lia.
Qed.
Lemma hash_bits_power bits : 1 <= bits <= 10 -> exists q, hash_bits 32 (inject_Z (8 ^ bits)) 1 = Ok (PyFloat q) /\ (q == inject_Z bits)%Q.
Proof.
  intro H. destruct (hash_bits_value 32 (Z.to_nat (3 * bits - 1)) 1 ltac:(lia)) as (h & E & V). exists h. split.
  - apply E. replace (Z.of_nat (S (Z.to_nat (3 * bits - 1)))) with (3 * bits) by lia. rewrite Z.pow_mul_r by lia. reflexivity.
  - rewrite V. replace (1 + Z.of_nat (Z.to_nat (3 * bits - 1))) with (3 * bits) by lia. rewrite inject_Z_mult. change (inject_Z 3) with 3%Q. field.
Qed.

Lemma fill_len key a b v : length (fill_slice key a b v) = length key.
Proof. unfold fill_slice. rewrite map_length, combine_length, zseq_length. apply Nat.min_id. Qed.
Lemma nth_ok {A} (l : list A) i : 0 <= i < zlen l -> exists a, py_nth l i = Ok a.
Proof.
  intro H. unfold py_nth. replace (i <? 0) with false by lia. replace ((i <? 0) || (zlen l <=? i)) with false by lia.
  destruct (nth_error l (Z.to_nat i)) eqn:E; [eexists; reflexivity|]. apply nth_error_None in E. unfold zlen in H. lia.
Qed.
Lemma hash_keys_ok n first last blockid : 0 <= first -> first <= last < 2 ^ 31 -> zlen blockid = last - first + 1 -> 0 <= n ->
  exists keys, hash_keys n first last blockid = Ok keys /\ zlen keys = n.
Proof.
  intros Hf Hl Hb Hn. unfold hash_keys. assert (wrap32 (last - first) = last - first) as -> by (unfold wrap32; rewrite Z.mod_small; lia).
  assert (forall l key, (forall i, In i l -> 0 <= i < last - first) -> exists key', fold_left (fun acc i => do key <- acc; do a <- py_nth blockid i; do b <- py_nth blockid (i + 1); Ok (fill_slice key a b (wrap32 (i + first)))) l (Ok key) = Ok key' /\ length key' = length key) as F.
  { induction l as [|i l IH]; intros key H; [exists key; auto|]. cbn [fold_left bind].
    destruct (nth_ok blockid i) as [a ->]; [specialize (H i (or_introl eq_refl)); lia|]. destruct (nth_ok blockid (i + 1)) as [b ->]; [specialize (H i (or_introl eq_refl)); lia|].
    cbn [bind]. destruct (IH (fill_slice key a b (wrap32 (i + first)))) as (k' & E & L); [intros j Hj; apply H; now right|]. exists k'. split; [exact E|]. rewrite L. apply fill_len. }
  destruct (F (zseq 0 (Z.to_nat (last - first))) (repeat (-1) (Z.to_nat n))) as (key & E & L); [intros i Hi; apply In_zseq in Hi; lia|].
  rewrite E. cbn [bind]. assert (exists a, py_nth blockid (-1) = Ok a) as [a ->].
  { unfold py_nth. cbn [Z.ltb Z.compare]. destruct (nth_ok blockid (zlen blockid - 1)) as [a Ha]; [lia|]. exists a. unfold py_nth in Ha. replace (zlen blockid - 1 <? 0) with false in Ha by lia.
    replace (-1 + zlen blockid) with (zlen blockid - 1) by lia. exact Ha. }
  cbn [bind]. eexists. split; [reflexivity|]. unfold zlen. rewrite fill_len, L, repeat_length. lia.
Qed.
Lemma inverses_type junk q keys : 1 <= zlen keys -> key_inverses junk (PyFloat q) keys = Err EType.
Proof.
  intro H. unfold key_inverses. unfold by_blocks. set (n := zlen keys) in *. unfold range_step.
  assert (1 <= (n + blocksize - 1) / blocksize) as Q by (apply Z.div_le_lower_bound; unfold blocksize; lia).
  destruct (Z.to_nat ((n + blocksize - 1) / blocksize)) as [|m] eqn:E; [lia|]. cbn [zseq map fold_left bind].
  assert (forall l : list Z, fold_left (fun (acc : res (list (Z * Z * Z))) (i1 : Z) => do out <- acc; do part <- (@Err (list (Z * Z * Z)) EType); Ok (write_at out i1 part)) l (Err EType) = Err EType) as F by (induction l as [|i l IH]; [reflexivity | exact IH]).
  apply F.
Qed.
Lemma inverses_none junk q : key_inverses junk (PyFloat q) [] = Ok [].
Proof. reflexivity. Qed.

(** everything the check looks at before the hash table *)
Definition tests_hold (total : Z) (pos_finite pos_inside vel_finite vel_small : bool) (ids : list Z) : Prop :=
  pos_finite = true /\ pos_inside = true /\ vel_finite = true /\ vel_small = true /\ Forall (fun i => i <= total) ids.
Lemma ids_ok total ids : Forall (fun i => 0 <= i) ids -> any (fun i => i <? 0) ids || any (fun i => i >? total) ids = false <-> Forall (fun i => i <= total) ids.
Proof.
  intro H. unfold any. rewrite orb_false_iff. rewrite Forall_forall in *. split.
  - intros [_ E] i Hi. destruct (Z.leb_spec i total) as [Q|Q]; [exact Q|]. assert (existsb (fun i => i >? total) ids = true) as E' by (apply existsb_exists; exists i; split; [exact Hi | lia]). congruence.
  - intro F. split; apply not_true_iff_false; intro E; apply existsb_exists in E as (i & Hi & E); [specialize (H i Hi) | specialize (F i Hi)]; lia.
Qed.
Definition total_of (np2 : bool) (lo hi : Z) : Z := if np2 then lo else lo + hi * 2 ^ 32.
Lemma np_total_ok np2 a lo hi rest : 0 <= lo < 2 ^ 32 -> 0 <= hi < 2 ^ 31 -> np_total np2 (a :: lo :: hi :: rest) = Ok (total_of np2 lo hi).
Proof.
  intros Hl Hh. unfold np_total. destruct (nth_ok (a :: lo :: hi :: rest) 1) as [x Hx]; [rewrite !zlen_cons; pose proof (zlen_nonneg rest); lia|].
  destruct (nth_ok (a :: lo :: hi :: rest) 2) as [y Hy]; [rewrite !zlen_cons; pose proof (zlen_nonneg rest); lia|].
  rewrite Hx, Hy. cbn [bind]. unfold py_nth in Hx, Hy. pose proof (zlen_nonneg rest). rewrite !zlen_cons in Hx, Hy. cbn -[zlen Z.add Z.leb] in Hx, Hy.
  replace (1 + (1 + (1 + zlen rest)) <=? 1) with false in Hx by lia. replace (1 + (1 + (1 + zlen rest)) <=? 2) with false in Hy by lia.
  injection Hx as <-. injection Hy as <-. unfold total_of. destruct np2.
  - rewrite Z.add_0_r, Z.mod_small by lia. reflexivity.
  - unfold wrap64. f_equal. rewrite (Z.mod_small (hi * 2 ^ 32 + 2 ^ 63)) by lia. rewrite Z.mod_small by lia. lia.
Qed.

Section Check.
  Variables (np2 : bool) (junk n a lo hi : Z) (rest : list Z) (hashtabsize : Z) (pf pi vf vs : bool) (ids : list Z) (first last : Z) (blockid : list Z) (in_cells : list (Z * Z * Z) -> bool).
  Hypothesis Hlo : 0 <= lo < 2 ^ 32.
  Hypothesis Hhi : 0 <= hi < 2 ^ 31.
  Hypothesis Hh : hashtabsize < 2 ^ 31.
  Hypothesis Hids : Forall (fun i => 0 <= i) ids.
  Hypothesis Hf : 0 <= first.
  Hypothesis Hl : first <= last < 2 ^ 31.
  Hypothesis Hb : zlen blockid = last - first + 1.
  Hypothesis Hn : 0 <= n.
  Let check := snapshot_check np2 32 junk n (a :: lo :: hi :: rest) hashtabsize pf pi vf vs ids first last blockid in_cells.
  Let tests := tests_hold (total_of np2 lo hi) pf pi vf vs ids.
  Lemma failed : ~ tests -> check = Err ERuntime.
  Proof using Hlo Hhi Hh Hids.
    intro H. unfold check, snapshot_check. rewrite np_total_ok by assumption. cbn [bind]. destruct (hash_bits_float hashtabsize Hh) as [q ->]. cbn [bind].
    unfold tests, tests_hold in H. destruct pf; [|reflexivity]. destruct pi; [|reflexivity]. destruct vf; [|reflexivity]. destruct vs; [|reflexivity]. cbn [refuse negb check bind].
    unfold refuse. cbn [Prelude.check negb bind].
    destruct (any (fun i => i <? 0) ids || any (fun i => i >? total_of np2 lo hi) ids) eqn:E; [reflexivity|]. apply ids_ok in E; [|exact Hids]. exfalso. apply H. repeat split; assumption.
  Qed.
  Lemma passed : tests -> exists keys q, zlen keys = n /\ check = do cells <- key_inverses junk (PyFloat q) keys; refuse (negb (in_cells cells)).
  Proof using Hlo Hhi Hh Hids Hf Hl Hb Hn.
    intro H. destruct (hash_keys_ok n first last blockid Hf Hl Hb Hn) as (keys & Ek & Lk). destruct (hash_bits_float hashtabsize Hh) as [q Eq]. exists keys, q. split; [exact Lk|].
    unfold check, snapshot_check. rewrite np_total_ok by assumption. cbn [bind]. rewrite Eq. cbn [bind]. unfold tests, tests_hold in H. destruct H as (-> & -> & -> & -> & Fi).
    apply ids_ok in Fi; [|exact Hids]. rewrite Fi. change (refuse (negb true)) with (Ok tt). change (refuse false) with (Ok tt). cbn [bind]. rewrite Ek. reflexivity.
  Qed.
  Lemma with_particles : 1 <= n -> (tests -> check = Err EType) /\ (~ tests -> check = Err ERuntime).
  Proof using Hlo Hhi Hh Hids Hf Hl Hb Hn.
    intro H1. split; [|exact failed]. intro H. destruct (passed H) as (keys & q & Lk & ->). rewrite inverses_type by lia. reflexivity.
  Qed.
  Lemma without_particles : n = 0 -> (tests -> check = if in_cells [] then Ok tt else Err ERuntime) /\ (~ tests -> check = Err ERuntime).
  Proof using Hlo Hhi Hh Hids Hf Hl Hb Hn.
    intro H1. split; [|exact failed]. intro H. destruct (passed H) as (keys & q & Lk & ->). destruct keys as [|k keys]; [|rewrite zlen_cons in Lk; pose proof (zlen_nonneg keys); lia].
    rewrite inverses_none. cbn [bind]. unfold refuse. rewrite negb_involutive. destruct (in_cells []); reflexivity.
  Qed.
End Check.

(** *** the keys of the particles *)
Lemma fill_nth key a b v p : (p < length key)%nat -> 0 <= a <= zlen key -> 0 <= b <= zlen key ->
  nth_error (fill_slice key a b v) p = if (a <=? Z.of_nat p) && (Z.of_nat p <? b) then Some v else nth_error key p.
Proof.
  intros Hp Ha Hb. unfold fill_slice. replace (a <? 0) with false by lia. replace (b <? 0) with false by lia. replace (Z.max 0 (Z.min (zlen key) a)) with a by lia. replace (Z.max 0 (Z.min (zlen key) b)) with b by lia.
  rewrite nth_error_map. destruct (nth_error key p) as [w|] eqn:E; [|apply nth_error_None in E; lia].
  assert (nth_error (combine (zseq 0 (length key)) key) p = Some (Z.of_nat p, w)) as ->.
  { assert (nth_error (zseq 0 (length key)) p = Some (Z.of_nat p)) as Z1 by (rewrite nth_error_zseq by exact Hp; f_equal).
    revert Z1 E. generalize (Z.of_nat p) as u. generalize (zseq 0 (length key)) as l. clear. intros l u. revert p l. induction key as [|k key IH]; intros [|p] [|x l] H1 H2; try discriminate; cbn [nth_error combine] in *; [congruence|]. now apply IH. }
  cbn [option_map fst snd]. destruct ((a <=? Z.of_nat p) && (Z.of_nat p <? b)); reflexivity.
Qed.
Lemma py_nth_error {A} (l : list A) i a : 0 <= i -> py_nth l i = Ok a <-> nth_error l (Z.to_nat i) = Some a.
Proof.
  intro Hi. unfold py_nth. cbv zeta. replace (i <? 0) with false by lia. replace (i <? 0) with false by lia. cbn [orb]. destruct (Z.leb_spec (zlen l) i) as [Q|Q].
  - split; intro E; [discriminate E|]. assert (nth_error l (Z.to_nat i) <> None) as N by congruence. apply nth_error_Some in N. unfold zlen in Q. lia.
  - destruct (nth_error l (Z.to_nat i)); split; intro E; congruence.
Qed.
Section Keys.
  Variables (n first last : Z) (blockid : list Z).
  Hypothesis Hf : 0 <= first.
  Hypothesis Hl : first <= last < 2 ^ 31.
  Hypothesis Hb : zlen blockid = last - first + 1.
  Hypothesis Hn : 0 <= n.
  Hypothesis Hin : Forall (fun o => 0 <= o <= n) blockid.
  (** the offsets do not decrease *)
  Hypothesis Hmono : forall i j oi oj, (i <= j)%nat -> nth_error blockid i = Some oi -> nth_error blockid j = Some oj -> oi <= oj.
  Let bounds i o : nth_error blockid i = Some o -> 0 <= o <= n.
  Proof. intro E. rewrite Forall_forall in Hin. apply Hin. eapply nth_error_In, E. Qed.
  Let step (acc : res (list Z)) (i : Z) := do key <- acc; do a <- py_nth blockid i; do b <- py_nth blockid (i + 1); Ok (fill_slice key a b (wrap32 (i + first))).
  Let at_ (key : list Z) (p : nat) := nth_error key p.
  (** after m blocks *)
  Definition filled (m : nat) (key : list Z) : Prop :=
    zlen key = n /\ (forall i p a b, (i < m)%nat -> nth_error blockid i = Some a -> nth_error blockid (S i) = Some b -> a <= Z.of_nat p < b -> nth_error key p = Some (first + Z.of_nat i)) /\
    (forall p a, nth_error blockid m = Some a -> a <= Z.of_nat p < n -> nth_error key p = Some (-1)) /\
    (forall p a, nth_error blockid 0 = Some a -> Z.of_nat p < a -> nth_error key p = Some (-1)).
  Lemma filled_steps m : Z.of_nat m <= last - first -> exists key, fold_left step (zseq 0 m) (Ok (repeat (-1) (Z.to_nat n))) = Ok key /\ filled m key.
  Proof using Hf Hl Hb Hn Hin Hmono.
    induction m as [|m IH]; intro Hm.
    - eexists. split; [reflexivity|]. split; [unfold zlen; rewrite repeat_length; lia|]. split; [intros; lia|].
      assert (forall p, Z.of_nat p < n -> nth_error (repeat (-1) (Z.to_nat n)) p = Some (-1)) as R.
      { intros p Hp. rewrite nth_error_repeat by lia. reflexivity. }
      split; intros p a Ha H; apply R; [lia|]. apply bounds in Ha. lia.
    - destruct IH as (key & E & Lk & F1 & F2 & F3); [lia|]. assert (zseq 0 (S m) = zseq 0 m ++ [Z.of_nat m]) as -> by (replace (S m) with (m + 1)%nat by lia; apply zseq_app). rewrite fold_left_app, E. cbn [fold_left]. unfold step at 1. cbn [bind].
      destruct (nth_ok blockid (Z.of_nat m)) as [a Ha]; [lia|]. destruct (nth_ok blockid (Z.of_nat m + 1)) as [b Hb']; [lia|]. rewrite Ha, Hb'. cbn [bind].
      apply py_nth_error in Ha; [|lia]. apply py_nth_error in Hb'; [|lia]. rewrite Nat2Z.id in Ha. replace (Z.to_nat (Z.of_nat m + 1)) with (S m) in Hb' by lia.
      assert (wrap32 (Z.of_nat m + first) = first + Z.of_nat m) as -> by (unfold wrap32; rewrite Z.mod_small; lia).
      eexists. split; [reflexivity|]. pose proof (bounds _ _ Ha) as Ba. pose proof (bounds _ _ Hb') as Bb. pose proof (Hmono m (S m) _ _ ltac:(lia) Ha Hb') as Mab.
      assert (forall p, (p < length key)%nat -> nth_error (fill_slice key a b (first + Z.of_nat m)) p = if (a <=? Z.of_nat p) && (Z.of_nat p <? b) then Some (first + Z.of_nat m) else nth_error key p) as FN by (intros p Hp; apply fill_nth; [exact Hp | lia | lia]).
      split; [unfold zlen in *; now rewrite fill_len|]. assert (Z.of_nat (length key) = n) as Lk' by exact Lk. split; [|split].
      + intros i p x y Hi Hx Hy Hp. pose proof (bounds _ _ Hy). rewrite FN by lia. destruct (Nat.eq_dec i m) as [->|Ne].
        * rewrite Ha in Hx. rewrite Hb' in Hy. injection Hx as ->. injection Hy as ->. replace ((x <=? Z.of_nat p) && (Z.of_nat p <? y)) with true by lia. reflexivity.
        * pose proof (Hmono (S i) m _ _ ltac:(lia) Hy Ha). replace (a <=? Z.of_nat p) with false by lia. cbn [andb]. apply (F1 i p x y); [lia | assumption | assumption | lia].
      + intros p x Hx Hp. rewrite Hb' in Hx. injection Hx as ->. rewrite FN by lia. replace (Z.of_nat p <? x) with false by lia. rewrite andb_false_r. apply (F2 p a); [assumption | lia].
      + intros p x Hx Hp. pose proof (bounds _ _ Hx). pose proof (Hmono 0%nat m _ _ ltac:(lia) Hx Ha). rewrite FN by lia. replace (a <=? Z.of_nat p) with false by lia. cbn [andb]. apply (F3 p x); assumption.
  Qed.
  Lemma keys_are : exists keys, hash_keys n first last blockid = Ok keys /\ zlen keys = n /\
    (forall i p a b, nth_error blockid i = Some a -> nth_error blockid (S i) = Some b -> a <= Z.of_nat p < b -> nth_error keys p = Some (first + Z.of_nat i)) /\
    (forall p a, nth_error blockid (length blockid - 1) = Some a -> a <= Z.of_nat p < n -> nth_error keys p = Some last) /\
    (forall p a, nth_error blockid 0 = Some a -> Z.of_nat p < a -> nth_error keys p = Some (-1)).
  Proof using Hf Hl Hb Hn Hin Hmono.
    set (m := Z.to_nat (last - first)). destruct (filled_steps m) as (key & E & Lk & F1 & F2 & F3); [lia|].
    unfold hash_keys. assert (wrap32 (last - first) = last - first) as -> by (unfold wrap32; rewrite Z.mod_small; lia). fold m.
    change (fold_left _ (zseq 0 m) (Ok (repeat (-1) (Z.to_nat n)))) with (fold_left step (zseq 0 m) (Ok (repeat (-1) (Z.to_nat n)))). rewrite E. cbn [bind].
    assert (length blockid = S m) as Lm by (unfold zlen in Hb; lia). destruct (nth_error blockid m) as [a|] eqn:Ha; [|apply nth_error_None in Ha; lia].
    assert (py_nth blockid (-1) = Ok a) as ->.
    { assert (py_nth blockid (zlen blockid - 1) = Ok a) as Q. { apply py_nth_error; [lia|]. replace (Z.to_nat (zlen blockid - 1)) with m by (unfold zlen; lia). exact Ha. }
      unfold py_nth in *. replace (zlen blockid - 1 <? 0) with false in Q by lia. cbn [Z.ltb Z.compare]. replace (-1 + zlen blockid) with (zlen blockid - 1) by lia. exact Q. }
    cbn [bind]. eexists. split; [reflexivity|]. split; [unfold zlen in *; now rewrite fill_len|]. pose proof (bounds _ _ Ha) as Ba. assert (Z.of_nat (length key) = n) as Lk' by exact Lk.
    assert (forall p, (p < length key)%nat -> nth_error (fill_slice key a (zlen key) last) p = if (a <=? Z.of_nat p) && (Z.of_nat p <? zlen key) then Some last else nth_error key p) as FN by (intros p Hp; apply fill_nth; [exact Hp | lia | lia]).
    split; [|split].
    - intros i p x y Hx Hy Hp. pose proof (bounds _ _ Hy). assert (S i < length blockid)%nat as Li by (apply nth_error_Some; congruence). rewrite FN by lia.
      pose proof (Hmono (S i) m _ _ ltac:(lia) Hy Ha). replace (a <=? Z.of_nat p) with false by lia. cbn [andb]. apply (F1 i p x y); [lia | assumption | assumption | lia].
    - intros p x Hx Hp. replace (length blockid - 1)%nat with m in Hx by lia. rewrite Ha in Hx. injection Hx as ->. rewrite FN by lia. replace ((x <=? Z.of_nat p) && (Z.of_nat p <? zlen key)) with true by lia. reflexivity.
    - intros p x Hx Hp. pose proof (bounds _ _ Hx). pose proof (Hmono 0%nat m _ _ ltac:(lia) Hx Ha). rewrite FN by lia. replace (a <=? Z.of_nat p) with false by lia. cbn [andb]. apply (F3 p x); assumption.
  Qed.
End Keys.
