(** The IDL programs for profiles: sorting, the shrinking spheres, the plots (C106). *)
From Coq Require Import QArith Qround Lqa.
From Coq Require Import Ascii String.
From Coq Require Import Sorting.Permutation Sorting.Sorted.
From Verif Require Import Base.Prelude Base.ListLemmas Base.Order Text.StrModel Snap.ReadSpec Fortran.FofSpec.
From Verif Require Import Idl.LibModel Idl.LibSpec Idl.SnapSpec Idl.GroupSpec Idl.SphereSpec Idl.ProgSpec Idl.ProgModel Idl.ProgProofs Idl.ProfSpec Idl.ProfModel.
From Coq Require Import ZifyBool ZifyNat.
Local Open Scope Z_scope. Local Open Scope list_scope.

Lemma columns_flat l : columns (flat l) = l.
Proof. induction l as [|[[x y] z] l IH]; [reflexivity|]. unfold flat in *. cbn [map concat app columns]. now rewrite IH. Qed.
Lemma q_lt_spec a b : q_lt a b = true <-> (a < b)%Q.
Proof. unfold q_lt. rewrite negb_true_iff. split; intro H; [apply Qnot_le_lt; intro C; apply Qle_bool_iff in C; congruence | destruct (Qle_bool b a) eqn:E; [apply Qle_bool_iff in E; lra | reflexivity]]. Qed.
Lemma q_lt_false a b : q_lt a b = false <-> (b <= a)%Q.
Proof. unfold q_lt. rewrite negb_false_iff. apply Qle_bool_iff. Qed.
Lemma insert_perm x l : Permutation (x :: l) (insert x l).
Proof. induction l as [|y l IH]; cbn [insert]; [reflexivity|]. destruct (Qle_bool x y); [reflexivity|]. rewrite <- IH. constructor. Qed.
Lemma sorted_perm l : Permutation l (sorted l).
Proof. induction l as [|x l IH]; [reflexivity|]. cbn [sorted fold_right]. rewrite <- insert_perm. now constructor. Qed.
Lemma insert_sorted x l : StronglySorted Qle l -> StronglySorted Qle (insert x l).
Proof.
  induction 1 as [|y l Hl IH HF]; cbn [insert]; [repeat constructor|]. destruct (Qle_bool x y) eqn:E.
  - apply Qle_bool_iff in E. constructor; [constructor; assumption|]. constructor; [exact E|]. eapply Forall_impl; [|exact HF]. intros z Hz. now apply Qle_trans with y.
  - constructor; [exact IH|]. assert (y <= x)%Q by (destruct (Qlt_le_dec y x) as [L|L]; [lra | apply Qle_bool_iff in L; congruence]).
    apply Forall_forall. intros z Hz. apply (Permutation_in _ (Permutation_sym (insert_perm x l))) in Hz as [<- | Hz]; [assumption | rewrite Forall_forall in HF; now apply HF].
Qed.
Lemma sorted_sorted l : StronglySorted Qle (sorted l).
Proof. induction l as [|x l IH]; [constructor|]. now apply insert_sorted. Qed.
Lemma max_fold l : forall x, let m := fold_left (fun a b => if q_lt a b then b else a) l x in (m = x \/ In m l) /\ (x <= m)%Q /\ Forall (fun y => y <= m)%Q l.
Proof.
  induction l as [|y l IH]; intro x; cbn [fold_left]; [repeat split; [now left | lra | constructor]|]. destruct (IH (if q_lt x y then y else x)) as (H1 & H2 & H3). destruct (q_lt x y) eqn:E.
  - apply q_lt_spec in E. split; [right; destruct H1 as [-> | H1]; [now left | now right]|]. split; [lra|]. constructor; assumption.
  - apply q_lt_false in E. split; [destruct H1 as [H1 | H1]; [now left | right; now right]|]. split; [assumption|]. constructor; [lra | assumption].
Qed.
Lemma max_in l : l <> [] -> In (max_of l) l /\ Forall (fun y => y <= max_of l)%Q l.
Proof.
  destruct l as [|x l]; [contradiction|]. intros _. unfold max_of. destruct (max_fold l x) as (H1 & H2 & H3). split; [destruct H1 as [-> | H1]; [now left | now right] | now constructor].
Qed.
Lemma max_largest l : l <> [] -> largest l (max_of l).
Proof. intro H. destruct (max_in l H) as [H1 H2]. split; [|exact H2]. apply Exists_exists. exists (max_of l). split; [exact H1 | reflexivity]. Qed.
Lemma fold_total l : forall a, (fold_left Qplus l a == a + total l)%Q.
Proof. induction l as [|x l IH]; intro a; cbn [fold_left total fold_right]; [ring|]. rewrite IH. unfold total. ring. Qed.

(** *** the spheres *)
Lemma same_refl a : same a a.
Proof. destruct a as [[x y] z]. repeat split; reflexivity. Qed.
Lemma norm2_same a b : same a b -> (r2_of a == norm2 b)%Q.
Proof. destruct a as [[x y] z], b as [[u v] w]. intros (H1 & H2 & H3). cbn. rewrite H1, H2, H3. reflexivity. Qed.
(** positions relative to [c] *)
Definition around (pts : list vec) (c : vec) (l : list vec) : Prop := Forall2 (fun p q => same q (minus p c)) pts l.
Lemma around_origin pts : around pts origin pts.
Proof. induction pts as [|[[x y] z] pts IH]; constructor; [|exact IH]. cbn. repeat split; ring. Qed.
Lemma around_len pts c l : around pts c l -> zlen pts = zlen l.
Proof. induction 1; [reflexivity|]. rewrite !zlen_cons. lia. Qed.
Lemma around_distances pts c l : around pts c l -> distances2 pts c (map r2_of l).
Proof. induction 1; cbn [map]; constructor; [|assumption]. now apply norm2_same. Qed.
Lemma around_where pts c l r2 : around pts c l -> around (nearer pts c r2) c (where_lt l r2).
Proof.
  induction 1 as [|p q pts l Hpq H IH]; [constructor|]. unfold nearer, where_lt in *. cbn [filter]. fold (q_lt (norm2 (minus p c)) r2).
  assert (q_lt (r2_of q) r2 = q_lt (norm2 (minus p c)) r2) as ->; [|destruct (q_lt (norm2 (minus p c)) r2); [now constructor | exact IH]].
  apply norm2_same in Hpq. destruct (q_lt (norm2 (minus p c)) r2) eqn:E; [apply q_lt_spec in E; apply q_lt_spec; lra | apply q_lt_false in E; apply q_lt_false; lra].
Qed.
Lemma around_total pts cx cy cz l : around pts (cx, cy, cz) l ->
  (total (map (fun p => fst (fst p)) pts) == total (map (fun p => fst (fst p)) l) + inject_Z (zlen pts) * cx /\
   total (map (fun p => snd (fst p)) pts) == total (map (fun p => snd (fst p)) l) + inject_Z (zlen pts) * cy /\
   total (map snd pts) == total (map snd l) + inject_Z (zlen pts) * cz)%Q.
Proof.
  induction 1 as [|[[x y] z] [[u v] w] pts l Hpq H IH]; [cbn; repeat split; ring|]. cbn in Hpq. destruct Hpq as (H1 & H2 & H3). destruct IH as (I1 & I2 & I3). unfold total in *. cbn [map fold_right fst snd] in *.
  rewrite zlen_cons. rewrite inject_Z_plus. change (inject_Z 1) with 1%Q. rewrite H1, H2, H3. rewrite I1, I2, I3. repeat split; ring.
Qed.
Lemma mean_ok pts cx cy cz l : around pts (cx, cy, cz) l -> 0 < zlen pts ->
  is_mean pts (cx + mean (fun p => fst (fst p)) l, cy + mean (fun p => snd (fst p)) l, cz + mean snd l)%Q.
Proof.
  intros H Hp. destruct (around_total _ _ _ _ _ H) as (T1 & T2 & T3). pose proof (around_len _ _ _ H) as L. unfold is_mean, mean, n_elements. rewrite Z.max_r by lia. rewrite !fold_total, <- L.
  assert (~ inject_Z (zlen pts) == 0)%Q by (change 0%Q with (inject_Z 0); rewrite inject_Z_injective; lia). rewrite T1, T2, T3. repeat split; field; assumption.
Qed.
Lemma around_shift pts cx cy cz l dx dy dz : around pts (cx, cy, cz) l -> around pts (cx + dx, cy + dy, cz + dz)%Q (map (fun '(x, y, z) => (x - dx, y - dy, z - dz)%Q) l).
Proof.
  induction 1 as [|[[x y] z] [[u v] w] pts l Hpq H IH]; cbn [map]; constructor; [|exact IH]. cbn in Hpq |- *. destruct Hpq as (H1 & H2 & H3). rewrite H1, H2, H3. repeat split; ring.
Qed.
Lemma shrink_ok least pts : 2 <= least -> forall steps l r2 acc out, around pts acc l -> shrink least steps l r2 acc = Ok out ->
  settles least pts acc r2 (snd out) /\ around pts (snd out) (fst out).
Proof.
  intro Hl. induction steps as [|steps IH]; intros l r2 acc out HA E; [discriminate|]. cbn [shrink] in E. pose proof (around_where pts acc l r2 HA) as HW. pose proof (around_len _ _ _ HW) as L;
  destruct (Z.leb_spec least (n_elements (where_lt l r2))) as [C|C]; unfold n_elements in C.
  - destruct acc as [[cx cy] cz]. apply IH in E; [|now apply around_shift]. destruct E as [E1 E2]. split; [|exact E2]. eapply moves; [lia | apply mean_ok; [exact HW | lia] | exact E1].
  - injection E as <-. split; [|exact HA]. apply settled. cbn [snd]. lia.
Qed.

(** *** the loop ends *)
Lemma small_values (l : list Q) : exists eps, (0 < eps)%Q /\ forall x, In x l -> (0 < x)%Q -> (eps <= x)%Q.
Proof.
  induction l as [|y l (eps & He & H)]; [exists 1%Q; split; [lra | intros x []]|]. destruct (Qlt_le_dec 0 y) as [C|C].
  - destruct (Qlt_le_dec y eps) as [D|D]; [exists y | exists eps]; (split; [assumption|]); intros x [<- | Hx] Hp; try lra; specialize (H x Hx Hp); lra.
  - exists eps. split; [exact He|]. intros x [<- | Hx] Hp; [lra | now apply H].
Qed.
Lemma sq_pos (x : Q) : (0 <= x * x)%Q.
Proof. nra. Qed.
Lemma norm2_pos a : (0 <= norm2 a)%Q.
Proof. destruct a as [[x y] z]. cbn. pose proof (sq_pos x). pose proof (sq_pos y). pose proof (sq_pos z). lra. Qed.
Lemma sq_zero (x : Q) : (x * x <= 0)%Q -> (x == 0)%Q.
Proof. intro H. destruct (Qlt_le_dec x 0) as [C|C]; [nra|]. destruct (Qlt_le_dec 0 x) as [D|D]; [nra | lra]. Qed.
Lemma norm2_zero a b : (norm2 (minus a b) <= 0)%Q -> same a b.
Proof.
  destruct a as [[x y] z], b as [[u v] w]. cbn. intro H. pose proof (sq_pos (x - u)). pose proof (sq_pos (y - v)). pose proof (sq_pos (z - w)).
  assert (x - u == 0)%Q by (apply sq_zero; lra). assert (y - v == 0)%Q by (apply sq_zero; lra). assert (z - w == 0)%Q by (apply sq_zero; lra). repeat split; lra.
Qed.
Lemma sq_between (a b c : Q) : ((a - b) * (a - b) <= 2 * ((a - c) * (a - c)) + 2 * ((b - c) * (b - c)))%Q.
Proof. pose proof (sq_pos ((a - c) + (b - c))). lra. Qed.
Lemma norm2_between a b c : (norm2 (minus a b) <= 2 * norm2 (minus a c) + 2 * norm2 (minus b c))%Q.
Proof. destruct a as [[x y] z], b as [[u v] w], c as [[p q] r]. cbn. pose proof (sq_between x u p). pose proof (sq_between y v q). pose proof (sq_between z w r). lra. Qed.
Lemma filter_split_perm {A} (f : A -> bool) l : Permutation l (filter f l ++ filter (fun x => negb (f x)) l).
Proof. induction l as [|x l IH]; [reflexivity|]. cbn [filter]. destruct (f x); cbn [negb app]; [now constructor|]. rewrite <- Permutation_middle. now constructor. Qed.
Lemma few_near least pts : not_together least pts -> exists eps, (0 < eps)%Q /\ forall c r2, (r2 <= eps)%Q -> zlen (nearer pts c r2) < least.
Proof.
  intro HN. destruct (small_values (flat_map (fun p => map (fun q => norm2 (minus p q)) pts) pts)) as (eps & He & H). exists ((1 # 4) * eps)%Q. split; [lra|]. intros c r2 Hr.
  apply (HN (nearer pts c r2) (filter (fun p => negb (negb (Qle_bool r2 (norm2 (minus p c))))) pts)); [apply filter_split_perm|].
  apply Forall_forall. intros p Hp q Hq. unfold nearer in Hp, Hq. apply filter_In in Hp as [Ip Hp], Hq as [Iq Hq]. fold (q_lt (norm2 (minus p c)) r2) in Hp. fold (q_lt (norm2 (minus q c)) r2) in Hq. apply q_lt_spec in Hp, Hq.
  apply norm2_zero. destruct (Qlt_le_dec 0 (norm2 (minus p q))) as [C|C]; [|exact C]. specialize (H (norm2 (minus p q))). assert (eps <= norm2 (minus p q))%Q by (apply H; [apply in_flat_map; exists p; split; [exact Ip | apply in_map_iff; exists q; split; [reflexivity | exact Iq]] | exact C]).
  pose proof (norm2_between p q c). lra.
Qed.
Lemma shrink_ends least pts eps : 2 <= least -> (0 < eps)%Q -> (forall c r2, (r2 <= eps)%Q -> zlen (nearer pts c r2) < least) ->
  forall n steps l r2 acc, around pts acc l -> (n < steps)%nat -> (r2 <= eps * (1 + inject_Z (Z.of_nat n) * (1 # 10)))%Q -> exists out, shrink least steps l r2 acc = Ok out.
Proof.
  intros Hl He Hfew. induction n as [|n IH]; intros steps l r2 acc HA Hs Hr; (destruct steps as [|steps]; [lia|]); cbn [shrink]; pose proof (around_where pts acc l r2 HA) as HW; pose proof (around_len _ _ _ HW) as L.
  - change (inject_Z (Z.of_nat 0)) with 0%Q in Hr. assert (r2 <= eps)%Q as Hr' by lra. specialize (Hfew acc r2 Hr'). unfold n_elements. destruct (Z.leb_spec least (Z.max 1 (zlen (where_lt l r2)))); [lia | eexists; reflexivity].
  - destruct (least <=? n_elements (where_lt l r2)); [|eexists; reflexivity]. destruct acc as [[cx cy] cz]. apply IH; [now apply around_shift | lia|].
    rewrite Nat2Z.inj_succ, <- Z.add_1_r, inject_Z_plus in Hr. set (N := inject_Z (Z.of_nat n)) in *. change (inject_Z 1) with 1%Q in Hr. assert (0 <= N)%Q by (unfold N; change 0%Q with (inject_Z 0); rewrite <- Zle_Qle; lia). nra.
Qed.
Lemma shrink_total least pts : 2 <= least -> not_together least pts -> exists N, forall steps r2 l acc, (N <= steps)%nat -> (r2 <= max_of (map r2_of pts))%Q -> around pts acc l -> exists out, shrink least steps l r2 acc = Ok out.
Proof.
  intros Hl HN. destruct (few_near least pts HN) as (eps & He & Hfew). set (M := max_of (map r2_of pts)). set (n := Z.to_nat (Z.max 0 (Qceiling (10 * M / eps)))). exists (Datatypes.S n).
  intros steps r2 l acc Hs Hr HA. apply (shrink_ends least pts eps Hl He Hfew n); [exact HA | lia|].
  assert (10 * M / eps <= inject_Z (Z.of_nat n))%Q as B. { eapply Qle_trans; [apply Qle_ceiling|]. rewrite <- Zle_Qle. unfold n. lia. }
  assert (10 * M <= inject_Z (Z.of_nat n) * eps)%Q as B2. { apply (Qmult_le_compat_r _ _ eps) in B; [|lra]. unfold Qdiv in B. rewrite <- Qmult_assoc in B. rewrite (Qmult_comm (/ eps)), Qmult_inv_r, Qmult_1_r in B by lra. exact B. }
  lra.
Qed.

(** *** plots *)
Lemma ranks_seq n : forall s, - 2 ^ 31 <= s -> s + Z.of_nat n < 2 ^ 31 -> map (fun i => long (i + 1)) (zseq s n) = zseq (s + 1) n.
Proof. induction n as [|n IH]; intros s H1 H2; [reflexivity|]. cbn [zseq map]. rewrite long_small by lia. f_equal. apply IH; lia. Qed.
Lemma plot_ok limit rs : 0 < zlen rs <= limit -> zlen rs < 2 ^ 31 -> exists points, plot limit rs = Ok points /\ ranked rs points.
Proof.
  intros H1 H2. unfold plot. rewrite lindgen_ok by lia. cbn [bind]. eexists. split; [reflexivity|].
  assert (map (fun i => long (i + 1)) (zseq 0 (Z.to_nat (zlen rs))) = zseq 1 (List.length rs)) as ->.
  { unfold zlen in *. rewrite Nat2Z.id. apply (ranks_seq _ 0); lia. }
  assert (List.length (sorted rs) = List.length (zseq 1 (List.length rs))) as EL by (rewrite zseq_length; symmetry; apply Permutation_length, sorted_perm).
  unfold ranked. rewrite map_fst_combine', map_snd_combine' by exact EL. split; [apply sorted_perm|]. split; [apply sorted_sorted | reflexivity].
Qed.
