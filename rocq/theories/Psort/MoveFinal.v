(** The lemmas of MoveProofs and FetchProofs in the vocabulary of MoveSpec. *)
From Verif.Base Require Import Prelude ListLemmas.
From Verif.Mpi Require Import CommModel CommProofs.
From Verif.Psort Require Import MoveModel MoveSpec MoveProofs FetchProofs.
From Coq Require Import ZifyBool ZifyNat.

Lemma fold_right_sumZ l : fold_right Z.add 0 l = sumZ l.
Proof. induction l; cbn; [reflexivity | now rewrite IHl]. Qed.

Lemma row_width_In {A} nv (d : list (list (list A))) : row_width nv d ->
  forall r row, In row (nth r d []) -> zlen row = nv.
Proof.
  intros H r row Hin. unfold row_width in H. destruct (Nat.lt_ge_cases r (length d)) as [Hr|Hr].
  - rewrite Forall_nth in H. specialize (H r [] Hr). rewrite Forall_forall in H. now apply H.
  - rewrite nth_overflow in Hin by assumption. destruct Hin.
Qed.

Lemma repartition_main {A} (junk : A) (d : list (list A)) (ndesired : list Z) :
  length ndesired = length d -> Forall (fun n => 0 <= n) ndesired -> fold_right Z.add 0 ndesired = total d ->
  exists out, repartition junk d ndesired = Ok out /\
    concat out = concat d /\ map (fun l => Z.of_nat (length l)) out = ndesired.
Proof. rewrite fold_right_sumZ. apply repartition_ok. Qed.

Lemma repartition_nd_main {A} (junk : A) (nv : Z) (d : list (list (list A))) (ndesired : list Z) :
  0 <= nv -> row_width nv d ->
  length ndesired = length d -> Forall (fun n => 0 <= n) ndesired -> fold_right Z.add 0 ndesired = total d ->
  exists out, repartition_nd junk nv d ndesired = Ok out /\
    concat out = concat d /\ map (fun l => Z.of_nat (length l)) out = ndesired.
Proof.
  rewrite fold_right_sumZ. intros H1 H2 H3 H4 H5.
  rewrite (repartition_nd_eq junk [] nv d ndesired); auto.
  - now apply repartition_ok.
  - intros r row _. now apply row_width_In.
Qed.

Lemma repartition_abort_main {A} (junk : A) (nv : Z) (d : list (list A)) (e : list (list (list A))) (ndesired : list Z) :
  (fold_right Z.add 0 ndesired <> total d -> repartition junk d ndesired = Err EAbort) /\
  (fold_right Z.add 0 ndesired <> total e -> repartition_nd junk nv e ndesired = Err EAbort).
Proof.
  rewrite fold_right_sumZ. split; intro H; [now apply repartition_abort|].
  unfold repartition_nd. rewrite sum_nperproc. destruct (Z.eqb_spec (zlen (concat e)) (sumZ ndesired)) as [E|E].
  - unfold total, zlen in *. lia.
  - reflexivity.
Qed.

Lemma on_all_ranks_map {A} (d : list (list A)) (dflt : A) index :
  Forall (Forall (fun i => 0 <= i < total d)) index ->
  on_all_ranks (global_at d) index (map (map (fun i => nth (Z.to_nat i) (global d) dflt)) index).
Proof.
  unfold on_all_ranks. induction 1 as [|l index Hl _ IH]; cbn [map]; constructor; [|exact IH].
  induction Hl as [|i l Hi _ IHl]; cbn [map]; constructor; [|exact IHl].
  split; [lia|]. apply nth_error_nth'. unfold total in Hi; unfold global; lia.
Qed.

Lemma Forall_nth_In {A} (Q : A -> Prop) (d : list (list A)) r i :
  Forall (Forall Q) d -> In i (nth r d []) -> Q i.
Proof.
  intros H Hin. destruct (Nat.lt_ge_cases r (length d)) as [Hr|Hr].
  - rewrite Forall_nth in H. specialize (H r [] Hr). rewrite Forall_forall in H. auto.
  - rewrite nth_overflow in Hin by assumption. destruct Hin.
Qed.

(** an element to use as default: the global array is non-empty if anything is requested *)
Lemma fetch_elements_main {A} (junk : A) (d : list (list A)) (index : list (list Z)) (result : option (list (list A))) :
  length index = length d ->
  Forall (Forall (fun i => 0 <= i < total d)) index ->
  (forall b, result = Some b -> map (@length A) b = map (@length Z) index) ->
  exists out, fetch_elements junk d index result = Ok out /\ on_all_ranks (global_at d) index out.
Proof.
  intros H1 H2 H3. rewrite (fetch_elements_ok junk junk d index result H1).
  - eexists. split; [reflexivity|]. now apply on_all_ranks_map.
  - intros r i _ Hin. now apply (Forall_nth_In _ _ _ _ H2) in Hin.
  - destruct result as [b|]; [|trivial]. now apply H3.
Qed.

Lemma fetch_elements_nd_main {A} (junk : A) (nv : Z) (d : list (list (list A))) (index : list (list Z))
    (result : option (list (list (list A)))) :
  0 <= nv -> row_width nv d ->
  length index = length d ->
  Forall (Forall (fun i => 0 <= i < total d)) index ->
  (forall b, result = Some b -> map (@length (list A)) b = map (@length Z) index /\ row_width nv b) ->
  exists out, fetch_elements_nd junk nv d index result = Ok out /\ on_all_ranks (global_at d) index out.
Proof.
  intros H1 H2 H3 H4 H5. rewrite (fetch_elements_nd_eq junk [] nv d index result); auto.
  - apply fetch_elements_main; auto. intros b Hb. now apply H5.
  - intros r row _. now apply row_width_In.
  - intros r i _ Hin. now apply (Forall_nth_In _ _ _ _ H4) in Hin.
  - destruct result as [b|]; [|trivial]. destruct (H5 b eq_refl) as [H6 H7]. split; [assumption|].
    now apply row_width_In.
Qed.

Lemma not_Forall_In {A} (Q : A -> Prop) (dec : forall x, {Q x} + {~ Q x}) (d : list (list A)) :
  ~ Forall (Forall Q) d -> exists r x, (r < length d)%nat /\ In x (nth r d []) /\ ~ Q x.
Proof.
  intro H. induction d as [|l d IH]; [exfalso; apply H; constructor|].
  destruct (Forall_dec Q dec l) as [Hl|Hl].
  - destruct IH as (r & x & Hr & Hx & Hn).
    + intro H'. apply H. now constructor.
    + exists (S r), x. cbn. repeat split; auto. lia.
  - apply neg_Forall_Exists_neg in Hl; [|exact dec]. apply Exists_exists in Hl. destruct Hl as (x & Hx & Hn).
    exists 0%nat, x. cbn. repeat split; auto. lia.
Qed.

Lemma fetch_elements_raises_main {A} (junk : A) (d : list (list A)) (index : list (list Z)) (result : option (list (list A))) :
  length index = length d ->
  Forall (Forall (fun i => 0 <= i)) index -> ~ Forall (Forall (fun i => i < total d)) index ->
  fetch_elements junk d index result = Err EIndex.
Proof.
  intros H1 H2 H3. apply not_Forall_In in H3; [|intro x; apply Z_lt_dec].
  destruct H3 as (r & i & Hr & Hi & Hn). apply (fetch_elements_raises junk d index result r i); auto.
  - intros q j _ Hj. now apply (Forall_nth_In _ _ _ _ H2) in Hj.
  - lia.
  - unfold total, global, zlen in *. lia.
Qed.

Lemma fetch_negative_refuted :
  exists (d : list (list Z)) (index : list (list Z)) (out : list (list Z)),
    fetch_elements 0 d index None = Ok out /\
    exists r k, 0 <= nth k (nth r index []) 0 < total d /\
      nth_error (nth r out []) k <> nth_error (concat d) (Z.to_nat (nth k (nth r index []) 0)).
Proof.
  exists [[10;11];[12;13]], [[-1;0;3];[]]. eexists. split; [vm_compute; reflexivity|].
  exists 0%nat, 1%nat. vm_compute. split; [split; congruence|]. discriminate.
Qed.
