(** n-dimensional numpy arrays in C (row major) order. *)
From Verif.Base Require Import Prelude.
Local Open Scope nat_scope.

Fixpoint nelem (s : list nat) : nat := match s with [] => 1 | n :: s' => n * nelem s' end.
(** all multi-indices of an array of shape [s], in C order *)
Fixpoint indices (s : list nat) : list (list nat) :=
  match s with [] => [[]] | n :: s' => flat_map (fun i => map (cons i) (indices s')) (seq 0 n) end.
Fixpoint ravel (s idx : list nat) : nat :=
  match s, idx with n :: s', i :: idx' => i * nelem s' + ravel s' idx' | _, _ => 0 end.

Record nd (A : Type) := { shape : list nat; data : list A }.
Arguments shape {A} _. Arguments data {A} _.

Definition nd_ok {A} (a : nd A) : Prop := length (data a) = nelem (shape a).
(** element [x] is at multi-index [idx] *)
Definition nd_at {A} (a : nd A) (idx : list nat) (x : A) : Prop :=
  Forall2 lt idx (shape a) /\ nth_error (data a) (ravel (shape a) idx) = Some x.

(** replace component [k] of a list by [f] of it *)
Fixpoint upd {A} (k : nat) (f : A -> A) (l : list A) : list A :=
  match l, k with [], _ => [] | x :: l', O => f x :: l' | x :: l', S k' => x :: upd k' f l' end.
(** exchange components 0 and [k] *)
Definition swap0 {A} (k : nat) (l : list A) : list A :=
  match k, l with
  | S k', x :: l' => match nth_error l' k' with Some y => y :: upd k' (fun _ => x) l' | None => l end
  | _, _ => l
  end.
(** [np.ascontiguousarray(a.swapaxes(0, k))] for 0 <= k < ndim *)
Definition swapaxes {A} (k : nat) (a : nd A) : nd A :=
  let s := swap0 k (shape a) in
  {| shape := s;
     data := flat_map (fun idx => match nth_error (data a) (ravel (shape a) (swap0 k idx)) with Some x => [x] | None => [] end) (indices s) |}.

(** *** Lemmas *)
Lemma indices_length s : length (indices s) = nelem s.
Proof.
  induction s as [|n s IH]; [reflexivity|]. cbn [indices nelem].
  assert (forall a, length (flat_map (fun i => map (cons i) (indices s)) (seq a n)) = n * nelem s) as H; [|apply H].
  induction n as [|n IHn]; intro a; [reflexivity|]. cbn [seq flat_map]. rewrite app_length, map_length, IH, IHn. lia.
Qed.
Lemma ravel_lt s idx : Forall2 lt idx s -> ravel s idx < nelem s.
Proof. intro H. induction H as [|i n idx s Hi H IH]; cbn [ravel nelem]; [lia|]. nia. Qed.
Lemma nth_error_flat_seq {B} (f : nat -> list B) m n i j a : (forall i, length (f i) = m) -> i < n -> j < m ->
  nth_error (flat_map f (seq a n)) (i * m + j) = nth_error (f (a + i)) j.
Proof.
  intros Hf. revert i a. induction n as [|n IH]; intros i a Hi Hj; [lia|]. cbn [seq flat_map]. destruct i as [|i].
  - rewrite nth_error_app1 by (rewrite Hf; lia). f_equal. f_equal. lia.
  - rewrite nth_error_app2 by (rewrite Hf; lia). rewrite Hf. replace (S i * m + j - m) with (i * m + j) by lia. rewrite IH by lia. f_equal. f_equal. lia.
Qed.
Lemma nth_error_indices s idx : Forall2 lt idx s -> nth_error (indices s) (ravel s idx) = Some idx.
Proof.
  intro H. induction H as [|i n idx s Hi H IH]; [reflexivity|]. cbn [indices ravel].
  rewrite nth_error_flat_seq; [|intro; rewrite map_length; apply indices_length|assumption|now apply ravel_lt].
  cbn [plus]. now rewrite nth_error_map, IH.
Qed.
Lemma In_indices s idx : In idx (indices s) <-> Forall2 lt idx s.
Proof.
  split.
  - revert idx. induction s as [|n s IH]; intros idx H; cbn [indices] in H; [destruct H as [<-|[]]; constructor|].
    apply in_flat_map in H. destruct H as (i & Hi & H). apply in_seq in Hi. apply in_map_iff in H. destruct H as (t & <- & Ht). constructor; [lia | now apply IH].
  - intro H. apply nth_error_In with (n := ravel s idx). now apply nth_error_indices.
Qed.

Lemma upd_length {A} k (f : A -> A) l : length (upd k f l) = length l.
Proof. revert k. induction l as [|x l IH]; intros [|k]; cbn; [reflexivity..|]. now rewrite IH. Qed.
Lemma nth_error_upd {A} k (f : A -> A) l j : nth_error (upd k f l) j = if j =? k then option_map f (nth_error l j) else nth_error l j.
Proof.
  revert k j. induction l as [|x l IH]; intros [|k] [|j]; cbn [upd nth_error Nat.eqb option_map]; try reflexivity.
  - now destruct (j =? k).
  - now rewrite IH.
Qed.
Lemma nth_error_ext' {A} (l m : list A) : (forall k, nth_error l k = nth_error m k) -> l = m.
Proof.
  revert m. induction l as [|x l IH]; intros [|y m] H; [reflexivity|specialize (H 0); discriminate..|].
  pose proof (H 0) as H0. cbn in H0. injection H0 as ->. f_equal. apply IH. intro k. exact (H (S k)).
Qed.
Lemma nth_error_swap0 {A} k (l : list A) j : k < length l ->
  nth_error (swap0 k l) j = if j =? 0 then nth_error l k else if j =? k then nth_error l 0 else nth_error l j.
Proof.
  intro Hk. destruct k as [|k]; [destruct j; [reflexivity|]; cbn; reflexivity|]. destruct l as [|x l]; [cbn in Hk; lia|].
  cbn [swap0]. destruct (nth_error l k) as [y|] eqn:E; [|apply nth_error_None in E; cbn in Hk; lia].
  destruct j as [|j]; cbn [nth_error Nat.eqb]; [now rewrite E|]. rewrite nth_error_upd. destruct (Nat.eqb_spec j k) as [->|]; [now rewrite E | reflexivity].
Qed.
Lemma swap0_length {A} k (l : list A) : length (swap0 k l) = length l.
Proof. destruct k as [|k]; [reflexivity|]. destruct l as [|x l]; [reflexivity|]. cbn [swap0]. destruct (nth_error l k); [cbn; now rewrite upd_length | reflexivity]. Qed.
Lemma swap0_invol {A} k (l : list A) : k < length l -> swap0 k (swap0 k l) = l.
Proof.
  intro Hk. apply nth_error_ext'. intro j. rewrite nth_error_swap0 by (now rewrite swap0_length). rewrite !nth_error_swap0 by assumption. cbn [Nat.eqb].
  destruct (Nat.eqb_spec j 0) as [->|H0].
  - destruct (Nat.eqb_spec k 0) as [->|]; [reflexivity|]. now rewrite Nat.eqb_refl.
  - destruct (Nat.eqb_spec j k) as [->|]; reflexivity.
Qed.
Lemma swap0_upd {A} k (f : A -> A) (l : list A) : k < length l -> swap0 k (upd k f l) = upd 0 f (swap0 k l).
Proof.
  intro Hk. apply nth_error_ext'. intro j. rewrite nth_error_swap0 by (now rewrite upd_length). rewrite !nth_error_upd, nth_error_swap0, Nat.eqb_refl by assumption.
  destruct (Nat.eqb_spec j 0) as [->|H0]; [reflexivity|]. destruct (Nat.eqb_spec j k) as [->|H1]; [|reflexivity].
  destruct (Nat.eqb_spec 0 k); [lia | reflexivity].
Qed.
Lemma Forall2_nth_iff {A B} (R : A -> B -> Prop) l m :
  Forall2 R l m <-> length l = length m /\ forall k x y, nth_error l k = Some x -> nth_error m k = Some y -> R x y.
Proof.
  split.
  - intro H. induction H as [|a b l m Hab H IH]; [split; [reflexivity | intros [|k] x y; discriminate]|]. destruct IH as [I1 I2]. split; [cbn; lia|].
    intros [|k] x y H1 H2; [injection H1 as <-; injection H2 as <-; assumption | now apply (I2 k)].
  - revert m. induction l as [|a l IH]; intros [|b m] [H1 H2]; try discriminate; constructor.
    + now apply (H2 0).
    + apply IH. split; [cbn in H1; lia|]. intros k. exact (H2 (S k)).
Qed.
Lemma Forall2_swap0 {A B} (R : A -> B -> Prop) k l m : k < length l -> Forall2 R l m -> Forall2 R (swap0 k l) (swap0 k m).
Proof.
  intros Hk H. apply Forall2_nth_iff in H. destruct H as [H1 H2]. apply Forall2_nth_iff. rewrite !swap0_length. split; [assumption|].
  intros j x y. rewrite !nth_error_swap0 by lia. destruct (j =? 0); [apply H2|]. destruct (j =? k); apply H2.
Qed.

Section Swapaxes.
  Context {A : Type} (a : nd A) (k : nat).
  Hypothesis Hok : nd_ok a.
  Hypothesis Hk : k < length (shape a).
  Lemma swapaxes_at_pre idx : Forall2 lt idx (swap0 k (shape a)) -> exists x, nth_error (data a) (ravel (shape a) (swap0 k idx)) = Some x.
  Proof.
    intro H. destruct (nth_error (data a) (ravel (shape a) (swap0 k idx))) as [x|] eqn:E; [now exists x|]. exfalso.
    apply nth_error_None in E. pose proof Hok as H0. unfold nd_ok in H0. rewrite H0 in E.
    assert (length idx = length (shape a)) as Hl by (rewrite <- (swap0_length k (shape a)); apply Forall2_nth_iff in H; apply H).
    apply (Forall2_swap0 lt k) in H; [|lia]. rewrite swap0_invol in H by assumption. apply ravel_lt in H. lia.
  Qed.
  Lemma flat_map_single {B C} (g : B -> option C) l : (forall b, In b l -> exists c, g b = Some c) ->
    (forall j, nth_error (flat_map (fun b => match g b with Some c => [c] | None => [] end) l) j = match nth_error l j with Some b => g b | None => None end)
    /\ length (flat_map (fun b => match g b with Some c => [c] | None => [] end) l) = length l.
  Proof using Type.
    induction l as [|b l IH]; intro H; [split; [intros [|j]; reflexivity | reflexivity]|]. cbn [flat_map]. destruct (H b (or_introl eq_refl)) as (c & Hc). rewrite Hc.
    destruct IH as [I1 I2]; [intros b' Hb'; apply H; now right|]. split; [|cbn; now rewrite I2]. intros [|j]; cbn; [now rewrite Hc | apply I1].
  Qed.
  Lemma swapaxes_shape : shape (swapaxes k a) = swap0 k (shape a). Proof using Type. reflexivity. Qed.
  Lemma swapaxes_ok : nd_ok (swapaxes k a).
  Proof.
    unfold nd_ok, swapaxes. cbn [data shape]. rewrite <- indices_length. apply (flat_map_single (fun idx => nth_error (data a) (ravel (shape a) (swap0 k idx)))).
    intros idx H. apply swapaxes_at_pre. now apply In_indices.
  Qed.
  Lemma swapaxes_at idx x : nd_at (swapaxes k a) (swap0 k idx) x <-> nd_at a idx x.
  Proof.
    unfold nd_at. cbn [swapaxes shape data].
    destruct (flat_map_single (fun idx => nth_error (data a) (ravel (shape a) (swap0 k idx))) (indices (swap0 k (shape a)))) as [F1 _].
    { intros i H. apply swapaxes_at_pre. now apply In_indices. }
    rewrite F1. split; intros [H1 H2].
    - assert (length idx = length (shape a)) as Hl by (rewrite <- (swap0_length k (shape a)), <- (swap0_length k idx); apply Forall2_nth_iff in H1; apply H1).
      rewrite nth_error_indices in H2 by assumption. rewrite swap0_invol in H2 by lia. split; [|assumption].
      apply (Forall2_swap0 lt k) in H1; [|rewrite swap0_length; lia]. now rewrite !swap0_invol in H1 by lia.
    - assert (length idx = length (shape a)) as Hl by (apply Forall2_nth_iff in H1; apply H1).
      assert (Forall2 lt (swap0 k idx) (swap0 k (shape a))) as H by (apply Forall2_swap0; [lia | assumption]).
      split; [assumption|]. rewrite nth_error_indices by assumption. now rewrite swap0_invol by lia.
  Qed.
End Swapaxes.
