(** Proofs about the operational model of my_alltoallv. *)
From Verif.Base Require Import Prelude ListLemmas Order.
From Verif.Mpi Require Import CommModel CommProofs AlltoallvModel AlltoallvSpec.
From Coq Require Import ZifyBool ZifyNat.

(** *** small general facts *)
Lemma bounded_family (f : nat -> nat) n : exists F, forall k, (k < n)%nat -> (f k <= F)%nat.
Proof.
  induction n as [|n [F HF]]; [exists 0%nat; lia|].
  exists (Nat.max F (f n)). intros k Hk.
  destruct (Nat.eq_dec k n) as [->|Hne]; [lia|]. specialize (HF k ltac:(lia)). lia.
Qed.

Lemma lxor_lt_pow2 a b n : (a < 2 ^ n)%nat -> (b < 2 ^ n)%nat -> (Nat.lxor a b < 2 ^ n)%nat.
Proof.
  intros Ha Hb.
  destruct (Nat.eq_dec (Nat.lxor a b) 0) as [->|Hne].
  { pose proof (Nat.pow_nonzero 2 n ltac:(lia)). lia. }
  apply Nat.log2_lt_pow2; [lia|].
  pose proof (Nat.log2_lxor a b) as H.
  assert (forall x, (x < 2 ^ n)%nat -> (Nat.log2 x < n)%nat \/ (x = 0)%nat \/ (n = 0)%nat) as Hl.
  { intros x Hx. destruct x as [|x]; [auto|]. left. apply Nat.log2_lt_pow2; lia. }
  destruct (Nat.eq_dec n 0) as [->|Hn].
  { cbn in Ha, Hb. replace a with 0%nat in * by lia. replace b with 0%nat in * by lia.
    exfalso. apply Hne. reflexivity. }
  destruct (Hl a Ha) as [H1|[->|?]], (Hl b Hb) as [H2|[->|?]]; try lia;
    try (change (Nat.log2 0) with 0%nat in H); lia.
Qed.

Lemma find_ptask_ok fuel t P : (P <= fuel + t)%nat ->
  exists p, find_ptask fuel t P = Ok p /\ (P <= 2 ^ p)%nat.
Proof.
  revert t; induction fuel as [|f IH]; intros t H; cbn [find_ptask].
  - pose proof (Nat.pow_gt_lin_r 2 t ltac:(lia)).
    destruct (Nat.ltb_spec (2 ^ t) P); [lia|]. exists t. split; [reflexivity | lia].
  - destruct (Nat.ltb_spec (2 ^ t) P).
    + apply IH. lia.
    + exists t. split; [reflexivity | lia].
Qed.

(** *** folds of writes towards a target *)
Lemma fold_writes_target {A} (w : list (Z * list A)) (buf T : list A) :
  length T = length buf ->
  (forall o d, In (o, d) w -> d = [] \/
      (0 <= o /\ o + zlen d <= zlen buf /\
       forall t, (t < length d)%nat -> nth_error T (Z.to_nat o + t) = nth_error d t)) ->
  (forall x, (x < length buf)%nat ->
      (exists o d, In (o, d) w /\ o <= Z.of_nat x < o + zlen d) \/ nth_error T x = nth_error buf x) ->
  fold_left (fun b od => write_at b (fst od) (snd od)) w buf = T.
Proof.
  revert buf; induction w as [|[o d] w IH]; intros buf HT Hw Hx; cbn [fold_left fst snd].
  - apply nth_error_ext. intro k. destruct (Nat.lt_ge_cases k (length buf)) as [Hk|Hk].
    + destruct (Hx k Hk) as [(o & d & [] & _)|H]; auto.
    + transitivity (@None A); [|symmetry]; apply nth_error_None; lia.
  - destruct (Hw o d ltac:(now left)) as [->|(Ho & Hod & Hd)].
    + rewrite write_at_nil. apply IH; [assumption | |].
      * intros o' d' H'. apply Hw. now right.
      * intros x Hlt. destruct (Hx x Hlt) as [(o' & d' & [Heq|Hin] & Hr)|H]; [| |right; assumption].
        -- injection Heq as <- <-. rewrite zlen_nil in Hr. lia.
        -- left. exists o', d'. auto.
    + pose proof (write_at_length buf o d Ho Hod) as Hwl.
      apply IH.
      * now rewrite Hwl.
      * intros o' d' H'. destruct (Hw o' d' ltac:(now right)) as [H|(H1 & H2 & H3)]; [left; assumption|].
        right. unfold zlen in *. rewrite Hwl. auto.
      * intros x Hlt. rewrite Hwl in Hlt.
        destruct (Hx x Hlt) as [(o' & d' & [Heq|Hin] & Hr)|H].
        -- injection Heq as <- <-. right.
           specialize (Hd (x - Z.to_nat o)%nat ltac:(unfold zlen in *; lia)).
           replace (Z.to_nat o + (x - Z.to_nat o))%nat with x in Hd by lia. rewrite Hd.
           destruct (nth_error d (x - Z.to_nat o)) as [v|] eqn:E;
             [|apply nth_error_None in E; unfold zlen in *; lia].
           symmetry. rewrite nth_error_nth' with (d := v) by lia.
           rewrite nth_write_at by assumption.
           destruct ((o <=? Z.of_nat x) && (Z.of_nat x <? o + zlen d)) eqn:E2; [|lia].
           f_equal. now apply nth_error_nth.
        -- left. exists o', d'. auto.
        -- right. destruct ((o <=? Z.of_nat x) && (Z.of_nat x <? o + zlen d)) eqn:E2.
           ++ specialize (Hd (x - Z.to_nat o)%nat ltac:(unfold zlen in *; lia)).
              replace (Z.to_nat o + (x - Z.to_nat o))%nat with x in Hd by lia. rewrite Hd.
              destruct (nth_error d (x - Z.to_nat o)) as [v|] eqn:E;
                [|apply nth_error_None in E; unfold zlen in *; lia].
              symmetry. rewrite nth_error_nth' with (d := v) by lia.
              rewrite nth_write_at by assumption. rewrite E2. f_equal. now apply nth_error_nth.
           ++ rewrite H. destruct (nth_error buf x) as [v|] eqn:E; [|apply nth_error_None in E; lia].
              symmetry. rewrite nth_error_nth' with (d := v) by lia.
              rewrite nth_write_at by assumption. rewrite E2. f_equal. now apply nth_error_nth.
Qed.

(** *** the chunk loop in closed form *)
Definition nchunks (nchunk ls lr : Z) : nat := Z.to_nat ((Z.max ls lr + nchunk - 1) / nchunk).

Lemma nchunks_spec nchunk ls lr k : 1 <= nchunk -> 0 <= Z.max ls lr ->
  (k < nchunks nchunk ls lr)%nat <-> Z.of_nat k * nchunk < Z.max ls lr.
Proof.
  intros Hn Hm. unfold nchunks. set (m := Z.max ls lr) in *.
  pose proof (Z.div_mod (m + nchunk - 1) nchunk ltac:(lia)) as H1.
  pose proof (Z.mod_pos_bound (m + nchunk - 1) nchunk ltac:(lia)) as H2.
  set (q := (m + nchunk - 1) / nchunk) in *. set (r := (m + nchunk - 1) mod nchunk) in *.
  clearbody q r. split; intro H; nia.
Qed.

Lemma nchunks_le nchunk ls lr : 1 <= nchunk -> 0 <= ls -> 0 <= lr ->
  (nchunks nchunk ls lr <= Z.to_nat (Z.max ls lr))%nat.
Proof.
  intros. destruct (Nat.le_gt_cases (nchunks nchunk ls lr) (Z.to_nat (Z.max ls lr))) as [H2|H2]; [assumption|].
  apply nchunks_spec in H2; [|lia|lia]. nia.
Qed.

Lemma nchunks_comm nchunk a b : nchunks nchunk a b = nchunks nchunk b a.
Proof. unfold nchunks. now rewrite Z.max_comm. Qed.

Definition chop (nchunk : Z) (grp peer : nat) (soff ls roff lr : Z) (k : nat) : xfer :=
  {| x_grp := grp; x_chunk := k; x_peer := peer;
     x_soff := soff + Z.min (Z.of_nat k * nchunk) ls;
     x_snum := Z.min (ls - Z.min (Z.of_nat k * nchunk) ls) nchunk;
     x_roff := roff + Z.min (Z.of_nat k * nchunk) lr;
     x_rnum := Z.min (lr - Z.min (Z.of_nat k * nchunk) lr) nchunk |}.

Lemma chunk_loop_closed_aux nchunk grp peer soff ls roff lr n : 1 <= nchunk -> 0 <= ls -> 0 <= lr ->
  forall fuel k0, (k0 + n = nchunks nchunk ls lr)%nat -> (n <= fuel)%nat ->
  chunk_loop fuel nchunk grp k0 peer
    (soff + Z.min (Z.of_nat k0 * nchunk) ls) (ls - Z.min (Z.of_nat k0 * nchunk) ls)
    (roff + Z.min (Z.of_nat k0 * nchunk) lr) (lr - Z.min (Z.of_nat k0 * nchunk) lr)
  = Ok (map (chop nchunk grp peer soff ls roff lr) (seq k0 n)).
Proof.
  intros Hn Hls Hlr. induction n as [|n IH]; intros fuel k0 Hk Hf.
  - assert (~ (k0 < nchunks nchunk ls lr)%nat) as H by lia.
    rewrite nchunks_spec in H by lia.
    destruct fuel; cbn [chunk_loop];
    (destruct ((0 <? ls - Z.min (Z.of_nat k0 * nchunk) ls) || (0 <? lr - Z.min (Z.of_nat k0 * nchunk) lr)) eqn:E;
     [lia | reflexivity]).
  - assert (k0 < nchunks nchunk ls lr)%nat as H by lia.
    rewrite nchunks_spec in H by lia.
    destruct fuel as [|fuel]; [lia|]. cbn [chunk_loop].
    destruct ((0 <? ls - Z.min (Z.of_nat k0 * nchunk) ls) || (0 <? lr - Z.min (Z.of_nat k0 * nchunk) lr)) eqn:E; [|lia].
    specialize (IH fuel (S k0) ltac:(lia) ltac:(lia)).
    replace (Z.of_nat (S k0) * nchunk) with (Z.of_nat k0 * nchunk + nchunk) in IH by lia.
    assert (0 <= Z.of_nat k0 * nchunk) as Hpos by nia.
    remember (Z.of_nat k0 * nchunk) as c eqn:Hc.
    match type of IH with
    | chunk_loop _ _ _ _ _ ?a ?b ?cc ?d = _ =>
      match goal with
      | |- bind (chunk_loop _ _ _ _ _ ?a' ?b' ?c' ?d') _ = _ =>
        replace a' with a by lia; replace b' with b by lia; replace c' with cc by lia; replace d' with d by lia
      end
    end.
    rewrite IH. cbn [bind seq map]. unfold chop at 2. rewrite <- Hc. reflexivity.
Qed.

Lemma chunk_loop_closed nchunk grp peer soff ls roff lr fuel : 1 <= nchunk -> 0 <= ls -> 0 <= lr ->
  (nchunks nchunk ls lr <= fuel)%nat ->
  chunk_loop fuel nchunk grp 0 peer soff ls roff lr
  = Ok (map (chop nchunk grp peer soff ls roff lr) (seq 0 (nchunks nchunk ls lr))).
Proof.
  intros Hn Hls Hlr Hf.
  pose proof (chunk_loop_closed_aux nchunk grp peer soff ls roff lr _ Hn Hls Hlr fuel 0 eq_refl Hf) as H.
  cbn [Z.of_nat] in H. rewrite Z.mul_0_l, !Z.min_l, !Z.add_0_r, !Z.sub_0_r in H by lia. exact H.
Qed.

(** with a zero chunk size (an element larger than 100 MB) the loop never ends *)
Lemma chunk_loop_zero_diverges fuel grp k peer soff ls roff lr :
  0 < ls -> 0 <= lr -> chunk_loop fuel 0 grp k peer soff ls roff lr = Err EFuel.
Proof.
  revert k soff ls roff lr; induction fuel as [|f IH]; intros k soff ls roff lr Hls Hlr; cbn [chunk_loop].
  - destruct (Z.ltb_spec 0 ls); [reflexivity | lia].
  - destruct (Z.ltb_spec 0 ls); [|lia]. cbn [orb].
    rewrite IH by lia. reflexivity.
Qed.

(** *** the schedule *)
Definition klt (a b : xfer) : Prop :=
  (x_grp a < x_grp b)%nat \/ (x_grp a = x_grp b /\ (x_chunk a < x_chunk b)%nat).

Lemma klt_irrefl a : ~ klt a a.
Proof. unfold klt. lia. Qed.

Lemma sorted_concat_seq {B} (R : B -> B -> Prop) (f : nat -> list B) s n :
  (forall g, StronglySorted R (f g)) ->
  (forall g g' x y, (g < g')%nat -> In x (f g) -> In y (f g') -> R x y) ->
  StronglySorted R (concat (map f (seq s n))).
Proof.
  intros H1 H2. revert s; induction n as [|n IH]; intro s; cbn [seq map concat]; [constructor|].
  apply StronglySorted_app. repeat split; auto.
  intros x y Hx Hy. apply in_concat in Hy. destruct Hy as (l & Hl & Hy).
  apply in_map_iff in Hl. destruct Hl as (g' & <- & Hg'). apply in_seq in Hg'.
  apply (H2 s g'); auto; lia.
Qed.

Lemma exists_minimal {B} (f : B -> nat * nat) (l : list B) : l <> [] ->
  exists x, In x l /\ forall y, In y l ->
    (fst (f x) < fst (f y))%nat \/ (fst (f x) = fst (f y) /\ (snd (f x) <= snd (f y))%nat).
Proof.
  induction l as [|a l IH]; intro H; [contradiction|].
  destruct l as [|b l].
  - exists a. split; [now left|]. intros y [<-|[]]. right. lia.
  - destruct (IH ltac:(discriminate)) as (x & Hx & Hmin).
    destruct (lt_dec (fst (f a)) (fst (f x))) as [H1|H1];
      [|destruct (Nat.eq_dec (fst (f a)) (fst (f x))) as [H2|H2];
        [destruct (le_dec (snd (f a)) (snd (f x))) as [H3|H3]|]].
    + exists a. split; [now left|]. intros y [<-|Hy]; [lia|]. specialize (Hmin y Hy). lia.
    + exists a. split; [now left|]. intros y [<-|Hy]; [lia|]. specialize (Hmin y Hy). lia.
    + exists x. split; [now right|]. intros y [<-|Hy]; [lia|]. auto.
    + exists x. split; [now right|]. intros y [<-|Hy]; [lia|]. auto.
Qed.

Lemma nth_error_set_nth {B} (l : list B) i z k : (i < length l)%nat ->
  nth_error (set_nth l i z) k = if (k =? i)%nat then Some z else nth_error l k.
Proof.
  revert i k. induction l as [|a l IH]; intros i k Hi; [cbn in Hi; lia|].
  destruct i as [|i], k as [|k]; cbn [set_nth nth_error Nat.eqb]; try reflexivity.
  apply IH. cbn in Hi. lia.
Qed.

Section Hypercube.
  Context {A : Type} (P : nat) (nchunk : Z) (sbuf : list (list A)) (sc sd : list (list Z))
          (rbuf : list (list A)) (rc rd : list (list Z)).
  Hypothesis Hlegal : legal_call P sbuf sc sd rbuf rc rd.
  Hypothesis Hnchunk : 1 <= nchunk.
  Variable pt : nat.

  Definition nch (p q : nat) : nat := nchunks nchunk (mat sc p q) (mat rc p q).
  Definition the_op (p g k : nat) : xfer :=
    let q := Nat.lxor p g in
    chop nchunk g q (mat sd p q) (mat sc p q) (mat rd p q) (mat rc p q) k.
  Definition grp_ops (p g : nat) : list xfer :=
    if (Nat.lxor p g <? P)%nat then map (the_op p g) (seq 0 (nch p (Nat.lxor p g))) else [].
  Definition ops (p : nat) : list xfer := concat (map (grp_ops p) (seq 0 (2 ^ pt))).

  Lemma counts_eq i j : (i < P)%nat -> (j < P)%nat -> mat sc i j = mat rc j i.
  Proof. intros Hi Hj. apply (lc_counts _ _ _ _ _ _ _ Hlegal i j Hi Hj). Qed.
  Lemma counts_nn i j : (i < P)%nat -> (j < P)%nat -> 0 <= mat sc i j.
  Proof. intros Hi Hj. apply (lc_counts _ _ _ _ _ _ _ Hlegal i j Hi Hj). Qed.
  Lemma rcounts_nn i j : (i < P)%nat -> (j < P)%nat -> 0 <= mat rc i j.
  Proof. intros Hi Hj. rewrite <- counts_eq by assumption. now apply counts_nn. Qed.

  Lemma nch_sym p q : (p < P)%nat -> (q < P)%nat -> nch p q = nch q p.
  Proof.
    intros Hp Hq. unfold nch. rewrite (counts_eq p q), (counts_eq q p) by assumption.
    apply nchunks_comm.
  Qed.

  Lemma lxor_cancel p g : Nat.lxor (Nat.lxor p g) g = p.
  Proof. now rewrite Nat.lxor_assoc, Nat.lxor_nilpotent, Nat.lxor_0_r. Qed.

  Lemma In_ops p o : In o (ops p) <->
    exists g k, (g < 2 ^ pt)%nat /\ (Nat.lxor p g < P)%nat /\ (k < nch p (Nat.lxor p g))%nat /\ o = the_op p g k.
  Proof.
    unfold ops. rewrite in_concat. split.
    - intros (l & Hl & Ho). apply in_map_iff in Hl. destruct Hl as (g & <- & Hg). apply in_seq in Hg.
      unfold grp_ops in Ho. destruct (Nat.ltb_spec (Nat.lxor p g) P) as [H|H]; [|destruct Ho].
      apply in_map_iff in Ho. destruct Ho as (k & <- & Hk). apply in_seq in Hk.
      exists g, k. repeat split; lia || auto.
    - intros (g & k & Hg & Hq & Hk & ->). exists (grp_ops p g). split.
      + apply in_map, in_seq. lia.
      + unfold grp_ops. destruct (Nat.ltb_spec (Nat.lxor p g) P) as [H|H]; [|lia].
        apply in_map, in_seq. lia.
  Qed.

  Lemma ops_sorted p : StronglySorted klt (ops p).
  Proof.
    unfold ops. apply sorted_concat_seq.
    - intro g. unfold grp_ops. destruct (Nat.lxor p g <? P)%nat; [|constructor].
      rewrite StronglySorted_map. unfold klt, the_op, chop; cbn [x_grp x_chunk].
      generalize 0%nat as s, (nch p (Nat.lxor p g)) as n. intros s n. revert s.
      induction n as [|n IH]; intro s; cbn [seq]; constructor; auto.
      apply Forall_forall. intros y Hy. apply in_seq in Hy. right. split; [reflexivity | lia].
    - intros g g' x y Hgg Hx Hy. unfold grp_ops in *.
      destruct (Nat.lxor p g <? P)%nat; [|destruct Hx].
      destruct (Nat.lxor p g' <? P)%nat; [|destruct Hy].
      apply in_map_iff in Hx, Hy. destruct Hx as (k & <- & _), Hy as (k' & <- & _).
      left. exact Hgg.
  Qed.

  (** the hypercube program of the model is [ops], given enough fuel *)
  Lemma hypercube_ops_closed fuel p : (p < P)%nat ->
    find_ptask fuel 0 P = Ok pt -> (forall q, (q < P)%nat -> (nch p q <= fuel)%nat) ->
    hypercube_ops fuel nchunk P sc sd rc rd p = Ok (ops p).
  Proof.
    intros Hp Hfp Hf. unfold hypercube_ops. rewrite Hfp. cbn [bind].
    erewrite (mapM_map_ok _ (grp_ops p)); [reflexivity|].
    intros g _. cbv zeta. unfold grp_ops.
    destruct (Nat.ltb_spec (Nat.lxor p g) P) as [H|H]; [|reflexivity].
    apply chunk_loop_closed; auto using counts_nn, rcounts_nn.
    apply Hf. assumption.
  Qed.

  (** *** the target buffers *)
  Definition owner (j : nat) (x : Z) : option nat :=
    find (fun i => (mat rd j i <=? x) && (x <? mat rd j i + mat rc j i)) (seq 0 P).
  Definition target_at (j x : nat) : option A :=
    match owner j (Z.of_nat x) with
    | Some i => nth_error (nth i sbuf []) (Z.to_nat (mat sd i j + (Z.of_nat x - mat rd j i)))
    | None => nth_error (nth j rbuf []) x
    end.

  Lemma owner_some j x i : (j < P)%nat -> (i < P)%nat ->
    mat rd j i <= x < mat rd j i + mat rc j i -> owner j x = Some i.
  Proof.
    intros Hj Hi Hx. unfold owner. destruct (find _ (seq 0 P)) as [i'|] eqn:E.
    - apply find_some in E. destruct E as [Hin E]. apply in_seq in Hin.
      destruct (Nat.eq_dec i' i) as [->|Hne]; [reflexivity|]. exfalso.
      eapply (lc_disjoint _ _ _ _ _ _ _ Hlegal j i' i x); unfold entry; fold (mat rd j i') (mat rc j i') (mat rd j i) (mat rc j i); lia.
    - exfalso. pose proof (find_none _ _ E i ltac:(apply in_seq; lia)) as H. cbv beta in H. lia.
  Qed.
  Lemma owner_none j x : (j < P)%nat ->
    (forall i, (i < P)%nat -> ~ (mat rd j i <= x < mat rd j i + mat rc j i)) -> owner j x = None.
  Proof.
    intros Hj H. unfold owner. destruct (find _ (seq 0 P)) as [i'|] eqn:E; [|reflexivity].
    apply find_some in E. destruct E as [Hin E]. apply in_seq in Hin. exfalso. apply (H i'); lia.
  Qed.
  Lemma owner_inv j x i : owner j x = Some i -> (i < P)%nat /\ mat rd j i <= x < mat rd j i + mat rc j i.
  Proof using P rc rd.
    intro E. unfold owner in E. apply find_some in E. destruct E as [Hin E]. apply in_seq in Hin. lia.
  Qed.
  Lemma owner_none_inv j x i : owner j x = None -> (i < P)%nat ->
    ~ (mat rd j i <= x < mat rd j i + mat rc j i).
  Proof using P rc rd.
    intros E Hi Hx. unfold owner in E. pose proof (find_none _ _ E i ltac:(apply in_seq; lia)) as H. cbv beta in H. lia.
  Qed.

  Lemma recv_in_range i j : (i < P)%nat -> (j < P)%nat -> 0 < mat rc j i ->
    0 <= mat rd j i /\ mat rd j i + mat rc j i <= zlen (nth j rbuf []) /\
    0 <= mat sd i j /\ mat sd i j + mat rc j i <= zlen (nth i sbuf []).
  Proof.
    intros Hi Hj H.
    pose proof (lc_recv _ _ _ _ _ _ _ Hlegal j i Hj Hi) as H1.
    pose proof (lc_send _ _ _ _ _ _ _ Hlegal i j Hi Hj) as H2.
    pose proof (counts_eq i j Hi Hj) as H3.
    unfold entry in *. fold (mat rc j i) (mat rd j i) (mat sc i j) (mat sd i j) in *. unfold zlen. lia.
  Qed.

  (** the target as a list *)
  Lemma target_exists j : (j < P)%nat -> exists T, length T = length (nth j rbuf []) /\
    forall x, (x < length (nth j rbuf []))%nat -> nth_error T x = target_at j x.
  Proof.
    intro Hj.
    assert (forall n, (n <= length (nth j rbuf []))%nat ->
      exists T, length T = n /\ forall x, (x < n)%nat -> nth_error T x = target_at j x) as H.
    { induction n as [|n IH]; intro Hn.
      - exists []. split; [reflexivity|]. intros; lia.
      - destruct (IH ltac:(lia)) as (T & HT & Hx).
        assert (exists v, target_at j n = Some v) as [v Hv].
        { unfold target_at. destruct (owner j (Z.of_nat n)) as [i|] eqn:E.
          - apply owner_inv in E. destruct E as [Hi E].
            destruct (recv_in_range i j Hi Hj ltac:(lia)) as (H1 & H2 & H3 & H4).
            destruct (nth_error (nth i sbuf []) (Z.to_nat (mat sd i j + (Z.of_nat n - mat rd j i)))) as [v|] eqn:E2.
            + eauto.
            + apply nth_error_None in E2. unfold zlen in *. lia.
          - destruct (nth_error (nth j rbuf []) n) as [v|] eqn:E2; [eauto|].
            apply nth_error_None in E2. lia. }
        exists (T ++ [v]). split; [rewrite app_length; cbn; lia|].
        intros x Hx'. destruct (Nat.eq_dec x n) as [->|Hne].
        + rewrite nth_error_app2 by lia. rewrite HT, Nat.sub_diag. cbn. auto.
        + rewrite nth_error_app1 by lia. apply Hx. lia. }
    apply H. lia.
  Qed.

  (** any collection of writes of correctly placed pieces that covers all slices
      produces the target *)
  Lemma pieces_target j (w : list (Z * list A)) T : (j < P)%nat ->
    length T = length (nth j rbuf []) ->
    (forall x, (x < length (nth j rbuf []))%nat -> nth_error T x = target_at j x) ->
    (forall o d, In (o, d) w -> exists i a b, (i < P)%nat /\ 0 <= a /\ b <= mat rc j i /\
        o = mat rd j i + a /\ d = zslice (nth i sbuf []) (mat sd i j + a) (mat sd i j + b)) ->
    (forall i t, (i < P)%nat -> 0 <= t < mat rc j i -> exists o d,
        In (o, d) w /\ o <= mat rd j i + t < o + zlen d) ->
    fold_left (fun b od => write_at b (fst od) (snd od)) w (nth j rbuf []) = T.
  Proof.
    intros Hj HTl HT Hw Hcov. apply fold_writes_target; [assumption| |].
    - intros o d Hin. destruct (Hw o d Hin) as (i & a & b & Hi & Ha & Hb & -> & ->).
      destruct (Z.le_gt_cases b a) as [Hab|Hab]; [left; apply zslice_empty; lia|].
      destruct (recv_in_range i j Hi Hj ltac:(lia)) as (H1 & H2 & H3 & H4).
      assert (zlen (zslice (nth i sbuf []) (mat sd i j + a) (mat sd i j + b)) = b - a) as Hl
        by (rewrite zlen_zslice; lia).
      right. rewrite Hl. repeat split; [lia|lia|].
      intros t Ht. rewrite HT by (unfold zlen in *; lia).
      unfold target_at. rewrite (owner_some j _ i) by (unfold zlen in *; lia).
      unfold zslice. rewrite nth_error_firstn', nth_error_skipn'.
      destruct (Nat.ltb_spec t (Z.to_nat (mat sd i j + b) - Z.to_nat (mat sd i j + a))) as [H|H];
        [|unfold zlen in *; lia].
      f_equal. unfold zlen in *. lia.
    - intros x Hx. rewrite HT by assumption. unfold target_at.
      destruct (owner j (Z.of_nat x)) as [i|] eqn:E; [left | right; reflexivity].
      apply owner_inv in E. destruct E as [Hi E].
      destruct (Hcov i (Z.of_nat x - mat rd j i) Hi ltac:(lia)) as (o & d & Hin & Hr).
      exists o, d. split; [assumption | lia].
  Qed.

  Lemma target_delivered final :
    length final = P ->
    (forall j, (j < P)%nat -> length (nth j final []) = length (nth j rbuf []) /\
       forall x, (x < length (nth j rbuf []))%nat -> nth_error (nth j final []) x = target_at j x) ->
    delivered P sbuf sd rbuf rc rd final.
  Proof.
    intros HP H. constructor.
    - assumption.
    - intros j Hj. apply H, Hj.
    - intros i j t Hi Hj Ht. unfold entry in *. fold (mat rc j i) (mat rd j i) (mat sd i j) in *.
      destruct (recv_in_range i j Hi Hj ltac:(lia)) as (H1 & H2 & H3 & H4).
      destruct (H j Hj) as [Hl Hx]. rewrite Hx by (unfold zlen in *; lia).
      unfold target_at. rewrite (owner_some j _ i) by lia. f_equal. lia.
    - intros j x Hj Hx. destruct (H j Hj) as [Hl Hx'].
      destruct (Nat.lt_ge_cases x (length (nth j rbuf []))) as [Hlt|Hge].
      + rewrite Hx' by assumption. unfold target_at. rewrite owner_none; [reflexivity | assumption |].
        intros i Hi. apply (Hx i Hi).
      + transitivity (@None A); [|symmetry]; apply nth_error_None; lia.
  Qed.

  (** *** the invariant of the rendezvous semantics *)
  Definition op_data (o : xfer) : list A :=
    message sbuf (x_peer o) (the_op (x_peer o) (x_grp o) (x_chunk o)).
  Definition op_write (o : xfer) : Z * list A := (x_roff o, op_data o).

  Record rank_inv (p : nat) (s : @rstate A) : Prop := {
    ri_split : exists done, ops p = done ++ rs_todo s /\
       rs_buf s = fold_left (fun b od => write_at b (fst od) (snd od)) (map op_write done) (nth p rbuf [])
  }.
  Record Inv (c : list (@rstate A)) : Prop := {
    inv_len : length c = P;
    inv_rank : forall p s, nth_error c p = Some s -> rank_inv p s;
    inv_pair : forall p g k s s', nth_error c p = Some s -> nth_error c (Nat.lxor p g) = Some s' ->
       In (the_op p g k) (rs_todo s) -> In (the_op (Nat.lxor p g) g k) (rs_todo s')
  }.

  Lemma todo_sorted p s : rank_inv p s -> StronglySorted klt (rs_todo s).
  Proof.
    intros [(done & Hd & _)]. pose proof (ops_sorted p) as H. rewrite Hd in H.
    apply StronglySorted_app in H. tauto.
  Qed.
  Lemma todo_in_ops p s o : rank_inv p s -> In o (rs_todo s) -> In o (ops p).
  Proof. intros [(done & Hd & _)] H. rewrite Hd. apply in_or_app. now right. Qed.

  Lemma init_inv progs : progs = spmd P ops -> Inv (init_config progs rbuf).
  Proof.
    intros ->. assert (length rbuf = P) as Hlr by apply (lc_rbuf _ _ _ _ _ _ _ Hlegal).
    assert (forall p, (p < P)%nat -> nth_error (init_config (spmd P ops) rbuf) p =
              Some {| rs_todo := ops p; rs_buf := nth p rbuf [] |}) as Hn.
    { intros p Hp. unfold init_config.
      apply (nth_error_zipwith (fun t b => {| rs_todo := t; rs_buf := b |})).
      - now apply nth_error_spmd.
      - apply nth_error_nth'. lia. }
    assert (length (init_config (spmd P ops) rbuf) = P) as Hlen.
    { unfold init_config. rewrite zipwith_length, spmd_length. lia. }
    constructor.
    - assumption.
    - intros p s Hs. assert (p < P)%nat as Hp by (rewrite <- Hlen; apply nth_error_Some; congruence).
      rewrite Hn in Hs by assumption. injection Hs as <-. constructor. exists []. split; reflexivity.
    - intros p g k s s' Hs Hs' Hin.
      assert (p < P)%nat as Hp by (rewrite <- Hlen; apply nth_error_Some; congruence).
      assert (Nat.lxor p g < P)%nat as Hq by (rewrite <- Hlen; apply nth_error_Some; congruence).
      rewrite Hn in Hs, Hs' by assumption. injection Hs as <-. injection Hs' as <-. cbn [rs_todo] in *.
      apply In_ops in Hin. destruct Hin as (g1 & k1 & Hg & _ & Hk & Heq).
      assert (g1 = g) as -> by (apply (f_equal x_grp) in Heq; cbn in Heq; congruence).
      assert (k1 = k) as -> by (apply (f_equal x_chunk) in Heq; cbn in Heq; congruence).
      apply In_ops. exists g, k. rewrite lxor_cancel. repeat split; auto.
      rewrite nch_sym by assumption. assumption.
  Qed.

  Lemma head_facts p s o t : (p < P)%nat -> rank_inv p s -> rs_todo s = o :: t ->
    exists g k, (g < 2 ^ pt)%nat /\ (Nat.lxor p g < P)%nat /\ (k < nch p (Nat.lxor p g))%nat /\ o = the_op p g k.
  Proof.
    intros Hp HI Ht. apply In_ops. apply (todo_in_ops p s); [assumption|]. rewrite Ht. now left.
  Qed.

  (** matched heads have the same group and chunk number *)
  Lemma heads_match c p q sp sq op tp oq tq : Inv c ->
    nth_error c p = Some sp -> nth_error c q = Some sq ->
    rs_todo sp = op :: tp -> rs_todo sq = oq :: tq -> x_peer op = q -> x_peer oq = p ->
    exists g k, q = Nat.lxor p g /\ op = the_op p g k /\ oq = the_op q g k /\
      (p < P)%nat /\ (q < P)%nat /\ (k < nch p q)%nat.
  Proof.
    intros HI Hp Hq Htp Htq Hpeer1 Hpeer2.
    assert (p < P)%nat as HpP by (rewrite <- (inv_len _ HI); apply nth_error_Some; congruence).
    assert (q < P)%nat as HqP by (rewrite <- (inv_len _ HI); apply nth_error_Some; congruence).
    pose proof (inv_rank _ HI p sp Hp) as HRp. pose proof (inv_rank _ HI q sq Hq) as HRq.
    destruct (head_facts p sp op tp HpP HRp Htp) as (g & k & Hg & Hx & Hk & ->).
    destruct (head_facts q sq oq tq HqP HRq Htq) as (g' & k' & Hg' & Hx' & Hk' & ->).
    unfold the_op, chop in Hpeer1, Hpeer2; cbn [x_peer] in Hpeer1, Hpeer2. subst q.
    assert (g' = g) as ->.
    { assert (Nat.lxor (Nat.lxor p g) (Nat.lxor (Nat.lxor p g) g') = Nat.lxor (Nat.lxor p g) p) as HH by congruence.
      rewrite <- Nat.lxor_assoc, Nat.lxor_nilpotent, Nat.lxor_0_l in HH.
      rewrite HH, (Nat.lxor_comm p g), Nat.lxor_assoc, Nat.lxor_nilpotent, Nat.lxor_0_r. reflexivity. }
    pose proof (inv_pair _ HI p g k sp sq Hp Hq ltac:(rewrite Htp; now left)) as Hin1.
    pose proof (inv_pair _ HI (Nat.lxor p g) g k' sq sp Hq) as Hin2.
    rewrite lxor_cancel in Hin2. specialize (Hin2 Hp ltac:(rewrite Htq; now left)).
    pose proof (todo_sorted _ _ HRp) as Sp. pose proof (todo_sorted _ _ HRq) as Sq.
    rewrite Htp in Hin2, Sp. rewrite Htq in Hin1, Sq.
    assert (k = k') as ->.
    { inversion Sp as [|? ? _ Fp]; inversion Sq as [|? ? _ Fq]; subst.
      rewrite Forall_forall in Fp, Fq.
      destruct Hin1 as [H1|H1]; [apply (f_equal x_chunk) in H1; cbn in H1; congruence|].
      destruct Hin2 as [H2|H2]; [apply (f_equal x_chunk) in H2; cbn in H2; congruence|].
      specialize (Fp _ H2). specialize (Fq _ H1). unfold klt, the_op, chop in Fp, Fq; cbn [x_grp x_chunk] in Fp, Fq. lia. }
    exists g, k'. repeat split; auto.
  Qed.

  Lemma the_op_message p g k : (p < P)%nat -> (Nat.lxor p g < P)%nat ->
    let q := Nat.lxor p g in
    message sbuf q (the_op q g k) =
      zslice (nth q sbuf []) (mat sd q p + Z.min (Z.of_nat k * nchunk) (mat rc p q))
                             (mat sd q p + Z.min (Z.of_nat (S k) * nchunk) (mat rc p q)).
  Proof.
    intros Hp Hq q. unfold message, the_op, chop; cbn [x_soff x_snum].
    unfold q. rewrite lxor_cancel. fold q.
    pose proof (counts_eq q p Hq Hp) as He. rewrite He.
    pose proof (rcounts_nn p q Hp Hq) as Hnn.
    replace (Z.of_nat (S k) * nchunk) with (Z.of_nat k * nchunk + nchunk) by lia.
    assert (0 <= Z.of_nat k * nchunk) as Hc by nia.
    remember (Z.of_nat k * nchunk) as c.
    destruct (Z.eq_dec (mat rc p q) 0) as [E|E].
    - rewrite E. rewrite (zslice_empty _ (mat sd q p + Z.min c 0)) by lia.
      unfold pyslice. apply zslice_empty.
      replace (mat sd q p + Z.min c 0 + Z.min (0 - Z.min c 0) nchunk) with (mat sd q p + Z.min c 0) by lia. lia.
    - destruct (recv_in_range q p Hq Hp ltac:(lia)) as (H1 & H2 & H3 & H4).
      rewrite pyslice_zslice by lia. f_equal. lia.
  Qed.

  Lemma the_op_rnum p g k : (p < P)%nat -> (Nat.lxor p g < P)%nat ->
    zlen (message sbuf (Nat.lxor p g) (the_op (Nat.lxor p g) g k)) = x_rnum (the_op p g k).
  Proof.
    intros Hp Hq. pose proof (the_op_message p g k Hp Hq) as Hm. cbv zeta in Hm. rewrite Hm.
    unfold the_op, chop; cbn [x_rnum]. set (q := Nat.lxor p g) in *.
    pose proof (rcounts_nn p q Hp Hq) as Hnn.
    replace (Z.of_nat (S k) * nchunk) with (Z.of_nat k * nchunk + nchunk) by lia.
    assert (0 <= Z.of_nat k * nchunk) as Hc by nia.
    remember (Z.of_nat k * nchunk) as c.
    destruct (Z.eq_dec (mat rc p q) 0) as [E|E].
    - rewrite E. rewrite zslice_empty by lia. unfold zlen; cbn. lia.
    - destruct (recv_in_range q p Hq Hp ltac:(lia)) as (H1 & H2 & H3 & H4).
      rewrite zlen_zslice by lia. lia.
  Qed.

  Lemma set_nth2_error {B} (c : list B) p q x y r : (p < length c)%nat -> (q < length c)%nat ->
    nth_error (set_nth (set_nth c p x) q y) r =
    if (r =? q)%nat then Some y else if (r =? p)%nat then Some x else nth_error c r.
  Proof.
    intros Hp Hq. rewrite nth_error_set_nth by (rewrite set_nth_length; lia).
    destruct (r =? q)%nat; [reflexivity|]. now apply nth_error_set_nth.
  Qed.

  (** a possible rendezvous never fails and preserves the invariant *)
  Lemma rendezvous_inv c p q out : Inv c -> rendezvous sbuf c p q = Some out ->
    exists c', out = Some c' /\ Inv c' /\
      (length (concat (map rs_todo c')) < length (concat (map rs_todo c)))%nat.
  Proof.
    intros HI H. unfold rendezvous in H.
    destruct (nth_error c p) as [sp|] eqn:Ep; [|discriminate].
    destruct (nth_error c q) as [sq|] eqn:Eq; [|discriminate].
    destruct (rs_todo sp) as [|op tp] eqn:Etp; [discriminate|].
    destruct (rs_todo sq) as [|oq tq] eqn:Etq; [discriminate|].
    destruct ((x_peer op =? q)%nat && (x_peer oq =? p)%nat) eqn:Epeer; [|discriminate].
    apply andb_true_iff in Epeer. destruct Epeer as [Epeer1 Epeer2].
    apply Nat.eqb_eq in Epeer1, Epeer2.
    destruct (heads_match c p q sp sq op tp oq tq HI Ep Eq Etp Etq Epeer1 Epeer2)
      as (g & k & Hqg & Hop & Hoq & HpP & HqP & Hk).
    assert (Nat.lxor q g = p) as Hpg by (rewrite Hqg; apply lxor_cancel).
    assert (zlen (message sbuf q oq) = x_rnum op) as Hr1.
    { rewrite Hop, Hoq, Hqg. apply the_op_rnum; [assumption | congruence]. }
    assert (zlen (message sbuf p op) = x_rnum oq) as Hr2.
    { rewrite Hop, Hoq. rewrite <- Hpg at 1 2. apply the_op_rnum; [assumption | congruence]. }
    unfold receive in H. rewrite Hr1, Hr2, !Z.leb_refl in H.
    injection H as <-. eexists. split; [reflexivity|].
    set (sp' := {| rs_todo := tp; rs_buf := write_at (rs_buf sp) (x_roff op) (message sbuf q oq) |}).
    set (sq' := {| rs_todo := tq; rs_buf := write_at (rs_buf sq) (x_roff oq) (message sbuf p op) |}).
    pose proof (inv_len _ HI) as HL.
    assert (forall r, nth_error (set_nth (set_nth c p sp') q sq') r =
      if (r =? q)%nat then Some sq' else if (r =? p)%nat then Some sp' else nth_error c r) as Hn
      by (intro r; apply set_nth2_error; lia).
    assert (op_write op = (x_roff op, message sbuf q oq)) as Hw1.
    { unfold op_write, op_data. rewrite Epeer1, Hop. unfold the_op at 3 4, chop; cbn [x_grp x_chunk].
      now rewrite Hoq. }
    assert (op_write oq = (x_roff oq, message sbuf p op)) as Hw2.
    { unfold op_write, op_data. rewrite Epeer2, Hoq. unfold the_op at 3 4, chop; cbn [x_grp x_chunk].
      now rewrite Hop. }
    assert (forall r s o t s', nth_error c r = Some s -> rs_todo s = o :: t -> rs_todo s' = t ->
       rs_buf s' = write_at (rs_buf s) (fst (op_write o)) (snd (op_write o)) -> rank_inv r s') as Hadv.
    { intros r s o t s' Hs Ht Ht' Hb'. destruct (inv_rank _ HI r s Hs) as [(done & Hd & Hb)].
      constructor. exists (done ++ [o]). rewrite Ht', <- app_assoc. cbn [app]. rewrite <- Ht. split; [assumption|].
      rewrite map_app, fold_left_app. cbn [map fold_left]. now rewrite Hb', Hb. }
    assert (rank_inv p sp') as HRp by (apply (Hadv p sp op tp sp'); auto; now rewrite Hw1).
    assert (rank_inv q sq') as HRq by (apply (Hadv q sq oq tq sq'); auto; now rewrite Hw2).
    split; [constructor|].
    - now rewrite !set_nth_length.
    - intros r s Hs. rewrite Hn in Hs.
      destruct (Nat.eqb_spec r q) as [->|H1]; [injection Hs as <-; assumption|].
      destruct (Nat.eqb_spec r p) as [->|H2]; [injection Hs as <-; assumption|].
      apply (inv_rank _ HI r s Hs).
    - (* pairing *)
      assert (forall r s', nth_error (set_nth (set_nth c p sp') q sq') r = Some s' ->
                exists s, nth_error c r = Some s /\ (forall o, In o (rs_todo s') -> In o (rs_todo s)) /\
                 (forall o, In o (rs_todo s) -> In o (rs_todo s') \/
                     ((r = p \/ r = q) /\ o = the_op r g k))) as Hrel.
      { intros r s' Hs. rewrite Hn in Hs.
        destruct (Nat.eqb_spec r q) as [->|H1].
        - injection Hs as <-. exists sq. rewrite Etq. cbn [sq' rs_todo]. repeat split; [assumption | now right |].
          intros o [<-|Ho]; [right; auto | left; assumption].
        - destruct (Nat.eqb_spec r p) as [->|H2].
          + injection Hs as <-. exists sp. rewrite Etp. cbn [sp' rs_todo]. repeat split; [assumption | now right |].
            intros o [<-|Ho]; [right; auto | left; assumption].
          + exists s'. repeat split; auto. }
      intros r g1 k1 s s' Hs Hs' Hin.
      destruct (Hrel r s Hs) as (s0 & Hs0 & Hsub & _).
      destruct (Hrel _ s' Hs') as (s0' & Hs0' & _ & Hsup).
      pose proof (inv_pair _ HI r g1 k1 s0 s0' Hs0 Hs0' (Hsub _ Hin)) as Hp0.
      destruct (Hsup _ Hp0) as [Hok|[Hwho Heq]]; [assumption|]. exfalso.
      assert (g1 = g) as -> by (apply (f_equal x_grp) in Heq; cbn in Heq; congruence).
      assert (k1 = k) as -> by (apply (f_equal x_chunk) in Heq; cbn in Heq; congruence).
      (* then r is p or q and its own copy was removed *)
      assert (r = p \/ r = q) as Hr.
      { destruct Hwho as [Hwho|Hwho].
        - right. rewrite <- (lxor_cancel r g), Hwho. congruence.
        - left. rewrite <- (lxor_cancel r g), Hwho. congruence. }
      rewrite Hn in Hs.
      assert (forall x (s1 : @rstate A) o t, rank_inv x s1 -> rs_todo s1 = o :: t -> ~ In o t) as Hnd.
      { intros x s1 o t HR Ht Hin1. pose proof (todo_sorted _ _ HR) as S. rewrite Ht in S.
        inversion S as [|? ? _ F]; subst. rewrite Forall_forall in F.
        apply (klt_irrefl o). now apply F. }
      destruct (Nat.eqb_spec r q) as [->|H1].
      + injection Hs as <-. cbn [sq' rs_todo] in Hin. rewrite <- Hoq in Hin.
        apply (Hnd q sq oq tq); auto. apply (inv_rank _ HI q sq Eq).
      + destruct (Nat.eqb_spec r p) as [->|H2]; [|tauto].
        injection Hs as <-. cbn [sp' rs_todo] in Hin. rewrite <- Hop in Hin.
        apply (Hnd p sp op tp); auto. apply (inv_rank _ HI p sp Ep).
    - (* measure *)
      assert (forall (l : list (@rstate A)) i s s' o t, nth_error l i = Some s -> rs_todo s = o :: t -> rs_todo s' = t ->
         (S (length (concat (map rs_todo (set_nth l i s')))) = length (concat (map rs_todo l)))%nat) as Hm.
      { clear. induction l as [|a l IH]; intros i s s' o t Hs Ht Ht'; [destruct i; discriminate|].
        destruct i as [|i]; cbn [set_nth map concat nth_error] in *.
        - injection Hs as ->. rewrite !app_length, Ht, Ht'. cbn [length]. lia.
        - rewrite !app_length. specialize (IH i s s' o t Hs Ht Ht'). lia. }
      assert (forall (l : list (@rstate A)) i s s', nth_error l i = Some s -> rs_todo s' = rs_todo s ->
         length (concat (map rs_todo (set_nth l i s'))) = length (concat (map rs_todo l))) as Hm'.
      { clear. induction l as [|a l IH]; intros i s s' Hs Ht; [destruct i; discriminate|].
        destruct i as [|i]; cbn [set_nth map concat nth_error] in *.
        - injection Hs as ->. rewrite !app_length, Ht. lia.
        - rewrite !app_length. rewrite (IH i s s' Hs Ht). lia. }
      pose proof (Hm c p sp sp' op tp Ep Etp eq_refl) as M1.
      destruct (Nat.eq_dec p q) as [Hpq|Hpq].
      + assert (nth_error (set_nth c p sp') q = Some sp') as E1.
        { rewrite nth_error_set_nth by lia. now rewrite Hpq, Nat.eqb_refl. }
        rewrite (Hm' _ q sp' sq' E1); [lia|]. cbn [sp' sq' rs_todo].
        assert (Some sp = Some sq) as E2 by (rewrite <- Ep, Hpq; exact Eq). congruence.
      + assert (nth_error (set_nth c p sp') q = Some sq) as E1.
        { rewrite nth_error_set_nth by lia. destruct (Nat.eqb_spec q p); [lia | assumption]. }
        pose proof (Hm _ q sq sq' oq tq E1 Etq eq_refl). lia.
  Qed.

  (** progress: unless everything is finished some pair can complete *)
  Lemma progress c : Inv c -> finished c = false -> exists p q out, rendezvous sbuf c p q = Some out.
  Proof.
    intros HI Hf. unfold finished in Hf.
    set (hd_key := fun p => match nth_error c p with
                   | Some s => match rs_todo s with o :: _ => (x_grp o, x_chunk o) | [] => (0, 0)%nat end
                   | None => (0, 0)%nat end).
    set (busy := filter (fun p => match nth_error c p with
                   | Some s => match rs_todo s with _ :: _ => true | [] => false end
                   | None => false end) (seq 0 P)).
    pose proof (inv_len _ HI) as HL.
    assert (busy <> []) as Hb.
    { assert (exists s, In s c /\ rs_todo s <> []) as (s & Hs & Ht).
      { clear -Hf. induction c as [|a c IH]; [discriminate|]. cbn [forallb] in Hf.
        destruct (rs_todo a) eqn:E.
        - destruct (IH Hf) as (s & H1 & H2). exists s. split; [now right | assumption].
        - exists a. split; [now left | congruence]. }
      apply In_nth_error in Hs. destruct Hs as [p Hp].
      assert (In p busy).
      { apply filter_In. split.
        - apply in_seq. assert (p < length c)%nat by (apply nth_error_Some; congruence). lia.
        - rewrite Hp. destruct (rs_todo s); [contradiction | reflexivity]. }
      intro E. rewrite E in H. destruct H. }
    destruct (exists_minimal hd_key busy Hb) as (p & Hp & Hmin).
    apply filter_In in Hp. destruct Hp as [HpP Hp]. apply in_seq in HpP.
    destruct (nth_error c p) as [sp|] eqn:Ep; [|discriminate].
    destruct (rs_todo sp) as [|op tp] eqn:Etp; [discriminate|]. clear Hp.
    pose proof (inv_rank _ HI p sp Ep) as HRp.
    destruct (head_facts p sp op tp ltac:(lia) HRp Etp) as (g & k & Hg & HqP & Hk & Hop).
    set (q := Nat.lxor p g) in *.
    destruct (nth_error c q) as [sq|] eqn:Eq; [|apply nth_error_None in Eq; lia].
    pose proof (inv_pair _ HI p g k sp sq Ep Eq ltac:(rewrite Etp, Hop; now left)) as Hin.
    destruct (rs_todo sq) as [|oq tq] eqn:Etq; [destruct Hin|].
    pose proof (inv_rank _ HI q sq Eq) as HRq.
    destruct (head_facts q sq oq tq HqP HRq Etq) as (g' & k' & Hg' & HqP' & Hk' & Hoq).
    (* q's head is the matching call *)
    assert (In q busy) as Hqb.
    { apply filter_In. split; [apply in_seq; lia|]. rewrite Eq, Etq. reflexivity. }
    specialize (Hmin q Hqb). unfold hd_key in Hmin. rewrite Ep, Etp, Eq, Etq in Hmin.
    rewrite Hop, Hoq in Hmin. unfold the_op, chop in Hmin; cbn [x_grp x_chunk fst snd] in Hmin.
    assert (g' = g) as ->.
    { destruct Hin as [Hin|Hin].
      - rewrite Hoq in Hin. apply (f_equal x_grp) in Hin. exact Hin.
      - pose proof (todo_sorted _ _ HRq) as S. rewrite Etq in S. inversion S as [|? ? _ F]; subst.
        rewrite Forall_forall in F. specialize (F _ Hin). unfold klt, the_op, chop in F; cbn [x_grp x_chunk] in F. lia. }
    exists p, q. unfold rendezvous. rewrite Ep, Eq, Etp, Etq.
    assert (x_peer op = q) as -> by (rewrite Hop; reflexivity).
    assert (x_peer oq = p) as -> by (rewrite Hoq; unfold the_op, chop; cbn [x_peer]; apply lxor_cancel).
    rewrite !Nat.eqb_refl. cbn [andb].
    destruct (receive sp op tp (message sbuf q oq)), (receive sq oq tq (message sbuf p op)); eauto.
  Qed.

  Lemma runs_inv c0 sched c : Inv c0 -> runs sbuf c0 sched c ->
    Inv c /\ (length sched + length (concat (map rs_todo c)) <= length (concat (map rs_todo c0)))%nat.
  Proof.
    intros HI H. induction H as [c0|c0 sched c' p q c'' Hr IH Hs].
    - split; [assumption | cbn; lia].
    - destruct (IH HI) as [HI' Hm].
      destruct (rendezvous_inv c' p q _ HI' Hs) as (c1 & E & HI'' & Hlt). injection E as <-.
      split; [assumption|]. rewrite app_length. cbn [length]. lia.
  Qed.

  (** *** the final buffers *)
  Lemma ops_pieces j : (j < P)%nat -> forall o d, In (o, d) (map op_write (ops j)) ->
    exists i a b, (i < P)%nat /\ 0 <= a /\ b <= mat rc j i /\
        o = mat rd j i + a /\ d = zslice (nth i sbuf []) (mat sd i j + a) (mat sd i j + b).
  Proof.
    intros Hj o d Hin. apply in_map_iff in Hin. destruct Hin as (x & Hx & Hin).
    apply In_ops in Hin. destruct Hin as (g & k & Hg & Hq & Hk & ->).
    unfold op_write, op_data in Hx. cbn [x_peer x_grp x_chunk the_op chop x_roff] in Hx.
    injection Hx as <- <-.
    pose proof (the_op_message j g k Hj Hq) as Hm. cbv zeta in Hm. rewrite Hm.
    pose proof (rcounts_nn j _ Hj Hq).
    assert (0 <= Z.of_nat k * nchunk) by nia.
    exists (Nat.lxor j g). do 2 eexists. repeat split; try reflexivity; auto; lia.
  Qed.
  Lemma ops_cover j : (P <= 2 ^ pt)%nat -> (j < P)%nat -> forall i t, (i < P)%nat -> 0 <= t < mat rc j i -> exists o d,
        In (o, d) (map op_write (ops j)) /\ o <= mat rd j i + t < o + zlen d.
  Proof.
    intros Hpt Hj i t Hi Ht.
    set (g := Nat.lxor j i).
    assert (Nat.lxor j g = i) as Hgi
      by (unfold g; now rewrite <- Nat.lxor_assoc, Nat.lxor_nilpotent, Nat.lxor_0_l).
    set (k := Z.to_nat (t / nchunk)).
    pose proof (Z.div_mod t nchunk ltac:(lia)) as Hdm.
    pose proof (Z.mod_pos_bound t nchunk ltac:(lia)) as Hmb.
    pose proof (Z.div_pos t nchunk ltac:(lia) ltac:(lia)) as Hdp.
    assert (Z.of_nat k = t / nchunk) as Hk by (unfold k; lia).
    exists (x_roff (the_op j g k)), (op_data (the_op j g k)). split.
    - apply in_map_iff. exists (the_op j g k). split; [reflexivity|]. apply In_ops.
      exists g, k. repeat split.
      + apply lxor_lt_pow2; lia.
      + rewrite Hgi. assumption.
      + rewrite Hgi. unfold nch. apply nchunks_spec; [lia | pose proof (rcounts_nn j i Hj Hi); lia|].
        rewrite Hk. nia.
    - unfold op_data. cbn [x_peer x_grp x_chunk the_op chop].
      rewrite the_op_rnum by (rewrite ?Hgi; assumption).
      cbn [the_op chop x_roff x_rnum]. rewrite Hgi. rewrite Hk.
      assert (0 <= t / nchunk * nchunk) by nia. remember (t / nchunk * nchunk) as c. lia.
  Qed.

  Lemma final_buffers c0 sched c : (P <= 2 ^ pt)%nat -> Inv c0 -> runs sbuf c0 sched c -> finished c = true ->
    delivered P sbuf sd rbuf rc rd (map rs_buf c).
  Proof.
    intros Hpt HI0 Hr Hf. destruct (runs_inv _ _ _ HI0 Hr) as [HI _].
    pose proof (inv_len _ HI) as HL.
    apply target_delivered; [now rewrite map_length|].
    intros j Hj. destruct (nth_error c j) as [s|] eqn:E; [|apply nth_error_None in E; lia].
    assert (nth j (map rs_buf c) [] = rs_buf s) as ->.
    { apply nth_error_nth. now apply map_nth_error. }
    destruct (inv_rank _ HI j s E) as [(done & Hd & Hb)].
    assert (rs_todo s = []) as Ht.
    { unfold finished in Hf. rewrite forallb_forall in Hf. apply nth_error_In in E.
      specialize (Hf s E). destruct (rs_todo s); [reflexivity | discriminate]. }
    rewrite Ht, app_nil_r in Hd. subst done.
    destruct (target_exists j Hj) as (T & HTl & HT).
    rewrite (pieces_target j (map op_write (ops j)) T Hj HTl HT (ops_pieces j Hj) (ops_cover j Hpt Hj)) in Hb.
    rewrite Hb. auto.
  Qed.
End Hypercube.

(** *** the whole call: programs of all ranks *)
Section Call.
  Context {A : Type} (P : nat) (nchunk : Z) (sbuf : list (list A)) (sc sd : list (list Z))
          (rbuf : list (list A)) (rc rd : list (list Z)).
  Hypothesis Hlegal : legal_call P sbuf sc sd rbuf rc rd.
  Hypothesis Hnchunk : 1 <= nchunk.

  Lemma call_progs fuel : (P <= fuel)%nat ->
    (forall i j, (i < P)%nat -> (j < P)%nat -> entry sc i j <= Z.of_nat fuel) ->
    exists pt, (P <= 2 ^ pt)%nat /\
      mapM (hypercube_ops fuel nchunk P sc sd rc rd) (seq 0 P)
      = Ok (spmd P (ops P nchunk sc sd rc rd pt)).
  Proof.
    intros HP Hf. destruct (find_ptask_ok fuel 0 P ltac:(lia)) as (pt & Hfp & Hpt).
    exists pt. split; [assumption|]. apply mapM_map_ok. intros p Hp. apply in_seq in Hp.
    eapply hypercube_ops_closed; eauto; [lia|]. intros q Hq. unfold nch.
    pose proof (nchunks_le nchunk (mat sc p q) (mat rc p q) Hnchunk
      ltac:(eapply counts_nn; eauto; lia) ltac:(eapply rcounts_nn; eauto; lia)).
    pose proof (Hf p q ltac:(lia) Hq) as H1. pose proof (Hf q p Hq ltac:(lia)) as H2.
    unfold entry in *. fold (mat sc p q) in H1. fold (mat sc q p) in H2.
    pose proof (counts_eq P sbuf sc sd rbuf rc rd Hlegal q p Hq ltac:(lia)). lia.
  Qed.

  Lemma delivered_unique f1 f2 :
    delivered P sbuf sd rbuf rc rd f1 -> delivered P sbuf sd rbuf rc rd f2 -> f1 = f2.
  Proof using Type.
    intros D1 D2. apply list_ext_nth with (d := []).
    - now rewrite (dl_ranks _ _ _ _ _ _ _ D1), (dl_ranks _ _ _ _ _ _ _ D2).
    - intros j Hj. rewrite (dl_ranks _ _ _ _ _ _ _ D1) in Hj. apply nth_error_ext. intro x.
      assert ({i | (i < P)%nat /\ mat rd j i <= Z.of_nat x < mat rd j i + mat rc j i} +
              {forall i, (i < P)%nat -> ~ (mat rd j i <= Z.of_nat x < mat rd j i + mat rc j i)}) as [(i & Hi & Hx)|Hno].
      { destruct (owner P rc rd j (Z.of_nat x)) as [i|] eqn:E.
        - left. exists i. eapply owner_inv; eauto.
        - right. intros i Hi. eapply owner_none_inv; eauto. }
      + pose proof (dl_data _ _ _ _ _ _ _ D1 i j (Z.of_nat x - mat rd j i) Hi Hj) as H1.
        pose proof (dl_data _ _ _ _ _ _ _ D2 i j (Z.of_nat x - mat rd j i) Hi Hj) as H2.
        unfold entry in H1, H2. fold (mat rd j i) (mat rc j i) in H1, H2.
        replace (mat rd j i + (Z.of_nat x - mat rd j i)) with (Z.of_nat x) in * by lia.
        rewrite Nat2Z.id in *. rewrite H1, H2 by lia. reflexivity.
      + rewrite (dl_frame _ _ _ _ _ _ _ D1 j x Hj Hno), (dl_frame _ _ _ _ _ _ _ D2 j x Hj Hno). reflexivity.
  Qed.

  Lemma finish_exists pt c : (P <= 2 ^ pt)%nat ->
    Inv P nchunk sbuf sc sd rbuf rc rd pt c ->
    exists sched c', runs sbuf c sched c' /\ finished c' = true.
  Proof.
    intros Hpt.
    assert (forall n c, (length (concat (map rs_todo c)) <= n)%nat ->
      Inv P nchunk sbuf sc sd rbuf rc rd pt c ->
      exists sched c', runs sbuf c sched c' /\ finished c' = true) as H.
    { induction n as [|n IH]; intros c0 Hn HI.
      - exists [], c0. split; [constructor|]. unfold finished. apply forallb_forall. intros s Hs.
        destruct (rs_todo s) as [|o t] eqn:E; [reflexivity|]. exfalso.
        assert (In o (concat (map rs_todo c0))) as Ho.
        { apply in_concat. exists (rs_todo s). split; [now apply in_map | rewrite E; now left]. }
        destruct (concat (map rs_todo c0)); [destruct Ho | cbn in Hn; lia].
      - destruct (finished c0) eqn:E; [exists [], c0; split; [constructor | assumption]|].
        destruct (progress P nchunk sbuf sc sd rbuf rc rd pt c0 HI E) as (p & q & out & Hr).
        destruct (rendezvous_inv P nchunk sbuf sc sd rbuf rc rd Hlegal Hnchunk pt c0 p q out HI Hr)
          as (c1 & -> & HI1 & Hlt).
        destruct (IH c1 ltac:(lia) HI1) as (sched & c' & Hrun & Hfin).
        exists ((p, q) :: sched), c'. split; [|assumption].
        assert (forall c1 sched c', runs sbuf c1 sched c' -> forall p q c0, rendezvous sbuf c0 p q = Some (Some c1) ->
           runs sbuf c0 ((p, q) :: sched) c') as H.
        { clear. induction 1 as [c|c s c2 p1 q1 c3 Hr1 IHr Hs1]; intros p0 q0 c0' H0.
          - apply (runs_step sbuf c0' [] c0' p0 q0 c); [constructor | assumption].
          - apply (runs_step sbuf c0' ((p0, q0) :: s) c2 p1 q1 c3); auto. }
        eapply H; eauto. }
    intro HI. eapply H; [apply Nat.le_refl | assumption].
  Qed.

  (** *** asynchronous method *)
  Lemma post_loop_chunk fuel : forall off left k,
    post_loop fuel nchunk off left =
    do ops <- chunk_loop fuel nchunk 0 k 0 off left off left; Ok (map (fun x => (x_soff x, x_snum x)) ops).
  Proof.
    induction fuel as [|f IH]; intros off left k; cbn [post_loop chunk_loop]; rewrite orb_diag;
      destruct (0 <? left); try reflexivity.
    rewrite (IH _ _ (S k)). destruct (chunk_loop f nchunk 0 (S k) 0 _ _ _ _); reflexivity.
  Qed.

  Lemma post_loop_closed fuel off left : 0 <= left <= Z.of_nat fuel ->
    post_loop fuel nchunk off left =
    Ok (map (fun k => (off + Z.min (Z.of_nat k * nchunk) left, Z.min (left - Z.min (Z.of_nat k * nchunk) left) nchunk))
            (seq 0 (nchunks nchunk left left))).
  Proof.
    intro H. rewrite (post_loop_chunk fuel off left 0), chunk_loop_closed; try lia.
    - cbn [bind]. now rewrite map_map.
    - pose proof (nchunks_le nchunk left left Hnchunk ltac:(lia) ltac:(lia)). lia.
  Qed.

  Definition the_transfer (i j k : nat) : transfer A :=
    {| t_dst := j; t_off := mat rd j i + Z.min (Z.of_nat k * nchunk) (mat rc j i);
       t_num := Z.min (mat rc j i - Z.min (Z.of_nat k * nchunk) (mat rc j i)) nchunk;
       t_msg := zslice (nth i sbuf []) (mat sd i j + Z.min (Z.of_nat k * nchunk) (mat rc j i))
                  (mat sd i j + Z.min (Z.of_nat (S k) * nchunk) (mat rc j i)) |}.

  Lemma zipwith_map {B C D E} (f : C -> D -> E) (g : B -> C) (h : B -> D) l :
    zipwith f (map g l) (map h l) = map (fun x => f (g x) (h x)) l.
  Proof. induction l as [|a l IH]; cbn; [reflexivity | now rewrite IH]. Qed.

  Lemma match_pair_closed fuel i j : (i < P)%nat -> (j < P)%nat -> mat rc j i <= Z.of_nat fuel ->
    match_pair fuel nchunk sbuf sc sd rc rd i j =
    Ok (map (the_transfer i j) (seq 0 (nchunks nchunk (mat rc j i) (mat rc j i)))).
  Proof.
    intros Hi Hj Hf. unfold match_pair.
    pose proof (counts_eq P sbuf sc sd rbuf rc rd Hlegal i j Hi Hj) as He. rewrite He.
    pose proof (rcounts_nn P sbuf sc sd rbuf rc rd Hlegal j i Hj Hi) as Hnn.
    rewrite !post_loop_closed by lia. cbn [bind]. rewrite !map_length, Nat.eqb_refl. cbn [check bind].
    f_equal. rewrite zipwith_map. apply map_ext_in. intros k Hk. cbn [fst snd].
    unfold the_transfer. f_equal. apply in_seq in Hk.
    assert (Z.of_nat k * nchunk < mat rc j i) as Hlt.
    { pose proof (nchunks_spec nchunk (mat rc j i) (mat rc j i) k Hnchunk ltac:(lia)) as Hs.
      rewrite Z.max_id in Hs. apply Hs. lia. }
    assert (0 <= Z.of_nat k * nchunk) by nia.
    destruct (recv_in_range P sbuf sc sd rbuf rc rd Hlegal i j Hi Hj ltac:(lia)) as (H1 & H2 & H3 & H4).
    replace (Z.of_nat (S k) * nchunk) with (Z.of_nat k * nchunk + nchunk) by lia.
    rewrite pyslice_zslice by lia. f_equal. lia.
  Qed.

  Lemma async_closed fuel : (forall i j, (i < P)%nat -> (j < P)%nat -> entry sc i j <= Z.of_nat fuel) ->
    exists ts, async_transfers fuel nchunk P sbuf sc sd rc rd = Ok ts /\
      forall t, In t ts <-> exists i j k, (i < P)%nat /\ (j < P)%nat /\
        Z.of_nat k * nchunk < mat rc j i /\ t = the_transfer i j k.
  Proof.
    intro Hf. unfold async_transfers.
    erewrite (mapM_map_ok _ (fun ij => map (the_transfer (fst ij) (snd ij))
       (seq 0 (nchunks nchunk (mat rc (snd ij) (fst ij)) (mat rc (snd ij) (fst ij)))))).
    2: { intros [i j] Hij. apply in_prod_iff in Hij. destruct Hij as [Hi Hj]. apply in_seq in Hi, Hj.
         cbn [fst snd]. apply match_pair_closed; try lia.
         rewrite <- (counts_eq P sbuf sc sd rbuf rc rd Hlegal i j) by lia. apply Hf; lia. }
    cbn [bind]. eexists. split; [reflexivity|]. intro t. rewrite in_concat. split.
    - intros (l & Hl & Ht). apply in_map_iff in Hl. destruct Hl as ([i j] & <- & Hij).
      apply in_prod_iff in Hij. destruct Hij as [Hi Hj]. apply in_seq in Hi, Hj. cbn [fst snd] in Ht.
      apply in_map_iff in Ht. destruct Ht as (k & <- & Hk). apply in_seq in Hk.
      exists i, j, k. repeat split; try lia.
      pose proof (rcounts_nn P sbuf sc sd rbuf rc rd Hlegal j i ltac:(lia) ltac:(lia)).
      pose proof (nchunks_spec nchunk (mat rc j i) (mat rc j i) k Hnchunk ltac:(lia)) as Hs.
      rewrite Z.max_id in Hs. apply Hs. lia.
    - intros (i & j & k & Hi & Hj & Hk & ->). eexists. split.
      + apply in_map_iff. exists (i, j). split; [reflexivity|]. apply in_prod_iff. split; apply in_seq; lia.
      + cbn [fst snd]. apply in_map, in_seq. split; [lia|].
        pose proof (rcounts_nn P sbuf sc sd rbuf rc rd Hlegal j i ltac:(lia) ltac:(lia)).
        pose proof (nchunks_spec nchunk (mat rc j i) (mat rc j i) k Hnchunk ltac:(lia)) as Hs.
        rewrite Z.max_id in Hs. apply Hs. lia.
  Qed.

  Lemma deliver_all_closed (ts : list (transfer A)) : forall bufs, length bufs = P ->
    (forall t, In t ts -> (t_dst t < P)%nat /\ zlen (t_msg t) <= t_num t) ->
    deliver_all bufs ts = Ok (spmd P (fun j =>
      fold_left (fun b od => write_at b (fst od) (snd od))
        (map (fun t => (t_off t, t_msg t)) (filter (fun t => (t_dst t =? j)%nat) ts)) (nth j bufs []))).
  Proof.
    induction ts as [|t ts IH]; intros bufs Hb Hts; cbn [deliver_all].
    - f_equal. cbn. symmetry. rewrite <- Hb. apply spmd_nth.
    - destruct (Hts t ltac:(now left)) as [Hd Hm]. unfold deliver.
      destruct (Z.leb_spec (zlen (t_msg t)) (t_num t)); [|lia]. cbn [bind].
      rewrite IH; [|now rewrite set_nth_length | intros; apply Hts; now right].
      f_equal. apply spmd_ext. intros j Hj. rewrite nth_set_nth by lia. cbn [filter].
      destruct (Nat.eqb_spec j (t_dst t)) as [->|Hne].
      + rewrite Nat.eqb_refl. reflexivity.
      + destruct (Nat.eqb_spec (t_dst t) j); [lia | reflexivity].
  Qed.

  Lemma async_delivered fuel : (forall i j, (i < P)%nat -> (j < P)%nat -> entry sc i j <= Z.of_nat fuel) ->
    exists ts, async_transfers fuel nchunk P sbuf sc sd rc rd = Ok ts /\
      forall ts', Permutation ts ts' -> exists final, deliver_all rbuf ts' = Ok final /\
        delivered P sbuf sd rbuf rc rd final.
  Proof.
    intro Hf. destruct (async_closed fuel Hf) as (ts & Hts & Hin). exists ts. split; [assumption|].
    intros ts' Hperm.
    assert (forall t, In t ts' <-> In t ts) as Hin'.
    { intro t. split; apply Permutation_in; [now apply Permutation_sym | assumption]. }
    assert (forall i j k, (i < P)%nat -> (j < P)%nat -> Z.of_nat k * nchunk < mat rc j i ->
       zlen (t_msg (the_transfer i j k)) = t_num (the_transfer i j k)) as Hlen.
    { intros i j k Hi Hj Hk. cbn [the_transfer t_msg t_num].
      assert (0 <= Z.of_nat k * nchunk) by nia.
      destruct (recv_in_range P sbuf sc sd rbuf rc rd Hlegal i j Hi Hj ltac:(lia)) as (H1 & H2 & H3 & H4).
      replace (Z.of_nat (S k) * nchunk) with (Z.of_nat k * nchunk + nchunk) by lia.
      rewrite zlen_zslice by lia. lia. }
    rewrite deliver_all_closed.
    2: apply (lc_rbuf _ _ _ _ _ _ _ Hlegal).
    2: { intros t Ht. apply Hin', Hin in Ht. destruct Ht as (i & j & k & Hi & Hj & Hk & ->).
         split; [exact Hj|]. rewrite Hlen by assumption. lia. }
    eexists. split; [reflexivity|]. eapply target_delivered; [eassumption | apply spmd_length|].
    intros j Hj. rewrite nth_spmd by assumption.
    destruct (target_exists P sbuf sc sd rbuf rc rd Hlegal j Hj) as (T & HTl & HT).
    erewrite (pieces_target P nchunk sbuf sc sd rbuf rc rd Hlegal j _ T Hj HTl HT); [auto| |].
    - intros o d Hod. apply in_map_iff in Hod. destruct Hod as (t & Ht & Htin).
      apply filter_In in Htin. destruct Htin as [Htin Hdst]. apply Nat.eqb_eq in Hdst.
      apply Hin', Hin in Htin. destruct Htin as (i & j' & k & Hi & Hj' & Hk & ->).
      cbn [the_transfer t_dst t_off t_msg] in *. subst j'. injection Ht as <- <-.
      assert (0 <= Z.of_nat k * nchunk) by nia.
      exists i. do 2 eexists. repeat split; try reflexivity; auto; lia.
    - intros i t Hi Ht.
      set (k := Z.to_nat (t / nchunk)).
      pose proof (Z.div_mod t nchunk ltac:(lia)) as Hdm.
      pose proof (Z.mod_pos_bound t nchunk ltac:(lia)) as Hmb.
      pose proof (Z.div_pos t nchunk ltac:(lia) ltac:(lia)) as Hdp.
      assert (Z.of_nat k = t / nchunk) as Hk by (unfold k; lia).
      assert (0 <= t / nchunk * nchunk) by nia.
      exists (t_off (the_transfer i j k)), (t_msg (the_transfer i j k)). split.
      + apply in_map_iff. exists (the_transfer i j k). split; [reflexivity|].
        apply filter_In. split; [|apply Nat.eqb_refl]. apply Hin', Hin. exists i, j, k.
        repeat split; auto. rewrite Hk. lia.
      + rewrite Hlen by (auto; rewrite Hk; lia). cbn [the_transfer t_off t_num]. rewrite Hk.
        remember (t / nchunk * nchunk) as c. lia.
  Qed.
End Call.

(** *** sendrecv *)
Lemma write_prefix {A} (src buf : list A) a b : 0 <= a <= b -> b <= zlen src -> b <= zlen buf ->
  write_at (firstn (Z.to_nat a) src ++ skipn (Z.to_nat a) buf) a (zslice src a b) =
  firstn (Z.to_nat b) src ++ skipn (Z.to_nat b) buf.
Proof.
  intros H1 H2 H3. unfold write_at, zslice, zlen in *.
  assert (length (firstn (Z.to_nat a) src) = Z.to_nat a) as L by (rewrite firstn_length; lia).
  rewrite firstn_app, L, Nat.sub_diag, firstn_O, app_nil_r, firstn_firstn, Nat.min_id.
  assert (length (firstn (Z.to_nat b - Z.to_nat a) (skipn (Z.to_nat a) src)) = (Z.to_nat b - Z.to_nat a)%nat) as L2
    by (rewrite firstn_length, skipn_length; lia).
  rewrite L2, skipn_app, L, (skipn_all2 (firstn (Z.to_nat a) src)) by lia. cbn [app].
  rewrite skipn_skipn', app_assoc. f_equal.
  - replace (Z.to_nat b) with (Z.to_nat a + (Z.to_nat b - Z.to_nat a))%nat at 2 by lia.
    clear. generalize (Z.to_nat b - Z.to_nat a)%nat as m. generalize (Z.to_nat a) as n. intros n m.
    revert src; induction n as [|n IH]; intro src; [reflexivity|]. destruct src; cbn; [now destruct m|].
    f_equal. apply IH.
  - f_equal. lia.
Qed.

Lemma sendrecv_run_ok {A} nchunk (sA sB rA rB : list A) : 1 <= nchunk ->
  zlen sB <= zlen rA -> zlen sA <= zlen rB -> forall n k,
  let pa k := Z.min (Z.of_nat k * nchunk) (zlen sA) in
  let pb k := Z.min (Z.of_nat k * nchunk) (zlen sB) in
  sendrecv_run sA sB
    (map (chop nchunk 0 0 0 (zlen sA) 0 (zlen sB)) (seq k n))
    (map (chop nchunk 0 0 0 (zlen sB) 0 (zlen sA)) (seq k n))
    (firstn (Z.to_nat (pb k)) sB ++ skipn (Z.to_nat (pb k)) rA)
    (firstn (Z.to_nat (pa k)) sA ++ skipn (Z.to_nat (pa k)) rB) =
  Ok (firstn (Z.to_nat (pb (k + n)%nat)) sB ++ skipn (Z.to_nat (pb (k + n)%nat)) rA,
      firstn (Z.to_nat (pa (k + n)%nat)) sA ++ skipn (Z.to_nat (pa (k + n)%nat)) rB).
Proof.
  intros Hn HA HB n. induction n as [|n IH]; intros k pa pb.
  - rewrite Nat.add_0_r. reflexivity.
  - cbn [seq map sendrecv_run].
    set (RA := firstn (Z.to_nat (pb k)) sB ++ skipn (Z.to_nat (pb k)) rA).
    set (RB := firstn (Z.to_nat (pa k)) sA ++ skipn (Z.to_nat (pa k)) rB).
    assert (0 <= zlen sA /\ 0 <= zlen sB) as [Z1 Z2] by (unfold zlen; lia).
    assert (0 <= Z.of_nat k * nchunk) as Hc by nia.
    assert (zlen RA = zlen rA) as LA
      by (unfold RA, zlen in *; rewrite app_length, firstn_length, skipn_length; unfold pb, zlen; lia).
    assert (zlen RB = zlen rB) as LB
      by (unfold RB, zlen in *; rewrite app_length, firstn_length, skipn_length; unfold pa, zlen; lia).
    cbn [chop x_soff x_snum x_roff x_rnum]. rewrite !Z.add_0_l. fold (pa k) (pb k).
    assert (pa k + Z.min (zlen sA - pa k) nchunk = pa (S k)) as Ea by (unfold pa; lia).
    assert (pb k + Z.min (zlen sB - pb k) nchunk = pb (S k)) as Eb by (unfold pb; lia).
    rewrite Ea, Eb.
    assert (0 <= pa k <= pa (S k) /\ pa (S k) <= zlen sA) as Ba by (unfold pa; lia).
    assert (0 <= pb k <= pb (S k) /\ pb (S k) <= zlen sB) as Bb by (unfold pb; lia).
    rewrite !pyslice_zslice by lia. rewrite !zlen_zslice by lia.
    destruct ((pb (S k) - pb k <=? pb (S k) - pb k) && (pa (S k) - pa k <=? pa (S k) - pa k)) eqn:E; [|lia].
    unfold RA, RB. rewrite !write_prefix by lia. rewrite IH. replace (k + S n)%nat with (S k + n)%nat by lia.
    reflexivity.
Qed.

Lemma sendrecv_ok {A} fuel nchunk (sA sB rA rB : list A) : 1 <= nchunk ->
  zlen sB <= zlen rA -> zlen sA <= zlen rB -> Z.max (zlen sA) (zlen sB) <= Z.of_nat fuel ->
  sendrecv fuel nchunk sA rA sB rB = Ok (sB ++ skipn (length sB) rA, sA ++ skipn (length sA) rB).
Proof.
  intros Hn HA HB Hf. unfold sendrecv, sendrecv_ops.
  assert (0 <= zlen sA /\ 0 <= zlen sB) as [Z1 Z2] by (unfold zlen; lia).
  pose proof (nchunks_le nchunk (zlen sA) (zlen sB) Hn Z1 Z2) as Hle.
  rewrite !chunk_loop_closed; try lia.
  2: rewrite nchunks_comm; lia.
  cbn [bind]. rewrite (nchunks_comm nchunk (zlen sB)).
  pose proof (sendrecv_run_ok nchunk sA sB rA rB Hn HA HB (nchunks nchunk (zlen sA) (zlen sB)) 0) as H.
  cbv zeta beta in H. change (Z.of_nat 0) with 0 in H. rewrite Z.mul_0_l, !Z.min_l in H by lia. cbn [Z.to_nat firstn skipn app] in H.
  rewrite H. rewrite Nat.add_0_l.
  set (N := nchunks nchunk (zlen sA) (zlen sB)).
  assert (Z.max (zlen sA) (zlen sB) <= Z.of_nat N * nchunk) as HN.
  { pose proof (nchunks_spec nchunk (zlen sA) (zlen sB) N Hn ltac:(lia)) as Hs. fold N in Hs. lia. }
  rewrite !Z.min_r by lia. unfold zlen. rewrite !Nat2Z.id, !firstn_all. reflexivity.
Qed.

(** *** the bulk-synchronous meaning used by the other routines *)
Lemma legal_valid {A} P (sbuf : list (list A)) sc sd rbuf rc rd :
  legal_call P sbuf sc sd rbuf rc rd -> a2av_valid P sbuf sc sd rbuf rc rd = true.
Proof.
  intro H. apply a2av_valid_spec. split.
  - intros i j Hi Hj. destruct (lc_counts _ _ _ _ _ _ _ H i j Hi Hj) as [H1 H2].
    pose proof (lc_send _ _ _ _ _ _ _ H i j Hi Hj) as H3.
    pose proof (lc_recv _ _ _ _ _ _ _ H i j Hi Hj) as H4. auto.
  - intros r i j Hr Hi Hj Hne.
    destruct (Z.le_gt_cases (mat rc r i) 0) as [H1|H1]; [auto|].
    destruct (Z.le_gt_cases (mat rc r j) 0) as [H2|H2]; [auto|].
    destruct (Z.le_gt_cases (mat rd r i + mat rc r i) (mat rd r j)) as [H3|H3]; [auto|].
    destruct (Z.le_gt_cases (mat rd r j + mat rc r j) (mat rd r i)) as [H4|H4]; [auto|].
    exfalso. apply (lc_disjoint _ _ _ _ _ _ _ H r i j (Z.max (mat rd r i) (mat rd r j)) Hr Hi Hj Hne);
      unfold entry; fold (mat rd r i) (mat rc r i) (mat rd r j) (mat rc r j); lia.
Qed.

Lemma bsp_delivered {A} P (sbuf : list (list A)) sc sd rbuf rc rd :
  legal_call P sbuf sc sd rbuf rc rd ->
  exists final, alltoallv P sbuf sc sd rbuf rc rd = Ok final /\ delivered P sbuf sd rbuf rc rd final.
Proof.
  intro Hlegal. unfold alltoallv. rewrite legal_valid by assumption. eexists. split; [reflexivity|].
  eapply target_delivered; [eassumption | apply spmd_length|].
  intros j Hj. rewrite nth_spmd by assumption.
  destruct (target_exists P sbuf sc sd rbuf rc rd Hlegal j Hj) as (T & HTl & HT).
  assert (forall (l : list nat) b, fold_left (fun buf i =>
        write_at buf (mat rd j i) (pyslice (nth i sbuf []) (mat sd i j) (mat sd i j + mat sc i j))) l b =
     fold_left (fun b od => write_at b (fst od) (snd od))
       (map (fun i => (mat rd j i, pyslice (nth i sbuf []) (mat sd i j) (mat sd i j + mat sc i j))) l) b) as ->.
  { induction l as [|a l IH]; intro b; [reflexivity|]. cbn [map fold_left]. apply IH. }
  assert (forall i, (i < P)%nat ->
    pyslice (nth i sbuf []) (mat sd i j) (mat sd i j + mat sc i j) =
    zslice (nth i sbuf []) (mat sd i j + 0) (mat sd i j + mat rc j i) /\
    zlen (pyslice (nth i sbuf []) (mat sd i j) (mat sd i j + mat sc i j)) = mat rc j i) as Hp.
  { intros i Hi. rewrite (counts_eq P sbuf sc sd rbuf rc rd Hlegal i j Hi Hj).
    pose proof (rcounts_nn P sbuf sc sd rbuf rc rd Hlegal j i Hj Hi).
    destruct (Z.eq_dec (mat rc j i) 0) as [E|E].
    - rewrite E, !Z.add_0_r. unfold pyslice. rewrite !zslice_empty by lia. split; reflexivity.
    - destruct (recv_in_range P sbuf sc sd rbuf rc rd Hlegal i j Hi Hj ltac:(lia)) as (H1 & H2 & H3 & H4).
      rewrite pyslice_zslice by lia. rewrite Z.add_0_r. split; [reflexivity|].
      rewrite zlen_zslice by lia. lia. }
  erewrite (pieces_target P 1 sbuf sc sd rbuf rc rd Hlegal j _ T Hj HTl HT); [auto| |].
  - intros o d Hod. apply in_map_iff in Hod. destruct Hod as (i & Heq & Hi). apply in_seq in Hi.
    injection Heq as <- <-. destruct (Hp i ltac:(lia)) as [-> _].
    exists i, 0, (mat rc j i). repeat split; try lia.
  - intros i t Hi Ht. eexists. eexists. split.
    + apply in_map_iff. exists i. split; [reflexivity|]. apply in_seq. lia.
    + destruct (Hp i Hi) as [_ ->]. lia.
Qed.

(** *** statements used by the property file *)
Lemma hypercube_delivers {A} P nchunk (sbuf : list (list A)) sc sd rbuf rc rd fuel :
  legal_call P sbuf sc sd rbuf rc rd -> 1 <= nchunk -> (P <= fuel)%nat ->
  (forall i j, (i < P)%nat -> (j < P)%nat -> entry sc i j <= Z.of_nat fuel) ->
  exists progs, mapM (hypercube_ops fuel nchunk P sc sd rc rd) (seq 0 P) = Ok progs /\
    (exists sched c, runs sbuf (init_config progs rbuf) sched c /\ finished c = true) /\
    forall sched c, runs sbuf (init_config progs rbuf) sched c -> finished c = true ->
      delivered P sbuf sd rbuf rc rd (map rs_buf c).
Proof.
  intros Hl Hn HP Hf. destruct (call_progs P nchunk sbuf sc sd rbuf rc rd Hl Hn fuel HP Hf) as (pt & Hpt & Hprogs).
  eexists. split; [exact Hprogs|].
  pose proof (init_inv P nchunk sbuf sc sd rbuf rc rd Hl pt _ eq_refl) as HI. split.
  - eapply finish_exists; eauto.
  - intros sched c Hr Hfin. eapply final_buffers; eauto.
Qed.

Lemma hypercube_no_deadlock {A} P nchunk (sbuf : list (list A)) sc sd rbuf rc rd fuel :
  legal_call P sbuf sc sd rbuf rc rd -> 1 <= nchunk -> (P <= fuel)%nat ->
  (forall i j, (i < P)%nat -> (j < P)%nat -> entry sc i j <= Z.of_nat fuel) ->
  exists progs, mapM (hypercube_ops fuel nchunk P sc sd rc rd) (seq 0 P) = Ok progs /\
    forall sched c, runs sbuf (init_config progs rbuf) sched c ->
      (length sched <= length (concat progs))%nat /\
      (forall p q, rendezvous sbuf c p q <> Some None) /\
      (finished c = true \/ exists p q c', rendezvous sbuf c p q = Some (Some c')) /\
      (forall sched' c', runs sbuf (init_config progs rbuf) sched' c' ->
         finished c = true -> finished c' = true -> map rs_buf c = map rs_buf c').
Proof.
  intros Hl Hn HP Hf. destruct (call_progs P nchunk sbuf sc sd rbuf rc rd Hl Hn fuel HP Hf) as (pt & Hpt & Hprogs).
  eexists. split; [exact Hprogs|].
  pose proof (init_inv P nchunk sbuf sc sd rbuf rc rd Hl pt _ eq_refl) as HI0.
  set (c0 := init_config _ rbuf) in *.
  intros sched c Hr.
  destruct (runs_inv P nchunk sbuf sc sd rbuf rc rd Hl Hn pt _ _ _ HI0 Hr) as [HI Hm].
  split; [|split; [|split]].
  - assert (concat (map rs_todo c0) = concat (spmd P (ops P nchunk sc sd rc rd pt))) as E.
    { unfold c0, init_config. f_equal.
      assert (length rbuf = P) as Hlr by apply (lc_rbuf _ _ _ _ _ _ _ Hl).
      assert (length (spmd P (ops P nchunk sc sd rc rd pt)) = length rbuf) as E1 by (rewrite spmd_length; lia).
      revert E1. generalize (spmd P (ops P nchunk sc sd rc rd pt)) as l. clear. intros l. revert rbuf.
      induction l as [|a l IH]; intros [|b r] H; try discriminate; [reflexivity|].
      cbn [zipwith map rs_todo]. f_equal. apply IH. cbn in H. lia. }
    rewrite <- E. lia.
  - intros p q Hs. destruct (rendezvous_inv P nchunk sbuf sc sd rbuf rc rd Hl Hn pt c p q None HI Hs) as (c' & E & _).
    discriminate.
  - destruct (finished c) eqn:E; [now left | right].
    destruct (progress P nchunk sbuf sc sd rbuf rc rd pt c HI E) as (p & q & out & Hs).
    destruct (rendezvous_inv P nchunk sbuf sc sd rbuf rc rd Hl Hn pt c p q out HI Hs) as (c' & -> & _).
    eauto.
  - intros sched' c' Hr' F F'.
    apply (delivered_unique P sbuf sd rbuf rc rd);
      [exact (final_buffers P nchunk sbuf sc sd rbuf rc rd Hl Hn pt _ _ _ Hpt HI0 Hr F)
      | exact (final_buffers P nchunk sbuf sc sd rbuf rc rd Hl Hn pt _ _ _ Hpt HI0 Hr' F')].
Qed.

Lemma async_same {A} P nchunk (sbuf : list (list A)) sc sd rbuf rc rd fuel progs sched c :
  legal_call P sbuf sc sd rbuf rc rd -> 1 <= nchunk -> (P <= fuel)%nat ->
  (forall i j, (i < P)%nat -> (j < P)%nat -> entry sc i j <= Z.of_nat fuel) ->
  mapM (hypercube_ops fuel nchunk P sc sd rc rd) (seq 0 P) = Ok progs ->
  runs sbuf (init_config progs rbuf) sched c -> finished c = true ->
  exists ts, async_transfers fuel nchunk P sbuf sc sd rc rd = Ok ts /\
    forall ts', Permutation ts ts' -> deliver_all rbuf ts' = Ok (map rs_buf c).
Proof.
  intros Hl Hn HP Hf Hp Hr Hfin.
  destruct (async_delivered P nchunk sbuf sc sd rbuf rc rd Hl Hn fuel Hf) as (ts & Hts & Hall).
  exists ts. split; [assumption|]. intros ts' Hperm.
  destruct (Hall ts' Hperm) as (final & -> & Hd). f_equal.
  destruct (hypercube_delivers P nchunk sbuf sc sd rbuf rc rd fuel Hl Hn HP Hf) as (progs' & Hp' & _ & Hdel).
  rewrite Hp in Hp'. injection Hp' as <-.
  eapply delivered_unique; eauto.
Qed.

(** a decision procedure for legality, used by the examples *)
Lemma valid_legal {A} P (sbuf : list (list A)) sc sd rbuf rc rd :
  length sbuf = P -> length rbuf = P -> a2av_valid P sbuf sc sd rbuf rc rd = true ->
  legal_call P sbuf sc sd rbuf rc rd.
Proof.
  intros Hs Hr H. apply a2av_valid_spec in H. destruct H as [H1 H2]. constructor; auto.
  - intros i j Hi Hj. destruct (H1 i j Hi Hj) as (Ha & Hb & _). auto.
  - intros i j Hi Hj. apply (H1 i j Hi Hj).
  - intros i j Hi Hj. apply (H1 i j Hi Hj).
  - intros r i j x Hr' Hi Hj Hne. specialize (H2 r i j Hr' Hi Hj Hne).
    unfold entry. fold (mat rd r i) (mat rc r i) (mat rd r j) (mat rc r j). lia.
Qed.

(** executes a given schedule *)
Fixpoint run_sched {A} (sbuf : list (list A)) (c : list (@rstate A)) (s : list (nat * nat)) : option (list (@rstate A)) :=
  match s with
  | [] => Some c
  | (p, q) :: s' => match rendezvous sbuf c p q with Some (Some c') => run_sched sbuf c' s' | _ => None end
  end.
