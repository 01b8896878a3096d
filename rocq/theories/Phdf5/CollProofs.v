(** Proofs about collective_read and collective_write. *)
From Verif.Base Require Import Prelude ListLemmas.
From Verif.Mpi Require Import CommProofs.
From Verif.Psort Require Import MoveSpec MoveProofs ReduceFinal.
From Verif.Mpi Require Import GatherProofs.
From Verif.Phdf5 Require Import CollModel.
From Coq Require Import ZifyBool ZifyNat.
Local Open Scope Z_scope.

(** *** shares *)
Lemma num_length P n : length (num_on_task P n) = P.
Proof. apply spmd_length. Qed.
Lemma num_sum P n : (0 < P)%nat -> 0 <= n -> sumZ (num_on_task P n) = n.
Proof.
  intros HP Hn. unfold num_on_task. pose proof (Z.mod_pos_bound n (Z.of_nat P) ltac:(lia)) as Hm. pose proof (Z.div_mod n (Z.of_nat P) ltac:(lia)) as Hq. set (q := n / Z.of_nat P) in *. set (m := n mod Z.of_nat P) in *.
  assert (forall k, sumZ (spmd k (fun r => q + (if Z.of_nat r <? m then 1 else 0))) = q * Z.of_nat k + Z.max 0 (Z.min m (Z.of_nat k))) as H.
  { induction k as [|k IH]; [cbn; lia|]. rewrite spmd_S, sumZ_app, IH. cbn [sumZ]. destruct (Z.ltb_spec (Z.of_nat k) m); lia. }
  rewrite H. lia.
Qed.
Lemma num_nonneg P n : 0 <= n -> Forall (fun x => 0 <= x) (num_on_task P n).
Proof.
  intro Hn. apply Forall_forall. intros x Hx. apply In_spmd in Hx. destruct Hx as (r & Hr & ->).
  assert (0 <= n / Z.of_nat P) by (apply Z.div_pos; lia). destruct (_ <? _); lia.
Qed.
Lemma num_nth P n r : (r < P)%nat -> nth r (num_on_task P n) 0 = n / Z.of_nat P + if Z.of_nat r <? n mod Z.of_nat P then 1 else 0.
Proof. intro H. unfold num_on_task. now rewrite nth_spmd. Qed.
Lemma num_nth_nonneg P n r : 0 <= n -> (r < P)%nat -> 0 <= nth r (num_on_task P n) 0.
Proof. intros Hn Hr. pose proof (num_nonneg P n Hn) as H. rewrite Forall_nth in H. apply H. now rewrite num_length. Qed.
Lemma num_off P n r : (r < P)%nat -> nth r (excl_cumsum (num_on_task P n)) 0 = goff (num_on_task P n) r.
Proof. intro H. apply nth_excl_goff. now rewrite num_length. Qed.
Lemma num_end P n r : (0 < P)%nat -> 0 <= n -> (r < P)%nat -> 0 <= goff (num_on_task P n) r /\ goff (num_on_task P n) r + nth r (num_on_task P n) 0 <= n.
Proof.
  intros HP Hn Hr. pose proof (num_nonneg P n Hn) as Hnn. split; [rewrite <- (goff_0 (num_on_task P n)); apply goff_mono; [assumption | lia]|].
  rewrite <- goff_S by (now rewrite num_length). apply Z.le_trans with (goff (num_on_task P n) P); [apply goff_mono; [assumption | lia]|]. rewrite goff_all by (rewrite num_length; lia). rewrite num_sum by assumption. lia.
Qed.
(** the rows of each rank are consecutive slices that make up the whole *)
Lemma shares_concat {A} P (ds : list A) : (0 < P)%nat ->
  concat (spmd P (fun r => zslice ds (goff (num_on_task P (zlen ds)) r) (goff (num_on_task P (zlen ds)) r + nth r (num_on_task P (zlen ds)) 0))) = ds.
Proof.
  intro HP. pose proof (zlen_nonneg ds) as Hn. set (num := num_on_task P (zlen ds)).
  rewrite (spmd_ext P _ (fun r => zslice ds (goff num r) (goff num (S r)))).
  2:{ intros r Hr. rewrite goff_S; [reflexivity|]. unfold num. now rewrite num_length. }
  rewrite (concat_zslices ds (goff num)).
  - rewrite goff_0. rewrite goff_all by (unfold num; rewrite num_length; lia). unfold num. rewrite num_sum by assumption. apply zslice_all; lia.
  - intros k Hk. apply goff_mono; [apply num_nonneg; lia | lia].
Qed.

(** *** reading *)
Lemma read_loop_ok {A} n nbuf (ds : list A) : 1 <= nbuf -> forall p rest fo nl,
  zlen rest = nl -> 0 <= fo -> fo + nl <= zlen ds -> nl <= Z.of_nat n * nbuf ->
  fst (read_loop n nbuf ds (p ++ rest) (zlen p) fo nl) = p ++ zslice ds fo (fo + nl) /\
  length (snd (read_loop n nbuf ds (p ++ rest) (zlen p) fo nl)) = n /\
  Forall (fun k => 0 <= k <= nbuf) (snd (read_loop n nbuf ds (p ++ rest) (zlen p) fo nl)).
Proof.
  intro Hb. induction n as [|n IH]; intros p rest fo nl Hr Hfo Hend Hn.
  - assert (nl = 0) as -> by (unfold zlen in Hr; lia). cbn [read_loop fst snd]. rewrite (zslice_empty ds) by lia. apply zlen_0_nil in Hr. subst rest. repeat split. constructor.
  - cbn [read_loop]. set (len := Z.min nl nbuf). assert (0 <= nl) as Hnl by (unfold zlen in Hr; lia).
    assert (zlen (zslice ds fo (fo + len)) = len) as Hl by (rewrite zlen_zslice; lia).
    rewrite write_at_junk by (unfold zlen in *; lia).
    replace (zlen p + len) with (zlen (p ++ zslice ds fo (fo + len))) by (rewrite zlen_app; lia).
    destruct (IH (p ++ zslice ds fo (fo + len)) (skipn (length (zslice ds fo (fo + len))) rest) (fo + len) (nl - len)) as (I1 & I2 & I3).
    + unfold zlen in *. rewrite skipn_length. lia.
    + lia.
    + lia.
    + nia.
    + destruct (read_loop n nbuf ds _ _ _ _) as [d reads] eqn:E. cbn [fst snd] in *. rewrite I1. rewrite <- app_assoc.
      rewrite <- (zslice_split ds fo (fo + len) (fo + len + (nl - len))) by lia. replace (fo + len + (nl - len)) with (fo + nl) by lia.
      repeat split; [cbn; now rewrite I2|]. constructor; [lia | assumption].
Qed.
Lemma iterations_ok num nbuf : 0 <= num -> 1 <= nbuf -> num <= local_nr_iterations num nbuf * nbuf.
Proof.
  intros H1 H2. unfold local_nr_iterations. destruct (Z.eqb_spec nbuf 0); [lia|]. pose proof (Z.div_mod num nbuf ltac:(lia)). pose proof (Z.mod_pos_bound num nbuf ltac:(lia)).
  destruct (Z.ltb_spec 0 (num mod nbuf)); nia.
Qed.
Lemma max_ge l x : In x l -> x <= fold_right Z.max 0 l.
Proof. induction l as [|y l IH]; intros []; cbn [fold_right]; [lia | specialize (IH H); lia]. Qed.

Section Read.
  Context {A : Type} (junk : A) (itemsize : Z -> Z) (P : nat) (buffer : Z) (d : dset A).
  Hypothesis HP : (0 < P)%nat.
  Hypothesis Hes : 1 <= element_size itemsize d.
  Hypothesis Hbuf : element_size itemsize d <= buffer.
  Set Default Proof Using "All".
  Lemma collective_read_main : exists parts, collective_read junk itemsize P buffer d = Ok parts /\
    length parts = P /\ concat (map fst parts) = d_rows d /\
    (forall r, (r < P)%nat -> zlen (fst (nth r parts ([], []))) = nth r (num_on_task P (zlen (d_rows d))) 0) /\
    (exists n, forall p, In p parts -> length (snd p) = n) /\
    (forall p k, In p parts -> In k (snd p) -> 0 <= k /\ k * element_size itemsize d <= buffer).
  Proof.
    unfold collective_read. set (ds := d_rows d). pose proof (zlen_nonneg ds) as Hn. rewrite num_sum by assumption. rewrite Z.eqb_refl. cbn [check bind].
    assert (forall r, (r < P)%nat -> zlen (zslice ds (goff (num_on_task P (zlen ds)) r) (goff (num_on_task P (zlen ds)) r + nth r (num_on_task P (zlen ds)) 0)) = nth r (num_on_task P (zlen ds)) 0) as Hlen.
    { intros r Hr. pose proof (num_end P (zlen ds) r HP Hn Hr). pose proof (num_nth_nonneg P (zlen ds) r Hn Hr). rewrite zlen_zslice; lia. }
    destruct (Z.ltb_spec (zlen ds) (10 * Z.of_nat P)) as [Hs|Hs].
    - eexists. split; [reflexivity|]. split; [apply spmd_length|]. split; [|split; [|split]].
      + rewrite map_spmd. cbn [fst]. transitivity (concat (spmd P (fun r => zslice ds (goff (num_on_task P (zlen ds)) r) (goff (num_on_task P (zlen ds)) r + nth r (num_on_task P (zlen ds)) 0)))); [|now apply shares_concat]. f_equal. apply spmd_ext. intros r Hr. now rewrite num_off.
      + intros r Hr. rewrite nth_spmd by assumption. cbn [fst]. rewrite num_off by assumption. now apply Hlen.
      + exists 0%nat. intros p Hp. apply In_spmd in Hp. destruct Hp as (r & _ & ->). reflexivity.
      + intros p k Hp Hk. apply In_spmd in Hp. destruct Hp as (r & _ & ->). destruct Hk.
    - destruct (Z.eqb_spec (element_size itemsize d) 0) as [|_]; [lia|]. cbn [check negb bind].
      set (nbuf := buffer / element_size itemsize d). assert (1 <= nbuf) as Hnb by (apply Z.div_le_lower_bound; lia).
      assert (nbuf * element_size itemsize d <= buffer) as Hle by (unfold nbuf; rewrite Z.mul_comm; apply Z.mul_div_le; lia).
      set (its := fold_right Z.max 0 _).
      assert (forall r, (r < P)%nat -> let x := read_loop (Z.to_nat its) nbuf ds (repeat junk (Z.to_nat (nth r (num_on_task P (zlen ds)) 0))) 0 (nth r (excl_cumsum (num_on_task P (zlen ds))) 0) (nth r (num_on_task P (zlen ds)) 0) in
        fst x = zslice ds (goff (num_on_task P (zlen ds)) r) (goff (num_on_task P (zlen ds)) r + nth r (num_on_task P (zlen ds)) 0) /\ length (snd x) = Z.to_nat its /\ Forall (fun k => 0 <= k <= nbuf) (snd x)) as Hloop.
      { intros r Hr x. unfold x. rewrite num_off by assumption. pose proof (num_end P (zlen ds) r HP Hn Hr). pose proof (num_nth_nonneg P (zlen ds) r Hn Hr) as Hnn.
        destruct (read_loop_ok (Z.to_nat its) nbuf ds Hnb [] (repeat junk (Z.to_nat (nth r (num_on_task P (zlen ds)) 0))) (goff (num_on_task P (zlen ds)) r) (nth r (num_on_task P (zlen ds)) 0)) as (R1 & R2 & R3).
        - unfold zlen at 1. rewrite repeat_length. lia.
        - lia.
        - lia.
        - pose proof (iterations_ok _ nbuf Hnn Hnb). assert (local_nr_iterations (nth r (num_on_task P (zlen ds)) 0) nbuf <= its).
          { apply max_ge. apply in_map_iff. eexists. split; [reflexivity|]. apply nth_In. now rewrite num_length. }
          nia.
        - cbn [app] in R1, R2, R3. now repeat split. }
      eexists. split; [reflexivity|]. split; [apply spmd_length|]. split; [|split; [|split]].
      + rewrite map_spmd. transitivity (concat (spmd P (fun r => zslice ds (goff (num_on_task P (zlen ds)) r) (goff (num_on_task P (zlen ds)) r + nth r (num_on_task P (zlen ds)) 0)))); [|now apply shares_concat]. f_equal. apply spmd_ext. intros r Hr. now apply Hloop.
      + intros r Hr. rewrite nth_spmd by assumption. destruct (Hloop r Hr) as (-> & _). now apply Hlen.
      + exists (Z.to_nat its). intros p Hp. apply In_spmd in Hp. destruct Hp as (r & Hr & ->). now apply Hloop.
      + intros p k Hp Hk. apply In_spmd in Hp. destruct Hp as (r & Hr & ->). destruct (Hloop r Hr) as (_ & _ & H3). rewrite Forall_forall in H3. specialize (H3 k Hk). nia.
  Qed.
End Read.

(** a row that does not fit in the buffer: nothing is read *)
Lemma collective_read_small_buffer {A} (junk : A) itemsize P buffer (d : dset A) :
  (0 < P)%nat -> 0 <= buffer < element_size itemsize d -> 10 * Z.of_nat P <= zlen (d_rows d) ->
  collective_read junk itemsize P buffer d = Ok (spmd P (fun r => (repeat junk (Z.to_nat (nth r (num_on_task P (zlen (d_rows d))) 0)), []))).
Proof.
  intros HP Hb Hn. unfold collective_read. rewrite num_sum by (try assumption; apply zlen_nonneg). rewrite Z.eqb_refl. cbn [check bind].
  destruct (Z.ltb_spec (zlen (d_rows d)) (10 * Z.of_nat P)); [lia|]. destruct (Z.eqb_spec (element_size itemsize d) 0); [lia|]. cbn [check negb bind].
  rewrite Z.div_small by assumption.
  replace (fold_right Z.max 0 _) with 0; [reflexivity|]. generalize (num_on_task P (zlen (d_rows d))) as l. induction l as [|x l IH]; [reflexivity|]. cbn [map fold_right]. rewrite <- IH. unfold local_nr_iterations. cbn [Z.eqb]. reflexivity.
Qed.

(** *** writing *)
Lemma nth_error_write_at {A} (buf : list A) off dt k : 0 <= off -> off + zlen dt <= zlen buf ->
  nth_error (write_at buf off dt) k = if (off <=? Z.of_nat k) && (Z.of_nat k <? off + zlen dt) then nth_error dt (k - Z.to_nat off) else nth_error buf k.
Proof.
  intros H1 H2. destruct buf as [|d buf].
  { unfold zlen in *. cbn [length] in *. assert (dt = []) as -> by (destruct dt; [reflexivity | cbn in H2; lia]). rewrite write_at_nil. assert (forall j, nth_error (@nil A) j = None) as Hn by (intros [|j]; reflexivity). rewrite !Hn. now destruct (_ && _). }
  pose proof (nth_write_at (d :: buf) off dt k d H1 H2) as H. pose proof (write_at_length (d :: buf) off dt H1 H2) as Hl.
  destruct ((off <=? Z.of_nat k) && (Z.of_nat k <? off + zlen dt)) eqn:B.
  - rewrite (nth_error_nth' _ d) by (unfold zlen in *; lia). rewrite (nth_error_nth' dt d) by (unfold zlen in *; lia). now rewrite H.
  - destruct (Nat.lt_ge_cases k (length (d :: buf))) as [Hk|Hk].
    + rewrite (nth_error_nth' _ d) by lia. rewrite (nth_error_nth' (d :: buf) d) by lia. now rewrite H.
    + rewrite !(proj2 (nth_error_None _ _)) by lia. reflexivity.
Qed.

Section Write.
  Context {A : Type} (data : list (list A)) (old : list A) (maxe : Z).
  Let P := length data.
  Let num := nperproc data.
  Let off (r : nat) := goff num r.
  Let nm (r : nat) := zlen (nth r data []).
  Hypothesis Hold : sumZ num <= zlen old.
  Set Default Proof Using "All".

  (** [dn r] rows of rank [r] have been written *)
  Definition written (dn : nat -> Z) (file : list A) : Prop :=
    length file = length old /\
    (forall k, sumZ (nperproc data) <= Z.of_nat k -> nth_error file k = nth_error old k) /\
    forall r k, (r < length data)%nat -> Z.of_nat k < dn r -> nth_error file (Z.to_nat (goff (nperproc data) r) + k) = nth_error (nth r data []) k.
  Definition state (dn : nat -> Z) : list wstate := spmd (length data) (fun r => (goff (nperproc data) r + dn r, dn r, zlen (nth r data []) - dn r)).

  Lemma off_S r : (r < P)%nat -> off (S r) = off r + nm r.
  Proof. intro H. unfold off, nm. rewrite goff_S by (unfold num; now rewrite nperproc_length). f_equal. unfold num. now apply nth_nperproc. Qed.
  Lemma off_nonneg r : 0 <= off r.
  Proof. unfold off. rewrite <- (goff_0 num). apply goff_mono; [apply nperproc_nonneg | lia]. Qed.
  Lemma off_mono r s : (r <= s)%nat -> off r <= off s.
  Proof. intro. apply goff_mono; [apply nperproc_nonneg | assumption]. Qed.
  Lemma off_end r : (r < P)%nat -> off r + nm r <= sumZ num.
  Proof. intro H. rewrite <- off_S by assumption. rewrite <- (goff_all num P) by (unfold num; rewrite nperproc_length; unfold P; lia). apply off_mono. lia. Qed.

  Lemma write_step_ok dn file : (forall r, (r < P)%nat -> 0 <= dn r <= nm r) -> 0 <= maxe -> written dn file ->
    let dn' r := dn r + Z.min (nm r - dn r) maxe in
    exists file', write_step maxe data file (state dn) = Ok (file', state dn', spmd P (fun r => Z.min (nm r - dn r) maxe)) /\ written dn' file'.
  Proof.
    intros Hdn Hm Hw dn'. unfold write_step. cbv zeta.
    assert (map (fun s => Z.min (snd s) maxe) (state dn) = spmd (length data) (fun r => Z.min (zlen (nth r data []) - dn r) maxe)) as Hn by (unfold state; rewrite map_spmd; reflexivity). rewrite Hn. clear Hn.
    set (n := spmd (length data) (fun r => Z.min (zlen (nth r data []) - dn r) maxe)).
    set (stp := fun acc r => _).
    assert (forall q, (q <= P)%nat -> exists file', fold_left stp (seq 0 q) (Ok file) = Ok file' /\ written (fun r => if (r <? q)%nat then dn' r else dn r) file') as H.
    { induction q as [|q IH]; intro Hq.
      - exists file. split; [reflexivity|]. destruct Hw as (W1 & W2 & W3). split; [assumption|]. split; [assumption|]. intros r k Hr Hk. cbn in Hk. now apply W3.
      - destruct (IH ltac:(lia)) as (f & F1 & F2). rewrite seq_S, fold_left_app, F1. cbn [fold_left plus]. unfold stp at 1. cbn [bind].
        unfold state. rewrite nth_spmd by exact Hq. unfold n. rewrite nth_spmd by exact Hq. fold (nm q). fold num. fold (off q).
        destruct F2 as (W1 & W2 & W3). pose proof (Hdn q Hq) as Hd. pose proof (off_end q Hq) as He. pose proof (off_nonneg q) as Hnn.
        assert (zlen f = zlen old) as Hz by (unfold zlen; now rewrite W1).
        destruct (Z.ltb_spec 0 (Z.min (nm q - dn q) maxe)) as [Hk|Hk].
        + destruct (Z.leb_spec (off q + dn q + Z.min (nm q - dn q) maxe) (zlen f)) as [_|Hbad]; [|lia].
          eexists. split; [reflexivity|]. set (sl := zslice (nth q data []) (dn q) (dn q + Z.min (nm q - dn q) maxe)).
          assert (zlen sl = Z.min (nm q - dn q) maxe) as Hsl by (unfold sl; rewrite zlen_zslice; unfold nm in *; lia).
          split; [rewrite write_at_length; [assumption | lia | lia]|]. split.
          * intros k Hkk. rewrite nth_error_write_at by lia. replace (_ && _) with false by (fold num in Hkk; lia). now apply W2.
          * intros r k Hr Hkk. rewrite nth_error_write_at by lia. fold num. fold (off r).
            destruct ((off q + dn q <=? Z.of_nat (Z.to_nat (off r) + k)) && (Z.of_nat (Z.to_nat (off r) + k) <? off q + dn q + zlen sl)) eqn:B.
            -- assert (r = q) as ->.
               { destruct (Nat.lt_trichotomy r q) as [Hlt|[E|Hlt]]; [|assumption|].
                 - pose proof (off_mono (S r) q ltac:(lia)). rewrite off_S in H by lia. pose proof (Hdn r Hr). replace (r <? S q)%nat with true in Hkk by lia. unfold dn' in Hkk. pose proof (off_nonneg r). lia.
                 - pose proof (off_mono (S q) r ltac:(lia)). rewrite off_S in H by lia. pose proof (off_nonneg r). lia. }
               unfold sl, zslice. rewrite nth_error_firstn', nth_error_skipn'. pose proof (off_nonneg q). destruct (Nat.ltb_spec (Z.to_nat (off q) + k - Z.to_nat (off q + dn q)) (Z.to_nat (dn q + Z.min (nm q - dn q) maxe) - Z.to_nat (dn q))) as [_|Hbad]; [|lia].
               f_equal. lia.
            -- apply W3; [assumption|]. destruct (Nat.eq_dec r q) as [->|Hne].
               ++ replace (q <? q)%nat with false by lia. replace (q <? S q)%nat with true in Hkk by lia. unfold dn' in Hkk. pose proof (off_nonneg q). lia.
               ++ destruct (Nat.ltb_spec r q), (Nat.ltb_spec r (S q)); lia.
        + exists f. split; [reflexivity|]. split; [assumption|]. split; [assumption|]. intros r k Hr Hkk. apply W3; [assumption|].
          destruct (Nat.eq_dec r q) as [->|Hne].
          * replace (q <? q)%nat with false by lia. replace (q <? S q)%nat with true in Hkk by lia. unfold dn' in Hkk. lia.
          * destruct (Nat.ltb_spec r q), (Nat.ltb_spec r (S q)); lia. }
    destruct (H P ltac:(lia)) as (file' & F1 & F2). exists file'.
    assert (length (state dn) = P) as Hls by apply spmd_length. rewrite Hls.
    assert (zipwith (fun (s : wstate) k => let '(fo, mo, nl) := s in (fo + k, mo + k, nl - k)) (state dn) n = state dn') as Hst.
    { apply nth_error_ext. intro r. destruct (Nat.lt_ge_cases r P) as [Hr|Hr].
      - rewrite (nth_error_zipwith _ _ _ r (goff (nperproc data) r + dn r, dn r, zlen (nth r data []) - dn r) (Z.min (zlen (nth r data []) - dn r) maxe)).
        + unfold state. rewrite nth_error_spmd by assumption. unfold dn', nm. f_equal. f_equal; [f_equal|]; lia.
        + unfold state. now rewrite nth_error_spmd.
        + unfold n. now rewrite nth_error_spmd.
      - rewrite !(proj2 (nth_error_None _ _)); [reflexivity | unfold state; rewrite spmd_length; exact Hr | rewrite zipwith_length; rewrite Hls; lia]. }
    rewrite F1. cbn [bind]. split; [exact (f_equal (fun x => Ok (file', x, n)) Hst)|].
    destruct F2 as (W1 & W2 & W3). split; [assumption|]. split; [assumption|]. intros r k Hr Hk. apply W3; [assumption|]. unfold P. now replace (r <? length data)%nat with true by lia.
  Qed.

  Lemma left_state dn : map snd (state dn) = spmd P (fun r => nm r - dn r).
  Proof. unfold state. rewrite map_spmd. reflexivity. Qed.
  Lemma sum_spmd_pos (f : nat -> Z) n : (forall r, (r < n)%nat -> 0 <= f r) -> 0 <= sumZ (spmd n f) /\ forall r, (r < n)%nat -> f r <= sumZ (spmd n f).
  Proof.
    clear. induction n as [|n IH]; intro H; [split; [cbn; lia | intros; lia]|]. rewrite spmd_S, sumZ_app. cbn [sumZ]. destruct IH as [I1 I2]; [intros; apply H; lia|]. pose proof (H n ltac:(lia)).
    split; [lia|]. intros r Hr. destruct (Nat.eq_dec r n) as [->|]; [lia|]. specialize (I2 r ltac:(lia)). lia.
  Qed.
  Lemma sum_spmd_lt (f h : nat -> Z) n : (forall r, (r < n)%nat -> f r <= h r) -> (exists r, (r < n)%nat /\ f r < h r) -> sumZ (spmd n f) < sumZ (spmd n h).
  Proof.
    clear. intros H (r & Hr & Hlt). induction n as [|n IH]; [lia|]. rewrite !spmd_S, !sumZ_app. cbn [sumZ].
    destruct (Nat.eq_dec r n) as [->|].
    - assert (sumZ (spmd n f) <= sumZ (spmd n h)); [|specialize (H n ltac:(lia)); lia]. unfold spmd. apply sumZ_map_le. intros x Hx. apply in_seq in Hx. apply H. lia.
    - specialize (IH ltac:(intros; apply H; lia) ltac:(lia)). specialize (H n ltac:(lia)). lia.
  Qed.

  Lemma written_all dn file : (forall r, (r < P)%nat -> dn r = nm r) -> written dn file -> file = concat data ++ skipn (length (concat data)) old.
  Proof.
    intros Hdn (W1 & W2 & W3). apply nth_error_ext. intro k.
    assert (Z.of_nat (length (concat data)) = sumZ num) as Hs by (unfold num; rewrite sum_nperproc; reflexivity).
    destruct (Nat.lt_ge_cases k (length (concat data))) as [Hk|Hk].
    - rewrite nth_error_app1 by assumption. destruct (nth_error (concat data) k) as [a|] eqn:E; [|apply nth_error_None in E; lia].
      assert (global_at data (Z.of_nat k) a) as Hg by (split; [lia | now rewrite Nat2Z.id]). apply global_at_local in Hg. destruct Hg as (j & q & Hj & Hq & Ek & Ha).
      rewrite <- Ha. rewrite <- (W3 j q Hj); [f_equal; pose proof (off_nonneg j); unfold off, num in *; lia|]. rewrite Hdn by assumption. unfold nm, zlen. lia.
    - rewrite nth_error_app2 by assumption. rewrite nth_error_skipn'. rewrite W2 by (fold num; lia). f_equal. lia.
  Qed.

  Lemma write_loop_ok : 1 <= maxe -> forall fuel dn file, (forall r, (r < P)%nat -> 0 <= dn r <= nm r) -> written dn file ->
    sumZ (spmd P (fun r => nm r - dn r)) <= Z.of_nat fuel ->
    exists trace, write_loop fuel maxe data file (state dn) = Ok (concat data ++ skipn (length (concat data)) old, trace) /\
      Forall (fun n => length n = P /\ Forall (fun k => 0 <= k <= maxe) n) trace /\
      forall r, (r < P)%nat -> sumZ (map (fun n => nth r n 0) trace) = nm r - dn r.
  Proof.
    intro Hm. induction fuel as [|fuel IH]; intros dn file Hdn Hw Hf; cbn [write_loop]; rewrite left_state.
    - pose proof (sum_spmd_pos (fun r => nm r - dn r) P ltac:(intros r Hr; specialize (Hdn r Hr); lia)) as [S1 S2].
      destruct (Z.leb_spec (sumZ (spmd P (fun r => nm r - dn r))) 0); [|lia]. exists []. split; [|split].
      + repeat f_equal. apply (written_all dn); [|assumption]. intros r Hr. specialize (S2 r Hr). specialize (Hdn r Hr). lia.
      + constructor.
      + intros r Hr. cbn. specialize (S2 r Hr). specialize (Hdn r Hr). lia.
    - pose proof (sum_spmd_pos (fun r => nm r - dn r) P ltac:(intros r Hr; specialize (Hdn r Hr); lia)) as [S1 S2].
      destruct (Z.leb_spec (sumZ (spmd P (fun r => nm r - dn r))) 0) as [Hz|Hz].
      + exists []. split; [|split].
        * repeat f_equal. apply (written_all dn); [|assumption]. intros r Hr. specialize (S2 r Hr). specialize (Hdn r Hr). lia.
        * constructor.
        * intros r Hr. cbn. specialize (S2 r Hr). specialize (Hdn r Hr). lia.
      + destruct (write_step_ok dn file Hdn ltac:(lia) Hw) as (file' & E & Hw'). rewrite E. cbn [bind].
        destruct (IH (fun r => dn r + Z.min (nm r - dn r) maxe) file') as (trace & T1 & T2 & T3).
        * intros r Hr. specialize (Hdn r Hr). lia.
        * assumption.
        * assert (sumZ (spmd P (fun r => nm r - (dn r + Z.min (nm r - dn r) maxe))) < sumZ (spmd P (fun r => nm r - dn r))); [|lia].
          apply sum_spmd_lt; [intros r Hr; specialize (Hdn r Hr); lia|].
          destruct (Exists_dec (fun x => 0 < x) (spmd P (fun r => nm r - dn r)) (fun x => ltac:(destruct (Z_lt_dec 0 x); [now left | now right]))) as [He|He].
          -- apply Exists_exists in He. destruct He as (x & Hx & Hp). apply In_spmd in Hx. destruct Hx as (r & Hr & ->). exists r. split; [assumption | lia].
          -- exfalso. assert (sumZ (spmd P (fun r => nm r - dn r)) <= sumZ (spmd P (fun r => 0))) as Hle.
             { unfold spmd. apply sumZ_map_le. intros r Hr. apply in_seq in Hr. apply Z.nlt_ge. intro. apply He. apply Exists_exists. exists (nm r - dn r). split; [|assumption]. apply In_spmd. exists r. split; [lia | reflexivity]. }
             assert (sumZ (spmd P (fun _ => 0)) = 0) as H0 by (unfold spmd; rewrite sumZ_map_const; lia). lia.
        * exists (spmd P (fun r => Z.min (nm r - dn r) maxe) :: trace). rewrite T1. cbn [bind]. split; [reflexivity|]. split.
          -- constructor; [|assumption]. split; [apply spmd_length|]. apply Forall_forall. intros x Hx. apply In_spmd in Hx. destruct Hx as (r & Hr & ->). specialize (Hdn r Hr). lia.
          -- intros r Hr. cbn [map sumZ]. rewrite T3 by assumption. rewrite nth_spmd by assumption. lia.
  Qed.

  (** a buffer smaller than one row: the loop never ends *)
  Lemma write_loop_stuck : maxe = 0 -> forall fuel dn file, (forall r, (r < P)%nat -> 0 <= dn r <= nm r) -> written dn file ->
    0 < sumZ (spmd P (fun r => nm r - dn r)) -> write_loop fuel maxe data file (state dn) = Err EFuel.
  Proof.
    intros Hm. induction fuel as [|fuel IH]; intros dn file Hdn Hw Hp; cbn [write_loop]; rewrite left_state; (destruct (Z.leb_spec (sumZ (spmd P (fun r => nm r - dn r))) 0); [lia|]); [reflexivity|].
    destruct (write_step_ok dn file Hdn ltac:(lia) Hw) as (file' & E & Hw'). rewrite E. cbn [bind].
    rewrite IH; [reflexivity | intros r Hr; specialize (Hdn r Hr); lia | assumption|].
    rewrite (spmd_ext P _ (fun r => nm r - dn r)); [assumption|]. intros r Hr. specialize (Hdn r Hr). lia.
  Qed.
End Write.

Lemma list_eqb_true a b : list_eqb a b = true <-> a = b.
Proof. unfold list_eqb. destruct (list_eq_dec Z.eq_dec a b); split; congruence. Qed.
Lemma state_0 {A} (data : list (dset A)) :
  zipwith (fun o n => (o, 0, n)) (excl_cumsum (map (fun d => zlen (d_rows d)) data)) (map (fun d => zlen (d_rows d)) data) = state (map d_rows data) (fun _ => 0).
Proof.
  assert (map (fun d => zlen (d_rows d)) data = nperproc (map d_rows data)) as E by (unfold nperproc; now rewrite map_map). rewrite E.
  apply nth_error_ext. intro r. unfold state. rewrite map_length. destruct (Nat.lt_ge_cases r (length data)) as [Hr|Hr].
  - rewrite nth_error_spmd by assumption. erewrite nth_error_zipwith.
    3: apply (nth_error_nth' _ 0); rewrite nperproc_length, map_length; assumption.
    2: apply (nth_error_nth' _ 0); rewrite excl_cumsum_length, nperproc_length, map_length; assumption.
    rewrite nth_excl_goff by (rewrite nperproc_length, map_length; assumption). rewrite nth_nperproc by (rewrite map_length; assumption). repeat f_equal; lia.
  - rewrite !(proj2 (nth_error_None _ _)); [reflexivity | rewrite spmd_length; exact Hr | rewrite zipwith_length, excl_cumsum_length, nperproc_length, map_length; lia].
Qed.
Lemma written_0 {A} (data : list (list A)) old : sumZ (nperproc data) <= zlen old -> written data old (fun _ => 0) old.
Proof. intro H. split; [reflexivity|]. split; [reflexivity|]. intros; lia. Qed.
Lemma left_0 {A} (data : list (list A)) : spmd (length data) (fun r => zlen (nth r data []) - 0) = nperproc data.
Proof. rewrite (spmd_ext _ _ (fun r => zlen (nth r data []))) by (intros; lia). unfold nperproc. rewrite <- (map_spmd (length data) (fun r => nth r data []) zlen). now rewrite spmd_nth. Qed.

Lemma collective_write_pre {A} fuel (junk : A) itemsize buffer old dt dims (data : list (dset A)) :
  data <> [] -> Forall (fun d => d_dtype d = dt /\ d_dims d = dims) data ->
  1 <= itemsize dt * prodZ dims ->
  let rows := map d_rows data in
  let file := match old with None => repeat junk (Z.to_nat (sumZ (nperproc rows))) | Some o => o end in
  collective_write fuel junk itemsize buffer old data = write_loop fuel (buffer / (itemsize dt * prodZ dims)) rows file (state rows (fun _ => 0)).
Proof.
  intros Hne Hall He rows file. unfold collective_write. rewrite state_0. fold rows.
  assert (nperproc rows = map (fun d => zlen (d_rows d)) data) as En by (unfold nperproc, rows; now rewrite map_map). rewrite <- En. fold file.
  destruct data as [|d0 data]; [congruence|]. cbv zeta.
  assert (d_dtype d0 = dt /\ d_dims d0 = dims) as [E1 E2] by (now apply Forall_inv in Hall).
  replace (forallb (fun d => list_eqb (d_dims d) (d_dims d0)) (d0 :: data)) with true.
  2: { symmetry. apply forallb_forall. intros d Hd. rewrite Forall_forall in Hall. apply list_eqb_true. now rewrite E2, (proj2 (Hall d Hd)). }
  replace (forallb (fun d => d_dtype d =? d_dtype d0) (d0 :: data)) with true.
  2: { symmetry. apply forallb_forall. intros d Hd. rewrite Forall_forall in Hall. apply Z.eqb_eq. now rewrite E1, (proj1 (Hall d Hd)). }
  cbn [check bind]. unfold element_size. rewrite E1, E2. destruct (Z.eqb_spec (itemsize dt * prodZ dims) 0); [lia|]. reflexivity.
Qed.

Lemma collective_write_main {A} fuel (junk : A) itemsize buffer old dt dims (data : list (dset A)) :
  data <> [] -> Forall (fun d => d_dtype d = dt /\ d_dims d = dims) data ->
  1 <= itemsize dt * prodZ dims <= buffer ->
  let rows := map d_rows data in
  (forall o, old = Some o -> (length (concat rows) <= length o)%nat) ->
  (length (concat rows) <= fuel)%nat ->
  exists trace, collective_write fuel junk itemsize buffer old data = Ok (concat rows ++ match old with None => [] | Some o => skipn (length (concat rows)) o end, trace) /\
    Forall (fun n => length n = length data /\ Forall (fun k => 0 <= k /\ k * (itemsize dt * prodZ dims) <= buffer) n) trace /\
    forall r d, nth_error data r = Some d -> sumZ (map (fun n => nth r n 0) trace) = zlen (d_rows d).
Proof.
  intros Hne Hall He rows Hold Hf. rewrite (collective_write_pre fuel junk itemsize buffer old dt dims) by (assumption || lia). fold rows.
  set (es := itemsize dt * prodZ dims) in *. set (file := match old with None => _ | Some o => o end).
  assert (sumZ (nperproc rows) = Z.of_nat (length (concat rows))) as Hs by (rewrite sum_nperproc; reflexivity).
  assert (1 <= buffer / es) as Hm by (apply Z.div_le_lower_bound; lia).
  assert (sumZ (nperproc rows) <= zlen file) as Hz.
  { unfold file. destruct old as [o|]; [specialize (Hold o eq_refl); unfold zlen; lia|]. unfold zlen. rewrite repeat_length. lia. }
  destruct (write_loop_ok rows file (buffer / es) Hz Hm fuel (fun _ => 0) file) as (trace & T1 & T2 & T3).
  - intros r Hr. pose proof (zlen_nonneg (nth r rows [])). lia.
  - now apply written_0.
  - rewrite left_0. lia.
  - exists trace. rewrite T1. split; [|split].
    + repeat f_equal. unfold file. destruct old as [o|]; [reflexivity|]. rewrite Hs, Nat2Z.id. apply length_zero_iff_nil. rewrite skipn_length, repeat_length. lia.
    + eapply Forall_impl; [|exact T2]. cbv beta. intros n [L1 L2]. split; [unfold rows in L1; now rewrite map_length in L1|]. eapply Forall_impl; [|exact L2]. cbv beta. intros k [K1 K2]. split; [assumption|].
      transitivity (buffer / es * es); [apply Z.mul_le_mono_nonneg_r; lia|]. rewrite Z.mul_comm. apply Z.mul_div_le. lia.
    + intros r d Hd. assert (r < length data)%nat as Hr by (apply nth_error_Some; congruence). rewrite T3 by (unfold rows; now rewrite map_length). unfold rows. rewrite (nth_error_nth (map d_rows data) r [] (x := d_rows d)); [lia|]. now apply map_nth_error.
Qed.

Lemma collective_write_small_buffer {A} fuel (junk : A) itemsize buffer dt dims (data : list (dset A)) :
  data <> [] -> Forall (fun d => d_dtype d = dt /\ d_dims d = dims) data ->
  0 <= buffer < itemsize dt * prodZ dims -> concat (map d_rows data) <> [] ->
  collective_write fuel junk itemsize buffer None data = Err EFuel.
Proof.
  intros Hne Hall Hb Hc. rewrite (collective_write_pre fuel junk itemsize buffer None dt dims) by (assumption || lia).
  set (rows := map d_rows data) in *. rewrite Z.div_small by assumption.
  assert (sumZ (nperproc rows) = Z.of_nat (length (concat rows))) as Hs by (rewrite sum_nperproc; reflexivity).
  apply write_loop_stuck with (old := repeat junk (Z.to_nat (sumZ (nperproc rows)))).
  - unfold zlen. rewrite repeat_length. lia.
  - reflexivity.
  - intros r Hr. pose proof (zlen_nonneg (nth r rows [])). lia.
  - apply written_0. unfold zlen. rewrite repeat_length. lia.
  - rewrite left_0, Hs. destruct (concat rows); [congruence | cbn; lia].
Qed.

(** ranks that disagree are refused before anything is written *)
Lemma collective_write_mismatch {A} fuel (junk : A) itemsize buffer old d0 (data : list (dset A)) d :
  In d data -> d_dims d <> d_dims d0 \/ d_dtype d <> d_dtype d0 ->
  collective_write fuel junk itemsize buffer old (d0 :: data) = Err EValue.
Proof.
  intros Hin Hd. unfold collective_write. cbv zeta. destruct (forallb (fun d => list_eqb (d_dims d) (d_dims d0)) (d0 :: data)) eqn:B1; [|reflexivity].
  destruct (forallb (fun d => d_dtype d =? d_dtype d0) (d0 :: data)) eqn:B2; [|reflexivity]. rewrite forallb_forall in B1, B2.
  specialize (B1 d (or_intror Hin)). specialize (B2 d (or_intror Hin)). apply list_eqb_true in B1. apply Z.eqb_eq in B2. tauto.
Qed.
