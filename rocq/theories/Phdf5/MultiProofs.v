(** Proofs about MultiFile. *)
From Verif.Base Require Import Prelude ListLemmas.
From Verif.Psort Require Import MoveSpec MoveProofs.
From Verif.Mpi Require Import GroupIndexProofs UtilModel UtilProofs.
From Verif.Phdf5 Require Import AssignModel AssignProofs CollModel CollProofs MultiModel MultiSpec.
From Coq Require Import ZifyBool ZifyNat.
Local Open Scope Z_scope.

Lemma seq_groups num k : Forall (fun x => 0 <= x) num -> (k <= length num)%nat ->
  concat (spmd k (fun r => seq (Z.to_nat (goff num r)) (Z.to_nat (nth r num 0)))) = seq 0 (Z.to_nat (goff num k)).
Proof.
  intros Hn. induction k as [|k IH]; intro Hk; [rewrite goff_0; reflexivity|].
  rewrite concat_spmd_app, IH by lia. rewrite goff_S by lia.
  assert (0 <= goff num k) by (rewrite <- (goff_0 num); apply goff_mono; [assumption | lia]).
  assert (0 <= nth k num 0) by (rewrite Forall_nth in Hn; apply Hn; lia).
  rewrite Z2Nat.inj_add by assumption. rewrite seq_app. reflexivity.
Qed.
Lemma mapM_concat_spmd {X Y} (g : X -> res Y) n f h : (forall k, (k < n)%nat -> mapM g (f k) = Ok (h k)) -> mapM g (concat (spmd n f)) = Ok (concat (spmd n h)).
Proof.
  induction n as [|n IH]; intro H; [reflexivity|]. rewrite !concat_spmd_app. apply mapM_ok. apply Forall2_app; apply mapM_ok; [apply IH; intros; apply H; lia | apply H; lia].
Qed.
Lemma flat_map_concat_spmd {X Y} (h : X -> list Y) n f : concat (spmd n (fun k => flat_map h (f k))) = flat_map h (concat (spmd n f)).
Proof. induction n as [|n IH]; [reflexivity|]. rewrite !concat_spmd_app, flat_map_app, IH. reflexivity. Qed.
Lemma map_concat_spmd {X Y} (h : X -> Y) n f : map h (concat (spmd n f)) = concat (spmd n (fun k => map h (f k))).
Proof. induction n as [|n IH]; [reflexivity|]. rewrite !concat_spmd_app, map_app, IH. reflexivity. Qed.
Lemma flat_map_nth {X Y} (h : X -> list Y) d (l : list X) : flat_map (fun i => h (nth i l d)) (seq 0 (length l)) = flat_map h l.
Proof.
  rewrite !flat_map_concat_map. f_equal. rewrite <- (spmd_nth l d) at 2. rewrite map_spmd. reflexivity.
Qed.
Lemma find_file_at l : forall r i f a n, nth_error l f = Some (a, n) -> a <= r < a + n ->
  (forall g a' n', (g < f)%nat -> nth_error l g = Some (a', n') -> a' + n' <= r) -> find_file r i l = Ok (i + f, Z.to_nat (r - a), Z.to_nat n)%nat.
Proof.
  induction l as [|[a0 n0] l IH]; intros r i f a n E Hr Hb; [destruct f; discriminate|]. cbn [find_file]. destruct f as [|f].
  - injection E as -> ->. destruct (Z.leb_spec a r), (Z.ltb_spec r (a + n)); try lia. cbn [andb]. repeat f_equal. lia.
  - pose proof (Hb O a0 n0 ltac:(lia) eq_refl). destruct (Z.ltb_spec r (a0 + n0)); [lia|]. rewrite andb_false_r.
    rewrite (IH r (S i) f a n E Hr); [now rewrite Nat.add_succ_comm|]. intros g a' n' Hg Ha. apply (Hb (S g)); [lia | exact Ha].
Qed.
Lemma find_file_ok num f k : Forall (fun x => 0 <= x) num -> (f < length num)%nat -> Z.of_nat k < nth f num 0 ->
  find_file (Z.of_nat (Z.to_nat (goff num f) + k)) 0 (combine (excl_cumsum num) num) = Ok (f, k, Z.to_nat (nth f num 0)).
Proof.
  intros Hn Hf Hk. assert (0 <= goff num f) as H0 by (rewrite <- (goff_0 num); apply goff_mono; [assumption | lia]).
  assert (forall g, (g < length num)%nat -> nth_error (combine (excl_cumsum num) num) g = Some (goff num g, nth g num 0)) as Hc.
  { intros g Hg. rewrite (nth_error_nth' _ (0, 0)) by (rewrite combine_length, excl_cumsum_length; lia).
    rewrite combine_nth by apply excl_cumsum_length. now rewrite nth_excl_goff. }
  rewrite (find_file_at _ _ 0 f (goff num f) (nth f num 0)); [repeat f_equal; lia | now apply Hc | lia|].
  intros g a' n' Hg E. rewrite Hc in E by lia. injection E as <- <-. rewrite <- goff_S by lia. pose proof (goff_mono num (S g) f Hn ltac:(lia)). lia.
Qed.

Section Read.
  Context {A : Type} (junk : A) (itemsize native : Z -> Z) (buffer : Z) (P : nat) (files : list (option (dset A))) (idx : list Z) (dt : Z) (dims : list Z).
  Hypothesis HP : (0 < P)%nat.
  Hypothesis HF : files <> [].
  Hypothesis Hidx : length idx = length files.
  Hypothesis Hu : uniform dt dims files.
  Hypothesis Hbuf : (length files < P)%nat -> 1 <= itemsize dt * prodZ dims <= buffer.
  Set Default Proof Using "All".

  (** what a rank has got before missing arrays are replaced *)
  Definition raw : Type := option (dset A) * option (list Z).
  Definition raw_ok (x : raw) : Prop :=
    match fst x with
    | None => snd x = None
    | Some d => d_dtype d = dt /\ d_dims d = dims /\ exists nr, snd x = Some nr /\ length nr = length (d_rows d)
    end.
  Definition fin (x : raw) : raw := (Some {| d_dtype := native dt; d_dims := dims; d_rows := rows_of (fst x) |}, Some (tags_of (snd x))).

  Lemma len_pos : (0 < length files)%nat.
  Proof. destruct files; [congruence | cbn; lia]. Qed.
  Lemma nth_in f d : nth f files None = Some d -> In (Some d) files.
  Proof. intro E. destruct (Nat.lt_ge_cases f (length files)) as [H|H]; [rewrite <- E; now apply nth_In | rewrite nth_overflow in E by assumption; discriminate]. Qed.

  Definition conv (x : raw) : option (dset A) := option_map (fun d => {| d_dtype := native (d_dtype d); d_dims := d_dims d; d_rows := d_rows d |}) (fst x).
  Definition finish (raws : list raw) : res (list raw) :=
    do data' <- mapM (replace_none (map conv raws)) (map conv raws);
    do _ <- check (match data' with
                   | Some d0 :: rest => forallb (fun o => match o with Some d => d_dtype d =? d_dtype d0 | None => true end) rest
                   | _ => true
                   end) ERuntime;
    Ok (combine data' (map (replace_none_nr (map snd raws)) (map snd raws))).

  Lemma fill_found {X Y} (g : X -> option Y) (l : list X) y : (forall x, In x l -> g x = None \/ g x = Some y) -> (exists x, In x l /\ g x <> None) ->
    fill None (map g l) = Some y.
  Proof.
    intros H (x & Hx & Hg). destruct (fill_none (map g l)) as [[E H1]|(r & z & E1 & E2 & _)].
    - exfalso. apply Hg. apply H1. apply in_map_iff. now exists x.
    - rewrite E2. apply nth_error_In in E1. apply in_map_iff in E1. destruct E1 as (x' & Ex & Hx'). destruct (H x' Hx'); congruence.
  Qed.

  Lemma finish_some raws : Forall raw_ok raws -> (exists x, In x raws /\ fst x <> None) -> finish raws = Ok (map fin raws).
  Proof.
    intros Hall Hex. unfold finish. rewrite Forall_forall in Hall.
    assert (mapM (replace_none (map conv raws)) (map conv raws) = Ok (map (fun x => fst (fin x)) raws)) as E1.
    { apply mapM_ok. rewrite <- (map_id (map (fun x => fst (fin x)) raws)).
      assert (forall l, (forall x, In x l -> In x raws) -> Forall2 (fun x y => replace_none (map conv raws) x = Ok y) (map conv l) (map id (map (fun x => fst (fin x)) l))) as H; [|apply H; auto].
      induction l as [|x l IH]; intro Hl; [constructor|]. cbn [map]. constructor; [|apply IH; intros; apply Hl; now right].
      pose proof (Hall x (Hl x (or_introl eq_refl))) as Hx. unfold replace_none.
      assert (fill None (map (option_map d_dtype) (map conv raws)) = Some (native dt)) as F1.
      { rewrite map_map. apply fill_found.
        - intros y Hy. specialize (Hall y Hy). unfold raw_ok, conv in *. destruct (fst y) as [d|]; [right|now left]. cbn. now rewrite (proj1 Hall).
        - destruct Hex as (y & Hy & Hn). exists y. split; [assumption|]. unfold conv. destruct (fst y); [discriminate | congruence]. }
      assert (fill None (map (option_map d_dims) (map conv raws)) = Some dims) as F2.
      { rewrite map_map. apply fill_found.
        - intros y Hy. specialize (Hall y Hy). unfold raw_ok, conv in *. destruct (fst y) as [d|]; [right|now left]. cbn. now rewrite (proj1 (proj2 Hall)).
        - destruct Hex as (y & Hy & Hn). exists y. split; [assumption|]. unfold conv. destruct (fst y); [discriminate | congruence]. }
      unfold raw_ok in Hx. revert F1 F2. generalize (map conv raws) as CR. intros CR F1 F2. unfold conv, fin, id. cbn [fst]. destruct (fst x) as [d|]; cbn [option_map rows_of].
      - rewrite !fill_some. destruct Hx as (-> & -> & _). reflexivity.
      - rewrite F1, F2. reflexivity. }
    rewrite E1. cbn [bind].
    assert (map (replace_none_nr (map snd raws)) (map snd raws) = map (fun x => snd (fin x)) raws) as E2.
    { rewrite map_map. apply map_ext_in. intros x Hx. pose proof (Hall x Hx) as Ho. unfold replace_none_nr, fin. cbn [snd]. destruct (snd x) as [l|] eqn:Es; [reflexivity|]. cbn [tags_of].
      rewrite map_map, (fill_found _ raws tt); [reflexivity | |].
      - intros y _. destruct (snd y); [now right | now left].
      - destruct Hex as (y & Hy & Hn). exists y. split; [assumption|]. specialize (Hall y Hy). unfold raw_ok in Hall. destruct (fst y); [|congruence]. destruct Hall as (_ & _ & nr & -> & _). discriminate. }
    rewrite E2. replace (match _ with [] => true | None :: _ => true | Some d0 :: rest => _ end) with true.
    2: { destruct raws as [|x l]; [reflexivity|]. cbn [map fin fst]. symmetry. apply forallb_forall. intros o Ho. apply in_map_iff in Ho. destruct Ho as (y & <- & _). apply Z.eqb_refl. }
    cbn [check bind]. f_equal. clear. induction raws as [|x l IH]; [reflexivity|]. cbn [map combine]. now rewrite IH.
  Qed.
  Lemma finish_none raws : Forall (fun x => x = (None, None)) raws -> finish raws = Ok raws.
  Proof.
    intro H. unfold finish.
    assert (map conv raws = repeat None (length raws)) as E1.
    { induction raws as [|x l IH]; [reflexivity|]. apply Forall_cons_iff in H. destruct H as [-> H]. cbn [map length repeat]. now rewrite IH. }
    assert (map snd raws = repeat None (length raws)) as E2.
    { induction raws as [|x l IH]; [reflexivity|]. apply Forall_cons_iff in H. destruct H as [-> H]. cbn [map length repeat]. rewrite IH; [reflexivity | assumption|]. injection E1. auto. }
    rewrite E1, E2. set (n := length raws).
    assert (forall X (y : X) m, (forall g, g (None : option (dset A)) = None -> fill None (map g (repeat (None : option (dset A)) m)) = (None : option X))) as Hf.
    { intros X y m g Hg. destruct (fill_none (map g (repeat None m))) as [[E _]|(r & x & E & _)]; [assumption|]. apply nth_error_In, in_map_iff in E. destruct E as (o & Eo & Ho). apply repeat_spec in Ho. subst o. congruence. }
    assert (mapM (replace_none (repeat None n)) (repeat None n) = Ok (repeat (None : option (dset A)) n)) as E3.
    { apply mapM_ok. assert (forall m, Forall2 (fun x y => replace_none (repeat None n) x = Ok y) (repeat (None : option (dset A)) m) (repeat None m)) as H'; [|apply H'].
      induction m as [|m IH]; [constructor|]. cbn [repeat]. constructor; [|assumption]. unfold replace_none. cbn [option_map]. rewrite (Hf Z 0) by reflexivity. reflexivity. }
    rewrite E3. cbn [bind]. replace (match repeat None n with [] => true | None :: _ => true | Some d0 :: rest => _ end) with true by (destruct n; reflexivity).
    cbn [check bind]. f_equal.
    assert (replace_none_nr (repeat (None : option (list Z)) n) None = None) as E4.
    { unfold replace_none_nr. destruct (fill_none (map (option_map (fun _ : list Z => tt)) (repeat None n))) as [[-> _]|(r & x & E & _)]; [reflexivity|].
      apply nth_error_In, in_map_iff in E. destruct E as (o & Eo & Ho). apply repeat_spec in Ho. subst o. discriminate. }
    assert (map (replace_none_nr (repeat None n)) (repeat None n) = repeat None n) as E5.
    { assert (forall m, map (replace_none_nr (repeat None n)) (repeat None m) = repeat None m) as H'; [|apply H']. induction m as [|m IH]; [reflexivity|]. cbn [repeat map]. now rewrite E4, IH. }
    rewrite E5. clear -H. unfold n. induction raws as [|x l IH]; [reflexivity|]. apply Forall_cons_iff in H. destruct H as [-> H]. cbn [length repeat combine]. now rewrite IH.
  Qed.

  (** *** independent reading *)
  Definition ind_raw (fs : list nat) : raw :=
    match present files fs with
    | [] => (None, None)
    | got => (Some {| d_dtype := dt; d_dims := dims; d_rows := flat_map (fun f => rows_of (nth f files None)) fs |},
              Some (flat_map (fun f => repeat (nth f idx 0) (length (rows_of (nth f files None)))) fs))
    end.
  Lemma present_all fs : Forall (fun fd => d_dtype (snd fd) = dt /\ d_dims (snd fd) = dims) (present files fs).
  Proof.
    apply Forall_forall. intros [f d] H. unfold present in H. apply in_flat_map in H. destruct H as (f' & _ & H). destruct (nth f' files None) as [d'|] eqn:E; [|contradiction].
    destruct H as [H|[]]. injection H as <- <-. apply Hu. now apply nth_in with f'.
  Qed.
  Lemma present_rows fs : concat (map d_rows (map snd (present files fs))) = flat_map (fun f => rows_of (nth f files None)) fs.
  Proof.
    induction fs as [|f fs IH]; [reflexivity|]. unfold present in *. cbn [flat_map]. rewrite !map_app, concat_app, IH. destruct (nth f files None); cbn; [now rewrite app_nil_r | reflexivity].
  Qed.
  Lemma present_tags fs : concat (map (fun id => repeat (nth (fst id) idx 0) (length (d_rows (snd id)))) (present files fs)) = flat_map (fun f => repeat (nth f idx 0) (length (rows_of (nth f files None)))) fs.
  Proof.
    induction fs as [|f fs IH]; [reflexivity|]. unfold present in *. cbn [flat_map]. rewrite !map_app, concat_app, IH. destruct (nth f files None); cbn; [now rewrite app_nil_r | reflexivity].
  Qed.
  Lemma same_not_differ (l : list (dset A)) : Forall (fun d => d_dtype d = dt) l -> dtypes_differ l = false.
  Proof.
    intro H. destruct l as [|d0 l]; [reflexivity|]. cbn. apply Forall_cons_iff in H. destruct H as [E H]. apply not_true_is_false. intro B. apply existsb_exists in B. destruct B as (d & Hd & B). rewrite Forall_forall in H. rewrite (H d Hd), E, Z.eqb_refl in B. discriminate.
  Qed.
  Lemma read_independent_ok first num : read_independent P files idx first num = Ok (spmd P (fun r => ind_raw (my_files first num r))).
  Proof.
    unfold read_independent. rewrite (mapM_map_ok _ (fun r => ind_raw (my_files first num r))).
    - cbn [bind]. replace (existsb _ _) with false; [reflexivity|]. symmetry. apply not_true_is_false. intro B. apply existsb_exists in B. destruct B as (r & _ & B).
      rewrite same_not_differ in B; [discriminate|]. apply Forall_forall. intros d Hd. apply in_map_iff in Hd. destruct Hd as (fd & <- & Hfd). pose proof (present_all (my_files first num r)) as Ha. rewrite Forall_forall in Ha. now apply Ha.
    - intros r _. cbv zeta. set (fs := my_files first num r). unfold ind_raw. pose proof (present_all fs) as Ha. pose proof (present_rows fs) as Hr. pose proof (present_tags fs) as Ht. rewrite <- Hr, <- Ht.
      destruct (present files fs) as [|fd got]; [reflexivity|]. unfold concat_dsets. cbn [map]. pose proof (Forall_inv Ha) as [E1 E2].
      replace (forallb _ _) with true; [cbn [check bind]; rewrite E1, E2; reflexivity|]. symmetry. apply forallb_forall. intros d Hd. change (snd fd :: map snd got) with (map snd (fd :: got)) in Hd. apply in_map_iff in Hd. destruct Hd as (fd' & <- & Hfd). rewrite Forall_forall in Ha. apply list_eqb_true. rewrite E2. now apply Ha.
  Qed.
  Lemma ind_raw_ok fs : raw_ok (ind_raw fs).
  Proof.
    unfold raw_ok, ind_raw. destruct (present files fs); [reflexivity|]. cbn [fst snd d_dtype d_dims d_rows]. split; [reflexivity|]. split; [reflexivity|]. eexists. split; [reflexivity|].
    clear. induction fs as [|f fs IH]; [reflexivity|]. cbn [flat_map]. rewrite !app_length, repeat_length, IH. reflexivity.
  Qed.
  Lemma present_nil fs : present files fs = [] <-> forall f, In f fs -> nth f files None = None.
  Proof.
    induction fs as [|f fs IH]; [split; [intros _ f [] | reflexivity]|]. unfold present in *. cbn [flat_map]. destruct (nth f files None) eqn:E; cbn [app].
    - split; [discriminate|]. intro H. specialize (H f (or_introl eq_refl)). congruence.
    - rewrite IH. split; [intros H g [<-|Hg]; auto | intros H g Hg; apply H; now right].
  Qed.
  Lemma ind_rows fs : rows_of (fst (ind_raw fs)) = flat_map (fun f => rows_of (nth f files None)) fs.
  Proof.
    unfold ind_raw. destruct (present files fs) eqn:E; [|reflexivity]. cbn [fst rows_of]. rewrite <- present_rows, E. reflexivity.
  Qed.
  Lemma ind_tags fs : tags_of (snd (ind_raw fs)) = flat_map (fun f => repeat (nth f idx 0) (length (rows_of (nth f files None)))) fs.
  Proof.
    unfold ind_raw. destruct (present files fs) eqn:E; [|reflexivity]. cbn [snd tags_of]. rewrite <- present_tags, E. reflexivity.
  Qed.
  Lemma all_tags_nth : all_tags idx files = flat_map (fun f => repeat (nth f idx 0) (length (rows_of (nth f files None)))) (seq 0 (length files)).
  Proof.
    unfold all_tags. rewrite <- (flat_map_nth _ (0, None) (combine idx files)). rewrite combine_length, Hidx, Nat.min_id.
    rewrite !flat_map_concat_map. f_equal. apply map_ext. intro f. rewrite combine_nth by assumption. reflexivity.
  Qed.
  Lemma all_rows_nth : all_rows files = flat_map (fun f => rows_of (nth f files None)) (seq 0 (length files)).
  Proof. unfold all_rows. now rewrite flat_map_nth. Qed.

  (** *** collective reading: the share of rank [k] of the [n] ranks reading file [f] *)
  Definition col_part (f n : nat) : list raw :=
    match nth f files None with
    | None => repeat (None, None) n
    | Some d =>
      match collective_read junk itemsize n buffer d with
      | Err _ => []
      | Ok parts => map (fun p => (Some {| d_dtype := dt; d_dims := dims; d_rows := fst p |}, Some (repeat (nth f idx 0) (length (fst p))))) parts
      end
    end.
  Lemma col_part_ok f n : (length files < P)%nat -> (0 < n)%nat ->
    length (col_part f n) = n /\ Forall raw_ok (col_part f n) /\
    flat_map (fun x => rows_of (fst x)) (col_part f n) = rows_of (nth f files None) /\
    flat_map (fun x => tags_of (snd x)) (col_part f n) = repeat (nth f idx 0) (length (rows_of (nth f files None))) /\
    (forall x, In x (col_part f n) -> (fst x = None <-> nth f files None = None)) /\
    forall k, (k < n)%nat -> zlen (rows_of (fst (nth k (col_part f n) (None, None)))) = nth k (num_on_task n (rows_in files f)) 0.
  Proof.
    intros HFP Hn. unfold col_part. destruct (nth f files None) as [d|] eqn:E.
    - assert (d_dtype d = dt /\ d_dims d = dims) as [E1 E2] by (apply Hu; now apply nth_in with f). destruct (Hbuf HFP) as [B1 B2].
      destruct (collective_read_main junk itemsize n buffer d Hn ltac:(unfold element_size; now rewrite E1, E2) ltac:(unfold element_size; now rewrite E1, E2)) as (parts & -> & L & C & S & _). split; [now rewrite map_length|]. split; [|split; [|split; [|split]]].
      + apply Forall_forall. intros x Hx. apply in_map_iff in Hx. destruct Hx as (p & <- & _). unfold raw_ok. cbn. repeat split; try reflexivity. eexists. split; [reflexivity|]. apply repeat_length.
      + rewrite flat_map_concat_map, map_map. cbn [fst rows_of d_rows]. exact C.
      + rewrite flat_map_concat_map, map_map. cbn [snd tags_of rows_of]. rewrite <- C. clear. induction parts as [|p l IH]; [reflexivity|]. cbn [map concat]. rewrite app_length, repeat_app, IH. reflexivity.
      + intros x Hx. apply in_map_iff in Hx. destruct Hx as (p & <- & _). cbn. split; discriminate.
      + intros k Hk. unfold rows_in. rewrite E, <- S by assumption.
        destruct (nth_error parts k) as [p|] eqn:Ep; [|apply nth_error_None in Ep; lia]. rewrite (nth_error_nth _ _ _ Ep).
        erewrite nth_error_nth by (rewrite nth_error_map, Ep; reflexivity). reflexivity.
    - split; [apply repeat_length|]. split; [|split; [|split; [|split]]].
      + apply Forall_forall. intros x Hx. apply repeat_spec in Hx. subst x. reflexivity.
      + clear. induction n as [|n IH]; [reflexivity | exact IH].
      + clear. induction n as [|n IH]; [reflexivity | exact IH].
      + intros x Hx. apply repeat_spec in Hx. subst x. split; reflexivity.
      + intros k Hk. rewrite nth_repeat. cbn [fst rows_of]. unfold rows_in. rewrite E. rewrite num_nth by assumption. unfold zlen. cbn [length]. rewrite Z.div_0_l, Z.mod_0_l by lia. destruct (Z.ltb_spec (Z.of_nat k) 0); lia.
  Qed.
  Lemma read_collective_ok num : (length files < P)%nat -> length num = length files -> Forall (fun n => 1 <= n) num -> sumZ num = Z.of_nat P ->
    read_collective junk itemsize buffer P files idx (excl_cumsum num) num = Ok (concat (spmd (length files) (fun f => col_part f (Z.to_nat (nth f num 0))))).
  Proof.
    intros HFP Hl H1 Hs. unfold read_collective.
    assert (Forall (fun x => 0 <= x) num) as H0 by (eapply Forall_impl; [|exact H1]; cbv beta; intros; lia).
    assert (seq 0 P = concat (spmd (length files) (fun f => seq (Z.to_nat (goff num f)) (Z.to_nat (nth f num 0))))) as Eseq.
    { rewrite seq_groups by (assumption || lia). rewrite goff_all by lia. now rewrite Hs, Nat2Z.id. }
    rewrite Eseq. apply mapM_concat_spmd. intros f Hf. set (n := nth f num 0).
    assert (1 <= n) as Hn by (unfold n; rewrite Forall_nth in H1; apply H1; lia).
    apply mapM_ok. destruct (col_part_ok f (Z.to_nat n) HFP ltac:(lia)) as (L & _).
    assert (forall k x, nth_error (col_part f (Z.to_nat n)) k = Some x -> (do (fr, nranks) <- find_file (Z.of_nat (Z.to_nat (goff num f) + k)) 0 (combine (excl_cumsum num) num);
      let (f, rank_in_file) := (fr : nat * nat) in
      match nth f files None with
      | None => Ok (None, None)
      | Some d =>
        do parts <- collective_read junk itemsize nranks buffer d;
        let rows := fst (nth rank_in_file parts ([], [])) in
        Ok (Some {| d_dtype := d_dtype d; d_dims := d_dims d; d_rows := rows |}, Some (repeat (nth f idx 0) (length rows)))
      end) = Ok x) as Hk.
    { intros k x E. assert (k < Z.to_nat n)%nat as Hkn by (rewrite <- L; apply nth_error_Some; congruence).
      rewrite find_file_ok by (try assumption; try lia; fold n; lia). cbn [bind]. fold n. unfold col_part in E. destruct (nth f files None) as [d|] eqn:Ef.
      - assert (d_dtype d = dt /\ d_dims d = dims) as [E1 E2] by (apply Hu; now apply nth_in with f). destruct (Hbuf HFP) as [B1 B2].
        destruct (collective_read_main junk itemsize (Z.to_nat n) buffer d ltac:(lia) ltac:(unfold element_size; now rewrite E1, E2) ltac:(unfold element_size; now rewrite E1, E2)) as (parts & Ep & _). rewrite Ep in E |- *. cbn [bind]. rewrite nth_error_map in E. destruct (nth_error parts k) as [p|] eqn:Epk; [|discriminate]. injection E as <-. rewrite (nth_error_nth _ _ _ Epk), E1, E2. reflexivity.
      - assert (x = (None, None)) as ->; [|reflexivity]. apply nth_error_In, repeat_spec in E. assumption. }
    clear -L Hk. revert Hk L. generalize (Z.to_nat (goff num f)) as o, (Z.to_nat n) as m. intros o m. generalize (col_part f m) as l. intro l. intros Hk <-.
    revert o Hk. induction l as [|x l IH]; intros o Hk; [constructor|]. cbn [length seq]. constructor.
    - specialize (Hk O x eq_refl). rewrite Nat.add_0_r in Hk. exact Hk.
    - apply IH. intros k y E. specialize (Hk (S k) y E). rewrite <- plus_n_Sm in Hk. exact Hk.
  Qed.

  (** the assignment of files to ranks *)
  Lemma setup_ok : exists num, Forall (fun n => 0 <= n) num /\
    (((P <= length files)%nat /\ setup P (length files) = Ok (Independent (excl_cumsum num) num) /\ length num = P /\ sumZ num = Z.of_nat (length files)) \/
     ((length files < P)%nat /\ setup P (length files) = Ok (Collective (excl_cumsum num) num) /\ length num = length files /\ sumZ num = Z.of_nat P /\ Forall (fun n => 1 <= n) num)).
  Proof.
    pose proof len_pos. unfold setup. destruct (Nat.leb_spec P (length files)) as [HPF|HPF].
    - destruct (assign_files_main (Z.of_nat (length files)) (Z.of_nat P) ltac:(lia) ltac:(lia)) as (num & -> & L & S & B). exists num. split.
      + eapply Forall_impl; [|exact B]. cbv beta. intros n Hn. pose proof (Z.div_pos (Z.of_nat (length files)) (Z.of_nat P)). lia.
      + left. cbn [bind]. repeat split; [assumption | rewrite L; lia | assumption].
    - destruct (assign_files_main (Z.of_nat P) (Z.of_nat (length files)) ltac:(lia) ltac:(lia)) as (num & -> & L & S & B). exists num.
      assert (Forall (fun n => 1 <= n) num) as H1 by (eapply Forall_impl; [|exact B]; cbv beta; intros n Hn; assert (1 <= Z.of_nat P / Z.of_nat (length files)) by (apply Z.div_le_lower_bound; lia); lia). split.
      + eapply Forall_impl; [|exact H1]. cbv beta. intros; lia.
      + right. cbn [bind]. repeat split; [assumption | rewrite L; lia | assumption | assumption].
  Qed.
  Lemma my_files_all num k : Forall (fun n => 0 <= n) num -> length num = P -> sumZ num = Z.of_nat k ->
    concat (spmd P (my_files (excl_cumsum num) num)) = seq 0 k.
  Proof.
    intros H0 L S. rewrite (spmd_ext P _ (fun r => seq (Z.to_nat (goff num r)) (Z.to_nat (nth r num 0)))).
    - rewrite seq_groups by (assumption || lia). rewrite goff_all by lia. now rewrite S, Nat2Z.id.
    - intros r Hr. unfold my_files. now rewrite nth_excl_goff by lia.
  Qed.

  (** the arrays of all ranks before missing ones are replaced *)
  Definition raws : list raw :=
    match setup P (length files) with
    | Ok (Independent first num) => spmd P (fun r => ind_raw (my_files first num r))
    | Ok (Collective first num) => concat (spmd (length files) (fun f => col_part f (Z.to_nat (nth f num 0))))
    | Err _ => []
    end.
  Lemma read_eq : read junk itemsize native buffer P files idx = finish raws.
  Proof.
    unfold read, raws. destruct setup_ok as (num & H0 & [(HPF & -> & L & S)|(HPF & -> & L & S & H1)]); cbn [bind].
    - rewrite read_independent_ok. reflexivity.
    - rewrite read_collective_ok by assumption. reflexivity.
  Qed.
  Lemma length_concat_spmd {X} n (f : nat -> list X) : length (concat (spmd n f)) = fold_right plus O (spmd n (fun k => length (f k))).
  Proof. clear. unfold spmd. generalize (seq 0 n) as l. induction l as [|x l IH]; [reflexivity|]. cbn [map concat fold_right]. now rewrite app_length, IH. Qed.
  Lemma raws_ok : length raws = P /\ Forall raw_ok raws /\ flat_map (fun x => rows_of (fst x)) raws = all_rows files /\
    flat_map (fun x => tags_of (snd x)) raws = all_tags idx files /\
    ((exists x, In x raws /\ fst x <> None) <-> exists d, In (Some d) files).
  Proof.
    unfold raws. destruct setup_ok as (num & H0 & [(HPF & -> & L & S)|(HPF & -> & L & S & H1)]).
    - split; [apply spmd_length|]. split; [apply Forall_forall; intros x Hx; apply In_spmd in Hx; destruct Hx as (r & _ & ->); apply ind_raw_ok|].
      pose proof (my_files_all num (length files) H0 L S) as Hall. split; [|split].
      + rewrite flat_map_concat_map, map_spmd. rewrite (spmd_ext P _ (fun r => flat_map (fun f => rows_of (nth f files None)) (my_files (excl_cumsum num) num r))) by (intros; apply ind_rows).
        rewrite flat_map_concat_spmd, Hall, all_rows_nth. reflexivity.
      + rewrite flat_map_concat_map, map_spmd. rewrite (spmd_ext P _ (fun r => flat_map (fun f => repeat (nth f idx 0) (length (rows_of (nth f files None)))) (my_files (excl_cumsum num) num r))) by (intros; apply ind_tags).
        rewrite flat_map_concat_spmd, Hall, all_tags_nth. reflexivity.
      + split.
        * intros (x & Hx & Hn). apply In_spmd in Hx. destruct Hx as (r & _ & ->). unfold ind_raw in Hn. destruct (present files (my_files (excl_cumsum num) num r)) as [|[f d] l] eqn:E; [now cbn in Hn|].
          assert (In (f, d) (present files (my_files (excl_cumsum num) num r))) as Hi by (rewrite E; now left). unfold present in Hi. apply in_flat_map in Hi. destruct Hi as (f' & _ & Hi). destruct (nth f' files None) as [d'|] eqn:Ef; [|contradiction]. exists d'. now apply nth_in with f'.
        * intros (d & Hd). apply (In_nth _ _ None) in Hd. destruct Hd as (f & Hf & E). assert (In f (concat (spmd P (my_files (excl_cumsum num) num)))) as Hi by (rewrite Hall; apply in_seq; lia).
          apply in_concat in Hi. destruct Hi as (fs & Hfs & Hi). apply In_spmd in Hfs. destruct Hfs as (r & Hr & ->). exists (ind_raw (my_files (excl_cumsum num) num r)). split; [apply In_spmd; exists r; split; [assumption | reflexivity]|].
          unfold ind_raw. destruct (present files (my_files (excl_cumsum num) num r)) eqn:Ep; [|discriminate]. apply present_nil with (f := f) in Ep; [congruence | assumption].
    - assert (forall f, (f < length files)%nat -> (0 < Z.to_nat (nth f num 0%Z))%nat) as Hpos by (intros f Hf; rewrite Forall_nth in H1; specialize (H1 f 0 ltac:(lia)); lia).
      split; [|split; [|split; [|split]]].
      + pose proof (seq_groups num (length files) H0 ltac:(lia)) as Hg. apply (f_equal (@length _)) in Hg. rewrite seq_length, goff_all, S, Nat2Z.id in Hg by lia. rewrite <- Hg. rewrite !length_concat_spmd. f_equal. apply spmd_ext. intros f Hf. rewrite seq_length. apply (col_part_ok f _ HPF (Hpos f Hf)).
      + apply Forall_forall. intros x Hx. apply in_concat in Hx. destruct Hx as (l & Hl & Hx). apply In_spmd in Hl. destruct Hl as (f & Hf & ->). destruct (col_part_ok f _ HPF (Hpos f Hf)) as (_ & Ho & _). rewrite Forall_forall in Ho. now apply Ho.
      + rewrite <- flat_map_concat_spmd, all_rows_nth, flat_map_concat_map. f_equal. apply spmd_ext. intros f Hf. apply (col_part_ok f _ HPF (Hpos f Hf)).
      + rewrite <- flat_map_concat_spmd, all_tags_nth, flat_map_concat_map. f_equal. apply spmd_ext. intros f Hf. apply (col_part_ok f _ HPF (Hpos f Hf)).
      + split.
        * intros (x & Hx & Hn). apply in_concat in Hx. destruct Hx as (l & Hl & Hx). apply In_spmd in Hl. destruct Hl as (f & Hf & ->). destruct (col_part_ok f _ HPF (Hpos f Hf)) as (_ & _ & _ & _ & Hnone & _). specialize (Hnone x Hx).
          destruct (nth f files None) as [d|] eqn:E; [|tauto]. exists d. now apply nth_in with f.
        * intros (d & Hd). apply (In_nth _ _ None) in Hd. destruct Hd as (f & Hf & E). destruct (col_part_ok f _ HPF (Hpos f Hf)) as (Hl & _ & _ & _ & Hnone & _). specialize (Hpos f Hf).
          destruct (col_part f (Z.to_nat (nth f num 0))) as [|x l] eqn:Ec; [cbn in Hl; lia|]. exists x. split.
          -- apply in_concat. exists (x :: l). split; [apply In_spmd; exists f; split; [assumption | now symmetry] | now left].
          -- specialize (Hnone x (or_introl eq_refl)). rewrite E in Hnone. intro Hx. apply Hnone in Hx. discriminate.
  Qed.

  Lemma read_some : (exists d, In (Some d) files) -> read junk itemsize native buffer P files idx = Ok (map fin raws).
  Proof. intro H. rewrite read_eq. destruct raws_ok as (_ & H1 & _ & _ & H2). apply finish_some; [assumption | now apply H2]. Qed.
  Lemma read_none : (forall o, In o files -> o = None) -> read junk itemsize native buffer P files idx = Ok (repeat (None, None) P).
  Proof.
    intro H. rewrite read_eq. destruct raws_ok as (Hl & H1 & _ & _ & H2).
    assert (Forall (fun x => x = (None, None)) raws) as Hn.
    { apply Forall_forall. intros [a b] Hx. rewrite Forall_forall in H1. specialize (H1 _ Hx). unfold raw_ok in H1. cbn in H1. destruct a as [d|]; [|now subst b].
      exfalso. destruct H2 as [H2 _]. destruct H2 as (d' & Hd'); [exists (Some d, b); split; [assumption | discriminate]|]. specialize (H _ Hd'). discriminate. }
    rewrite finish_none by assumption. f_equal. rewrite <- Hl. clear -Hn. induction raws as [|x l IH]; [reflexivity|]. apply Forall_cons_iff in Hn. destruct Hn as [-> Hn]. cbn [length repeat]. now rewrite <- IH.
  Qed.
  Lemma read_main : (exists d, In (Some d) files) -> exists out, read junk itemsize native buffer P files idx = Ok (map (fun x => (Some {| d_dtype := native dt; d_dims := dims; d_rows := fst x |}, Some (snd x))) out) /\
    length out = P /\ concat (map fst out) = all_rows files /\ concat (map snd out) = all_tags idx files /\
    Forall (fun x => length (snd x) = length (fst x)) out.
  Proof.
    intro H. exists (map (fun x => (rows_of (fst x), tags_of (snd x))) raws). rewrite read_some, !map_map by assumption. cbn [fst snd].
    destruct raws_ok as (Hl & H1 & H2 & H3 & H4). split; [reflexivity|]. split; [now rewrite map_length|]. rewrite <- !flat_map_concat_map. split; [assumption|]. split; [assumption|].
    apply Forall_forall. intros x Hx. apply in_map_iff in Hx. destruct Hx as (y & <- & Hy). cbn [fst snd]. rewrite Forall_forall in H1. specialize (H1 y Hy). unfold raw_ok in H1. destruct (fst y); [destruct H1 as (_ & _ & nr & -> & E); exact E | now rewrite H1].
  Qed.
End Read.

(** *** writing the same layout back *)
Lemma zslice_group {X} (d : list (list X)) r : (r < length d)%nat -> zslice (concat d) (zlen (concat (firstn r d))) (zlen (concat (firstn r d)) + zlen (nth r d [])) = nth r d [].
Proof.
  intro H. assert (concat d = concat (firstn r d) ++ nth r d [] ++ concat (skipn (S r) d)) as E.
  { rewrite <- (firstn_skipn r d) at 1. rewrite concat_app. f_equal. revert r H. induction d as [|x d IH]; intros [|r] H; cbn [length] in H; try lia; [reflexivity|]. cbn [skipn nth]. apply IH. lia. }
  rewrite E at 1. unfold zslice, zlen. replace (Z.to_nat (Z.of_nat (length (concat (firstn r d))))) with (length (concat (firstn r d))) by lia.
  rewrite skipn_app, skipn_all, Nat.sub_diag. cbn [app skipn]. rewrite firstn_app. replace (_ - _)%nat with (length (nth r d [])) by lia. rewrite firstn_all, Nat.sub_diag, firstn_O. apply app_nil_r.
Qed.
Section RoundTrip.
  Context {A : Type} (junk : A) (itemsize native : Z -> Z) (buffer : Z) (fuel P : nat) (files : list (option (dset A))) (idx : list Z) (dt : Z) (dims : list Z).
  Hypothesis HP : (0 < P)%nat.
  Hypothesis HF : files <> [].
  Hypothesis Hidx : length idx = length files.
  Hypothesis Hu : uniform dt dims files.
  Hypothesis Hbuf : (length files < P)%nat -> 1 <= itemsize dt * prodZ dims <= buffer.
  Hypothesis Hbuf' : (length files < P)%nat -> 1 <= itemsize (native dt) * prodZ dims <= buffer.
  Hypothesis Hnd : NoDup idx.
  Hypothesis Hfuel : (length (all_rows files) <= fuel)%nat.
  Hypothesis Hsome : exists d, In (Some d) files.
  Set Default Proof Using "All".

  Definition back (o : list A) : dset A := {| d_dtype := native dt; d_dims := dims; d_rows := o |}.
  Definition fr (f : nat) : list A := rows_of (nth f files None).

  Lemma rows_in_eq f : rows_in files f = zlen (fr f).
  Proof. unfold rows_in, fr. destruct (nth f files None); reflexivity. Qed.

  Lemma dict_get_map (v : nat -> Z) fs f : (forall g, In g fs -> (g < length idx)%nat) -> (f < length idx)%nat ->
    (In f fs -> dict_get (nth f idx 0) (map (fun f => (nth f idx 0, v f)) fs) = Ok (v f)) /\
    (~ In f fs -> dict_get (nth f idx 0) (map (fun f => (nth f idx 0, v f)) fs) = Err EKey).
  Proof.
    intros Hfs Hf. induction fs as [|g fs IH]; [split; [intros [] | reflexivity]|]. destruct IH as [I1 I2]; [intros; apply Hfs; now right|].
    cbn [map dict_get]. assert ((nth g idx 0 =? nth f idx 0) = true <-> g = f) as He.
    { rewrite Z.eqb_eq. split; [|now intros ->]. intro E. apply (proj1 (NoDup_nth idx 0) Hnd); [apply Hfs; now left | assumption | assumption]. }
    destruct (in_dec Nat.eq_dec f fs) as [Hin|Hin].
    - rewrite I1 by assumption. split; [reflexivity | intro H; exfalso; apply H; now right].
    - rewrite I2 by assumption. destruct (nth g idx 0 =? nth f idx 0) eqn:B.
      + assert (g = f) as -> by now apply He. split; [reflexivity | intro H; exfalso; apply H; now left].
      + split; [|reflexivity]. intros [->|H]; [|contradiction]. assert (false = true) by now apply He. discriminate.
  Qed.

  Lemma write_files_ok epf rest : forall fs off (d : dset A), (forall f, In f fs -> dict_get (nth f idx 0) epf = Ok (zlen (fr f))) -> 0 <= off ->
    skipn (Z.to_nat off) (d_rows d) = flat_map fr fs ++ rest ->
    write_files idx d epf off fs = Ok (map (fun f => {| d_dtype := d_dtype d; d_dims := d_dims d; d_rows := fr f |}) fs).
  Proof.
    induction fs as [|f fs IH]; intros off d Hd Ho Hs; [reflexivity|]. cbn [write_files map]. rewrite (Hd f (or_introl eq_refl)). cbn [bind].
    pose proof (zlen_nonneg (fr f)) as Hz. rewrite pyslice_zslice by lia. unfold zslice. rewrite Hs. cbn [flat_map]. rewrite <- app_assoc.
    replace (Z.to_nat (off + zlen (fr f)) - Z.to_nat off)%nat with (length (fr f)) by (unfold zlen in *; lia). rewrite firstn_app, firstn_all, Nat.sub_diag, firstn_O, app_nil_r.
    unfold h5_assign. rewrite Z.eqb_refl. cbn [bind]. rewrite IH; [reflexivity | intros; apply Hd; now right | lia|].
    replace (Z.to_nat (off + zlen (fr f))) with (Z.to_nat off + length (fr f))%nat by (unfold zlen in *; lia). rewrite <- skipn_skipn', Hs. cbn [flat_map]. rewrite <- app_assoc, skipn_app, skipn_all, Nat.sub_diag. reflexivity.
  Qed.

  Lemma combine_spmd {X} n (g : nat -> X) : combine (seq 0 n) (spmd n g) = spmd n (fun r => (r, g r)).
  Proof. clear. unfold spmd. generalize (seq 0 n) as l. induction l as [|x l IH]; [reflexivity|]. cbn [map combine]. now rewrite IH. Qed.
  Lemma mapM_spmd {X Y} n (g : X -> res Y) (f : nat -> X) (h : nat -> Y) : (forall r, (r < n)%nat -> g (f r) = Ok (h r)) -> mapM g (spmd n f) = Ok (spmd n h).
  Proof.
    clear. intro H. unfold spmd. assert (forall l, (forall r, In r l -> (r < n)%nat) -> mapM g (map f l) = Ok (map h l)) as H'; [|apply H'; intros r Hr; apply in_seq in Hr; lia].
    induction l as [|x l IH]; intro Hl; [reflexivity|]. cbn [map mapM]. rewrite H by (apply Hl; now left). cbn [bind]. rewrite IH; [reflexivity|]. intros; apply Hl; now right.
  Qed.
  Lemma mapM_some {X} (l : list X) : mapM (fun o => match o with Some d => Ok d | None => Err EType end) (map Some l) = Ok l.
  Proof. clear. induction l as [|x l IH]; [reflexivity|]. cbn [map mapM bind]. now rewrite IH. Qed.

  Lemma my_files_lt num f r : Forall (fun n => 0 <= n) num -> length num = P -> sumZ num = Z.of_nat (length files) -> (r < P)%nat -> In f (my_files (excl_cumsum num) num r) -> (f < length idx)%nat.
  Proof.
    intros H0 L S Hr Hf. assert (In f (seq 0 (length files))) as Hi; [|apply in_seq in Hi; lia].
    rewrite <- (my_files_all junk itemsize native buffer P files idx dt dims HP HF Hidx Hu Hbuf num (length files) H0 L S). apply in_concat. exists (my_files (excl_cumsum num) num r). split; [|assumption]. apply In_spmd. now exists r.
  Qed.

  Lemma round_trip_ind num : Forall (fun n => 0 <= n) num -> length num = P -> sumZ num = Z.of_nat (length files) ->
    let data := spmd P (fun r => back (rows_of (fst (ind_raw files idx dt dims (my_files (excl_cumsum num) num r))))) in
    let epf := spmd P (fun r => map (fun f => (nth f idx 0, rows_in files f)) (my_files (excl_cumsum num) num r)) in
    write_independent P idx data epf (excl_cumsum num) num = Ok (map (fun o => back (rows_of o)) files).
  Proof.
    intros H0 L S data epf. unfold write_independent, data. rewrite combine_spmd.
    rewrite (mapM_spmd P _ _ (fun r => map (fun f => back (fr f)) (my_files (excl_cumsum num) num r))).
    - cbn [bind]. f_equal. rewrite <- map_concat_spmd, (my_files_all junk itemsize native buffer P files idx dt dims HP HF Hidx Hu Hbuf num (length files) H0 L S).
      rewrite <- (spmd_nth files None) at 2. rewrite map_spmd. reflexivity.
    - intros r Hr. unfold epf. rewrite nth_spmd by assumption. apply write_files_ok with (rest := []).
      + intros f Hf. pose proof (my_files_lt num f r H0 L S Hr Hf) as Hlt. rewrite (proj1 (dict_get_map (rows_in files) (my_files (excl_cumsum num) num r) f ltac:(intros g Hg; exact (my_files_lt num g r H0 L S Hr Hg)) Hlt) Hf). now rewrite rows_in_eq.
      + lia.
      + cbn [Z.to_nat skipn back d_rows]. rewrite (ind_rows junk itemsize native buffer P files idx dt dims HP HF Hidx Hu Hbuf), app_nil_r. reflexivity.
  Qed.

  Definition cparts (num : list Z) (f : nat) : list (raw (A := A)) := col_part junk itemsize buffer files idx dt dims f (Z.to_nat (nth f num 0)).
  Lemma rank_file num r : Forall (fun n => 0 <= n) num -> length num = length files -> sumZ num = Z.of_nat P -> (r < P)%nat ->
    exists f k, (f < length files)%nat /\ Z.of_nat k < nth f num 0 /\ r = (Z.to_nat (goff num f) + k)%nat.
  Proof.
    intros H0 L S Hr. pose proof (seq_groups num (length files) H0 ltac:(lia)) as Hg. rewrite goff_all, S, Nat2Z.id in Hg by lia.
    assert (In r (seq 0 P)) as Hi by (apply in_seq; lia). rewrite <- Hg in Hi. apply in_concat in Hi. destruct Hi as (l & Hl & Hi). apply In_spmd in Hl. destruct Hl as (f & Hf & ->). apply in_seq in Hi.
    exists f, (r - Z.to_nat (goff num f))%nat. split; [assumption|]. lia.
  Qed.
  Lemma round_trip_col num : (length files < P)%nat -> Forall (fun n => 0 <= n) num -> length num = length files -> sumZ num = Z.of_nat P -> Forall (fun n => 1 <= n) num ->
    let data := map (fun x => back (rows_of (fst x))) (concat (spmd (length files) (cparts num))) in
    let epf := spmd P (fun r => match find_file (Z.of_nat r) 0 (combine (excl_cumsum num) num) with
                                | Ok (f, k, n) => [(nth f idx 0, nth k (num_on_task n (rows_in files f)) 0)] | Err _ => [] end) in
    write_collective junk itemsize buffer fuel P idx data epf (excl_cumsum num) num = Ok (map (fun o => back (rows_of o)) files).
  Proof.
    intros HFP H0 L S H1 data epf.
    assert (forall f, (f < length files)%nat -> (0 < Z.to_nat (nth f num 0%Z))%nat) as Hpos by (intros f Hf; rewrite Forall_nth in H1; specialize (H1 f 0 ltac:(lia)); lia).
    pose proof (fun f Hf => col_part_ok junk itemsize native buffer P files idx dt dims HP HF Hidx Hu Hbuf f (Z.to_nat (nth f num 0)) HFP (Hpos f Hf)) as Hcp.
    set (gs := spmd (length files) (fun f => map (fun x => back (rows_of (fst x))) (cparts num f))).
    assert (data = concat gs) as Hdata by (unfold data, gs; now rewrite map_concat_spmd).
    assert (nperproc gs = num) as Hnp.
    { unfold nperproc, gs. rewrite map_spmd. rewrite (spmd_ext _ _ (fun f => nth f num 0)); [rewrite <- L; apply spmd_nth|]. intros f Hf. unfold zlen. rewrite map_length. specialize (Hpos f Hf). etransitivity; [apply (f_equal Z.of_nat); exact (proj1 (Hcp f Hf))|]. lia. }
    assert (forall f, (f < length files)%nat -> zslice data (goff num f) (goff num f + nth f num 0) = map (fun x => back (rows_of (fst x))) (cparts num f)) as Hgrp.
    { intros f Hf. rewrite Hdata. transitivity (nth f gs []); [|unfold gs; now rewrite nth_spmd]. 
      pose proof (zslice_group gs f) as Hz. unfold nperproc in Hnp. assert (goff num f = zlen (concat (firstn f gs))) as E1.
      { rewrite zlen_concat. unfold goff. rewrite <- Hnp, firstn_map. reflexivity. }
      assert (nth f num 0 = zlen (nth f gs [])) as E2 by (rewrite <- Hnp; change 0 with (zlen (@nil (dset A))); apply map_nth).
      rewrite E1, E2. apply Hz. unfold gs. rewrite spmd_length. assumption. }
    unfold write_collective.
    assert (length data = P) as Hld.
    { apply Nat2Z.inj. change (Z.of_nat (length data)) with (zlen data). rewrite Hdata, zlen_concat. unfold nperproc in Hnp. now rewrite Hnp. }
    rewrite (mapM_map_ok _ (fun _ => tt)).
    - cbn [bind]. assert (map (fun o => back (rows_of o)) files = spmd (length files) (fun f => back (fr f))) as -> by (rewrite <- (map_spmd _ (fun f => nth f files None) (fun o => back (rows_of o))); now rewrite spmd_nth).
      rewrite Hidx. unfold spmd. apply mapM_map_ok. intros f Hf. apply in_seq in Hf. assert (f < length files)%nat as Hf' by lia.
      rewrite nth_excl_goff by lia. rewrite Hgrp by assumption. specialize (Hpos f Hf'). destruct (Hcp f Hf') as (C1 & C2 & C3 & _). fold (cparts num f) in C1, C2, C3.
      set (group := map (fun x => back (rows_of (fst x))) (cparts num f)).
      assert (concat (map d_rows group) = fr f) as Hc by (unfold group; rewrite map_map; cbn [back d_rows]; rewrite <- flat_map_concat_map; exact C3).
      destruct (collective_write_main fuel junk itemsize buffer None (native dt) dims group) as (trace & E & _).
      + unfold group. intro E. apply map_eq_nil in E. rewrite E in C1. cbn in C1. lia.
      + apply Forall_forall. intros x Hx. apply in_map_iff in Hx. destruct Hx as (y & <- & _). split; reflexivity.
      + now apply Hbuf'.
      + discriminate.
      + rewrite Hc. etransitivity; [|exact Hfuel]. unfold all_rows. rewrite <- (flat_map_nth rows_of None). fold fr. assert (In f (seq 0 (length files))) as Hi by (apply in_seq; lia). apply in_split in Hi. destruct Hi as (l1 & l2 & ->). rewrite flat_map_app. cbn [flat_map]. rewrite !app_length. lia.
      + rewrite Hc in E. rewrite E. cbn [bind]. rewrite app_nil_r. unfold group. destruct (cparts num f); [cbn in C1; lia|]. reflexivity.
    - intros [r d] Hin. apply In_nth_error in Hin. destruct Hin as (j & Hj). apply nth_error_combine in Hj. destruct Hj as [Hj1 Hj2].
      assert (j < P)%nat as Hjp by (rewrite <- Hld; apply nth_error_Some; congruence). rewrite (nth_error_nth' _ O) in Hj1 by (rewrite seq_length; assumption). rewrite seq_nth in Hj1 by assumption. injection Hj1 as <-. cbn [plus].
      destruct (rank_file num j H0 L S Hjp) as (f & k & Hf & Hk & ->). unfold epf. rewrite nth_spmd by assumption. rewrite find_file_ok by (assumption || lia). cbn [bind fst]. cbn [dict_get]. rewrite Z.eqb_refl. cbn [bind].
      destruct (Hcp f Hf) as (C1 & _ & _ & _ & _ & C6). specialize (C6 k ltac:(lia)). fold (cparts num f) in C1, C6.
      assert (nth_error (map (fun x => back (rows_of (fst x))) (cparts num f)) k = Some d) as Ek.
      { rewrite <- Hgrp by assumption. unfold zslice. rewrite nth_error_firstn', nth_error_skipn'.
        assert (0 <= goff num f) by (rewrite <- (goff_0 num); apply goff_mono; [assumption | lia]).
        destruct (Nat.ltb_spec k (Z.to_nat (goff num f + nth f num 0) - Z.to_nat (goff num f))); [assumption | lia]. }
      rewrite nth_error_map in Ek. match type of Ek with option_map _ ?t = _ => destruct t as [x|] eqn:Ex; [|discriminate] end. assert (back (rows_of (fst x)) = d) as <- by (cbn [option_map] in Ek; congruence). rewrite (nth_error_nth _ _ _ Ex) in C6. cbn [back d_rows]. rewrite <- C6, Z.eqb_refl. reflexivity.
  Qed.

  Lemma round_trip : exists out epf, read junk itemsize native buffer P files idx = Ok out /\ get_elements_per_file P files idx = Ok epf /\
    write junk itemsize buffer fuel P idx (map fst out) epf = Ok (map (fun o => back (rows_of o)) files).
  Proof.
    rewrite (read_some junk itemsize native buffer P files idx dt dims HP HF Hidx Hu Hbuf Hsome). exists (map (fin native dt dims) (raws junk itemsize buffer P files idx dt dims)). unfold get_elements_per_file.
    destruct (setup_ok junk itemsize native buffer P files idx dt dims HP HF Hidx Hu Hbuf) as (num & H0 & H).
    assert (map fst (map (fin native dt dims) (raws junk itemsize buffer P files idx dt dims)) = map Some (map (fun x => back (rows_of (fst x))) (raws junk itemsize buffer P files idx dt dims))) as Em by (rewrite !map_map; reflexivity).
    unfold write, raws in *. rewrite Hidx. destruct H as [(HPF & E & L & S)|(HPF & E & L & S & H1)]; rewrite E in Em |- *; cbn [bind].
    - eexists. split; [reflexivity|]. split; [reflexivity|]. rewrite Em, mapM_some. cbn [bind]. rewrite map_spmd. apply round_trip_ind; assumption.
    - exists (spmd P (fun r => match find_file (Z.of_nat r) 0 (combine (excl_cumsum num) num) with
                                | Ok (f, k, n) => [(nth f idx 0, nth k (num_on_task n (rows_in files f)) 0)] | Err _ => [] end)).
      split; [reflexivity|]. split.
      + unfold spmd. apply mapM_map_ok. intros r Hr. apply in_seq in Hr. destruct (rank_file num r H0 L S ltac:(lia)) as (f & k & Hf & Hk & ->). rewrite find_file_ok by (assumption || lia). cbn [bind]. unfold rows_in.
        destruct (nth f files None) as [d|]; [rewrite num_sum by (try lia; apply zlen_nonneg); rewrite Z.eqb_refl; reflexivity|].
        rewrite num_nth by lia. rewrite Z.div_0_l, Z.mod_0_l by lia. destruct (Z.ltb_spec (Z.of_nat k) 0); [lia|]. reflexivity.
      + rewrite Em, mapM_some. cbn [bind]. apply round_trip_col; assumption.
  Qed.
End RoundTrip.
