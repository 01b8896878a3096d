(** The properties of the interface of MultiFile. *)
From Coq Require Import Ascii String Sorted.
From Verif.Base Require Import Prelude ListLemmas.
From Verif.Psort Require Import MoveSpec MoveProofs.
From Verif.Mpi Require Import UtilModel UtilProofs.
From Verif.Index Require Import IndexModel.
From Verif.Phdf5 Require Import AssignModel CollModel CollProofs MultiModel MultiSpec MultiProofs ApiModel ApiSpec ApiProofs.
From Coq Require Import ZifyBool ZifyNat.
Local Open Scope Z_scope.
Local Open Scope list_scope.

Lemma fall2_impl {X Y} (R Q : X -> Y -> Prop) l m : Forall2 R l m -> (forall x y, R x y -> Q x y) -> Forall2 Q l m.
Proof. intros H Hi. induction H; constructor; auto. Qed.
Lemma fall2_at {X Y} (R : X -> Y -> Prop) l m : Forall2 R l m -> forall k x y, nth_error l k = Some x -> nth_error m k = Some y -> R x y.
Proof. induction 1 as [|a b l m H1 H2 IH]; intros [|k] x y Hx Hy; try discriminate; cbn [nth_error] in *; [congruence | now apply (IH k)]. Qed.

Section Read.
  Context {A V : Type} (junk : A) (itemsize native : Z -> Z) (buffer : Z).
  Context (fs : store A V) (P : nat) (fnames : list string) (files : list (h5file A V)) (idx : list Z) (gp : list string) (group : option string).
  Hypothesis HP : (0 < P)%nat.
  Hypothesis HF : fnames <> [].
  Hypothesis Hidx : length idx = length fnames.
  Hypothesis Hopen : Forall2 (fun n f => fs n = Some f) fnames files.
  Hypothesis Hgroup : group_at gp group.

  Local Notation holds := (ApiSpec.holds files gp).
  Local Notation fits := (ApiSpec.fits itemsize buffer P fnames).

  Lemma files_open : mapM (open_read fs) fnames = Ok files.
  Proof using Hopen. apply mapM_ok. apply (fall2_impl _ _ fnames files Hopen). intros n f H. unfold open_read. now rewrite H. Qed.
  Lemma view_ok n c : component n -> holds n c -> view files group n = Ok c.
  Proof using Hgroup.
    intros Hn Hh. unfold view. apply mapM_ok. apply (fall2_impl _ _ files c Hh). intros f o H1.
    pose proof (resolve_group gp group Hgroup) as Hr. unfold locate. destruct group as [g|].
    - rewrite Hr. destruct o as [[d a]|]; cbn [stored] in H1.
      + destruct H1 as ((ga & E1) & E2). rewrite E1. cbn [bind get]. now rewrite resolve_name, E2.
      + destruct H1 as [(E1 & _)|((ga & E1) & E2)]; rewrite E1; cbn [bind get]; [reflexivity|]. now rewrite resolve_name, E2.
    - rewrite <- Hr in H1. cbn [bind get]. rewrite resolve_name by assumption. destruct o as [[d a]|]; cbn [stored] in H1.
      + now rewrite (proj2 H1).
      + destruct H1 as [(_ & E)|(_ & E)]; [congruence | now rewrite E].
  Qed.
  Lemma lens n c : holds n c -> length c = length fnames.
  Proof using Hopen. intro H. pose proof (Forall2_len _ _ _ H). pose proof (Forall2_len _ _ _ Hopen). congruence. Qed.

  (** what one name gives on all ranks *)
  Definition one_read (ra : bool) (n : string) : res (list (option (array A V) * option (list Z))) :=
    do v <- view files group n; read1 junk itemsize native buffer P idx v ra.
  Definition got (ra : bool) (n : string) : list (option (array A V) * option (list Z)) := match one_read ra n with Ok l => l | Err _ => [] end.
  Lemma one_read_ok ra n c dt dims : component n -> holds n c -> fits dt dims c ->
    one_read ra n = Ok (got ra n) /\ distributed c idx P (native dt) dims ra (got ra n) /\
    exists out, MultiModel.read junk itemsize native buffer P (dsets c) idx = Ok out /\ map (fun x => option_map a_data (fst x)) (got ra n) = map fst out.
  Proof using All.
    intros Hn Hh [Hu Hb]. pose proof (lens n c Hh) as Hl. assert (length (dsets c) = length fnames) as Hl' by (unfold dsets; now rewrite map_length).
    assert (dsets c <> []) as Hne by (intro E; rewrite E in Hl'; destruct fnames; [congruence | discriminate]).
    destruct (read1_ok junk itemsize native buffer P c idx dt dims HP Hne ltac:(congruence) Hu ltac:(now rewrite Hl') ra) as (l & E1 & E2 & E3).
    assert (one_read ra n = Ok l) as E by (unfold one_read; rewrite (view_ok n c Hn Hh); exact E1).
    unfold got. rewrite E. split; [reflexivity|]. split; assumption.
  Qed.

  Context (datasets : names) (cont : string -> content (A := A) (V := V)) (dt : string -> Z) (dims : string -> list Z).
  Hypothesis Hall : forall n, In n (name_list datasets) -> component n /\ holds n (cont n) /\ fits (dt n) (dims n) (cont n).

  Definition per ra := map (fun n => (n, got ra n)) (keys (name_list datasets)).
  Lemma per_ok ra : mapM (fun n => do v <- view files group n; do o <- read1 junk itemsize native buffer P idx v ra; Ok (n, o)) (keys (name_list datasets)) = Ok (per ra).
  Proof using All.
    apply mapM_map_ok. intros n Hn. apply (proj1 (keys_in _ _)) in Hn. destruct (Hall n Hn) as (H1 & H2 & H3). destruct (one_read_ok ra n (cont n) (dt n) (dims n) H1 H2 H3) as (E & _).
    unfold one_read in E. destruct (view files group n) as [v|]; cbn [bind] in *; [|discriminate]. rewrite E. reflexivity.
  Qed.

  Definition rank_out (ra unpack : bool) (return_file_nr : option (list string)) (r : nat) : res (value (option (array A V)) * option (value (option (list Z)))) :=
    let at_rank (o : list (option (array A V) * option (list Z))) := nth r o (None, None) in
    do data <- pack datasets unpack (map (fun no => (fst no, fst (at_rank (snd no)))) (per ra));
    do nr <- match return_file_nr with
      | None => Ok None
      | Some rn =>
        let m := if (P <=? length fnames)%nat
                 then map (fun n => (n, match look n (per ra) with Ok o => snd (at_rank o) | Err _ => None end)) (keys rn)
                 else flat_map (fun no => if mem (fst no) rn then [(fst no, snd (at_rank (snd no)))] else []) (per ra) in
        do x <- pack datasets unpack m; Ok (Some x)
      end;
    Ok (data, nr).
  Lemma read_eq ra unpack rfn : ApiModel.read junk itemsize native buffer fs P fnames idx datasets group rfn ra unpack = mapM (rank_out ra unpack rfn) (seq 0 P).
  Proof using All. unfold ApiModel.read. rewrite files_open. cbn [bind]. rewrite per_ok. reflexivity. Qed.

  Definition nr_dict (ra : bool) (rn : list string) (r : nat) : list (string * option (list Z)) :=
    if (P <=? length fnames)%nat
    then map (fun n => (n, match look n (per ra) with Ok o => snd (nth r o (None, None)) | Err _ => None end)) (keys rn)
    else flat_map (fun no => if mem (fst no) rn then [(fst no, snd (nth r (snd no) (None, None)))] else []) (per ra).
  Lemma look_nth {X} (m : list (string * X)) n x : NoDup (map fst m) -> In (n, x) m -> look n m = Ok x.
  Proof.
    clear. induction m as [|[k y] m IH]; intros Hn Hi; [destruct Hi|]. cbn [map] in Hn. apply NoDup_cons_iff in Hn. destruct Hn as [Hn1 Hn2]. cbn [look]. destruct Hi as [Hi|Hi].
    - injection Hi as -> ->. now rewrite String.eqb_refl.
    - destruct (String.eqb_spec k n) as [->|Hk]; [|now apply IH]. exfalso. apply Hn1. apply in_map_iff. now exists (n, x).
  Qed.
  Lemma look_none {X} (m : list (string * X)) n : ~ In n (map fst m) -> look n m = Err EKey.
  Proof. clear. induction m as [|[k y] m IH]; intro H; [reflexivity|]. cbn [look]. destruct (String.eqb_spec k n) as [->|Hk]; [exfalso; apply H; now left|]. apply IH. intro H'. apply H. now right. Qed.
  Lemma per_fst ra : map fst (per ra) = keys (name_list datasets).
  Proof. unfold per. rewrite map_map. cbn [fst]. apply map_id. Qed.
  Lemma nr_dict_keys ra rn r : NoDup (map fst (nr_dict ra rn r)).
  Proof.
    unfold nr_dict. destruct (P <=? length fnames)%nat.
    - rewrite map_map. cbn [fst]. rewrite map_id. apply keys_nodup.
    - unfold per. pose proof (keys_nodup (name_list datasets)) as Hk. induction (keys (name_list datasets)) as [|k ks IH]; [constructor|]. apply NoDup_cons_iff in Hk. destruct Hk as [Hk1 Hk2]. cbn [map flat_map fst snd]. rewrite map_app.
      destruct (mem k rn); [|now apply IH]. cbn [map app fst]. constructor; [|now apply IH]. intro H. apply Hk1. clear -H. induction ks as [|j ks IH]; [exact H|]. cbn [map flat_map fst snd] in H. rewrite map_app in H. apply in_app_or in H. destruct H as [H|H]; [|right; now apply IH].
      destruct (mem j rn); [|destruct H]. destruct H as [H|[]]. now left.
  Qed.
  Lemma nr_dict_in ra rn r n x : In n (name_list datasets) -> (In (n, x) (nr_dict ra rn r) <-> In n rn /\ x = snd (nth r (got ra n) (None, None))).
  Proof.
    intro Hn. unfold nr_dict. destruct (P <=? length fnames)%nat.
    - rewrite in_map_iff. unfold per. split.
      + intros (k & E & H). injection E as -> <-. apply (proj1 (keys_in _ _)) in H. split; [assumption|]. now rewrite look_map_in by now apply keys_in.
      + intros [H ->]. exists n. rewrite look_map_in by now apply keys_in. split; [reflexivity | now apply keys_in].
    - rewrite in_flat_map. split.
      + intros ([k o] & H & H'). unfold per in H. apply in_map_iff in H. destruct H as (j & E & _). injection E as -> <-. cbn [fst snd] in H'. destruct (mem k rn) eqn:Em; [|destruct H']. destruct H' as [H'|[]]. injection H' as -> <-. split; [now apply mem_in | reflexivity].
      + intros [H ->]. exists (n, got ra n). split; [unfold per; apply in_map_iff; exists n; split; [reflexivity | now apply keys_in]|]. cbn [fst snd]. rewrite (proj2 (mem_in n rn)) by assumption. now left.
  Qed.
  Lemma nr_dict_out ra rn r n x : ~ In n (name_list datasets) -> In (n, x) (nr_dict ra rn r) -> In n rn /\ x = None.
  Proof.
    intro Hn. unfold nr_dict. destruct (P <=? length fnames)%nat.
    - rewrite in_map_iff. intros (k & E & H). injection E as -> <-. apply (proj1 (keys_in _ _)) in H. split; [assumption|]. rewrite look_none; [reflexivity|]. rewrite per_fst. intro H'. apply (proj1 (keys_in _ _)) in H'. contradiction.
    - rewrite in_flat_map. intros ([k o] & H & H'). exfalso. unfold per in H. apply in_map_iff in H. destruct H as (j & E & H). injection E as -> <-. cbn [fst snd] in H'. destruct (mem k rn); [|destruct H']. destruct H' as [H'|[]]. injection H' as -> <-. apply (proj1 (keys_in _ _)) in H. contradiction.
  Qed.

  Lemma rank_ok ra unpack rfn r : nr_sensible datasets unpack rfn ->
    exists v w, rank_out ra unpack rfn r = Ok (v, w) /\ gives datasets unpack (fun n => fst (nth r (got ra n) (None, None))) v /\
      match rfn, w with
      | None, None => True
      | Some rn, Some w => gives_nr datasets unpack rn (fun n => snd (nth r (got ra n) (None, None))) w
      | _, _ => False
      end.
  Proof.
    intro Hs. unfold rank_out. unfold per at 1. rewrite map_map. cbn [fst snd].
    destruct (pack_gives datasets unpack (fun n => fst (nth r (got ra n) (None, None))) (keys (name_list datasets)) (keys_in _) (keys_nodup _)) as (v & -> & Hv). cbn [bind].
    destruct rfn as [rn|]; [|eexists; eexists; split; [reflexivity | split; [assumption | exact I]]].
    fold (nr_dict ra rn r). unfold nr_sensible in Hs.
    assert (forall n, In n (name_list datasets) -> In n rn -> look n (nr_dict ra rn r) = Ok (snd (nth r (got ra n) (None, None)))) as Hl.
    { intros n H1 H2. apply look_nth; [apply nr_dict_keys|]. apply nr_dict_in; [assumption | now split]. }
    destruct datasets as [n|l] eqn:Ed; cbn [pack].
    - rewrite Hl by (rewrite ?Ed; now try left). cbn [bind]. eexists. eexists. split; [reflexivity|]. split; [assumption | reflexivity].
    - destruct unpack.
      + rewrite (mapM_map_ok _ (fun n => snd (nth r (got ra n) (None, None)))).
        * cbn [bind]. eexists. eexists. split; [reflexivity|]. split; [assumption|]. split; reflexivity.
        * intros n Hn. apply Hl; [assumption | now apply Hs].
      + cbn [bind]. eexists. eexists. split; [reflexivity|]. split; [assumption|]. cbn [gives_nr]. split; [reflexivity|].
        split; [apply nr_dict_keys|]. split.
        * intros n x Hn. apply nr_dict_in. now rewrite Ed.
        * intros n x Hn. apply nr_dict_out. now rewrite Ed.
  Qed.

  Theorem read_whole ra unpack rfn : nr_sensible datasets unpack rfn ->
    exists (g : string -> list (option (array A V) * option (list Z))) out,
      (forall n, In n (name_list datasets) -> distributed (cont n) idx P (native (dt n)) (dims n) ra (g n)) /\
      ApiModel.read junk itemsize native buffer fs P fnames idx datasets group rfn ra unpack = Ok out /\ length out = P /\
      forall r v w, nth_error out r = Some (v, w) ->
        gives datasets unpack (fun n => fst (nth r (g n) (None, None))) v /\
        match rfn, w with
        | None, None => True
        | Some rn, Some w => gives_nr datasets unpack rn (fun n => snd (nth r (g n) (None, None))) w
        | _, _ => False
        end.
  Proof using All.
    intro Hs. exists (got ra). rewrite read_eq.
    assert (exists out, mapM (rank_out ra unpack rfn) (seq 0 P) = Ok out /\ length out = P) as (out & E & L).
    { assert (forall l, exists out, mapM (rank_out ra unpack rfn) l = Ok out /\ length out = length l) as H; [|destruct (H (seq 0 P)) as (out & E & L); exists out; rewrite seq_length in L; now split].
      induction l as [|r l IH]; [exists []; split; reflexivity|]. destruct (rank_ok ra unpack rfn r Hs) as (v & w & E & _). destruct IH as (out & E' & L). cbn [mapM]. rewrite E. cbn [bind]. rewrite E'. cbn [bind]. eexists. split; [reflexivity|]. cbn [length]. now rewrite L. }
    exists out. split; [|split; [assumption|split; [assumption|]]].
    - intros n Hn. destruct (Hall n Hn) as (H1 & H2 & H3). apply (one_read_ok ra n (cont n) (dt n) (dims n) H1 H2 H3).
    - intros r v w Hr. apply mapM_ok in E. assert (rank_out ra unpack rfn r = Ok (v, w)) as E'.
      { assert (nth_error (seq 0 P) r = Some r) as Hq. { assert (r < P)%nat by (rewrite <- L; apply nth_error_Some; congruence). rewrite (nth_error_nth' _ O) by (rewrite seq_length; assumption). now rewrite seq_nth by assumption. }
        exact (fall2_at _ _ _ E r r (v, w) Hq Hr). }
      destruct (rank_ok ra unpack rfn r Hs) as (v' & w' & E2 & H). rewrite E2 in E'. injection E' as -> ->. exact H.
  Qed.

  (** asking for the file numbers of something else: KeyError *)
  Theorem read_nr_missing ra rn n : datasets = One n -> ~ In n rn ->
    ApiModel.read junk itemsize native buffer fs P fnames idx datasets group (Some rn) ra false = Err EKey.
  Proof using All.
    intros Ed Hn. rewrite read_eq. destruct P as [|p] eqn:EP; [lia|]. cbn [seq mapM].
    assert (rank_out ra false (Some rn) 0 = Err EKey) as ->; [|reflexivity].
    unfold rank_out. unfold per at 1. rewrite map_map. cbn [fst snd].
    destruct (pack_gives datasets false (fun n => fst (nth 0 (got ra n) (None, None))) (keys (name_list datasets)) (keys_in _) (keys_nodup _)) as (v & -> & Hv). cbn [bind].
    fold (nr_dict ra rn 0). assert (pack datasets false (nr_dict ra rn 0) = Err EKey) as ->; [|reflexivity]. rewrite Ed at 1. cbn [pack]. rewrite look_none; [reflexivity|].
    intro H. apply in_map_iff in H. destruct H as ([k x] & <- & H). cbn [fst] in *. assert (In k (name_list datasets)) as Hk by (rewrite Ed; now left). apply (nr_dict_in ra rn 0 k x Hk) in H. apply Hn. apply H.
  Qed.
End Read.
