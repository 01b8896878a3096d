(** Opening a set of files, and reading back what was written. *)
From Coq Require Import Ascii String Sorted.
From Verif.Base Require Import Prelude ListLemmas.
From Verif.Mpi Require Import UtilModel UtilProofs.
From Verif.Index Require Import IndexModel.
From Verif.Phdf5 Require Import AssignModel AssignProofs CollModel CollProofs MultiModel MultiSpec MultiProofs ApiModel ApiSpec ApiProofs ApiFinal ApiWrite.
From Coq Require Import ZifyBool ZifyNat.
Local Open Scope Z_scope.
Local Open Scope list_scope.

Lemma setup_fine P F : (0 < P)%nat -> (0 < F)%nat -> exists s, setup P F = Ok s.
Proof.
  intros HP HF. unfold setup. destruct (Nat.leb_spec P F).
  - destruct (assign_files_main (Z.of_nat F) (Z.of_nat P) ltac:(lia) ltac:(lia)) as (num & -> & _). cbn [bind]. eexists. reflexivity.
  - destruct (assign_files_main (Z.of_nat P) (Z.of_nat F) ltac:(lia) ltac:(lia)) as (num & -> & _). cbn [bind]. eexists. reflexivity.
Qed.

Section Init.
  Context {A V : Type} (int_of_data : dset A -> res Z) (int_of_attr : V -> res Z) (subst : string -> Z -> res string).
  Context (fs : store A V) (P : nat).
  Notation init := (ApiModel.init int_of_data int_of_attr subst fs P).
  Lemma init_list l at_ ds fi : (0 < P)%nat -> l <> [] -> init (Names l) at_ ds fi = Ok (l, zseq 0 (length l)).
  Proof. intros HP Hl. unfold ApiModel.init. cbn [bind]. destruct (setup_fine P (length l) HP) as (s & ->); [destruct l; [congruence | cbn; lia]|]. reflexivity. Qed.
  Lemma init_format s at_ ds idx l : (0 < P)%nat -> idx <> [] -> Forall2 (fun i n => subst s i = Ok n) idx l ->
    init (Format s) at_ ds (Some idx) = Ok (l, idx).
  Proof.
    intros HP Hi Hs. unfold ApiModel.init. cbn [bind]. rewrite (proj2 (mapM_ok (subst s) idx l) Hs). cbn [bind].
    destruct (setup_fine P (length l) HP) as (x & ->); [rewrite <- (Forall2_len _ _ _ Hs); destruct idx; [congruence | cbn; lia]|]. reflexivity.
  Qed.
  Lemma init_counted s at_ ds n l name0 f : (0 < P)%nat -> 0 < n -> subst s 0 = Ok name0 -> fs name0 = Some f ->
    match at_, ds with
    | Some (obj, a), _ => exists gp nd v ats, group_at gp (Some obj) /\ f gp = Some nd /\ (nd = NGroup ats \/ exists d, nd = NData d ats) /\
        NoDup (map fst ats) /\ In (a, v) ats /\ int_of_attr v = Ok n
    | None, Some name => exists gp d ats, group_at gp (Some name) /\ f gp = Some (NData d ats) /\ int_of_data d = Ok n
    | None, None => False
    end ->
    Forall2 (fun i x => subst s i = Ok x) (zseq 0 (Z.to_nat n)) l ->
    init (Format s) at_ ds None = Ok (l, zseq 0 (Z.to_nat n)).
  Proof.
    intros HP Hn E0 Ef H Hs.
    assert (init (Format s) at_ ds None = init (Format s) at_ ds (Some (zseq 0 (Z.to_nat n)))) as ->.
    { unfold ApiModel.init, open_read. rewrite E0. cbn [bind]. rewrite Ef. cbn [bind]. destruct at_ as [[obj a]|]; [|destruct ds as [name|]; [|contradiction]].
      - destruct H as (gp & nd & v & ats & Hg & E1 & E2 & Hnd & Hi & Hv). pose proof (resolve_group gp (Some obj) Hg) as Hr. cbv iota beta in Hr. rewrite Hr, E1.
        destruct E2 as [->|(d & ->)]; rewrite (look_nth ats a v Hnd Hi); cbn [bind]; rewrite Hv; reflexivity.
      - destruct H as (gp & d & ats & Hg & E1 & Hv). pose proof (resolve_group gp (Some name) Hg) as Hr. cbv iota beta in Hr. rewrite Hr, E1, Hv. reflexivity. }
    apply init_format; [assumption | | assumption]. assert (forall k a, length (zseq a k) = k) as L. { clear. induction k as [|k IH]; intro a; [reflexivity|]. cbn [zseq length]. now rewrite IH. }
    specialize (L (Z.to_nat n) 0).
    intro E. rewrite E in L. cbn in L. lia.
  Qed.
End Init.

Lemma find_in {X} (m : list (string * X)) n x : NoDup (map fst m) -> In (n, x) m -> find (fun kx => String.eqb (fst kx) n) m = Some (n, x).
Proof.
  induction m as [|[k y] m IH]; intros Hn Hi; [destruct Hi|]. cbn [map] in Hn. apply NoDup_cons_iff in Hn. destruct Hn as [Hn1 Hn2]. cbn [find fst]. destruct Hi as [Hi|Hi].
  - injection Hi as -> ->. now rewrite String.eqb_refl.
  - destruct (String.eqb_spec k n) as [->|Hk]; [|now apply IH]. exfalso. apply Hn1. apply in_map_iff. now exists (n, x).
Qed.
Section Back.
  Context {A V : Type} (junk : A) (itemsize native : Z -> Z) (buffer : Z).
  Context (fs : store A V) (P : nat) (fnames : list string) (files : list (h5file A V)) (idx : list Z) (gp : list string) (group : option string).
  Hypothesis HP : (0 < P)%nat.
  Hypothesis HF : fnames <> [].
  Hypothesis Hidx : length idx = length fnames.
  Hypothesis Hopen : Forall2 (fun n f => fs n = Some f) fnames files.
  Hypothesis Hgroup : group_at gp group.
  Context (l : list string) (cont : string -> content (A := A) (V := V)) (dt : string -> Z) (dims : string -> list Z).
  Hypothesis Hall : forall n, In n l -> component n /\ holds files gp n (cont n) /\ fits itemsize buffer P fnames (dt n) (dims n) (cont n) /\ exists o, In (Some o) (cont n).
  Theorem read_picked ra : exists out, ApiModel.read junk itemsize native buffer fs P fnames idx (Many l) group None ra false = Ok out /\ length out = P /\
    forall n, In n l ->
      concat (map rows_of (picked out n)) = all_rows (dsets (cont n)) /\
      (forall o, In o (picked out n) -> exists d, o = Some d /\ d_dtype d = native (dt n) /\ d_dims d = dims n) /\
      (ra = true -> forall a, In a (picked_attrs out n) -> exists d b, a = Some b /\ In (Some (d, b)) (cont n)).
  Proof using All.
    destruct (read_whole junk itemsize native buffer fs P fnames files idx gp group HP HF Hidx Hopen Hgroup (Many l) cont dt dims ltac:(intros n Hn; destruct (Hall n Hn) as (H1 & H2 & H3 & _); exact (conj H1 (conj H2 H3))) ra false None I) as (g & out & Hd & E & L & Hg).
    exists out. split; [assumption|]. split; [assumption|]. intros n Hn. destruct (Hall n Hn) as (_ & _ & _ & Hsome). destruct (Hd n Hn) as (Lg & _ & Hdist). destruct (Hdist Hsome) as (rows & tags & ats & Lr & Lt & La & Cr & _ & _ & Hnth & Hat). clear Hd Hdist.
    assert (forall r, (r < P)%nat -> match nth_error out r with Some vw => match fst vw with VDict m => find (fun kx => String.eqb (fst kx) n) m | _ => None end | None => None end =
      Some (n, Some {| a_data := {| d_dtype := native (dt n); d_dims := dims n; d_rows := nth r rows [] |}; a_attrs := nth r ats None |})) as Hp.
    { intros r Hr. destruct (nth_error out r) as [[v w]|] eqn:Er; [|apply nth_error_None in Er; lia]. destruct (Hg r v w Er) as (Hv & _). cbn [fst gives] in *. destruct v as [m| |]; [|destruct Hv; discriminate|destruct Hv].
      destruct Hv as (_ & Hnd & Hin). apply find_in; [assumption|]. apply Hin. split; [assumption|]. now rewrite Hnth. }
    assert (picked out n = map (fun r => Some {| d_dtype := native (dt n); d_dims := dims n; d_rows := nth r rows [] |}) (seq 0 P)) as Ep.
    { apply nth_error_ext. intro r. unfold picked. rewrite !nth_error_map. destruct (Nat.lt_ge_cases r P) as [Hr|Hr].
      - specialize (Hp r Hr). rewrite (nth_error_nth' (seq 0 P) O) by now rewrite seq_length. rewrite seq_nth by assumption. cbn [option_map]. destruct (nth_error out r) as [[v w]|]; [|discriminate]. cbn [option_map fst] in *. destruct v as [m| |]; try discriminate. now rewrite Hp.
      - rewrite (proj2 (nth_error_None out r)) by lia. rewrite (proj2 (nth_error_None (seq 0 P) r)) by (rewrite seq_length; lia). reflexivity. }
    split; [|split].
    - rewrite Ep, map_map. cbn [rows_of d_rows]. rewrite <- Cr. f_equal. rewrite <- Lr. clear. induction rows as [|x xs IH]; [reflexivity|]. cbn [length seq map nth]. f_equal. rewrite <- seq_shift, map_map. exact IH.
    - intros o Ho. rewrite Ep in Ho. apply in_map_iff in Ho. destruct Ho as (r & <- & _). eexists. repeat split; reflexivity.
    - intros -> a Ha. destruct Hat as (own & _ & Hown). unfold picked_attrs in Ha. apply in_map_iff in Ha. destruct Ha as ([v w] & <- & Hvw). apply In_nth_error in Hvw. destruct Hvw as (r & Er).
      assert (r < P)%nat as Hr by (rewrite <- L; apply nth_error_Some; congruence). specialize (Hp r Hr). rewrite Er in Hp. cbn [fst] in *. destruct v as [m| |]; try discriminate. rewrite Hp. cbn [a_attrs].
      destruct (Hown r Hr) as (b & Eb & Hb). rewrite Eb.
      assert (forall fl, first_with (cont n) fl b -> exists d, In (Some (d, b)) (cont n)) as Hfw.
      { intros fl (x & f & y & d & _ & Ef & _). exists d. rewrite <- Ef. apply nth_In. destruct (Nat.lt_ge_cases f (length (cont n))) as [H|H]; [assumption|]. rewrite nth_overflow in Ef by assumption. discriminate. }
      destruct Hb as [Hb|[_ Hb]]; destruct (Hfw _ Hb) as (d & Hd); exists d, b; now split.
  Qed.
End Back.

(** what was written, read with any number of ranks *)
Section ReadBack.
  Context {A V : Type} (junk : A) (itemsize native : Z -> Z) (buffer : Z).
  Context (fs : store A V) (P : nat) (onames : list string) (idx : list Z) (gp : list string) (group : option string) (l : list string).
  Context (ds : string -> nat -> dset A) (wanted : string -> attrs V) (dt : string -> Z) (dims : string -> list Z).
  Hypothesis HP : (0 < P)%nat.
  Hypothesis HF : onames <> [].
  Hypothesis Hidx : length idx = length onames.
  Hypothesis Hgroup : group_at gp group.
  Hypothesis Hl : forall n, In n l -> component n /\ (forall i, d_dtype (ds n i) = dt n /\ d_dims (ds n i) = dims n) /\
    ((length onames < P)%nat -> 1 <= itemsize (dt n) * prodZ (dims n) <= buffer).
  Hypothesis Hw : forall i o, nth_error onames i = Some o -> exists f f', fs o = Some f' /\ written f f' gp (map (fun n => (n, (ds n i, wanted n))) l).

  Lemma the_files : exists files, Forall2 (fun n f => fs n = Some f) onames files /\
    forall i f, nth_error files i = Some f -> exists f0, written f0 f gp (map (fun n => (n, (ds n i, wanted n))) l).
  Proof using Hw.
    assert (forall k os, (forall i o, nth_error os i = Some o -> exists f f', fs o = Some f' /\ written f f' gp (map (fun n => (n, (ds n (k + i)%nat, wanted n))) l)) ->
      exists files, Forall2 (fun n f => fs n = Some f) os files /\ forall i f, nth_error files i = Some f -> exists f0, written f0 f gp (map (fun n => (n, (ds n (k + i)%nat, wanted n))) l)) as H; [|exact (H O onames Hw)].
    clear. intros k os. revert k. induction os as [|o os IH]; intros k H; [exists []; split; [constructor | intros [|i] f E; discriminate]|].
    destruct (H O o eq_refl) as (f & f' & E1 & E2). destruct (IH (S k)) as (files & F1 & F2).
    - intros i o' E. destruct (H (S i) o' E) as (g & g' & G1 & G2). exists g, g'. split; [assumption|]. replace (S k + i)%nat with (k + S i)%nat by lia. exact G2.
    - exists (f' :: files). split; [now constructor|]. intros [|i] g E; cbn [nth_error] in E; [injection E as <-; now exists f|]. destruct (F2 i g E) as (g0 & G). exists g0. replace (k + S i)%nat with (S k + i)%nat by lia. exact G.
  Qed.

  Theorem read_back ra : exists out, ApiModel.read junk itemsize native buffer fs P onames idx (Many l) group None ra false = Ok out /\ length out = P /\
    forall n, In n l ->
      concat (map rows_of (picked out n)) = concat (map (fun i => d_rows (ds n i)) (seq 0 (length onames))) /\
      (forall o, In o (picked out n) -> exists d, o = Some d /\ d_dtype d = native (dt n) /\ d_dims d = dims n) /\
      (ra = true -> forall a, In a (picked_attrs out n) -> a = Some (wanted n)).
  Proof using All.
    destruct the_files as (files & F1 & F2). set (cont := fun n => map (fun i => Some (ds n i, wanted n)) (seq 0 (length onames))).
    pose proof (Forall2_len _ _ _ F1) as Lf.
    assert (forall n, dsets (cont n) = map (fun i => Some (ds n i)) (seq 0 (length onames))) as Ed. { intro n. unfold dsets, cont. rewrite map_map. reflexivity. }
    destruct (read_picked junk itemsize native buffer fs P onames files idx gp group HP HF Hidx F1 Hgroup l cont dt dims) with (ra := ra) as (out & E & L & Hn).
    - intros n Hn. destruct (Hl n Hn) as (H1 & H2 & H3). split; [assumption|]. split; [|split].
      + unfold holds, cont. rewrite Lf. assert (forall k fl, (forall i f, nth_error fl i = Some f -> exists f0, written f0 f gp (map (fun n => (n, (ds n (k + i)%nat, wanted n))) l)) ->
          Forall2 (fun f o => stored f gp n o) fl (map (fun i => Some (ds n i, wanted n)) (seq k (length fl)))) as H; [|exact (H O files F2)].
        clear -Hn. intros k fl. revert k. induction fl as [|f fl IH]; intros k H; [constructor|]. cbn [length seq map]. constructor.
        * destruct (H O f eq_refl) as (f0 & (Hg & Hd & _)). rewrite Nat.add_0_r in Hd. split; [assumption|]. apply Hd. apply in_map_iff. now exists n.
        * apply IH. intros i g Eg. destruct (H (S i) g Eg) as (g0 & G). exists g0. replace (S k + i)%nat with (k + S i)%nat by lia. exact G.
      + split; [|assumption]. intros d Hd. rewrite Ed in Hd. apply in_map_iff in Hd. destruct Hd as (i & Ei & _). injection Ei as <-. apply H2.
      + unfold cont. destruct onames as [|o os] eqn:Eo; [congruence|]. eexists. cbn [length seq map]. left. reflexivity.
    - exists out. split; [assumption|]. split; [assumption|]. intros n Hin. destruct (Hn n Hin) as (R & D & At). split; [|split; [assumption|]].
      + rewrite R, Ed. unfold all_rows. rewrite flat_map_concat_map, map_map. reflexivity.
      + intros Hra a Ha. destruct (At Hra a Ha) as (d & b & -> & Hb). unfold cont in Hb. apply in_map_iff in Hb. destruct Hb as (i & Ei & _). now injection Ei as _ ->.
  Qed.
End ReadBack.
