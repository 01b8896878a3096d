(** Writing through the interface of MultiFile. *)
From Coq Require Import Ascii String Sorted.
From Verif.Base Require Import Prelude ListLemmas.
From Verif.Psort Require Import MoveSpec MoveProofs.
From Verif.Mpi Require Import UtilModel UtilProofs.
From Verif.Index Require Import IndexModel.
From Verif.Phdf5 Require Import AssignModel CollModel CollProofs MultiModel MultiSpec MultiProofs ApiModel ApiSpec ApiProofs ApiFinal.
From Coq Require Import ZifyBool ZifyNat.
Local Open Scope Z_scope.
Local Open Scope list_scope.

(** *** the counts depend on the number of rows in each file only *)
Lemma num_zero n : num_on_task n 0 = repeat 0 n.
Proof.
  unfold num_on_task. rewrite Zdiv_0_l, Zmod_0_l. transitivity (spmd n (fun _ => 0)); [apply spmd_ext; intros r Hr; destruct (Z.ltb_spec (Z.of_nat r) 0); lia|].
  unfold spmd. rewrite <- (seq_length n 0) at 2. generalize (seq 0 n) as l. induction l as [|x l IH]; [reflexivity|]. cbn [map length repeat]. now rewrite IH.
Qed.
Lemma sumZ_repeat0 n : sumZ (repeat 0 n) = 0.
Proof. induction n as [|n IH]; [reflexivity|]. cbn [repeat sumZ]. rewrite IH. reflexivity. Qed.
Lemma epf_same {A} P (f1 f2 : list (option (dset A))) idx : length f1 = length f2 -> (forall f, rows_in f1 f = rows_in f2 f) ->
  MultiModel.get_elements_per_file P f1 idx = MultiModel.get_elements_per_file P f2 idx.
Proof.
  intros Hl Hr. unfold MultiModel.get_elements_per_file. rewrite Hl. destruct (setup P (length f2)) as [[first num|first num]|e]; cbn [bind]; [| |reflexivity].
  - f_equal. apply spmd_ext. intros r _. apply map_ext. intro f. now rewrite Hr.
  - assert (forall l (g h : nat -> res (list (Z * Z))), (forall r, g r = h r) -> mapM g l = mapM h l) as Hm.
    { intros l g h H. induction l as [|x l IH]; [reflexivity|]. cbn [mapM]. now rewrite H, IH. }
    apply Hm. intro r. destruct (find_file (Z.of_nat r) 0 (combine first num)) as [[[f k] n]|e]; cbn [bind]; [|reflexivity].
    specialize (Hr f). unfold rows_in in Hr. destruct (nth f f1 None) as [d1|], (nth f f2 None) as [d2|].
    + now rewrite Hr.
    + rewrite Hr, num_zero, sumZ_repeat0. cbn [Z.eqb check bind]. now rewrite nth_repeat.
    + rewrite <- Hr, num_zero, sumZ_repeat0. cbn [Z.eqb check bind]. now rewrite nth_repeat.
    + reflexivity.
Qed.

Lemma mapM_exists {X Y} (g : X -> res Y) l : (forall x, In x l -> exists y, g x = Ok y) -> exists e, mapM g l = Ok e.
Proof.
  induction l as [|x l IH]; intro H; [now exists []|]. destruct (H x (or_introl eq_refl)) as (y & Ey). destruct IH as (e & Ee); [intros; apply H; now right|]. exists (y :: e). cbn [mapM]. rewrite Ey. cbn [bind]. now rewrite Ee.
Qed.

(** *** one file *)
Section File.
  Context {A V : Type}.
  Notation file := (h5file A V).
  Lemma path_eqb_eq p q : path_eqb p q = true <-> p = q.
  Proof. unfold path_eqb. destruct (list_eq_dec string_dec p q); split; congruence. Qed.
  Lemma put_same (f : file) p n : put f p n p = Some n.
  Proof. unfold put. now rewrite (proj2 (path_eqb_eq p p) eq_refl). Qed.
  Lemma put_other (f : file) p n q : q <> p -> put f p n q = f q.
  Proof. intro H. unfold put. destruct (path_eqb q p) eqn:E; [apply path_eqb_eq in E; contradiction | reflexivity]. Qed.

  Lemma require_ok rest : forall (f : file) at_path,
    (exists a, f at_path = Some (NGroup a)) ->
    (forall p r, rest = p ++ r -> f (at_path ++ p) = None \/ exists a, f (at_path ++ p) = Some (NGroup a)) ->
    exists f', require f at_path rest = Ok f' /\ (exists a, f' (at_path ++ rest) = Some (NGroup a)) /\
      forall p, f' p = f p \/ (f p = None /\ prefix p (at_path ++ rest) /\ f' p = Some (NGroup [])).
  Proof.
    induction rest as [|c rest IH]; intros f at_path Hg Hp.
    - exists f. split; [reflexivity|]. rewrite app_nil_r. split; [assumption|]. intro p. now left.
    - cbn [require]. replace (at_path ++ c :: rest) with ((at_path ++ [c]) ++ rest) by now rewrite <- app_assoc. destruct (Hp [c] rest eq_refl) as [E|(a & E)].
      + rewrite E. destruct (IH (put f (at_path ++ [c]) (NGroup [])) (at_path ++ [c])) as (f' & E1 & E2 & E3).
        * eexists. apply put_same.
        * intros p r Hr. destruct p as [|x p]; [right; rewrite app_nil_r; eexists; apply put_same|]. rewrite put_other.
          -- rewrite <- app_assoc. apply (Hp ([c] ++ x :: p) r). cbn [app]. f_equal. exact Hr.
          -- intro H. apply (f_equal (@List.length string)) in H. rewrite !app_length in H. cbn in H. lia.
        * exists f'. split; [assumption|]. split; [assumption|]. intro p. destruct (list_eq_dec string_dec p (at_path ++ [c])) as [->|Hn].
          -- right. split; [assumption|]. split; [now exists rest|]. destruct (E3 (at_path ++ [c])) as [H|(H & _)]; rewrite put_same in H; [assumption | discriminate].
          -- specialize (E3 p). rewrite put_other in E3 by assumption. exact E3.
      + rewrite E. destruct (IH f (at_path ++ [c])) as (f' & E1 & E2 & E3).
        * now exists a.
        * intros p r Hr. rewrite <- app_assoc. apply (Hp ([c] ++ p) r). cbn [app]. f_equal. exact Hr.
        * exists f'. split; [assumption|]. split; assumption.
  Qed.

  Lemma create_all (ds : list (string * (dset A * attrs V))) gp : forall f : file,
    (exists a, f gp = Some (NGroup a)) -> NoDup (map fst ds) -> Forall component (map fst ds) -> (forall n, In n (map fst ds) -> f (gp ++ [n]) = None) ->
    exists f', foldM (fun f nl => create f gp (fst nl) (fst (snd nl)) (snd (snd nl))) ds f = Ok f' /\
      (forall n d a, In (n, (d, a)) ds -> f' (gp ++ [n]) = Some (NData d a)) /\
      (forall p, (forall n, In n (map fst ds) -> p <> gp ++ [n]) -> f' p = f p).
  Proof.
    induction ds as [|[n [d a]] ds IH]; intros f Hg Hn Hc Hf; [exists f; split; [reflexivity|]; split; [intros n d a [] | reflexivity]|].
    cbn [map fst] in *. apply NoDup_cons_iff in Hn. destruct Hn as [Hn1 Hn2]. apply Forall_cons_iff in Hc. destruct Hc as [Hc1 Hc2]. cbn [foldM fst snd]. unfold create at 1. rewrite resolve_name by assumption.
    rewrite (Hf n (or_introl eq_refl)), removelast_last. destruct Hg as (ga & Eg). rewrite Eg. cbn [bind].
    assert (forall m, gp ++ [m] <> gp) as Hgm. { intros m H. apply (f_equal (@List.length string)) in H. rewrite app_length in H. cbn in H. lia. }
    assert (forall m k : string, gp ++ [m] = gp ++ [k] -> m = k) as Hinj. { intros m k H. apply app_inv_head in H. congruence. }
    destruct (IH (put f (gp ++ [n]) (NData d a))) as (f' & E1 & E2 & E3).
    - exists ga. rewrite put_other; [assumption|]. intro H. now apply (Hgm n).
    - assumption.
    - assumption.
    - intros m Hm. rewrite put_other; [apply Hf; now right|]. intro H. apply Hinj in H. subst m. contradiction.
    - exists f'. split; [exact E1|]. split.
      + intros m d' a' [H|H]; [|now apply E2]. injection H as <- <- <-. rewrite E3; [apply put_same|]. intros k Hk H. apply Hinj in H. subst k. contradiction.
      + intros p Hp. rewrite E3; [apply put_other; apply Hp; now left|]. intros k Hk. apply Hp. now right.
  Qed.

  (** require_group and the datasets *)
  Lemma file_written (f : file) gp ds : Forall component gp -> NoDup (map fst ds) -> Forall component (map fst ds) -> room f gp (map fst ds) ->
    exists f', (do f <- require f [] gp; foldM (fun f nl => create f gp (fst nl) (fst (snd nl)) (snd (snd nl))) ds f) = Ok f' /\ written f f' gp ds.
  Proof.
    intros Hgp Hn Hc (Hroot & Hpre & Hfree). destruct (require_ok gp f []) as (f1 & E1 & G1 & O1).
    - assumption.
    - intros p r Hr. apply Hpre. now exists r.
    - rewrite E1. cbn [bind]. cbn [app] in *. assert (forall n, ~ prefix (gp ++ [n]) gp) as Hnp. { intros n (r & H). apply (f_equal (@List.length string)) in H. rewrite !app_length in H. cbn in H. lia. }
      destruct (create_all ds gp f1) as (f2 & E2 & D2 & O2).
      + assumption.
      + assumption.
      + assumption.
      + intros n Hi. destruct (O1 (gp ++ [n])) as [->|(_ & H & _)]; [now apply Hfree|]. now apply Hnp in H.
      + exists f2. split; [exact E2|]. split; [|split; [exact D2|]].
        * destruct G1 as (a & G1). exists a. rewrite O2; [assumption|]. intros n _ H. apply (f_equal (@List.length string)) in H. rewrite app_length in H. cbn in H. lia.
        * intros p Hp. rewrite O2 by assumption. apply O1.
  Qed.
End File.

(** *** all the files *)
Section Files.
  Context {A V : Type} (gp : list string) (m : mode) (dss : nat -> list (string * (dset A * attrs V))).
  Hypothesis Hgp : Forall component gp.
  Definition step (fs : store A V) (i_name : nat * string) : res (store A V) :=
    let (i, fname) := i_name in
    do f <- open_write fs fname m;
    do f <- require f [] gp;
    do f <- foldM (fun f nl => create f gp (fst nl) (fst (snd nl)) (snd (snd nl))) (dss i) f;
    Ok (fun n => if String.eqb n fname then Some f else fs n).
  Lemma all_written : forall l (fs : store A V), NoDup (map snd l) ->
    (forall i n, In (i, n) l -> NoDup (map fst (dss i)) /\ Forall component (map fst (dss i)) /\ exists f, base_file m (fs n) = Some f /\ room f gp (map fst (dss i))) ->
    exists fs', foldM step l fs = Ok fs' /\ (forall n, ~ In n (map snd l) -> fs' n = fs n) /\
      forall i n, In (i, n) l -> exists f f', base_file m (fs n) = Some f /\ fs' n = Some f' /\ written f f' gp (dss i).
  Proof using Hgp.
    induction l as [|[i n] l IH]; intros fs Hnd Hok; [exists fs; split; [reflexivity|]; split; [reflexivity | intros i n []]|].
    cbn [map snd] in Hnd. apply NoDup_cons_iff in Hnd. destruct Hnd as [Hn1 Hn2]. destruct (Hok i n (or_introl eq_refl)) as (H1 & H2 & f & Ef & Hroom).
    destruct (file_written f gp (dss i) Hgp H1 H2 Hroom) as (f' & E & Hw).
    assert (step fs (i, n) = Ok (fun k => if String.eqb k n then Some f' else fs k)) as Es.
    { unfold step. assert (open_write fs n m = Ok f) as ->. { unfold open_write, base_file in *. destruct m, (fs n); congruence. }
      cbn [bind]. destruct (require f [] gp) as [g|]; cbn [bind] in *; [|discriminate]. rewrite E. reflexivity. }
    cbn [foldM]. rewrite Es. cbn [bind].
    destruct (IH (fun k => if String.eqb k n then Some f' else fs k)) as (fs' & E' & Ho & Hi).
    - assumption.
    - intros j k Hjk. destruct (Hok j k (or_intror Hjk)) as (K1 & K2 & g & Eg & K3). split; [assumption|]. split; [assumption|]. exists g. split; [|assumption].
      destruct (String.eqb_spec k n) as [->|_]; [|assumption]. exfalso. apply Hn1. apply in_map_iff. now exists (j, n).
    - exists fs'. split; [exact E'|]. split.
      + intros k Hk. cbn [map snd] in Hk. rewrite Ho by (intro H; apply Hk; now right). destruct (String.eqb_spec k n) as [->|_]; [exfalso; apply Hk; now left | reflexivity].
      + intros j k [Hjk|Hjk].
        * injection Hjk as <- <-. exists f, f'. split; [assumption|]. split; [|assumption]. rewrite Ho by assumption. now rewrite String.eqb_refl.
        * destruct (Hi j k Hjk) as (g & g' & G1 & G2 & G3). exists g, g'. split; [|now split]. destruct (String.eqb_spec k n) as [->|_]; [|assumption]. exfalso. apply Hn1. apply in_map_iff. now exists (j, n).
  Qed.
End Files.

(** *** read, then write *)
Section Whole.
  Context {A V : Type} (junk : A) (itemsize native : Z -> Z) (buffer : Z) (substitute_file_nr : string -> Z -> res string).
  Context (fuel : nat) (fs : store A V) (P : nat) (fnames : list string) (files : list (h5file A V)) (idx : list Z) (gp : list string) (group : option string).
  Hypothesis HP : (0 < P)%nat.
  Hypothesis HF : fnames <> [].
  Hypothesis Hidx : length idx = length fnames.
  Hypothesis Hnd : NoDup idx.
  Hypothesis Hopen : Forall2 (fun n f => fs n = Some f) fnames files.
  Hypothesis Hgroup : group_at gp group.
  Context (l : list string) (cont : string -> content (A := A) (V := V)) (dt : string -> Z) (dims : string -> list Z).
  Hypothesis Hall : forall n, In n l -> component n /\ holds files gp n (cont n) /\ fits itemsize buffer P fnames (dt n) (dims n) (cont n) /\
    ((length fnames < P)%nat -> 1 <= itemsize (native (dt n)) * prodZ (dims n) <= buffer) /\
    (exists o, In (Some o) (cont n)) /\ (length (all_rows (dsets (cont n))) <= fuel)%nat.
  (** the name the counts are taken from: as many rows in each file as each of the names *)
  Context (n0 : string) (c0 : content (A := A) (V := V)).
  Hypothesis Hn0 : component n0.
  Hypothesis Hc0 : holds files gp n0 c0.
  Hypothesis Hcount : forall n, In n l -> map (fun o => length (rows_of o)) (dsets (cont n)) = map (fun o => length (rows_of o)) (dsets c0).
  (** where to write *)
  Context (fn : filenames) (onames : list string) (m : mode) (gp' : list string) (group' : option string) (at_ : option (list (string * attrs V))) (wanted : string -> attrs V).
  Hypothesis Hnames : match fn with Format s => Forall2 (fun i n => substitute_file_nr s i = Ok n) idx onames | Names o => o = onames /\ length onames = length idx end.
  Hypothesis Hon : NoDup onames.
  Hypothesis Hl : NoDup l.
  Hypothesis Hgroup' : group_at gp' group'.
  Hypothesis Hat : forall n, In n l -> attrs_given at_ n (wanted n).
  Hypothesis Hroom : forall n, In n onames -> exists f, base_file m (fs n) = Some f /\ room f gp' l.

  Lemma rows_in_same n f : In n l -> rows_in (dsets (cont n)) f = rows_in (dsets c0) f.
  Proof using Hcount.
    intro Hn. specialize (Hcount n Hn). assert (forall c : list (option (dset A)), rows_in c f = Z.of_nat (nth f (map (fun o => length (rows_of o)) c) O)) as H.
    { intro c. unfold rows_in. change O with ((fun o : option (dset A) => length (rows_of o)) None). rewrite map_nth. destruct (nth f c None); reflexivity. }
    now rewrite !H, Hcount.
  Qed.

  (** the dataset that should be in output file [i] *)
  Definition out_dset (n : string) (i : nat) : dset A := {| d_dtype := native (dt n); d_dims := dims n; d_rows := rows_of (nth i (dsets (cont n)) None) |}.

  Theorem write_whole ra :
    exists out epf fs',
      ApiModel.read junk itemsize native buffer fs P fnames idx (Many l) group None ra false = Ok out /\
      ApiModel.get_elements_per_file fs P fnames idx n0 group = Ok epf /\
      ApiModel.write junk itemsize buffer substitute_file_nr fuel fs P idx (map (fun n => (n, picked out n)) l) epf fn m group' at_ = Ok fs' /\
      (forall n, ~ In n onames -> fs' n = fs n) /\
      forall i o, nth_error onames i = Some o -> exists f f', base_file m (fs o) = Some f /\ fs' o = Some f' /\
        written f f' gp' (map (fun n => (n, (out_dset n i, wanted n))) l).
  Proof using All.
    assert (forall n, In n (name_list (Many l)) -> component n /\ holds files gp n (cont n) /\ fits itemsize buffer P fnames (dt n) (dims n) (cont n)) as Hall'.
    { intros n Hn. destruct (Hall n Hn) as (H1 & H2 & H3 & _). now split. }
    (* reading *)
    pose proof (read_whole junk itemsize native buffer fs P fnames files idx gp group HP HF Hidx Hopen Hgroup (Many l) cont dt dims Hall' ra false None I) as Hr.
    set (g := got junk itemsize native buffer P files idx group ra).
    assert (ApiModel.read junk itemsize native buffer fs P fnames idx (Many l) group None ra false =
            Ok (map (fun r => (VDict (map (fun n => (n, fst (nth r (g n) (None, None)))) (keys l)), None)) (seq 0 P))) as Eread.
    { rewrite (read_eq junk itemsize native buffer fs P fnames files idx gp group HP HF Hidx Hopen Hgroup (Many l) cont dt dims Hall' ra false None).
      apply mapM_map_ok. intros r _. unfold rank_out. cbn [pack bind]. do 3 f_equal. unfold per. rewrite map_map. reflexivity. }
    set (out := map _ (seq 0 P)) in Eread. exists out.
    assert (forall n, In n l -> length (g n) = P) as Hlen.
    { intros n Hn. destruct (Hall n Hn) as (H1 & H2 & H3 & _). destruct (one_read_ok junk itemsize native buffer fs P fnames files idx gp group HP HF Hidx Hopen Hgroup ra n (cont n) (dt n) (dims n) H1 H2 H3) as (_ & (Hd & _) & _). exact Hd. }
    assert (forall n, In n l -> picked out n = map (fun x => option_map a_data (fst x)) (g n)) as Hpick.
    { intros n Hn. unfold picked, out. rewrite map_map. cbn [fst].
      assert (find (fun kx => String.eqb (fst kx) n) (map (fun k => (k, fst (nth 0 (g k) (None, None)))) (keys l)) = find (fun kx => String.eqb (fst kx) n) (map (fun k => (k, fst (nth 0 (g k) (None, None)))) (keys l))) as _ by reflexivity.
      assert (forall (h : string -> option (array A V)) ks, In n ks -> find (fun kx => String.eqb (fst kx) n) (map (fun k => (k, h k)) ks) = Some (n, h n)) as Hfind.
      { intros h ks. clear. induction ks as [|k ks IH]; intros Hi; [destruct Hi|]. cbn [map find fst]. destruct (String.eqb_spec k n) as [->|Hk]; [reflexivity|]. apply IH. destruct Hi; [contradiction | assumption]. }
      rewrite <- (map_ext_in (fun r => option_map a_data (fst (nth r (g n) (None, None))))).
      - rewrite <- (Hlen n Hn). clear. generalize (g n) as xs. intro xs. induction xs as [|x xs IH]; [reflexivity|]. cbn [length seq map nth]. f_equal. rewrite <- seq_shift, map_map. exact IH.
      - intros r _. rewrite (Hfind (fun k => fst (nth r (g k) (None, None)))) by now apply (proj2 (keys_in l n)). destruct (fst (nth r (g n) (None, None))); reflexivity. }
    (* counting and writing one name *)
    assert (length c0 = length fnames) as Lc0 by (pose proof (Forall2_len _ _ _ Hc0); pose proof (Forall2_len _ _ _ Hopen); congruence).
    assert (forall n, In n l -> length (dsets (cont n)) = length fnames) as Lc. { intros n Hn. destruct (Hall n Hn) as (_ & H2 & _). unfold dsets. rewrite map_length. pose proof (Forall2_len _ _ _ H2). pose proof (Forall2_len _ _ _ Hopen). congruence. }
    assert (forall n, In n l -> exists epf, MultiModel.get_elements_per_file P (dsets c0) idx = Ok epf /\
              MultiModel.write junk itemsize buffer fuel P idx (picked out n) epf = Ok (map (fun o => {| d_dtype := native (dt n); d_dims := dims n; d_rows := rows_of o |}) (dsets (cont n)))) as Hone.
    { intros n Hn. destruct (Hall n Hn) as (H1 & H2 & H3 & H4 & (o & Ho) & H6). pose proof (Lc n Hn) as Ln. destruct H3 as [Hu Hb].
      assert (dsets (cont n) <> []) as Hne by (intro E; rewrite E in Ln; destruct fnames; [congruence | discriminate]).
      destruct (round_trip junk itemsize native buffer fuel P (dsets (cont n)) idx (dt n) (dims n) HP Hne ltac:(congruence) Hu ltac:(now rewrite Ln) ltac:(now rewrite Ln) Hnd H6) as (out' & epf & E1 & E2 & E3).
      - exists (fst o). unfold dsets. apply in_map_iff. exists (Some o). now split.
      - exists epf. split; [rewrite <- E2; symmetry; apply epf_same; [rewrite Ln; unfold dsets; now rewrite map_length | intro f; now apply rows_in_same]|].
        destruct (one_read_ok junk itemsize native buffer fs P fnames files idx gp group HP HF Hidx Hopen Hgroup ra n (cont n) (dt n) (dims n) H1 H2 (conj Hu Hb)) as (_ & _ & out2 & E4 & E5). fold g in E5.
        rewrite E1 in E4. injection E4 as <-. rewrite (Hpick n Hn), E5. exact E3. }
    assert (exists epf, MultiModel.get_elements_per_file P (dsets c0) idx = Ok epf) as (epf & Eepf).
    { assert (dsets c0 <> []) as Hne. { intro E. unfold dsets in E. apply map_eq_nil in E. rewrite E in Lc0. destruct fnames; [congruence | discriminate]. }
      assert (length (dsets c0) = length fnames) as Lc0' by (unfold dsets; now rewrite map_length).
      unfold MultiModel.get_elements_per_file.
      assert (exists num, Forall (fun n => 0 <= n) num /\ ((setup P (length (dsets c0)) = Ok (Independent (excl_cumsum num) num)) \/
         (setup P (length (dsets c0)) = Ok (Collective (excl_cumsum num) num) /\ length num = length (dsets c0) /\ sumZ num = Z.of_nat P /\ Forall (fun n => 1 <= n) num))) as (num & N0 & [->|(-> & N1 & N2 & N3)]).
      { set (d0 := repeat (None : option (dset Z)) (length (dsets c0))).
        assert (length d0 = length (dsets c0)) as Ld by apply repeat_length.
        destruct (setup_ok 0 (fun _ => 1) (fun x => x) 1 P d0 idx 0 [] HP ltac:(unfold d0; destruct (dsets c0); [congruence | discriminate]) ltac:(congruence)) as (num & N0 & N).
        - intros d Hd. apply repeat_spec in Hd. discriminate.
        - intros _. cbn. lia.
        - exists num. split; [assumption|]. rewrite Ld in N. destruct N as [(_ & E & _)|(_ & E & N1 & N2 & N3)]; [now left | right; now repeat split]. }
      - cbn [bind]. eexists. reflexivity.
      - cbn [bind]. apply mapM_exists. intros r Hrs. apply in_seq in Hrs.
        assert (exists f k, (f < length num)%nat /\ Z.of_nat k < nth f num 0 /\ r = (Z.to_nat (goff num f) + k)%nat) as (f & k & Hf & Hk & ->).
        { pose proof (seq_groups num (length num) N0 (le_n _)) as Hg. rewrite goff_all, N2, Nat2Z.id in Hg by lia. assert (In r (seq 0 P)) as Hi by (apply in_seq; lia). rewrite <- Hg in Hi. apply in_concat in Hi.
          destruct Hi as (q & Hq & Hi). apply In_spmd in Hq. destruct Hq as (f & Hf & ->). apply in_seq in Hi. exists f, (r - Z.to_nat (goff num f))%nat. split; [assumption|]. lia. }
        rewrite find_file_ok by assumption. cbn [bind]. destruct (nth f (dsets c0) None) as [d|]; [|eexists; reflexivity].
        rewrite num_sum by (try (pose proof (zlen_nonneg (d_rows d)); lia); lia). rewrite Z.eqb_refl. cbn [check bind]. eexists. reflexivity. }
    exists epf.
    assert (forall n, In n l -> MultiModel.write junk itemsize buffer fuel P idx (picked out n) epf = Ok (map (fun o => {| d_dtype := native (dt n); d_dims := dims n; d_rows := rows_of o |}) (dsets (cont n)))) as Hw.
    { intros n Hn. destruct (Hone n Hn) as (e & E1 & E2). rewrite Eepf in E1. injection E1 as <-. exact E2. }
    set (outd := fun n => map (fun o => {| d_dtype := native (dt n); d_dims := dims n; d_rows := rows_of o |}) (dsets (cont n))).
    set (dss := fun i => map (fun n => (n, (out_dset n i, wanted n))) l).
    assert (forall i, map fst (dss i) = l) as Hdss. { intro i. unfold dss. rewrite map_map. cbn [fst]. apply map_id. }
    assert (length onames = length idx) as Lo. { clear -Hnames. destruct fn as [s|o]; [symmetry; exact (Forall2_len _ _ _ Hnames) | apply Hnames]. }
    set (il := combine (seq 0 (length onames)) onames).
    assert (map snd il = onames) as Hil. { unfold il. assert (forall (xs : list nat) (ys : list string), length xs = length ys -> map snd (combine xs ys) = ys) as H; [|apply H; apply seq_length]. clear. induction xs as [|x xs IH]; intros [|y ys] H; try discriminate; [reflexivity|]. cbn [combine map snd]. rewrite IH by (cbn in H; lia). reflexivity. }
    destruct (all_written gp' m dss (proj1 Hgroup') il fs) as (fs' & E & Ho & Hi).
    - now rewrite Hil.
    - intros i n Hin. rewrite Hdss. split; [assumption|]. split; [apply Forall_forall; intros k Hk; apply (Hall k Hk)|]. apply Hroom. rewrite <- Hil. apply in_map_iff. now exists (i, n).
    - exists fs'. split; [exact Eread|]. split; [|split; [|split]].
      + unfold ApiModel.get_elements_per_file. rewrite (files_open fs fnames files Hopen). cbn [bind]. rewrite (view_ok files gp group Hgroup n0 c0 Hn0 Hc0). cbn [bind]. exact Eepf.
      + unfold ApiModel.write.
        assert (match fn with Format s => mapM (substitute_file_nr s) idx | Names l0 => do _ <- check (length l0 =? length idx)%nat EValue; Ok l0 end = Ok onames) as ->.
        { clear -Hnames. destruct fn as [s|o]; [now apply mapM_ok|]. destruct Hnames as [-> ->]. now rewrite Nat.eqb_refl. }
        cbn [bind].
        assert (mapM (fun nd => do l <- MultiModel.write junk itemsize buffer fuel P idx (snd nd) epf; Ok (fst nd, l)) (map (fun n => (n, picked out n)) l) = Ok (map (fun n => (n, outd n)) l)) as ->.
        { clear -Hw. assert (forall k, (forall n, In n k -> In n l) -> mapM (fun nd => do l <- MultiModel.write junk itemsize buffer fuel P idx (snd nd) epf; Ok (fst nd, l)) (map (fun n => (n, picked out n)) k) = Ok (map (fun n => (n, outd n)) k)) as H; [|apply H; auto].
          induction k as [|n k IH]; intro Hk; [reflexivity|]. cbn [map mapM fst snd]. rewrite Hw by (apply Hk; now left). cbn [bind]. rewrite IH by (intros; apply Hk; now right). reflexivity. }
        cbn [bind]. fold il. rewrite <- E. clear E Hi Ho.
        assert (forall ks fs0, (forall i n, In (i, n) ks -> (i < length fnames)%nat) ->
          foldM (fun (fs : store A V) (i_name : nat * string) =>
            let (i, fname) := i_name in
            do f <- open_write fs fname m;
            let loc := match group' with None => [] | Some g => resolve [] g end in
            do f <- require f [] loc;
            do f <- foldM (fun f nl => match nth_error (snd nl) i with Some d => create f loc (fst nl) d (attrs_for at_ (fst nl)) | None => Err EMpi end) (map (fun n => (n, outd n)) l) f;
            Ok (fun n => if String.eqb n fname then Some f else fs n)) ks fs0 = foldM (step gp' m dss) ks fs0) as Hfold.
        { rewrite (resolve_group gp' group' Hgroup'). induction ks as [|[i n] ks IH]; intros fs0 Hks; [reflexivity|]. cbn [foldM].
          assert (forall f : h5file A V, foldM (fun f nl => match nth_error (snd nl) i with Some d => create f gp' (fst nl) d (attrs_for at_ (fst nl)) | None => Err EMpi end) (map (fun n => (n, outd n)) l) f =
                  foldM (fun f nl => create f gp' (fst nl) (fst (snd nl)) (snd (snd nl))) (dss i) f) as Hf.
          { assert (i < length fnames)%nat as Hlt by (apply (Hks i n); now left). unfold dss. clear -Hlt Hat Lc. assert (forall k, (forall n, In n k -> In n l) -> forall f : h5file A V, foldM (fun f nl => match nth_error (snd nl) i with Some d => create f gp' (fst nl) d (attrs_for at_ (fst nl)) | None => Err EMpi end) (map (fun n => (n, outd n)) k) f =
                  foldM (fun f nl => create f gp' (fst nl) (fst (snd nl)) (snd (snd nl))) (map (fun n => (n, (out_dset n i, wanted n))) k) f) as H; [|intro f; apply H; auto].
            induction k as [|q k IH]; intros Hk f; [reflexivity|]. cbn [map foldM fst snd].
            assert (nth_error (outd q) i = Some (out_dset q i)) as ->.
            { unfold outd. rewrite nth_error_map. rewrite (nth_error_nth' _ None) by (rewrite Lc; [assumption | apply Hk; now left]). reflexivity. }
            assert (attrs_for at_ q = wanted q) as ->.
            { specialize (Hat q (Hk q (or_introl eq_refl))). unfold attrs_given, attrs_for in *. destruct at_ as [d|]; [|now symmetry]. destruct Hat as (H1 & [H2|(H2 & H3)]).
              - now rewrite (look_nth d q (wanted q) H1 H2).
              - rewrite (look_none d q H2). now symmetry. }
            destruct (create f gp' q (out_dset q i) (wanted q)) as [f'|e]; cbn [bind]; [|reflexivity]. apply IH. intros; apply Hk; now right. }
          change (step gp' m dss fs0 (i, n)) with (do f <- open_write fs0 n m; do f <- require f [] gp';
            do f <- foldM (fun f nl => create f gp' (fst nl) (fst (snd nl)) (snd (snd nl))) (dss i) f; Ok (fun k => if String.eqb k n then Some f else fs0 k)).
          destruct (open_write fs0 n m) as [f|e]; cbn [bind]; [|reflexivity]. destruct (require f [] gp') as [f1|e]; cbn [bind]; [|reflexivity]. rewrite <- Hf.
          destruct (foldM _ (map (fun n1 => (n1, outd n1)) l) f1) as [f2|e]; cbn [bind]; [|reflexivity]. apply IH. intros j k Hjk. apply (Hks j k). now right. }
        apply Hfold. intros i n Hin. unfold il in Hin. apply in_combine_l in Hin. apply in_seq in Hin. lia.
      + intros n Hn. apply Ho. now rewrite Hil.
      + intros i o Hio. destruct (Hi i o) as (f & f' & H1 & H2 & H3).
        * unfold il. clear -Hio. assert (forall a k, nth_error onames k = Some o -> In ((a + k)%nat, o) (combine (seq a (length onames)) onames)) as H; [|now apply (H O)].
          clear Hio. induction onames as [|x xs IH]; intros a k E; [destruct k; discriminate|]. cbn [length seq combine]. destruct k as [|k]; [injection E as ->; left; f_equal; lia|]. right. replace (a + S k)%nat with (S a + k)%nat by lia. now apply IH.
        * exists f, f'. split; [assumption|]. split; assumption.
  Qed.
End Whole.
