(** Proofs about names and the objects they lead to. *)
From Coq Require Import Ascii String.
From Verif Require Import Base.Prelude Base.ListLemmas Text.StrModel H5w.H5wModel H5w.H5wSpec H5w.H5wTable.
From Coq Require Import ZifyBool ZifyNat.
Local Open Scope Z_scope.
Local Open Scope list_scope.

Lemma pieces_from_app c : forall acc s, ~ In slash c -> pieces_from acc (c ++ s) = pieces_from (rev c ++ acc) s.
Proof.
  induction c as [|x c IH]; intros acc s N; [reflexivity|]. cbn [app pieces_from]. destruct (Ascii.eqb_spec x slash) as [->|_]; [exfalso; apply N; now left|].
  rewrite IH by (intro H; apply N; now right). cbn [rev]. now rewrite <- app_assoc.
Qed.
Lemma pieces_spell p : p <> [] -> Forall good_part p -> pieces (spell p) = p.
Proof.
  intros N G. unfold pieces. induction G as [|c p Gc G IH]; [contradiction|]. destruct p as [|c' p].
  - cbn [spell]. rewrite <- (app_nil_r c) at 1. rewrite pieces_from_app by apply Gc. cbn. now rewrite app_nil_r, rev_involutive.
  - change (spell (c :: c' :: p)) with (c ++ slash :: spell (c' :: p)). rewrite pieces_from_app by apply Gc. cbn [pieces_from]. rewrite Ascii.eqb_refl.
    rewrite app_nil_r, rev_involutive. rewrite IH by discriminate. reflexivity.
Qed.
Definition part_ok (c : str) : bool := negb (match c with [] => true | _ => str_eqb c (lit ".") end).
Lemma good_part_ok c : good_part c -> part_ok c = true.
Proof. intros (N & _ & D & _). destruct c; [contradiction|]. unfold part_ok. apply str_eqb_neq in D. now rewrite D. Qed.
Lemma filter_good p : Forall good_part p -> filter part_ok p = p.
Proof. induction 1 as [|c p G _ IH]; [reflexivity|]. cbn. rewrite good_part_ok, IH by exact G. reflexivity. Qed.
Lemma steps_spell p : p <> [] -> Forall good_part p -> steps (spell p) = p.
Proof. intros N G. unfold steps. rewrite pieces_spell by auto. exact (filter_good p G). Qed.
Lemma steps_slash s : steps (slash :: s) = steps s.
Proof. unfold steps, pieces. cbn [pieces_from]. rewrite Ascii.eqb_refl. reflexivity. Qed.

Lemma skip_blanks_id s : hd "x"%char s <> " "%char -> skip_blanks s = s.
Proof. destruct s as [|c s]; [reflexivity|]. cbn. intro H. destruct (Ascii.eqb_spec c " "%char); [contradiction|reflexivity]. Qed.
Lemma hd_rev (s : str) : hd "x"%char (rev s) = last s "x"%char.
Proof.
  induction s as [|c s IH]; [reflexivity|]. cbn [rev]. destruct s as [|c' s]; [reflexivity|]. change (last (c :: c' :: s) "x"%char) with (last (c' :: s) "x"%char). rewrite <- IH.
  cbn [rev]. destruct (rev s ++ [c']) eqn:E; [|reflexivity]. now apply app_eq_nil in E as [_ E].
Qed.
Lemma trim_id s : last s "x"%char <> " "%char -> trim s = s.
Proof. intro H. unfold trim. rewrite skip_blanks_id by now rewrite hd_rev. apply rev_involutive. Qed.
Lemma last_app (a b : str) : b <> [] -> last (a ++ b) "x"%char = last b "x"%char.
Proof.
  intro N. induction a as [|x a IH]; [reflexivity|]. cbn [app]. rewrite <- IH. destruct (a ++ b) eqn:E; [|reflexivity]. apply app_eq_nil in E as [_ E]. contradiction.
Qed.
Lemma spell_nonempty p : p <> [] -> Forall good_part p -> spell p <> [].
Proof. intros N G. destruct G as [|c p Gc G]; [contradiction|]. destruct p; cbn; [apply Gc|]. destruct c; discriminate. Qed.
Lemma spell_last p : p <> [] -> Forall good_part p -> last (spell p) "x"%char <> " "%char.
Proof.
  intros N G. induction G as [|c p Gc G IH]; [contradiction|]. destruct p as [|c' p]; [apply Gc|]. change (spell (c :: c' :: p)) with (c ++ slash :: spell (c' :: p)).
  rewrite last_app by discriminate. assert (c' :: p <> []) as N' by discriminate. pose proof (spell_nonempty _ N' G). specialize (IH N'). destruct (spell (c' :: p)); [contradiction|exact IH].
Qed.
Lemma spell_first p : Forall good_part p -> hd "x"%char (spell p) <> " "%char.
Proof.
  intro G. destruct G as [|c p Gc G]; [discriminate|]. destruct Gc as (A & _ & _ & B & _). destruct c as [|x c]; [contradiction|]. destruct p; exact B.
Qed.
(** the name without the blanks at its end *)
Lemma names_trim n p : names n p -> (trim n = spell p \/ trim n = slash :: spell p) /\ trim n <> [].
Proof.
  intros (N & G & k & [-> | ->]).
  - rewrite trim_app_blanks, trim_id by now apply spell_last. split; [now left|]. now apply spell_nonempty.
  - rewrite app_comm_cons, trim_app_blanks. assert (last (slash :: spell p) "x"%char <> " "%char) as L.
    { change (slash :: spell p) with ([slash] ++ spell p). rewrite last_app by now apply spell_nonempty. now apply spell_last. }
    rewrite trim_id by exact L. split; [now right|discriminate].
Qed.
Lemma names_steps n p : names n p -> steps (trim n) = p.
Proof.
  intro H. pose proof (names_trim n p H) as [[-> | ->] _]; destruct H as (N & G & _); rewrite ?steps_slash; now apply steps_spell.
Qed.
Lemma names_resolve h a n p : names n p -> resolve h a n = walk h a p.
Proof.
  intro H. unfold resolve. pose proof (names_steps n p H) as S. destruct (names_trim n p H) as [_ N]. destruct (trim n); [contradiction|]. now rewrite S.
Qed.
Lemma names_strip n p : names n p -> strip n = trim n.
Proof.
  intros (N & G & k & [-> | ->]); unfold strip; rewrite skip_blanks_id; auto.
  - pose proof (spell_first p G). pose proof (spell_nonempty p N G). destruct (spell p); [contradiction|exact H].
  - discriminate.
Qed.

(** ** Walking *)
Lemma links_of_some h a l : links_of h a = Some l <-> exists o, nth_error h a = Some o /\ o_node o = Group l.
Proof.
  unfold links_of. destruct (nth_error h a) as [o|]; [|split; [discriminate|intros (o & H & _); discriminate]]. destruct (o_node o) eqn:E.
  - split; [intros [= ->]; eauto|]. intros (o' & [= <-] & H). congruence.
  - split; [discriminate|]. intros (o' & [= <-] & H). congruence.
Qed.
Lemma dset_at_some h a d : dset_at h a = Some d <-> exists o, nth_error h a = Some o /\ o_node o = Dset d.
Proof.
  unfold dset_at. destruct (nth_error h a) as [o|]; [|split; [discriminate|intros (o & H & _); discriminate]]. destruct (o_node o) eqn:E.
  - split; [discriminate|]. intros (o' & [= <-] & H). congruence.
  - split; [intros [= ->]; eauto|]. intros (o' & [= <-] & H). congruence.
Qed.
Lemma assoc_In {A} c (l : list (str * A)) v : assoc c l = Some v -> In (c, v) l.
Proof.
  induction l as [|[k x] l IH]; [discriminate|]. cbn. destruct (str_eqb c k) eqn:E; [intros [= ->]; apply str_eqb_eq in E; subst; now left|]. intro H. right. auto.
Qed.
Lemma In_assoc {A} c (l : list (str * A)) v : NoDup (map fst l) -> In (c, v) l -> assoc c l = Some v.
Proof.
  induction l as [|[k x] l IH]; intros N I; [destruct I|]. cbn in *. apply NoDup_cons_iff in N as [N1 N2]. destruct I as [E|I].
  - injection E as -> ->. now rewrite str_eqb_refl.
  - destruct (str_eqb c k) eqn:E; [|auto]. apply str_eqb_eq in E. subst k. exfalso. apply N1. apply in_map_iff. exists (c, v). auto.
Qed.
Lemma assoc_none {A} c (l : list (str * A)) : assoc c l = None -> ~ In c (map fst l).
Proof.
  induction l as [|[k x] l IH]; [intros _ []|]. cbn. destruct (str_eqb c k) eqn:E; [discriminate|]. intros H [->|I]; [rewrite str_eqb_refl in E; discriminate|]. exact (IH H I).
Qed.
Lemma walk_leads h p : forall a z, walk h a p = Some z -> leads h a p z.
Proof.
  induction p as [|c p IH]; intros a z; cbn [walk]; [intros [= ->]; constructor|]. destruct (links_of h a) as [l|] eqn:L; [|discriminate]. destruct (assoc c l) as [b|] eqn:A; [|discriminate].
  intro W. apply links_of_some in L as (o & N & O). eapply leads_on; eauto. now apply assoc_In.
Qed.
Lemma leads_walk h p : sound h -> forall a z, leads h a p z -> walk h a p = Some z.
Proof.
  intros [_ S] a z L. induction L as [|a o l c b p z N O I L IH]; [reflexivity|]. cbn [walk]. unfold links_of. rewrite N, O.
  assert (NoDup (map fst l)) as ND. { rewrite Forall_forall in S. specialize (S o (nth_error_In _ _ N)). unfold sound_obj in S. rewrite O in S. apply S. }
  rewrite (In_assoc _ _ _ ND I). exact IH.
Qed.
Lemma walk_app h p q : forall a, walk h a (p ++ q) = match walk h a p with Some b => walk h b q | None => None end.
Proof.
  induction p as [|c p IH]; intro a; [reflexivity|]. cbn [app walk]. destruct (links_of h a) as [l|]; [|reflexivity]. destruct (assoc c l); [apply IH|reflexivity].
Qed.
Lemma dopen_at h n p d : sound h -> names n p -> dataset_at h p d -> exists a, dopen h n = Some a /\ dset_at h a = Some d.
Proof.
  intros S N (a & o & L & E & O). exists a. unfold dopen. rewrite (names_resolve _ _ _ _ N), (leads_walk _ _ S _ _ L). assert (dset_at h a = Some d) as -> by (apply dset_at_some; eauto). auto.
Qed.
Lemma dopen_leads h n p a : names n p -> dopen h n = Some a -> leads h 0 p a /\ exists d, dset_at h a = Some d /\ dataset_at h p d.
Proof.
  intros N. unfold dopen. rewrite (names_resolve _ _ _ _ N). destruct (walk h 0 p) as [b|] eqn:W; [|discriminate]. destruct (dset_at h b) as [d|] eqn:D; [|discriminate]. intros [= ->].
  apply walk_leads in W. split; [exact W|]. exists d. split; [exact D|]. apply dset_at_some in D as (o & E & O). exists a, o. auto.
Qed.
