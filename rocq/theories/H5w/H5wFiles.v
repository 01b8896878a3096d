(** Proofs about the table of open files: what holds after any sequence of calls. *)
From Coq Require Import Ascii String.
From Verif Require Import Base.Prelude Base.ListLemmas Text.StrModel H5w.H5wModel H5w.H5wSpec H5w.H5wTable.
From Coq Require Import ZifyBool ZifyNat.
Local Open Scope Z_scope.
Local Open Scope list_scope.

Definition is_open (x : slot) : bool := 0 <=? s_id x.
Definition copen (l : list slot) : Z := zlen (filter is_open l).
Lemma copen_nil_closed l : copen l = 0 -> forall n x, nth_error l n = Some x -> s_id x < 0.
Proof.
  unfold copen. intros H n x E. assert (filter is_open l = []) as F. { destruct (filter is_open l); [reflexivity|]. unfold zlen in H. cbn in H. lia. }
  destruct (Z.ltb_spec (s_id x) 0) as [L|L]; [exact L|]. exfalso. assert (In x (filter is_open l)) as I.
  { apply filter_In. split; [eapply nth_error_In; exact E|]. unfold is_open. lia. }
  rewrite F in I. destruct I.
Qed.
Lemma copen_closed l : (forall n x, nth_error l n = Some x -> s_id x < 0) -> copen l = 0.
Proof.
  intro H. unfold copen. replace (filter is_open l) with (@nil slot); [reflexivity|]. symmetry.
  destruct (filter is_open l) as [|x r] eqn:E; [reflexivity|]. exfalso. assert (In x (filter is_open l)) as I by (rewrite E; now left).
  apply filter_In in I as [I O]. apply In_nth_error in I as [n N]. specialize (H n x N). unfold is_open in O. lia.
Qed.
Lemma copen_set_nth l : forall n x y, nth_error l n = Some x -> copen (set_nth l n y) = copen l - (if is_open x then 1 else 0) + (if is_open y then 1 else 0).
Proof.
  unfold copen. induction l as [|z l IH]; intros [|n] x y E; try discriminate.
  - injection E as ->. cbn [set_nth filter]. destruct (is_open x), (is_open y); rewrite ?zlen_cons; lia.
  - cbn in E. specialize (IH n x y E). cbn [set_nth filter]. destruct (is_open z); rewrite ?zlen_cons; lia.
Qed.

Record inv (t : list (call * result)) (s : wst) : Prop := {
  i_len : zlen (slots s) = nfilemax;
  i_next : 0 <= next s;
  i_range : forall h, ~ 1 <= h <= nfilemax -> current t h = None;
  i_opened : opened t = false -> need_init s = true;
  i_off : need_init s = true -> (forall h, current t h = None) /\ lib s = [] /\ nopen s = 0 /\ (opened t = true -> copen (slots s) = 0);
  i_on : need_init s = false ->
    (forall h x, 1 <= h <= nfilemax -> nth_error (slots s) (Z.to_nat (h - 1)) = Some x ->
       match current t h with
       | Some (f, ro) => 0 <= s_id x /\ s_ro x = ro /\ s_name x = fit 1000 f /\ zassoc (s_id x) (lib s) = Some (f, negb ro)
       | None => s_id x < 0
       end) /\
    (forall n k x y, nth_error (slots s) n = Some x -> nth_error (slots s) k = Some y -> 0 <= s_id x -> s_id x = s_id y -> n = k) /\
    (forall id e, In (id, e) (lib s) -> 0 <= id < next s /\ (exists n x, nth_error (slots s) n = Some x /\ s_id x = id)) /\
    nopen s = copen (slots s);
  i_nodup : NoDup (map fst (lib s));
  i_disk : forall id f rw, In (id, (f, rw)) (lib s) -> assoc f (disk s) <> None
}.

Lemma inv_fresh s : fresh s -> inv [] s.
Proof.
  intros (A & B & C & D & E & F). constructor; auto; intros; try congruence.
  - repeat split; auto. discriminate.
  - rewrite C. constructor.
  - rewrite C in H. destruct H.
Qed.
(** the state after the tables are set up *)
Record inv1 (t : list (call * result)) (s : wst) : Prop := {
  j_len : zlen (slots s) = nfilemax;
  j_next : 0 <= next s;
  j_range : forall h, ~ 1 <= h <= nfilemax -> current t h = None;
  j_cur : forall h x, 1 <= h <= nfilemax -> nth_error (slots s) (Z.to_nat (h - 1)) = Some x ->
       match current t h with
       | Some (f, ro) => 0 <= s_id x /\ s_ro x = ro /\ s_name x = fit 1000 f /\ zassoc (s_id x) (lib s) = Some (f, negb ro)
       | None => s_id x < 0
       end;
  j_inj : forall n k x y, nth_error (slots s) n = Some x -> nth_error (slots s) k = Some y -> 0 <= s_id x -> s_id x = s_id y -> n = k;
  j_lib : forall id e, In (id, e) (lib s) -> 0 <= id < next s /\ (exists n x, nth_error (slots s) n = Some x /\ s_id x = id);
  j_open : nopen s = copen (slots s);
  j_nodup : NoDup (map fst (lib s));
  j_disk : forall id f rw, In (id, (f, rw)) (lib s) -> assoc f (disk s) <> None;
  j_init : need_init s = false
}.
Lemma inv1_of t s : inv t s -> need_init s = false -> inv1 t s.
Proof. intros [A B C D E F ND G] N. destruct (F N) as (F1 & F2 & F3 & F4). constructor; auto. Qed.
Lemma inv_of1 t s : inv1 t s -> opened t = true -> inv t s.
Proof. intros [A B C D E F G ND H I] O. constructor; first [assumption | congruence | intros _; auto 8]. Qed.
Lemma nth_error_slot (l : list slot) h : zlen l = nfilemax -> 1 <= h <= nfilemax -> exists x, nth_error l (Z.to_nat (h - 1)) = Some x.
Proof.
  intros L H. destruct (nth_error l (Z.to_nat (h - 1))) eqn:E; [eauto|]. apply nth_error_None in E. unfold zlen in L. lia.
Qed.
Lemma init_tables_disk s : disk (init_tables s) = disk s /\ lib (init_tables s) = lib s /\ next (init_tables s) = next s.
Proof. unfold init_tables. destruct (need_init s); auto. Qed.
Lemma inv1_init t s : inv t s -> inv1 t (init_tables s).
Proof.
  intro I. destruct (need_init s) eqn:N.
  - destruct I as [A B C D E F ND G]. destruct (E N) as (E1 & E2 & E3 & E4). unfold init_tables. rewrite N.
    assert (forall n x, nth_error (map (fun x => {| s_id := -1; s_ro := s_ro x; s_name := lit "*" |}) (slots s)) n = Some x -> s_id x < 0) as Cl.
    { intros n x Hn. rewrite nth_error_map in Hn. destruct (nth_error (slots s) n); [|discriminate]. injection Hn as <-. cbn. lia. }
    constructor; cbn [slots lib next nopen need_init disk with_slots]; auto.
    + rewrite zlen_map. exact A.
    + intros h x Hh Hx. rewrite E1. eauto.
    + intros n k x y Hx Hy P. specialize (Cl _ _ Hx). lia.
    + intros id e H. rewrite E2 in H. destruct H.
    + rewrite E3. symmetry. now apply copen_closed.
  - unfold init_tables. rewrite N. now apply inv1_of.
Qed.

(** the entry which is found *)
Lemma free_slot_spec l : forall i, match free_slot l i with
  | Some j => i <= j /\ (exists x, nth_error l (Z.to_nat (j - i)) = Some x /\ s_id x < 0) /\ (forall n x, (Z.of_nat n < j - i) -> nth_error l n = Some x -> 0 <= s_id x)
  | None => forall n x, nth_error l n = Some x -> 0 <= s_id x
  end.
Proof.
  induction l as [|x l IH]; intro i; cbn [free_slot]; [intros [|n] y; discriminate|]. destruct (0 <=? s_id x) eqn:O.
  - specialize (IH (i + 1)). destruct (free_slot l (i + 1)) as [j|].
    + destruct IH as (A & (y & B & B') & C). split; [lia|]. split.
      * exists y. split; [|exact B']. replace (Z.to_nat (j - i)) with (S (Z.to_nat (j - (i + 1)))) by lia. exact B.
      * intros [|n] z L E; [injection E as <-; lia|]. apply (C n z); [lia|exact E].
    + intros [|n] z E; [injection E as <-; lia|]. exact (IH n z E).
  - split; [lia|]. split.
    + exists x. rewrite Z.sub_diag. split; [reflexivity|lia].
    + intros n y L. lia.
Qed.
Lemma free_slot_current t s : inv1 t s -> match free_slot (slots s) 1 with
  | Some j => lowest_free t j /\ exists x, nth_error (slots s) (Z.to_nat (j - 1)) = Some x /\ s_id x < 0
  | None => ~ some_free t
  end.
Proof.
  intro I. pose proof (free_slot_spec (slots s) 1) as F. destruct (free_slot (slots s) 1) as [j|].
  - destruct F as (A & (x & B & B') & C). assert (j <= nfilemax) as R.
    { assert (Z.to_nat (j - 1) < List.length (slots s))%nat by (apply nth_error_Some; congruence). pose proof (j_len _ _ I). unfold zlen, nfilemax in *. lia. }
    split; [|eauto]. split; [unfold nfilemax in R; lia|]. split.
    + pose proof (j_cur _ _ I j x (conj A R) B) as H. destruct (current t j) as [[f ro]|]; [lia|reflexivity].
    + intros k Hk. destruct (nth_error_slot _ k (j_len _ _ I)) as [y Hy]; [unfold nfilemax in *; lia|].
      pose proof (j_cur _ _ I k y) as H. assert (0 <= s_id y) by (apply (C (Z.to_nat (k - 1))); [lia|exact Hy]).
      assert (1 <= k <= nfilemax) as Hk' by lia. specialize (H Hk' Hy). destruct (current t k); [discriminate|lia].
  - intros (h & Hh & E). destruct (nth_error_slot _ h (j_len _ _ I) Hh) as [y Hy]. pose proof (j_cur _ _ I h y Hh Hy) as H. rewrite E in H.
    specialize (F _ _ Hy). lia.
Qed.

(** what the table holds once a file is entered *)
Lemma take_slot_spec id ro f s : take_slot id ro f s =
  match free_slot (slots s) 1 with
  | Some i => Go i (with_slots s (set_nth (slots s) (Z.to_nat (i - 1)) {| s_id := id; s_ro := ro; s_name := fit 1000 f |}) (nopen s + 1) (need_init s))
  | None => Stop s
  end.
Proof. unfold take_slot, mbind, get, of_option, ret, abort. destruct (free_slot (slots s) 1); reflexivity. Qed.

Definition entry (c : call) (f : str) (ro : bool) : Prop :=
  match c with COpen g r => f = trim g /\ ro = (match r with Some true => true | _ => false end) | CCreate g => f = trim g /\ ro = false | _ => False end.
Lemma current_entry c f ro i t h : entry c f ro -> current ((c, RHandle i) :: t) h = if i =? h then Some (f, ro) else current t h.
Proof. intro H. destruct c; cbn in H; try contradiction; destruct H as [-> ->]; reflexivity. Qed.
Lemma opened_entry c f ro r t : entry c f ro -> opened ((c, r) :: t) = true.
Proof. intro H. destruct c; cbn in H; try contradiction; reflexivity. Qed.

Lemma inv1_entered t s d f g ro i x c : inv1 t s -> (forall a, assoc a (disk s) <> None -> assoc a d <> None) -> assoc f d <> None -> f = trim g ->
  entry c f ro -> 1 <= i <= nfilemax -> nth_error (slots s) (Z.to_nat (i - 1)) = Some x -> s_id x < 0 ->
  let s1 := with_lib s d ((next s, (f, negb ro)) :: lib s) (next s + 1) in
  inv1 ((c, RHandle i) :: t) (with_slots s1 (set_nth (slots s1) (Z.to_nat (i - 1)) {| s_id := next s; s_ro := ro; s_name := fit 1000 g |}) (nopen s1 + 1) (need_init s1)).
Proof.
  intros I D1 D2 Hf Hc Hi Hx Hn s1. set (y := {| s_id := next s; s_ro := ro; s_name := fit 1000 g |}).
  assert (forall n z, nth_error (set_nth (slots s) (Z.to_nat (i - 1)) y) n = Some z -> (n = Z.to_nat (i - 1) /\ z = y) \/ (n <> Z.to_nat (i - 1) /\ nth_error (slots s) n = Some z)) as NS.
  { intros n z E. destruct (Nat.eq_dec n (Z.to_nat (i - 1))) as [->|N].
    - left. split; [reflexivity|]. rewrite nth_error_set_nth_eq in E by (apply nth_error_Some; congruence). congruence.
    - right. split; [exact N|]. rewrite nth_error_set_nth_neq in E by congruence. exact E. }
  pose proof (j_next _ _ I) as Nn.
  constructor; cbn [slots lib next nopen need_init disk with_slots with_lib s1].
  - rewrite zlen_set_nth. apply (j_len _ _ I).
  - lia.
  - intros h Hh. rewrite (current_entry _ _ _ _ _ _ Hc). destruct (Z.eqb_spec i h) as [->|N]; [contradiction|]. now apply (j_range _ _ I).
  - intros h z Hh E. rewrite (current_entry _ _ _ _ _ _ Hc). apply NS in E as [[E ->]|[N E]].
    + replace (i =? h) with true by lia. subst y. cbn [s_id s_ro s_name zassoc]. rewrite Z.eqb_refl. repeat split; auto. rewrite Hf. symmetry. apply fit_trim.
    + replace (i =? h) with false by lia. pose proof (j_cur _ _ I h z Hh E) as H. destruct (current t h) as [[f' ro']|]; [|exact H].
      destruct H as (A & B & C & D). repeat split; auto. cbn [zassoc]. apply zassoc_In in D as D'. apply (j_lib _ _ I) in D' as [D' _].
      replace (s_id z =? next s) with false by lia. exact D.
  - intros n k u v Eu Ev P Q. apply NS in Eu as [[-> ->]|[Nu Eu]]; apply NS in Ev as [[-> ->]|[Nv Ev]]; auto.
    + exfalso. subst y. cbn [s_id] in Q. destruct (le_lt_dec (List.length (slots s)) k) as [L|L]; [apply nth_error_None in L; congruence|].
      pose proof (j_cur _ _ I (Z.of_nat k + 1) v) as H. replace (Z.to_nat (Z.of_nat k + 1 - 1)) with k in H by lia.
      pose proof (j_len _ _ I) as LL. unfold zlen in LL. specialize (H ltac:(lia) Ev). destruct (current t _) as [[f' ro']|]; [|lia].
      destruct H as (_ & _ & _ & D). apply zassoc_In in D. apply (j_lib _ _ I) in D as [D' _]. lia.
    + exfalso. subst y. cbn [s_id] in Q. destruct (le_lt_dec (List.length (slots s)) n) as [L|L]; [apply nth_error_None in L; congruence|].
      pose proof (j_cur _ _ I (Z.of_nat n + 1) u) as H. replace (Z.to_nat (Z.of_nat n + 1 - 1)) with n in H by lia.
      pose proof (j_len _ _ I) as LL. unfold zlen in LL. specialize (H ltac:(lia) Eu). destruct (current t _) as [[f' ro']|]; [|lia].
      destruct H as (_ & _ & _ & D). apply zassoc_In in D. apply (j_lib _ _ I) in D as [D' _]. lia.
    + eapply (j_inj _ _ I); eauto.
  - intros id e [E|E].
    + injection E as <- <-. split; [lia|]. exists (Z.to_nat (i - 1)), y. split; [|reflexivity]. apply nth_error_set_nth_eq. apply nth_error_Some. congruence.
    + apply (j_lib _ _ I) in E as [A (n & z & Ez & Ei)]. split; [lia|]. exists n, z. split; [|exact Ei].
      rewrite nth_error_set_nth_neq; [exact Ez|]. intros <-. assert (z = x) by congruence. subst z. lia.
  - rewrite (copen_set_nth _ _ _ _ Hx). rewrite (j_open _ _ I). unfold is_open. subst y. cbn [s_id]. replace (0 <=? s_id x) with false by lia.
    replace (0 <=? next s) with true by lia. lia.
  - cbn. constructor; [|apply (j_nodup _ _ I)]. intro E. apply in_map_iff in E as [[k e] [E1 E2]]. cbn in E1. subst k. apply (j_lib _ _ I) in E2 as [E2 _]. lia.
  - intros id f' rw [E|E]; [injection E as <- <- <-; exact D2|]. apply D1. exact (j_disk _ _ I _ _ _ E).
  - apply (j_init _ _ I).
Qed.

(** which files are open *)
Lemma lib_current t s id f rw : inv1 t s -> In (id, (f, rw)) (lib s) -> exists h, current t h = Some (f, negb rw).
Proof.
  intros I E. pose proof (j_nodup _ _ I) as ND. destruct (j_lib _ _ I _ _ E) as [A (n & x & En & Ei)]. exists (Z.of_nat n + 1).
  assert (n < List.length (slots s))%nat as L by (apply nth_error_Some; congruence).
  pose proof (j_len _ _ I) as LL. unfold zlen in LL. pose proof (j_cur _ _ I (Z.of_nat n + 1) x ltac:(lia)) as H.
  replace (Z.to_nat (Z.of_nat n + 1 - 1)) with n in H by lia. specialize (H En). destruct (current t _) as [[f' ro']|]; [|lia].
  destruct H as (_ & _ & _ & D). apply zassoc_In in D. rewrite Ei in D.
  assert ((f, rw) = (f', negb ro')) as Q. { clear -E D ND. induction (lib s) as [|[k v] l IH]; [destruct E|]. cbn in ND. apply NoDup_cons_iff in ND as [N1 N2].
    destruct E as [E|E], D as [D|D]; try (injection E as -> ->); try (injection D as -> ->); auto; exfalso; apply N1; apply in_map_iff; [exists (id, (f', negb ro'))|exists (id, (f, rw))]; auto. }
  injection Q as <- ->. now rewrite Bool.negb_involutive.
Qed.

(** ** Opening and creating *)
Lemma lib_of_current t s h f ro : inv1 t s -> current t h = Some (f, ro) -> exists id, In (id, (f, negb ro)) (lib s).
Proof.
  intros I E. destruct (Z_le_dec 1 h) as [H1|H1]; [destruct (Z_le_dec h nfilemax) as [H2|H2]|].
  - destruct (nth_error_slot _ h (j_len _ _ I) (conj H1 H2)) as [x Hx]. pose proof (j_cur _ _ I h x (conj H1 H2) Hx) as H. rewrite E in H.
    destruct H as (_ & _ & _ & D). exists (s_id x). now apply zassoc_In.
  - rewrite (j_range _ _ I) in E by lia. discriminate.
  - rewrite (j_range _ _ I) in E by lia. discriminate.
Qed.
Lemma fopen_iff t s f ro : inv1 t s -> match fopen f (negb ro) s with
  | Some (id, s1) => can_open t s f ro /\ id = next s /\ s1 = with_lib s (disk s) ((next s, (f, negb ro)) :: lib s) (next s + 1) /\ assoc f (disk s) <> None
  | None => ~ can_open t s f ro
  end.
Proof.
  intro I. unfold fopen. destruct (assoc f (disk s)) as [d|] eqn:D; [|intros (d & E & _); congruence].
  set (b := existsb _ (lib s)). assert (b = true <-> exists h, current t h = Some (f, true)) as B.
  { unfold b. rewrite existsb_exists. split.
    - intros ([id [f' rw]] & H & P). cbn in P. apply andb_prop in P as [P1 P2]. apply str_eqb_eq in P1. subst f'. destruct rw; [discriminate|].
      exact (lib_current _ _ _ _ _ I H).
    - intros [h E]. destruct (lib_of_current _ _ _ _ _ I E) as [id H]. exists (id, (f, false)). split; [exact H|]. cbn. now rewrite str_eqb_refl. }
  destruct (negb ro && (negb (writable d) || b)) eqn:Q.
  - intros (d' & E & H). assert (d' = d) by congruence. subst d'. destruct ro; [discriminate|]. destruct (H eq_refl) as [W C]. cbn in Q. rewrite W in Q. cbn in Q.
    destruct (proj1 B Q) as [h Hh]. exact (C h Hh).
  - repeat split; [|congruence]. exists d. split; [exact D|]. intros ->. cbn in Q. apply Bool.orb_false_iff in Q as [Q1 Q2]. split; [now destruct (writable d)|].
    intros h Hh. rewrite (proj2 B) in Q2; [discriminate|eauto].
Qed.
Lemma fcreate_iff t s f : inv1 t s -> match fcreate f s with
  | Some (id, s1) => can_create t s f /\ id = next s /\ s1 = with_lib s (put f empty_file (disk s)) ((next s, (f, true)) :: lib s) (next s + 1)
  | None => ~ can_create t s f
  end.
Proof.
  intro I. unfold fcreate. set (b := existsb _ (lib s)). assert (b = true <-> exists h ro, current t h = Some (f, ro)) as B.
  { unfold b. rewrite existsb_exists. split.
    - intros ([id [f' rw]] & H & P). cbn in P. apply str_eqb_eq in P. subst f'. destruct (lib_current _ _ _ _ _ I H) as [h Hh]. eauto.
    - intros (h & ro & E). destruct (lib_of_current _ _ _ _ _ I E) as [id H]. exists (id, (f, negb ro)). split; [exact H|]. cbn. now rewrite str_eqb_refl. }
  destruct b eqn:Q.
  - intros [H _]. destruct (proj1 B eq_refl) as (h & ro & E). exact (H h ro E).
  - assert (forall h ro, current t h <> Some (f, ro)) as C. { intros h ro E. discriminate (proj2 B). eauto. }
    destruct (assoc f (disk s)) as [d|] eqn:D.
    + destruct (writable d) eqn:W; cbn [negb].
      * repeat split; auto. congruence.
      * intros [_ H]. specialize (H d D). congruence.
    + repeat split; auto. congruence.
Qed.
Lemma can_open_init t s f ro : can_open t (init_tables s) f ro <-> can_open t s f ro.
Proof. unfold can_open. destruct (init_tables_disk s) as (-> & _). reflexivity. Qed.
Lemma can_create_init t s f : can_create t (init_tables s) f <-> can_create t s f.
Proof. unfold can_create. destruct (init_tables_disk s) as (-> & _). reflexivity. Qed.
Lemma open_spec cv t s f r : inv t s -> match run cv (COpen f r) s with
  | Go v s' => exists h, v = RHandle h /\ lowest_free t h /\ can_open t s (trim f) (ro_of r) /\ disk s' = disk s /\ inv ((COpen f r, v) :: t) s'
  | Stop s' => ~ (can_open t s (trim f) (ro_of r) /\ some_free t) /\ disk s' = disk s
  | Wild => False
  end.
Proof.
  intro I. apply inv1_init in I. destruct (init_tables_disk s) as (ID & _). cbn [run]. unfold fmap, mbind, open_file, ret.
  set (s0 := init_tables s) in *. assert ((match r with Some b => b | None => false end) = ro_of r) as -> by now destruct r as [[]|].
  pose proof (fopen_iff t s0 (trim f) (ro_of r) I) as F. destruct (fopen _ _ s0) as [[id s1]|].
  - destruct F as (C & -> & E1 & D). subst s1. apply (proj1 (can_open_init t s _ _)) in C. rewrite take_slot_spec.
    pose proof (free_slot_current t s0 I) as FS. set (s1 := with_lib s0 _ _ _). change (slots s1) with (slots s0). destruct (free_slot (slots s0) 1) as [i|].
    + destruct FS as [LF (x & Hx & Hn)]. exists i. split; [reflexivity|]. split; [exact LF|]. split; [exact C|]. split; [exact ID|]. apply inv_of1; [|reflexivity].
      refine (inv1_entered t s0 (disk s0) (trim f) f (ro_of r) i x (COpen f r) I _ D eq_refl _ _ Hx Hn); auto.
      * split; reflexivity.
      * apply LF.
    + split; [|exact ID]. intros [_ H]. exact (FS H).
  - split; [|exact ID]. intros [H _]. apply F. now apply can_open_init.
Qed.
Lemma create_spec cv t s f : inv t s -> match run cv (CCreate f) s with
  | Go v s' => exists h, v = RHandle h /\ lowest_free t h /\ can_create t s (trim f) /\ disk s' = put (trim f) empty_file (disk s) /\ inv ((CCreate f, v) :: t) s'
  | Stop s' => ~ (can_create t s (trim f) /\ some_free t) /\ (disk s' = disk s \/ ~ some_free t /\ disk s' = put (trim f) empty_file (disk s))
  | Wild => False
  end.
Proof.
  intro I. apply inv1_init in I. destruct (init_tables_disk s) as (ID & _). cbn [run]. unfold fmap, mbind, create_file, ret. set (s0 := init_tables s) in *.
  pose proof (fcreate_iff t s0 (trim f) I) as F. destruct (fcreate _ s0) as [[id s1]|].
  - destruct F as (C & -> & E1). subst s1. apply (proj1 (can_create_init t s _)) in C. rewrite take_slot_spec.
    pose proof (free_slot_current t s0 I) as FS. set (s1 := with_lib s0 _ _ _). change (slots s1) with (slots s0). destruct (free_slot (slots s0) 1) as [i|].
    + destruct FS as [LF (x & Hx & Hn)]. exists i. split; [reflexivity|]. split; [exact LF|]. split; [exact C|]. split.
      * cbn. now rewrite ID.
      * apply inv_of1; [|reflexivity].
        refine (inv1_entered t s0 (put (trim f) empty_file (disk s0)) (trim f) f false i x (CCreate f) I _ _ eq_refl _ _ Hx Hn); auto.
        -- intros a H. rewrite assoc_put. destruct (str_eqb a (trim f)); [discriminate|exact H].
        -- rewrite assoc_put, str_eqb_refl. discriminate.
        -- split; reflexivity.
        -- apply LF.
    + split; [intros [_ H]; exact (FS H)|]. right. split; [exact FS|]. cbn. now rewrite ID.
  - split; [|left; exact ID]. intros [H _]. apply F. now apply can_create_init.
Qed.

(** ** Handles in use *)
Lemma current_slot t s h f ro : inv t s -> current t h = Some (f, ro) ->
  inv1 t s /\ 1 <= h <= nfilemax /\ exists x, nth_error (slots s) (Z.to_nat (h - 1)) = Some x /\ 0 <= s_id x /\ s_ro x = ro /\ s_name x = fit 1000 f /\
    zassoc (s_id x) (lib s) = Some (f, negb ro).
Proof.
  intros I E. assert (need_init s = false) as N. { destruct (need_init s) eqn:N; [|reflexivity]. destruct (i_off _ _ I N) as [H _]. congruence. }
  pose proof (inv1_of _ _ I N) as J. split; [exact J|]. assert (1 <= h <= nfilemax) as R.
  { destruct (Z_le_dec 1 h); [destruct (Z_le_dec h nfilemax)|]; auto; rewrite (i_range _ _ I) in E by lia; discriminate. }
  split; [exact R|]. destruct (nth_error_slot _ h (j_len _ _ J) R) as [x Hx]. exists x. split; [exact Hx|]. pose proof (j_cur _ _ J h x R Hx) as H. now rewrite E in H.
Qed.
Lemma closed_slot t s h x : inv t s -> current t h = None -> 1 <= h <= nfilemax -> nth_error (slots s) (Z.to_nat (h - 1)) = Some x ->
  zassoc (s_id x) (lib s) = None /\ (opened t = true -> s_id x < 0).
Proof.
  intros I E R Hx. destruct (need_init s) eqn:N.
  - destruct (i_off _ _ I N) as (_ & L & _ & O). rewrite L. split; [reflexivity|]. intro T. exact (copen_nil_closed _ (O T) _ _ Hx).
  - destruct (i_on _ _ I N) as (C & _ & L & _). specialize (C h x R Hx). rewrite E in C. split; [|auto].
    destruct (zassoc (s_id x) (lib s)) as [e|] eqn:Z; [|reflexivity]. apply zassoc_In in Z. apply L in Z as [Z _]. lia.
Qed.

Lemma close_go t s h f ro : inv t s -> current t h = Some (f, ro) -> exists s', close_file h s = Go tt s' /\ disk s' = disk s /\ inv ((CClose h, RNone) :: t) s'.
Proof.
  intros I E. destruct (current_slot _ _ _ _ _ I E) as (J & R & x & Hx & P & Q & Nm & L). unfold close_file.
  rewrite (bind_step _ _ _ _ _ (open_slot_ok _ _ _ R Hx P)). set (s1 := if cached s && _ then _ else s).
  assert (tables_same s s1 /\ disk s1 = disk s) as [(L1 & N1 & S1 & O1 & I1) D1]. { unfold s1. destruct (cached s && _); repeat split. }
  unfold fclose. rewrite L1, L. eexists. split; [reflexivity|]. cbn [with_lib disk slots nopen need_init lib next with_slots]. rewrite ?D1, ?L1, ?S1, ?O1, ?I1. split; [reflexivity|].
  set (y := {| s_id := -1; s_ro := s_ro x; s_name := lit "*" |}). set (sl := set_nth (slots s) (Z.to_nat (h - 1)) y).
  set (l' := filter (fun e => negb (fst e =? s_id x)) (lib s)).
  assert (forall n z, nth_error sl n = Some z -> (n = Z.to_nat (h - 1) /\ z = y) \/ (n <> Z.to_nat (h - 1) /\ nth_error (slots s) n = Some z)) as NS.
  { intros n z En. unfold sl in En. destruct (Nat.eq_dec n (Z.to_nat (h - 1))) as [->|N].
    - left. split; [reflexivity|]. rewrite nth_error_set_nth_eq in En by (apply nth_error_Some; congruence). congruence.
    - right. split; [exact N|]. rewrite nth_error_set_nth_neq in En by congruence. exact En. }
  assert (copen sl = nopen s - 1) as CO. { unfold sl. rewrite (copen_set_nth _ _ _ _ Hx). rewrite (j_open _ _ J). unfold is_open, y. cbn [s_id]. replace (0 <=? s_id x) with true by lia. cbn. lia. }
  assert (forall k, current ((CClose h, RNone) :: t) k = if h =? k then None else current t k) as CU by reflexivity.
  assert (forall id e, In (id, e) l' -> In (id, e) (lib s) /\ id <> s_id x) as LI.
  { intros id e H. apply filter_In in H as [H1 H2]. split; [exact H1|]. cbn in H2. lia. }
  assert (forall id e, In (id, e) l' -> 0 <= id < next s /\ exists n z, nth_error sl n = Some z /\ s_id z = id) as LB.
  { intros id e H. apply LI in H as [H1 H2]. apply (j_lib _ _ J) in H1 as [A (n & z & Hz & Hi)]. split; [exact A|]. exists n, z. split; [|exact Hi].
    unfold sl. rewrite nth_error_set_nth_neq; [exact Hz|]. intros <-. apply H2. congruence. }
  assert (forall k z, 1 <= k <= nfilemax -> nth_error sl (Z.to_nat (k - 1)) = Some z ->
       match current ((CClose h, RNone) :: t) k with
       | Some (f, ro) => 0 <= s_id z /\ s_ro z = ro /\ s_name z = fit 1000 f /\ zassoc (s_id z) l' = Some (f, negb ro)
       | None => s_id z < 0 end) as CC.
  { intros k z Hk Hz. rewrite CU. apply NS in Hz as [[En ->]|[En Hz]].
    - replace (h =? k) with true by lia. cbn. lia.
    - replace (h =? k) with false by lia. pose proof (j_cur _ _ J k z Hk Hz) as H. destruct (current t k) as [[f' ro']|]; [|exact H].
      destruct H as (A & B & C & D). repeat split; auto. unfold l'. rewrite zassoc_filter; [exact D|]. intro X. apply En. eapply (j_inj _ _ J); eauto. }
  constructor; cbn [slots next lib nopen need_init disk with_slots with_lib].
  - unfold sl. rewrite zlen_set_nth. apply (j_len _ _ J).
  - rewrite N1. apply (j_next _ _ J).
  - intros k Hk. rewrite CU. destruct (h =? k); [reflexivity|]. now apply (i_range _ _ I).
  - cbn. intro O. rewrite (i_opened _ _ I O). now destruct (nopen s - 1 =? 0).
  - intro NI. assert (nopen s - 1 = 0) as Z0. { destruct (nopen s - 1 =? 0) eqn:Z0; [lia|]. rewrite (j_init _ _ J) in NI. discriminate. }
    assert (copen sl = 0) as CZ by lia. assert (forall n z, nth_error sl n = Some z -> s_id z < 0) as Cl by exact (copen_nil_closed _ CZ).
    split; [|split; [|split; [exact Z0|intros _; exact CZ]]].
    + intro k. destruct (Z_le_dec 1 k); [destruct (Z_le_dec k nfilemax)|]; try (rewrite CU; destruct (h =? k); [reflexivity|apply (i_range _ _ I); lia]).
      assert (zlen sl = nfilemax) as LS by (unfold sl; rewrite zlen_set_nth; apply (j_len _ _ J)).
      destruct (nth_error_slot sl k LS ltac:(lia)) as [z Hz]. specialize (CC k z ltac:(lia) Hz). destruct (current _ k) as [[f' ro']|]; [|reflexivity].
      specialize (Cl _ _ Hz). lia.
    + destruct l' as [|[id e] r] eqn:El; [reflexivity|]. exfalso. destruct (LB id e) as [A (n & z & Hz & Hi)]; [now left|]. specialize (Cl _ _ Hz). lia.
  - intros _. split; [exact CC|]. split; [|split; [rewrite N1; exact LB|lia]].
    intros n k u v Eu Ev P' Q'. apply NS in Eu as [[-> ->]|[Nu Eu]]; apply NS in Ev as [[-> ->]|[Nv Ev]]; auto; try (unfold y in *; cbn in *; lia).
    eapply (j_inj _ _ J); eauto.
  - unfold l'. pose proof (j_nodup _ _ J) as ND. clear -ND. induction (lib s) as [|[k v] l IH]; [constructor|]. cbn in *. apply NoDup_cons_iff in ND as [A B].
    destruct (negb (k =? s_id x)); [|auto]. cbn. constructor; [|auto]. intro H. apply A. apply in_map_iff in H as [e [E1 E2]]. apply filter_In in E2 as [E2 _].
    apply in_map_iff. eauto.
  - intros id f' rw H. apply LI in H as [H _]. rewrite ?D1. exact (j_disk _ _ J _ _ _ H).
Qed.

(** ** Calls which do not open or close *)
Lemma inv_same t s s' c r : inv t s -> tables_same s s' -> (forall a, assoc a (disk s) <> None -> assoc a (disk s') <> None) ->
  (forall h, current ((c, r) :: t) h = current t h) -> opened ((c, r) :: t) = opened t -> inv ((c, r) :: t) s'.
Proof.
  intros [A B C D E F G H] (L & N & S & O & I) Dk Cu Op. constructor; rewrite ?L, ?N, ?S, ?O, ?I, ?Op; auto.
  - intros h Hh. rewrite Cu. auto.
  - intro Q. destruct (E Q) as (E1 & E2). split; [intro h; rewrite Cu; auto|exact E2].
  - intro Q. destruct (F Q) as (F1 & F2). split; [|exact F2]. intros h x. rewrite Cu. apply F1.
  - intros id f rw Hi. apply Dk. eapply H. exact Hi.
Qed.
(** what any such call may do *)
Definition quiet (h : Z) (s s' : wst) : Prop :=
  tables_same s s' /\ (disk s' = disk s \/
    exists x f rw, nth_error (slots s) (Z.to_nat (h - 1)) = Some x /\ zassoc (s_id x) (lib s) = Some (f, rw) /\ only f s s').
Definition plain_call (c : call) : bool := match c with COpen _ _ | CCreate _ | CClose _ => false | _ => true end.
Lemma fmap_pres {A B} (R : wst -> wst -> Prop) (f : A -> B) (m : M A) s : pres_at R s m -> pres_at R s (fmap f m).
Proof. unfold pres_at, fmap, mbind, ret. now destruct (m s). Qed.
Lemma quiet_still {A} h (m : M A) s : still m -> pres_at (quiet h) s m.
Proof. apply still_pres. intro s0. split; [repeat split|now left]. Qed.
Lemma quiet_on {A} h x (m : M A) s : nth_error (slots s) (Z.to_nat (h - 1)) = Some x -> pres_at (onR (s_id x)) s m -> pres_at (quiet h) s m.
Proof.
  intros Hx H. unfold pres_at in *. assert (forall s', onR (s_id x) s s' -> quiet h s s') as Q.
  { intros s' [H1 H2]. destruct (zassoc (s_id x) (lib s)) as [[f rw]|] eqn:E.
    - specialize (H1 f rw eq_refl). split; [apply H1|]. right. exists x, f, rw. auto.
    - specialize (H2 eq_refl). subst s'. split; [repeat split|now left]. }
  destruct (m s); auto.
Qed.
Lemma no_slot_group h n s : nth_error (slots s) (Z.to_nat (h - 1)) = None -> create_group h n s = Stop s.
Proof.
  intro H. unfold create_group. apply bind_stop. unfold slot_of, mbind, get, require. destruct ((1 <=? h) && (h <=? nfilemax)); [|reflexivity]. cbn. now rewrite H.
Qed.
Lemma no_slot_open h s : nth_error (slots s) (Z.to_nat (h - 1)) = None -> open_slot h s = Stop s.
Proof.
  intro H. unfold open_slot. apply bind_stop. unfold slot_of, mbind, get, require. destruct ((1 <=? h) && (h <=? nfilemax)); [|reflexivity]. cbn. now rewrite H.
Qed.
Lemma write_data_stop h n a o s : open_slot h s = Stop s -> write_data h n a o s = Stop s.
Proof.
  intro H. unfold write_data. set (b := match w_gzip o with Some _ => _ | None => _ end). destruct b; [|reflexivity]. rewrite (bind_step _ _ _ tt s) by reflexivity. now apply bind_stop.
Qed.
Lemma read_data_stop h n a st ct s : open_slot h s = Stop s -> read_data h n a st ct s = Stop s.
Proof.
  intro H. unfold read_data. set (b := match st with Some _ => _ | None => _ end). destruct b; [|reflexivity]. rewrite (bind_step _ _ _ tt s) by reflexivity. now apply bind_stop.
Qed.
Lemma run_quiet cv c h s : handle_of c = Some h -> plain_call c = true -> pres_at (quiet h) s (run cv c).
Proof.
  intros Hh Hp. destruct c; cbn in Hh, Hp; try discriminate; injection Hh as ->; cbn [run]; apply fmap_pres.
  - apply quiet_still, still_file_id.
  - destruct (nth_error (slots s) (Z.to_nat (h - 1))) as [x|] eqn:E; [exact (quiet_on h x _ s E (on_create_group h name s x E))|].
    unfold pres_at. rewrite no_slot_group by exact E. split; [repeat split|now left].
  - pose proof (reads_read_data h name arr start count s) as H. unfold pres_at in *. assert (forall s', reads s s' -> quiet h s s') as Q by (intros s' [A B]; split; auto).
    destruct (read_data _ _ _ _ _ s); auto.
  - destruct (nth_error (slots s) (Z.to_nat (h - 1))) as [x|] eqn:E; [exact (quiet_on h x _ s E (on_write_data h name arr o s x E))|].
    unfold pres_at. rewrite write_data_stop by now apply no_slot_open. split; [repeat split|now left].
  - apply quiet_still, still_read_attribute.
  - destruct (nth_error (slots s) (Z.to_nat (h - 1))) as [x|] eqn:E; [exact (quiet_on h x _ s E (on_write_attribute h name arr overwrite s x E))|].
    unfold pres_at. unfold write_attribute. rewrite (bind_stop _ _ _ s) by now apply no_slot_open. split; [repeat split|now left].
  - apply quiet_still, still_dims.
  - apply quiet_still, still_type.
  - apply quiet_still, still_members.
  - apply quiet_still, still_members.
  - apply quiet_still, still_attributes.
Qed.
Lemma quiet_disk h s s' a : quiet h s s' -> assoc a (disk s) <> None -> assoc a (disk s') <> None.
Proof.
  intros [_ [->|(x & f & rw & _ & _ & (_ & _ & O1 & O2))]]; [auto|]. destruct (list_eq_dec ascii_dec a f) as [->|N]; [exact O2|]. now rewrite O1.
Qed.
(** a program which has opened nothing has no handles *)
Lemma opened_current t h : opened t = false -> current t h = None.
Proof.
  induction t as [|[c r] t IH]; [reflexivity|]. destruct c; cbn; try discriminate; auto. intro H. destruct (ifile =? h); auto.
Qed.
Lemma close_closed t s h : inv t s -> current t h = None -> close_file h s = Stop s \/ exists s', close_file h s = Stop s' /\ disk s' = disk s.
Proof.
  intros I E. unfold close_file. destruct (Z_le_dec 1 h) as [H1|H1]; [destruct (Z_le_dec h nfilemax) as [H2|H2]|]; try (left; apply bind_stop; apply open_slot_stop; lia).
  destruct (nth_error_slot _ h (i_len _ _ I) (conj H1 H2)) as [x Hx]. destruct (closed_slot _ _ _ _ I E (conj H1 H2) Hx) as [L _].
  destruct (Z_lt_dec (s_id x) 0) as [P|P].
  - left. apply bind_stop. eapply open_slot_closed; eauto.
  - right. rewrite (bind_step _ _ _ _ _ (open_slot_ok _ _ _ (conj H1 H2) Hx ltac:(lia))). cbn zeta.
    destruct (cached s && str_eqb (s_name x) (c_file s)); unfold fclose; cbn [lib with_cache]; rewrite L; eexists; split; reflexivity.
Qed.

Lemma other_call cv t s c r s' h : inv t s -> run cv c s = Go r s' -> handle_of c = Some h -> plain_call c = true -> inv ((c, r) :: t) s'.
Proof.
  intros I E Hh Hp. pose proof (run_quiet cv c h s Hh Hp) as Q. unfold pres_at in Q. rewrite E in Q.
  apply (inv_same t s s' c r I); [apply Q|intro a; eapply quiet_disk; exact Q|intro k|]; destruct c; try discriminate; reflexivity.
Qed.
Theorem inv_history cv s0 t s : fresh s0 -> history cv s0 t s -> inv t s.
Proof.
  intros F H. induction H as [|t s c r s' H IH E]; [now apply inv_fresh|].
  destruct c eqn:Ec; try (solve [eapply other_call; [exact IH|exact E|reflexivity|reflexivity]]).
  - pose proof (open_spec cv t s fname readonly IH) as P. rewrite E in P. destruct P as (h & -> & _ & _ & _ & P). exact P.
  - pose proof (create_spec cv t s fname IH) as P. rewrite E in P. destruct P as (h & -> & _ & _ & _ & P). exact P.
  - cbn [run] in E. unfold fmap in E. apply bind_Go in E as (u & s1 & E1 & E2). injection E2 as <- <-.
    destruct (current t ifile) as [[f ro]|] eqn:C.
    + destruct (close_go _ _ _ _ _ IH C) as (s2 & G & _ & I). rewrite G in E1. injection E1 as _ <-. exact I.
    + destruct (close_closed _ _ _ IH C) as [G|(s2 & G & _)]; congruence.
Qed.

(** ** The statements *)
Lemma c88_open cv s0 t s f r : fresh s0 -> history cv s0 t s -> match run cv (COpen f r) s with
  | Go v s' => exists h, v = RHandle h /\ lowest_free t h /\ can_open t s (trim f) (ro_of r) /\ disk s' = disk s
  | Stop s' => ~ (can_open t s (trim f) (ro_of r) /\ some_free t) /\ disk s' = disk s
  | Wild => False
  end.
Proof.
  intros F H. apply inv_history in H; [|exact F]. pose proof (open_spec cv t s f r H) as P. destruct (run cv (COpen f r) s); auto.
  destruct P as (h & A & B & C & D & _). eauto 8.
Qed.
Lemma c88_create cv s0 t s f : fresh s0 -> history cv s0 t s -> match run cv (CCreate f) s with
  | Go v s' => exists h, v = RHandle h /\ lowest_free t h /\ can_create t s (trim f) /\ assoc (trim f) (disk s') = Some empty_file /\ others_same (trim f) s s'
  | Stop s' => ~ (can_create t s (trim f) /\ some_free t) /\ others_same (trim f) s s' /\ (some_free t -> disk s' = disk s)
  | Wild => False
  end.
Proof.
  intros F H. apply inv_history in H; [|exact F]. pose proof (create_spec cv t s f H) as P.
  assert (forall d, d = put (trim f) empty_file (disk s) -> forall g, g <> trim f -> assoc g d = assoc g (disk s)) as O.
  { intros d -> g N. rewrite assoc_put. apply str_eqb_neq in N. now rewrite N. }
  destruct (run cv (CCreate f) s) as [v s'|s'|]; auto.
  - destruct P as (h & A & B & C & D & _). exists h. repeat (split; [first [exact A | exact B | exact C]|]). split; [rewrite D, assoc_put, str_eqb_refl; reflexivity|]. exact (O _ D).
  - destruct P as [A [B|[B C]]]; (split; [exact A|]).
    + split; [intros g _; now rewrite B|intros _; exact B].
    + split; [exact (O _ C)|contradiction].
Qed.
Lemma c88_close cv s0 t s h : fresh s0 -> history cv s0 t s ->
  (current t h <> None -> exists s', run cv (CClose h) s = Go RNone s' /\ disk s' = disk s) /\
  (current t h = None -> exists s', run cv (CClose h) s = Stop s' /\ disk s' = disk s).
Proof.
  intros F H. apply inv_history in H; [|exact F]. cbn [run]. unfold fmap. split; intro E.
  - destruct (current t h) as [[f ro]|] eqn:C; [|contradiction]. destruct (close_go _ _ _ _ _ H C) as (s' & G & D & _). exists s'. now rewrite (bind_step _ _ _ _ _ G).
  - destruct (close_closed _ _ _ H E) as [G|(s' & G & D)]; rewrite (bind_stop _ _ _ _ G); eauto.
Qed.
Lemma file_id_spec cv s0 t s h f ro : fresh s0 -> history cv s0 t s -> current t h = Some (f, ro) ->
  exists id, run cv (CFileId h) s = Go (RHandle id) s /\ zassoc id (lib s) = Some (f, negb ro).
Proof.
  intros F H C. apply inv_history in H; [|exact F]. destruct (current_slot _ _ _ _ _ H C) as (J & R & x & Hx & P & Q & Nm & L).
  exists (s_id x). split; [|exact L]. cbn [run]. unfold fmap, get_file_id. unfold mbind at 1. rewrite (bind_step _ _ _ _ _ (open_slot_ok _ _ _ R Hx P)). reflexivity.
Qed.
(** *** The dataset kept open *)
Definition is_read (c : call) : bool := match c with CRead _ _ _ _ _ => true | _ => false end.
Lemma cache_refl s : cache_same s s.
Proof. repeat split. Qed.
Lemma cache_on {A} id (m : M A) s : pres_at (onR id) s m -> pres_at cache_same s m.
Proof.
  unfold pres_at. assert (forall s', onR id s s' -> cache_same s s') as Q.
  { intros s' [A1 A2]. destruct (zassoc id (lib s)) as [[f rw]|]; [exact (proj1 (proj2 (A1 f rw eq_refl)))|]. rewrite (A2 eq_refl). apply cache_refl. }
  destruct (m s); auto.
Qed.
Lemma run_cache cv c s : plain_call c = true -> is_read c = false -> pres_at cache_same s (run cv c).
Proof.
  intros Hp Hr. destruct c; cbn in Hp, Hr; try discriminate; cbn [run]; apply fmap_pres;
    try (apply (still_pres _ cache_refl); first [apply still_file_id | apply still_read_attribute | apply still_dims | apply still_type | apply still_members | apply still_attributes]).
  - destruct (nth_error (slots s) (Z.to_nat (ifile - 1))) as [x|] eqn:E; [exact (cache_on _ _ s (on_create_group ifile name s x E))|].
    unfold pres_at. rewrite no_slot_group by exact E. apply cache_refl.
  - destruct (nth_error (slots s) (Z.to_nat (ifile - 1))) as [x|] eqn:E; [exact (cache_on _ _ s (on_write_data ifile name arr o s x E))|].
    unfold pres_at. rewrite write_data_stop by now apply no_slot_open. apply cache_refl.
  - destruct (nth_error (slots s) (Z.to_nat (ifile - 1))) as [x|] eqn:E; [exact (cache_on _ _ s (on_write_attribute ifile name arr overwrite s x E))|].
    unfold pres_at, write_attribute. rewrite (bind_stop _ _ _ s) by now apply no_slot_open. apply cache_refl.
Qed.
(** a handle through which nothing is open *)
Lemma dead_slot t s h : inv t s -> (opened t = false -> cached s = false) -> current t h = None ->
  open_slot h s = Stop s \/ exists x, open_slot h s = Go x s /\ zassoc (s_id x) (lib s) = None /\ cached s = false /\ opened t = false.
Proof.
  intros I Ca E. destruct (Z_le_dec 1 h) as [H1|H1]; [destruct (Z_le_dec h nfilemax) as [H2|H2]|]; try (left; apply open_slot_stop; lia).
  destruct (nth_error_slot _ h (i_len _ _ I) (conj H1 H2)) as [x Hx]. destruct (closed_slot _ _ _ _ I E (conj H1 H2) Hx) as [L O].
  destruct (Z_lt_dec (s_id x) 0) as [P|P]; [left; eapply open_slot_closed; eauto|]. right. exists x. rewrite (open_slot_ok _ _ _ (conj H1 H2) Hx ltac:(lia)).
  destruct (opened t); [exfalso; apply P; now apply O|]. auto.
Qed.
Lemma open_new_dead x n s : zassoc (s_id x) (lib s) = None -> open_new x n s = Stop s.
Proof. intro L. unfold open_new. apply bind_stop. now apply file_of_none. Qed.
Lemma read_dead x h n a st ct s : open_slot h s = Go x s -> zassoc (s_id x) (lib s) = None -> cached s = false -> read_data h n a st ct s = Stop s.
Proof.
  intros O L C. unfold read_data. set (b := match st with Some _ => _ | None => _ end). destruct b; [|reflexivity]. rewrite (bind_step _ _ _ tt s) by reflexivity.
  rewrite (bind_step _ _ _ _ _ O). apply bind_stop. rewrite open_cached_cases, C. cbn. now apply open_new_dead.
Qed.
Lemma write_dead x h n a o s : open_slot h s = Go x s -> zassoc (s_id x) (lib s) = None -> write_data h n a o s = Stop s \/ write_data h n a o s = Wild.
Proof.
  intros O L. unfold write_data. set (b := match w_gzip o with Some _ => _ | None => _ end). destruct b; [|now left]. rewrite (bind_step _ _ _ tt s) by reflexivity.
  rewrite (bind_step _ _ _ _ _ O). destruct (s_ro x); [now left|]. cbn [negb]. rewrite (bind_step _ _ _ tt s) by reflexivity.
  set (b := match w_start o with Some _ => _ | None => _ end). destruct b; [|now left]. rewrite (bind_step _ _ _ tt s) by reflexivity.
  set (m := match w_chunk o with Some _ => _ | None => _ end). assert (m s = Go tt s \/ m s = Wild) as [M|M].
  { unfold m. destruct (w_chunk o) as [l|]; [destruct (7 <? zlen l)|]; auto. }
  - left. rewrite (bind_step _ _ _ _ _ M). apply bind_stop. now apply file_of_none.
  - right. unfold mbind at 1. now rewrite M.
Qed.
Lemma dead_call cv t s c h : inv t s -> (opened t = false -> cached s = false) -> current t h = None -> handle_of c = Some h ->
  match run cv c s with
  | Go _ s' => s' = s /\ match c with CGroup _ _ => True | CFileId _ => opened t = false | _ => False end
  | Stop s' => disk s' = disk s
  | Wild => match c with CGroup _ _ => True | CWrite _ _ _ _ => opened t = false | _ => False end
  end.
Proof.
  intros I Ca E Hh. assert (forall A B (f : A -> B) (m : M A), m s = Stop s -> fmap f m s = Stop s) as FS by (intros; unfold fmap; now apply bind_stop).
  destruct (dead_slot _ _ _ I Ca E) as [O|(x & O & L & C & Op)].
  - destruct c; cbn in Hh; try discriminate; injection Hh as ->; cbn [run].
    + unfold fmap. destruct (close_closed _ _ _ I E) as [G|(s' & G & D)]; rewrite (bind_stop _ _ _ _ G); auto.
    + now rewrite FS by (apply bind_stop, O).
    + pose proof (run_quiet cv (CGroup h name) h s eq_refl eq_refl) as Q. unfold pres_at in Q. cbn [run] in Q.
      destruct (nth_error (slots s) (Z.to_nat (h - 1))) as [y|] eqn:Y.
      2: { now rewrite FS by now apply no_slot_group. }
      pose proof (on_create_group h name s y Y) as P. unfold pres_at in P. unfold fmap, mbind, ret.
      destruct (Z_le_dec 1 h) as [H1|H1]; [destruct (Z_le_dec h nfilemax) as [H2|H2]|].
      * destruct (closed_slot _ _ _ _ I E (conj H1 H2) Y) as [LL _]. destruct (create_group h name s) as [u s'|s'|]; auto.
        -- split; [now apply P|auto].
        -- rewrite (proj2 P LL). reflexivity.
      * unfold create_group. rewrite (bind_stop _ _ _ s) by (apply slot_of_stop; lia). reflexivity.
      * unfold create_group. rewrite (bind_stop _ _ _ s) by (apply slot_of_stop; lia). reflexivity.
    + now rewrite FS by now apply read_data_stop.
    + now rewrite FS by now apply write_data_stop.
    + now rewrite FS by (apply bind_stop, O).
    + now rewrite FS by (apply bind_stop, O).
    + now rewrite FS by (apply bind_stop, O).
    + now rewrite FS by (apply bind_stop, O).
    + now rewrite FS by (apply bind_stop, O).
    + now rewrite FS by (apply bind_stop, O).
    + now rewrite FS by (apply bind_stop, O).
  - pose proof (file_of_none _ _ L) as FN.
    destruct c; cbn in Hh; try discriminate; injection Hh as ->; cbn [run].
    + unfold fmap. destruct (close_closed _ _ _ I E) as [G|(s' & G & D)]; rewrite (bind_stop _ _ _ _ G); auto.
    + unfold fmap, get_file_id. rewrite (bind_step _ _ _ (s_id x) s); [split; auto|]. now rewrite (bind_step _ _ _ _ _ O).
    + apply open_slot_inv in O as (_ & R & Y & _). pose proof (on_create_group h name s x Y) as P. unfold pres_at in P. unfold fmap, mbind, ret.
      destruct (create_group h name s) as [u s'|s'|]; auto.
      * split; [now apply P|auto].
      * rewrite (proj2 P L). reflexivity.
    + now rewrite FS by now apply (read_dead x).
    + destruct (write_dead x h name arr o s O L) as [G|G]; [now rewrite FS by exact G|]. unfold fmap, mbind. rewrite G. exact Op.
    + rewrite FS; [reflexivity|]. unfold read_attribute. rewrite (bind_step _ _ _ _ _ O). now apply bind_stop.
    + unfold fmap, write_attribute. rewrite (bind_stop _ _ _ s); [reflexivity|]. rewrite (bind_step _ _ _ _ _ O). destruct (s_ro x); [reflexivity|]. cbn [negb].
      rewrite (bind_step _ _ _ tt s) by reflexivity. now apply bind_stop.
    + rewrite FS; [reflexivity|]. unfold get_dimensions. rewrite (bind_step _ _ _ _ _ O). now apply bind_stop.
    + rewrite FS; [reflexivity|]. unfold get_type. rewrite (bind_step _ _ _ _ _ O). now apply bind_stop.
    + rewrite FS; [reflexivity|]. unfold list_datasets, list_members. rewrite (bind_step _ _ _ _ _ O). now apply bind_stop.
    + rewrite FS; [reflexivity|]. unfold list_groups, list_members. rewrite (bind_step _ _ _ _ _ O). now apply bind_stop.
    + rewrite FS; [reflexivity|]. unfold list_attributes. rewrite (bind_step _ _ _ _ _ O). now apply bind_stop.
Qed.
Lemma cache_history cv s0 t s : fresh s0 -> history cv s0 t s -> opened t = false -> cached s = false.
Proof.
  intros F H. induction H as [|t s c r s' H IH E]; [intros _; apply F|]. intro O. assert (opened t = false) as O' by (destruct c; cbn in O; try discriminate; exact O).
  specialize (IH O'). pose proof (inv_history _ _ _ _ F H) as I. destruct (plain_call c) eqn:P.
  - assert (exists h, handle_of c = Some h) as [h Hh] by (destruct c; try discriminate; eexists; reflexivity).
    pose proof (dead_call cv t s c h I (fun _ => IH) (opened_current t h O') Hh) as D. rewrite E in D. destruct D as [-> _]. exact IH.
  - destruct c; try discriminate. pose proof (dead_call cv t s (CClose ifile) ifile I (fun _ => IH) (opened_current t ifile O') eq_refl) as D. rewrite E in D. destruct D as [_ []].
Qed.
(** the calls through a closed handle *)
Lemma c88_closed cv s0 t s c h : fresh s0 -> history cv s0 t s -> handle_of c = Some h -> current t h = None ->
  match run cv c s with
  | Go _ s' => s' = s /\ match c with CGroup _ _ => True | CFileId _ => opened t = false | _ => False end
  | Stop s' => disk s' = disk s
  | Wild => match c with CGroup _ _ => True | CWrite _ _ _ _ => opened t = false | _ => False end
  end.
Proof.
  intros F H Hh C. apply dead_call with (t := t) (h := h); auto; [eapply inv_history; eauto|eapply cache_history; eauto].
Qed.
Lemma c88_read_only cv s0 t s c h f : fresh s0 -> history cv s0 t s -> handle_of c = Some h -> current t h = Some (f, true) -> writes c = true -> run cv c s = Stop s.
Proof.
  intros F H Hh C W. apply inv_history in H; [|exact F]. destruct (current_slot _ _ _ _ _ H C) as (J & R & x & Hx & P & Q & Nm & L).
  destruct c; cbn in W, Hh; try discriminate; injection Hh as ->; cbn [run]; unfold fmap; apply bind_stop.
  - unfold create_group. rewrite (bind_step _ _ _ _ _ (slot_of_ok _ _ _ R Hx)). rewrite Q. reflexivity.
  - unfold write_data. set (b := match w_gzip o with Some _ => _ | None => _ end). destruct b; [|reflexivity]. rewrite (bind_step _ _ _ tt s) by reflexivity.
    rewrite (bind_step _ _ _ _ _ (open_slot_ok _ _ _ R Hx P)). rewrite Q. reflexivity.
  - unfold write_attribute. rewrite (bind_step _ _ _ _ _ (open_slot_ok _ _ _ R Hx P)). rewrite Q. reflexivity.
Qed.
Lemma c88_one_file cv s0 t s c h f ro : fresh s0 -> history cv s0 t s -> handle_of c = Some h -> current t h = Some (f, ro) ->
  match run cv c s with Go _ s' | Stop s' => others_same f s s' /\ assoc f (disk s') <> None /\ (writes c = false -> disk s' = disk s) | Wild => True end.
Proof.
  intros F H Hh C. pose proof (inv_history _ _ _ _ F H) as I. destruct (current_slot _ _ _ _ _ I C) as (J & R & x & Hx & P & Q & Nm & L).
  assert (assoc f (disk s) <> None) as FD by (eapply (j_disk _ _ J); apply zassoc_In; exact L).
  destruct (plain_call c) eqn:Pl.
  - pose proof (run_quiet cv c h s Hh Pl) as G. unfold pres_at in G.
    assert (forall s', quiet h s s' -> (writes c = false -> disk s' = disk s) -> others_same f s s' /\ assoc f (disk s') <> None /\ (writes c = false -> disk s' = disk s)) as K.
    { intros s' QQ W. split; [|split; [eapply quiet_disk; eauto|exact W]]. destruct QQ as [_ [D|(y & f' & rw & Hy & Ly & (_ & _ & O & _))]].
      - intros g _. now rewrite D.
      - assert (y = x) by congruence. subst y. assert (f' = f) by congruence. subst f'. exact O. }
    assert (match run cv c s with Go _ s' | Stop s' => writes c = false -> disk s' = disk s | Wild => True end) as W.
    { destruct (writes c) eqn:W; [destruct (run cv c s); auto; discriminate|]. assert (pres_at reads s (run cv c)) as RD.
      { destruct c; cbn in Pl, W; try discriminate; cbn [run]; apply fmap_pres; try apply reads_read_data; apply reads_still;
          first [apply still_file_id | apply still_read_attribute | apply still_dims | apply still_type | apply still_members | apply still_attributes]. }
      unfold pres_at in RD. destruct (run cv c s); auto; intros _; apply RD. }
    destruct (run cv c s); auto.
  - destruct c; cbn in Hh; try discriminate. injection Hh as ->. destruct (c88_close cv s0 t s h F H) as [A _]. destruct A as (s' & -> & D); [congruence|].
    split; [intros g _; now rewrite D|]. split; [now rewrite D|auto].
Qed.
Lemma c88_full cv s0 t s f : fresh s0 -> history cv s0 t s -> ~ some_free t -> can_create t s (trim f) ->
  exists s', run cv (CCreate f) s = Stop s' /\ assoc (trim f) (disk s') = Some empty_file.
Proof.
  intros F H NF C. apply inv_history in H; [|exact F]. apply inv1_init in H. destruct (init_tables_disk s) as (ID & _). cbn [run]. unfold fmap, mbind, create_file, ret.
  set (s1 := init_tables s) in *. pose proof (fcreate_iff t s1 (trim f) H) as K. destruct (fcreate _ s1) as [[id s2]|].
  - destruct K as (_ & -> & E1). subst s2. rewrite take_slot_spec. pose proof (free_slot_current t s1 H) as FS. set (s2 := with_lib s1 _ _ _). change (slots s2) with (slots s1).
    destruct (free_slot (slots s1) 1) as [i|].
    + destruct FS as [(R & L & _) _]. exfalso. apply NF. exists i. auto.
    + exists s2. split; [reflexivity|]. cbn. now rewrite assoc_put, str_eqb_refl.
  - exfalso. apply K. now apply can_create_init.
Qed.
