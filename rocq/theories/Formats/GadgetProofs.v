(** Opening Gadget snapshots. *)
From Coq Require Import Ascii String.
From Verif.Base Require Import Prelude ListLemmas Order.
From Verif.Binary Require Import BinModel NameProofs LayoutProofs EndianProofs FortranProofs UsedProofs TreeProofs.
From Verif.Formats Require Import ReaderModel FileSpec ReaderProofs RunProofs CatSpec CatProofs SnapProofs CatFinal GadgetSpec.
From Coq Require Import ZifyBool ZifyNat.
Local Open Scope Z_scope.

(** *** names *)
Lemma pieces_plain s : ~ In slash s -> pieces s = [s].
Proof.
  induction s as [|c s IH]; intro H; [reflexivity|]. cbn [pieces]. destruct (Ascii.eqb_spec c slash) as [->|]; [contradict H; now left|]. rewrite IH; [reflexivity|]. intro. apply H. now right.
Qed.
Lemma pieces_slash s t : ~ In slash s -> pieces (s ++ slash :: t) = s :: pieces t.
Proof.
  induction s as [|c s IH]; intro H; [reflexivity|]. cbn [app pieces]. destruct (Ascii.eqb_spec c slash) as [->|]; [contradict H; now left|]. rewrite IH; [reflexivity|]. intro. apply H. now right.
Qed.
Lemma group_plain i : (i < 6)%nat -> ~ In slash (list_ascii_of_string (group_name i)) /\ list_ascii_of_string (group_name i) <> [].
Proof. intro H. do 6 (destruct i as [|i]; [split; [cbn; intuition discriminate | discriminate]|]). lia. Qed.
Lemma full_keys i q : (i < 6)%nat -> q_name q <> [] -> ~ In slash (q_name q) -> keys (full_name i q) = [list_ascii_of_string (group_name i); q_name q].
Proof.
  intros Hi H1 H2. destruct (group_plain i Hi) as [G1 G2]. unfold keys, comps, full_name. change "/"%char with slash. rewrite pieces_slash by exact G1. rewrite pieces_plain by exact H2. cbn [filter]. destruct (list_ascii_of_string (group_name i)) eqn:E; [contradiction|]. destruct (q_name q) eqn:E'; [contradiction|]. reflexivity.
Qed.
Lemma full_part i q : (i < 6)%nat -> full_name i q = part_name i (q_name q).
Proof. intro H. do 6 (destruct i as [|i]; [reflexivity|]). lia. Qed.
Lemma group_inj i j : (i < 6)%nat -> (j < 6)%nat -> group_name i = group_name j -> i = j.
Proof. intros Hi Hj. do 6 (destruct i as [|i]; [do 6 (destruct j as [|j]; [try reflexivity; discriminate|]); lia|]). lia. Qed.
Definition good_name (done : list str) (p : str * bool) : Prop :=
  if snd p then exists x, keys (fst p) = [nm "Header"; x] else exists i name, (i < 6)%nat /\ In name done /\ keys (fst p) = [list_ascii_of_string (group_name i); name].
Lemma good_more done done' p : incl done done' -> good_name done p -> good_name done' p.
Proof. unfold good_name. intros Hi H. destruct (snd p); [exact H|]. destruct H as (i & name & H1 & H2 & H3). exists i, name. auto. Qed.
Lemma keys2_prefix a b c d : prefixb [a; b] [c; d] = true -> a = c /\ b = d.
Proof. cbn. rewrite !andb_true_iff, !str_eqb_eq. tauto. Qed.
Lemma compat_good done q i p : (i < 6)%nat -> q_name q <> [] -> ~ In slash (q_name q) -> ~ In (q_name q) done -> good_name done p -> compatible (full_name i q) false (fst p) (snd p) = true.
Proof.
  intros Hi H1 H2 H3 H. unfold compatible. rewrite full_keys by assumption. unfold good_name in H. destruct (snd p).
  - destruct H as (x & ->). destruct (prefixb _ _) eqn:E; [|reflexivity]. exfalso. apply keys2_prefix in E. destruct E as [E _]. do 6 (destruct i as [|i]; [discriminate|]). lia.
  - destruct H as (j & name & Hj & Hn & ->). destruct (prefixb [list_ascii_of_string (group_name i); q_name q] _) eqn:E; [apply keys2_prefix in E; destruct E as [_ E]; subst; contradiction|]. destruct (prefixb _ _) eqn:E' at 1; [apply keys2_prefix in E'; destruct E' as [_ E']; subst; contradiction | reflexivity].
Qed.
Lemma ascii_inj a b : list_ascii_of_string a = list_ascii_of_string b -> a = b.
Proof. intro H. rewrite <- (string_of_list_ascii_of_string a), <- (string_of_list_ascii_of_string b). now rewrite H. Qed.
Lemma compat_types q i j : (i < 6)%nat -> (j < 6)%nat -> i <> j -> q_name q <> [] -> ~ In slash (q_name q) -> compatible (full_name i q) false (full_name j q) false = true.
Proof.
  intros Hi Hj Hij H1 H2. unfold compatible. rewrite !full_keys by assumption. destruct (prefixb [list_ascii_of_string (group_name i); q_name q] _) eqn:E; [apply keys2_prefix in E; destruct E as [E _]; apply ascii_inj, group_inj in E; auto; contradiction|]. destruct (prefixb _ _) eqn:E' at 1; [apply keys2_prefix in E'; destruct E' as [E' _]; apply ascii_inj, group_inj in E'; auto; congruence | reflexivity].
Qed.

Section Block.
  Variables (npart : list Z) (size : str -> Z) (vals : str -> nat -> list Z).
  Definition the_item (q : quantity) (i : nat) : item := (full_name i q, size (q_name q), nth i npart 0 :: q_shape q, vals (q_name q) i).
  Definition types_of (q : quantity) : list nat := filter (fun i => has_type q i && (0 <? nth i npart 0)) (seq 0 6).
  Lemma arrays_items q : arrays npart size vals q = map (as_piece false) (map (the_item q) (types_of q)).
  Proof. unfold arrays, types_of. rewrite map_map. reflexivity. Qed.
  Lemma items_fresh_ok q done : q_name q <> [] -> ~ In slash (q_name q) -> ~ In (q_name q) done -> forall l ns, NoDup l -> Forall (fun i => (i < 6)%nat) l ->
    (forall p, In p ns -> good_name done p \/ exists j, (j < 6)%nat /\ ~ In j l /\ p = (full_name j q, false)) -> items_fresh ns false (map (the_item q) l) = true.
  Proof.
    intros H1 H2 H3. induction l as [|i l IH]; intros ns Hnd Hl Hns; [reflexivity|]. inversion_clear Hnd as [|? ? Hni Hnd']. apply Forall_cons_iff in Hl. destruct Hl as [Hi Hl]. cbn [map items_fresh the_item it_name]. apply andb_true_iff. split.
    - unfold names_fresh. apply forallb_forall. intros p Hp. destruct (Hns p Hp) as [G|(j & Hj & Hjl & ->)]; [now apply (compat_good done)|]. cbn [fst snd]. apply compat_types; auto. intros ->. apply Hjl. now left.
    - apply IH; auto. intros p Hp. apply in_app_iff in Hp. destruct Hp as [Hp|[<-|[]]].
      + destruct (Hns p Hp) as [G|(j & Hj & Hjl & ->)]; [now left | right; exists j; split; [exact Hj|]; split; [|reflexivity]; intro; apply Hjl; now right].
      + right. exists i. auto.
  Qed.
  Lemma types_ok q : NoDup (types_of q) /\ Forall (fun i => (i < 6)%nat) (types_of q).
  Proof. split; [apply NoDup_filter, seq_NoDup|]. apply Forall_forall. intros i Hi. apply filter_In in Hi. destruct Hi as [Hi _]. apply in_seq in Hi. lia. Qed.
  Lemma good_items q done : q_name q <> [] -> ~ In slash (q_name q) -> In (q_name q) done -> Forall (good_name done) (map pname (arrays npart size vals q)).
  Proof.
    intros H1 H2 H3. rewrite arrays_items, !map_map. apply Forall_map. destruct (types_ok q) as [_ H]. eapply Forall_impl; [|exact H]. intros i Hi. unfold good_name. cbn [the_item as_piece pname fst snd]. exists i, (q_name q). split; [exact Hi|]. split; [exact H3|]. now apply full_keys.
  Qed.
  (** the model's way to say it *)
  Lemma list6 {A} (l : list A) : List.length l = 6%nat -> exists a b c d e f, l = [a; b; c; d; e; f].
  Proof. intro H. do 6 (destruct l as [|? l]; [discriminate|]). destruct l; [|discriminate]. do 6 eexists. reflexivity. Qed.
  Hypothesis Hnp : List.length npart = 6%nat.
  Hypothesis Hpos : Forall (fun n => 0 <= n) npart.
  Lemma number_mask q : List.length (q_types q) = 6%nat -> sumZ (np_mask npart (q_types q)) = number npart q.
  Proof using Hnp.
    clear Hpos. intro H. unfold number, has_type. destruct (list6 (q_types q) H) as (b0 & b1 & b2 & b3 & b4 & b5 & ->). destruct (list6 npart Hnp) as (n0 & n1 & n2 & n3 & n4 & n5 & ->). cbn [seq map nth sumZ]. destruct b0, b1, b2, b3, b4, b5; cbn [np_mask sumZ]; lia.
  Qed.
  Lemma filter_map_comm {A B} (g : A -> B) (p : B -> bool) l : filter p (map g l) = map g (filter (fun x => p (g x)) l).
  Proof. clear. induction l as [|x l IH]; [reflexivity|]. cbn. destruct (p (g x)); cbn; now rewrite IH. Qed.
  Lemma calls_items q d : List.length (q_types q) = 6%nat -> size (q_name q) = d ->
    map (fun p : nat * (bool * Z) => (part_name (fst p) (q_name q), num d, snd (snd p) :: q_shape q)) (filter (fun p : nat * (bool * Z) => fst (snd p) && (0 <? snd (snd p))) (combine (seq 0 6) (combine (q_types q) npart))) = map as_call (map (the_item q) (types_of q)).
  Proof using Hnp.
    clear Hpos. intros H Hd. assert (combine (seq 0 6) (combine (q_types q) npart) = map (fun i => (i, (has_type q i, nth i npart 0))) (seq 0 6)) as ->.
    { unfold has_type. destruct (list6 (q_types q) H) as (b0 & b1 & b2 & b3 & b4 & b5 & ->). destruct (list6 npart Hnp) as (n0 & n1 & n2 & n3 & n4 & n5 & ->). reflexivity. }
    rewrite filter_map_comm, !map_map. cbn [fst snd]. unfold types_of. apply map_ext_in. intros i Hi. apply filter_In in Hi. destruct Hi as [Hi _]. apply in_seq in Hi. cbn [the_item as_call]. rewrite full_part, Hd by lia. reflexivity.
  Qed.
  Lemma prod_cons n sh : fold_left Z.mul (n :: sh) 1 = n * fold_left Z.mul sh 1.
  Proof.
    clear. cbn [fold_left]. replace (1 * n) with n by lia. assert (forall a b, fold_left Z.mul sh (a * b) = a * fold_left Z.mul sh b) as E. { induction sh as [|s sh IH]; intros a b; [reflexivity|]. cbn [fold_left]. now rewrite <- Z.mul_assoc, IH. } rewrite <- E. f_equal. lia.
  Qed.
  Lemma arrays_size q : Forall piece_ok (arrays npart size vals q) -> sumZ (map piece_size (arrays npart size vals q)) = size (q_name q) * fold_left Z.mul (q_shape q) 1 * number npart q.
  Proof using Hpos Hnp.
    intro H. rewrite declared_sum by exact H. unfold arrays, number. rewrite map_map. generalize (seq 0 6) as l. induction l as [|i l IH]; [cbn; lia|]. cbn [filter]. assert (0 <= nth i npart 0) as Hi by (destruct (Nat.lt_ge_cases i (List.length npart)); [rewrite Forall_forall in Hpos; apply Hpos, nth_In; assumption | rewrite nth_overflow by assumption; lia]).
    cbn [map sumZ]. destruct (has_type q i) eqn:E; cbn [andb].
    - destruct (Z.ltb_spec 0 (nth i npart 0)).
      + cbn [map sumZ]. rewrite IH. unfold array. cbn [declared]. rewrite prod_cons. ring.
      + rewrite IH. replace (nth i npart 0) with 0 by lia. ring.
    - rewrite IH. ring.
  Qed.
End Block.

Lemma prod_pos sh : Forall (fun s => 0 < s) sh -> 0 < fold_left Z.mul sh 1.
Proof.
  intro H. assert (forall a, 0 < a -> 0 < fold_left Z.mul sh a) as E; [|apply E; lia]. induction sh as [|s sh IH]; intros a Ha; [exact Ha|]. apply Forall_cons_iff in H. destruct H as [Hs H]. cbn. apply IH; [exact H | nia].
Qed.
(** conditions on the quantities still to be read *)
Record quantities_ok (size : str -> Z) (l : list dataset) : Prop := {
  k_names : NoDup (map q_name (map given l)) /\ Forall (fun q => q_name q <> [] /\ ~ In slash (q_name q)) (map given l);
  k_types : Forall (fun q => List.length (q_types q) = 6%nat) (map given l);
  k_shape : Forall (fun q => Forall (fun s => 0 < s) (q_shape q)) (map given l);
  k_size : Forall (fun q => size (q_name q) = 4 \/ size (q_name q) = 8) (map given l);
  k_number : Forall number_type l }.
Lemma quantities_tail size d l : quantities_ok size (d :: l) -> quantities_ok size l.
Proof. intros [[H1 H1'] H2 H3 H4 H5]. cbn [map] in *. apply Forall_cons_iff in H1', H2, H3, H4, H5. inversion_clear H1. split; try tauto. Qed.
(** what is left after [n] blocks *)
Fixpoint after (npart : list Z) (n : nat) (l : list dataset) : list dataset :=
  match n, l with
  | O, _ => l
  | _, [] => []
  | S n', d :: l' => if 0 <? number npart (given d) then after npart n' l' else after npart n l'
  end.
Lemma after_present npart : forall l n, present npart (map given (after npart n l)) = skipn n (present npart (map given l)).
Proof.
  induction l as [|d l IH]; intros [|n]; try reflexivity. cbn [after map]. unfold present. cbn [filter]. fold (present npart (map given l)). destruct (0 <? number npart (given d)); [cbn [skipn]; apply IH|]. change (filter (fun q => 0 <? number npart q) (map given l)) with (present npart (map given l)). apply (IH (S n)).
Qed.

Lemma after_0 npart l : after npart 0 l = l.
Proof. now destruct l. Qed.

Section Run.
  Variables (little lf : bool) (content post : list Z).
  Hypothesis Hne : content <> [].
  Variables (npart : list Z) (size : str -> Z) (vals : str -> nat -> list Z).
  Hypothesis Hnp : List.length npart = 6%nat.
  Hypothesis Hpos : Forall (fun n => 0 <= n) npart.
  Set Default Proof Using "All".
  Local Notation runs := (runs little lf content post).
  Local Notation right e := (rightly little lf e).
  Local Notation block := (block npart size vals).
  Local Notation arrays := (arrays npart size vals).
  Local Notation present := (present npart).

  (** the state between blocks *)
  Definition between (ps : list piece) (done : list str) (gap : Z) (st : lst) : Prop :=
    knowsP ps st /\ right (l_cur st) = true /\ l_rec st = None /\ l_gap st = gap /\ Forall (good_name done) (map pname ps).
  Definition disjoint_names (done : list str) (l : list dataset) : Prop := forall q, In q (map given l) -> ~ In (q_name q) done.
  (** the record marker *)
  Definition block_size (q : quantity) : Z := size (q_name q) * fold_left Z.mul (q_shape q) 1 * number npart q.
  Lemma read_mark ps done gap st n k h rest Q : between ps done gap st -> 0 <= n < 2 ^ 32 -> (forall st', between ps done gap st' -> l_pos st' = l_pos st + 4 -> runs st' (k [n]) rest Q) -> runs st (ReadSkip t_uint32 k h) (Mark n :: rest) Q.
  Proof.
    intros (B1 & B2 & B3 & B4 & B5) Hn Hk. apply (runs_mark little lf content post Hne); [exact Hn|]. rewrite B2. apply Hk; [|reflexivity]. split; [exact B1|]. split; [exact B2|]. split; [exact B3|]. split; assumption.
  Qed.
  Lemma skip_absent l c : present (map given l) = [] -> blocks npart l c = Done \/ exists d, In d l /\ List.length (q_types (given d)) <> 6%nat.
  Proof.
    induction l as [|d l IH]; intro H; [now left|]. cbn [map] in H. unfold GadgetSpec.present in H. cbn [filter] in H. destruct (0 <? number npart (given d)) eqn:E; [discriminate|].
    destruct (Nat.eq_dec (List.length (q_types (given d))) 6) as [E6|E6]; [|right; exists d; split; [now left | exact E6]].
    destruct (IH H) as [IH'|(d' & H1 & H2)]; [left | right; exists d'; split; [now right | exact H2]]. destruct d as [[[name ty] shape] types]. cbn [blocks]. pose proof (number_mask npart Hnp (given (name, ty, shape, types)) E6) as Em. cbn [given q_types] in Em. rewrite Em. change {| q_name := name; q_shape := shape; q_types := types |} with (given (name, ty, shape, types)). rewrite E. exact IH'.
  Qed.
  Lemma present_first l q t c : Forall (fun q => List.length (q_types q) = 6%nat) (map given l) -> present (map given l) = q :: t -> exists d l', given d = q /\ blocks npart l c = blocks npart (d :: l') c /\ 0 < number npart q /\ present (map given l') = t /\ (exists l0, l = l0 ++ d :: l').
  Proof.
    induction l as [|d l IH]; intros H6 H; [discriminate|]. cbn [map] in *. apply Forall_cons_iff in H6. destruct H6 as [H6 H6']. unfold GadgetSpec.present in H. cbn [filter] in H. destruct (Z.ltb_spec 0 (number npart (given d))) as [E|E].
    - injection H as E1 E2. exists d, l. subst q. repeat split; auto. exists []. reflexivity.
    - destruct (IH H6' H) as (d' & l' & E1 & E2 & E3 & E4 & (l0 & E5)). exists d', l'. split; [exact E1|]. split; [|split; [exact E3|]; split; [exact E4|]; exists (d :: l0); rewrite E5; reflexivity].
      rewrite <- E2. destruct d as [[[name ty] shape] types]. cbn [blocks]. pose proof (number_mask npart Hnp (given (name, ty, shape, types)) H6) as Em. cbn [given q_types] in Em. rewrite Em. change {| q_name := name; q_shape := shape; q_types := types |} with (given (name, ty, shape, types)). replace (0 <? number npart (given (name, ty, shape, types))) with false by lia. reflexivity.
  Qed.
  (** one block: its start marker *)
  Definition block_end (q : quantity) (l : list dataset) (c : Z) : prog :=
    ReadSkip t_uint32 (fun v => if negb (nth 0 v 0 =? block_size q) then Fail EIO else blocks npart l (c + 1)) (Fail EIO).
  Definition block_items (q : quantity) : list item := map (the_item npart size vals q) (types_of npart q).
  Lemma run_block_start d l ps done gap st c rest Q : between ps done gap st -> quantities_ok size (d :: l) -> 0 < number npart (given d) -> block_size (given d) < 2 ^ 32 ->
    (forall st', between ps done gap st' -> l_pos st' = l_pos st + 4 -> runs st' (add_all false (map as_call (block_items (given d))) (block_end (given d) l c)) rest Q) ->
    runs st (blocks npart (d :: l) c) (Mark (block_size (given d)) :: rest) Q.
  Proof.
    intros B Hq Hnum Hlt Hk. destruct Hq as [_ Ht Hsh Hsz Hty]. cbn [map] in *. apply Forall_cons_iff in Ht, Hsh, Hsz, Hty. destruct Ht as [Ht _], Hsh as [Hsh _], Hsz as [Hsz _], Hty as [Hty _].
    pose proof (prod_pos _ Hsh) as Hpp. set (q := given d) in *. assert (q = given d) as Eq by reflexivity. destruct d as [[[name ty] shape] types]. cbn [given] in Eq.
    assert (q_name q = name) as En by (rewrite Eq; reflexivity). assert (q_shape q = shape) as Es by (rewrite Eq; reflexivity). assert (q_types q = types) as Et by (rewrite Eq; reflexivity). clearbody q.
    cbn [blocks]. rewrite <- Et, (number_mask npart Hnp q Ht). replace (0 <? number npart q) with true by lia. rewrite <- Es, <- En. unfold block_end in Hk. unfold block_size in *. set (pp := fold_left Z.mul (q_shape q) 1) in *.
    assert (0 <= size (q_name q) * pp * number npart q) as Hm by (destruct Hsz as [-> | ->]; nia).
    apply (read_mark ps done gap); [exact B | lia|]. intros st1 B1 P1. cbv beta zeta. cbn [nth].
    assert (size (q_name q) * pp * number npart q / (pp * number npart q) = size (q_name q)) as -> by (rewrite <- Z.mul_assoc; apply Z.div_mul; nia).
    rewrite Z.eqb_refl. replace (negb (size (q_name q) =? 4) && negb (size (q_name q) =? 8) || negb true) with false by (destruct Hsz as [-> | ->]; reflexivity). cbv iota.
    assert (forall X, match ty with TOther => Fail EValue | _ => X end = X) as ->. { intro X. cbn in Hty. destruct ty; [reflexivity | reflexivity | contradiction]. }
    rewrite (calls_items npart size vals Hnp q _ Ht eq_refl).
    assert (itemsize (num (size (q_name q))) = size (q_name q)) as Ei by (apply num_ok; destruct Hsz as [-> | ->]; lia). rewrite Ei.
    replace (pp * size (q_name q) * number npart q) with (size (q_name q) * pp * number npart q) by ring.
    exact (Hk st1 B1 P1).
  Qed.
  Lemma block_fresh d l ps done gap st : between ps done gap st -> quantities_ok size (d :: l) -> disjoint_names done (d :: l) -> items_fresh (map pname ps) false (block_items (given d)) = true.
  Proof.
    intros (K1 & R1 & C1 & G1 & N1) [[Hn1 Hn2] _ _ _ _] Hd. cbn [map] in *. apply Forall_cons_iff in Hn2. destruct Hn2 as [[Hn2 Hn3] _]. pose proof (Hd (given d) (or_introl eq_refl)) as Hnew. destruct (types_ok npart vals (given d)) as [T1 T2].
    apply (items_fresh_ok npart size vals (given d) done); auto. intros p Hp. left. rewrite Forall_forall in N1. now apply N1.
  Qed.
  (** one block up to its end marker *)
  Lemma run_block d l ps done gap st c rest Q : between ps done gap st -> quantities_ok size (d :: l) -> disjoint_names done (d :: l) -> 0 < number npart (given d) -> Forall piece_ok (arrays (given d)) -> block_size (given d) < 2 ^ 32 ->
    (forall st', between (ps ++ arrays (given d)) (q_name (given d) :: done) gap st' -> l_pos st' = l_pos st + 4 + block_size (given d) -> runs st' (block_end (given d) l c) rest Q) ->
    runs st (blocks npart (d :: l) c) (Mark (block_size (given d)) :: arrays (given d) ++ rest) Q.
  Proof.
    intros B Hq Hd Hnum Hok Hlt Hk. apply (run_block_start d l ps done gap); auto. intros st1 B1 P1. pose proof (block_fresh d l ps done gap st1 B1 Hq Hd) as Hf.
    destruct Hq as [[Hn1 Hn2] _ _ _ _]. cbn [map] in *. apply Forall_cons_iff in Hn2. destruct Hn2 as [[Hn2 Hn3] _]. destruct B1 as (K1 & R1 & C1 & G1 & N1). unfold block_items in *. rewrite arrays_items in *.
    apply (runs_items little lf content post Hne false _ ps); [exact K1 | exact Hf | exact Hok|].
    intros st2 K2 E1 E2 E3 E4. apply Hk.
    - split; [exact K2|]. split; [congruence|]. split; [congruence|]. split; [congruence|]. rewrite map_app. apply Forall_app. split.
      + eapply Forall_impl; [|exact N1]. intros p. apply good_more. intros x Hx. now right.
      + rewrite <- arrays_items. apply (good_items npart size vals); auto. now left.
    - rewrite E4, P1, <- arrays_items, (arrays_size npart size vals Hnp Hpos) by (rewrite arrays_items; exact Hok). reflexivity.
  Qed.
  Lemma disjoint_tail done d l : quantities_ok size (d :: l) -> disjoint_names done (d :: l) -> disjoint_names (q_name (given d) :: done) l.
  Proof.
    intros [[Hn _] _ _ _ _] H q Hq [E|Hin]; [|exact (H q (or_intror Hq) Hin)]. cbn [map] in Hn. inversion_clear Hn as [|? ? Hni _]. apply Hni. rewrite E. apply in_map_iff. exists q. auto.
  Qed.
  Lemma run_block_end d l ps done gap st c rest Q : between ps done gap st -> quantities_ok size (d :: l) -> disjoint_names done (d :: l) -> 0 < number npart (given d) -> Forall piece_ok (block (given d)) ->
    (forall st', between (ps ++ arrays (given d)) (q_name (given d) :: done) gap st' -> runs st' (blocks npart l (c + 1)) rest Q) ->
    runs st (blocks npart (d :: l) c) (block (given d) ++ rest) Q.
  Proof.
    intros B Hq Hd Hnum Hok Hk. unfold GadgetSpec.block, record in *. apply Forall_cons_iff in Hok. destruct Hok as [Hm Hok]. apply Forall_app in Hok. destruct Hok as [Hok _]. cbn [app]. rewrite <- app_assoc.
    rewrite (arrays_size npart size vals Hnp Hpos) in * by exact Hok. fold (block_size (given d)) in *. cbn [piece_ok] in Hm.
    apply (run_block d l ps done gap); auto; [lia|]. intros st1 B1 _. cbn [app]. apply (read_mark (ps ++ arrays (given d)) (q_name (given d) :: done) gap); [exact B1 | lia|]. intros st2 B2 _. cbn [nth]. rewrite Z.eqb_refl. cbn [negb]. now apply Hk.
  Qed.
  Lemma run_blocks n : forall l ps done gap st c rest Q, (n <= List.length (present (map given l)))%nat -> between ps done gap st -> quantities_ok size l -> disjoint_names done l -> Forall piece_ok (flat_map block (firstn n (present (map given l)))) ->
    (forall st' done', between (ps ++ flat_map arrays (firstn n (present (map given l)))) done' gap st' -> quantities_ok size (after npart n l) -> disjoint_names done' (after npart n l) -> runs st' (blocks npart (after npart n l) (c + Z.of_nat n)) rest Q) ->
    runs st (blocks npart l c) (flat_map block (firstn n (present (map given l))) ++ rest) Q.
  Proof.
    induction n as [|n IHn]; intros l ps done gap st c rest Q Hn B Hq Hd Hok Hk.
    - cbn [firstn flat_map app]. replace c with (c + Z.of_nat 0) by lia. rewrite after_0 in Hk. apply (Hk st done); [now rewrite app_nil_r | exact Hq | exact Hd].
    - revert ps done st c B Hq Hd Hk. induction l as [|d l IHl]; intros ps done st c B Hq Hd Hk; [cbn in Hn; lia|].
      change (map given (d :: l)) with (given d :: map given l) in *. change (present (given d :: map given l)) with (if 0 <? number npart (given d) then given d :: present (map given l) else present (map given l)) in *. cbn [after] in Hk. destruct (0 <? number npart (given d)) eqn:E0; [assert (0 < number npart (given d)) as E by lia | assert (number npart (given d) <= 0) as E by lia].
      + cbn [firstn flat_map List.length] in *. apply Forall_app in Hok. destruct Hok as [Hok1 Hok2]. rewrite <- app_assoc. apply (run_block_end d l ps done gap); auto. intros st1 B1.
        apply (IHn l (ps ++ arrays (given d)) (q_name (given d) :: done) gap); [lia | exact B1 | now apply quantities_tail in Hq | now apply disjoint_tail | exact Hok2|].
        intros st2 done2 B2 Q2 D2. replace (c + 1 + Z.of_nat n) with (c + Z.of_nat (S n)) by lia. apply (Hk st2 done2); auto. now rewrite app_assoc.
      + assert (blocks npart (d :: l) c = blocks npart l c) as ->.
        { destruct Hq as [_ Ht _ _ _]. cbn [map] in Ht. apply Forall_cons_iff in Ht. destruct Ht as [Ht _]. destruct d as [[[name ty] shape] types]. cbn [blocks]. pose proof (number_mask npart Hnp (given (name, ty, shape, types)) Ht) as Em. cbn [given q_types] in Em. rewrite Em. change {| q_name := name; q_shape := shape; q_types := types |} with (given (name, ty, shape, types)). replace (0 <? number npart (given (name, ty, shape, types))) with false by lia. reflexivity. }
        apply (IHl Hn Hok ps done); auto; [now apply quantities_tail in Hq | intros q' Hq'; apply Hd; now right].
  Qed.
End Run.
