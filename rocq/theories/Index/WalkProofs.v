(** Proofs about the walk over the trees (index_trees.py:48-90). *)
From Verif.Base Require Import Prelude Order ListLemmas.
From Verif.Index Require Import IndexModel LinkProofs ForestProofs.
From Coq Require Import ZifyBool ZifyNat.
Local Open Scope Z_scope.

(** numbers given to the halos of a sequence *)
Fixpoint assign (l : list Z) (df : list Z) (t : Z) : list Z :=
  match l with
  | [] => df
  | j :: l => assign l (set_nth df (Z.to_nat j) t) (t + 1)
  end.

Lemma assign_app l m : forall df t, assign (l ++ m) df t = assign m (assign l df t) (t + zlen l).
Proof.
  induction l as [|j l IH]; intros df t; cbn [app assign]; [f_equal; unfold zlen; cbn; lia|].
  rewrite IH. f_equal. rewrite zlen_cons. lia.
Qed.

Lemma assign_len l : forall df t, zlen (assign l df t) = zlen df.
Proof. induction l as [|j l IH]; intros df t; cbn [assign]; [reflexivity|]. now rewrite IH, zlen_set_nth. Qed.

Lemma assign_out l : forall df t x, (forall j, In j l -> 0 <= j < zlen df) -> 0 <= x -> ~ In x l -> gz (assign l df t) x = gz df x.
Proof.
  induction l as [|j l IH]; intros df t x Hin Hx Hni; [reflexivity|]. cbn [assign]. rewrite IH.
  - assert (0 <= j < zlen df) as Hj by (apply Hin; now left). rewrite gz_set by lia. destruct (Z.eqb_spec x j) as [->|]; [exfalso; apply Hni; now left | reflexivity].
  - intros k Hk. rewrite zlen_set_nth. apply Hin. now right.
  - assumption.
  - intro Hc. apply Hni. now right.
Qed.

Lemma assign_nth l : forall df t k, (forall j, In j l -> 0 <= j < zlen df) -> NoDup l -> (k < length l)%nat -> gz (assign l df t) (nth k l 0) = t + Z.of_nat k.
Proof.
  induction l as [|j l IH]; intros df t k Hin Hnd Hk; [cbn in Hk; lia|]. cbn [assign]. apply NoDup_cons_iff in Hnd. destruct Hnd as [Hj Hnd].
  assert (0 <= j < zlen df) as Hjr by (apply Hin; now left).
  destruct k as [|k]; cbn [nth].
  - rewrite assign_out; [rewrite gz_set by lia; rewrite Z.eqb_refl; lia | intros k Hk'; rewrite zlen_set_nth; apply Hin; now right | lia | assumption].
  - rewrite IH; [lia | intros i Hi; rewrite zlen_set_nth; apply Hin; now right | assumption | cbn in Hk; lia].
Qed.

Section Walk.
  Context (dp pp np : list Z) (ch : Z -> list Z).
  Notation n := (length dp).
  Notation ins := (ins n).
  Notation D := (D dp).
  Notation reach := (reach n D).
  Notation sub := (sub n ch).
  Context (Hpp : zlen pp = zlen dp) (Hnp : zlen np = zlen dp).
  Context (HD : forall i, ins i -> D i = -1 \/ ins (D i)).
  Context (Hch : forall j c, ins j -> In c (ch j) <-> ins c /\ D c = j).
  Context (Hnd : forall j, NoDup (ch j)).
  Context (Hfirst : forall j, ins j -> gz pp j = hd (-1) (ch j)).
  Context (Hnext : forall j, ins j -> forall l1 a l2, ch j = l1 ++ a :: l2 -> gz np a = hd (-1) l2).

  Set Default Proof Using "All".

  Definition st pc_ h stack df t := {| w_pc := pc_; w_halo := h; w_stack := stack; w_index := df; w_next := t |}.
  Definition runs f (k : nat) (w w' : walker) : Prop := forall fuel, walk pp np dp f (k + fuel) w = walk pp np dp f fuel w'.

  Lemma runs_trans f k1 k2 w1 w2 w3 : runs f k1 w1 w2 -> runs f k2 w2 w3 -> runs f (k1 + k2) w1 w3.
  Proof. intros H1 H2 fuel. rewrite <- Nat.add_assoc, H1. apply H2. Qed.

  Lemma runs_step f w w' : walk_step pp np dp f w = Ok (inl w') -> runs f 1 w w'.
  Proof. intros H fuel. cbn [Nat.add walk]. rewrite H. reflexivity. Qed.

  Lemma ins_z i : ins i -> 0 <= i < zlen dp.
  Proof. unfold ForestProofs.ins, zlen. lia. Qed.

  Lemma step_assign f h s df t : ins h -> zlen df = zlen dp -> runs f 1 (st PAssign h s df t) (st PDown h s (set_nth df (Z.to_nat h) t) (t + 1)).
  Proof.
    intros Hh Hdf. apply runs_step. unfold walk_step, st. cbn [w_pc w_halo w_stack w_index w_next]. rewrite py_set_ok by (apply ins_z in Hh; lia). reflexivity.
  Qed.

  Lemma step_down f h c rest s df t : ins h -> zlen df = zlen dp -> ch h = c :: rest ->
    runs f 1 (st PDown h s df t) (st PDown c (hd (-1) rest :: s) (set_nth df (Z.to_nat c) t) (t + 1)).
  Proof.
    intros Hh Hdf Hc. assert (ins c) as Hci by (apply (Hch h); [assumption | rewrite Hc; now left]). pose proof (ins_z _ Hh). pose proof (ins_z _ Hci).
    apply runs_step. unfold walk_step, st. cbn [w_pc w_halo w_stack w_index w_next]. rewrite gz_py by lia. cbn [bind]. rewrite Hfirst, Hc by assumption. cbn [hd].
    replace (0 <=? c) with true by lia. rewrite gz_py by lia. cbn [bind]. rewrite py_set_ok by lia. cbn [bind]. rewrite (Hnext h Hh [] c rest Hc). reflexivity.
  Qed.

  Lemma step_bottom f h s df t : ins h -> ch h = [] -> runs f 1 (st PDown h s df t) (st PUp h s df t).
  Proof.
    intros Hh Hc. pose proof (ins_z _ Hh). apply runs_step. unfold walk_step, st. cbn [w_pc w_halo w_stack w_index w_next]. rewrite gz_py by lia. cbn [bind]. rewrite Hfirst, Hc by assumption. reflexivity.
  Qed.

  (** children of j from c on *)
  Lemma step_children f m j : In f (zseq 0 n) -> D f = -1 -> reach m j ->
    (forall c, In c (ch j) -> forall s df t, zlen df = zlen dp ->
       exists k, (k + 3 <= 4 * length (sub c))%nat /\ runs f k (st PDown c s df t) (st PUp c s (assign (tl (sub c)) df t) (t + zlen (tl (sub c))))) ->
    forall rest c l1 s df t, ch j = l1 ++ c :: rest -> zlen df = zlen dp ->
    exists k, (k + 2 <= 4 * length (flat_map sub (c :: rest)))%nat /\
      runs f k (st PDown c (hd (-1) rest :: s) df t)
               (st PUp j s (assign (tl (flat_map sub (c :: rest))) df t) (t + zlen (tl (flat_map sub (c :: rest))))).
  Proof.
    intros Hf Hf' Hr IH. pose proof (reach_in n D ch HD Hch Hnd _ _ Hr) as Hj. pose proof (ins_z _ Hj).
    assert (forall c, In c (ch j) -> sub c <> []) as Hne.
    { intros c Hc. rewrite (sub_eq n D ch HD Hch Hnd (S m)) by (now apply (reach_child n D ch HD Hch Hnd m j)). discriminate. }
    induction rest as [|c' rest IHr]; intros c l1 s df t Hc Hdf.
    - assert (In c (ch j)) as Hcin by (rewrite Hc; apply in_elt).
      assert (ins c /\ D c = j) as [Hci Hcd] by (now apply Hch). pose proof (ins_z _ Hci).
      destruct (IH c Hcin (-1 :: s) df t Hdf) as (k & Hk & Hrun). cbn [flat_map hd]. rewrite app_nil_r.
      exists (k + 1)%nat. split; [lia|]. eapply runs_trans; [exact Hrun|]. apply runs_step. unfold walk_step, st. cbn [w_pc w_halo w_stack w_index w_next].
      rewrite gz_py by lia. cbn [bind]. change (gz dp c) with (D c). rewrite Hcd. replace (0 <=? j) with true by lia. reflexivity.
    - assert (In c (ch j)) as Hcin by (rewrite Hc; apply in_elt).
      assert (ch j = (l1 ++ [c]) ++ c' :: rest) as Hc' by (rewrite <- app_assoc; exact Hc).
      assert (In c' (ch j)) as Hcin' by (rewrite Hc'; apply in_elt).
      assert (ins c /\ D c = j) as [Hci Hcd] by (now apply Hch). pose proof (ins_z _ Hci).
      assert (ins c' /\ D c' = j) as [Hci' Hcd'] by (now apply Hch). pose proof (ins_z _ Hci').
      destruct (IH c Hcin (c' :: s) df t Hdf) as (k & Hk & Hrun). cbn [hd].
      set (df1 := assign (tl (sub c)) df t) in *. set (t1 := t + zlen (tl (sub c))) in *.
      assert (zlen df1 = zlen dp) as Hdf1 by (unfold df1; now rewrite assign_len).
      destruct (IHr c' (l1 ++ [c]) s (set_nth df1 (Z.to_nat c') t1) (t1 + 1) Hc') as (k' & Hk' & Hrun'); [now rewrite zlen_set_nth|].
      exists (k + (1 + (1 + (1 + k'))))%nat. split.
      { change (flat_map sub (c :: c' :: rest)) with (sub c ++ flat_map sub (c' :: rest)). rewrite app_length. lia. }
      assert (flat_map sub (c' :: rest) = c' :: tl (flat_map sub (c' :: rest))) as Ehd.
      { change (flat_map sub (c' :: rest)) with (sub c' ++ flat_map sub rest). rewrite (sub_eq n D ch HD Hch Hnd (S m)) by (now apply (reach_child n D ch HD Hch Hnd m j)). reflexivity. }
      assert (tl (flat_map sub (c :: c' :: rest)) = tl (sub c) ++ c' :: tl (flat_map sub (c' :: rest))) as Etl.
      { rewrite <- Ehd. change (flat_map sub (c :: c' :: rest)) with (sub c ++ flat_map sub (c' :: rest)). specialize (Hne c Hcin). destruct (sub c); [congruence | reflexivity]. }
      rewrite Etl, assign_app, zlen_app, zlen_cons. cbn [assign]. fold df1. fold t1.
      eapply runs_trans; [exact Hrun|]. eapply runs_trans; [|eapply runs_trans; [|eapply runs_trans]].
      + apply runs_step. unfold walk_step, st. cbn [w_pc w_halo w_stack w_index w_next].
        rewrite gz_py by lia. cbn [bind]. change (gz dp c) with (D c). rewrite Hcd. replace (0 <=? j) with true by lia. replace (0 <=? c') with true by lia.
        rewrite gz_py by lia. cbn [bind]. reflexivity.
      + apply runs_step. unfold walk_step. cbn [w_pc w_halo w_stack w_index w_next].
        replace (c' =? f) with false by (destruct (Z.eqb_spec c' f); [subst; lia | reflexivity]). reflexivity.
      + apply step_assign; assumption.
      + rewrite (Hnext j Hj (l1 ++ [c]) c' rest Hc'). replace (t + (zlen (tl (sub c)) + (1 + zlen (tl (flat_map sub (c' :: rest)))))) with (t1 + 1 + zlen (tl (flat_map sub (c' :: rest)))) by (unfold t1; lia). exact Hrun'.
  Qed.

  Lemma visit f m j : In f (zseq 0 n) -> D f = -1 -> reach m j -> forall s df t, zlen df = zlen dp ->
    exists k, (k + 3 <= 4 * length (sub j))%nat /\ runs f k (st PDown j s df t) (st PUp j s (assign (tl (sub j)) df t) (t + zlen (tl (sub j)))).
  Proof.
    intros Hf Hf'. revert m j. apply (tree_ind n D ch HD Hch Hnd (fun j => forall s df t, zlen df = zlen dp ->
      exists k, (k + 3 <= 4 * length (sub j))%nat /\ runs f k (st PDown j s df t) (st PUp j s (assign (tl (sub j)) df t) (t + zlen (tl (sub j)))))).
    intros m j Hr IH s df t Hdf. pose proof (reach_in n D ch HD Hch Hnd _ _ Hr) as Hj. rewrite (sub_eq n D ch HD Hch Hnd m j Hr). cbn [tl length].
    destruct (ch j) as [|c rest] eqn:Hc.
    - exists 1%nat. split; [cbn; lia|]. cbn [flat_map assign]. replace (t + zlen []) with t by (unfold zlen; cbn; lia). now apply step_bottom.
    - rewrite <- Hc in *. destruct (step_children f m j Hf Hf' Hr IH rest c [] s (set_nth df (Z.to_nat c) t) (t + 1) Hc) as (k & Hk & Hrun); [now rewrite zlen_set_nth|].
      rewrite <- Hc in Hk. exists (1 + k)%nat. split; [lia|]. eapply runs_trans; [apply (step_down f j c rest); assumption|].
      assert (flat_map sub (c :: rest) = c :: tl (flat_map sub (c :: rest))) as Ehd.
      { change (flat_map sub (c :: rest)) with (sub c ++ flat_map sub rest). rewrite (sub_eq n D ch HD Hch Hnd (S m)) by (apply (reach_child n D ch HD Hch Hnd m j); [assumption | rewrite Hc; now left]). reflexivity. }
      rewrite Hc, Ehd, zlen_cons. cbn [assign]. replace (t + (1 + zlen (tl (flat_map sub (c :: rest))))) with (t + 1 + zlen (tl (flat_map sub (c :: rest)))) by lia. exact Hrun.
  Qed.

  Lemma walk_tree_ok f df t : ins f -> D f = -1 -> zlen df = zlen dp -> walk_tree pp np dp (df, t) f = Ok (assign (sub f) df t, t + zlen (sub f)).
  Proof.
    intros Hf Hd Hdf. assert (reach 0 f) as Hr by (now constructor). assert (In f (zseq 0 n)) as Hfz by (apply In_zseq; unfold ForestProofs.ins in Hf; lia).
    destruct (visit f 0 f Hfz Hd Hr [-1] (set_nth df (Z.to_nat f) t) (t + 1)) as (k & Hk & Hrun); [now rewrite zlen_set_nth|].
    pose proof (sub_length n D ch HD Hch Hnd 0 f Hr) as Hlen.
    pose proof (ins_z _ Hf) as Hfi.
    assert (runs f 1 (st PUp f [-1] (assign (tl (sub f)) (set_nth df (Z.to_nat f) t) (t + 1)) (t + 1 + zlen (tl (sub f))))
                     (st PCheck f [-1] (assign (sub f) df t) (t + zlen (sub f)))) as Hup.
    { apply runs_step. unfold walk_step, st. cbn [w_pc w_halo w_stack w_index w_next]. rewrite gz_py by lia. cbn [bind]. change (gz dp f) with (D f). rewrite Hd. cbn [Z.leb].
      rewrite (sub_eq n D ch HD Hch Hnd 0 f Hr). cbn [tl assign]. rewrite zlen_cons. rewrite Z.add_assoc. reflexivity. }
    pose proof (runs_trans f 1 (k + 1) _ _ _ (step_assign f f [-1] df t Hf Hdf) (runs_trans f k 1 _ _ _ Hrun Hup)) as Hall.
    unfold walk_tree. cbn [fst snd]. fold (st PAssign f [-1] df t).
    replace (5 * n + 5)%nat with ((1 + (k + 1)) + (5 * n + 5 - (1 + (k + 1))))%nat by lia. rewrite Hall.
    destruct (5 * n + 5 - (1 + (k + 1)))%nat as [|fuel] eqn:E; [lia|]. cbn [walk]. unfold walk_step, st. cbn [w_pc w_halo w_index w_next]. rewrite Z.eqb_refl. reflexivity.
  Qed.

  Lemma walk_all : forall finals df t, (forall f, In f finals -> ins f /\ D f = -1) -> zlen df = zlen dp ->
    foldM (walk_tree pp np dp) finals (df, t) = Ok (assign (flat_map sub finals) df t, t + zlen (flat_map sub finals)).
  Proof.
    induction finals as [|f finals IH]; intros df t Hf Hdf; cbn [foldM flat_map assign].
    - do 2 f_equal. unfold zlen. cbn. lia.
    - destruct (Hf f (or_introl eq_refl)) as [H1 H2]. rewrite walk_tree_ok by assumption. cbn [bind]. rewrite IH; [|intros; apply Hf; now right | now rewrite assign_len].
      rewrite assign_app, zlen_app. do 2 f_equal. lia.
  Qed.
End Walk.
