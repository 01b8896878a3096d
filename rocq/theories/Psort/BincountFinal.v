(** The statements about parallel_bincount in terms of the specification. *)
From Coq Require Import QArith.
From Verif.Base Require Import Prelude ListLemmas Order.
From Verif.Mpi Require Import CommModel CommProofs CutProofs.
From Verif.Psort Require Import MoveModel MoveSpec MoveProofs FetchProofs SortSpec SortProofs SortFinal UniqueModel UniqueProofs MatchSpec UniqueFinal ReduceModel ReduceSpec ReduceProofs ReduceFinal BincountProofs.
From Coq Require Import ZifyBool ZifyNat.
Local Open Scope Z_scope.

Definition weights_of {W} (one : W) (x : list (list Z)) (weights : option (list (list W))) : list (list W) :=
  match weights with Some w => w | None => map (fun l => repeat one (length l)) x end.
Definition bins_of (x : list (list Z)) (minlength : option Z) : Z :=
  match minlength with Some m => Z.max (amaxZ (map amaxZ x) + 1) m | None => amaxZ (map amaxZ x) + 1 end.

Lemma parallel_bincount_eq {W} add (zero one junk : W) sort1 sort2 x weights minlength result :
  parallel_bincount add zero one junk sort1 sort2 x weights minlength result =
  do start <- match result with
              | None =>
                  do _ <- check (forallb (fun n => 0 <=? n) (even_sizes (bins_of x minlength) (length x))) EValue;
                  Ok (map (fun n => repeat zero (Z.to_nat n)) (even_sizes (bins_of x minlength) (length x)))
              | Some res => if sumZ (nperproc res) <? bins_of x minlength then Err EValue else Ok res
              end;
  bincount_onto add zero junk sort1 sort2 x (weights_of one x weights) start.
Proof. reflexivity. Qed.

Lemma bins_of_needed x minlength : Forall (Forall (fun i => 0 <= i)) x -> bins_needed (concat x) minlength (bins_of x minlength).
Proof.
  intro Hx. pose proof (amax_global x Hx) as (H0 & H1 & H2). exists (amaxZ (map amaxZ x)). split; [exact H1|]. split; [|reflexivity].
  destruct H2 as [H2|H2]; [now left|]. destruct (concat x) as [|y l] eqn:E; [right; now split|]. left.
  pose proof (H1 y (or_introl eq_refl)) as Hy. enough (y = amaxZ (map amaxZ x)) as <- by (now left).
  assert (In y (concat x)) as Hin by (rewrite E; now left). apply in_concat in Hin. destruct Hin as (l' & Hl' & Hy').
  rewrite Forall_forall in Hx. specialize (Hx l' Hl'). rewrite Forall_forall in Hx. specialize (Hx y Hy'). lia.
Qed.
Lemma bins_of_unique x minlength n : bins_needed (concat x) minlength n -> Forall (Forall (fun i => 0 <= i)) x -> n = bins_of x minlength.
Proof.
  intros (m & M1 & M2 & ->) Hx. destruct (bins_of_needed x minlength Hx) as (m' & N1 & N2 & ->).
  assert (m = m') as ->; [|reflexivity].
  destruct M2 as [M2|[M2 ->]], N2 as [N2|[N2 ->]]; try reflexivity.
  - specialize (M1 _ N2). specialize (N1 _ M2). lia.
  - rewrite N2 in M2. destruct M2.
  - rewrite M2 in N2. destruct N2.
Qed.
Lemma bins_of_bound x minlength i : Forall (Forall (fun i => 0 <= i)) x -> In i (concat x) -> i < bins_of x minlength.
Proof. intros Hx Hi. pose proof (amax_global x Hx) as (H0 & H1 & _). specialize (H1 i Hi). unfold bins_of. destruct minlength; lia. Qed.
Lemma bins_of_pos x minlength : Forall (Forall (fun i => 0 <= i)) x -> 0 < bins_of x minlength.
Proof. intro Hx. pose proof (amax_global x Hx) as (H0 & _). unfold bins_of. destruct minlength; lia. Qed.

Lemma weights_of_layout {W} (one : W) x weights : (forall w, weights = Some w -> layout w = layout x) -> layout x = layout (weights_of one x weights).
Proof.
  intro H. destruct weights as [w|]; [symmetry; now apply H|]. cbn. unfold layout. rewrite map_map. apply map_ext. intro l. now rewrite repeat_length.
Qed.

Lemma zeros_total {W} (zero : W) n P : (0 < P)%nat -> 0 <= n -> total (map (fun n => repeat zero (Z.to_nat n)) (even_sizes n P)) = n.
Proof.
  intros HP Hn. unfold total. fold (zlen (concat (map (fun n => repeat zero (Z.to_nat n)) (even_sizes n P)))). rewrite zlen_concat, map_map.
  rewrite <- (sum_even_sizes ZOrd 0 n P HP Hn) at 2. f_equal. rewrite <- (map_id (even_sizes n P)) at 2. apply map_ext_in. intros y Hy.
  pose proof (even_sizes_nonneg ZOrd 0 n P HP Hn) as H. rewrite Forall_forall in H. specialize (H y Hy). unfold zlen. rewrite repeat_length. lia.
Qed.

Lemma bincount_fresh {W} add (zero one junk : W) sort1 sort2 x weights minlength :
  exact_addition add zero ->
  (forall r l, is_argsort ZOrd l (sort1 r l)) -> (forall r l, is_argsort ZOrd l (sort2 r l)) ->
  x <> [] -> Forall (Forall (fun i => 0 <= i)) x -> (forall w, weights = Some w -> layout w = layout x) ->
  exists out, parallel_bincount add zero one junk sort1 sort2 x weights minlength None = Ok out /\
    length out = length x /\ bins_needed (concat x) minlength (total out) /\ even_layout (layout out) /\
    forall g, 0 <= g < total out ->
      global_at out g (bin_total add zero g x (match weights with Some w => w | None => map (map (fun _ => one)) x end)).
Proof.
  intros (Hc & Ha & Hu) H1 H2 Hne Hx Hw. rewrite parallel_bincount_eq.
  set (n := bins_of x minlength). assert (0 < length x)%nat as HP by (destruct x; [congruence | cbn; lia]).
  pose proof (bins_of_pos x minlength Hx) as Hn. fold n in Hn.
  replace (forallb (fun n => 0 <=? n) (even_sizes n (length x))) with true.
  2:{ symmetry. apply forallb_forall. intros y Hy. pose proof (even_sizes_nonneg ZOrd 0 n (length x) HP ltac:(lia)) as H. rewrite Forall_forall in H. specialize (H y Hy). lia. }
  cbn [check bind]. set (start := map _ (even_sizes n (length x))).
  assert (total start = n) as Ht by (apply zeros_total; lia).
  destruct (bincount_onto_ok add zero one Hc Ha Hu junk sort1 sort2 x (weights_of one x weights) H1 H2 (weights_of_layout one x weights Hw) start) as (out & O1 & O2 & O3).
  - unfold start. rewrite map_length. unfold even_sizes. apply spmd_length.
  - apply Forall_forall. intros l Hl. apply Forall_forall. intros i Hi. rewrite Ht. split.
    + rewrite Forall_forall in Hx. specialize (Hx l Hl). rewrite Forall_forall in Hx. auto.
    + apply bins_of_bound; [assumption|]. apply in_concat. now exists l.
  - exists out. split; [exact O1|].
    assert (total out = n) as Hto.
    { rewrite <- Ht. unfold total. change (zlen (concat out) = zlen (concat start)).
      rewrite !zlen_concat. f_equal. rewrite !map_zlen_layout. now rewrite O2. }
    split; [rewrite (layout_length _ _ O2); unfold start; rewrite map_length; unfold even_sizes; apply spmd_length|].
    rewrite Hto. split; [now apply bins_of_needed|]. split.
    + apply even_sizes_layout with (n := n) (P := length x). rewrite O2. unfold layout, start. rewrite !map_map. rewrite <- (map_id (even_sizes n (length x))) at 2. apply map_ext_in. intros y Hy.
      rewrite repeat_length. pose proof (even_sizes_nonneg ZOrd 0 n (length x) HP ltac:(lia)) as H. rewrite Forall_forall in H. specialize (H y Hy). lia.
    + intros g Hg. assert (global_at start g zero) as Hz.
      { split; [lia|]. destruct (nth_error (concat start) (Z.to_nat g)) as [z|] eqn:E.
        - apply nth_error_In in E. apply in_concat in E. destruct E as (l & Hl & Hz). unfold start in Hl. apply in_map_iff in Hl. destruct Hl as (k & <- & _).
          apply repeat_spec in Hz. now subst.
        - apply nth_error_None in E. unfold total in Ht. lia. }
      specialize (O3 g zero Hz). rewrite Hc, Hu in O3. unfold bin_total. replace (match weights with Some w => w | None => map (map (fun _ => one)) x end) with (weights_of one x weights); [exact O3|].
      destruct weights; [reflexivity|]. cbn. apply map_ext. intro l. clear. induction l; cbn; congruence.
Qed.

Lemma bincount_into {W} add (zero one junk : W) sort1 sort2 x weights minlength result n :
  exact_addition add zero ->
  (forall r l, is_argsort ZOrd l (sort1 r l)) -> (forall r l, is_argsort ZOrd l (sort2 r l)) ->
  Forall (Forall (fun i => 0 <= i)) x -> (forall w, weights = Some w -> layout w = layout x) ->
  length result = length x -> bins_needed (concat x) minlength n ->
  (n <= total result ->
   exists out, parallel_bincount add zero one junk sort1 sort2 x weights minlength (Some result) = Ok out /\
     layout out = layout result /\
     forall g a, global_at result g a ->
       global_at out g (add a (bin_total add zero g x (match weights with Some w => w | None => map (map (fun _ => one)) x end)))) /\
  (total result < n -> parallel_bincount add zero one junk sort1 sort2 x weights minlength (Some result) = Err EValue).
Proof.
  intros (Hc & Ha & Hu) H1 H2 Hx Hw Hl Hn. apply bins_of_unique in Hn; [|assumption]. subst n. rewrite parallel_bincount_eq.
  assert (sumZ (nperproc result) = total result) as Hs by (unfold nperproc, total; fold (zlen (concat result)); now rewrite zlen_concat).
  rewrite Hs. split; intro Hn.
  - destruct (Z.ltb_spec (total result) (bins_of x minlength)); [lia|]. cbn [bind].
    destruct (bincount_onto_ok add zero one Hc Ha Hu junk sort1 sort2 x (weights_of one x weights) H1 H2 (weights_of_layout one x weights Hw) result Hl) as (out & O1 & O2 & O3).
    + apply Forall_forall. intros l Hlx. apply Forall_forall. intros i Hi. split.
      * rewrite Forall_forall in Hx. specialize (Hx l Hlx). rewrite Forall_forall in Hx. auto.
      * assert (In i (concat x)) as Hix by (apply in_concat; now exists l). pose proof (bins_of_bound x minlength i Hx Hix). lia.
    + exists out. split; [exact O1|]. split; [exact O2|]. intros g a Hg. specialize (O3 g a Hg). unfold bin_total.
      replace (match weights with Some w => w | None => map (map (fun _ => one)) x end) with (weights_of one x weights); [exact O3|].
      destruct weights; [reflexivity|]. cbn. apply map_ext. intro l. clear. induction l; cbn; congruence.
  - destruct (Z.ltb_spec (total result) (bins_of x minlength)); [reflexivity | lia].
Qed.

Lemma bincount_negative {W} add (zero one junk : W) sort1 sort2 x weights minlength result i :
  exact_addition add zero ->
  (forall r l, is_argsort ZOrd l (sort1 r l)) -> (forall r l, is_argsort ZOrd l (sort2 r l)) ->
  (forall w, weights = Some w -> layout w = layout x) -> (forall res, result = Some res -> length res = length x) ->
  In i (concat x) -> i < 0 ->
  exists e, parallel_bincount add zero one junk sort1 sort2 x weights minlength result = Err e.
Proof.
  intros (Hc & Ha & Hu) H1 H2 Hw Hres Hi Hneg. rewrite parallel_bincount_eq.
  destruct result as [res|].
  - destruct (_ <? _); [eexists; reflexivity|]. cbn [bind].
    apply (bincount_onto_rejects add zero one Hc Ha Hu junk sort1 sort2 x (weights_of one x weights) H1 H2 (weights_of_layout one x weights Hw)) with (i := i); auto. lia.
  - destruct (forallb _ _); cbn [check bind]; [|eexists; reflexivity].
    apply (bincount_onto_rejects add zero one Hc Ha Hu junk sort1 sort2 x (weights_of one x weights) H1 H2 (weights_of_layout one x weights Hw)) with (i := i); auto; [|lia].
    rewrite map_length. unfold even_sizes. apply spmd_length.
Qed.
