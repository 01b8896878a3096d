(** Proofs about arrays, selections and transfers. *)
From Coq Require Import Ascii String.
From Verif Require Import Base.Prelude Base.ListLemmas Text.StrModel H5w.H5wModel H5w.H5wSpec H5w.H5wTable.
From Coq Require Import ZifyBool ZifyNat.
Local Open Scope Z_scope.
Local Open Scope list_scope.

Lemma NoDup_app_intro {A} (l m : list A) : NoDup l -> NoDup m -> (forall x, In x l -> ~ In x m) -> NoDup (l ++ m).
Proof.
  intros L M D. induction L as [|x l N _ IH]; cbn; [exact M|]. constructor.
  - rewrite in_app_iff. intros [H|H]; [contradiction|]. exact (D x (or_introl eq_refl) H).
  - apply IH. intros y Hy. apply D. now right.
Qed.
(** ** Indexes *)
Lemma prod_pos dims : positive dims -> 1 <= prod dims.
Proof. induction 1; cbn; nia. Qed.
Lemma prod_nonneg dims : Forall (fun d => 0 <= d) dims -> 0 <= prod dims.
Proof. induction 1; cbn; nia. Qed.
Lemma index_nonneg dims i : index_in dims i -> Forall (fun d => 0 <= d) dims.
Proof. induction 1; constructor; auto; lia. Qed.
Lemma index_positive dims i : index_in dims i -> positive dims.
Proof. induction 1; constructor; auto; lia. Qed.
Lemma offset_range dims i : index_in dims i -> 0 <= offset dims i < prod dims.
Proof. induction 1 as [|d x ds is H _ IH]; cbn; [lia|nia]. Qed.
Lemma offset_inj dims i : index_in dims i -> forall j, index_in dims j -> offset dims i = offset dims j -> i = j.
Proof.
  induction 1 as [|d x ds is H HI IH]; intros j HJ E; inversion HJ; subst; [reflexivity|]. cbn in E.
  pose proof (offset_range _ _ HI). assert (index_in ds l') as HJ' by assumption. pose proof (offset_range _ _ HJ').
  assert (x = y /\ offset ds is = offset ds l') as [-> E']. { assert (offset ds is = offset ds l') by nia. nia. }
  f_equal. now apply IH.
Qed.
Lemma In_box c : forall i, In i (box c) <-> index_in c i.
Proof.
  induction c as [|d c IH]; intro i; cbn [box].
  - split; [intros [<-|[]]; constructor|]. intro H. inversion H. now left.
  - rewrite in_flat_map. split.
    + intros (t & Ht & H). apply in_map_iff in H as (x & <- & Hx). apply In_zseq in Hx. apply IH in Ht. constructor; [lia|exact Ht].
    + intro H. inversion H; subst. exists l'. split; [now apply IH|]. apply in_map_iff. exists y. split; [reflexivity|]. apply In_zseq. lia.
Qed.
Lemma NoDup_box c : NoDup (box c).
Proof.
  induction c as [|d c IH]; cbn [box]; [repeat constructor; auto|]. induction IH as [|t l N _ IH']; cbn [flat_map]; [constructor|].
  apply NoDup_app_intro; auto.
  - apply FinFun.Injective_map_NoDup; [|apply NoDup_zseq]. intros a b E. congruence.
  - intros x Hx Hy. apply in_map_iff in Hx as (a & <- & _). apply in_flat_map in Hy as (u & Hu & Hy). apply in_map_iff in Hy as (b & E & _). injection E as _ ->. contradiction.
Qed.
Lemma box_len c : Forall (fun d => 0 <= d) c -> zlen (box c) = prod c.
Proof.
  induction 1 as [|d c H _ IH]; cbn [box prod]; [reflexivity|]. rewrite <- IH. clear IH. induction (box c) as [|t l IH]; [cbn; lia|].
  cbn [flat_map]. rewrite zlen_app, zlen_map, IH, zlen_cons. unfold zlen at 1. rewrite zseq_length. lia.
Qed.
Lemma index_length dims i : index_in dims i -> List.length i = List.length dims.
Proof. induction 1; cbn; auto. Qed.

(** ** Dimensions of 1 *)
Lemma index_squeeze dims i : index_in dims i -> index_in (eff dims) (squeeze dims i).
Proof. unfold eff. induction 1 as [|d x ds is H _ IH]; cbn; [constructor|]. destruct (1 <? d); [constructor|]; auto. Qed.
Lemma offset_squeeze dims i : index_in dims i -> offset dims i = offset (eff dims) (squeeze dims i).
Proof.
  unfold eff. induction 1 as [|d x ds is H _ IH]; cbn; [reflexivity|]. destruct (1 <? d) eqn:E; cbn; rewrite IH; [reflexivity|].
  assert (d = 1) as -> by lia. assert (x = 0) as -> by lia. lia.
Qed.
Lemma prod_eff dims : positive dims -> prod (eff dims) = prod dims.
Proof. unfold eff. induction 1 as [|d ds H _ IH]; cbn; [reflexivity|]. destruct (1 <? d) eqn:E; cbn; rewrite IH; [reflexivity|]. assert (d = 1) as -> by lia. lia. Qed.
Lemma eff_above dims : Forall (fun d => 1 < d) (eff dims).
Proof. apply Forall_forall. intros d H. apply filter_In in H as [_ H]. lia. Qed.
Lemma fits_spec m c : zlen (eff m) = zlen (eff c) -> (fits (eff m) (eff c) = true <-> roomy m c).
Proof.
  unfold fits, roomy. fold (eff m). fold (eff c). generalize (eff m) (eff c). intros a. induction a as [|x a IH]; intros [|y b] L; rewrite ?zlen_cons in L; cbn [zipwith forallb].
  - split; auto.
  - pose proof (zlen_nonneg b). change (zlen []) with 0 in L. lia.
  - pose proof (zlen_nonneg a). change (zlen []) with 0 in L. lia.
  - specialize (IH b ltac:(lia)). rewrite Bool.andb_true_iff, IH. split.
    + intros [A B]. constructor; [lia|exact B].
    + intro H. inversion H; subst. split; [lia|assumption].
Qed.
Lemma roomy_len m c : roomy m c -> zlen (eff m) = zlen (eff c).
Proof. intro H. unfold roomy in H. apply Forall2_len in H. unfold zlen, eff. lia. Qed.

(** the dimensions used for the selection in memory *)
Lemma spread_spec c : forall a, positive c -> Forall2 (fun m x => x <= m) a (eff c) -> Forall (fun d => 1 < d) a ->
  eff (spread c a) = a /\ (forall i, index_in c i -> index_in (spread c a) i /\ squeeze (spread c a) i = squeeze c i) /\ positive (spread c a) /\
  Forall2 (fun m x => x <= m) (spread c a) c /\ List.length (spread c a) = List.length c.
Proof.
  unfold eff. induction c as [|d c IH]; intros a P R A; cbn in *.
  - inversion R; subst. repeat split; try constructor. inversion H; constructor.
  - inversion P as [|? ? P1 P2]; subst. destruct (1 <? d) eqn:E.
    + inversion R as [|m x a' ? R1 R2]; subst. inversion A as [|? ? A1 A2]; subst. destruct (IH a' P2 R2 A2) as (I1 & I2 & I3 & I4 & I5). cbn.
      replace (1 <? m) with true by lia. split; [now rewrite I1|]. split; [|split; [constructor; [lia|auto]|split; [constructor; auto|now rewrite I5]]].
      intros i Hi. inversion Hi; subst. assert (index_in c l') as Hl by assumption. destruct (I2 _ Hl) as [J1 J2]. split; [constructor; [lia|exact J1]|]. cbn [squeeze]. rewrite ?E.
      replace (1 <? m) with true by lia. now rewrite J2.
    + destruct (IH a P2 R A) as (I1 & I2 & I3 & I4 & I5). cbn. split; [exact I1|]. split; [|split; [constructor; [lia|auto]|split; [constructor; [lia|auto]|now rewrite I5]]].
      intros i Hi. inversion Hi; subst. assert (index_in c l') as Hl by assumption. destruct (I2 _ Hl) as [J1 J2]. split; [constructor; [lia|exact J1]|]. cbn [squeeze]. rewrite ?E. exact J2.
Qed.

(** ** Transfers *)
Lemma scatter_length {A} (f : A -> A) src dst a b : List.length (scatter f src dst a b) = List.length b.
Proof.
  unfold scatter. revert b. induction (combine src dst) as [|[x y] l IH]; intro b; cbn; [reflexivity|]. rewrite IH. destruct (nth_error a _); [apply set_nth_length|reflexivity].
Qed.
Lemma scatter_other {A} (f : A -> A) l a : forall b n, (forall x y, In (x, y) l -> Z.to_nat y <> n) ->
  nth_error (fold_left (fun b st => match nth_error a (Z.to_nat (fst st)) with Some x => set_nth b (Z.to_nat (snd st)) (f x) | None => b end) l b) n = nth_error b n.
Proof.
  induction l as [|[x y] l IH]; intros b n H; cbn; [reflexivity|]. rewrite IH by (intros u v I; apply (H u v); now right).
  destruct (nth_error a (Z.to_nat x)); [|reflexivity]. apply nth_error_set_nth_neq. apply (H x y). now left.
Qed.
Lemma scatter_hit {A} (f : A -> A) l a : forall b x y v, NoDup (map (fun p => Z.to_nat (snd p)) l) -> In (x, y) l -> nth_error a (Z.to_nat x) = Some v -> (Z.to_nat y < List.length b)%nat ->
  nth_error (fold_left (fun b st => match nth_error a (Z.to_nat (fst st)) with Some x => set_nth b (Z.to_nat (snd st)) (f x) | None => b end) l b) (Z.to_nat y) = Some (f v).
Proof.
  induction l as [|[x' y'] l IH]; intros b x y v N I E L; [destruct I|]. cbn in N. apply NoDup_cons_iff in N as [N1 N2]. cbn [fold_left fst snd]. destruct I as [I|I].
  - injection I as -> ->. rewrite scatter_other.
    + rewrite E. now apply nth_error_set_nth_eq.
    + intros u w H C. apply N1. apply in_map_iff. exists (u, w). auto.
  - apply (IH _ x y v N2 I E). destruct (nth_error a (Z.to_nat x')); [|exact L]. now rewrite set_nth_length.
Qed.
Lemma combine_map {A} (g h : A -> Z) l : combine (map g l) (map h l) = map (fun x => (g x, h x)) l.
Proof. induction l; cbn; congruence. Qed.

Lemma transfer_spec {K : Type} (f : elt -> elt) (g h : K -> Z) (l : list K) (a b : list elt) :
  (forall k, In k l -> 0 <= g k < zlen a) -> (forall k, In k l -> 0 <= h k < zlen b) -> NoDup l -> (forall k k', In k l -> In k' l -> h k = h k' -> k = k') ->
  exists r, transfer f (map g l) (map h l) a b = Some (Some r) /\ List.length r = List.length b /\
    (forall k, In k l -> exists v, nth_error a (Z.to_nat (g k)) = Some v /\ nth_error r (Z.to_nat (h k)) = Some (f v)) /\
    (forall n, 0 <= n -> (forall k, In k l -> h k <> n) -> nth_error r (Z.to_nat n) = nth_error b (Z.to_nat n)).
Proof.
  intros Ga Hb N Inj. exists (scatter f (map g l) (map h l) a b). unfold transfer. rewrite !zlen_map, Z.eqb_refl. cbn [negb].
  assert (forallb (fun i => i <? zlen a) (map g l) = true) as ->. { apply forallb_forall. intros x Hx. apply in_map_iff in Hx as (k & <- & Hk). specialize (Ga k Hk). lia. }
  assert (forallb (fun i => i <? zlen b) (map h l) = true) as ->. { apply forallb_forall. intros x Hx. apply in_map_iff in Hx as (k & <- & Hk). specialize (Hb k Hk). lia. }
  split; [reflexivity|]. split; [apply scatter_length|]. unfold scatter. rewrite combine_map. split.
  - intros k Hk. specialize (Ga k Hk). destruct (nth_error a (Z.to_nat (g k))) as [v|] eqn:E.
    + exists v. split; [reflexivity|]. apply (scatter_hit f _ a b (g k) (h k) v); [|apply in_map_iff; eauto|exact E|specialize (Hb k Hk); unfold zlen in Hb; lia].
      rewrite map_map. cbn. clear -N Inj Hb. induction N as [|x l Nx N IH]; cbn; constructor.
      * intro C. apply in_map_iff in C as (y & E & Hy). assert (y = x) as ->; [|contradiction]. apply Inj; [now right|now left|].
        pose proof (Hb x (or_introl eq_refl)). pose proof (Hb y (or_intror Hy)). lia.
      * apply IH; [intros k Hk; apply Hb; now right|]. intros k k' Hk Hk'. apply Inj; now right.
    + apply nth_error_None in E. unfold zlen in Ga. lia.
  - intros n Hn C. apply scatter_other. intros x y I. apply in_map_iff in I as (k & E & Hk). injection E as _ <-. specialize (C k Hk). specialize (Hb k Hk). lia.
Qed.
