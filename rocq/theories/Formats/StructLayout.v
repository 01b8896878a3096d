(** The offsets which numpy gives to the members of a structure. *)
From Coq Require Import Ascii String.
From Verif.Base Require Import Prelude ListLemmas Order.
From Verif.Binary Require Import BinModel.
From Verif.Formats Require Import ReaderModel StructModel FileSpec CatSpec StructSpec.
From Coq Require Import ZifyBool ZifyNat.
Local Open Scope Z_scope.

Definition power2 (a : Z) : Prop := exists k, 0 <= k /\ a = 2 ^ k.
Lemma power2_pos a : power2 a -> 0 < a.
Proof. intros (k & Hk & ->). now apply Z.pow_pos_nonneg. Qed.
Lemma power2_max a b : power2 a -> power2 b -> power2 (Z.max a b).
Proof. intros Ha Hb. destruct (Z.max_spec a b) as [[_ ->]|[_ ->]]; assumption. Qed.
Lemma next_eq off a : power2 a -> next_aligned off a = (off + a - 1) / a * a.
Proof.
  intros (k & Hk & ->). unfold next_aligned. assert (- 2 ^ k = Z.lnot (Z.ones k)) as -> by (rewrite Z.ones_equiv; unfold Z.lnot; lia).
  rewrite <- Z.ldiff_land, Z.ldiff_ones_r, Z.shiftl_mul_pow2, Z.shiftr_div_pow2 by exact Hk. reflexivity.
Qed.
Lemma first_next off a : 0 < a -> first_multiple a off ((off + a - 1) / a * a).
Proof.
  intro Ha. pose proof (Z.div_mod (off + a - 1) a ltac:(lia)). pose proof (Z.mod_pos_bound (off + a - 1) a Ha). split; [nia|]. split; [now exists ((off + a - 1) / a)|].
  intros o Ho (q & ->). assert ((off + a - 1) / a <= q); [|nia]. apply Z.lt_succ_r. apply Z.div_lt_upper_bound; nia.
Qed.
Lemma first_unique a from o o' : first_multiple a from o -> first_multiple a from o' -> o = o'.
Proof. intros (A & B & C) (A' & B' & C'). specialize (C o' A' B'). specialize (C' o A B). lia. Qed.
Lemma first_one from : first_multiple 1 from from.
Proof. split; [lia|]. split; [apply Z.divide_1_l|]. intros; assumption. Qed.
Lemma aligned_first a off : power2 a -> first_multiple a off (if 1 <? a then next_aligned off a else off).
Proof.
  intro Ha. pose proof (power2_pos a Ha). destruct (Z.ltb_spec 1 a).
  - rewrite next_eq by exact Ha. now apply first_next.
  - replace a with 1 by lia. apply first_one.
Qed.

Definition sizes_ok (l : list member) : Prop := Forall (fun m => power2 (m_size m) /\ 0 <= m_count m) l.
Lemma layout_c l : forall off mx, sizes_ok l -> power2 mx ->
  map fst (fst (np_layout true off mx l)) = l /\
  exists e, c_struct off l (map snd (fst (np_layout true off mx l))) e /\ first_multiple (fold_right Z.max mx (map m_size l)) e (snd (np_layout true off mx l)).
Proof.
  induction l as [|m l IH]; intros off mx Hl Hmx; cbn [np_layout].
  - cbn [fst snd map]. split; [reflexivity|]. exists off. split; [constructor|]. cbn [andb fold_right]. now apply aligned_first.
  - apply Forall_cons_iff in Hl. destruct Hl as [[Hm Hc] Hl]. cbn [andb]. pose proof (aligned_first (m_size m) off Hm) as Ha. set (o := if 1 <? m_size m then next_aligned off (m_size m) else off) in *.
    specialize (IH (o + m_size m * m_count m) (Z.max mx (m_size m)) Hl (power2_max _ _ Hmx Hm)). destruct (np_layout true _ _ l) as [r t]. cbn [fst snd map] in *. destruct IH as (E & e & H1 & H2). split; [now rewrite E|].
    exists e. split; [now constructor|]. replace (fold_right Z.max mx (m_size m :: map m_size l)) with (fold_right Z.max (Z.max mx (m_size m)) (map m_size l)); [exact H2|].
    clear. cbn [fold_right]. generalize (map m_size l). induction l0 as [|x l0 IH]; cbn [fold_right]; [lia|]. rewrite IH. lia.
Qed.
Lemma c_struct_unique l : forall from offs e offs' e', c_struct from l offs e -> c_struct from l offs' e' -> offs = offs' /\ e = e'.
Proof.
  induction l as [|m l IH]; intros from offs e offs' e' H H'; inversion H; inversion H'; subst; [auto|].
  match goal with A : first_multiple _ _ ?o, B : first_multiple _ _ ?o' |- _ => pose proof (first_unique _ _ _ _ A B); subst end.
  match goal with A : c_struct _ l ?o ?e, B : c_struct _ l ?o' ?e' |- _ => destruct (IH _ _ _ _ _ A B); subst end. auto.
Qed.
Lemma c_layout_unique l offs size offs' size' : c_layout l offs size -> c_layout l offs' size' -> offs = offs' /\ size = size'.
Proof. intros (e & A & B) (e' & A' & B'). destruct (c_struct_unique _ _ _ _ _ _ A A'). subst. split; [reflexivity|]. exact (first_unique _ _ _ _ B B'). Qed.
Lemma np_aligned l : sizes_ok l -> map fst (fst (np_layout true 0 1 l)) = l /\ c_layout l (map snd (fst (np_layout true 0 1 l))) (snd (np_layout true 0 1 l)).
Proof. intro H. apply (layout_c l 0 1 H). exists 0. split; [lia | reflexivity]. Qed.
Lemma layout_packed l : forall off mx, map fst (fst (np_layout false off mx l)) = l /\ packed off l (map snd (fst (np_layout false off mx l))) (snd (np_layout false off mx l)).
Proof.
  induction l as [|m l IH]; intros off mx; cbn [np_layout andb]; [split; [reflexivity | constructor]|].
  specialize (IH (off + m_size m * m_count m) (Z.max mx (m_size m))). destruct (np_layout false _ _ l) as [r t]. cbn [fst snd map] in *. destruct IH as [E H]. split; [now rewrite E | now constructor].
Qed.
Lemma packed_unique l : forall from offs e offs' e', packed from l offs e -> packed from l offs' e' -> offs = offs' /\ e = e'.
Proof.
  induction l as [|m l IH]; intros from offs e offs' e' H H'; inversion H; inversion H'; subst; [auto|].
  match goal with A : packed _ l ?o ?e, B : packed _ l ?o' ?e' |- _ => destruct (IH _ _ _ _ _ A B); subst end. auto.
Qed.

(** both kinds *)
Definition layout_of (align : bool) (l : list member) (offs : list Z) (size : Z) : Prop := if align then c_layout l offs size else packed_layout l offs size.
Lemma np_layout_is align l offs size : sizes_ok l -> layout_of align l offs size ->
  map fst (fst (np_layout align 0 1 l)) = l /\ map snd (fst (np_layout align 0 1 l)) = offs /\ snd (np_layout align 0 1 l) = size.
Proof.
  intros Hl H. destruct align; cbn [layout_of] in H.
  - destruct (np_aligned l Hl) as [E L]. split; [exact E|]. exact (c_layout_unique _ _ _ _ _ L H).
  - destruct (layout_packed l 0 1) as [E L]. split; [exact E|]. exact (packed_unique _ _ _ _ _ _ L H).
Qed.
Lemma np_layout_eq align l offs size : sizes_ok l -> layout_of align l offs size -> np_layout align 0 1 l = (combine l offs, size).
Proof.
  intros Hl H. destruct (np_layout_is align l offs size Hl H) as (A & B & C). destruct (np_layout align 0 1 l) as [r t]. cbn [fst snd] in *. subst t. f_equal. rewrite <- A, <- B. clear. induction r as [|[a b] r IH]; [reflexivity|]. cbn [map combine fst snd]. now rewrite <- IH.
Qed.

(** *** the size of an item *)
Lemma Forall2_imp {A B} (P Q : A -> B -> Prop) l l' : (forall a b, P a b -> Q a b) -> Forall2 P l l' -> Forall2 Q l l'.
Proof. intro H. induction 1; constructor; auto. Qed.
Inductive rising : Z -> list member -> list Z -> Z -> Prop :=
  | ri_nil from e : from <= e -> rising from [] [] e
  | ri_cons from m l off offs e : from <= off -> 0 < m_size m -> 0 <= m_count m -> rising (off + m_size m * m_count m) l offs e -> rising from (m :: l) (off :: offs) e.
Lemma rising_mono l : forall from offs e e', e <= e' -> rising from l offs e -> rising from l offs e'.
Proof. induction l as [|m l IH]; intros from offs e e' H R; inversion R; subst; constructor; auto; [lia | now apply (IH _ _ e)]. Qed.
Lemma c_rising l : forall from offs e, sizes_ok l -> c_struct from l offs e -> rising from l offs e.
Proof.
  induction l as [|m l IH]; intros from offs e Hl H; inversion H; subst; [constructor; lia|]. apply Forall_cons_iff in Hl. destruct Hl as [[Hm Hc] Hl].
  constructor; auto; [match goal with A : first_multiple _ _ _ |- _ => apply A end | now apply power2_pos].
Qed.
Lemma packed_rising l : forall from offs e, sizes_ok l -> packed from l offs e -> rising from l offs e.
Proof. induction l as [|m l IH]; intros from offs e Hl H; inversion H; subst; [constructor; lia|]. apply Forall_cons_iff in Hl. destruct Hl as [[Hm Hc] Hl]. constructor; auto; [lia | now apply power2_pos]. Qed.
Lemma layout_rising align l offs size : sizes_ok l -> layout_of align l offs size -> rising 0 l offs size.
Proof.
  intros Hl H. destruct align; cbn [layout_of] in H.
  - destruct H as (e & H & F). apply (rising_mono l 0 offs e); [apply F | now apply c_rising].
  - now apply packed_rising.
Qed.
Lemma rising_le l : forall from offs e, rising from l offs e -> from <= e.
Proof. induction l as [|m l IH]; intros from offs e H; inversion H; subst; [assumption|]. match goal with A : rising _ l _ _ |- _ => apply IH in A end. nia. Qed.
Lemma rising_in l : forall from offs e, rising from l offs e -> Forall2 (fun m off => from <= off /\ 0 < m_size m /\ 0 <= m_count m /\ off + m_size m * m_count m <= e) l offs.
Proof.
  induction l as [|m l IH]; intros from offs e H; inversion H; subst; constructor.
  - match goal with A : rising _ l _ _ |- _ => apply rising_le in A end. lia.
  - match goal with A : rising _ l _ _ |- _ => apply IH in A; revert A end. assert (from <= off + m_size m * m_count m) as Hf by nia. intro A. eapply Forall2_imp; [|exact A]. cbn. intros a b Hab. lia.
Qed.
Lemma sumZ_repeat n k : sumZ (repeat k n) = k * Z.of_nat n.
Proof. induction n as [|n IH]; [cbn; lia|]. cbn [repeat]. unfold sumZ in *. cbn [fold_right]. rewrite IH. lia. Qed.
Lemma fields_sum l : forall from offs e, rising from l offs e -> sumZ (np_fields from (combine l offs) e) = e - from.
Proof.
  induction l as [|m l IH]; intros from offs e H; inversion H; subst; cbn [combine np_fields].
  - rewrite sumZ_repeat. lia.
  - rewrite !sumZ_app, !sumZ_repeat, IH by assumption. rewrite !Z2Nat.id by lia. lia.
Qed.
Lemma struct_size align l offs size : sizes_ok l -> layout_of align l offs size -> itemsize (np_struct align l) = size /\ dt_order (np_struct align l) = NA.
Proof.
  intros Hl H. unfold np_struct. rewrite (np_layout_eq align l offs size Hl H). cbn [itemsize dt_fields dt_order]. unfold itemsize. cbn [dt_fields]. split; [|reflexivity]. rewrite fields_sum by now apply (layout_rising align). lia.
Qed.
