(** Reading a dataset after it has been written. *)
From Coq Require Import Ascii String.
From Verif Require Import Base.Prelude Base.ListLemmas Text.StrModel H5w.H5wModel H5w.H5wSpec H5w.H5wTable H5w.H5wFiles H5w.H5wArray H5w.H5wPath H5w.H5wHeap H5w.H5wCache H5w.H5wRead H5w.H5wView H5w.H5wGroup H5w.H5wWrite.
From Coq Require Import ZifyBool ZifyNat.
Local Open Scope Z_scope.
Local Open Scope list_scope.

Lemma as_type_twice t e : as_type t (as_type t e) = as_type t e.
Proof.
  unfold as_type. destruct (t_class t); auto. set (n := Z.to_nat (t_size t)). assert (List.length (firstn n (e ++ repeat 32 n)) = n) as L by (rewrite firstn_length, app_length, repeat_length; lia).
  rewrite (firstn_app n (firstn n _)), L, Nat.sub_diag. cbn [firstn]. rewrite app_nil_r. apply firstn_all2. lia.
Qed.
Lemma holds_dataset h p d l : holds h p (ADset d) l -> dataset_at h p d.
Proof. intros (a & o & A & B & C & _). exists a, o. split; [exact A|]. split; [exact B|]. destruct (o_node o); [discriminate C|]. cbn in C. congruence. Qed.
Lemma dataset_fun h p d d' : sound h -> dataset_at h p d -> dataset_at h p d' -> d' = d.
Proof. intros S (a & o & A & B & C) (a' & o' & A' & B' & C'). apply (leads_walk _ _ S) in A, A'. assert (a' = a) by congruence. subst. congruence. Qed.
Lemma c91_round_trip cv s0 t s h f n p arr s' room : fresh s0 -> sound_files s0 -> tree_files s0 -> history cv s0 t s -> calm ((CWrite h n arr plain, RNone) :: t) -> current t h = Some (f, false) ->
  names n p -> (List.length (spell p) <= 255)%nat -> (List.length p <= 11)%nat -> (List.length (trim n) <= 1000)%nat -> positive (m_dims arr) ->
  (List.length (m_dims arr) <= 7)%nat -> (t_class (m_ty arr) = CInt -> List.length (m_dims arr) <> 7%nat) ->
  run cv (CWrite h n arr plain) s = Go RNone s' -> (forall fl d l, assoc f (disk s) = Some fl -> ~ holds (heap fl) p (ADset d) l) ->
  m_ty room = m_ty arr -> m_dims room = m_dims arr -> sound_arr room ->
  exists b s2, run cv (CRead h n room None None) s' = Go (RArr b) s2 /\ zlen b = zlen (m_buf arr) /\
    forall j e, index_in (m_dims arr) j -> elem (m_dims arr) (m_buf arr) j = Some e -> elem (m_dims arr) b j = Some (as_type (m_ty arr) e).
Proof.
  intros F S0 T0 H Ca Cu Nn Ls Lp Ln Pm L7 N7 Rw NoD Rt Rd Sr. pose proof (inv_history _ _ _ _ F H) as I. destruct (current_slot _ _ _ _ _ I Cu) as (J & R & x & Hx & P & Q & Nm & Z).
  assert (sound_arr arr) as Sa by apply (proj1 (proj1 Ca)). pose proof (calls_sound _ (proj2 Ca)) as SC.
  destruct (assoc f (disk s)) as [fl|] eqn:Ed. 2: { exfalso. eapply (j_disk _ _ J); [apply zassoc_In; exact Z|exact Ed]. }
  pose proof (c91_write cv s0 t s h f fl n p arr plain F S0 T0 H SC Cu Ed Nn Ls Lp Sa Pm L7 N7 ltac:(discriminate) ltac:(intro C; now destruct C) Pm (or_intror (fun d l => NoD fl d l eq_refl))) as W.
  rewrite Rw in W. destruct W as (_ & _ & _ & _ & fl' & r & E' & _ & Put & (N1 & N2 & _ & N4)). cbn [plain new_dims w_initial w_start part w_count fst snd] in *. unfold new_dims in N2, N4. cbn [plain w_initial w_start w_count part fst snd] in N2, N4.
  assert (history cv s0 ((CWrite h n arr plain, RNone) :: t) s') as H' by (eapply h_call; eauto).
  assert (dataset_at (heap fl') p r) as Dr by (eapply holds_dataset; apply Put; left; auto).
  assert (sound (heap fl')) as Sf. { refine (sound_history _ _ _ _ F S0 H' _ f fl' E'). intros c0 r0 K. eapply calls_sound; eauto. }
  assert (positive (m_dims room)) as Pr by now rewrite Rd.
  assert (forall d, dataset_at (heap fl') p d -> positive (snd (part (d_dims d) None None))) as Pp. { intros d Dd. assert (d = r) as -> by (eapply dataset_fun; eauto). cbn. now rewrite N2. }
  pose proof (c89_read cv s0 _ s' h f false fl' n p room None None F S0 H' Ca Cu E' Nn Ln Sr Pr Pp) as RD.
  assert (can_read r room None None) as CR.
  { split; [exact Logic.I|]. split; [rewrite N1, Rt; repeat split; lia|]. cbn [part fst snd]. rewrite N2, Rd. split; [|apply inside_whole]. unfold roomy. induction (filter _ _); constructor; [lia|assumption]. }
  destruct (run cv (CRead h n room None None) s') as [v s2|s2|]; [|exfalso; exact (proj1 RD r Dr CR)|contradiction]. destruct RD as (d & b & -> & Dd & _ & (B1 & B2 & _) & _).
  assert (d = r) as -> by (eapply dataset_fun; eauto). exists b, s2. split; [reflexivity|]. split.
  - rewrite B1. destruct Sa as [_ A1], Sr as [_ A2]. unfold full in *. rewrite A1, A2, Rd. reflexivity.
  - intros j e Hj Ee. cbn [part fst snd] in B2. rewrite N2, Rd in B2. destruct (B2 j j) as (e' & C1 & C2); [split; [exact Hj|]; split; [exact Hj|reflexivity]|].
    destruct N4 as (_ & K & _). destruct (K j j) as (e2 & K1 & K2); [split; [exact Hj|]; split; [exact Hj|reflexivity]|]. rewrite N2 in K2. rewrite C1 in K2. injection K2 as ->. rewrite N1 in C2. rewrite Rt in C2.
    assert (e2 = e) by congruence. subst e2. now rewrite as_type_twice in C2.
Qed.
