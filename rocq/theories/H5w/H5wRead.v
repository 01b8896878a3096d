(** Proofs about reading datasets. *)
From Coq Require Import Ascii String.
From Verif Require Import Base.Prelude Base.ListLemmas Text.StrModel H5w.H5wModel H5w.H5wSpec H5w.H5wTable H5w.H5wFiles H5w.H5wArray H5w.H5wPath H5w.H5wHeap H5w.H5wCache.
From Coq Require Import ZifyBool ZifyNat.
Local Open Scope Z_scope.
Local Open Scope list_scope.

(** ** Conversion *)
Lemma firstn_repeat_more (e : elt) n k : (n - List.length e <= k)%nat -> firstn n (e ++ repeat 32 k) = firstn n (e ++ repeat 32 (n - List.length e)).
Proof. intro H. rewrite !firstn_app, !firstn_repeat. do 2 f_equal. lia. Qed.
Lemma conv_as_type t e : conv t e = as_type t e.
Proof. unfold conv, as_type, conv_string. destruct (t_class t); auto. symmetry. apply firstn_repeat_more. lia. Qed.
Lemma cls_eqb_eq a b : cls_eqb a b = true <-> a = b.
Proof. destruct a, b; cbn; split; congruence. Qed.
Definition type_check (from to : ty) : bool :=
  cls_eqb (t_class from) (t_class to) && match t_class to with CString => t_size from <=? t_size to | _ => t_size from =? t_size to end.
Lemma type_check_spec from to : type_check from to = true <-> type_fits from to.
Proof.
  unfold type_check, type_fits. rewrite Bool.andb_true_iff, cls_eqb_eq. split.
  - intros [A B]. split; [exact A|]. destruct (t_class to); (split; [intro C; try discriminate C; lia|intro C; try lia; contradiction]).
  - intros (A & B & C). split; [exact A|]. destruct (t_class to); try (rewrite C by discriminate; apply Z.eqb_refl). specialize (B eq_refl). lia.
Qed.

(** ** Selections *)
Lemma zipwith_zeros l : forall i, List.length i = List.length l -> zipwith Z.add (map (fun _ : Z => 0) l) i = i.
Proof. induction l as [|x l IH]; intros [|y i] H; cbn in *; try discriminate; auto. f_equal. apply IH. lia. Qed.
Lemma positive_checks c : positive c -> forallb (Z.leb 0) c = true /\ existsb (Z.eqb 0) c = false.
Proof. induction 1 as [|d c H _ [A B]]; cbn [forallb existsb]; [auto|]. rewrite A, B. cbv beta in H. split; lia. Qed.
Lemma map_ext_box {B} (f g : list Z -> B) c : (forall i, index_in c i -> f i = g i) -> map f (box c) = map g (box c).
Proof. intro H. apply map_ext_in. intros i Hi. apply H. now apply In_box. Qed.
(** the selection in memory *)
Lemma sel_mem mdims c (n : bool) : Forall2 (fun m x => x <= m) mdims c -> positive c -> (n = true -> mdims <> []) -> (n = false -> mdims = c) ->
  (if n then sel_slab mdims (map (fun _ : Z => 0) mdims) c else sel_all mdims) = Some (map (offset mdims) (box c)).
Proof.
  intros F P N1 N2. destruct n.
  - destruct (positive_checks c P) as [A B]. unfold sel_slab. specialize (N1 eq_refl). destruct mdims as [|m ms]; [contradiction|]. rewrite A, B. cbn [negb].
    assert (forallb (fun x => x) (zipwith (fun d sc => (0 <=? fst sc) && (fst sc + snd sc <=? d)) (m :: ms) (combine (map (fun _ => 0) (m :: ms)) c)) = true) as ->.
    { clear -F. induction F as [|x y l l' H F IH]; [reflexivity|]. cbn [map combine zipwith forallb fst snd]. rewrite IH. replace (0 + y <=? x) with true by lia. reflexivity. }
    f_equal. apply map_ext_box. intros i Hi. rewrite zipwith_zeros; [reflexivity|]. apply index_length in Hi. apply Forall2_len in F. lia.
  - now rewrite N2.
Qed.
(** the selection in the file *)
Lemma inside_check dims : forall st ct, List.length st = List.length dims -> List.length ct = List.length dims ->
  (forallb (fun x => x) (zipwith (fun d sc => (0 <=? fst sc) && (fst sc + snd sc <=? d)) dims (combine (map (fun z => z - 1) st) ct)) = true <-> inside dims st ct).
Proof.
  unfold inside. induction dims as [|d dims IH]; intros [|x st] [|y ct] A B; try discriminate.
  - cbn. split; auto.
  - cbn [map combine zipwith forallb fst snd]. rewrite Bool.andb_true_iff, (IH st ct) by (cbn in *; lia). split.
    + intros [C D]. constructor; [cbn; lia|exact D].
    + intro H. inversion H; subst. split; [cbn in *; lia|assumption].
Qed.
Lemma sel_file dims st ct : dims <> [] -> List.length st = List.length dims -> List.length ct = List.length dims -> positive ct ->
  match sel_slab dims (map (fun z => z - 1) st) ct with
  | Some l => inside dims st ct /\ l = map (fun i => offset dims (shifted st i)) (box ct)
  | None => ~ inside dims st ct
  end.
Proof.
  intros N A B P. destruct (positive_checks ct P) as [C D]. unfold sel_slab. destruct dims as [|d ds]; [contradiction|]. rewrite C, D. cbn [negb].
  destruct (forallb (fun x => x) _) eqn:E.
  - split; [now apply inside_check|]. apply map_ext_box. intros i Hi. f_equal. unfold shifted. clear -A B Hi. apply index_length in Hi.
    rewrite <- B in *. assert (List.length st = List.length i) as L by congruence. clear -L. revert i L. induction st as [|x st IH]; intros [|y i] L; cbn in *; try discriminate; auto. f_equal. apply IH. lia.
  - intro I. apply inside_check in I; auto. congruence.
Qed.
Lemma shifted_ones dims : forall i, List.length i = List.length dims -> shifted (map (fun _ : Z => 1) dims) i = i.
Proof. unfold shifted. induction dims as [|d ds IH]; intros [|x i] H; cbn in *; try discriminate; auto. f_equal; try lia. apply IH. lia. Qed.
Lemma inside_whole dims : inside dims (map (fun _ : Z => 1) dims) dims.
Proof. unfold inside. induction dims; cbn [map combine]; constructor; auto. cbn [fst snd]. lia. Qed.
Lemma shifted_in dims : forall st ct i, inside dims st ct -> List.length st = List.length dims -> List.length ct = List.length dims -> index_in ct i -> index_in dims (shifted st i).
Proof.
  unfold inside, shifted. induction dims as [|d ds IH]; intros [|x st] [|y ct] i I A B H; try discriminate; inversion H; subst; cbn; [constructor|]. inversion I; subst. cbn in *.
  constructor; [lia|]. eapply IH; eauto.
Qed.
Lemma shifted_inj st : forall i j, List.length i = List.length st -> List.length j = List.length st -> shifted st i = shifted st j -> i = j.
Proof.
  unfold shifted. induction st as [|x st IH]; intros [|a i] [|b j] A B E; cbn in *; try discriminate; auto. injection E as E1 E2. f_equal; [lia|]. apply IH; auto.
Qed.
Lemma part_len dims st ct : both_long dims st ct -> List.length (fst (part dims st ct)) = List.length dims /\ List.length (snd (part dims st ct)) = List.length dims.
Proof.
  unfold both_long, part. destruct st as [st|], ct as [ct|]; try contradiction; cbn.
  - intros (_ & A & B). rewrite !firstn_length. lia.
  - intros _. now rewrite map_length.
Qed.
Lemma spread_unit c : positive c -> eff c = [] -> spread c [] = c.
Proof. unfold eff. induction 1 as [|d c H _ IH]; intro E; [reflexivity|]. cbn in *. destruct (1 <? d) eqn:L; [discriminate|]. rewrite IH by exact E. f_equal. lia. Qed.
Lemma zlen_zero {A} (l : list A) : zlen l = 0 -> l = [].
Proof. destruct l; [reflexivity|]. rewrite zlen_cons. pose proof (zlen_nonneg l). lia. Qed.

(** ** The transfer *)
(** [memsel] is the selection in memory for the part [ct] *)
Lemma memory_sel mdims ct : positive mdims -> positive ct -> roomy mdims ct ->
  let pad := spread ct (eff mdims) in
  Forall2 (fun m x => x <= m) pad ct /\ List.length pad = List.length ct /\ (eff mdims = [] -> pad = ct) /\
  (forall i, index_in ct i -> 0 <= offset pad i < prod mdims) /\
  (forall i j, pairs ct mdims i j -> offset pad i = offset mdims j) /\
  (forall i j, index_in ct i -> index_in mdims j -> offset pad i = offset mdims j -> pairs ct mdims i j) /\
  (forall i i', index_in ct i -> index_in ct i' -> offset pad i = offset pad i' -> i = i').
Proof.
  intros Pm Pc R pad. destruct (spread_spec ct (eff mdims) Pc R (eff_above mdims)) as (S1 & S2 & S3 & S4 & S5).
  split; [exact S4|]. split; [exact S5|]. split; [intro E|].
  { unfold pad. rewrite E. apply spread_unit; [exact Pc|]. apply roomy_len in R. rewrite E in R. change (zlen []) with 0 in R. symmetry in R. now apply zlen_zero. }
  assert (forall i, index_in ct i -> offset pad i = offset (eff mdims) (squeeze ct i) /\ index_in (eff mdims) (squeeze ct i)) as K.
  { intros i Hi. destruct (S2 i Hi) as [A B]. unfold pad. rewrite (offset_squeeze _ _ A), S1, B. split; [reflexivity|]. rewrite <- B, <- S1 at 1. now apply index_squeeze. }
  split; [|split; [|split]].
  - intros i Hi. destruct (K i Hi) as [A B]. rewrite A, <- (prod_eff mdims Pm). now apply offset_range.
  - intros i j (Hi & Hj & E). destruct (K i Hi) as [A B]. rewrite A, E. symmetry. now apply offset_squeeze.
  - intros i j Hi Hj E. split; [exact Hi|]. split; [exact Hj|]. destruct (K i Hi) as [A B]. rewrite A, (offset_squeeze _ _ Hj) in E. eapply offset_inj; eauto. now apply index_squeeze.
  - intros i i' Hi Hi' E. eapply offset_inj; [exact (proj1 (S2 i Hi))|exact (proj1 (S2 i' Hi'))|exact E].
Qed.

(** the routine after the dataset has been found *)
Definition read_core (d : dset) (arr : marr) (start count : option (list Z)) : M (list elt) :=
  let rank := List.length (d_dims d) in
  require (cls_eqb (t_class (d_ty d)) (t_class (m_ty arr))) ;;
  require (match t_class (m_ty arr) with CString => t_size (d_ty d) <=? t_size (m_ty arr) | _ => t_size (d_ty d) =? t_size (m_ty arr) end) ;;
  require (match start with Some l => zlen (d_dims d) <=? zlen l | None => true end) ;;
  require (match count with Some l => zlen (d_dims d) <=? zlen l | None => true end) ;;
  let read_dims := match count with Some l => firstn rank l | None => d_dims d end in
  let eff_read := eff read_dims in
  let eff_array := eff (m_dims arr) in
  require (zlen eff_array =? zlen eff_read) ;;
  require (fits eff_array eff_read) ;;
  let memdims := spread read_dims eff_array in
  let! msel := of_option (if 0 <? zlen eff_array then sel_slab memdims (map (fun _ => 0) memdims) read_dims else sel_all memdims) in
  let! fsel := of_option (match start, count with
                          | Some st, Some ct => sel_slab (d_dims d) (map (fun z => z - 1) (firstn rank st)) (firstn rank ct)
                          | _, _ => sel_all (d_dims d)
                          end) in
  match transfer (conv (m_ty arr)) fsel msel (d_data d) (m_buf arr) with
  | None => abort
  | Some None => wild
  | Some (Some b) => ret b
  end.
Definition paired {A} (start count : option A) : Prop := match start with Some _ => match count with Some _ => True | None => False end | None => match count with Some _ => False | None => True end end.
Lemma read_core_spec d arr start count s : sound_dset d -> sound_arr arr -> positive (m_dims arr) -> positive (snd (part (d_dims d) start count)) ->
  paired start count ->
  match read_core d arr start count s with
  | Go b s' => s' = s /\ can_read d arr start count /\ filled d arr start count b
  | Stop s' => s' = s /\ ~ can_read d arr start count
  | Wild => False
  end.
Proof.
  intros (Sd1 & Sd2 & Sd3) (Sa1 & Sa2) Pm Pc SC. unfold read_core.
  destruct (type_check (d_ty d) (m_ty arr)) eqn:TC.
  2: { assert (~ can_read d arr start count) as NC. { intros (_ & T & _). apply type_check_spec in T. congruence. }
       unfold type_check in TC. destruct (cls_eqb _ _); [|split; [reflexivity|exact NC]]. cbn [andb] in TC. rewrite (bind_step _ _ _ tt s) by reflexivity. rewrite TC. split; [reflexivity|exact NC]. }
  assert (type_fits (d_ty d) (m_ty arr)) as TF by now apply type_check_spec. unfold type_check in TC. apply andb_prop in TC as [TC1 TC2]. rewrite TC1, TC2. rewrite !(bind_step _ _ _ tt s) by reflexivity.
  destruct (match start with Some l => zlen (d_dims d) <=? zlen l | None => true end) eqn:L1.
  2: { split; [reflexivity|]. intros (B & _). unfold both_long in B. destruct start as [st|]; [|discriminate]. destruct count as [ct|]; [|exact B]. unfold zlen in L1. lia. }
  rewrite (bind_step _ _ _ tt s) by reflexivity.
  destruct (match count with Some l => zlen (d_dims d) <=? zlen l | None => true end) eqn:L2.
  2: { split; [reflexivity|]. intros (B & _). unfold both_long in B. destruct count as [ct|]; [|discriminate]. destruct start as [st|]; [|exact B]. unfold zlen in L2. lia. }
  rewrite (bind_step _ _ _ tt s) by reflexivity.
  assert ((match count with Some l => firstn (List.length (d_dims d)) l | None => d_dims d end) = snd (part (d_dims d) start count)) as -> by (destruct start, count; try contradiction; reflexivity).
  set (ct := snd (part (d_dims d) start count)) in *. set (st := fst (part (d_dims d) start count)).
  assert (List.length st = List.length (d_dims d) /\ List.length ct = List.length (d_dims d)) as [Ls Lc].
  { unfold st, ct, part. destruct start, count; try contradiction; cbn; rewrite ?firstn_length, ?map_length; unfold zlen in *; lia. }
  destruct (zlen (eff (m_dims arr)) =? zlen (eff ct)) eqn:EL.
  2: { split; [reflexivity|]. intros (_ & _ & R & _). fold ct in R. apply roomy_len in R. lia. }
  rewrite (bind_step _ _ _ tt s) by reflexivity.
  destruct (fits (eff (m_dims arr)) (eff ct)) eqn:FT.
  2: { split; [reflexivity|]. intros (_ & _ & R & _). fold ct in R. apply fits_spec in R; [congruence|lia]. }
  rewrite (bind_step _ _ _ tt s) by reflexivity. apply fits_spec in FT; [|lia].
  destruct (memory_sel (m_dims arr) ct Pm Pc FT) as (M1 & M2 & M3 & M4 & M5 & M6 & M7). set (pad := spread ct (eff (m_dims arr))) in *.
  assert ((if 0 <? zlen (eff (m_dims arr)) then sel_slab pad (map (fun _ => 0) pad) ct else sel_all pad) = Some (map (offset pad) (box ct))) as ->.
  { apply sel_mem; auto.
    - intro Z. intro C. rewrite C in M2. cbn in M2. destruct ct; [|discriminate]. unfold roomy in FT. inversion FT as [Q|]. unfold eff in Z. rewrite <- Q in Z. discriminate.
    - intro Z. apply M3. apply zlen_zero. pose proof (zlen_nonneg (eff (m_dims arr))). lia. }
  cbn [of_option]. rewrite (bind_step _ _ _ (map (offset pad) (box ct)) s) by reflexivity.
  assert (forall fsel, fsel = map (fun i => offset (d_dims d) (shifted st i)) (box ct) -> inside (d_dims d) st ct -> both_long (d_dims d) start count ->
    match match transfer (conv (m_ty arr)) fsel (map (offset pad) (box ct)) (d_data d) (m_buf arr) with None => abort | Some None => wild | Some (Some b) => ret b end s with
    | Go b s' => s' = s /\ can_read d arr start count /\ filled d arr start count b | Stop s' => s' = s /\ ~ can_read d arr start count | Wild => False end) as FIN.
  { intros fsel -> Ins BL. assert (forall i, In i (box ct) -> 0 <= offset (d_dims d) (shifted st i) < zlen (d_data d)) as G1.
    { intros i Hi. apply In_box in Hi. unfold full in Sd2. rewrite Sd2. apply offset_range. eapply shifted_in; eauto. }
    destruct (transfer_spec (conv (m_ty arr)) (fun i => offset (d_dims d) (shifted st i)) (offset pad) (box ct) (d_data d) (m_buf arr) G1) as (r & T & T1 & T2 & T3).
    - intros i Hi. apply In_box in Hi. unfold full in Sa2. rewrite Sa2. auto.
    - apply NoDup_box.
    - intros k k' Hk Hk' E. apply In_box in Hk, Hk'. auto.
    - rewrite T. split; [reflexivity|]. split; [exact (conj BL (conj TF (conj FT Ins)))|]. split; [unfold zlen; now rewrite T1|]. fold ct st. split.
      + intros i j Hp. destruct (T2 i) as (v & A & B); [apply In_box; apply Hp|]. exists v. split; [exact A|]. unfold elem. rewrite <- (M5 i j Hp), <- conv_as_type. exact B.
      + intros j Hj Hn. unfold elem. apply T3; [apply offset_range; exact Hj|]. intros i Hi E. apply In_box in Hi. exact (Hn i (M6 i j Hi Hj E)). }
  destruct start as [st0|], count as [ct0|]; try contradiction.
  - destruct (list_eq_dec Z.eq_dec (d_dims d) []) as [DD|ND].
    + assert (sel_slab (d_dims d) (map (fun z => z - 1) (firstn (List.length (d_dims d)) st0)) (firstn (List.length (d_dims d)) ct0) = None) as -> by now rewrite DD.
      split; [reflexivity|]. intros ((B & _) & _). contradiction.
    + pose proof (sel_file (d_dims d) st ct ND Ls Lc Pc) as SF. unfold st, ct, part in SF. cbn [fst snd] in SF.
      destruct (sel_slab (d_dims d) _ _) as [l|].
      * destruct SF as [SF1 SF2]. cbn [of_option]. rewrite (bind_step _ _ _ l s) by reflexivity. apply FIN; auto. split; [exact ND|]. unfold zlen in *. lia.
      * split; [reflexivity|]. intros (_ & _ & _ & C). exact (SF C).
  - unfold sel_all. cbn [of_option]. rewrite (bind_step _ _ _ (map (offset (d_dims d)) (box (d_dims d))) s) by reflexivity. apply FIN.
    + unfold st, ct, part. cbn [fst snd]. apply map_ext_box. intros i Hi. rewrite shifted_ones; [reflexivity|]. now apply index_length.
    + unfold st, ct, part. cbn [fst snd]. apply inside_whole.
    + exact Logic.I.
Qed.

(** ** The whole routine *)
Lemma read_data_found ifile name arr start count x f a fl d s s1 : open_slot ifile s = Go x s -> open_cached x name s = Go (f, a) s1 -> assoc f (disk s1) = Some fl -> dset_at (heap fl) a = Some d ->
  paired start count -> read_data ifile name arr start count s = read_core d arr start count s1.
Proof.
  intros A B C D E. unfold read_data. rewrite (bind_step _ _ _ tt s) by (destruct start, count; try contradiction; reflexivity).
  rewrite (bind_step _ _ _ _ _ A), (bind_step _ _ _ _ _ B). rewrite (bind_step _ _ _ s1 s1) by reflexivity. cbn [fst snd]. rewrite C. cbn [of_option]. rewrite (bind_step _ _ _ fl s1) by reflexivity.
  rewrite D. cbn [of_option]. rewrite (bind_step _ _ _ d s1) by reflexivity. reflexivity.
Qed.
Lemma c89_read cv s0 t s h f ro fl n p arr start count : fresh s0 -> sound_files s0 -> history cv s0 t s -> calm t -> current t h = Some (f, ro) -> assoc f (disk s) = Some fl ->
  names n p -> (List.length (trim n) <= 1000)%nat -> sound_arr arr -> positive (m_dims arr) -> (forall d, dataset_at (heap fl) p d -> positive (snd (part (d_dims d) start count))) ->
  match run cv (CRead h n arr start count) s with
  | Go v s' => exists d b, v = RArr b /\ dataset_at (heap fl) p d /\ can_read d arr start count /\ filled d arr start count b /\ disk s' = disk s
  | Stop s' => (forall d, dataset_at (heap fl) p d -> ~ can_read d arr start count) /\ disk s' = disk s
  | Wild => False
  end.
Proof.
  intros F S0 H C Cu Ed Nn Ln Sa Pm Pp. cbn [run]. unfold fmap, mbind at 1.
  assert (paired start count \/ (paired start count -> False)) as [SC|SC] by (destruct start, count; cbn; auto).
  2: { unfold read_data. assert (require (match start, count with Some _, None | None, Some _ => false | _, _ => true end) s = Stop s) as R by (destruct start, count; cbn in SC; try tauto; reflexivity).
       rewrite (bind_stop _ _ _ _ R). split; [|reflexivity]. intros d _ (B & _). unfold both_long in B. destruct start, count; cbn in SC; tauto. }
  pose proof (coherent_history _ _ _ _ F H C) as Co. assert (sound (heap fl)) as Sf.
  { assert (forall c r, In (c, r) t -> sound_call c) as SCs. { clear -C. induction t as [|[c' r'] t IH]; [contradiction|]. destruct C as [[C1 _] C2]. intros c r [[= -> ->]|K]; eauto. } exact (sound_history _ _ _ _ F S0 H SCs f fl Ed). }
  pose proof (inv_history _ _ _ _ F H) as I. destruct (current_slot _ _ _ _ _ I Cu) as (J & R & x & Hx & P & Q & Nm & Z). pose proof (open_slot_ok _ _ _ R Hx P) as OS.
  pose proof (open_cached_spec cv s0 t s h f ro x n p fl F H C Co Cu Hx Ed Nn Ln) as OC. destruct (dopen (heap fl) n) as [a|] eqn:D.
  - destruct OC as (s' & OC & (T & Dk) & _). destruct (dopen_leads _ _ _ _ Nn D) as (L & d & Da & Dp).
    assert (assoc f (disk s') = Some fl) as Ed' by now rewrite Dk. rewrite (read_data_found h n arr start count x f a fl d s s' OS OC Ed' Da SC).
    pose proof (read_core_spec d arr start count s' (sound_dset_at _ _ _ Sf Da) Sa Pm (Pp d Dp) SC) as RC. destruct (read_core d arr start count s') as [b s2|s2|]; [| |exact RC].
    + destruct RC as (-> & A & B). exists d, b. auto.
    + destruct RC as (-> & A). split; [|exact Dk]. intros d' Dd. destruct (dopen_at _ _ _ _ Sf Nn Dd) as (a' & D' & Da'). replace d' with d by congruence. exact A.
  - destruct OC as (s' & OC & (T & Dk)). assert (read_data h n arr start count s = Stop s') as ->.
    { unfold read_data. rewrite (bind_step _ _ _ tt s) by (destruct start, count; try contradiction; reflexivity). rewrite (bind_step _ _ _ _ _ OS). now apply bind_stop. }
    split; [|exact Dk]. intros d Dd. destruct (dopen_at _ _ _ _ Sf Nn Dd) as (a' & D' & Da'). congruence.
Qed.
(** for concrete cases *)
Definition look (h : list obj) (p : list str) : option dset := match walk h 0 p with Some a => dset_at h a | None => None end.
Lemma look_dataset h p d : look h p = Some d -> dataset_at h p d.
Proof. unfold look. destruct (walk h 0 p) as [a|] eqn:W; [|discriminate]. intro D. apply walk_leads in W. apply dset_at_some in D as (o & E & O). exists a, o. auto. Qed.
