(** Proofs about the table of open files. *)
From Coq Require Import Ascii String.
From Verif Require Import Base.Prelude Base.ListLemmas Text.StrModel H5w.H5wModel H5w.H5wSpec.
From Coq Require Import ZifyBool ZifyNat.
Local Open Scope Z_scope.
Local Open Scope list_scope.

(** ** Strings *)
Lemma str_eqb_eq s t : str_eqb s t = true <-> s = t.
Proof. unfold str_eqb. destruct (list_eq_dec ascii_dec s t); split; congruence. Qed.
Lemma str_eqb_refl s : str_eqb s s = true.
Proof. now apply str_eqb_eq. Qed.
Lemma str_eqb_neq s t : str_eqb s t = false <-> s <> t.
Proof. unfold str_eqb. destruct (list_eq_dec ascii_dec s t); split; congruence. Qed.
Lemma skip_blanks_repeat n s : skip_blanks (repeat " "%char n ++ s) = skip_blanks s.
Proof. induction n; cbn; auto. Qed.
Lemma skip_blanks_split s : exists n, s = repeat " "%char n ++ skip_blanks s.
Proof.
  induction s as [|c s [n IH]]; [now exists 0%nat|]. cbn. destruct (Ascii.eqb_spec c " "%char) as [->|H]; [|now exists 0%nat].
  exists (S n). cbn. now rewrite <- IH.
Qed.
Lemma rev_repeat {A} (x : A) n : rev (repeat x n) = repeat x n.
Proof.
  induction n as [|n IH]; [reflexivity|]. cbn. rewrite IH. clear. induction n as [|n IH]; [reflexivity|]. cbn. now rewrite IH.
Qed.
Lemma trim_split s : exists n, s = trim s ++ repeat " "%char n.
Proof.
  unfold trim. destruct (skip_blanks_split (rev s)) as [n E]. exists n. rewrite <- (rev_involutive s) at 1. rewrite E at 1.
  now rewrite rev_app_distr, rev_repeat.
Qed.
Lemma trim_app_blanks s n : trim (s ++ repeat " "%char n) = trim s.
Proof. unfold trim. rewrite rev_app_distr, rev_repeat, skip_blanks_repeat. reflexivity. Qed.
Lemma skip_blanks_idem s : skip_blanks (skip_blanks s) = skip_blanks s.
Proof. induction s as [|c s IH]; [reflexivity|]. cbn. destruct (Ascii.eqb c " "%char) eqn:E; [exact IH|]. cbn. now rewrite E. Qed.
Lemma trim_trim s : trim (trim s) = trim s.
Proof. unfold trim. rewrite rev_involutive, skip_blanks_idem. reflexivity. Qed.
Lemma firstn_repeat {A} (x : A) k n : firstn k (repeat x n) = repeat x (Nat.min k n).
Proof. revert n. induction k as [|k IH]; intros [|n]; cbn; auto. now rewrite IH. Qed.
Lemma fit_trim n s : fit n (trim s) = fit n s.
Proof.
  unfold fit. destruct (trim_split s) as [k E]. rewrite E at 2. rewrite firstn_app, firstn_repeat. now rewrite trim_app_blanks.
Qed.
Lemma trim_fit n s : trim (fit n s) = fit n s.
Proof. apply trim_trim. Qed.

(** ** Lists *)
Lemma nth_error_set_nth_eq {A} (l : list A) n x : (n < List.length l)%nat -> nth_error (set_nth l n x) n = Some x.
Proof. revert n. induction l as [|y l IH]; intros [|n] H; cbn in *; try lia; auto. apply IH. lia. Qed.
Lemma nth_error_set_nth_neq {A} (l : list A) n k x : n <> k -> nth_error (set_nth l n x) k = nth_error l k.
Proof. revert n k. induction l as [|y l IH]; intros [|n] [|k] H; cbn; auto; try congruence. Qed.
Lemma zlen_set_nth {A} (l : list A) n x : zlen (set_nth l n x) = zlen l.
Proof. unfold zlen. now rewrite set_nth_length. Qed.

(** ** Association lists *)
Lemma assoc_put {A} k (v : A) l g : assoc g (put k v l) = if str_eqb g k then Some v else assoc g l.
Proof.
  induction l as [|[k' v'] l IH]; cbn.
  - destruct (str_eqb g k); reflexivity.
  - destruct (str_eqb k k') eqn:E; cbn.
    + apply str_eqb_eq in E. subst k'. destruct (str_eqb g k); reflexivity.
    + destruct (str_eqb g k') eqn:G; [|exact IH]. apply str_eqb_eq in G. subst k'.
      destruct (str_eqb g k) eqn:K; [|reflexivity]. apply str_eqb_eq in K. subst g. rewrite str_eqb_refl in E. discriminate.
Qed.
Lemma zassoc_In {A} k (v : A) l : zassoc k l = Some v -> In (k, v) l.
Proof.
  induction l as [|[k' v'] l IH]; [discriminate|]. cbn. destruct (Z.eqb_spec k k') as [->|N]; [intros [= ->]; now left|]. intro H. right. auto.
Qed.
Lemma zassoc_None {A} k (l : list (Z * A)) : zassoc k l = None -> forall v, ~ In (k, v) l.
Proof.
  induction l as [|[k' v'] l IH]; [intros _ v []|]. cbn. destruct (Z.eqb_spec k k') as [->|N]; [discriminate|]. intros H v [E|E]; [congruence|]. exact (IH H v E).
Qed.
Lemma zassoc_filter {A} k j (l : list (Z * A)) : k <> j -> zassoc k (filter (fun e => negb (fst e =? j)) l) = zassoc k l.
Proof.
  intro N. induction l as [|[k' v'] l IH]; [reflexivity|]. cbn. destruct (Z.eqb_spec k' j) as [->|N']; cbn.
  - rewrite IH. destruct (Z.eqb_spec k j); [contradiction|reflexivity].
  - now rewrite IH.
Qed.

(** ** The monad *)
Lemma bind_Go {A B} (m : M A) (k : A -> M B) s b s' : mbind m k s = Go b s' -> exists a s1, m s = Go a s1 /\ k a s1 = Go b s'.
Proof. unfold mbind. destruct (m s) as [a s1| |] eqn:E; try discriminate. eauto. Qed.
Lemma bind_step {A B} (m : M A) (k : A -> M B) s a s1 : m s = Go a s1 -> mbind m k s = k a s1.
Proof. unfold mbind. now intros ->. Qed.
Lemma bind_stop {A B} (m : M A) (k : A -> M B) s s1 : m s = Stop s1 -> mbind m k s = Stop s1.
Proof. unfold mbind. now intros ->. Qed.
Lemma require_true b s : b = true -> require b s = Go tt s.
Proof. now intros ->. Qed.
Lemma require_false b s : b = false -> require b s = Stop s.
Proof. now intros ->. Qed.

Definition pres_at (R : wst -> wst -> Prop) (s : wst) {A} (m : M A) : Prop :=
  match m s with Go _ s' | Stop s' => R s s' | Wild => True end.
Section Pres.
  Context (R : wst -> wst -> Prop) (R_refl : forall s, R s s) (R_trans : forall a b c, R a b -> R b c -> R a c).
  Lemma pres_bind {A B} s (m : M A) (k : A -> M B) : pres_at R s m -> (forall a s1, m s = Go a s1 -> pres_at R s1 (k a)) -> pres_at R s (mbind m k).
  Proof using R_trans.
    unfold pres_at, mbind. destruct (m s) as [a s1|s1|] eqn:E; auto. intros H K. specialize (K a s1 eq_refl). destruct (k a s1); eauto.
  Qed.
  Lemma pres_ret {A} s (a : A) : pres_at R s (ret a). Proof using R_refl. apply R_refl. Qed.
  Lemma pres_abort {A} s : pres_at R s (@abort A). Proof using R_refl. apply R_refl. Qed.
  Lemma pres_wild {A} s : pres_at R s (@wild A). Proof using. exact I. Qed.
  Lemma pres_require s b : pres_at R s (require b). Proof using R_refl. unfold require. destruct b; apply R_refl. Qed.
  Lemma pres_get s : pres_at R s get. Proof using R_refl. apply R_refl. Qed.
  Lemma pres_option {A} s (o : option A) : pres_at R s (of_option o). Proof using R_refl. destruct o; apply R_refl. Qed.
End Pres.
(** calls which leave the state alone *)
Definition still {A} (m : M A) : Prop := forall s, match m s with Go _ s' | Stop s' => s' = s | Wild => True end.
Lemma still_bind {A B} (m : M A) (k : A -> M B) : still m -> (forall a, still (k a)) -> still (mbind m k).
Proof. intros H K s. unfold mbind. specialize (H s). destruct (m s) as [a s1|s1|]; auto. subst s1. apply K. Qed.
Lemma still_ret {A} (a : A) : still (ret a). Proof. now intro s. Qed.
Lemma still_abort {A} : still (@abort A). Proof. now intro s. Qed.
Lemma still_wild {A} : still (@wild A). Proof. now intro s. Qed.
Lemma still_require b : still (require b). Proof. intro s. now destruct b. Qed.
Lemma still_get : still get. Proof. now intro s. Qed.
Lemma still_option {A} (o : option A) : still (of_option o). Proof. intro s. now destruct o. Qed.
Lemma still_slot h : still (slot_of h).
Proof. unfold slot_of. apply still_bind; [apply still_get|]. intro. apply still_bind; [apply still_require|]. intro. apply still_option. Qed.
Lemma still_open h : still (open_slot h).
Proof. apply still_bind; [apply still_slot|]. intro. apply still_bind; [apply still_require|]. intro. apply still_ret. Qed.
Lemma still_file id : still (file_of id).
Proof. unfold file_of. repeat (apply still_bind; [first [apply still_get | apply still_option]|]; intro). apply still_ret. Qed.
Lemma still_same {A} (m : M A) s a s' : still m -> m s = Go a s' -> s' = s.
Proof. intros H E. specialize (H s). now rewrite E in H. Qed.
Lemma still_pres (R : wst -> wst -> Prop) (R_refl : forall s, R s s) {A} (m : M A) s : still m -> pres_at R s m.
Proof. intro H. unfold pres_at. specialize (H s). destruct (m s); subst; auto. Qed.

Ltac still_tac :=
  repeat match goal with
  | |- still (mbind _ _) => apply still_bind; [|intro]
  | |- still (ret _) => apply still_ret
  | |- still abort => apply still_abort
  | |- still wild => apply still_wild
  | |- still (require _) => apply still_require
  | |- still get => apply still_get
  | |- still (of_option _) => apply still_option
  | |- still (slot_of _) => apply still_slot
  | |- still (open_slot _) => apply still_open
  | |- still (file_of _) => apply still_file
  | |- still (match ?x with _ => _ end) => destruct x
  | |- still (if ?x then _ else _) => destruct x
  end.
Lemma still_read_attribute cv h n a : still (read_attribute cv h n a).
Proof. unfold read_attribute. still_tac. Qed.
Lemma still_dims h n : still (get_dimensions h n).
Proof. unfold get_dimensions, give_dims. still_tac. Qed.
Lemma still_type h n : still (get_type h n).
Proof. unfold get_type. still_tac. Qed.
Lemma still_members w h n l ns : still (list_members w h n l ns).
Proof. unfold list_members. still_tac. Qed.
Lemma still_attributes h n l ns : still (list_attributes h n l ns).
Proof. unfold list_attributes. still_tac. Qed.
Lemma still_file_id h : still (get_file_id h).
Proof. unfold get_file_id. still_tac. Qed.

(** ** Slots and files *)
Lemma slot_of_ok h s x : 1 <= h <= nfilemax -> nth_error (slots s) (Z.to_nat (h - 1)) = Some x -> slot_of h s = Go x s.
Proof. intros H E. unfold slot_of, mbind, get, require. replace ((1 <=? h) && (h <=? nfilemax)) with true by lia. cbn. now rewrite E. Qed.
Lemma slot_of_inv h s x s' : slot_of h s = Go x s' -> s' = s /\ 1 <= h <= nfilemax /\ nth_error (slots s) (Z.to_nat (h - 1)) = Some x.
Proof.
  unfold slot_of, mbind, get, require. destruct ((1 <=? h) && (h <=? nfilemax)) eqn:E; [|discriminate]. cbn.
  destruct (nth_error _ _) eqn:N; [|discriminate]. intros [= -> <-]. split; [reflexivity|]. split; [lia|auto].
Qed.
Lemma slot_of_stop h s : ~ 1 <= h <= nfilemax -> slot_of h s = Stop s.
Proof. intros H. unfold slot_of, mbind, get, require. replace ((1 <=? h) && (h <=? nfilemax)) with false by lia. reflexivity. Qed.
Lemma open_slot_inv h s x s' : open_slot h s = Go x s' -> s' = s /\ 1 <= h <= nfilemax /\ nth_error (slots s) (Z.to_nat (h - 1)) = Some x /\ 0 <= s_id x.
Proof.
  unfold open_slot. intro H. apply bind_Go in H as (y & s1 & E & H). apply slot_of_inv in E as (-> & R & E).
  apply bind_Go in H as ([] & s2 & Q & H). unfold require in Q. destruct (0 <=? s_id y) eqn:P; [|discriminate]. injection Q as <-. injection H as -> <-.
  repeat split; auto; lia.
Qed.
Lemma open_slot_ok h s x : 1 <= h <= nfilemax -> nth_error (slots s) (Z.to_nat (h - 1)) = Some x -> 0 <= s_id x -> open_slot h s = Go x s.
Proof.
  intros R E P. unfold open_slot. rewrite (bind_step _ _ _ _ _ (slot_of_ok _ _ _ R E)). rewrite (bind_step _ _ _ tt s); [reflexivity|]. apply require_true. lia.
Qed.
Lemma open_slot_closed h s x : 1 <= h <= nfilemax -> nth_error (slots s) (Z.to_nat (h - 1)) = Some x -> s_id x < 0 -> open_slot h s = Stop s.
Proof.
  intros R E P. unfold open_slot. rewrite (bind_step _ _ _ _ _ (slot_of_ok _ _ _ R E)). apply bind_stop. apply require_false. lia.
Qed.
Lemma open_slot_stop h s : ~ 1 <= h <= nfilemax -> open_slot h s = Stop s.
Proof. intro H. unfold open_slot. apply bind_stop. now apply slot_of_stop. Qed.
Lemma file_of_inv id s nf s' : file_of id s = Go nf s' ->
  s' = s /\ exists rw, zassoc id (lib s) = Some (fst nf, rw) /\ assoc (fst nf) (disk s) = Some (snd nf).
Proof.
  unfold file_of, mbind, get, of_option, ret, abort. destruct (zassoc id (lib s)) as [[f rw]|]; [|discriminate]. cbn.
  destruct (assoc f (disk s)) as [d|] eqn:E; [|discriminate]. intros [= <- <-]. split; [reflexivity|]. exists rw. split; [reflexivity|exact E].
Qed.
Lemma file_of_ok id s f rw d : zassoc id (lib s) = Some (f, rw) -> assoc f (disk s) = Some d -> file_of id s = Go (f, d) s.
Proof. intros E D. unfold file_of, mbind, get, of_option, ret, abort. rewrite E. cbn. now rewrite D. Qed.
Lemma file_of_none id s : zassoc id (lib s) = None -> file_of id s = Stop s.
Proof. intros E. unfold file_of, mbind, get, of_option, ret, abort. now rewrite E. Qed.

(** ** Calls which change only the contents of one file *)
Definition tables_same (s s' : wst) : Prop :=
  lib s' = lib s /\ next s' = next s /\ slots s' = slots s /\ nopen s' = nopen s /\ need_init s' = need_init s.
Definition cache_same (s s' : wst) : Prop := cached s' = cached s /\ c_id s' = c_id s /\ c_file s' = c_file s /\ c_dset s' = c_dset s.
(** nothing but the file [f], if that, has changed *)
Definition only (f : str) (s s' : wst) : Prop :=
  tables_same s s' /\ cache_same s s' /\ (forall g, g <> f -> assoc g (disk s') = assoc g (disk s)) /\ (assoc f (disk s) <> None -> assoc f (disk s') <> None).
Lemma only_refl f s : only f s s.
Proof. repeat split; auto. Qed.
Lemma only_trans f a b c : only f a b -> only f b c -> only f a c.
Proof.
  intros ((A1 & A2 & A3 & A4 & A5) & (B1 & B2 & B3 & B4) & C & D) ((A1' & A2' & A3' & A4' & A5') & (B1' & B2' & B3' & B4') & C' & D').
  split; [repeat split; congruence|]. split; [repeat split; congruence|]. split; [|auto]. intros g N. rewrite C', C; auto.
Qed.
Lemma only_update name d h s : pres_at (only name) s (update name d h).
Proof.
  unfold pres_at, update. cbn. split; [repeat split|]. split; [repeat split|]. cbn. split.
  - intros g N. rewrite assoc_put. apply str_eqb_neq in N. now rewrite N.
  - intros _. rewrite assoc_put, str_eqb_refl. discriminate.
Qed.
(** a call on the file with identifier [id] *)
Definition on_file (id : Z) {A} (m : M A) : Prop :=
  forall s, pres_at (fun s s' => (forall f rw, zassoc id (lib s) = Some (f, rw) -> only f s s') /\ (zassoc id (lib s) = None -> s' = s)) s m.
Definition onR (id : Z) (s s' : wst) : Prop := (forall f rw, zassoc id (lib s) = Some (f, rw) -> only f s s') /\ (zassoc id (lib s) = None -> s' = s).
Lemma onR_refl id s : onR id s s.
Proof. split; intros; [apply only_refl|reflexivity]. Qed.
Lemma onR_trans id a b c : onR id a b -> onR id b c -> onR id a c.
Proof.
  intros [A1 A2] [B1 B2]. split.
  - intros f rw E. specialize (A1 f rw E). eapply only_trans; [exact A1|]. apply (B1 f rw). destruct A1 as ((L & _) & _). now rewrite L.
  - intro E. specialize (A2 E). subst b. auto.
Qed.
Lemma on_bind {A B} id s (m : M A) (k : A -> M B) : pres_at (onR id) s m -> (forall a s1, m s = Go a s1 -> pres_at (onR id) s1 (k a)) -> pres_at (onR id) s (mbind m k).
Proof. apply pres_bind. apply onR_trans. Qed.
Lemma on_still {A} id s (m : M A) : still m -> pres_at (onR id) s m.
Proof. apply still_pres. apply onR_refl. Qed.
Lemma on_update id s nf s1 d h : file_of id s = Go nf s1 -> pres_at (onR id) s (update (fst nf) d h).
Proof.
  intro E. apply file_of_inv in E as (_ & rw & L & _). unfold pres_at, update. split.
  - intros f rw' L'. rewrite L in L'. injection L' as <- <-. exact (only_update (fst nf) d h s).
  - congruence.
Qed.
(** the file found before is still the file after a change *)
Lemma file_of_after id s nf s1 d h u s2 : file_of id s = Go nf s1 -> update (fst nf) d h s = Go u s2 -> exists nf', file_of id s2 = Go nf' s2 /\ fst nf' = fst nf.
Proof.
  intros E U. apply file_of_inv in E as (_ & rw & L & D). unfold update in U. injection U as <- <-.
  exists (fst nf, {| heap := h; writable := writable d |}). split; [|reflexivity]. apply (file_of_ok _ _ _ rw); [exact L|]. cbn. now rewrite assoc_put, str_eqb_refl.
Qed.

Lemma on_group_loop id rest : forall acc loc n s, pres_at (onR id) s (group_loop id rest acc loc n).
Proof.
  induction rest as [|c r IH]; intros acc loc n s; cbn [group_loop]; [apply on_still, still_ret|].
  destruct (Ascii.eqb c slash); [|apply IH].
  apply on_bind; [apply on_still, still_file|]. intros nf s1 E. pose proof (still_same _ _ _ _ (still_file id) E). subst s1.
  cbn zeta. apply on_bind; [eapply on_update; exact E|]. intros u s2 E2.
  apply on_bind; [apply on_still, still_option|]. intros g s3 E3. destruct (MAX_NEST <? n + 1); [exact I|]. apply IH.
Qed.
Lemma on_create_group h name s x : nth_error (slots s) (Z.to_nat (h - 1)) = Some x -> pres_at (onR (s_id x)) s (create_group h name).
Proof.
  intro N. unfold create_group. apply on_bind; [apply on_still, still_slot|]. intros y s1 E. apply slot_of_inv in E as (-> & _ & E).
  assert (y = x) as -> by congruence. apply on_bind; [apply on_still, still_require|]. intros u s2 E2. cbn zeta.
  destruct (_ <? _); [destruct (256 <=? _); [exact I|]|]; apply on_group_loop.
Qed.
Lemma on_write_data h name arr o s x : nth_error (slots s) (Z.to_nat (h - 1)) = Some x -> pres_at (onR (s_id x)) s (write_data h name arr o).
Proof.
  intro N. unfold write_data. apply on_bind; [apply on_still, still_require|]. intros u s1 E. apply still_same in E; [|apply still_require]. subst s1.
  apply on_bind; [apply on_still, still_open|]. intros y s1 E. apply open_slot_inv in E as (-> & _ & E & _). assert (y = x) as -> by congruence.
  apply on_bind; [apply on_still, still_require|]. intros u1 s1 E1. apply still_same in E1; [|apply still_require]. subst s1.
  apply on_bind; [apply on_still, still_require|]. intros u2 s1 E1. apply still_same in E1; [|apply still_require]. subst s1.
  apply on_bind. { destruct (w_chunk o) as [l|]; [destruct (7 <? zlen l)|]; first [exact I | apply on_still, still_ret]. }
  intros u3 s1 E1. assert (s1 = s). { destruct (w_chunk o) as [l|]; [destruct (7 <? zlen l)|]; now inversion E1. } subst s1. clear E1.
  apply on_bind; [apply on_still, still_file|]. intros nf s1 Ef. pose proof (still_same _ _ _ _ (still_file _) Ef). subst s1.
  assert ((match (match dopen (heap (snd nf)) name, w_overwrite o with
             | Some _, Some true => update (fst nf) (snd nf) (unlink (heap (snd nf)) name) ;; ret None
             | _, _ => ret (dopen (heap (snd nf)) name) end) s with Go _ s1 => slots s1 = slots s | _ => True end)) as Hs.
  { destruct (dopen _ _); [destruct (w_overwrite o) as [[]|]|]; reflexivity. }
  cbn zeta. apply on_bind.
  { destruct (dopen _ _); [destruct (w_overwrite o) as [[]|]|]; try (apply on_still, still_ret). apply on_bind; [eapply on_update; exact Ef|]. intros; apply on_still, still_ret. }
  intros opened s1 E1. rewrite E1 in Hs. assert (nth_error (slots s1) (Z.to_nat (h - 1)) = Some x) as N1 by now rewrite Hs.
  apply on_bind.
  { destruct opened as [a|].
    - apply on_bind; [apply on_still, still_file|]. intros nf2 s2 E2. pose proof (still_same _ _ _ _ (still_file _) E2). subst s2.
      apply on_bind; [apply on_still, still_option|]. intros d s2 E3. apply still_same in E3; [|apply still_option]. subst s2.
      apply on_bind; [apply on_still, still_require|]. intros v s2 E3. apply still_same in E3; [|apply still_require]. subst s2.
      apply on_bind; [apply on_still, still_require|]. intros v2 s2 E3. apply still_same in E3; [|apply still_require]. subst s2.
      destruct (w_start o); [|apply on_still, still_abort]. destruct (w_count o); [|apply on_still, still_abort].
      apply on_bind; [apply on_still, still_require|]. intros v3 s2 E3. apply still_same in E3; [|apply still_require]. subst s2.
      apply on_bind; [|intros; apply on_still, still_ret]. destruct (existsb _ _); [|apply on_still, still_ret].
      apply on_bind; [apply on_still, still_option|]. intros d' s2 E3. apply still_same in E3; [|apply still_option]. subst s2.
      eapply on_update. exact E2.
    - apply on_bind.
      { destruct (1 <? last_slash name); [|apply on_still, still_ret]. apply on_bind; [apply on_still, still_file|]. intros nf2 s2 E2. apply still_same in E2; [|apply still_file]. subst s2.
        destruct (gopen _ _ _); [apply on_still, still_ret|]. now apply on_create_group. }
      intros v s2 E2.
      apply on_bind; [apply on_still; still_tac|]. intros fd s3 E3.
      apply on_bind; [apply on_still, still_option|]. intros d s4 E4. apply still_same in E4; [|apply still_option]. subst s4.
      apply on_bind; [apply on_still, still_file|]. intros nf2 s4 E4. pose proof (still_same _ _ _ _ (still_file _) E4). subst s4.
      apply on_bind; [apply on_still, still_option|]. intros hh s4 E5. apply still_same in E5; [|apply still_option]. subst s4.
      apply on_bind; [eapply on_update; exact E4|]. intros; apply on_still, still_option. }
  intros a s2 _. apply on_bind; [apply on_still, still_file|]. intros nf2 s3 E2. pose proof (still_same _ _ _ _ (still_file _) E2). subst s3.
  apply on_bind; [apply on_still, still_option|]. intros d s3 E3. apply still_same in E3; [|apply still_option]. subst s3.
  apply on_bind; [apply on_still, still_require|]. intros v s3 E3. apply still_same in E3; [|apply still_require]. subst s3.
  apply on_bind; [apply on_still, still_require|]. intros v2 s3 E3. apply still_same in E3; [|apply still_require]. subst s3.
  apply on_bind; [apply on_still, still_option|]. intros ms s3 E3. apply still_same in E3; [|apply still_option]. subst s3.
  apply on_bind; [apply on_still, still_option|]. intros fs s3 E3. apply still_same in E3; [|apply still_option]. subst s3.
  destruct (transfer _ _ _ _ _) as [[b|]|]; [|exact I|apply on_still, still_abort]. eapply on_update. exact E2.
Qed.
Lemma on_write_attribute h name arr o s x : nth_error (slots s) (Z.to_nat (h - 1)) = Some x -> pres_at (onR (s_id x)) s (write_attribute h name arr o).
Proof.
  intro N. unfold write_attribute. apply on_bind; [apply on_still, still_open|]. intros y s1 E. apply open_slot_inv in E as (-> & _ & E & _). assert (y = x) as -> by congruence.
  apply on_bind; [apply on_still, still_require|]. intros u1 s1 E1. apply still_same in E1; [|apply still_require]. subst s1.
  apply on_bind; [apply on_still, still_file|]. intros nf s1 Ef. pose proof (still_same _ _ _ _ (still_file _) Ef). subst s1.
  apply on_bind; [apply on_still, still_option|]. intros p s1 E1. apply still_same in E1; [|apply still_option]. subst s1.
  apply on_bind; [apply on_still, still_require|]. intros u2 s1 E1. apply still_same in E1; [|apply still_require]. subst s1.
  cbn zeta. apply on_bind; [eapply on_update; exact Ef|]. intros u3 s1 E1. destruct (file_of_after _ _ _ _ _ _ _ _ Ef E1) as (nf' & Ef' & En).
  apply on_bind; [apply on_still, still_require|]. intros u4 s2 E2. apply still_same in E2; [|apply still_require]. subst s2.
  apply on_bind; [apply on_still, still_require|]. intros u5 s2 E2. apply still_same in E2; [|apply still_require]. subst s2.
  rewrite <- En. eapply on_update. exact Ef'.
Qed.

(** reading leaves the tables and the files *)
Definition reads (s s' : wst) : Prop := tables_same s s' /\ disk s' = disk s.
Lemma reads_refl s : reads s s.
Proof. repeat split. Qed.
Lemma reads_trans a b c : reads a b -> reads b c -> reads a c.
Proof. intros ((A1 & A2 & A3 & A4 & A5) & B) ((A1' & A2' & A3' & A4' & A5') & B'). repeat split; congruence. Qed.
Lemma reads_still {A} (m : M A) s : still m -> pres_at reads s m.
Proof. apply still_pres, reads_refl. Qed.
Definition open_new (x : slot) (n : str) : M (str * nat) :=
  let! nf := file_of (s_id x) in
  let! a := of_option (dopen (heap (snd nf)) n) in
  fun s => Go (fst nf, a) (with_cache s true (fst nf, a) (s_name x) (fit 1000 (trim n))).
Lemma reads_open_new x n s : pres_at reads s (open_new x n).
Proof.
  unfold open_new. apply (pres_bind _ reads_trans); [apply reads_still, still_file|]. intros nf s2 E.
  apply (pres_bind _ reads_trans); [apply reads_still, still_option|]. intros a s3 E3. repeat split.
Qed.
(** whether the dataset which is still open is taken to be the one asked for *)
Definition same_dset (x : slot) (n : str) (s : wst) : bool := str_eqb (strip (s_name x)) (strip (c_file s)) && str_eqb (strip n) (strip (c_dset s)).
Lemma open_cached_cases x n s : open_cached x n s =
  if cached s && same_dset x n s then Go (c_id s) s
  else if cached s then open_new x n (with_cache s false (c_id s) (c_file s) (c_dset s)) else open_new x n s.
Proof.
  unfold open_cached, open_new. fold (same_dset x n s). destruct (cached s) eqn:C; destruct (same_dset x n s); cbn [negb andb]; cbn [cached with_cache]; rewrite ?C; reflexivity.
Qed.
Lemma reads_open_cached x n s : pres_at reads s (open_cached x n).
Proof.
  unfold pres_at. rewrite open_cached_cases. destruct (cached s && same_dset x n s); [apply reads_refl|]. destruct (cached s).
  - set (s1 := with_cache _ _ _ _ _). pose proof (reads_open_new x n s1) as H. unfold pres_at in H. assert (reads s s1) by repeat split.
    destruct (open_new x n s1); eauto using reads_trans.
  - exact (reads_open_new x n s).
Qed.
Lemma reads_read_data h n a st ct s : pres_at reads s (read_data h n a st ct).
Proof.
  unfold read_data. apply (pres_bind _ reads_trans); [apply reads_still, still_require|]. intros u s1 _.
  apply (pres_bind _ reads_trans); [apply reads_still, still_open|]. intros x s2 _.
  apply (pres_bind _ reads_trans); [apply reads_open_cached|]. intros id s3 _. apply reads_still. still_tac.
Qed.
