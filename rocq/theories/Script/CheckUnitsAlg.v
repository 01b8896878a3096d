(** Arithmetic for check_units.py: means, angular momenta and periodic images. *)
From Coq Require Import QArith Qcanon Qround Lqa.
From Verif Require Import Base.Prelude Base.ListLemmas.
From Verif Require Import Script.CheckUnitsModel Script.CheckUnitsSpec.
Local Open Scope Z_scope.
Local Open Scope list_scope.

Definition cnt {B} (l : list B) : Qc := Q2Qc (inject_Z (Z.of_nat (length l))).
Definition T {B} (f : B -> Qc) (l : list B) : Qc := total (map f l).
Definition M {B} (f : B -> Qc) (l : list B) : Qc := mean (map f l).

Lemma of_Z_inj_pos n : 0 < n -> Q2Qc (inject_Z n) <> 0%Qc.
Proof. intros H E. assert (Qeq (inject_Z n) 0) as Q. { change 0%Qc with (Q2Qc 0) in E. now apply Q2Qc_eq_iff in E. } unfold Qeq in Q. cbn in Q. lia. Qed.
Lemma of_Z_add n m : Q2Qc (inject_Z (n + m)) = (Q2Qc (inject_Z n) + Q2Qc (inject_Z m))%Qc.
Proof. apply Qc_is_canon. unfold Qcplus. cbn [this Q2Qc]. rewrite !Qred_correct, inject_Z_plus. reflexivity. Qed.
Lemma of_Z_opp n : Q2Qc (inject_Z (- n)) = (- Q2Qc (inject_Z n))%Qc.
Proof. apply Qc_is_canon. unfold Qcopp. cbn [this Q2Qc]. rewrite !Qred_correct, inject_Z_opp. reflexivity. Qed.
Lemma cnt_cons {B} (x : B) l : cnt (x :: l) = (1 + cnt l)%Qc.
Proof. unfold cnt. cbn [length]. rewrite Nat2Z.inj_succ. unfold Z.succ. rewrite Z.add_comm, of_Z_add. reflexivity. Qed.
Lemma cnt_pos {B} (l : list B) : l <> [] -> cnt l <> 0%Qc.
Proof. intro H. apply of_Z_inj_pos. destruct l; [easy|]. cbn [length]. lia. Qed.

Lemma T_cons {B} f (x : B) l : T f (x :: l) = (f x + T f l)%Qc.
Proof. reflexivity. Qed.
Lemma T_ext {B} f g (l : list B) : (forall x, In x l -> f x = g x) -> T f l = T g l.
Proof. intro H. unfold T. f_equal. now apply map_ext_in. Qed.
Lemma T_add {B} f g (l : list B) : T (fun x => f x + g x)%Qc l = (T f l + T g l)%Qc.
Proof. induction l as [|x l IH]; [reflexivity|]. rewrite !T_cons, IH. ring. Qed.
Lemma T_scale {B} f c (l : list B) : T (fun x => c * f x)%Qc l = (c * T f l)%Qc.
Proof. induction l as [|x l IH]; [unfold T; cbn; ring|]. rewrite !T_cons, IH. ring. Qed.
Lemma T_const {B} c (l : list B) : T (fun _ => c) l = (c * cnt l)%Qc.
Proof. induction l as [|x l IH]; [unfold T, cnt; cbn; change (Q2Qc (inject_Z 0)) with 0%Qc; ring|]. rewrite T_cons, IH, cnt_cons. ring. Qed.
Lemma T_map {B C} (h : C -> B) f (l : list C) : T f (map h l) = T (fun x => f (h x)) l.
Proof. unfold T. now rewrite map_map. Qed.
Lemma total_perm l m : Permutation l m -> total l = total m.
Proof. induction 1; cbn [total fold_right]; unfold total in *; cbn [fold_right]; try congruence; try ring. Qed.
Lemma T_perm {B} f (l m : list B) : Permutation l m -> T f l = T f m.
Proof. intro H. apply total_perm. now apply Permutation_map. Qed.

Lemma M_T {B} f (l : list B) : l <> [] -> M f l = (T f l / cnt l)%Qc.
Proof. intro H. unfold M, T, cnt, mean. destruct l as [|x l]; [easy|]. cbn [map]. cbn [length]. now rewrite map_length. Qed.
Lemma M_nil {B} (f : B -> Qc) : M f [] = 0%Qc.
Proof. reflexivity. Qed.
Lemma M_map {B C} (h : C -> B) f (l : list C) : M f (map h l) = M (fun x => f (h x)) l.
Proof. unfold M. now rewrite map_map. Qed.
Lemma M_ext {B} f g (l : list B) : (forall x, In x l -> f x = g x) -> M f l = M g l.
Proof. intro H. unfold M. f_equal. now apply map_ext_in. Qed.
Lemma M_perm {B} f (l m : list B) : Permutation l m -> M f l = M f m.
Proof.
  intro H. destruct l as [|x l]; [apply Permutation_nil in H; now subst|]. assert (m <> []) by (intros ->; apply Permutation_sym, Permutation_nil in H; discriminate).
  rewrite !M_T by easy. rewrite (T_perm f _ _ H). unfold cnt. now rewrite (Permutation_length H).
Qed.
Lemma M_shift {B} f t (l : list B) : l <> [] -> M (fun x => f x + t)%Qc l = (M f l + t)%Qc.
Proof. intro H. rewrite !M_T by exact H. rewrite T_add, T_const. field. now apply cnt_pos. Qed.

(** the mean of a product does not depend on what is subtracted from the second factor *)
Lemma dev {B} f (l : list B) : l <> [] -> T (fun x => f x - M f l)%Qc l = 0%Qc.
Proof.
  intro H. rewrite (T_ext _ (fun x => f x + (- M f l))%Qc) by (intros; ring). rewrite T_add, T_const, M_T by exact H. field. now apply cnt_pos.
Qed.
Lemma product {B} f g (a s c d : Qc) (l : list B) : l <> [] ->
  T (fun x => (f x - M f l) * a * ((g x - c) * s))%Qc l = T (fun x => a * (f x - M f l) * (s * (g x - d)))%Qc l.
Proof.
  intro H. rewrite (T_ext _ (fun x => a * (f x - M f l) * (s * (g x - d)) + a * s * (d - c) * (f x - M f l))%Qc) by (intros; ring).
  rewrite T_add, T_scale, dev by exact H. ring.
Qed.
Lemma T_minus {B} f g (l : list B) : T (fun x => f x - g x)%Qc l = (T f l - T g l)%Qc.
Proof. induction l as [|x l IH]; [unfold T; cbn; ring|]. rewrite !T_cons, IH. ring. Qed.

Definition shift (t : vec) (m : vec * vec) : vec * vec := (vadd (fst m) t, snd m).
(** one component of the momentum *)
Definition comp {B} (a s : Qc) (f g : B -> Qc) (h k : B -> Qc) (l : list B) : Qc :=
  M (fun x => a * (f x - M f l) * (s * (g x - M g l)) - a * (h x - M h l) * (s * (k x - M k l)))%Qc l.
Lemma spin_comp a s ms : spin a s ms =
  (comp a s (fun m => y_of (fst m)) (fun m => z_of (snd m)) (fun m => z_of (fst m)) (fun m => y_of (snd m)) ms,
   comp a s (fun m => z_of (fst m)) (fun m => x_of (snd m)) (fun m => x_of (fst m)) (fun m => z_of (snd m)) ms,
   comp a s (fun m => x_of (fst m)) (fun m => y_of (snd m)) (fun m => y_of (fst m)) (fun m => x_of (snd m)) ms).
Proof.
  unfold spin, vmean, comp, momentum. rewrite !map_map. unfold x_of, y_of, z_of, M. cbn [fst snd]. reflexivity.
Qed.
Lemma comp_map {B C} (r : C -> B) a s f g h k l : comp a s f g h k (map r l) = comp a s (fun x => f (r x)) (fun x => g (r x)) (fun x => h (r x)) (fun x => k (r x)) l.
Proof. unfold comp. now rewrite !M_map. Qed.
Lemma comp_perm {B} a s f g h k (l m : list B) : Permutation l m -> comp a s f g h k l = comp a s f g h k m.
Proof. intro H. unfold comp. rewrite (M_perm _ _ _ H). apply M_ext. intros x _. now rewrite !(M_perm _ _ _ H). Qed.
Lemma comp_shift {B} a s f g h k t t' (l : list B) : comp a s (fun x => f x + t)%Qc g (fun x => h x + t')%Qc k l = comp a s f g h k l.
Proof.
  destruct l as [|x l]; [reflexivity|]. unfold comp. apply M_ext. intros y _. rewrite !M_shift by easy. ring.
Qed.
Lemma spin_perm a s l m : Permutation l m -> spin a s l = spin a s m.
Proof. intro H. rewrite !spin_comp. now rewrite !(comp_perm a s _ _ _ _ _ _ H). Qed.
Lemma vadd_x u t : x_of (vadd u t) = (x_of u + x_of t)%Qc. Proof. now destruct u as [[? ?] ?], t as [[? ?] ?]. Qed.
Lemma vadd_y u t : y_of (vadd u t) = (y_of u + y_of t)%Qc. Proof. now destruct u as [[? ?] ?], t as [[? ?] ?]. Qed.
Lemma vadd_z u t : z_of (vadd u t) = (z_of u + z_of t)%Qc. Proof. now destruct u as [[? ?] ?], t as [[? ?] ?]. Qed.
Lemma comp_ext {B} a s f g h k f' g' h' k' (l : list B) : (forall x, f x = f' x) -> (forall x, g x = g' x) -> (forall x, h x = h' x) -> (forall x, k x = k' x) ->
  comp a s f g h k l = comp a s f' g' h' k' l.
Proof.
  intros H1 H2 H3 H4. unfold comp. rewrite (M_ext f f'), (M_ext g g'), (M_ext h h'), (M_ext k k') by auto. apply M_ext. intros x _. now rewrite H1, H2, H3, H4.
Qed.
Lemma spin_shift a s t ms : spin a s (map (shift t) ms) = spin a s ms.
Proof.
  rewrite !spin_comp, !comp_map. unfold shift. cbn [fst snd].
  f_equal; [f_equal|].
  - etransitivity; [|apply (comp_shift a s _ _ _ _ (y_of t) (z_of t))]. apply comp_ext; intro; auto using vadd_y, vadd_z.
  - etransitivity; [|apply (comp_shift a s _ _ _ _ (z_of t) (x_of t))]. apply comp_ext; intro; auto using vadd_x, vadd_z.
  - etransitivity; [|apply (comp_shift a s _ _ _ _ (x_of t) (y_of t))]. apply comp_ext; intro; auto using vadd_x, vadd_y.
Qed.
(** the formula of the script, with any vector subtracted from the velocities *)
Definition script_cross (a s : Qc) (c w : vec) (m : vec * vec) : vec := np_cross (vscale (vsub (fst m) c) a) (vscale (vsub (snd m) w) s).
Lemma script_spin a s w ms : vmean (map (script_cross a s (vmean (map fst ms)) w) ms) = spin a s ms.
Proof.
  destruct ms as [|m ms]; [reflexivity|]. set (l := m :: ms). assert (l <> []) as N by easy. clearbody l. rewrite spin_comp. unfold vmean at 1. rewrite !map_map. 
  assert (forall f g h k c d,
    M (fun x : vec * vec => (f x - M f l) * a * ((g x - c) * s) - (h x - M h l) * a * ((k x - d) * s))%Qc l = comp a s f g h k l) as E.
  { intros f g h k c d. unfold comp. etransitivity; [apply M_T; exact N|]. etransitivity; [|symmetry; apply M_T; exact N]. rewrite !T_minus. rewrite (product f g a s c (M g l) l N), (product h k a s d (M k l) l N). reflexivity. }
  f_equal; [f_equal|].
  - etransitivity; [|apply (E _ _ _ _ (z_of w) (y_of w))]. apply M_ext. intros [[[? ?] ?] [[? ?] ?]] _. unfold script_cross, vmean. destruct w as [[? ?] ?]. cbn. unfold M. rewrite !map_map. reflexivity.
  - etransitivity; [|apply (E _ _ _ _ (x_of w) (z_of w))]. apply M_ext. intros [[[? ?] ?] [[? ?] ?]] _. unfold script_cross, vmean. destruct w as [[? ?] ?]. cbn. unfold M. rewrite !map_map. reflexivity.
  - etransitivity; [|apply (E _ _ _ _ (y_of w) (x_of w))]. apply M_ext. intros [[[? ?] ?] [[? ?] ?]] _. unfold script_cross, vmean. destruct w as [[? ?] ?]. cbn. unfold M. rewrite !map_map. reflexivity.
Qed.

(** sums of rows *)
Lemma fold_vadd l v : fold_left vadd l v = (x_of v + total (map x_of l), y_of v + total (map y_of l), z_of v + total (map z_of l))%Qc.
Proof.
  revert v; induction l as [|u l IH]; intro v; cbn [fold_left map total fold_right].
  - destruct v as [[? ?] ?]. cbn. f_equal; [f_equal|]; ring.
  - rewrite IH, vadd_x, vadd_y, vadd_z. unfold total. cbn [fold_right]. f_equal; [f_equal|]; ring.
Qed.
Lemma vmean_perm l m : Permutation l m -> vmean l = vmean m.
Proof. intro H. unfold vmean. pose proof (M_perm x_of _ _ H) as X. pose proof (M_perm y_of _ _ H) as Y. pose proof (M_perm z_of _ _ H) as Z. unfold M in *. congruence. Qed.

(** periodic images *)
Lemma qmod_spec x y : (0 < y)%Qc -> exists k, qmod x y = (x + y * Q2Qc (inject_Z k))%Qc /\ (0 <= qmod x y)%Qc /\ (qmod x y < y)%Qc.
Proof.
  intro Hy. set (n := Qfloor (this (x / y)%Qc)). assert (qmod x y = (y * (x / y - of_Z n))%Qc) as E.
  { unfold qmod. fold n. field. intros ->. now apply Qclt_not_eq in Hy. }
  exists (- n). split; [unfold qmod; fold n; rewrite of_Z_opp; unfold of_Z; ring|].
  pose proof (Qfloor_le (this (x / y)%Qc)) as L. pose proof (Qlt_floor (this (x / y)%Qc)) as U. fold n in L, U.
  assert (this (of_Z n) == inject_Z n)%Q as En by (unfold of_Z; cbn [this Q2Qc]; apply Qred_correct).
  assert (this (x / y - of_Z n)%Qc == this (x / y)%Qc - inject_Z n)%Q as Ed.
  { unfold Qcminus, Qcplus, Qcopp. cbn [this Q2Qc]. rewrite !Qred_correct, En. reflexivity. }
  assert (this (y * (x / y - of_Z n))%Qc == this y * this (x / y - of_Z n)%Qc)%Q as Em by (unfold Qcmult; cbn [this Q2Qc]; apply Qred_correct).
  rewrite E. unfold Qcle, Qclt in *. rewrite Em, Ed. rewrite inject_Z_plus in U. change (this 0%Qc) with 0%Q in *. change (inject_Z 1) with 1%Q in U.
  set (q := this (x / y)%Qc) in *. set (b := this y) in *. set (z := inject_Z n) in *. clearbody q b z. split; nra.
Qed.
Lemma this_add x y : (this (x + y)%Qc == this x + this y)%Q.
Proof. unfold Qcplus. cbn [this Q2Qc]. apply Qred_correct. Qed.
Lemma this_mul x y : (this (x * y)%Qc == this x * this y)%Q.
Proof. unfold Qcmult. cbn [this Q2Qc]. apply Qred_correct. Qed.
Lemma this_opp x : (this (- x)%Qc == - this x)%Q.
Proof. unfold Qcopp. cbn [this Q2Qc]. apply Qred_correct. Qed.
Lemma this_minus x y : (this (x - y)%Qc == this x - this y)%Q.
Proof. unfold Qcminus. rewrite this_add, this_opp. reflexivity. Qed.
Lemma this_of_Z n : (this (Q2Qc (inject_Z n)) == inject_Z n)%Q.
Proof. cbn [this Q2Qc]. apply Qred_correct. Qed.
Definition half (box : Qc) : Qc := (box / Q2Qc 2)%Qc.
Lemma half_two box : (half box + half box = box)%Qc.
Proof. unfold half. assert (Q2Qc 2 <> 0%Qc) by discriminate. assert (box / Q2Qc 2 + box / Q2Qc 2 = box * Q2Qc 2 / Q2Qc 2)%Qc as -> by (change (Q2Qc 2) with (1 + 1)%Qc; field; discriminate). field. assumption. Qed.
Definition wrap (box x : Qc) : Qc := (qmod (x + box / of_Z 2) box - box / of_Z 2)%Qc.
Lemma wrap_image box x k : (0 < box)%Qc -> (- half box < x + box * Q2Qc (inject_Z k))%Qc -> (x + box * Q2Qc (inject_Z k) < half box)%Qc -> wrap box x = (x + box * Q2Qc (inject_Z k))%Qc.
Proof.
  intros Hb L U. unfold wrap. change (of_Z 2) with (Q2Qc 2). fold (half box). destruct (qmod_spec (x + half box) box Hb) as (k' & E & L' & U'). rewrite E in *.
  assert (k' = k) as ->; [|ring].
  pose proof (half_two box) as H2. apply (f_equal this) in H2. assert (this (half box) + this (half box) == this box)%Q as H3 by (rewrite <- this_add, H2; reflexivity). clear H2.
  unfold Qclt, Qcle in *. change (this 0%Qc) with 0%Q in *.
  rewrite ?this_add, ?this_mul, ?this_opp, ?this_of_Z in *. set (h := this (half box)) in *. set (b := this box) in *. set (y := this x) in *.
  assert (inject_Z k' - inject_Z k < 1)%Q as A1 by (clearbody h b y; nra). assert (-(1) < inject_Z k' - inject_Z k)%Q as A2 by (clearbody h b y; nra).
  unfold Qminus in A1, A2. rewrite <- inject_Z_opp, <- inject_Z_plus in A1, A2. change 1%Q with (inject_Z 1) in A1, A2. rewrite <- inject_Z_opp in A2. rewrite <- Zlt_Qlt in A1, A2. lia.
Qed.
