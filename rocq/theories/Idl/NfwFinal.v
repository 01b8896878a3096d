(** Densities and the fit in plot_profile_dens.pro: proofs (C110). *)
From Coq Require Import Reals QArith Qreals Lra.
From Coq Require Import Sorting.Sorted.
From Verif Require Import Base.Prelude Base.ListLemmas Idl.ProfModel Idl.ProfSpec Idl.ProfFinal Idl.NfwModel Idl.NfwSpec.
From Coq Require Import ZifyBool ZifyNat.
Local Open Scope R_scope. Local Open Scope list_scope.

(** *** the terms of the misfit *)
Definition t0 (l : R) (p : R * R) (x : R) : R := l + 3 * ln x - 2 * ln (x + fst p) - ln (fst p) - ln (snd p).
Definition t1 (p : R * R) (x : R) : R := 3 / x - 2 / (x + fst p).
Definition t2 (p : R * R) (x : R) : R := - 3 / (x * x) + 2 / ((x + fst p) * (x + fst p)).
Definition sum (f : R * R -> R) (pts : list (R * R)) : R := fold_right (fun p s => f p + s) 0 pts.
Definition f0 pts l x := sum (fun p => t0 l p x * t0 l p x) pts.
Definition f1 pts l x := 2 * sum (fun p => t0 l p x * t1 p x) pts.
Definition f2 pts l x := 2 * sum (fun p => t0 l p x * t2 p x + t1 p x * t1 p x) pts.

Lemma ln_quot a b : 0 < a -> 0 < b -> ln (a / b) = ln a - ln b.
Proof. intros. unfold Rdiv. rewrite ln_mult by (try apply Rinv_0_lt_compat; lra). rewrite ln_Rinv by lra. lra. Qed.
Lemma quot_pos a b : 0 < a -> 0 < b -> 0 < a / b.
Proof. intros. apply Rmult_lt_0_compat; [lra|]. now apply Rinv_0_lt_compat. Qed.
Lemma one_plus r x : 0 < x -> 1 + r / x = (x + r) / x.
Proof. intro. field. lra. Qed.
Lemma ln_nfw l rs r : 0 < rs -> 0 < r -> ln (nfw l rs r) = l - ln (r / rs) - 2 * ln (1 + r / rs).
Proof.
  intros H1 H2. pose proof (quot_pos r rs H2 H1) as Hq. unfold nfw. rewrite ln_quot; [|apply exp_pos|apply Rmult_lt_0_compat; [exact Hq|apply pow_lt; lra]].
  rewrite ln_exp, ln_mult; [|exact Hq|apply pow_lt; lra]. replace ((1 + r / rs) ^ 2) with ((1 + r / rs) * (1 + r / rs)) by ring. rewrite ln_mult by lra. lra.
Qed.
Lemma ln_terms l rs r d : 0 < rs -> 0 < r -> l - ln (r / rs) - 2 * ln (1 + r / rs) - ln d = t0 l (r, d) rs.
Proof. intros. unfold t0. cbn [fst snd]. rewrite one_plus, !ln_quot by lra. lra. Qed.
Lemma misfit_f0 pts l x : positive pts -> 0 < x -> misfit pts l x = f0 pts l x.
Proof.
  intros H Hx. unfold f0. induction H as [|[r d] pts [H1 H2] _ IH]; [reflexivity|]. cbn [misfit sum fold_right fst snd] in *. fold (sum (fun p => t0 l p x * t0 l p x) pts). rewrite IH. rewrite ln_nfw by lra. rewrite (ln_terms l x r d Hx H1). ring.
Qed.

(** *** derivatives *)
Lemma d_log k x : 0 < x + k -> derivable_pt_lim (fun y => ln (y + k)) x (/ (x + k)).
Proof.
  intro H. replace (/ (x + k)) with (/ (x + k) * 1) by ring. apply (derivable_pt_lim_comp (fun y => y + k) ln); [|now apply derivable_pt_lim_ln].
  replace 1 with (1 + 0) by ring. apply (derivable_pt_lim_plus (fun y => y) (fun _ => k)); [apply derivable_pt_lim_id|apply derivable_pt_lim_const].
Qed.
Lemma d_inv k x : 0 < x + k -> derivable_pt_lim (fun y => / (y + k)) x (- / ((x + k) * (x + k))).
Proof.
  intro H. assert (D : derivable_pt_lim (fun y => y + k) x 1).
  { replace 1 with (1 + 0) by ring. apply (derivable_pt_lim_plus (fun y => y) (fun _ => k)); [apply derivable_pt_lim_id|apply derivable_pt_lim_const]. }
  pose proof (derivable_pt_lim_div (fun _ => 1) (fun y => y + k) x 0 1 (derivable_pt_lim_const 1 x) D ltac:(lra)) as P.
  replace (- / ((x + k) * (x + k))) with ((0 * (x + k) - 1 * 1) / Rsqr (x + k)) by (unfold Rsqr; field; lra).
  eapply derivable_pt_lim_ext; [|exact P]. intro z. unfold div_fct. unfold Rdiv. ring.
Qed.
Lemma d_t0 l p x : 0 < x -> 0 < fst p -> derivable_pt_lim (t0 l p) x (t1 p x).
Proof.
  intros Hx Hr. unfold t0, t1. replace (3 / x - 2 / (x + fst p)) with (((0 + 3 * / (x + 0)) - 2 * / (x + fst p)) - 0 - 0) by (field; lra).
  apply (derivable_pt_lim_minus _ (fun _ => ln (snd p))); [|apply derivable_pt_lim_const]. apply (derivable_pt_lim_minus _ (fun _ => ln (fst p))); [|apply derivable_pt_lim_const].
  apply (derivable_pt_lim_minus _ (fun y => 2 * ln (y + fst p))); [|apply (derivable_pt_lim_scal (fun y => ln (y + fst p)) 2); apply d_log; lra].
  apply (derivable_pt_lim_plus (fun _ => l) (fun y => 3 * ln y)); [apply derivable_pt_lim_const|]. apply (derivable_pt_lim_scal ln 3). eapply derivable_pt_lim_ext; [|apply (d_log 0); lra]. intro z. cbv beta. f_equal. ring.
Qed.
Lemma d_t1 p x : 0 < x -> 0 < fst p -> derivable_pt_lim (t1 p) x (t2 p x).
Proof.
  intros Hx Hr. unfold t1, t2. replace (- 3 / (x * x) + 2 / ((x + fst p) * (x + fst p))) with (3 * - / ((x + 0) * (x + 0)) - 2 * - / ((x + fst p) * (x + fst p))) by (field; lra).
  apply (derivable_pt_lim_minus (fun y => 3 / y) (fun y => 2 / (y + fst p))).
  - eapply derivable_pt_lim_ext; [|apply (derivable_pt_lim_scal (fun y => / (y + 0)) 3); apply d_inv; lra]. intro z. unfold mult_real_fct, Rdiv. do 2 f_equal. ring.
  - eapply derivable_pt_lim_ext; [|apply (derivable_pt_lim_scal (fun y => / (y + fst p)) 2); apply d_inv; lra]. intro z. unfold mult_real_fct, Rdiv. reflexivity.
Qed.
Lemma d_sum (f g : R * R -> R -> R) pts x : Forall (fun p => derivable_pt_lim (f p) x (g p x)) pts -> derivable_pt_lim (fun y => sum (fun p => f p y) pts) x (sum (fun p => g p x) pts).
Proof.
  induction 1 as [|p pts H _ IH]; [apply derivable_pt_lim_const|]. cbn [sum fold_right]. apply (derivable_pt_lim_plus (f p) (fun y => sum (fun p => f p y) pts)); assumption.
Qed.
Lemma sum_ext f g pts : Forall (fun p => f p = g p) pts -> sum f pts = sum g pts.
Proof. induction 1 as [|p pts H _ IH]; [reflexivity|]. cbn [sum fold_right] in *. fold (sum f pts) (sum g pts). now rewrite H, IH. Qed.
Lemma sum_mul k f pts : sum (fun p => k * f p) pts = k * sum f pts.
Proof. induction pts as [|p pts IH]; cbn [sum fold_right]; [ring|]. fold (sum (fun p => k * f p) pts) (sum f pts). rewrite IH. ring. Qed.
Lemma d_f0 pts l x : positive pts -> 0 < x -> derivable_pt_lim (f0 pts l) x (f1 pts l x).
Proof.
  intros H Hx. unfold f0, f1. rewrite <- sum_mul. apply (d_sum (fun p y => t0 l p y * t0 l p y) (fun p y => 2 * (t0 l p y * t1 p y))). eapply Forall_impl; [|exact H]. intros p [H1 _].
  replace (2 * (t0 l p x * t1 p x)) with (t1 p x * t0 l p x + t0 l p x * t1 p x) by ring. apply derivable_pt_lim_mult; now apply d_t0.
Qed.
Lemma d_f1 pts l x : positive pts -> 0 < x -> derivable_pt_lim (f1 pts l) x (f2 pts l x).
Proof.
  intros H Hx. unfold f1, f2. apply (derivable_pt_lim_scal (fun y => sum (fun p => t0 l p y * t1 p y) pts) 2). apply (d_sum (fun p y => t0 l p y * t1 p y) (fun p y => t0 l p y * t2 p y + t1 p y * t1 p y)). eapply Forall_impl; [|exact H]. intros p [H1 _].
  replace (t0 l p x * t2 p x + t1 p x * t1 p x) with (t1 p x * t1 p x + t0 l p x * t2 p x) by ring. apply derivable_pt_lim_mult; [now apply d_t0|now apply d_t1].
Qed.
Lemma d_misfit pts l x : positive pts -> 0 < x -> derivable_pt_lim (misfit pts l) x (f1 pts l x).
Proof.
  intros H Hx. apply (derivable_pt_lim_locally_ext (f0 pts l) (misfit pts l) x 0 (x + 1)); [lra| |now apply d_f0]. intros z Hz. symmetry. apply misfit_f0; [exact H|lra].
Qed.

(** *** values of the program *)
Lemma total_some (f : R * R -> num) (g : R * R -> R) pts : Forall (fun p => f p = Some (g p)) pts -> total (map f pts) = Some (sum g pts).
Proof.
  unfold total. intro H. assert (forall a, fold_left oadd (map f pts) (Some a) = Some (a + sum g pts)) as E; [|rewrite E; f_equal; ring].
  induction H as [|p pts E _ IH]; intro a; cbn [map fold_left sum fold_right]; [f_equal; ring|]. rewrite E. cbn. rewrite IH. f_equal. fold (sum g pts). ring.
Qed.
Lemma odiv_some x y : y <> 0 -> odiv (Some x) (Some y) = Some (x / y).
Proof. intro H. cbn. destruct (Req_EM_T y 0); [contradiction|reflexivity]. Qed.
Lemma alog_some x : 0 < x -> alog (Some x) = Some (ln x).
Proof. intro H. cbn. destruct (Rlt_dec 0 x); [reflexivity|contradiction]. Qed.
Lemma resid_some l rs p : 0 < rs -> 0 < fst p -> 0 < snd p -> resid (Some l) (Some rs) p = Some (t0 l p rs).
Proof.
  destruct p as [r d]. cbn [fst snd]. intros H1 H2 H3. pose proof (quot_pos r rs H2 H1). unfold resid, c. rewrite odiv_some by lra. rewrite !alog_some by (cbn; lra). cbn [oadd fin2]. rewrite alog_some by lra. cbn. f_equal. now apply ln_terms.
Qed.
Lemma slope_some rs p : 0 < rs -> 0 < fst p -> slope (Some rs) p = Some (t1 p rs).
Proof.
  destruct p as [r d]. cbn [fst]. intros H1 H2. pose proof (quot_pos r rs H2 H1). unfold slope, c, sqr, oadd, omul. cbn [fin2]. assert (rs * rs <> 0) by nra. rewrite !odiv_some by lra. cbn [fin2]. rewrite ?odiv_some by lra. cbn [fin2]. f_equal. unfold t1. cbn [fst]. field. split; [lra|]. lra.
Qed.
Lemma curve_some rs p : 0 < rs -> 0 < fst p -> curve (Some rs) p = Some (t2 p rs).
Proof.
  destruct p as [r d]. cbn [fst]. intros H1 H2. unfold curve, c, sqr, oadd, omul, osub. cbn [fin2]. assert (0 < rs * rs) by (apply Rmult_lt_0_compat; lra). assert (0 < rs * (rs + r)) by (apply Rmult_lt_0_compat; lra).
  assert (0 < rs * (rs + r) * (rs * (rs + r))) by (apply Rmult_lt_0_compat; lra). rewrite !odiv_some by lra. cbn [fin2]. f_equal. unfold t2. cbn [fst]. field. split; lra.
Qed.
Lemma dS_some pts l rs : positive pts -> 0 < rs -> dS pts (Some l) (Some rs) = Some (f1 pts l rs).
Proof.
  intros H Hx. unfold dS, f1. rewrite (total_some _ (fun p => t0 l p rs * t1 p rs)); [reflexivity|]. eapply Forall_impl; [|exact H]. intros p [H1 H2]. cbv beta. now rewrite resid_some, slope_some.
Qed.
Lemma ddS_some pts l rs : positive pts -> 0 < rs -> ddS pts (Some l) (Some rs) = Some (f2 pts l rs).
Proof.
  intros H Hx. unfold ddS, f2. rewrite (total_some _ (fun p => t0 l p rs * t2 p rs + t1 p rs * t1 p rs)); [reflexivity|]. eapply Forall_impl; [|exact H]. intros p [H1 H2]. cbv beta. now rewrite resid_some, slope_some, curve_some.
Qed.

(** *** the amplitude *)
Definition w (p : R * R) (x : R) : R := - t0 0 p x.
Definition mean_w pts x := sum (fun p => w p x) pts / IZR (zlen pts).
Lemma t0_w l p x : t0 l p x = l - w p x.
Proof. unfold w, t0. ring. Qed.
Lemma logRho0_some pts rs : positive pts -> pts <> [] -> 0 < rs -> logRho0 pts (Some rs) = Some (mean_w pts rs).
Proof.
  intros H Hn Hx. unfold logRho0, mean_w. rewrite (total_some _ (fun p => w p rs)).
  - unfold c. rewrite odiv_some; [reflexivity|]. apply not_0_IZR. destruct pts; [congruence|]. rewrite zlen_cons. pose proof (zlen_nonneg pts). lia.
  - eapply Forall_impl; [|exact H]. intros [r d] [H1 H2]. cbn [fst snd] in *. pose proof (quot_pos r rs H1 Hx). cbv beta iota. unfold c. rewrite odiv_some by lra. rewrite !alog_some by lra. cbn [oadd fin2]. rewrite alog_some by lra. cbn. f_equal. unfold w. rewrite <- (ln_terms 0 rs r d Hx H1). ring.
Qed.
Lemma sum_affine a b f g pts : sum (fun p => a * f p + b * g p) pts = a * sum f pts + b * sum g pts.
Proof. induction pts as [|p pts IH]; cbn [sum fold_right]; [ring|]. fold (sum (fun p => a * f p + b * g p) pts) (sum f pts) (sum g pts). rewrite IH. ring. Qed.
Lemma sum_one pts : sum (fun _ => 1) pts = IZR (zlen pts).
Proof. induction pts as [|p pts IH]; [reflexivity|]. rewrite zlen_cons, plus_IZR. cbn [sum fold_right]. fold (sum (fun _ => 1) pts). rewrite IH. ring. Qed.
Lemma zlen_pos {A} (l : list A) : l <> [] -> 0 < IZR (zlen l).
Proof. intro. apply IZR_lt. destruct l; [congruence|]. rewrite zlen_cons. pose proof (zlen_nonneg l). lia. Qed.
Lemma misfit_mean pts l x : positive pts -> pts <> [] -> 0 < x -> misfit pts l x = misfit pts (mean_w pts x) x + IZR (zlen pts) * ((l - mean_w pts x) * (l - mean_w pts x)).
Proof.
  intros H Hn Hx. rewrite !misfit_f0 by assumption. unfold f0. set (m := mean_w pts x).
  assert (E : forall k, sum (fun p => t0 k p x * t0 k p x) pts = sum (fun p => w p x * w p x) pts - 2 * k * sum (fun p => w p x) pts + k * k * IZR (zlen pts)).
  { intro k. rewrite <- sum_one. rewrite (sum_ext _ (fun p => 1 * (w p x * w p x) + 1 * (- (2 * k) * w p x + (k * k) * 1))); [|apply Forall_forall; intros p _; rewrite t0_w; ring].
    rewrite (sum_affine 1 1 (fun p => w p x * w p x) (fun p => - (2 * k) * w p x + k * k * 1)). rewrite (sum_affine (- (2 * k)) (k * k) (fun p => w p x) (fun _ => 1)). ring. }
  rewrite !E. assert (sum (fun p => w p x) pts = m * IZR (zlen pts)) as -> by (unfold m, mean_w; field; pose proof (zlen_pos pts Hn); lra). ring.
Qed.
Lemma best_iff pts rs l : positive pts -> pts <> [] -> 0 < rs -> best pts rs l <-> l = mean_w pts rs.
Proof.
  intros H Hn Hx. pose proof (zlen_pos pts Hn) as Hz. split; intro HB.
  - specialize (HB (mean_w pts rs)). rewrite (misfit_mean pts l rs H Hn Hx) in HB. set (d := l - mean_w pts rs) in *. assert (d * d <= 0) by nra. assert (d = 0) by nra. unfold d in *. lra.
  - subst l. intro l'. rewrite (misfit_mean pts l' rs H Hn Hx). set (d := l' - mean_w pts rs). assert (0 <= d * d) by nra. nra.
Qed.

(** *** the search *)
Lemma step_iff pts l rs rs' : positive pts -> 0 < rs -> step pts l rs rs' <-> f2 pts l rs <> 0 /\ rs' = rs - f1 pts l rs / f2 pts l rs.
Proof.
  intros H Hx. split.
  - intros (_ & f & d2 & D1 & D2 & Hd & ->).
    assert (E : forall z, 0 < z -> f z = f1 pts l z) by (intros z Hz; apply (uniqueness_limite (misfit pts l) z); [now apply D1|now apply d_misfit]).
    assert (d2 = f2 pts l rs) as ->; [|split; [exact Hd|now rewrite E]].
    apply (uniqueness_limite f rs); [exact D2|]. apply (derivable_pt_lim_locally_ext (f1 pts l) f rs 0 (rs + 1)); [lra| |now apply d_f1]. intros z Hz. symmetry. apply E. lra.
  - intros [Hd ->]. split; [exact Hx|]. exists (f1 pts l), (f2 pts l rs). repeat split; [|now apply d_f1|exact Hd]. intros x Hx'. now apply d_misfit.
Qed.
Lemma newton_none pts steps l : newton pts steps l None = Err EFuel.
Proof. induction steps as [|steps IH]; [reflexivity|]. cbn [newton oadd fin2]. unfold odiv at 1. cbn [fin1 fin2 oadd]. destruct (odiv (fin1 Ropp (dS pts l None)) (ddS pts l None)); cbn; exact IH. Qed.
Lemma newton_neg pts steps l rs : positive pts -> pts <> [] -> rs <= 0 -> newton pts steps l (Some rs) = Err EFuel.
Proof.
  intros H Hn Hx. destruct steps as [|steps]; [reflexivity|]. cbn [newton].
  assert (dS pts l (Some rs) = None) as ->.
  { destruct pts as [|[r d] pts]; [congruence|]. inversion H; subst. cbn [fst snd] in *. unfold dS, total. cbn [map fold_left]. assert (resid l (Some rs) (r, d) = None) as E.
    { unfold resid, c. assert (alog (odiv (Some r) (Some rs)) = None) as ->.
      { cbn. destruct (Req_EM_T rs 0); [reflexivity|]. cbn. destruct (Rlt_dec 0 (r / rs)) as [C|C]; [|reflexivity]. exfalso. assert (0 < r / - rs) by (apply quot_pos; lra). replace (r / - rs) with (- (r / rs)) in * by (field; lra). lra. }
      destruct l; reflexivity. }
    rewrite E. assert (forall ns, fold_left oadd ns None = None) as F by (induction ns; [reflexivity|assumption]).
    unfold omul at 2. cbn [fin2 oadd]. rewrite F. reflexivity. }
  cbn [fin1 odiv oadd fin2 le]. apply newton_none.
Qed.
(** one pass *)
Lemma newton_pass pts steps l rs : positive pts -> pts <> [] -> 0 < rs ->
  newton pts (Datatypes.S steps) (Some l) (Some rs) =
  if Req_EM_T (f2 pts l rs) 0 then Err EFuel else
  let rs' := rs - f1 pts l rs / f2 pts l rs in
  if Req_EM_T rs' 0 then Err EFuel else if Rle_dec (Rabs ((rs' - rs) / rs')) (1 / 100000000) then Ok (Some rs') else newton pts steps (Some l) (Some rs').
Proof.
  intros H Hn Hx. cbn [newton]. rewrite dS_some, ddS_some by assumption. cbn [fin1]. destruct (Req_EM_T (f2 pts l rs) 0) as [E|E].
  - unfold odiv. destruct (Req_EM_T (f2 pts l rs) 0); [|contradiction]. cbn. apply newton_none.
  - rewrite odiv_some by exact E. cbn [oadd fin2]. replace (rs + - f1 pts l rs / f2 pts l rs) with (rs - f1 pts l rs / f2 pts l rs) by (field; exact E). cbv zeta. set (rs' := rs - f1 pts l rs / f2 pts l rs).
    replace (- f1 pts l rs / f2 pts l rs) with (rs' - rs) by (unfold rs'; field; exact E). unfold odiv. destruct (Req_EM_T rs' 0) as [E'|E'].
    + cbn [fin1 le]. rewrite E'. apply newton_neg; [exact H|exact Hn|lra].
    + cbn [fin1 le]. destruct (Rle_dec (Rabs ((rs' - rs) / rs')) (1 / 100000000)); reflexivity.
Qed.
Lemma small_iff rs rs' : small rs rs' <-> rs' <> 0 /\ Rabs ((rs' - rs) / rs') <= 1 / 100000000.
Proof.
  unfold small. split; intros [H1 H2]; (split; [exact H1|]); pose proof (Rabs_pos_lt rs' H1) as Hp.
  - unfold Rdiv at 1. rewrite Rabs_mult, Rabs_inv. apply (Rmult_le_reg_r (Rabs rs')); [exact Hp|]. rewrite Rmult_assoc, Rinv_l by lra. replace (10 ^ 8) with 100000000 in H2 by lra. lra.
  - unfold Rdiv at 1 in H2. rewrite Rabs_mult, Rabs_inv in H2. apply (Rmult_le_compat_r (Rabs rs')) in H2; [|lra]. rewrite Rmult_assoc, Rinv_l in H2 by lra. replace (10 ^ 8) with 100000000 by lra. lra.
Qed.
Lemma small_pos rs rs' : 0 < rs -> small rs rs' -> 0 < rs'.
Proof.
  intros H [H1 H2]. destruct (Rlt_dec 0 rs') as [C|C]; [exact C|exfalso]. assert (rs' < 0) by lra. rewrite (Rabs_left (rs' - rs)) in H2 by lra. rewrite (Rabs_left rs') in H2 by lra. replace (10 ^ 8) with 100000000 in H2 by lra. lra.
Qed.
Lemma search_pos pts l rs rs' : search pts l rs rs' -> 0 < rs'.
Proof. induction 1 as [rs rs' [H _] S|]; [eapply small_pos; eassumption|assumption]. Qed.
Lemma search_found pts l : positive pts -> pts <> [] -> forall steps rs out, 0 < rs -> newton pts steps (Some l) (Some rs) = Ok out -> exists rs', out = Some rs' /\ search pts l rs rs'.
Proof.
  intros H Hn. induction steps as [|steps IH]; intros rs out Hx E; [discriminate|]. rewrite newton_pass in E by assumption. destruct (Req_EM_T (f2 pts l rs) 0) as [C|C]; [discriminate|]. cbv zeta in E. set (rs' := rs - f1 pts l rs / f2 pts l rs) in *.
  assert (S : step pts l rs rs') by (apply step_iff; auto). destruct (Req_EM_T rs' 0) as [C'|C']; [discriminate|].
  destruct (Rle_dec (Rabs ((rs' - rs) / rs')) (1 / 100000000)) as [L|L].
  - injection E as <-. exists rs'. split; [reflexivity|]. apply found; [exact S|]. apply small_iff. auto.
  - destruct (Rlt_dec 0 rs') as [P|P]; [|rewrite newton_neg in E by (try assumption; lra); discriminate]. destruct (IH rs' out P E) as (o & -> & HS). exists o. split; [reflexivity|]. eapply further; [exact S| |exact HS]. intro Q. apply small_iff in Q. tauto.
Qed.
Lemma found_search pts l rs rs' : positive pts -> pts <> [] -> search pts l rs rs' -> exists N, forall steps, (N <= steps)%nat -> newton pts steps (Some l) (Some rs) = Ok (Some rs').
Proof.
  intros H Hn HS. induction HS as [rs rs' S Q|rs rs1 rs' S Q HS [N IH]].
  - exists 1%nat. intros [|steps] Hs; [lia|]. assert (Hx := proj1 S). apply step_iff in S; [|assumption|assumption]. destruct S as [S1 S2]. rewrite newton_pass by assumption. apply small_iff in Q. destruct (Req_EM_T (f2 pts l rs) 0); [contradiction|]. cbv zeta. rewrite <- S2. destruct (Req_EM_T rs' 0); [tauto|]. destruct (Rle_dec (Rabs ((rs' - rs) / rs')) (1 / 100000000)); [reflexivity|tauto].
  - exists (Datatypes.S N). intros [|steps] Hs; [lia|]. assert (Hx := proj1 S). assert (0 < rs1) as Hx1 by (destruct HS as [? ? Z|? ? ? Z]; exact (proj1 Z)). apply step_iff in S; [|assumption|assumption]. destruct S as [S1 S2]. rewrite newton_pass by assumption. destruct (Req_EM_T (f2 pts l rs) 0); [contradiction|]. cbv zeta. rewrite <- S2. destruct (Req_EM_T rs1 0); [lra|].
    destruct (Rle_dec (Rabs ((rs1 - rs) / rs1)) (1 / 100000000)) as [L|L]; [exfalso; apply Q; apply small_iff; auto|]. apply IH. lia.
Qed.

(** *** the fit *)
Lemma fitted_pos pts n rs l rs' : fitted pts n rs l rs' -> 0 < rs'.
Proof. induction 1; [eapply search_pos; eassumption|assumption]. Qed.
Lemma rep_fitted pts steps : positive pts -> pts <> [] -> forall n l0 rs out, 0 < rs -> repetitions pts steps (Datatypes.S n) l0 (Some rs) = Ok out -> exists l rs', out = (Some l, Some rs') /\ fitted pts (Datatypes.S n) rs l rs'.
Proof.
  intros H Hn. induction n as [|n IH]; intros l0 rs out Hx E.
  - cbn [repetitions] in E. rewrite logRho0_some in E by assumption. destruct (newton pts steps (Some (mean_w pts rs)) (Some rs)) as [r|e] eqn:EN; [|discriminate]. cbn [bind] in E. injection E as <-. destruct (search_found pts _ H Hn _ _ _ Hx EN) as (rs' & -> & S).
    exists (mean_w pts rs), rs'. split; [reflexivity|]. apply fitted_once; [now apply best_iff|exact S].
  - change (repetitions pts steps (Datatypes.S (Datatypes.S n)) l0 (Some rs)) with (do rs1 <- newton pts steps (logRho0 pts (Some rs)) (Some rs); repetitions pts steps (Datatypes.S n) (logRho0 pts (Some rs)) rs1) in E.
    rewrite logRho0_some in E by assumption. destruct (newton pts steps (Some (mean_w pts rs)) (Some rs)) as [r|e] eqn:EN; [|discriminate]. cbn [bind] in E. destruct (search_found pts _ H Hn _ _ _ Hx EN) as (rs1 & -> & S).
    destruct (IH _ _ _ (search_pos _ _ _ _ S) E) as (l & rs' & -> & F). exists l, rs'. split; [reflexivity|]. eapply fitted_more; [now apply best_iff|exact S|exact F].
Qed.
Lemma fitted_rep pts n rs l rs' : positive pts -> pts <> [] -> 0 < rs -> fitted pts n rs l rs' -> exists N, forall steps, (N <= steps)%nat -> forall l0, repetitions pts steps n l0 (Some rs) = Ok (Some l, Some rs').
Proof.
  intros H Hn Hx F. induction F as [rs l rs' B S|n rs l0 rs0 l rs' B S F IH].
  - destruct (found_search pts l rs rs' H Hn S) as (N & HN). exists N. intros steps Hs l1. cbn [repetitions]. rewrite logRho0_some by assumption. apply best_iff in B; [|assumption..]. rewrite <- B. rewrite HN by exact Hs. reflexivity.
  - destruct (found_search pts l0 rs rs0 H Hn S) as (N & HN). destruct (IH (search_pos _ _ _ _ S)) as (N' & HN'). exists (Nat.max N N'). intros steps Hs l1. cbn [repetitions]. rewrite logRho0_some by assumption. apply best_iff in B; [|assumption..]. rewrite <- B. rewrite HN by lia. cbn [bind]. apply HN'. lia.
Qed.
Lemma fit_ok pts l rs : positive pts -> pts <> [] -> (exists N, forall steps, (N <= steps)%nat -> nfw_fit pts steps = Ok (Some l, Some rs)) <-> fitted pts 201 (1 / 100) l rs.
Proof.
  intros H Hn. assert (E : forall steps, nfw_fit pts steps = repetitions pts steps 201 (Some 0) (Some (1 / 100))).
  { intro steps. unfold nfw_fit. replace (0 <? zlen pts)%Z with true; [reflexivity|]. destruct pts; [congruence|]. rewrite zlen_cons. pose proof (zlen_nonneg pts). lia. }
  split.
  - intros (N & HN). specialize (HN N (le_n N)). rewrite E in HN. destruct (rep_fitted pts N H Hn 200 (Some 0) (1 / 100) _ ltac:(lra) HN) as (l' & rs' & EQ & F). injection EQ as -> ->. exact F.
  - intro F. destruct (fitted_rep pts 201 (1 / 100) l rs H Hn ltac:(lra) F) as (N & HN). exists N. intros steps Hs. rewrite E. now apply HN.
Qed.
Lemma fit_only pts steps out : positive pts -> pts <> [] -> nfw_fit pts steps = Ok out -> exists l rs, out = (Some l, Some rs) /\ fitted pts 201 (1 / 100) l rs /\ 0 < rs.
Proof.
  intros H Hn E. unfold nfw_fit in E. destruct (0 <? zlen pts)%Z; cbn [check bind] in E; [|discriminate]. destruct (rep_fitted pts steps H Hn 200 (Some 0) (1 / 100) _ ltac:(lra) E) as (l & rs & -> & F). exists l, rs. split; [reflexivity|]. split; [exact F|]. eapply fitted_pos; exact F.
Qed.
Lemma drawn_nfw l rs r : 0 < rs -> 0 < r -> drawn (Some l) (Some rs) r = Some (nfw l rs r).
Proof.
  intros H1 H2. pose proof (quot_pos r rs H2 H1) as Hq. unfold drawn, c, sqr. rewrite (odiv_some r rs) by lra. cbn [fin1 oadd omul fin2]. rewrite odiv_some; [unfold nfw; do 2 f_equal; ring|]. assert (0 < (1 + r / rs) * (1 + r / rs)) by (apply Rmult_lt_0_compat; lra). assert (0 < r / rs * ((1 + r / rs) * (1 + r / rs))) by (apply Rmult_lt_0_compat; lra). lra.
Qed.

(** *** data with a profile of the right form, and a single bin *)
Definition exact_data (l rs : R) (rsl : list R) : list (R * R) := map (fun r => (r, nfw l rs r)) rsl.
Lemma nfw_pos l rs r : 0 < rs -> 0 < r -> 0 < nfw l rs r.
Proof. intros H1 H2. pose proof (quot_pos r rs H2 H1). unfold nfw. apply quot_pos; [apply exp_pos|]. apply Rmult_lt_0_compat; [lra|]. apply pow_lt. lra. Qed.
Lemma t1_pos p x : 0 < x -> 0 < fst p -> 0 < t1 p x.
Proof. intros H1 H2. unfold t1. replace (3 / x - 2 / (x + fst p)) with ((x + 3 * fst p) / (x * (x + fst p))) by (field; lra). apply quot_pos; [lra|]. apply Rmult_lt_0_compat; lra. Qed.
Lemma sum_pos f pts : pts <> [] -> Forall (fun p => 0 < f p) pts -> 0 < sum f pts.
Proof.
  intros Hn H. destruct H as [|p pts H1 H]; [congruence|]. cbn [sum fold_right]. fold (sum f pts). assert (0 <= sum f pts); [|lra]. clear - H. induction H as [|p pts H1 _ IH]; cbn [sum fold_right]; [lra|]. fold (sum f pts). lra.
Qed.
Lemma sum_zero f pts : Forall (fun p => f p = 0) pts -> sum f pts = 0.
Proof. induction 1 as [|p pts H _ IH]; [reflexivity|]. cbn [sum fold_right]. fold (sum f pts). rewrite H, IH. ring. Qed.
Lemma stays pts l rs : positive pts -> pts <> [] -> 0 < rs -> Forall (fun p => t0 l p rs = 0) pts -> best pts rs l /\ search pts l rs rs.
Proof.
  intros H Hn Hx HF. split.
  - apply best_iff; [assumption..|]. unfold mean_w. rewrite (sum_ext _ (fun _ => l * 1)), sum_mul, sum_one; [field; pose proof (zlen_pos pts Hn); lra|]. eapply Forall_impl; [|exact HF]. intros p E. cbv beta in *. rewrite t0_w in E. lra.
  - assert (f1 pts l rs = 0) as E1 by (unfold f1; rewrite sum_zero; [ring|]; eapply Forall_impl; [|exact HF]; intros p E; cbv beta in *; rewrite E; ring).
    assert (f2 pts l rs <> 0) as E2. { unfold f2. assert (0 < sum (fun p => t0 l p rs * t2 p rs + t1 p rs * t1 p rs) pts); [|lra]. apply sum_pos; [exact Hn|]. apply Forall_forall. intros p Hp. rewrite Forall_forall in HF. rewrite (HF p Hp). unfold positive in H. rewrite Forall_forall in H. pose proof (t1_pos p rs Hx (proj1 (H p Hp))). nra. }
    apply found; [apply step_iff; [assumption..|]; split; [exact E2|rewrite E1; field; exact E2]|]. split; [lra|]. replace (rs - rs) with 0 by ring. rewrite Rabs_R0. pose proof (Rabs_pos rs). assert (0 < 10 ^ 8) by lra. assert (0 < 1 / 10 ^ 8) by (apply quot_pos; lra). nra.
Qed.
Lemma stays_fitted pts l rs : best pts rs l -> search pts l rs rs -> forall n, fitted pts (Datatypes.S n) rs l rs.
Proof. intros B S n. induction n as [|n IH]; [now apply fitted_once|]. eapply fitted_more; eassumption. Qed.
Lemma exact_fits l rs radii n : 0 < rs -> radii <> [] -> Forall (fun r => 0 < r) radii -> fitted (exact_data l rs radii) (Datatypes.S n) rs l rs.
Proof.
  intros Hx Hn HR. assert (positive (exact_data l rs radii)) as HP. { unfold positive, exact_data. rewrite Forall_map. eapply Forall_impl; [|exact HR]. intros r Hr. cbn [fst snd]. split; [exact Hr|now apply nfw_pos]. }
  destruct (stays (exact_data l rs radii) l rs HP) as [B S]; [unfold exact_data; destruct radii; [congruence|discriminate]|exact Hx| |now apply stays_fitted].
  unfold exact_data. rewrite Forall_map. eapply Forall_impl; [|exact HR]. intros r Hr. cbv beta. rewrite <- (ln_terms l rs r _ Hx Hr). rewrite ln_nfw by assumption. ring.
Qed.
Lemma single_fits r d n rs : 0 < r -> 0 < d -> 0 < rs -> exists l, fitted [(r, d)] (Datatypes.S n) rs l rs /\ nfw l rs r = d.
Proof.
  intros Hr Hd Hx. exists (w (r, d) rs). assert (positive [(r, d)]) as HP by (constructor; [split; assumption|constructor]).
  assert (t0 (w (r, d) rs) (r, d) rs = 0) as E by (rewrite t0_w; ring).
  destruct (stays [(r, d)] (w (r, d) rs) rs HP ltac:(discriminate) Hx) as [B S]; [constructor; [exact E|constructor]|]. split; [now apply stays_fitted|].
  apply ln_inv; [now apply nfw_pos|exact Hd|]. rewrite ln_nfw by assumption. rewrite <- (ln_terms _ rs r d Hx Hr) in E. lra.
Qed.
(** the parameters are determined by the profile at two radii *)
Lemma identify l rs l' rs' r1 r2 : 0 < rs -> 0 < rs' -> 0 < r1 -> 0 < r2 -> r1 <> r2 -> nfw l rs r1 = nfw l' rs' r1 -> nfw l rs r2 = nfw l' rs' r2 -> l = l' /\ rs = rs'.
Proof.
  intros H1 H2 H3 H4 Hne E1 E2. apply (f_equal ln) in E1, E2. rewrite !ln_nfw, !one_plus, !ln_quot in E1, E2 by lra.
  assert (E : 2 * ln ((rs' + r1) * (rs + r2)) = 2 * ln ((rs + r1) * (rs' + r2))) by (rewrite !ln_mult by lra; lra).
  assert ((rs' + r1) * (rs + r2) = (rs + r1) * (rs' + r2)) as E' by (apply ln_inv; [apply Rmult_lt_0_compat; lra..|lra]).
  assert ((rs' - rs) * (r2 - r1) = 0) as E3 by nra. apply Rmult_integral in E3. destruct E3 as [E3|E3]; [|exfalso; lra]. assert (rs = rs') as -> by lra. split; [lra|reflexivity].
Qed.

(** *** data for which it goes on for ever *)
Definition bad_point (k x : R) : R * R := (x / 100, exp (k - ln x - 2 * ln (1 + x))).
Definition bad : list (R * R) := [bad_point 17 1; bad_point (-17) 2].
Lemma bad_positive : positive bad.
Proof. constructor; [|constructor; [|constructor]]; cbn [bad_point fst snd]; (split; [lra|apply exp_pos]). Qed.
Lemma bad_w k x : 0 < x -> w (bad_point k x) (1 / 100) = k.
Proof.
  intro Hx. unfold bad_point. assert (0 < x / 100) by lra. unfold w. rewrite <- (ln_terms 0 (1 / 100) (x / 100) _ ltac:(lra) H). rewrite ln_exp. replace (x / 100 / (1 / 100)) with x by field. ring.
Qed.
Lemma bad_ends steps : nfw_fit bad steps = Err EFuel.
Proof.
  unfold nfw_fit. cbn [bad zlen check bind]. change (0 <? zlen [bad_point 17 1; bad_point (-17) 2])%Z with true. cbn [check bind]. fold bad.
  change (repetitions bad steps 201 (Some 0) (Some (1 / 100))) with (do rs1 <- newton bad steps (logRho0 bad (Some (1 / 100))) (Some (1 / 100)); repetitions bad steps 200 (logRho0 bad (Some (1 / 100))) rs1).
  rewrite logRho0_some; [|exact bad_positive|discriminate|lra].
  assert (mean_w bad (1 / 100) = 0) as ->. { unfold mean_w, bad, sum. cbn [fold_right]. rewrite !bad_w by lra. change (zlen [bad_point 17 1; bad_point (-17) 2]) with 2%Z. lra. }
  destruct steps as [|steps]; [reflexivity|]. rewrite newton_pass; [|exact bad_positive|discriminate|lra].
  assert (f1 bad 0 (1 / 100) = 34 * 100 / 3) as ->. { unfold f1, bad, sum. cbn [fold_right]. rewrite !t0_w, !bad_w by lra. unfold t1, bad_point. cbn [fst]. field. }
  assert (f2 bad 0 (1 / 100) = 2 * 10000 * (85 / 18)) as ->. { unfold f2, bad, sum. cbn [fold_right]. rewrite !t0_w, !bad_w by lra. unfold t1, t2, bad_point. cbn [fst]. field. }
  destruct (Req_EM_T (2 * 10000 * (85 / 18)) 0) as [C|C]; [exfalso; lra|]. cbv zeta. replace (1 / 100 - 34 * 100 / 3 / (2 * 10000 * (85 / 18))) with (- (1 / 500)) by field. destruct (Req_EM_T (- (1 / 500)) 0); [exfalso; lra|].
  destruct (Rle_dec (Rabs ((- (1 / 500) - 1 / 100) / - (1 / 500))) (1 / 100000000)) as [L|L].
  - exfalso. replace ((- (1 / 500) - 1 / 100) / - (1 / 500)) with 6 in L by field. rewrite Rabs_pos_eq in L by lra. lra.
  - rewrite newton_neg; [reflexivity|exact bad_positive|discriminate|lra].
Qed.

(** *** shells *)
Lemma ln_range : ln ma - ln mi = ln 5000.
Proof. unfold ma, mi. rewrite <- ln_quot by lra. f_equal. field. Qed.
Lemma ln_range_pos : 0 < ln 5000.
Proof. rewrite <- ln_1. apply ln_increasing; lra. Qed.
Lemma at_limit k : at_bin (IZR k) = limit k.
Proof. unfold at_bin, limit, Rpower, BINS. rewrite ln_range, exp_plus. rewrite exp_ln by (unfold mi; lra). unfold mi. rewrite Rmult_comm. f_equal. f_equal. field. Qed.
Lemma limit_pos k : 0 < limit k.
Proof. rewrite <- at_limit. apply exp_pos. Qed.
Lemma at_next k : at_bin (IZR k + 1) = limit (k + 1).
Proof. rewrite <- at_limit. now rewrite plus_IZR. Qed.
Lemma at_middle k : at_bin (IZR k + 5 / 10) = middle k.
Proof.
  unfold middle. rewrite <- !at_limit. rewrite plus_IZR. symmetry. replace (at_bin (IZR k) * at_bin (IZR k + 1)) with (at_bin (IZR k + 5 / 10) * at_bin (IZR k + 5 / 10)); [apply sqrt_square; left; apply exp_pos|].
  unfold at_bin. rewrite <- !exp_plus. f_equal. unfold BINS. field.
Qed.
Lemma limit_iff k r : 0 < r -> limit k <= r <-> IZR k <= (ln r - ln mi) / (ln ma - ln mi) * IZR BINS.
Proof.
  intro Hr. rewrite <- at_limit. unfold at_bin. pose proof ln_range_pos as HP. rewrite ln_range. unfold BINS.
  assert (E : (ln r - ln mi) / ln 5000 * 25 - IZR k = (ln r - (IZR k * ln 5000 / 25 + ln mi)) * (25 / ln 5000)) by (field; lra).
  assert (P : 0 < 25 / ln 5000) by (apply quot_pos; lra). split; intro H.
  - assert (IZR k * ln 5000 / 25 + ln mi <= ln r) as L. { destruct H as [H|H]; [left; rewrite <- (ln_exp (IZR k * ln 5000 / 25 + ln mi)); apply ln_increasing; [apply exp_pos|exact H]|right; rewrite <- H; now rewrite ln_exp]. }
    assert (0 <= (ln r - (IZR k * ln 5000 / 25 + ln mi)) * (25 / ln 5000)) by (apply Rmult_le_pos; lra). lra.
  - assert (0 <= (ln r - (IZR k * ln 5000 / 25 + ln mi)) * (25 / ln 5000)) as Q by lra. assert (IZR k * ln 5000 / 25 + ln mi <= ln r) as L by (destruct (Rle_dec (IZR k * ln 5000 / 25 + ln mi) (ln r)) as [C|C]; [exact C|exfalso; nra]).
    rewrite <- (exp_ln r Hr). destruct L as [L|L]; [left; now apply exp_increasing|right; now rewrite L].
Qed.
Lemma bin_shell k r : 0 <= r -> (0 <= k)%Z -> bin_of r = k <-> in_shell k r.
Proof.
  intros Hr Hk. unfold bin_of. destruct (Rlt_dec 0 r) as [P|P].
  - set (b := (ln r - ln mi) / (ln ma - ln mi) * IZR BINS). pose proof (base_Int_part b) as [B1 B2]. unfold in_shell. pose proof (limit_iff k r P) as L1. pose proof (limit_iff (k + 1) r P) as L2. fold b in L1, L2. split.
    + intros <-. split; [now apply L1|]. destruct (Rlt_dec r (limit (Int_part b + 1))) as [C|C]; [exact C|]. exfalso. assert (limit (Int_part b + 1) <= r) as C' by lra. apply L2 in C'. rewrite plus_IZR in C'. lra.
    + intros [H1 H2]. apply L1 in H1. assert (~ IZR (k + 1) <= b) as H3 by (intro C; apply L2 in C; lra). rewrite plus_IZR in H3. assert (IZR k < IZR (Int_part b) + 1) as A by lra. assert (IZR (Int_part b) < IZR k + 1) as A' by lra. rewrite <- plus_IZR in A, A'. apply lt_IZR in A, A'. lia.
  - split; [lia|]. intros [H1 _]. pose proof (limit_pos k). lra.
Qed.
Lemma radius_nonneg time q : 0 <= time -> 0 <= radius time q.
Proof. intro. unfold radius. apply Rmult_le_pos; [apply sqrt_pos|assumption]. Qed.
Lemma number_in_bin time r2 k n : 0 <= time -> (0 <= k)%Z -> number_with (fun q => in_shell k (radius time q)) r2 n -> in_bin (fun q => bin_of (radius time q)) r2 k = n.
Proof.
  intros Ht Hk. unfold in_bin. induction 1 as [|q l n H _ IH|q l n H _ IH]; [reflexivity| |]; cbn [filter].
  - apply bin_shell in H; [|now apply radius_nonneg|exact Hk]. rewrite H, Z.eqb_refl, zlen_cons, IH. ring.
  - destruct (Z.eqb_spec (bin_of (radius time q)) k) as [C|C]; [|exact IH]. exfalso. apply H. apply bin_shell; [now apply radius_nonneg|exact Hk|exact C].
Qed.
Lemma combine_self {A B} (f : A -> B) l : combine l (map f l) = map (fun x => (x, f x)) l.
Proof. induction l as [|x l IH]; [reflexivity|]. cbn. now rewrite IH. Qed.
Lemma rho_map m time r2 : rho_bins m time r2 = map (fun k => IZR (k + in_bin (fun q => bin_of (radius time q)) r2 k) * m / volume k) (zseq 0 25).
Proof.
  unfold rho_bins. rewrite countarr_ok by (unfold BINS; lia). rewrite combine_self, map_map. apply map_ext. intro k. rewrite at_next, at_limit. unfold volume. replace (4 / 3 * PI * limit (k + 1) ^ 3 - 4 / 3 * PI * limit k ^ 3) with (4 * PI / 3 * (limit (k + 1) ^ 3 - limit k ^ 3)) by field. reflexivity.
Qed.
Lemma density_ok m time r2 k n : 0 <= time -> (0 <= k < 25)%Z -> number_with (fun q => in_shell k (radius time q)) r2 n -> nth_error (rho_bins m time r2) (Z.to_nat k) = Some (IZR (k + n) * m / volume k).
Proof.
  intros Ht Hk H. rewrite rho_map. rewrite <- (number_in_bin time r2 k n Ht ltac:(lia) H). rewrite nth_error_map, (nth_error_nth' (zseq 0 25) 0%Z) by (rewrite zseq_length; lia). rewrite nth_zseq by lia. cbn [option_map]. now replace (0 + Z.of_nat (Z.to_nat k))%Z with k by lia.
Qed.
Lemma crit_ok a : 0 < a -> RhoCrit a = critical a.
Proof.
  intro H. unfold RhoCrit, Hubble, critical. assert (0 < a ^ 3) by (now apply pow_lt). assert (0 < 25 / 100 / a ^ 3) by (apply quot_pos; lra). replace ((100 * sqrt (25 / 100 / a ^ 3 + 75 / 100)) ^ 2) with (100 ^ 2 * (sqrt (25 / 100 / a ^ 3 + 75 / 100) * sqrt (25 / 100 / a ^ 3 + 75 / 100))) by ring. rewrite sqrt_sqrt by lra. reflexivity.
Qed.
Lemma crit_pos a : 0 < a -> 0 < critical a.
Proof. intro H. unfold critical. assert (0 < a ^ 3) by (now apply pow_lt). assert (0 < 25 / 100 / a ^ 3) by (apply quot_pos; lra). pose proof PI_RGT_0. apply quot_pos; lra. Qed.
Lemma number_exists {A} (P : A -> Prop) : (forall x, {P x} + {~ P x}) -> forall l, exists n, number_with P l n.
Proof. intros D. induction l as [|x l [n IH]]; [exists 0%Z; constructor|]. destruct (D x); [exists (n + 1)%Z|exists n]; now constructor. Qed.
Lemma quot_gt a b k : 0 < b -> k < a / b <-> k * b < a.
Proof. intro H. split; intro L. - apply (Rmult_lt_compat_r b) in L; [|exact H]. unfold Rdiv in L. rewrite Rmult_assoc, Rinv_l in L; lra. - apply (Rmult_lt_reg_r b); [exact H|]. unfold Rdiv. rewrite Rmult_assoc, Rinv_l; lra. Qed.
Lemma bins_selected m time r2 r d : 0 < time -> In (r, d) (fit_bins time (rho_bins m time r2)) <->
  exists k n, (0 <= k < 25)%Z /\ number_with (fun q => in_shell k (radius time q)) r2 n /\ r = middle k /\ d = IZR (k + n) * m / volume k /\ 20 * critical time < d /\ 25 / 10000 * time < middle k.
Proof.
  intro Ht. unfold fit_bins. rewrite filter_In, rho_map. rewrite crit_ok by exact Ht. pose proof (crit_pos time Ht) as Hc.
  assert (EC : forall (f g : Z -> R) l, combine (map f l) (map g l) = map (fun k => (f k, g k)) l) by (intros f g; induction l as [|x l IH]; [reflexivity|]; cbn; now rewrite IH). change (Z.to_nat BINS) with 25%nat. rewrite EC, in_map_iff. split.
  - intros [(k & E & Hk) HB]. injection E as <- <-. apply In_zseq in Hk. rewrite at_middle in *. destruct (number_exists (fun q => in_shell k (radius time q))) with (l := r2) as [n Hn].
    { intro q. unfold in_shell. destruct (Rle_dec (limit k) (radius time q)); [destruct (Rlt_dec (radius time q) (limit (k + 1)))|]; [left|right|right]; tauto. }
    exists k, n. pose proof (number_in_bin time r2 k n ltac:(lra) ltac:(lia) Hn) as E. rewrite E in *. apply andb_prop in HB as [B1 B2]. destruct (Rlt_dec 20 _) as [L1|]; [|discriminate]. destruct (Rlt_dec (5 / 10 * (5 / 1000) * time) (middle k)) as [L2|]; [|discriminate].
    split; [lia|]. split; [exact Hn|]. split; [reflexivity|]. split; [reflexivity|]. split; [now apply (quot_gt _ _ 20)|lra].
  - intros (k & n & Hk & Hn & -> & -> & L1 & L2). pose proof (number_in_bin time r2 k n ltac:(lra) ltac:(lia) Hn) as E. split.
    + exists k. rewrite at_middle, E. split; [reflexivity|]. apply In_zseq. lia.
    + apply (quot_gt _ _ 20) in L1; [|exact Hc]. destruct (Rlt_dec 20 _) as [|C]; [|contradiction]. destruct (Rlt_dec (5 / 10 * (5 / 1000) * time) (middle k)) as [|C]; [reflexivity|exfalso; lra].
Qed.
Lemma bins_positive m time r2 : 0 < time -> positive (fit_bins time (rho_bins m time r2)).
Proof.
  intro Ht. apply Forall_forall. intros [r d] H. apply bins_selected in H; [|exact Ht]. destruct H as (k & n & _ & _ & -> & _ & L & _). pose proof (crit_pos time Ht). cbn [fst snd]. split; [|lra].
  unfold middle. apply sqrt_lt_R0. apply Rmult_lt_0_compat; apply limit_pos.
Qed.
Lemma in_bin_number time r2 k : 0 <= time -> (0 <= k)%Z -> number_with (fun q => in_shell k (radius time q)) r2 (in_bin (fun q => bin_of (radius time q)) r2 k).
Proof.
  intros Ht Hk. destruct (number_exists (fun q => in_shell k (radius time q))) with (l := r2) as [n Hn].
  { intro q. unfold in_shell. destruct (Rle_dec (limit k) (radius time q)); [destruct (Rlt_dec (radius time q) (limit (k + 1)))|]; [left|right|right]; tauto. }
  now rewrite (number_in_bin time r2 k n Ht Hk Hn).
Qed.
Lemma filter_map_comm {A B} (f : A -> B) (p : B -> bool) l : filter p (map f l) = map f (filter (fun x => p (f x)) l).
Proof. induction l as [|x l IH]; [reflexivity|]. cbn. destruct (p (f x)); cbn; now rewrite IH. Qed.
Lemma zseq_increasing n : forall a, StronglySorted Z.lt (zseq a n).
Proof. induction n as [|n IH]; intro a; cbn [zseq]; constructor; [apply IH|]. apply Forall_forall. intros x Hx. apply In_zseq in Hx. lia. Qed.
Lemma sorted_filter {A} (P : A -> A -> Prop) p l : StronglySorted P l -> StronglySorted P (filter p l).
Proof. induction 1 as [|x l H IH HF]; [constructor|]. cbn. destruct (p x); [constructor; [exact IH|]|exact IH]. rewrite Forall_forall in *. intros y Hy. apply filter_In in Hy. now apply HF. Qed.
Lemma bins_are m time r2 : 0 < time -> exists n ks, (forall k, (0 <= k < 25)%Z -> number_with (fun q => in_shell k (radius time q)) r2 (n k)) /\ StronglySorted Z.lt ks /\
  fit_bins time (rho_bins m time r2) = map (fun k => (middle k, IZR (k + n k) * m / volume k)) ks /\
  forall k, In k ks <-> (0 <= k < 25)%Z /\ 20 * critical time < IZR (k + n k) * m / volume k /\ 25 / 10000 * time < middle k.
Proof.
  intro Ht. exists (in_bin (fun q => bin_of (radius time q)) r2). unfold fit_bins. rewrite rho_map.
  assert (EC : forall (f g : Z -> R) l, combine (map f l) (map g l) = map (fun k => (f k, g k)) l) by (intros f g; induction l as [|x l IH]; [reflexivity|]; cbn; now rewrite IH).
  change (Z.to_nat BINS) with 25%nat. rewrite EC, filter_map_comm. pose proof (crit_pos time Ht) as Hc. match goal with |- context [filter ?q (zseq 0 25)] => set (p := q) end.
  exists (filter p (zseq 0 25)). split; [intros k Hk; apply in_bin_number; [lra|lia]|]. split; [apply sorted_filter; apply zseq_increasing|]. split; [apply map_ext; intro k; now rewrite at_middle|].
  intro k. rewrite filter_In, In_zseq. unfold p. cbv beta iota. rewrite at_middle, crit_ok by exact Ht. split.
  - intros [Hk HB]. apply andb_prop in HB as [B1 B2]. destruct (Rlt_dec 20 _) as [L1|]; [|discriminate]. destruct (Rlt_dec (5 / 10 * (5 / 1000) * time) (middle k)) as [L2|]; [|discriminate]. split; [lia|]. split; [now apply (quot_gt _ _ 20)|lra].
  - intros (Hk & L1 & L2). split; [lia|]. apply (quot_gt _ _ 20) in L1; [|exact Hc]. destruct (Rlt_dec 20 _) as [|C]; [|contradiction]. destruct (Rlt_dec (5 / 10 * (5 / 1000) * time) (middle k)) as [|C]; [reflexivity|exfalso; lra].
Qed.
(** without a particle there are densities, from the number of the bin *)
Lemma empty_density m time k : 0 <= time -> (0 <= k < 25)%Z -> nth_error (rho_bins m time []) (Z.to_nat k) = Some (IZR k * m / volume k).
Proof. intros Ht Hk. rewrite (density_ok m time [] k 0 Ht Hk (none_with _)). now rewrite Z.add_0_r. Qed.
Lemma volume_pos k : 0 < volume k.
Proof.
  assert (limit k < limit (k + 1)) as L. { rewrite <- !at_limit. rewrite plus_IZR. unfold at_bin. apply exp_increasing. rewrite ln_range. unfold BINS. pose proof ln_range_pos. lra. }
  pose proof (limit_pos k) as P. unfold volume. pose proof PI_RGT_0. assert (limit k ^ 3 < limit (k + 1) ^ 3) as L3 by (assert (limit k * limit k < limit (k + 1) * limit (k + 1)) by nra; simpl; nra). nra.
Qed.
Lemma number_unique {A} (P : A -> Prop) l n n' : number_with P l n -> number_with P l n' -> n = n'.
Proof. intro H. revert n'. induction H; intros n' H'; inversion H'; subst; try contradiction; [reflexivity| |auto]. f_equal. auto. Qed.
