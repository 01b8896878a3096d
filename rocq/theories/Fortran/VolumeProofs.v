(** Proofs about readregionexample.f90 (C72). *)
From Verif Require Import Base.Prelude Base.ListLemmas Snap.ReadSpec Peano.PeanoModel Peano.PeanoCurve Peano.PeanoProofs Peano.CPeanoModel Peano.CPeanoProofs.
From Verif Require Import Fortran.SortModel Fortran.SortProofs Fortran.RegionModel Fortran.RegionSpec Fortran.RegionProofs Fortran.RegionFinal Fortran.FofSpec Fortran.FofFinal Fortran.VolumeModel Fortran.VolumeSpec.
From Coq Require Import ZifyBool ZifyNat.
Local Open Scope Z_scope.

Lemma hash_bits_ok b nhash : 0 <= b <= 10 -> nhash = 8 ^ b -> hash_bits 32 nhash 1 0 = Ok (2 ^ b, b).
Proof.
  intros Hb ->. assert (b = 0 \/ b = 1 \/ b = 2 \/ b = 3 \/ b = 4 \/ b = 5 \/ b = 6 \/ b = 7 \/ b = 8 \/ b = 9 \/ b = 10) as C by lia.
  repeat destruct C as [->|C]; [..|subst b]; vm_compute; reflexivity.
Qed.
Lemma hash_bits_large nhash : 2 ^ 30 < nhash -> hash_bits 32 nhash 1 0 = Err EAbort.
Proof.
  intro H. do 10 (cbn [hash_bits]; repeat match goal with |- context [c_int ?e] => let v := eval vm_compute in (c_int e) in change (c_int e) with v; cbn [bind] end;
    match goal with |- context [?a <? nhash] => replace (a <? nhash) with true by lia end; repeat match goal with |- context [c_int ?e] => let v := eval vm_compute in (c_int e) in change (c_int e) with v; cbn [bind] end).
  cbn [hash_bits]. repeat match goal with |- context [c_int ?e] => let v := eval vm_compute in (c_int e) in change (c_int e) with v; cbn [bind] end.
  replace (_ <? nhash) with true by lia. repeat match goal with |- context [c_int ?e] => let v := eval vm_compute in (c_int e) in change (c_int e) with v; cbn [bind] end. reflexivity.
Qed.

(** *** flags *)
Section Flags.
  Context {B : Type}.
  Lemma fold_flags (f : list bool -> B -> res (list bool)) (P : B -> Z -> Prop) n l :
    (forall h x, In x l -> zlen h = n -> exists h', f h x = Ok h' /\ zlen h' = n /\ forall c, 0 <= c -> (flagged h' c <-> flagged h c \/ P x c)) ->
    forall h, zlen h = n -> exists h', foldR f l h = Ok h' /\ zlen h' = n /\ forall c, 0 <= c -> (flagged h' c <-> flagged h c \/ exists x, In x l /\ P x c).
  Proof.
    induction l as [|x l IH]; intros Hf h Hh; cbn [foldR].
    - exists h. split; [reflexivity|]. split; [exact Hh|]. intros c Hc. split; [now left|]. intros [H|(x & [] & _)]. exact H.
    - destruct (Hf h x (or_introl eq_refl) Hh) as (h1 & E & L & F). rewrite E. cbn [bind]. destruct (IH (fun h y Hy => Hf h y (or_intror Hy)) h1 L) as (h2 & E2 & L2 & F2). exists h2. split; [exact E2|]. split; [exact L2|].
      intros c Hc. rewrite F2, F by exact Hc. split.
      + intros [[H|H]|(y & Hy & H)]; [now left | right; exists x; split; [now left | exact H] | right; exists y; split; [now right | exact H]].
      + intros [H|(y & [<-|Hy] & H)]; [now left; left | now left; right | right; now exists y].
  Qed.
End Flags.
Lemma nth_error_set {A} (l : list A) : forall i k x, nth_error (set_nth l i x) k = if (k =? i)%nat then match nth_error l i with Some _ => Some x | None => None end else nth_error l k.
Proof. induction l as [|y l IH]; intros [|i] [|k] x; cbn [set_nth nth_error Nat.eqb]; try reflexivity; [destruct (k =? i)%nat; reflexivity | apply IH]. Qed.
Lemma mapM_same {A B} (f g : A -> res B) l : (forall x, In x l -> f x = g x) -> mapM f l = mapM g l.
Proof. induction l as [|x l IH]; intro H; [reflexivity|]. cbn [mapM]. rewrite (H x (or_introl eq_refl)), IH by (intros y Hy; apply H; now right). reflexivity. Qed.
Lemma flag_set h i c : 0 <= i < zlen h -> 0 <= c -> (flagged (set_nth h (Z.to_nat i) true) c <-> flagged h c \/ c = i).
Proof.
  intros Hi Hc. unfold flagged. destruct (Z.eq_dec c i) as [->|N].
  - rewrite nth_error_set, Nat.eqb_refl. destruct (nth_error h (Z.to_nat i)) eqn:E; [split; [now right | reflexivity]|]. apply nth_error_None in E. unfold zlen in Hi. lia.
  - rewrite nth_error_set. replace (Z.to_nat c =? Z.to_nat i)%nat with false by lia. split; [now left | now intros [H|H]].
Qed.
Lemma In_range x a b : In x (do_range a b) <-> a <= x <= b.
Proof. unfold do_range. rewrite In_zseq. lia. Qed.
Lemma key_defined bits i j k : 1 <= bits <= 10 -> grid bits (i, j, k) -> exists h, peano_hilbert_key_ i j k bits = Ok h /\ key_of bits (i, j, k) = Some h /\ 0 <= h < 8 ^ bits.
Proof.
  intros Hb HG. rewrite c_key_same by assumption. unfold key_of. rewrite key_scalar_ok by lia. exists (the_key (Z.to_nat bits) (i, j, k)). split; [reflexivity|]. split; [reflexivity|]. rewrite the_key_K by (lia || exact HG). pose proof (K_range (Z.to_nat bits) s0 (i, j, k) s0_in) as Hr. rewrite Z2Nat.id in Hr by lia. exact Hr.
Qed.

Section Volume.
  Variables little lf : bool.
  Variable le : Z -> Z -> bool.
  Variable cell : Z -> Z -> Z.
  Variables b nhash : Z.
  Variable fs : list (cellfile (list Z)).
  Variable contents : list (list Z).
  Variable junk : Z.
  Variables xmin xmax ymin ymax zmin zmax : Z.
  Hypothesis Hb : 1 <= b <= 10.
  Hypothesis Hnh : nhash = 8 ^ b.
  Hypothesis Hfiles : Forall2 (hash_file lf) fs contents.
  Hypothesis Hcov : covers 0 nhash fs.
  Let sw := negb (Bool.eqb lf little).
  Let side := 2 ^ b.
  Let gr := cell side.
  Notation lo := (xmin, ymin, zmin).
  Notation hi := (xmax, ymax, zmax).
  Notation vol := (in_volume le lo hi).

  Lemma low_high x y i : In i (do_range (low cell side x) (high cell side y)) <-> 0 <= i < side /\ gr x <= i <= gr y.
  Proof. rewrite In_range. unfold low, high, gr. lia. Qed.
  Lemma flags_final : exists h, flag_volume cell nhash xmin xmax ymin ymax zmin zmax side b = Ok h /\ zlen h = nhash /\
    forall c, 0 <= c -> (flagged h c <-> exists t, between gr side lo hi t /\ key_of b t = Some c).
  Proof.
    assert (0 < nhash) as N0 by (rewrite Hnh; apply Z.pow_pos_nonneg; lia).
    assert (zlen (repeat false (Z.to_nat nhash)) = nhash) as L0 by (unfold zlen; rewrite repeat_length; lia).
    unfold flag_volume.
    destruct (fold_flags (fun h i => foldR (fun h j => foldR (fun h k => do ihash <- peano_hilbert_key_ i j k b; fset h ihash true) (do_range (low cell side zmin) (high cell side zmax)) h) (do_range (low cell side ymin) (high cell side ymax)) h)
      (fun i c => exists j k, In j (do_range (low cell side ymin) (high cell side ymax)) /\ In k (do_range (low cell side zmin) (high cell side zmax)) /\ key_of b (i, j, k) = Some c) nhash (do_range (low cell side xmin) (high cell side xmax))) with (h := repeat false (Z.to_nat nhash)) as (h & E & L & F); [|exact L0|].
    - intros h i Hi Hh.
      destruct (fold_flags (fun h j => foldR (fun h k => do ihash <- peano_hilbert_key_ i j k b; fset h ihash true) (do_range (low cell side zmin) (high cell side zmax)) h)
        (fun j c => exists k, In k (do_range (low cell side zmin) (high cell side zmax)) /\ key_of b (i, j, k) = Some c) nhash (do_range (low cell side ymin) (high cell side ymax))) with (h := h) as (h1 & E1 & L1 & F1); [|exact Hh|].
      + intros h1 j Hj Hh1.
        destruct (fold_flags (fun h k => do ihash <- peano_hilbert_key_ i j k b; fset h ihash true) (fun k c => key_of b (i, j, k) = Some c) nhash (do_range (low cell side zmin) (high cell side zmax))) with (h := h1) as (h2 & E2 & L2 & F2); [|exact Hh1|].
        * intros h2 k Hk Hh2. rewrite low_high in Hi, Hj, Hk. destruct (key_defined b i j k Hb) as (c & C1 & C2 & C3); [unfold grid; fold side; lia|]. rewrite C1. cbn [bind]. rewrite fset_ok by lia. eexists. split; [reflexivity|]. split; [rewrite zlen_set; exact Hh2|].
          intros c' Hc'. rewrite flag_set by lia. rewrite C2. split; (intros [Q|Q]; [now left | right; congruence]).
        * exists h2. split; [exact E2|]. split; [exact L2|]. exact F2.
      + exists h1. split; [exact E1|]. split; [exact L1|]. intros c Hc. rewrite F1 by exact Hc. split; (intros [Q|Q]; [now left|right]).
        * destruct Q as (j & Hj & k & Hk & Q). now exists j, k.
        * destruct Q as (j & k & Hj & Hk & Q). exists j. split; [exact Hj | now exists k].
    - exists h. split; [exact E|]. split; [exact L|]. intros c Hc. rewrite F by exact Hc. split.
      + intros [Q|(i & Hi & j & k & Hj & Hk & Q)]; [unfold flagged in Q; apply nth_error_In, repeat_spec in Q; discriminate|]. exists (i, j, k). rewrite low_high in Hi, Hj, Hk. split; [cbn; tauto | exact Q].
      + intros ([[i j] k] & (Bi & Bj & Bk) & Q). right. exists i. split; [now apply low_high|]. exists j, k. split; [now apply low_high|]. split; [now apply low_high | exact Q].
  Qed.

  (** *** discarding particles *)
  Definition good (c : particle -> Z) (pre rest : list particle) (a : list Z) : Prop :=
    exists m, a = map c (filter vol pre) ++ m ++ map c rest /\ zlen (filter vol pre) + zlen m = zlen pre.
  Lemma good_get c pre p rest a : good c pre (p :: rest) a -> fget a (zlen pre) = Ok (c p).
  Proof.
    intros (m & -> & L). unfold fget. pose proof (zlen_nonneg pre). replace (0 <=? zlen pre) with true by lia. rewrite app_assoc, nth_error_app2 by (rewrite app_length, map_length; unfold zlen in *; lia).
    replace (Z.to_nat (zlen pre) - _)%nat with 0%nat by (rewrite app_length, map_length; unfold zlen in *; lia). reflexivity.
  Qed.
  Lemma good_set c pre p rest a : good c pre (p :: rest) a -> vol p = true -> exists a', fset a (zlen (filter vol pre)) (c p) = Ok a' /\ good c (pre ++ [p]) rest a'.
  Proof.
    intros (m & -> & L) V. pose proof (zlen_nonneg m). pose proof (zlen_nonneg (filter vol pre)). pose proof (zlen_nonneg rest).
    rewrite fset_ok by (rewrite !zlen_app, !zlen_map, zlen_cons; lia). eexists. split; [reflexivity|]. unfold good. rewrite filter_app. cbn [filter]. rewrite V. rewrite map_app. cbn [map].
    assert (forall x (l q : list Z), set_nth (l ++ q) (List.length l) x = l ++ set_nth q 0 x) as SA by (intros x l q; induction l as [|y l IH]; cbn; congruence).
    replace (Z.to_nat (zlen (filter vol pre))) with (List.length (map c (filter vol pre))) by (rewrite map_length; unfold zlen; lia). rewrite SA.
    destruct m as [|y m].
    - exists []. split; [cbn [app set_nth]; now rewrite <- app_assoc|]. rewrite !zlen_app. change (zlen [p]) with 1. change (zlen [c p]) with 1. change (zlen (@nil Z)) with 0 in *. lia.
    - exists (m ++ [c p]). split; [cbn [app set_nth]; now rewrite <- !app_assoc|]. rewrite zlen_cons in L. rewrite !zlen_app. change (zlen [p]) with 1. change (zlen [c p]) with 1. change (zlen (@nil Z)) with 0 in *. lia.
  Qed.
  Lemma good_skip c pre p rest a : good c pre (p :: rest) a -> vol p = false -> good c (pre ++ [p]) rest a.
  Proof.
    intros (m & -> & L) V. unfold good. rewrite filter_app. cbn [filter]. rewrite V, app_nil_r. exists (m ++ [c p]). split; [cbn [map]; now rewrite <- app_assoc|]. rewrite !zlen_app. change (zlen [p]) with 1. change (zlen [c p]) with 1. change (zlen (@nil Z)) with 0 in *. lia.
  Qed.
  Definition vel_c (k : nat) (p : particle) : Z := nth k (snd (fst p)) 0.
  Definition goods pre rest r := good (coord 0) pre rest (r_x r) /\ good (coord 1) pre rest (r_y r) /\ good (coord 2) pre rest (r_z r) /\ good (vel_c 0) pre rest (r_vx r) /\ good (vel_c 1) pre rest (r_vy r) /\ good (vel_c 2) pre rest (r_vz r) /\ good id_of pre rest (r_ids r).
  Lemma keep_step pre p rest r : goods pre (p :: rest) r -> exists r', keep_one le xmin xmax ymin ymax zmin zmax (zlen (filter vol pre), r) (zlen pre + 1) = Ok (zlen (filter vol (pre ++ [p])), r') /\ goods (pre ++ [p]) rest r'.
  Proof.
    intros (G1 & G2 & G3 & G4 & G5 & G6 & G7). unfold keep_one. replace (zlen pre + 1 - 1) with (zlen pre) by lia. replace (zlen (filter vol pre) + 1 - 1) with (zlen (filter vol pre)) by lia.
    rewrite (good_get _ _ _ _ _ G1), (good_get _ _ _ _ _ G2), (good_get _ _ _ _ _ G3). cbn [bind].
    assert (le xmin (coord 0 p) && le (coord 0 p) xmax && le ymin (coord 1 p) && le (coord 1 p) ymax && le zmin (coord 2 p) && le (coord 2 p) zmax = vol p) as -> by (cbn; now rewrite !andb_assoc).
    rewrite filter_app. cbn [filter]. destruct (vol p) eqn:V.
    - destruct (good_set _ _ _ _ _ G1 V) as (a1 & S1 & T1). destruct (good_set _ _ _ _ _ G2 V) as (a2 & S2 & T2). destruct (good_set _ _ _ _ _ G3 V) as (a3 & S3 & T3). destruct (good_set _ _ _ _ _ G4 V) as (a4 & S4 & T4).
      destruct (good_set _ _ _ _ _ G5 V) as (a5 & S5 & T5). destruct (good_set _ _ _ _ _ G6 V) as (a6 & S6 & T6). destruct (good_set _ _ _ _ _ G7 V) as (a7 & S7 & T7).
      rewrite (good_get _ _ _ _ _ G4), (good_get _ _ _ _ _ G5), (good_get _ _ _ _ _ G6), (good_get _ _ _ _ _ G7). cbn [bind]. rewrite S1. cbn [bind]. rewrite S2. cbn [bind]. rewrite S3. cbn [bind]. rewrite S4. cbn [bind]. rewrite S5. cbn [bind]. rewrite S6. cbn [bind]. rewrite S7. cbn [bind].
      eexists. split; [rewrite zlen_app; reflexivity|]. repeat split; assumption.
    - eexists. split; [rewrite app_nil_r; reflexivity|]. repeat split; now apply good_skip.
  Qed.
  Lemma discard_ok sel : exists r, discard le xmin xmax ymin ymax zmin zmax (zlen sel) (region_of sel) = Ok (zlen (filter vol sel), r) /\ goods sel [] r.
  Proof.
    assert (forall rest pre r, goods pre rest r -> exists r', foldR (keep_one le xmin xmax ymin ymax zmin zmax) (zseq (zlen pre + 1) (List.length rest)) (zlen (filter vol pre), r) = Ok (zlen (filter vol (pre ++ rest)), r') /\ goods (pre ++ rest) [] r') as Q.
    { induction rest as [|p rest IH]; intros pre r G; cbn [List.length zseq foldR]; [rewrite app_nil_r; exists r; now split|].
      destruct (keep_step pre p rest r G) as (r' & E & G'). rewrite E. cbn [bind]. destruct (IH (pre ++ [p]) r' G') as (r'' & E' & G''). rewrite <- app_assoc in E', G''. cbn [app] in E', G''. rewrite zlen_app in E'. change (zlen [p]) with 1 in E'. now exists r''. }
    destruct (Q sel [] (region_of sel)) as (r & E & G); [|exists r; split; [|exact G]].
    - assert (forall c, good c [] sel (map c sel)) as G by (intro c; now exists []). repeat split; apply G.
    - cbn [app] in E. change (zlen (filter vol [])) with 0 in E. unfold discard, do_range. replace (Z.to_nat (zlen sel - 1 + 1)) with (List.length sel) by (unfold zlen; lia). exact E.
  Qed.
  Lemma good_end c sel a : good c sel [] a -> firstn (List.length (filter vol sel)) a = map c (filter vol sel).
  Proof. intros (m & -> & L). rewrite firstn_app, map_length, Nat.sub_diag. rewrite firstn_all2 by (rewrite map_length; lia). cbn [firstn]. now rewrite app_nil_r. Qed.
  Lemma good_at c sel a i : good c sel [] a -> 0 <= i < zlen (filter vol sel) -> fget a i = Ok (nth (Z.to_nat i) (map c (filter vol sel)) 0).
  Proof.
    intros (m & -> & L) Hi. unfold fget. replace (0 <=? i) with true by lia. rewrite nth_error_app1 by (rewrite map_length; unfold zlen in Hi; lia). rewrite (nth_error_nth' _ 0) by (rewrite map_length; unfold zlen in Hi; lia). reflexivity.
  Qed.

  (** *** the particles of the cells which are not read *)
  Lemma picks_filter (W : Z -> Prop) (v : particle -> bool) n cells s : @picks (list Z) W n cells s -> (forall k c p, nth_error cells k = Some c -> In p c -> ~ W (n + Z.of_nat k) -> v p = false) -> filter v s = filter v (concat cells).
  Proof.
    induction 1 as [n|n c cells sel Hw HP IH|n c cells sel Hw HP IH]; intro Hv; cbn [concat]; [reflexivity|..].
    - rewrite !filter_app, IH; [reflexivity|]. intros k c' p Hk Hp Hn. apply (Hv (S k) c' p Hk Hp). replace (n + Z.of_nat (S k)) with (n + 1 + Z.of_nat k) by lia. exact Hn.
    - rewrite !filter_app, IH; [|intros k c' p Hk Hp Hn; apply (Hv (S k) c' p Hk Hp); replace (n + Z.of_nat (S k)) with (n + 1 + Z.of_nat k) by lia; exact Hn].
      assert (forall q, incl q c -> filter v q = []) as Q.
      { induction q as [|p q IHq]; intro Hi; [reflexivity|]. cbn [filter]. rewrite (Hv 0%nat c p eq_refl (Hi p (or_introl eq_refl))) by (now rewrite Z.add_0_r). apply IHq. intros y Hy. apply Hi. now right. }
      rewrite (Q c) by apply incl_refl. reflexivity.
  Qed.
  Lemma files_filter (W : Z -> Prop) (v : particle -> bool) sel l : @picks_files (list Z) W l sel -> (forall h p, in_cell l h p -> ~ W h -> v p = false) -> filter v sel = filter v (particles l).
  Proof.
    intro HP. unfold particles. induction HP as [|f l s sel H1 H2 IH]; intro Hv; [reflexivity|]. cbn [map concat]. rewrite concat_app, !filter_app. f_equal.
    - apply (picks_filter W v (cf_first f)); [exact H1|]. intros k c p Hk Hp Hn. apply (Hv (cf_first f + Z.of_nat k) p); [|exact Hn]. exists f, k, c. split; [now left|]. now split.
    - apply IH. intros h p (g & k & c & Hg & R) Hn. apply (Hv h p); [|exact Hn]. exists g, k, c. split; [now right | exact R].
  Qed.

  Hypothesis Hmono : monotone le gr.
  Hypothesis Hloc : located gr side (key_of b) fs.
  Lemma volume_final :
    let kept := filter vol (particles fs) in
    ((exists p h t, in_cell fs h p /\ between gr side lo hi t /\ key_of b t = Some h) ->
       (exists r, volume little sw le cell nhash contents junk xmin xmax ymin ymax zmin zmax = Ok (zlen kept, r) /\ 
          firstn (List.length kept) (r_x r) = map (coord 0) kept /\ firstn (List.length kept) (r_y r) = map (coord 1) kept /\ firstn (List.length kept) (r_z r) = map (coord 2) kept /\
          firstn (List.length kept) (r_vx r) = map (vel_c 0) kept /\ firstn (List.length kept) (r_vy r) = map (vel_c 1) kept /\ firstn (List.length kept) (r_vz r) = map (vel_c 2) kept /\ firstn (List.length kept) (r_ids r) = map id_of kept) /\
       volume_program little sw le cell nhash contents junk xmin xmax ymin ymax zmin zmax = Ok (map (fun p => (coord 0 p, coord 1 p, coord 2 p)) kept)) /\
    (~ (exists p h t, in_cell fs h p /\ between gr side lo hi t /\ key_of b t = Some h) -> kept = [] /\ volume_program little sw le cell nhash contents junk xmin xmax ymin ymax zmin zmax = Err EAbort).
  Proof.
    cbn zeta. unfold volume_program, volume. rewrite (hash_bits_ok b nhash) by (assumption || lia). cbn [bind]. fold side. destruct flags_final as (h & E & L & F). rewrite E. cbn [bind].
    destruct (region_final little lf nhash fs contents h junk Hfiles Hcov L) as (sel & Hsel & R1 & R2). fold sw in R1, R2.
    assert (filter vol (particles fs) = filter vol sel) as EK.
    { symmetry. apply (files_filter (flagged h)); [exact Hsel|]. intros c p Hc Hn. destruct (vol p) eqn:V; [|reflexivity]. exfalso. apply Hn. destruct (Hloc c p Hc) as (A1 & A2 & A3 & A4).
      assert (0 <= c) as Hc0 by (destruct (key_defined b _ _ _ Hb (conj A1 (conj A2 A3))) as (c' & _ & C2 & C3); rewrite C2 in A4; injection A4 as <-; lia).
      apply F; [exact Hc0|]. eexists. split; [|exact A4]. cbn in V. rewrite !andb_true_iff in V. destruct V as (((V1 & V2) & (V3 & V4)) & (V5 & V6)). cbn. repeat split; try lia; now apply Hmono. }
    assert ((exists p h t, in_cell fs h p /\ between gr side lo hi t /\ key_of b t = Some h) <-> sel <> []) as EX.
    { split.
      - intros (p & c & t & Hp & Ht & Hk) Q. assert (In p sel) as Hi; [|rewrite Q in Hi; exact Hi]. apply (picks_files_in _ _ _ p Hsel). exists c. split; [|exact Hp]. apply F; [|now exists t].
        destruct t as [[i j] k]. destruct Ht as (T1 & T2 & T3). destruct (key_defined b i j k Hb) as (c' & _ & C2 & C3); [unfold grid; fold side; lia|]. rewrite C2 in Hk. injection Hk as <-. lia.
      - intro Q. destruct sel as [|p sel']; [congruence|]. assert (exists c, flagged h c /\ in_cell fs c p) as (c & Hc & Hp) by (apply (picks_files_in _ _ _ p Hsel); now left). exists p, c. destruct (Hloc c p Hp) as (A1 & A2 & A3 & A4).
        assert (0 <= c) as Hc0 by (destruct (key_defined b _ _ _ Hb (conj A1 (conj A2 A3))) as (c' & _ & C2 & C3); rewrite C2 in A4; injection A4 as <-; lia). apply F in Hc; [|exact Hc0]. destruct Hc as (t & T1 & T2). exists t. now split. }
    split.
    - intro X. rewrite (R1 (proj1 EX X)). cbn [bind]. destruct (discard_ok sel) as (r & D & G1 & G2 & G3 & G4 & G5 & G6 & G7). rewrite D, EK. cbn [bind]. split.
      + exists r. split; [reflexivity|]. repeat split; now apply good_end.
      + unfold do_range. replace (Z.to_nat (zlen (filter vol sel) - 1 + 1)) with (List.length (filter vol sel)) by (unfold zlen; lia). set (kept := filter vol sel) in *.
        transitivity (mapM (fun i => Ok (nth (Z.to_nat (i - 1)) (map (fun p => (coord 0 p, coord 1 p, coord 2 p)) kept) (0, 0, 0))) (zseq 1 (List.length kept))).
        * apply mapM_same. intros i Hi. apply In_zseq in Hi. rewrite (good_at _ _ _ _ G1), (good_at _ _ _ _ G2), (good_at _ _ _ _ G3) by (fold kept; unfold zlen; lia). cbn [bind]. fold kept.
          assert (Z.to_nat (i - 1) < List.length kept)%nat as Hl by lia. destruct kept as [|p0 kept'] eqn:EQ; [cbn in Hl; lia|]. rewrite <- EQ in *.
          rewrite (nth_indep (map (coord 0) kept) 0 (coord 0 p0)), (nth_indep (map (coord 1) kept) 0 (coord 1 p0)), (nth_indep (map (coord 2) kept) 0 (coord 2 p0)), (nth_indep (map (fun p => (coord 0 p, coord 1 p, coord 2 p)) kept) (0, 0, 0) (coord 0 p0, coord 1 p0, coord 2 p0)) by (rewrite map_length; exact Hl).
          rewrite (map_nth (coord 0)), (map_nth (coord 1)), (map_nth (coord 2)). rewrite (map_nth (fun p => (coord 0 p, coord 1 p, coord 2 p)) kept p0). reflexivity.
        * rewrite <- (map_length (fun p => (coord 0 p, coord 1 p, coord 2 p)) kept). set (q := map _ kept). clear. 
          assert (forall n, mapM (fun i => Ok (nth (Z.to_nat (i - 1)) q (0, 0, 0))) (zseq 1 n) = Ok (map (fun i => nth (Z.to_nat (i - 1)) q (0, 0, 0)) (zseq 1 n))) as -> by (intro n; now apply mapM_map_ok). f_equal.
          apply (nth_ext _ _ (0, 0, 0) (0, 0, 0)); [now rewrite map_length, zseq_length|]. intros k Hk. rewrite map_length, zseq_length in Hk. rewrite (nth_indep _ _ ((fun i => nth (Z.to_nat (i - 1)) q (0, 0, 0)) 0)) by (rewrite map_length, zseq_length; exact Hk). rewrite (map_nth (fun i => nth (Z.to_nat (i - 1)) q (0, 0, 0))), nth_zseq by exact Hk. f_equal. lia.
    - intro X. assert (sel = []) as Es by (destruct sel as [|p sel']; [reflexivity | exfalso; apply X, EX; discriminate]). rewrite (R2 Es). rewrite EK, Es. split; reflexivity.
  Qed.
End Volume.

Lemma volume_lines : forall little lf le cell b fs contents junk xmin xmax ymin ymax zmin zmax, 1 <= b <= 10 -> Forall2 (hash_file lf) fs contents -> covers 0 (8 ^ b) fs ->
  monotone le (cell (2 ^ b)) -> located (cell (2 ^ b)) (2 ^ b) (key_of b) fs ->
  (exists p h t, in_cell fs h p /\ between (cell (2 ^ b)) (2 ^ b) (xmin, ymin, zmin) (xmax, ymax, zmax) t /\ key_of b t = Some h) ->
  volume_program little (negb (Bool.eqb lf little)) le cell (8 ^ b) contents junk xmin xmax ymin ymax zmin zmax =
  Ok (map (fun p => (coord 0 p, coord 1 p, coord 2 p)) (filter (in_volume le (xmin, ymin, zmin) (xmax, ymax, zmax)) (particles fs))).
Proof.
  intros little lf le cell b fs contents junk xmin xmax ymin ymax zmin zmax Hb Hf Hc Hm Hl X.
  destruct (volume_final little lf le cell b (8 ^ b) fs contents junk xmin xmax ymin ymax zmin zmax Hb eq_refl Hf Hc Hm Hl) as [V _]. apply (V X).
Qed.
Lemma volume_arrays : forall little lf le cell b fs contents junk xmin xmax ymin ymax zmin zmax, 1 <= b <= 10 -> Forall2 (hash_file lf) fs contents -> covers 0 (8 ^ b) fs ->
  monotone le (cell (2 ^ b)) -> located (cell (2 ^ b)) (2 ^ b) (key_of b) fs ->
  (exists p h t, in_cell fs h p /\ between (cell (2 ^ b)) (2 ^ b) (xmin, ymin, zmin) (xmax, ymax, zmax) t /\ key_of b t = Some h) ->
  let kept := filter (in_volume le (xmin, ymin, zmin) (xmax, ymax, zmax)) (particles fs) in
  exists r, volume little (negb (Bool.eqb lf little)) le cell (8 ^ b) contents junk xmin xmax ymin ymax zmin zmax = Ok (zlen kept, r) /\
    let first := firstn (length kept) in
    first (r_x r) = pos_of 0 kept /\ first (r_y r) = pos_of 1 kept /\ first (r_z r) = pos_of 2 kept /\ first (r_vx r) = vel_of 0 kept /\ first (r_vy r) = vel_of 1 kept /\ first (r_vz r) = vel_of 2 kept /\ first (r_ids r) = ids_of kept.
Proof.
  intros little lf le cell b fs contents junk xmin xmax ymin ymax zmin zmax Hb Hf Hc Hm Hl X.
  destruct (volume_final little lf le cell b (8 ^ b) fs contents junk xmin xmax ymin ymax zmin zmax Hb eq_refl Hf Hc Hm Hl) as [V _]. apply (V X).
Qed.
Lemma volume_empty : forall little lf le cell b fs contents junk xmin xmax ymin ymax zmin zmax, 1 <= b <= 10 -> Forall2 (hash_file lf) fs contents -> covers 0 (8 ^ b) fs ->
  monotone le (cell (2 ^ b)) -> located (cell (2 ^ b)) (2 ^ b) (key_of b) fs ->
  ~ (exists p h t, in_cell fs h p /\ between (cell (2 ^ b)) (2 ^ b) (xmin, ymin, zmin) (xmax, ymax, zmax) t /\ key_of b t = Some h) ->
  volume_program little (negb (Bool.eqb lf little)) le cell (8 ^ b) contents junk xmin xmax ymin ymax zmin zmax = Err EAbort.
Proof.
  intros little lf le cell b fs contents junk xmin xmax ymin ymax zmin zmax Hb Hf Hc Hm Hl X.
  destruct (volume_final little lf le cell b (8 ^ b) fs contents junk xmin xmax ymin ymax zmin zmax Hb eq_refl Hf Hc Hm Hl) as [_ V]. apply (V X).
Qed.
Lemma some_final : forall le grid b fs lo hi p h, 1 <= b -> monotone le grid -> located grid (2 ^ b) (key_of b) fs -> in_cell fs h p -> in_volume le lo hi p = true ->
  exists t, between grid (2 ^ b) lo hi t /\ key_of b t = Some h.
Proof.
  intros le grid b fs [[x0 y0] z0] [[x1 y1] z1] p h Hb Hm Hl Hp V. destruct (Hl h p Hp) as (A1 & A2 & A3 & A4). eexists. split; [|exact A4].
  cbn in V. rewrite !andb_true_iff in V. destruct V as (((V1 & V2) & (V3 & V4)) & (V5 & V6)). cbn. repeat split; try lia; now apply Hm.
Qed.
Lemma volume_large : forall little byteswap le cell nhash contents junk xmin xmax ymin ymax zmin zmax, 2 ^ 30 < nhash ->
  volume_program little byteswap le cell nhash contents junk xmin xmax ymin ymax zmin zmax = Err EAbort.
Proof. intros. unfold volume_program, volume. now rewrite hash_bits_large. Qed.
