(** C46 in final form. *)
From Verif.Base Require Import Prelude Order ListLemmas.
From Verif.Util Require Import UMatchModel.
From Verif.Index Require Import IndexModel IndexSpec LinkProofs ForestProofs WalkProofs EndsProofs DfiFinal.
From Coq Require Import ZifyBool ZifyNat Relation_Operators.
Local Open Scope Z_scope.

Section Main.
  Context {M : Type} (Od : TOrd M).
  Context (node_order mass_order : list Z) (index_order : list Z -> list Z) (ni di : list Z) (mb : list M).
  Context (Hl : length di = length ni) (Hlm : length mb = length ni) (Hnd : NoDup ni).
  Context (Ho : is_argsort ZOrd ni node_order) (Hm : is_argsort Od mb mass_order) (Hi : forall l, is_argsort ZOrd l (index_order l)).

  Lemma dfi_err : cyclic ni di -> depth_first_index node_order mass_order index_order ni di mb = Err EAssert.
  Proof.
    intro Hc. destruct (pointers node_order ni di Hl Hnd Ho) as (dp & E & Hdp & HD & Hdir).
    exact (dfi_cycle Od node_order mass_order index_order ni di mb Hl Hlm Hnd Ho Hm Hi dp Hdp HD Hdir Hc E).
  Qed.

  Lemma dfi_main : ~ cyclic ni di -> exists df em lp, depth_first_index node_order mass_order index_order ni di mb = Ok (df, em, lp) /\
    length df = length ni /\ length em = length ni /\ length lp = length ni /\ Permutation df (zseq 1 (length ni)) /\
    forall h a e l, nth_error df h = Some a -> nth_error em h = Some e -> nth_error lp h = Some l ->
      (forall p b, nth_error df p = Some b -> (progenitor ni di p h <-> a <= b <= l)) /\
      (exists br, main_branch ni di Od mb h br /\ (forall k p, nth_error br k = Some p -> nth_error df p = Some (a + Z.of_nat k)) /\
         (forall p b, nth_error df p = Some b -> (In p br <-> a <= b <= e))) /\
      (forall p q b c, direct ni di p h -> direct ni di q h -> nth_error df p = Some b -> nth_error df q = Some c -> b < c -> mass_le Od mb q p).
  Proof.
    intro Hc. destruct (pointers node_order ni di Hl Hnd Ho) as (dp & E & Hdp & HD & Hdir).
    destruct (dfi_acyclic Od node_order mass_order index_order ni di mb Hl Hlm Hnd Ho Hm Hi dp Hdp HD Hdir Hc E) as (em & lp & Edfi & He & Hle & Hall & Hends).
    set (df := dfirst mass_order di dp) in *. exists df, em, lp. split; [assumption|].
    set (ch' := ch mass_order dp) in *.
    pose proof (ch_In Od node_order mass_order index_order ni di mb Hl Hlm Hnd Ho Hm Hi dp Hdp HD Hdir) as Hch.
    pose proof (ch_nodup Od node_order mass_order index_order ni di mb Hl Hlm Hnd Ho Hm Hi dp Hdp HD Hdir) as Hchn.
    destruct (final_halos_ok Od node_order mass_order index_order ni di mb Hl Hlm Hnd Ho Hm Hi dp HD) as [Hf Hfn].
    pose proof (dfirst_len Od node_order mass_order index_order ni di mb Hl Hlm Hnd Ho Hm Hi dp Hdp HD Hdir) as Hdl.
    pose proof (dfirst_num Od node_order mass_order index_order ni di mb Hl Hlm Hnd Ho Hm Hi dp Hdp HD Hdir) as Hnum.
    pose proof (upto_walk Od node_order mass_order index_order ni di mb Hl Hlm Hnd Ho Hm Hi dp Hdp HD Hdir) as (pp & np & Hpp & Hfirst & _).
    pose proof (ch_sorted Od node_order mass_order index_order ni di mb Hl Hlm Hnd Ho Hm Hi dp Hdp HD Hdir) as Hsorted.
    pose proof (direct_range Od node_order mass_order index_order ni di mb Hl Hlm Hnd Ho Hm Hi dp Hdp HD Hdir) as Hrange.
    pose proof (direct_D Od node_order mass_order index_order ni di mb Hl Hlm Hnd Ho Hm Hi dp Hdp HD Hdir) as HdirD.
    fold ch' in Hch, Hchn, Hfirst, Hsorted, Hnum. fold df in Hdl, Hnum.
    assert (forall j, ins (length dp) j -> In j (whole (length dp) ch' (final_halos dp))) as Hin.
    { intros j Hj. apply (whole_In (length dp) (D dp) ch' HD Hch Hchn _ Hf Hfn). now apply Hall. }
    pose proof (whole_nodup (length dp) (D dp) ch' HD Hch Hchn _ Hf Hfn) as Hwn.
    assert (forall x, In x (whole (length dp) ch' (final_halos dp)) -> ins (length dp) x) as Hwi.
    { intros x Hx. apply (whole_In (length dp) (D dp) ch' HD Hch Hchn _ Hf Hfn) in Hx. destruct Hx as [m Hr]. exact (reach_in (length dp) (D dp) ch' HD Hch Hchn m x Hr). }
    assert (forall (u : list Z) h a, zlen u = zlen dp -> nth_error u h = Some a -> ins (length dp) (Z.of_nat h) /\ gz u (Z.of_nat h) = a) as Hgz.
    { intros u h a Hu H. assert (nth_error u h <> None) as Hne by congruence. apply nth_error_Some in Hne. split; [unfold ins; unfold zlen in Hu; lia|]. unfold gz. rewrite Nat2Z.id. now apply nth_error_nth. }
    split; [unfold zlen in Hdl; lia|]. split; [unfold zlen in He; lia|]. split; [unfold zlen in Hle; lia|]. split.
    { (* numbers 1..n *)
      set (w := whole (length dp) ch' (final_halos dp)) in *.
      assert (Permutation w (zseq 0 (length dp))) as Hwp.
      { apply NoDup_Permutation; [assumption | apply NoDup_zseq |]. intro x. rewrite In_zseq. split; intro H; [apply Hwi in H; unfold ins in H; lia | apply Hin; unfold ins; lia]. }
      assert (map (gz df) w = zseq 1 (length dp)) as Ew.
      { assert (length w = length dp) as Hlw by (rewrite (Permutation_length Hwp), zseq_length; reflexivity).
        apply (list_ext_nth _ _ (gz df 0)); [rewrite map_length, zseq_length; assumption|]. intros k Hk. rewrite map_length in Hk. rewrite map_nth. rewrite Hnum by assumption. rewrite (nth_indep _ _ 0) by (rewrite zseq_length; lia). rewrite nth_zseq by lia. reflexivity. }
      assert (map (gz df) (zseq 0 (length dp)) = df) as Ed.
      { apply (list_ext_nth _ _ (gz df 0)); [rewrite map_length, zseq_length; unfold zlen in Hdl; lia|]. intros k Hk. rewrite map_length, zseq_length in Hk. rewrite map_nth. rewrite nth_zseq by lia. unfold gz. replace (Z.to_nat (0 + Z.of_nat k)) with k by lia. apply nth_indep. unfold zlen in Hdl. lia. }
      rewrite <- Hdp, <- Ew. rewrite <- Ed at 1. apply Permutation_map. now symmetry. }
    intros h a e l Ha Hee Hll. destruct (Hgz df h a Hdl Ha) as [Hh Ea]. destruct (Hgz em h e He Hee) as [_ Eem]. destruct (Hgz lp h l Hle Hll) as [_ El].
    destruct (Hends _ Hh) as [HL HE]. rewrite HL in El. rewrite HE in Eem. destruct (Hall _ Hh) as [m Hr].
    split; [|split].
    - intros p b Hb. destruct (Hgz df p b Hdl Hb) as [Hp Eb].
      rewrite <- Ea, <- Eb, <- El. rewrite <- (sub_interval dp pp ch' Hpp HD Hch Hchn Hfirst _ Hf Hfn df Hdl Hnum m _ (Z.of_nat p) Hr (Hin _ Hp)).
      rewrite (sub_In (length dp) (D dp) ch' HD Hch Hchn m _ _ Hr). split.
      + intro H. now apply (prog_anc Od node_order mass_order index_order ni di mb Hl Hlm Hnd Ho Hm Hi dp Hdp HD Hdir).
      + intro H. apply (anc_prog Od node_order mass_order index_order ni di mb Hl Hlm Hnd Ho Hm Hi dp Hdp HD Hdir) in H. now rewrite !Nat2Z.id in H.
    - assert (forall j m, reach (length dp) (D dp) m j -> main_branch ni di Od mb (Z.to_nat j) (map Z.to_nat (main dp ch' j)) /\ forall x, In x (main dp ch' j) -> ins (length dp) x) as Hmb.
      { intros j mj Hrj. revert mj j Hrj. apply (tree_ind (length dp) (D dp) ch' HD Hch Hchn (fun j => main_branch ni di Od mb (Z.to_nat j) (map Z.to_nat (main dp ch' j)) /\ forall x, In x (main dp ch' j) -> ins (length dp) x)).
        intros mj j Hrj IH. pose proof (reach_in (length dp) (D dp) ch' HD Hch Hchn mj j Hrj) as Hj. rewrite (main_eq dp pp ch' Hpp HD Hch Hchn Hfirst mj j Hrj).
        destruct (ch' j) as [|c rest] eqn:Ec.
        - split; [|intros x [<-|[]]; assumption]. apply main_end. intros p Hp. destruct (Hrange _ _ Hp) as [Hpr _].
          assert (In (Z.of_nat p) (ch' j)) as Hpin by (apply Hch; [assumption|]; split; [assumption|]; rewrite (HdirD _ _ Hp); unfold ins in Hj; lia). rewrite Ec in Hpin. destruct Hpin.
        - assert (In c (ch' j)) as Hcin by (rewrite Ec; now left). rewrite <- Ec in IH. destruct (IH c Hcin) as [IH1 IH2]. apply Hch in Hcin; [|assumption]. destruct Hcin as [Hci Hcd].
          split; [|intros x [<-|Hx]; [assumption | now apply IH2]]. cbn [map]. apply (main_more ni di Od mb _ (Z.to_nat c)); [now apply Hdir | | assumption].
          intros q Hq. destruct (Hrange _ _ Hq) as [Hqr _].
          assert (In (Z.of_nat q) (ch' j)) as Hqin by (apply Hch; [assumption|]; split; [assumption|]; rewrite (HdirD _ _ Hq); unfold ins in Hj; lia).
          rewrite Ec in Hqin. destruct Hqin as [Eq|Hqin].
          + rewrite <- (Nat2Z.id q), <- Eq. intros x y Hx Hy. assert (x = y) as -> by congruence. apply leb_refl.
          + rewrite <- (Nat2Z.id q). exact (Hsorted j [] c rest _ Ec Hqin). }
      destruct (Hmb _ _ Hr) as [Hmb1 Hmb2]. rewrite Nat2Z.id in Hmb1. exists (map Z.to_nat (main dp ch' (Z.of_nat h))). split; [assumption|].
      pose proof (main_nth dp pp ch' Hpp HD Hch Hchn Hfirst _ Hf Hfn df Hdl Hnum m _ Hr) as Hmn.
      assert (forall k p, nth_error (map Z.to_nat (main dp ch' (Z.of_nat h))) k = Some p -> nth_error df p = Some (a + Z.of_nat k)) as Hnumb.
      { intros k p Hk. assert (nth_error (map Z.to_nat (main dp ch' (Z.of_nat h))) k <> None) as Hne by congruence. apply nth_error_Some in Hne. rewrite map_length in Hne.
        rewrite nth_error_map, (nth_error_nth' _ 0 Hne) in Hk. cbn in Hk. injection Hk as <-. rewrite nth_error_gz; [|].
        - rewrite Hmn by assumption. now rewrite Ea.
        - rewrite Hdl. unfold zlen. apply (Hmb2 (nth k (main dp ch' (Z.of_nat h)) 0)). now apply nth_In. }
      split; [assumption|]. intros p b Hb. destruct (Hgz df p b Hdl Hb) as [Hp Eb]. rewrite <- Eem. unfold Ep. rewrite Ea. split.
      + intro Hpin. apply In_nth_error in Hpin. destruct Hpin as [k Hk]. pose proof (Hnumb k p Hk) as Hb'. assert (nth_error (map Z.to_nat (main dp ch' (Z.of_nat h))) k <> None) as Hne by congruence. apply nth_error_Some in Hne. rewrite map_length in Hne.
        assert (b = a + Z.of_nat k) by congruence. unfold zlen. lia.
      + intro Hb'. set (k := Z.to_nat (b - a)). assert (k < length (main dp ch' (Z.of_nat h)))%nat as Hk by (unfold k; unfold zlen in Hb'; lia).
        assert (nth k (main dp ch' (Z.of_nat h)) 0 = Z.of_nat p) as Ep'.
        { apply (df_inj dp pp ch' Hpp HD Hch Hchn Hfirst _ Hf Hfn df Hdl Hnum); [apply Hin, Hmb2; now apply nth_In | now apply Hin | rewrite Hmn by assumption; rewrite Ea, Eb; unfold k; lia]. }
        apply in_map_iff. exists (Z.of_nat p). split; [apply Nat2Z.id|]. rewrite <- Ep'. now apply nth_In.
    - intros p q b c Hp Hq Hb Hcc Hlt. destruct (Hgz df p b Hdl Hb) as [Hpr Eb]. destruct (Hgz df q c Hdl Hcc) as [Hqr Ecc].
      assert (In (Z.of_nat p) (ch' (Z.of_nat h))) as Hpin by (apply Hch; auto). assert (In (Z.of_nat q) (ch' (Z.of_nat h))) as Hqin by (apply Hch; auto).
      apply in_split in Hpin. destruct Hpin as (l1 & l2 & Ep'). rewrite Ep' in Hqin. apply in_app_or in Hqin. destruct Hqin as [Hq1|[Hq1|Hq2]].
      + exfalso. apply in_split in Hq1. destruct Hq1 as (l3 & l4 & ->). rewrite <- app_assoc in Ep'. cbn [app] in Ep'.
        pose proof (child_pos dp pp ch' Hpp HD Hch Hchn Hfirst _ Hf Hfn df Hdl Hnum m _ _ _ _ Hr Ep') as H1.
        assert (ch' (Z.of_nat h) = (l3 ++ Z.of_nat q :: l4) ++ Z.of_nat p :: l2) as Ep'' by (rewrite <- app_assoc; exact Ep').
        pose proof (child_pos dp pp ch' Hpp HD Hch Hchn Hfirst _ Hf Hfn df Hdl Hnum m _ _ _ _ Hr Ep'') as H2.
        rewrite flat_map_app, zlen_app in H2. pose proof (zlen_nonneg (flat_map (sub (length dp) ch') (Z.of_nat q :: l4))). lia.
      + exfalso. assert (Z.of_nat p = Z.of_nat q) by congruence. rewrite <- Eb, <- Ecc, H in Hlt. lia.
      + rewrite <- (Nat2Z.id p), <- (Nat2Z.id q). exact (Hsorted _ l1 _ l2 _ Ep' Hq2).
  Qed.
End Main.
