(** Proofs about util.match. *)
From Verif.Base Require Import Prelude ListLemmas Order.
From Verif.Util Require Import UMatchModel.
From Coq Require Import ZifyBool ZifyNat.
Local Open Scope Z_scope.

Lemma nth_map_zseq {A} (l : list A) (idx : list Z) d k : (k < length idx)%nat -> nth k (map (fun i => nth (Z.to_nat i) l d) idx) d = nth (Z.to_nat (nth k idx 0)) l d.
Proof. intro H. rewrite (nth_indep _ d ((fun i => nth (Z.to_nat i) l d) 0)) by (now rewrite map_length). apply (map_nth (fun i => nth (Z.to_nat i) l d)). Qed.

Section P.
  Context {A : Type} (Od : TOrd A).
  (** the entry returned for a value, given which positions of arr2 are searched *)
  Definition entry_ok (arr2 : list A) (idx : list Z) (x : A) (j : Z) : Prop :=
    (j = -1 /\ forall i, In i idx -> nth_error arr2 (Z.to_nat i) <> Some x) \/
    (In j idx /\ nth_error arr2 (Z.to_nat j) = Some x).

  (** the part of the function after line 46, for one element *)
  Lemma lookup_ok (arr2 : list A) idx d x : (forall i, In i idx -> 0 <= i < zlen arr2) -> idx <> [] ->
    let tmp2 := map (fun i => nth (Z.to_nat i) arr2 d) idx in
    sorted Od tmp2 ->
    let p0 := searchsorted_left Od tmp2 x in
    let p1 := if zlen tmp2 <=? p0 then 0 else p0 in
    let p2 := if p1 <? 0 then 0 else p1 in
    0 <= p2 < zlen idx /\
    let p3 := if negb (eqb Od (nth (Z.to_nat p2) tmp2 d) x) then -1 else p2 in
    entry_ok arr2 idx x (if 0 <=? p3 then nth (Z.to_nat p3) idx 0 else -1).
  Proof.
    intros Hidx Hne tmp2 Hs p0 p1 p2. assert (length tmp2 = length idx) as Hl by apply map_length.
    assert (0 < zlen idx) as Hpos by (unfold zlen; destruct idx; [congruence | cbn; lia]).
    pose proof (ssl_bounds Od tmp2 x) as Hb. fold p0 in Hb.
    assert (zlen tmp2 = zlen idx) as Hz by (unfold zlen; lia).
    assert (0 <= p2 < zlen idx) as H2 by (unfold p2, p1; destruct (Z.leb_spec (zlen tmp2) p0); destruct (Z.ltb_spec (if zlen tmp2 <=? p0 then 0 else p0) 0); destruct (Z.ltb_spec 0 0); destruct (Z.ltb_spec p0 0); lia).
    split; [exact H2|]. intro p3. unfold p3.
    assert (nth (Z.to_nat p2) tmp2 d = nth (Z.to_nat (nth (Z.to_nat p2) idx 0)) arr2 d) as Ev by (apply nth_map_zseq; unfold zlen in *; lia).
    assert (In (nth (Z.to_nat p2) idx 0) idx) as Hin by (apply nth_In; unfold zlen in *; lia).
    destruct (eqb Od (nth (Z.to_nat p2) tmp2 d) x) eqn:E; cbn [negb].
    - apply eqb_eq in E. destruct (Z.leb_spec 0 p2); [|lia]. right. split; [assumption|].
      rewrite (nth_error_nth' _ d) by (specialize (Hidx _ Hin); unfold zlen in *; lia). now rewrite <- Ev, E.
    - cbn [Z.leb]. left. split; [reflexivity|]. intros i Hi Hx. apply eqb_neq in E.
      apply (In_nth _ _ 0) in Hi. destruct Hi as (k & Hk & <-).
      assert (nth k tmp2 d = x) as Hkx by (unfold tmp2; rewrite nth_map_zseq by assumption; now apply nth_error_nth).
      destruct (Z_lt_le_dec (Z.of_nat k) p0) as [Hlt|Hge].
      + pose proof (ssl_before Od tmp2 x k d Hlt) as Hb'. rewrite Hkx, ltb_irrefl in Hb'. discriminate.
      + assert (p2 = p0) as Hp by (unfold p2, p1; destruct (Z.leb_spec (zlen tmp2) p0); [unfold zlen in *; lia|]; destruct (Z.ltb_spec p0 0); lia).
        pose proof (ssl_after Od tmp2 x (Z.to_nat p0) d Hs ltac:(lia) ltac:(unfold zlen in *; lia)) as Ha.
        assert (leb Od (nth (Z.to_nat p0) tmp2 d) x = true) as Hle.
        { rewrite <- Hkx. destruct (Nat.eq_dec (Z.to_nat p0) k) as [<-|Hnk]; [apply leb_refl|].
          assert (Z.to_nat p0 < k)%nat as Hpk by lia. clear -Hs Hpk Hk Hl. assert (k < length tmp2)%nat as Hk' by lia. clear Hk Hl. revert Hs Hpk Hk'. generalize (Z.to_nat p0) as m. generalize tmp2 as l. clear. intro l. revert k.
          induction l as [|y l IH]; intros k m Hs Hm Hk; [cbn in Hk; lia|]. inversion Hs as [|? ? Hs' Hf]; subst. destruct k as [|k]; [lia|]. destruct m as [|m]; cbn [nth].
          - rewrite Forall_forall in Hf. apply Hf. apply nth_In. cbn in Hk. lia.
          - apply IH; [assumption | lia | cbn in Hk; lia]. }
        apply E. rewrite Hp. apply (leb_antisym _ Od); [assumption|]. try (apply ltb_false_leb); assumption.
  Qed.

  (** any sorting index: a permutation that sorts arr2, or one that selects and sorts
      some of its elements *)
  Lemma match_general argsorted (arr2_sorted : bool) (arr2_index : option (list Z)) (arr1 arr2 : list A) idx d :
    idx = (if arr2_sorted then zseq 0 (length arr2) else match arr2_index with None => argsorted | Some i => i end) ->
    arr2 <> [] -> (forall i, In i idx -> 0 <= i < zlen arr2) -> idx <> [] ->
    sorted Od (map (fun i => nth (Z.to_nat i) arr2 d) idx) ->
    exists out, match_ Od argsorted arr2_sorted arr2_index arr1 arr2 = Ok out /\ Forall2 (entry_ok arr2 idx) arr1 out.
  Proof.
    intros Eidx Hne Hidx Hnn Hs. unfold match_. destruct (Z.eqb_spec (zlen arr2) 0) as [H0|H0]; [apply zlen_0_nil in H0; congruence|].
    set (tmp2 := map (fun i => nth (Z.to_nat i) arr2 d) idx) in *.
    match goal with |- context [bind ?m _] => assert (m = Ok (tmp2, idx)) as Et end.
    { destruct arr2_sorted; [unfold tmp2; rewrite Eidx, (map_nth_zseq arr2 d); reflexivity|]. cbv zeta. rewrite <- Eidx, (np_take_ok _ _ d) by assumption. reflexivity. }
    rewrite Et. cbn [bind]. clear Et. rewrite !map_map. cbv zeta.
    set (f := fun x : A => let p := (if zlen tmp2 <=? searchsorted_left Od tmp2 x then 0 else searchsorted_left Od tmp2 x) in if p <? 0 then 0 else p).
    match goal with |- context [map ?g arr1] => change g with f end. pose proof (fun x => lookup_ok arr2 idx d x Hidx Hnn Hs) as HL. fold tmp2 in HL.
    assert (forall x, 0 <= f x < zlen idx /\ entry_ok arr2 idx x (if 0 <=? (if negb (eqb Od (nth (Z.to_nat (f x)) tmp2 d) x) then -1 else f x) then nth (Z.to_nat (if negb (eqb Od (nth (Z.to_nat (f x)) tmp2 d) x) then -1 else f x)) idx 0 else -1)) as HL' by (intro x; exact (HL x)). clear HL. rename HL' into HL. clearbody f.
    assert (zlen tmp2 = zlen idx) as Hz by apply zlen_map.
    rewrite (np_take_ok tmp2 _ d) by (intros i Hi; apply in_map_iff in Hi; destruct Hi as (x & <- & _); rewrite Hz; apply HL). cbn [bind].
    rewrite (np_take_ok _ idx 0) by (intros i Hi; rewrite zlen_zseq; apply Hidx in Hi; unfold zlen in *; lia). cbn [bind].
    assert (map (fun i => nth (Z.to_nat i) (zseq 0 (length arr2)) 0) idx = idx) as Ei.
    { rewrite <- (map_id idx) at 2. apply map_ext_in. intros i Hi. apply Hidx in Hi. rewrite nth_zseq by (unfold zlen in *; lia). lia. }
    rewrite Ei. clear Ei. rewrite map_map.
    set (p3 := fun x => if negb (eqb Od (nth (Z.to_nat (f x)) tmp2 d) x) then -1 else f x).
    assert (zipwith (fun (va : A * A) p => if negb (eqb Od (fst va) (snd va)) then -1 else p) (combine (map (fun x => nth (Z.to_nat (f x)) tmp2 d) arr1) arr1) (map f arr1) = map p3 arr1) as E3.
    { clear. induction arr1 as [|x l IH]; [reflexivity|]. cbn [map combine zipwith fst snd]. now rewrite IH. }
    rewrite E3. clear E3. 
    assert (exists taken, np_take idx (map p3 arr1) = Ok taken /\ Forall2 (fun x t => 0 <= p3 x -> t = nth (Z.to_nat (p3 x)) idx 0) arr1 taken) as (taken & Etk & Htk).
    { clear -HL Hz. induction arr1 as [|x l (tk & E & H)]; [exists []; split; [reflexivity | constructor]|]. cbn [map np_take mapM].
      assert (exists t, py_nth idx (p3 x) = Ok t /\ (0 <= p3 x -> t = nth (Z.to_nat (p3 x)) idx 0)) as (t & E1 & H1).
      { destruct (HL x) as [Hb _]. unfold p3. destruct (negb _).
        - assert (0 < zlen idx) by lia. exists (nth (Z.to_nat (-1 + zlen idx)) idx 0). split; [|lia].
          unfold py_nth. cbn [Z.ltb Z.compare]. destruct (Z.ltb_spec (-1 + zlen idx) 0); [lia|]. destruct (Z.leb_spec (zlen idx) (-1 + zlen idx)); [lia|]. cbn [orb]. rewrite (nth_error_nth' _ 0) by (unfold zlen in *; lia). reflexivity.
        - exists (nth (Z.to_nat (f x)) idx 0). split; [now apply py_nth_ok | reflexivity]. }
      unfold np_take in E. exists (t :: tk). rewrite E1, E. cbn [bind]. split; [reflexivity | now constructor]. }
    rewrite Etk. cbn [bind]. eexists. split; [reflexivity|].
    clear Etk. induction Htk as [|x t l tk H1 H2 IH]; [constructor|]. cbn [map zipwith]. constructor; [|exact IH].
    destruct (HL x) as [_ He]. fold (p3 x) in He. destruct (Z.leb_spec 0 (p3 x)); [now rewrite H1 | exact He].
  Qed.

  Definition entry_all (arr2 : list A) (x : A) (j : Z) : Prop := (j = -1 /\ ~ In x arr2) \/ (0 <= j /\ nth_error arr2 (Z.to_nat j) = Some x).
  Lemma entry_perm arr2 idx x j : (forall i, In i idx <-> 0 <= i < zlen arr2) -> entry_ok arr2 idx x j -> entry_all arr2 x j.
  Proof.
    intros Hidx [[-> H]|[H1 H2]]; [left | right].
    - split; [reflexivity|]. intro Hin. apply In_nth_error in Hin. destruct Hin as (k & Hk). apply (H (Z.of_nat k)); [|now rewrite Nat2Z.id]. apply Hidx. assert (k < length arr2)%nat by (apply nth_error_Some; congruence). unfold zlen. lia.
    - split; [apply Hidx in H1; lia | assumption].
  Qed.
  Lemma match_main argsorted (arr2_sorted : bool) (arr2_index : option (list Z)) (arr1 arr2 : list A) :
    (if arr2_sorted then sorted Od arr2 else is_argsort Od arr2 (match arr2_index with None => argsorted | Some i => i end)) ->
    exists out, match_ Od argsorted arr2_sorted arr2_index arr1 arr2 = Ok out /\ Forall2 (entry_all arr2) arr1 out.
  Proof.
    intro H. destruct arr2 as [|d arr2'] eqn:E2.
    - exists (map (fun _ => -1) arr1). split; [reflexivity|]. clear. induction arr1 as [|x l IH]; cbn [map]; constructor; [|assumption]. left. split; [reflexivity | intros []].
    - rewrite <- E2 in *. assert (arr2 <> []) as Hne by congruence.
      set (idx := if arr2_sorted then zseq 0 (length arr2) else match arr2_index with None => argsorted | Some i => i end).
      assert (forall i, In i idx <-> 0 <= i < zlen arr2) as Hidx.
      { intro i. unfold idx. destruct arr2_sorted; [rewrite In_zseq; unfold zlen; lia|]. split; [apply (is_argsort_In Od); assumption|]. intro Hi. destruct H as [HP _]. apply (Permutation_in _ (Permutation_sym HP)). apply In_zseq. unfold zlen in Hi. lia. }
      destruct (match_general argsorted arr2_sorted arr2_index arr1 arr2 idx d eq_refl Hne) as (out & E & F).
      + intros i Hi. now apply Hidx.
      + intro E. specialize (Hidx 0). rewrite E in Hidx. destruct Hidx as [_ Hidx]. apply Hidx. rewrite E2. unfold zlen. cbn. lia.
      + unfold idx. destruct arr2_sorted; [now rewrite (map_nth_zseq arr2 d) | now apply is_argsort_sorted].
      + exists out. split; [assumption|]. clear -F Hidx. induction F as [|x j l o H1 H2 IH]; constructor; [now apply entry_perm with idx | exact IH].
  Qed.
End P.
