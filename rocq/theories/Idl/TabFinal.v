(** The theorems on group catalogues in the form in which they are stated (C84), a sorting
    function, and example files. *)
From Coq Require Import QArith.
From Coq Require Import Ascii String.
From Coq Require Import Sorting.Permutation Sorting.Sorted.
From Verif Require Import Base.Prelude Base.ListLemmas Binary.BinModel Formats.FileSpec Formats.CatSpec.
From Verif Require Import Text.StrModel Text.StrSpec Text.PathSpec Fortran.RegionSpec Fortran.RegionFinal Fortran.GroupTabSpec.
From Verif Require Import Idl.LibModel Idl.LibSpec Idl.NumberProofs Idl.StdioProofs Idl.TabProofs.
From Verif Require Text.PathProofs.
From Coq Require Import ZifyBool ZifyNat.
Local Open Scope Z_scope. Local Open Scope list_scope.

(** *** a function which sorts *)
Fixpoint insert {A} (cmp : A -> A -> Z) (x : A) (l : list A) : list A :=
  match l with [] => [x] | y :: l' => if cmp x y <=? 0 then x :: l else y :: insert cmp x l' end.
Definition isort (A : Type) (cmp : A -> A -> Z) (l : list A) : list A := fold_right (insert cmp) [] l.
Lemma insert_perm {A} (cmp : A -> A -> Z) x l : Permutation (x :: l) (insert cmp x l).
Proof. induction l as [|y l IH]; [constructor; constructor|]. cbn [insert]. destruct (cmp x y <=? 0); [apply Permutation_refl|]. eapply perm_trans; [apply perm_swap|]. now constructor. Qed.
Lemma insert_sorted {A} (cmp : A -> A -> Z) x l : comparison cmp -> StronglySorted (fun a b => cmp a b <= 0) l -> StronglySorted (fun a b => cmp a b <= 0) (insert cmp x l).
Proof.
  intros (C1 & C2 & C3) H. induction H as [|y l HS IH HF]; [repeat constructor|]. cbn [insert]. destruct (Z.leb_spec (cmp x y) 0) as [L|L].
  - constructor; [now constructor|]. constructor; [exact L|]. eapply Forall_impl; [|exact HF]. cbn. intros z Hz. eapply C3; eassumption.
  - constructor; [exact IH|]. apply (Permutation_Forall (insert_perm cmp x l)). constructor; [|exact HF]. apply C2. lia.
Qed.
Lemma isort_sorts : sorts isort.
Proof.
  intros A cmp l HC. induction l as [|x l [IH1 IH2]]; [split; constructor|]. unfold isort in *. cbn [fold_right]. split; [|now apply insert_sorted].
  eapply perm_trans; [|apply insert_perm]. now constructor.
Qed.
(** one which puts equal elements in another order *)
Definition rsort (A : Type) (cmp : A -> A -> Z) (l : list A) : list A := isort A cmp (rev l).
Lemma rsort_sorts : sorts rsort.
Proof. intros A cmp l HC. destruct (isort_sorts A cmp (rev l) HC) as [H1 H2]. split; [|exact H2]. eapply perm_trans; [apply Permutation_rev | exact H1]. Qed.

(** *** files with names *)
Lemma file_is_intro fs dir stem num i content : 0 <= num -> 0 <= i -> fs (dir ++ lit "/" ++ stem ++ lit "_" ++ fmt_0d 3 num ++ lit "." ++ fmt_d i) = content -> file_is fs dir stem num i content.
Proof.
  intros Hn Hi H s3 s1 N3 N1. rewrite (number_unique 3 num s3 (fmt_0d 3 num)) by (lia || exact N3 || now apply number_3). rewrite (number_unique 1 i s1 (fmt_d i)) by (lia || exact N1 || now apply PathProofs.number_d). exact H.
Qed.
Definition stored (l : list (str * list Z)) (name : str) : option (list Z) :=
  match find (fun e => str_eqb (fst e) name) l with Some e => Some (snd e) | None => None end.

(** *** the theorems *)
Lemma last_default {A} (l : list A) x d d' : last (x :: l) d = last (x :: l) d'.
Proof. revert x. induction l as [|y l IH]; intro x; [reflexivity|]. exact (IH y). Qed.
Lemma last_in {A} (l : list A) x d : In (last (x :: l) d) (x :: l).
Proof. revert x. induction l as [|y l IH]; intro x; [now left|]. right. exact (IH y). Qed.
Lemma total_final little fs dir num cat cats : 0 <= num -> tab_files little fs dir num (cat :: cats) -> get_total_number_of_groups little fs dir num = Ok (signed (scalar cat "TotNgroups")).
Proof. intros Hn HF. now apply (total_ok little fs dir num (cat :: cats) Hn HF cat cats). Qed.
Lemma minimum_final little fs dir num cat cats : 0 <= num -> tab_files little fs dir num (cat :: cats) -> get_minimum_group_len little fs dir num = Ok (signed (scalar cat "GroupMinLen")).
Proof.
  intros Hn HF. rewrite (minimum_ok little fs dir num (cat :: cats) Hn HF cat cats eq_refl). f_equal. destruct (HF 0%nat cat eq_refl) as (content & extra & _ & H). destruct (tab_counts little cat extra content H) as (_ & C & _).
  unfold signed. destruct (Z.ltb_spec (scalar cat "GroupMinLen") (2 ^ 31)); lia.
Qed.
Definition fits (n : Z) (g : groups) : Prop := n <= zlen (g_len g) /\ n <= zlen (g_file g) /\ n <= zlen (g_nr g).
Lemma catalogue_final little fs qsort dir num cats fuel g (all := all_groups cats) : sorts qsort -> 0 <= num -> cats <> [] -> tab_files little fs dir num cats ->
  all_files_say "NTask" cats (zlen cats) -> all_files_say "TotNgroups" cats (zlen all) -> zlen all < 2 ^ 31 -> fits (zlen all) g -> (List.length cats < fuel)%nat ->
  exists table g', get_group_catalogue little fs qsort dir num fuel g = Ok (zlen all, g') /\
    Permutation all table /\ StronglySorted (fun a b => fst (fst b) <= fst (fst a)) table /\
    g_len g' = map (fun t => fst (fst t)) table ++ skipn (List.length all) (g_len g) /\
    g_file g' = map (fun t => snd (fst t)) table ++ skipn (List.length all) (g_file g) /\
    g_nr g' = map snd table ++ skipn (List.length all) (g_nr g).
Proof.
  intros HS Hn Hne HF HT HG Hmax Hg Hf. destruct (catalogue_ok little fs dir num cats Hn HF (zlen cats) HT (Z.le_refl _) qsort HS g fuel eq_refl Hne Hf HG Hmax Hg) as (table & P & S & E). fold all in E, P.
  exists table. eexists. split; [exact E|]. split; [exact P|]. split; [exact S|]. cbn [gs drop g_len g_file g_nr]. rewrite (Permutation_length P). repeat split.
Qed.
Lemma below_final little fs dir num cat cats fuel junk counts ids0 (all := cat :: cats) (m := signed (scalar cat "GroupMinLen")) : 0 <= num -> tab_files little fs dir num all -> all_files_say "NTask" all (zlen all) ->
  Forall (fun c => signed (scalar c "GroupMinLen") <= m) all -> m <= zlen counts -> (List.length all < fuel)%nat ->
  get_groupcount_below_minimum_len little fs dir num fuel junk counts ids0 =
  Ok {| b_ret := signed (scalar (last all cat) "GroupMinLen"); b_count := map (groups_of_size all) (zseq 0 (Z.to_nat m)) ++ skipn (Z.to_nat m) counts; b_ids := all_ids all |}.
Proof.
  intros Hn HF HT Hm Hc Hf.
  assert (forall c, In c all -> signed (scalar c "GroupMinLen") = scalar c "GroupMinLen") as HS.
  { intros c Hin. apply In_nth_error in Hin. destruct Hin as (i & Ei). destruct (HF i c Ei) as (content & extra & _ & H). destruct (tab_counts little c extra content H) as (_ & C & _). unfold signed. destruct (Z.ltb_spec (scalar c "GroupMinLen") (2 ^ 31)); lia. }
  assert (m = scalar cat "GroupMinLen") as Em by (apply HS; now left).
  rewrite (below_ok little fs dir num all Hn HF (zlen all) HT (Z.le_refl _) cat cats fuel junk counts ids0 eq_refl eq_refl Hf); [|rewrite Forall_forall in *; intros c Hin; rewrite <- (HS c Hin), <- Em; now apply Hm | lia].
  rewrite <- Em. do 2 f_equal.
  - rewrite HS by apply last_in. unfold last_min, all. cbn [fold_left]. clear. revert cat. induction cats as [|c l IH]; intro cat; [reflexivity|]. cbn [fold_left]. rewrite IH. rewrite (last_default l c c cat). reflexivity.
  - f_equal. unfold sums. apply map_ext. intro k. unfold groups_of_size. f_equal. apply map_ext. intro c. unfold count_of. change 0 with (signed 0) at 1. apply map_nth.
Qed.
Lemma missing_final little fs qsort dir num : 0 <= num -> file_is fs dir (lit "group_tab") num 0 None ->
  get_total_number_of_groups little fs dir num = Ok (-1) /\ get_minimum_group_len little fs dir num = Ok (-1) /\
  (forall fuel junk counts ids, get_groupcount_below_minimum_len little fs dir num fuel junk counts ids = Ok {| b_ret := -1; b_count := counts; b_ids := ids |}) /\
  (forall fuel g, get_group_catalogue little fs qsort dir num fuel g = Ok (-1, g)).
Proof. intros Hn H. exact (first_missing little fs dir num Hn qsort H). Qed.
Lemma missing_later_final little fs qsort dir num cats n : 0 <= num -> cats <> [] -> tab_files little fs dir num cats -> all_files_say "NTask" cats n -> zlen cats < n -> file_is fs dir (lit "group_tab") num (zlen cats) None ->
  (forall fuel g, (List.length cats < fuel)%nat -> fits (zlen (all_groups cats)) g -> zlen (all_groups cats) < 2 ^ 31 -> exists g', get_group_catalogue little fs qsort dir num fuel g = Ok (-1, g')) /\
  (forall cat rest fuel junk counts ids, cats = cat :: rest -> (List.length cats < fuel)%nat -> Forall (fun c => signed (scalar c "GroupMinLen") <= signed (scalar cat "GroupMinLen")) cats -> signed (scalar cat "GroupMinLen") <= zlen counts ->
     exists counts', get_groupcount_below_minimum_len little fs dir num fuel junk counts ids = Ok {| b_ret := -1; b_count := counts'; b_ids := ids |}).
Proof.
  intros Hn Hne HF HT Hlt HM. split.
  - intros fuel g Hf Hg Hmax. eapply later_missing; try eassumption. lia.
  - intros cat rest fuel junk counts ids E Hf Hm Hc.
    assert (forall c, In c cats -> signed (scalar c "GroupMinLen") = scalar c "GroupMinLen") as HS.
    { intros c Hin. apply In_nth_error in Hin. destruct Hin as (i & Ei). destruct (HF i c Ei) as (content & extra & _ & H). destruct (tab_counts little c extra content H) as (_ & C & _). unfold signed. destruct (Z.ltb_spec (scalar c "GroupMinLen") (2 ^ 31)); lia. }
    assert (In cat cats) as Hin by (rewrite E; now left).
    eapply (below_missing little fs dir num cats Hn HF n HT ltac:(lia) cat rest); try eassumption; [rewrite Forall_forall in *; intros c Hc'; rewrite <- (HS c Hc'), <- (HS cat Hin); now apply Hm | rewrite <- (HS cat Hin); exact Hc].
Qed.

(** *** examples *)
Definition ex_cat (lens offsets counts : list Z) (ids tot ntask : Z) : catalogue := fun name =>
  if String.eqb name "Ngroups" then [zlen lens] else if String.eqb name "Nids" then [ids] else if String.eqb name "TotNgroups" then [tot] else if String.eqb name "NTask" then [ntask]
  else if String.eqb name "GroupLen" then lens else if String.eqb name "GroupOffset" then offsets else if String.eqb name "GroupMinLen" then [zlen counts] else if String.eqb name "Count" then counts else [].
Definition ex_file (lf : bool) (cat : catalogue) : list Z := file_bytes lf (pieces_of cat L2_group_tab) ++ [8; 8].
Lemma ex_file_ok lf cat : forallb piece_okb (pieces_of cat L2_group_tab) = true -> forallb (fun fd => forallb (fun d => match d with Fixed _ => true | Of name => (0 <=? scalar cat name) && (scalar cat name <? 2 ^ 31) end) (fd_dims fd)) L2_group_tab = true ->
  catalogue_file lf L2_group_tab cat [8; 8] (ex_file lf cat).
Proof.
  intros H1 H2. split; [|reflexivity]. split; [now apply pieces_okb|]. rewrite forallb_forall in H2. apply Forall_forall. intros fd Hfd. specialize (H2 fd Hfd). rewrite forallb_forall in H2. apply Forall_forall. intros d Hd. specialize (H2 d Hd). destruct d; [exact I | lia].
Qed.
Definition ex_a : catalogue := ex_cat [5; 9] [0; 5] [7; 3; 0] 14 3 2.
Definition ex_b : catalogue := ex_cat [7] [0] [1; 4; 2] 7 3 2.
Definition ex_c : catalogue := ex_cat [7] [0] [1; 4; 2; 9] 7 3 2.
Definition ex_fs (l : list catalogue) : str -> option (list Z) := stored (map (fun '(i, cat) => (lit "/data/group_tab_007." ++ fmt_d i, ex_file false cat)) (numbered l)).
Lemma ex_files : tab_files false (ex_fs [ex_a; ex_b]) (lit "/data") 7 [ex_a; ex_b].
Proof.
  intros i cat E. exists (ex_file false cat), [8; 8]. destruct i as [|[|i]]; cbn [nth_error] in E.
  - injection E as <-. split; [apply file_is_intro; [lia | lia | vm_compute; reflexivity] | apply ex_file_ok; vm_compute; reflexivity].
  - injection E as <-. split; [apply file_is_intro; [lia | lia | vm_compute; reflexivity] | apply ex_file_ok; vm_compute; reflexivity].
  - destruct i; discriminate E.
Qed.
Lemma ex_files2 : tab_files false (ex_fs [ex_a; ex_c]) (lit "/data") 7 [ex_a; ex_c].
Proof.
  intros i cat E. exists (ex_file false cat), [8; 8]. destruct i as [|[|i]]; cbn [nth_error] in E.
  - injection E as <-. split; [apply file_is_intro; [lia | lia | vm_compute; reflexivity] | apply ex_file_ok; vm_compute; reflexivity].
  - injection E as <-. split; [apply file_is_intro; [lia | lia | vm_compute; reflexivity] | apply ex_file_ok; vm_compute; reflexivity].
  - destruct i; discriminate E.
Qed.
Lemma ex_files3 : tab_files false (ex_fs [ex_a]) (lit "/data") 7 [ex_a] /\ file_is (ex_fs [ex_a]) (lit "/data") (lit "group_tab") 7 1 None.
Proof.
  split; [|apply file_is_intro; [lia | lia | vm_compute; reflexivity]]. intros i cat E. exists (ex_file false cat), [8; 8]. destruct i as [|i]; cbn [nth_error] in E; [|destruct i; discriminate E].
  injection E as <-. split; [apply file_is_intro; [lia | lia | vm_compute; reflexivity] | apply ex_file_ok; vm_compute; reflexivity].
Qed.
Lemma below_refuted : exists fs cats, tab_files false fs (lit "/data") 7 cats /\ all_files_say "NTask" cats (zlen cats) /\
  get_groupcount_below_minimum_len false fs (lit "/data") 7 5 0 (repeat 0 100) 0 = Err EAbort.
Proof. exists (ex_fs [ex_a; ex_c]), [ex_a; ex_c]. split; [exact ex_files2|]. split; [repeat constructor|]. vm_compute. reflexivity. Qed.
