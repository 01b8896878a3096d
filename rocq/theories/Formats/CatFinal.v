(** Opening catalogues and L-Gadget2 snapshots. *)
From Coq Require Import Ascii String.
From Verif.Base Require Import Prelude ListLemmas Order.
From Verif.Binary Require Import BinModel NameProofs LayoutProofs EndianProofs FortranProofs UsedProofs TreeProofs.
From Verif.Formats Require Import ReaderModel FileSpec ReaderProofs RunProofs CatSpec CatProofs SnapProofs.
From Coq Require Import ZifyBool ZifyNat.
Local Open Scope Z_scope.

(** the outcome of opening a file which consists of the given pieces and some bytes after them *)
Definition opens (p : prog) (pieces : list piece) (little lf : bool) (rest : list Z) : Prop :=
  let content := file_bytes lf pieces ++ rest in
  exists f, open_file little content p = (f, Ok tt) /\ reads_back little content pieces f /\ order_is little lf f /\ (all_bytes_used content f = true <-> rest = []).

Lemma bytes_ne lf pieces p rest : In p pieces -> 0 < zlen (piece_bytes lf p) -> file_bytes lf pieces ++ rest <> [].
Proof.
  intros Hin Hp E. apply app_eq_nil in E. destruct E as [E _]. unfold file_bytes in E. apply in_split in Hin. destruct Hin as (a & b & ->). rewrite map_app in E. cbn [map] in E. rewrite concat_app in E. cbn [concat] in E. apply app_eq_nil in E. destruct E as [_ E]. apply app_eq_nil in E. destruct E as [E _]. rewrite E in Hp. unfold zlen in Hp. cbn in Hp. lia.
Qed.
Lemma opens_intro p pieces little lf rest : (let content := file_bytes lf pieces ++ rest in content <> [] -> runs little lf content rest start_state p pieces (successP little lf content rest (filter is_data pieces) 0)) -> (exists q, In q pieces /\ 0 < zlen (piece_bytes lf q)) -> opens p pieces little lf rest.
Proof.
  cbv zeta. intros H (q & Hq & Hz). unfold opens. pose proof (bytes_ne lf pieces q rest Hq Hz) as Hne. set (content := file_bytes lf pieces ++ rest) in *. specialize (H Hne). specialize (H new_file (start_inv little lf content rest Hne pieces eq_refl)). unfold open_file.
  destruct (exec little content p new_file) as [f r]. cbn [fst snd] in H. destruct H as (-> & st & K & Hr & Hg & Hi). exists f. split; [reflexivity|].
  destruct (inv_reads little lf content rest Hne st f pieces Hi Hr) as [H1 H2].
  { intro x. unfold knowsP in K. rewrite K. symmetry. apply filter_In. }
  split; [exact H1|]. split; [exact H2|]. now apply (inv_used little lf content rest Hne st).
Qed.
Lemma filter_all {A} (p : A -> bool) l : Forall (fun x => p x = true) l -> filter p l = l.
Proof. induction l as [|x l IH]; intro H; [reflexivity|]. apply Forall_cons_iff in H. destruct H as [Hx H]. cbn. rewrite Hx. f_equal. now apply IH. Qed.
Lemma data_pieces cat l : filter is_data (pieces_of cat l) = pieces_of cat l.
Proof. apply filter_all. unfold pieces_of. apply Forall_map. apply Forall_forall. reflexivity. Qed.
Lemma success_P little lf content post cat l : forall f r, success little lf content post cat l f r -> successP little lf content post (pieces_of cat l) 0 f r.
Proof. intros f r H. exact H. Qed.
Lemma some_bytes lf cat l fd : Forall piece_ok (pieces_of cat l) -> In fd l -> fd_dims fd = [] -> exists q, In q (pieces_of cat l) /\ 0 < zlen (piece_bytes lf q).
Proof.
  intros Hok Hin Hd. exists (data_of cat fd). assert (In (data_of cat fd) (pieces_of cat l)) as Hi by now apply in_map. split; [exact Hi|]. rewrite Forall_forall in Hok. specialize (Hok _ Hi). unfold data_of in *. rewrite Hd in *. cbn [map piece_ok fold_left] in Hok. destruct Hok as (H1 & _ & H2 & _). cbn [piece_bytes]. rewrite vals_bytes_len by lia. nia.
Qed.
Lemma nfiles_in p nf l : reads p nf l -> In (one nf 4) l.
Proof. intros []; try destruct so; try destruct sh; repeat (first [left; reflexivity | right]). Qed.

Lemma catalogue_opens p nf l cat little lf rest : reads p nf l -> consistent cat l -> 1 <= scalar cat nf <= 65535 -> opens p (pieces_of cat l) little lf rest.
Proof.
  intros R C N. apply opens_intro.
  - cbv zeta. intro Hne. rewrite data_pieces. intros f Hi. apply success_P. now apply (catalogue_runs little lf _ rest Hne cat p nf l R C N).
  - apply (some_bytes lf cat l (one nf 4)); [apply C | now apply nfiles_in with (p := p) | reflexivity].
Qed.

(** *** merger trees, in the byte order of the machine *)
Section Mpa.
  Variables (little : bool) (content post : list Z).
  Hypothesis Hne : content <> [].
  Variable cat : catalogue.
  Set Default Proof Using "All".
  Local Notation runs := (runs little little content post).
  Lemma native_right : rightly little little NAT = true. Proof. unfold rightly. destruct little; reflexivity. Qed.
  Lemma start_knows : knows cat [] start_state. Proof. reflexivity. Qed.
  Ltac chunk C :=
    match goal with |- ReaderProofs.runs _ _ _ _ ?st (adds ?a ?k) (pieces_of _ ?rest) ?Q =>
      let n := eval cbn in (List.length a) in let l' := eval cbn [firstn] in (firstn n rest) in let r := eval cbn [skipn] in (skipn n rest) in
      change (adds a k) with (adds (map (call cat) l') k); change (pieces_of cat rest) with (pieces_of cat (l' ++ r));
      let st' := fresh "st" in let K := fresh "K" in let E1 := fresh "E" in let E2 := fresh "E" in
      eapply (runs_chunk little little content post Hne cat l'); [eassumption | vm_compute; reflexivity | exact C | eexists; reflexivity | intros st' K E1 E2 _ _; cbn [app] in K; try rewrite <- E1 in *; try rewrite <- E2 in *]
    end.
  Ltac inlist := repeat (first [left; reflexivity | right]).
  Ltac count C := eapply (runs_count little little content post Hne cat); [eassumption | inlist | exact C | eexists; reflexivity | assumption |]; cbv zeta beta; rewrite ?(i32_count little little content post Hne cat) by assumption.
  Lemma sub_desc_runs : consistent cat MPA_sub_desc -> runs start_state mpa_sub_desc (pieces_of cat MPA_sub_desc) (success little little content post cat MPA_sub_desc).
  Proof.
    intro C. pose proof C as [Cok _]. pose proof (count_ok little little content post Hne cat _ "TotNsubhalos" C eq_refl) as Cn. pose proof start_knows as K. assert (rightly little little (l_cur start_state) = true) as Hr by exact native_right. assert (l_gap start_state = 0) as Ht by reflexivity.
    unfold mpa_sub_desc, MPA_sub_desc in *. chunk Cok. count Cok. chunk Cok. apply runs_success; assumption.
  Qed.
  Lemma tree_aux_runs id : id_size id -> consistent cat (MPA_tree_aux id) -> runs start_state (mpa_tree_aux id) (pieces_of cat (MPA_tree_aux id)) (success little little content post cat (MPA_tree_aux id)).
  Proof.
    intros H C. pose proof C as [Cok _]. pose proof (count_ok little little content post Hne cat _ "TotHalos" C eq_refl) as C1. pose proof (count_ok little little content post Hne cat _ "Totunique" C eq_refl) as C2. pose proof (count_ok little little content post Hne cat _ "Ntrees" C eq_refl) as C3. pose proof (count_ok little little content post Hne cat _ "TotSnaps" C eq_refl) as C4.
    pose proof start_knows as K. assert (rightly little little (l_cur start_state) = true) as Hr by exact native_right. assert (l_gap start_state = 0) as Ht by reflexivity.
    unfold mpa_tree_aux, MPA_tree_aux in *. rewrite id_ok by assumption. chunk Cok. count Cok. count Cok. count Cok. count Cok. chunk Cok. apply runs_success; assumption.
  Qed.
End Mpa.
Inductive reads_native : prog -> list field -> Prop :=
  | rn_sub_desc : reads_native mpa_sub_desc MPA_sub_desc
  | rn_tree_aux id : id_size id -> reads_native (mpa_tree_aux id) (MPA_tree_aux id).
Lemma native_opens p l cat little rest : reads_native p l -> consistent cat l -> opens p (pieces_of cat l) little little rest.
Proof.
  intros R C. destruct R; apply opens_intro.
  - cbv zeta. intro Hne. rewrite data_pieces. intros f Hi. apply success_P. now apply (sub_desc_runs little _ rest Hne cat C).
  - apply (some_bytes little cat _ (one "TotNsubhalos" 4)); [apply C | now left | reflexivity].
  - cbv zeta. intro Hne. rewrite data_pieces. intros f Hi. apply success_P. now apply (tree_aux_runs little _ rest Hne cat id H C).
  - apply (some_bytes little cat _ (one "TotHalos" 4)); [apply C | now left | reflexivity].
Qed.

(** *** L-Gadget2 group ids *)
Lemma group_ids_fails little content id : snd (open_file little content (lgadget2_group_ids id)) = Err EKey.
Proof. reflexivity. Qed.

(** *** Fortran records *)
Lemma data_record l : filter is_data (record l) = filter is_data l.
Proof. unfold record. cbn [filter is_data]. rewrite filter_app. cbn. apply app_nil_r. Qed.
Lemma data_each l : filter is_data (one_each l) = filter is_data l.
Proof. induction l as [|p l IH]; [reflexivity|]. cbn [one_each flat_map]. rewrite filter_app, data_record. fold (one_each l). rewrite IH. cbn. destruct (is_data p); reflexivity. Qed.
Definition declared (p : piece) : Z := match p with Data _ _ size shape _ => size * fold_left Z.mul shape 1 | Mark _ => 4 | Raw b => zlen b end.
Lemma declared_size p : piece_ok p -> piece_size p = declared p.
Proof. destruct p; cbn; try reflexivity. intros (_ & _ & -> & _). reflexivity. Qed.
Lemma declared_sum l : Forall piece_ok l -> sumZ (map piece_size l) = sumZ (map declared l).
Proof. induction l as [|p l IH]; intro H; [reflexivity|]. apply Forall_cons_iff in H. destruct H as [Hp H]. cbn [map sumZ]. now rewrite declared_size, IH. Qed.
Definition as_item (cat : catalogue) (fd : field) : item := (nm (fd_name fd), fd_size fd, map (extent cat) (fd_dims fd), cat (fd_name fd)).
Lemma as_item_piece cat l : map (as_piece false) (map (as_item cat) l) = pieces_of cat l.
Proof. rewrite map_map. reflexivity. Qed.
Lemma as_item_attr cat l : map (as_piece true) (map (as_item cat) l) = map (attr_of cat) l.
Proof. rewrite map_map. reflexivity. Qed.
Lemma ok_record l : records_ok (record l) -> Forall piece_ok l /\ 0 <= sumZ (map piece_size l) < 2 ^ 31.
Proof.
  intros [H1 H2]. unfold record in *. apply Forall_cons_iff in H1, H2. destruct H1 as [H1 H1'], H2 as [H2 _]. apply Forall_app in H1'. split; [apply H1'|]. cbn [piece_ok] in H1. lia.
Qed.
Lemma ok_app l m : records_ok (l ++ m) <-> records_ok l /\ records_ok m.
Proof. unfold records_ok. rewrite !Forall_app. tauto. Qed.
Lemma one_value cat name size : piece_ok (Data (nm name) false size [] (cat name)) -> cat name = [scalar cat name] /\ 0 <= scalar cat name < 256 ^ size.
Proof. intros (_ & _ & H & Hv). unfold scalar. cbn [fold_left] in H. destruct (cat name) as [|x [|y t]]; unfold zlen in H; cbn [List.length] in H; try lia. split; [reflexivity|]. now apply Forall_cons_iff in Hv. Qed.

Section Records.
  Variables (little lf : bool) (content post : list Z).
  Hypothesis Hne : content <> [].
  Variable cat : catalogue.
  Set Default Proof Using "All".
  Local Notation runs := (runs little lf content post).
  Local Notation right e := (rightly little lf e).
  Ltac inlist := repeat (first [left; reflexivity | right]).
  Lemma gadget4_runs id : id_size id -> records_ok (G4_sub_tab id cat) -> scalar cat "Ngroups" < 2 ^ 31 -> scalar cat "Nsubgroups" < 2 ^ 31 ->
    runs start_state (gadget4_sub_tab id) (G4_sub_tab id cat) (successP little lf content post (filter is_data (G4_sub_tab id cat)) 0).
  Proof.
    intros Hid Hok Cg Cs. unfold gadget4_sub_tab. rewrite id_ok by exact Hid. unfold G4_sub_tab in *. cbv zeta in *. set (fl := if scalar cat "flag_dp" =? 0 then 4 else 8) in *.
    apply ok_app in Hok. destruct Hok as [Hok1 Hok]. apply ok_app in Hok. destruct Hok as [Hok2 Hok3]. apply ok_record in Hok1. destruct Hok1 as [Hh _].
    rewrite !filter_app, data_record, data_pieces. set (Q := successP _ _ _ _ _ _).
    assert (forall name, In (one name 4) G4_header -> cat name = [scalar cat name] /\ 0 <= scalar cat name < 256 ^ 4) as Hsc.
    { intros name Hin. apply (one_value cat name 4). rewrite Forall_forall in Hh. apply Hh. change (Data (nm name) false 4 [] (cat name)) with (data_of cat (one name 4)). now apply in_map. }
    assert (sumZ (map piece_size (pieces_of cat G4_header)) = 88) as Hsz by (rewrite declared_sum by exact Hh; reflexivity).
    rewrite <- (as_item_piece cat G4_header) in *.
    match goal with |- runs _ (Start true (adds ?a (End_ ?k))) _ _ => change (Start true (adds a (End_ k))) with (Start true (add_all false (map as_call (map (as_item cat) G4_header)) (End_ k))) end.
    apply (runs_record little lf content post Hne true false (map (as_item cat) G4_header) []); [reflexivity | vm_compute; reflexivity | exact Hh | cbv zeta; rewrite Hsz; lia | reflexivity | rewrite Hsz; split; [lia | reflexivity]|].
    cbn [app]. intros st K Hr Hg Hrec _ _. clear Hsz. rewrite as_item_piece in K.
    destruct (Hsc "flag_dp"%string) as [Efl Hfl]; [inlist|]. destruct (Hsc "Ngroups"%string) as [Eg Hg']; [inlist|]. destruct (Hsc "Nsubgroups"%string) as [Es Hs]; [inlist|].
    apply (runs_getP little lf content post Hne (pieces_of cat G4_header) st _ 4 [] (cat "flag_dp"%string)); [exact K | inlist | exact Hr|]. rewrite Efl. cbv zeta beta.
    assert ((if i32 [scalar cat "flag_dp"] =? 0 then t_float32 else t_float64) = num fl) as ->.
    { unfold fl, i32. cbn [nth]. unfold signed32. change (256 ^ 4) with (2 ^ 32) in Hfl. destruct (Z.leb_spec (2 ^ 31) (scalar cat "flag_dp")); [replace (scalar cat "flag_dp" - 2 ^ 32 =? 0) with false by lia; replace (scalar cat "flag_dp" =? 0) with false by lia; reflexivity|]. destruct (scalar cat "flag_dp" =? 0); reflexivity. }
    apply (runs_getP little lf content post Hne (pieces_of cat G4_header) st _ 4 [] (cat "Ngroups"%string)); [exact K | inlist | exact Hr|]. rewrite Eg. cbv zeta beta. rewrite (i32_count little lf content post Hne cat) by lia.
    set (groups := if 0 <? scalar cat "Ngroups" then G4_groups fl else []). set (subs := if 0 <? scalar cat "Nsubgroups" then G4_subs id fl else []).
    assert ((if 0 <? scalar cat "Ngroups" then one_each (pieces_of cat (G4_groups fl)) else []) = one_each (map (as_piece false) (map (as_item cat) groups))) as Egr by (rewrite as_item_piece; unfold groups; destruct (0 <? scalar cat "Ngroups"); reflexivity).
    assert ((if 0 <? scalar cat "Nsubgroups" then one_each (pieces_of cat (G4_subs id fl)) else []) = one_each (map (as_piece false) (map (as_item cat) subs))) as Esu by (rewrite as_item_piece; unfold subs; destruct (0 <? scalar cat "Nsubgroups"); reflexivity).
    rewrite Egr in Hok2 |- *. rewrite Esu in Hok3 |- *.
    match goal with |- runs _ (records ?a ?k) _ _ => replace a with (map as_call (map (as_item cat) groups)) by (unfold groups; destruct (0 <? scalar cat "Ngroups"); reflexivity) end.
    apply (runs_records little lf content post Hne (map (as_item cat) groups) (pieces_of cat G4_header)); [exact K | unfold groups; destruct (0 <? scalar cat "Ngroups"); vm_compute; reflexivity | exact Hok2 | exact Hrec | exact Hr|].
    intros st1 K1 Hc1 Hg1 Hrec1.
    apply (runs_getP little lf content post Hne (pieces_of cat G4_header ++ map (as_piece false) (map (as_item cat) groups)) st1 _ 4 [] (cat "Nsubgroups"%string)); [exact K1 | apply in_or_app; left; inlist | congruence|]. rewrite Es. cbv zeta beta. rewrite (i32_count little lf content post Hne cat) by lia.
    match goal with |- runs _ (records ?a ?k) _ _ => replace a with (map as_call (map (as_item cat) subs)) by (unfold subs; destruct (0 <? scalar cat "Nsubgroups"); reflexivity) end.
    rewrite <- (app_nil_r (one_each (map (as_piece false) (map (as_item cat) subs)))).
    apply (runs_records little lf content post Hne (map (as_item cat) subs) (pieces_of cat G4_header ++ map (as_piece false) (map (as_item cat) groups))); [exact K1 | unfold groups, subs; destruct (0 <? scalar cat "Ngroups"), (0 <? scalar cat "Nsubgroups"); vm_compute; reflexivity | exact Hok3 | exact Hrec1 | congruence|].
    intros st2 K2 Hc2 Hg2 Hrec2. unfold Q. rewrite Egr, Esu, !data_each. rewrite !as_item_piece in *. rewrite !data_pieces. apply runs_successP; [exact Hne | rewrite app_assoc; exact K2 | congruence | rewrite Hg2, Hg1, Hg; reflexivity].
  Qed.
  Lemma L2_snapshot_runs : records_ok (L2_snapshot cat) -> scalar cat "first_hash_cell" < 2 ^ 31 -> scalar cat "last_hash_cell" < 2 ^ 31 ->
    runs start_state lgadget2_snapshot (L2_snapshot cat) (successP little lf content post (filter is_data (L2_snapshot cat)) 0).
  Proof.
    intros Hok Cf Cl. unfold lgadget2_snapshot, L2_snapshot in *. cbv zeta in *. set (n := nth 1 (cat "Header/NumPart_ThisFile"%string) 0) in *.
    apply ok_app in Hok. destruct Hok as [Hok1 Hok]. do 4 (let X := fresh "Hok" in apply ok_app in Hok; destruct Hok as [X Hok]). apply ok_record in Hok1. destruct Hok1 as [Hh _].
    pose proof (ok_record _ Hok4) as [Hhash Hhashn].
    assert (sumZ (map piece_size (map (attr_of cat) L2_snapshot_header)) = 256) as Hsz by (rewrite declared_sum by exact Hh; reflexivity).
    rewrite !filter_app, !data_record. set (Q := successP _ _ _ _ _ _).
    rewrite <- (as_item_attr cat L2_snapshot_header) in *.
    match goal with |- runs _ (Start true (attributes ?a (End_ ?k))) _ _ => change (Start true (attributes a (End_ k))) with (Start true (add_all true (map as_call (map (as_item cat) L2_snapshot_header)) (End_ k))) end.
    apply (runs_record little lf content post Hne true true (map (as_item cat) L2_snapshot_header) []); [reflexivity | vm_compute; reflexivity | exact Hh | cbv zeta; rewrite Hsz; lia | reflexivity | rewrite Hsz; split; [lia | reflexivity]|].
    cbn [app]. intros st K Hr Hg Hrec _ _. clear Hsz.
    apply (runs_getattrP little lf content post Hne (map (as_piece true) (map (as_item cat) L2_snapshot_header)) st _ _ (nm "Header/NumPart_ThisFile") 4 [6] (cat "Header/NumPart_ThisFile"%string)); [exact K | now left | reflexivity | exact Hr|]. cbv beta. fold n.
    set (parts := [(nm "PartType1/Coordinates", 4, [n; 3], cat "PartType1/Coordinates"%string); (nm "PartType1/Velocities", 4, [n; 3], cat "PartType1/Velocities"%string); (nm "PartType1/ParticleIDs", 8, [n], cat "PartType1/ParticleIDs"%string)] : list item).
    match goal with |- runs _ (records ?a ?k) (?p1 ++ ?p2 ++ ?p3 ++ ?rest) _ => change (records a k) with (records (map as_call parts) k); replace (p1 ++ p2 ++ p3 ++ rest) with (one_each (map (as_piece false) parts) ++ rest) by (cbn [parts map one_each flat_map as_piece]; rewrite app_nil_r, <- !app_assoc; reflexivity) end.
    apply (runs_records little lf content post Hne parts (map (as_piece true) (map (as_item cat) L2_snapshot_header))); [exact K | vm_compute; reflexivity | | exact Hrec | exact Hr|].
    { cbn [parts map one_each flat_map as_piece]. rewrite app_nil_r. apply ok_app. split; [exact Hok0|]. apply ok_app. split; assumption. }
    intros st1 K1 Hc1 Hg1 Hrec1. set (ps1 := map (as_piece true) (map (as_item cat) L2_snapshot_header) ++ map (as_piece false) parts) in *.
    set (cells := [(nm "first_hash_cell", 4, [], cat "first_hash_cell"%string); (nm "last_hash_cell", 4, [], cat "last_hash_cell"%string)] : list item).
    match goal with |- runs _ (Start false (adds ?a (End_ ?k))) _ _ => change (Start false (adds a (End_ k))) with (Start false (add_all false (map as_call cells) (End_ k))) end.
    match goal with |- runs _ _ (record ?a ++ _) _ => change a with (map (as_piece false) cells) in * end.
    apply (runs_record little lf content post Hne false false cells ps1); [exact K1 | vm_compute; reflexivity | exact Hhash | exact Hhashn | exact Hrec1 | congruence|].
    intros st2 K2 Hr2 Hg2 Hrec2 _ Hc2.
    assert (cat "first_hash_cell"%string = [scalar cat "first_hash_cell"] /\ 0 <= scalar cat "first_hash_cell" < 256 ^ 4) as [Ef Hf] by (apply (one_value cat _ 4); rewrite Forall_forall in Hhash; apply Hhash; now left).
    assert (cat "last_hash_cell"%string = [scalar cat "last_hash_cell"] /\ 0 <= scalar cat "last_hash_cell" < 256 ^ 4) as [El Hl] by (apply (one_value cat _ 4); rewrite Forall_forall in Hhash; apply Hhash; right; now left).
    apply (runs_getP little lf content post Hne (ps1 ++ map (as_piece false) cells) st2 _ 4 [] (cat "last_hash_cell"%string)); [exact K2 | apply in_or_app; right; right; now left | exact Hr2|].
    apply (runs_getP little lf content post Hne (ps1 ++ map (as_piece false) cells) st2 _ 4 [] (cat "first_hash_cell"%string)); [exact K2 | apply in_or_app; right; now left | exact Hr2|].
    rewrite Ef, El. cbv zeta beta. rewrite !(i32_count little lf content post Hne cat) by lia. set (nh := scalar cat "last_hash_cell" - scalar cat "first_hash_cell" + 1) in *.
    set (bl := [(nm "blockid", 4, [nh], cat "blockid"%string)] : list item).
    match goal with |- runs _ (records ?a ?k) _ _ => change (records a k) with (records (map as_call bl) k) end.
    match goal with |- runs _ _ ?r _ => replace r with (one_each (map (as_piece false) bl) ++ []) by (cbn [bl map one_each flat_map as_piece]; rewrite !app_nil_r; reflexivity) end.
    apply (runs_records little lf content post Hne bl (ps1 ++ map (as_piece false) cells)); [exact K2 | vm_compute; reflexivity | cbn [bl map one_each flat_map as_piece]; rewrite app_nil_r; exact Hok | exact Hrec2 | exact Hr2|].
    intros st3 K3 Hc3 Hg3 Hrec3. unfold Q. apply runs_successP; [exact Hne | | congruence | rewrite Hg3, Hg2, Hg1, Hg; reflexivity].
    unfold knowsP in *. rewrite K3. unfold ps1. rewrite <- !app_assoc. reflexivity.
  Qed.
End Records.
Lemma gadget4_opens id cat little lf rest : id_size id -> records_ok (G4_sub_tab id cat) -> scalar cat "Ngroups" < 2 ^ 31 -> scalar cat "Nsubgroups" < 2 ^ 31 -> opens (gadget4_sub_tab id) (G4_sub_tab id cat) little lf rest.
Proof.
  intros Hid Hok C1 C2. apply opens_intro; [intros content Hne; now apply gadget4_runs|]. eexists. split; [left; reflexivity|]. cbn [piece_bytes]. rewrite number_len; lia.
Qed.
Lemma L2_snapshot_opens cat little lf rest : records_ok (L2_snapshot cat) -> scalar cat "first_hash_cell" < 2 ^ 31 -> scalar cat "last_hash_cell" < 2 ^ 31 -> opens lgadget2_snapshot (L2_snapshot cat) little lf rest.
Proof.
  intros Hok C1 C2. apply opens_intro; [intros content Hne; now apply L2_snapshot_runs|]. eexists. split; [left; reflexivity|]. cbn [piece_bytes]. rewrite number_len; lia.
Qed.
