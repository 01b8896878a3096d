(** The constructors of the classes for files with arrays of structures. *)
From Coq Require Import Ascii String.
From Verif.Base Require Import Prelude ListLemmas Order.
From Verif.Binary Require Import BinModel NameProofs LayoutProofs EndianProofs FortranProofs UsedProofs TreeProofs.
From Verif.Text Require StrModel StrProofs.
From Verif.Formats Require GadgetProofs.
From Verif.Formats Require Import ReaderModel StructModel FileSpec ReaderProofs RunProofs CatSpec CatProofs SnapProofs CatFinal StructSpec StructLayout StructProofs StructFinal.
From Coq Require Import ZifyBool ZifyNat.
Local Open Scope Z_scope.

Definition flat_call (c : str * dtype * list Z) : str * dtype * list Z := let '(n, d, s) := c in (n, flat_t d, s).
Lemma flat_attributes l k : flat (attributes l k) = add_all true (map flat_call l) (flat k).
Proof. induction l as [|[[n d] s] l IH]; [reflexivity|]. cbn [attributes flat map flat_call]. rewrite IH. reflexivity. Qed.
Lemma flat_adds l k : flat (adds l k) = add_all false (map flat_call l) (flat k).
Proof. induction l as [|[[n d] s] l IH]; [reflexivity|]. cbn [adds flat map flat_call]. rewrite IH. reflexivity. Qed.
Lemma plain_attributes l k : Forall (fun c : str * dtype * list Z => native (snd (fst c))) l -> plain k -> plain (attributes l k).
Proof. intros H Hk. induction H as [|[[n d] s] l Hd _ IH]; [exact Hk|]. cbn [attributes]. now constructor. Qed.
Lemma plain_adds l k : Forall (fun c : str * dtype * list Z => native (snd (fst c))) l -> plain k -> plain (adds l k).
Proof. intros H Hk. induction H as [|[[n d] s] l Hd _ IH]; [exact Hk|]. cbn [adds]. now constructor. Qed.
Lemma native_struct align l : native (np_struct align l).
Proof. unfold np_struct. destruct (np_layout align 0 1 l). now left. Qed.
Lemma native_num n : native (num n).
Proof. unfold native, num. cbn [dt_order]. destruct (n =? 1); auto. Qed.
Lemma native_string n : native (t_string n). Proof. now left. Qed.
Ltac natives := repeat (apply Forall_cons; [cbn [fst snd]; first [apply native_num | apply native_string | apply native_struct]|]); apply Forall_nil.
Lemma plain_id id k : (forall t, plain (k t)) -> plain (id_or_value_error id k).
Proof. intro H. unfold id_or_value_error. destruct (id =? 4); [apply H|]. destruct (id =? 8); [apply H | constructor]. Qed.

Lemma rockstar_plain hydro : plain (rockstar hydro).
Proof.
  unfold rockstar. apply plain_attributes; [natives|]. apply pl_offset. apply pl_getattr. intro v1. apply pl_getattr. intro v2. apply pl_getattr. intro v3. cbv zeta. apply plain_adds; [natives | constructor].
Qed.
Lemma velociraptor_plain np_int ikeepfof other : plain (velociraptor np_int ikeepfof other).
Proof.
  unfold velociraptor. apply plain_attributes; [natives|]. destruct np_int; [|constructor]. cbn [negb]. apply plain_attributes; [natives|]. apply pl_getattr. intro v1. cbv zeta. apply plain_attributes.
  - unfold velociraptor_entries. apply Forall_map. apply Forall_forall. intros i _. apply native_string.
  - destruct other; [constructor|]. apply pl_getattr. intro v2. apply plain_adds; [natives | constructor].
Qed.
Lemma tree_plain id tab : plain (mpa_tree id tab).
Proof. unfold mpa_tree. apply plain_id. intros _. apply plain_adds; [natives|]. apply pl_get. intro v1. apply pl_get. intro v2. cbv zeta. apply plain_adds; [natives | constructor]. Qed.

(** *** running *)
Definition item_of (cat : catalogue) (fd : field) : item := (nm (fd_name fd), fd_size fd, map (extent cat) (fd_dims fd), cat (fd_name fd)).
Lemma attr_item cat fd : as_piece true (item_of cat fd) = attr_of cat fd. Proof. reflexivity. Qed.
Lemma attr_items cat l : map (as_piece true) (map (item_of cat) l) = map (attr_of cat) l.
Proof. rewrite map_map. reflexivity. Qed.
Lemma pieces_size cat l : Forall piece_ok (map (attr_of cat) l) -> sumZ (map piece_size (map (attr_of cat) l)) = sumZ (map (fun fd => fd_size fd * fold_left Z.mul (map (extent cat) (fd_dims fd)) 1) l).
Proof.
  induction l as [|fd l IH]; intro H; [reflexivity|]. cbn [map] in *. apply Forall_cons_iff in H. destruct H as [Hfd H]. unfold sumZ in *. cbn [fold_right]. rewrite IH by exact H. f_equal. unfold attr_of in *. cbn [piece_size piece_ok] in *. destruct Hfd as (_ & _ & -> & _). reflexivity.
Qed.
Lemma scalar_attr cat l fd : Forall piece_ok (map (attr_of cat) l) -> In fd l -> fd_dims fd = [] -> cat (fd_name fd) = [scalar cat (fd_name fd)] /\ 0 <= scalar cat (fd_name fd) < 256 ^ fd_size fd.
Proof.
  intros H Hin Hd. rewrite Forall_forall in H. specialize (H (attr_of cat fd) (in_map _ _ _ Hin)). unfold attr_of in H. rewrite Hd in H. cbn in H. destruct H as (_ & _ & H & Hv). unfold scalar. destruct (cat (fd_name fd)) as [|x [|y t]]; unfold zlen in H; cbn [List.length] in H; try lia. split; [reflexivity|]. now apply Forall_cons_iff in Hv.
Qed.
Lemma signed64_small v : 0 <= v < 2 ^ 63 -> signed64 v = v.
Proof. unfold signed64. intro H. replace (2 ^ 63 <=? v) with false by lia. reflexivity. Qed.
Lemma runs_offset little lf content post st off k rest Q : l_pos st = off -> runs little lf content post st k rest Q -> runs little lf content post st (OffsetIs off k) rest Q.
Proof. intros <- Hk f Hi. cbn [exec]. pose proof Hi as (I1 & _). rewrite I1, Z.eqb_refl. now apply Hk. Qed.
Lemma runs_itemsR a l : forall little lf content post, content <> [] -> forall ps st k rest Q, knowsP ps st -> items_fresh (map pname ps) a l = true -> Forall piece_ok (map (as_piece a) l) ->
    (forall st', knowsP (ps ++ map (as_piece a) l) st' -> l_cur st' = l_cur st -> l_gap st' = l_gap st -> l_rec st' = l_rec st -> l_pos st' = l_pos st + sumZ (map piece_size (map (as_piece a) l)) -> runs little lf content post st' k rest Q) ->
    runs little lf content post st (add_all a (map as_call l) k) (map (as_piece a) l ++ rest) Q.
Proof. intros. now apply (runs_items little lf content post H a l ps). Qed.

(** the lists of members *)
Fixpoint nodupb (l : list string) : bool := match l with [] => true | x :: t => negb (existsb (String.eqb x) t) && nodupb t end.
Lemma nodupb_ok l : nodupb l = true -> NoDup l.
Proof.
  induction l as [|x l IH]; intro H; [constructor|]. cbn in H. apply andb_true_iff in H. destruct H as [H1 H2]. constructor; [|now apply IH]. intro Hin. assert (existsb (String.eqb x) l = true) as E by (apply existsb_exists; exists x; split; [exact Hin | apply String.eqb_refl]). rewrite E in H1. discriminate.
Qed.
Definition sizesb (l : list member) : bool := forallb (fun m => ((m_size m =? 4) || (m_size m =? 8)) && (0 <=? m_count m)) l.
Lemma sizesb_ok l : sizesb l = true -> sizes_ok l.
Proof.
  unfold sizesb, sizes_ok. rewrite forallb_forall, Forall_forall. intros H m Hm. specialize (H m Hm). split; [|lia]. assert (m_size m = 4 \/ m_size m = 8) as [-> | ->] by lia; [exists 2 | exists 3]; (split; [lia | reflexivity]).
Qed.
Lemma members_ok l : sizesb l && nodupb (map m_name l) = true -> sizes_ok l /\ NoDup (map m_name l).
Proof. intro H. apply andb_true_iff in H. destruct H as [H1 H2]. split; [now apply sizesb_ok | now apply nodupb_ok]. Qed.
Lemma rockstar_ok rev hydro : sizes_ok (rockstar_members rev hydro) /\ NoDup (map m_name (rockstar_members rev hydro)).
Proof. apply members_ok. unfold rockstar_members. destruct (2 <=? rev), hydro; vm_compute; reflexivity. Qed.
Lemma velociraptor_ok k : sizes_ok (velociraptor_members k) /\ NoDup (map m_name (velociraptor_members k)).
Proof. apply members_ok. unfold velociraptor_members. destruct (k =? 0); vm_compute; reflexivity. Qed.
Lemma tree_ok id tab : id_size id -> sizes_ok (mpa_members id tab) /\ NoDup (map m_name (mpa_members id tab)).
Proof. intro H. apply members_ok. destruct H as [-> | ->]; destruct tab; vm_compute; reflexivity. Qed.
(** the same as in the specification *)
Lemma rockstar_same rev hydro : rockstar_members rev hydro = rockstar_halo rev hydro.
Proof. unfold rockstar_members, rockstar_halo. replace (2 <=? rev) with (1 <? rev) by lia. destruct (1 <? rev), hydro; reflexivity. Qed.
Lemma velociraptor_same k : velociraptor_members k = velociraptor_object (negb (k =? 0)).
Proof. unfold velociraptor_members, velociraptor_object. destruct (k =? 0); reflexivity. Qed.
Lemma tree_same id tab : mpa_members id tab = tree_halo id tab.
Proof. destruct tab; reflexivity. Qed.

(** *** Rockstar *)
Lemma i32_signed v : i32 [v] = if v <? 2 ^ 31 then v else v - 2 ^ 32.
Proof. unfold i32, signed32. cbn [nth]. destruct (Z.leb_spec (2 ^ 31) v), (Z.ltb_spec v (2 ^ 31)); lia. Qed.
Lemma rockstar_runs little content post cat hydro size images ids :
  content <> [] -> Forall piece_ok (rockstar_pieces little cat size images ids) ->
  itemsize (np_struct true (rockstar_members (revision_of cat) hydro)) = size ->
  scalar cat "Header/num_halos" = zlen images -> zlen images < 2 ^ 63 -> scalar cat "Header/num_particles" = zlen ids -> zlen ids < 2 ^ 63 ->
  runs little little content post start_state (flat (rockstar hydro)) (rockstar_pieces little cat size images ids) (successP little little content post (rockstar_pieces little cat size images ids) 0).
Proof.
  intros Hne Hok Hsize Hn Hn' Hm Hm'. pose proof Hok as Hall. unfold rockstar_pieces in Hok. apply Forall_app in Hok. destruct Hok as [Hok Hok2].
  assert (forall name size, In (one name size) rockstar_header -> cat name = [scalar cat name] /\ 0 <= scalar cat name < 256 ^ size) as Hsc by (intros name sz Hin; exact (scalar_attr cat rockstar_header (one name sz) Hok Hin eq_refl)).
  unfold rockstar, rockstar_pieces. rewrite flat_attributes.
  change (map flat_call _) with (map as_call (map (item_of cat) rockstar_header)). rewrite <- (attr_items cat rockstar_header) at 1.
  apply (runs_itemsR true _ little little content post Hne []); [reflexivity | vm_compute; reflexivity | rewrite attr_items; exact Hok|].
  intros st K C1 C2 C3 C4. rewrite attr_items in K, C4. rewrite (pieces_size cat rockstar_header Hok) in C4. cbn [app] in K.
  cbn [flat]. apply runs_offset; [rewrite C4; reflexivity|].
  assert (rightly little little (l_cur st) = true) as Hr by (rewrite C1; unfold rightly; destruct little; reflexivity).
  assert (forall name size k rest Q, In (one (String.append "Header/" name) size) rockstar_header -> keys (nm (String.append "Header/" name)) = keys (nm "Header") ++ [nm name] -> runs little little content post st (k [scalar cat (String.append "Header/" name)]) rest Q -> runs little little content post st (GetAttr (nm "Header") (nm name) k) rest Q) as Hget.
  { intros name sz k rest Q Hin Hk Hrun. apply (runs_getattrP little little content post Hne _ _ _ _ _ sz [] _ _ _ _ K (in_map (attr_of cat) _ _ Hin) Hk Hr). cbn [one fd_name]. destruct (Hsc _ _ Hin) as [-> _]. exact Hrun. }
  apply (Hget "num_halos"%string 8); [cbn; tauto | reflexivity|].
  apply (Hget "num_particles"%string 8); [cbn; tauto | reflexivity|].
  apply (Hget "format_revision"%string 4); [cbn; tauto | reflexivity|]. cbn [String.append]. cbv zeta.
  rewrite i32_signed. change (if scalar cat "Header/format_revision" <? 2 ^ 31 then scalar cat "Header/format_revision" else scalar cat "Header/format_revision" - 2 ^ 32) with (revision_of cat).
  unfold i64. cbn [nth]. rewrite Hn, Hm, !signed64_small by (split; [apply zlen_nonneg | assumption]).
  rewrite flat_adds. cbn [map flat_call flat_t]. unfold flat_t. rewrite Hsize.
  change [(nm "Halo", num size, [zlen images]); (nm "IDs", num (itemsize t_int64), [zlen ids])] with (map as_call [(nm "Halo", size, [zlen images], map (as_number little) images); (nm "IDs", 8, [zlen ids], ids)]).
  match goal with |- runs _ _ _ _ _ _ ?r _ => change r with (map (as_piece false) [(nm "Halo", size, [zlen images], map (as_number little) images); (nm "IDs", 8, [zlen ids], ids)] ++ []) end.
  apply (runs_itemsR false _ little little content post Hne (map (attr_of cat) rockstar_header)); [exact K | vm_compute; reflexivity | exact Hok2|].
  intros st' K' D1 D2 D3 D4. apply runs_successP; [exact Hne | exact K' | now rewrite D1 | now rewrite D2, C2].
Qed.

(** *** VELOCIraptor *)
Lemma entry_keys i : keys (entry_name i) = [nm "Header"; (nm "entry" ++ StrModel.fmt_0d 3 i)%list].
Proof.
  assert (~ In slash (nm "entry" ++ StrModel.fmt_0d 3 i)%list) as H. { intro H. apply in_app_or in H. destruct H as [H|H]; [cbn in H; intuition discriminate|]. pose proof (StrProofs.fmt_0d_num 3 i) as F. rewrite Forall_forall in F. specialize (F slash H). discriminate. }
  unfold keys, comps, entry_name. change (nm "Header/entry" ++ StrModel.fmt_0d 3 i)%list with (nm "Header" ++ slash :: (nm "entry" ++ StrModel.fmt_0d 3 i))%list. rewrite GadgetProofs.pieces_slash by (cbn; intuition discriminate). rewrite GadgetProofs.pieces_plain by exact H. reflexivity.
Qed.
Definition entry_item (p : Z * Z) : item := (entry_name (fst p), 40, [], [snd p]).
Definition entry_items (entries : list Z) : list item := map entry_item (combine (zseq 0 (List.length entries)) entries).
Lemma entry_pieces entries : map (as_piece true) (entry_items entries) = zipwith entry (zseq 0 (List.length entries)) entries.
Proof. unfold entry_items. rewrite map_map. generalize 0. induction entries as [|v l IH]; intro a; [reflexivity|]. cbn [List.length zseq combine map zipwith]. f_equal. apply IH. Qed.
Lemma entry_calls entries : map as_call (entry_items entries) = map flat_call (velociraptor_entries (zlen entries)).
Proof.
  unfold entry_items, velociraptor_entries, zlen. rewrite Nat2Z.id, !map_map. generalize 0. induction entries as [|v l IH]; intro a; [reflexivity|]. cbn [List.length zseq combine map]. f_equal. apply IH.
Qed.
Lemma entries_fresh entries : forall ns a, Forall (fun q => snd q = true -> forall i, a <= i -> keys (fst q) <> keys (entry_name i)) ns -> Forall (fun q => snd q = true) ns ->
  items_fresh ns true (map entry_item (combine (zseq a (List.length entries)) entries)) = true.
Proof.
  induction entries as [|v l IH]; intros ns a H1 H2; [reflexivity|]. cbn [List.length zseq combine map items_fresh entry_item it_name fst snd]. apply andb_true_iff. split.
  - unfold names_fresh. apply forallb_forall. intros q Hq. rewrite Forall_forall in H1, H2. unfold compatible. rewrite (H2 q Hq). destruct (keys_eqb (keys (fst q)) (keys (entry_name a))) eqn:E; [|reflexivity]. apply keys_eqb_eq in E. exfalso. exact (H1 q Hq (H2 q Hq) a ltac:(lia) E).
  - apply IH.
    + apply Forall_app. split; [|repeat constructor]. * rewrite Forall_forall in *. intros q Hq Hb i Hi. apply H1; [exact Hq | exact Hb | lia].
      * cbn [fst snd]. intros _ i Hi E. rewrite !entry_keys in E. injection E as E. apply app_inv_head in E || idtac. apply StrProofs.fmt_0d_inj in E. lia.
    + apply Forall_app. split; [exact H2 | repeat constructor].
Qed.
Lemma velociraptor_runs little content post cat keep entries size images :
  content <> [] -> Forall piece_ok (velociraptor_pieces little cat entries size images) ->
  itemsize (np_struct false (velociraptor_members keep)) = size ->
  scalar cat "Header/hsize" = zlen entries -> zlen entries < 2 ^ 63 -> scalar cat "Header/ng" = zlen images ->
  runs little little content post start_state (flat (velociraptor true keep false)) (velociraptor_pieces little cat entries size images) (successP little little content post (velociraptor_pieces little cat entries size images) 0).
Proof.
  intros Hne Hok Hsize Hn Hn' Hm. pose proof Hok as Hall. unfold velociraptor_pieces in Hok. apply Forall_app in Hok. destruct Hok as [Hok Hok2]. apply Forall_app in Hok2. destruct Hok2 as [Hok2 Hok3].
  unfold velociraptor, velociraptor_pieces. rewrite flat_attributes. cbn [negb]. rewrite flat_attributes.
  set (h := map (item_of cat) velociraptor_header).
  match goal with |- runs _ _ _ _ _ (add_all true ?x (add_all true ?y ?k)) _ _ => change (add_all true x (add_all true y k)) with (add_all true (map as_call h) k) end. rewrite <- (attr_items cat velociraptor_header) at 1. fold h.
  apply (runs_itemsR true _ little little content post Hne []); [reflexivity | vm_compute; reflexivity | unfold h; rewrite attr_items; exact Hok|].
  intros st K C1 C2 C3 C4. unfold h in K. rewrite attr_items in K. cbn [app] in K. cbn [flat].
  assert (rightly little little (l_cur st) = true) as Hr by (rewrite C1; unfold rightly; destruct little; reflexivity).
  apply (runs_getattrP little little content post Hne (map (attr_of cat) velociraptor_header) st _ _ (nm "Header/hsize") 8 [] (cat "Header/hsize"%string)); [exact K | cbn; tauto | reflexivity | exact Hr|].
  pose proof (scalar_attr cat velociraptor_header (one "Header/hsize" 8) Hok ltac:(cbn; tauto) eq_refl) as [Ev _]. cbn [one fd_name] in Ev. rewrite Ev. clear Ev. cbv zeta. unfold i64 at 1. cbn [nth]. rewrite Hn, signed64_small by (split; [apply zlen_nonneg | exact Hn']).
  rewrite flat_attributes, <- entry_calls, <- entry_pieces.
  apply (runs_itemsR true _ little little content post Hne (map (attr_of cat) velociraptor_header)); [exact K | | rewrite entry_pieces; exact Hok2|].
  { unfold entry_items. apply entries_fresh; [|repeat constructor]. cbn [map velociraptor_header attr_of pname one fd_name fd_size fd_dims]. repeat (apply Forall_cons; [cbn [fst snd]; intros _ i _; rewrite entry_keys; vm_compute; discriminate|]). apply Forall_nil. }
  intros st' K' D1 D2 D3 D4. cbn [flat].
  assert (rightly little little (l_cur st') = true) as Hr' by (now rewrite D1).
  apply (runs_getattrP little little content post Hne _ st' _ _ (nm "Header/ng") 8 [] (cat "Header/ng"%string)) with (1 := K'); [apply in_or_app; left; cbn; tauto | reflexivity | exact Hr'|].
  pose proof (scalar_attr cat velociraptor_header (one "Header/ng" 8) Hok ltac:(cbn; tauto) eq_refl) as [Ev _]. cbn [one fd_name] in Ev. rewrite Ev. clear Ev. cbv zeta. cbn [nth]. rewrite Hm.
  rewrite flat_adds. cbn [map flat_call]. unfold flat_t. rewrite Hsize.
  change [(nm "Halo", num size, [zlen images])] with (map as_call [(nm "Halo", size, [zlen images], map (as_number little) images)]).
  match goal with |- runs _ _ _ _ _ _ ?r _ => change r with (map (as_piece false) [(nm "Halo", size, [zlen images], map (as_number little) images)] ++ []) end.
  eapply (runs_itemsR false _ little little content post Hne); [exact K' | | exact Hok3|].
  { cbn [items_fresh it_name]. rewrite andb_true_r. unfold names_fresh. rewrite map_app, forallb_app. apply andb_true_iff. split; [vm_compute; reflexivity|]. unfold entry_items. rewrite !map_map. rewrite forallb_forall. intros q Hq. apply in_map_iff in Hq. destruct Hq as ([i v] & <- & _). cbn [entry_item as_piece pname fst snd]. unfold compatible. rewrite entry_keys. reflexivity. }
  intros st'' K'' F1 F2 F3 F4. apply runs_successP; [exact Hne | rewrite <- app_assoc in K''; exact K'' | now rewrite F1, D1 | now rewrite F2, D2, C2].
Qed.

(** *** merger trees *)
Lemma tree_runs little content post id tab n_per_tree size images :
  content <> [] -> id_size id -> Forall piece_ok (tree_pieces little n_per_tree size images) ->
  itemsize (np_struct false (mpa_members id tab)) = size -> zlen n_per_tree < 2 ^ 31 -> zlen images < 2 ^ 31 ->
  runs little little content post start_state (flat (mpa_tree id tab)) (tree_pieces little n_per_tree size images) (successP little little content post (tree_pieces little n_per_tree size images) 0).
Proof.
  intros Hne Hid Hok Hsize Hn Hm. unfold mpa_tree. rewrite id_ok by exact Hid. rewrite flat_adds. unfold tree_pieces in *.
  set (a := Data (list_ascii_of_string "Ntrees") false 4 [] [zlen n_per_tree]) in *. set (b := Data (list_ascii_of_string "Nhalos") false 4 [] [zlen images]) in *.
  match goal with |- runs _ _ _ _ _ (add_all false ?x ?k) (_ :: _ :: ?r) _ => change x with (map as_call [(nm "Ntrees", 4, [], [zlen n_per_tree]); (nm "Nhalos", 4, [], [zlen images])]); change (a :: b :: r) with (map (as_piece false) [(nm "Ntrees", 4, [], [zlen n_per_tree]); (nm "Nhalos", 4, [], [zlen images])] ++ r) end.
  pose proof (Forall_inv Hok) as Ha. pose proof (Forall_inv (Forall_inv_tail Hok)) as Hb. pose proof (Forall_inv_tail (Forall_inv_tail Hok)) as Hok2.
  apply (runs_itemsR false _ little little content post Hne []); [reflexivity | vm_compute; reflexivity | repeat (apply Forall_cons; [assumption|]); apply Forall_nil|].
  intros st K C1 C2 C3 C4. cbn [app map as_piece] in K. assert (rightly little little (l_cur st) = true) as Hr by (rewrite C1; unfold rightly; destruct little; reflexivity). cbn [flat].
  apply (runs_getP little little content post Hne _ st (nm "Ntrees") 4 [] [zlen n_per_tree]) with (1 := K); [now left | exact Hr|].
  apply (runs_getP little little content post Hne _ st (nm "Nhalos") 4 [] [zlen images]) with (1 := K); [right; now left | exact Hr|]. cbv zeta.
  assert (forall v, 0 <= v < 2 ^ 31 -> i32 [v] = v) as Hi by (intros v Hv; unfold i32; cbn [nth]; now apply signed32_small). rewrite !Hi by (split; [apply zlen_nonneg | assumption]).
  rewrite flat_adds. cbn [map flat_call]. unfold flat_t. rewrite Hsize. change (itemsize t_int32) with 4.
  set (c := [(nm "NPerTree", 4, [zlen n_per_tree], n_per_tree); (nm "HaloList", size, [zlen images], map (as_number little) images)]).
  match goal with |- runs _ _ _ _ _ (add_all false ?x ?k) ?r _ => change x with (map as_call c); change r with (map (as_piece false) c ++ []) end.
  eapply (runs_itemsR false _ little little content post Hne); [exact K | vm_compute; reflexivity | exact Hok2|].
  intros st' K' D1 D2 D3 D4. apply runs_successP; [exact Hne | exact K' | now rewrite D1 | now rewrite D2, C2].
Qed.
