(** Files with arrays of structures, and the Millennium-XXL formats. *)
From Coq Require Import Ascii String.
From Verif.Base Require Import Prelude ListLemmas Order.
From Verif.Binary Require Import BinModel NameProofs LayoutProofs EndianProofs FortranProofs UsedProofs TreeProofs.
From Verif.Text Require StrModel StrProofs.
From Verif.Formats Require Import ReaderModel StructModel FileSpec ReaderProofs RunProofs CatSpec CatProofs SnapProofs CatFinal StructSpec StructLayout StructProofs StructFinal StructOpen.
From Coq Require Import ZifyBool ZifyNat.
Local Open Scope Z_scope.

(** *** layouts *)
Lemma rising_pos l offs size m : Forall2 (fun m off => 0 <= off /\ 0 < m_size m /\ 0 <= m_count m /\ off + m_size m * m_count m <= size) l offs -> In m l -> 0 < m_count m -> 0 < size.
Proof. induction 1 as [|x o l' offs' Hx _ IH]; intros Hin Hc; [destruct Hin|]. destruct Hin as [->|Hin]; [nia | auto]. Qed.
Lemma layout_pos align l offs size m : sizes_ok l -> layout_of align l offs size -> In m l -> 0 < m_count m -> 0 < size.
Proof. intros Hl Hlay. exact (rising_pos l offs size m (rising_in l 0 offs size (layout_rising align l offs size Hl Hlay))). Qed.
Lemma tree_layout id tab offs size : id_size id -> (c_layout (tree_halo id tab) offs size <-> packed_layout (tree_halo id tab) offs size).
Proof.
  intro Hid. destruct (tree_ok id tab Hid) as [Hs _]. rewrite tree_same in Hs. destruct (np_aligned _ Hs) as [_ A]. destruct (layout_packed (tree_halo id tab) 0 1) as [_ P].
  assert (np_layout true 0 1 (tree_halo id tab) = np_layout false 0 1 (tree_halo id tab)) as E by (destruct Hid as [-> | ->], tab; vm_compute; reflexivity).
  rewrite E in A. split; intro H.
  - destruct (c_layout_unique _ _ _ _ _ H A) as [-> ->]. exact P.
  - destruct (packed_unique _ _ _ _ _ _ H P) as [-> ->]. exact A.
Qed.

(** *** images *)
Lemma halo_piece little l offs size structures images name : 0 < size -> Forall2 (image little l offs size) structures images -> piece_ok (Data name false size [zlen images] (map (as_number little) images)).
Proof.
  intros Hs HF. cbn [piece_ok]. split; [exact Hs|]. split; [constructor; [apply zlen_nonneg | constructor]|]. split; [unfold zlen; rewrite map_length; cbn [fold_left]; lia|].
  apply image_ok in HF. apply Forall_map. eapply Forall_impl; [|exact HF]. intros a [Ha <-]. now apply as_number_range.
Qed.
Lemma images_len little l offs size structures images : Forall2 (image little l offs size) structures images -> zlen images = zlen structures.
Proof. intro H. unfold zlen. f_equal. symmetry. induction H; [reflexivity|]. cbn [List.length]. congruence. Qed.
Lemma attr_data cat l : filter is_data (map (attr_of cat) l) = map (attr_of cat) l.
Proof. apply filter_all. apply Forall_map. apply Forall_forall. reflexivity. Qed.
Lemma attr_noraw cat l : Forall (fun p => match p with Raw _ => False | _ => True end) (map (attr_of cat) l).
Proof. apply Forall_map. apply Forall_forall. intros fd _. exact I. Qed.
Lemma file_app lf a b : file_bytes lf (a ++ b) = file_bytes lf a ++ file_bytes lf b.
Proof. unfold file_bytes. now rewrite map_app, concat_app. Qed.

(** *** Rockstar *)
Lemma rockstar_bytes little cat size images ids rest : Forall (fun a => isbytes a /\ zlen a = size) images ->
  rockstar_file little cat images ids rest = file_bytes little (rockstar_pieces little cat size images ids) ++ rest.
Proof.
  intro H. unfold rockstar_file, rockstar_pieces. rewrite file_app, <- !app_assoc. f_equal. unfold file_bytes. cbn [map concat piece_bytes]. rewrite (images_bytes little size images H), app_nil_r, <- app_assoc. reflexivity.
Qed.
Lemma rockstar_opens cat galaxies offs size structures images ids little rest :
  let halo := rockstar_halo (revision_of cat) galaxies in
  Forall piece_ok (map (attr_of cat) rockstar_header) -> c_layout halo offs size -> Forall2 (image little halo offs size) structures images ->
  scalar cat "Header/num_halos" = zlen structures -> zlen structures < 2 ^ 63 -> scalar cat "Header/num_particles" = zlen ids -> zlen ids < 2 ^ 63 ->
  Forall (fun v => 0 <= v < 2 ^ 64) ids -> Forall byte rest ->
  let content := rockstar_file little cat images ids rest in
  exists f, open_file little content (rockstar galaxies) = (f, Ok tt) /\ reads_back little content (rockstar_pieces little cat size images ids) f /\ order_is little little f /\
    (all_bytes_used content f = true <-> rest = []) /\ has_columns little content f (nm "Halo") true halo structures.
Proof.
  intros halo Hh Hlay HF Hn Hn' Hm Hm' Hids Hrest content. pose proof (rockstar_ok (revision_of cat) galaxies) as [Hs Hd]. pose proof (rockstar_same (revision_of cat) galaxies) as Esame. fold halo in Esame. rewrite Esame in Hs, Hd.
  assert (0 < size) as Hpos by (apply (layout_pos true halo offs size (M "id" 8 1) Hs Hlay); [now left | cbn; lia]).
  pose proof (images_len _ _ _ _ _ _ HF) as El. pose proof (image_ok _ _ _ _ _ _ HF) as Him. unfold content. rewrite (rockstar_bytes little cat size images ids rest Him).
  assert (Forall piece_ok (rockstar_pieces little cat size images ids)) as Hok.
  { unfold rockstar_pieces. apply Forall_app. split; [exact Hh|]. constructor; [now apply (halo_piece little halo offs size structures)|]. constructor; [|constructor]. cbn [piece_ok]. split; [lia|]. split; [constructor; [apply zlen_nonneg | constructor]|]. split; [cbn [fold_left]; lia | exact Hids]. }
  apply (struct_opens (rockstar galaxies) (rockstar_pieces little cat size images ids) (nm "Halo") true halo offs size structures images little rest); auto.
  - apply rockstar_plain.
  - apply opens_intro.
    + cbv zeta. intro Hne. assert (filter is_data (rockstar_pieces little cat size images ids) = rockstar_pieces little cat size images ids) as -> by (unfold rockstar_pieces; now rewrite filter_app, attr_data). apply rockstar_runs; auto; [|now rewrite El | now rewrite El]. rewrite Esame. now apply (struct_size true halo offs size).
    + exists (attr_of cat (one "Header/magic" 8)). split; [apply in_or_app; left; now left|]. apply Forall_inv in Hh. cbn in Hh. destruct Hh as (_ & _ & Hl & _). cbn [attr_of piece_bytes one fd_size fd_name]. rewrite vals_bytes_len by lia. lia.
  - apply Forall_app. split; [apply attr_noraw | repeat constructor].
  - apply in_or_app. right. now left.
Qed.

(** sanity_check *)
Lemma int64_signed v : int64 v = signed64 v.
Proof. unfold int64, signed64. destruct (Z.ltb_spec v (2 ^ 63)), (Z.leb_spec (2 ^ 63) v); lia. Qed.
Lemma forallb_same {A} (p q : A -> bool) l : (forall a, p a = q a) -> forallb p l = forallb q l.
Proof. intro H. induction l as [|a l IH]; [reflexivity|]. cbn. now rewrite H, IH. Qed.
Lemma forallb_maps {A B} (p : B -> bool) (f : A -> B) l : forallb p (map f l) = forallb (fun a => p (f a)) l.
Proof. induction l as [|a l IH]; [reflexivity|]. cbn. now rewrite IH. Qed.
Lemma forallb_combine_map {A B C} (g : B -> C -> bool) (u : A -> B) (v : A -> C) l : forallb (fun p => g (fst p) (snd p)) (combine (map u l) (map v l)) = forallb (fun a => g (u a) (v a)) l.
Proof. induction l as [|a l IH]; [reflexivity|]. cbn. now rewrite IH. Qed.
Lemma rockstar_check_is cat galaxies offs size structures images ids little rest f :
  let halo := rockstar_halo (revision_of cat) galaxies in
  Forall piece_ok (map (attr_of cat) rockstar_header) -> c_layout halo offs size -> Forall2 (image little halo offs size) structures images ->
  scalar cat "Header/num_halos" = zlen structures -> zlen structures < 2 ^ 63 -> scalar cat "Header/num_particles" = zlen ids -> zlen ids < 2 ^ 63 ->
  Forall (fun v => 0 <= v < 2 ^ 64) ids -> Forall byte rest ->
  let content := rockstar_file little cat images ids rest in
  open_file little content (rockstar galaxies) = (f, Ok tt) ->
  rockstar_check little content galaxies f =
    if forallb (fun s => wrap64 (first_particle s + number_of_particles s) <=? zlen ids) structures && forallb (fun s => 0 <=? first_particle s) structures then Ok tt else Err EAssert.
Proof.
  intros halo Hh Hlay HF Hn Hn' Hm Hm' Hids Hrest content Ho. destruct (rockstar_opens cat galaxies offs size structures images ids little rest Hh Hlay HF Hn Hn' Hm Hm' Hids Hrest) as (f' & Ho' & (R1 & R2 & _) & _ & _ & (items & I1 & I2 & I3)). fold halo content in Ho', R1, R2, I1, I3. rewrite Ho in Ho'. injection Ho' as <-.
  unfold rockstar_check.
  destruct (R2 (nm "Header") (nm "format_revision") (nm "Header/format_revision") 4 [] (cat "Header/format_revision"%string)) as (attrs & ds & gs & id & b & its & A1 & A2 & A3 & A4 & A5 & A6 & A7); [apply in_or_app; left; cbn; tauto | reflexivity|].
  unfold read_attr. rewrite A1. cbn [bind]. rewrite A2. cbn [bind]. rewrite A3, A6. cbn [bind]. rewrite A7.
  destruct (scalar_attr cat rockstar_header (one "Header/format_revision" 4) Hh ltac:(cbn; tauto) eq_refl) as [Ev _]. cbn [one fd_name] in Ev. rewrite Ev, i32_signed. change (if scalar cat "Header/format_revision" <? 2 ^ 31 then scalar cat "Header/format_revision" else scalar cat "Header/format_revision" - 2 ^ 32) with (revision_of cat). cbv zeta. rewrite rockstar_same. fold halo. rewrite I1. cbn [bind]. rewrite !I3.
  assert (forall n, In n ["p_start"; "num_p"]%string -> existsb (String.eqb n) (map m_name halo) = true) as Hex. { intros n Hin. apply existsb_exists. exists n. split; [|apply String.eqb_refl]. unfold halo, rockstar_halo. destruct (1 <? revision_of cat), galaxies; cbn in Hin |- *; destruct Hin as [<-|[<-|[]]]; tauto. }
  rewrite !Hex by (cbn; tauto). cbn [bind].
  destruct (R1 (nm "IDs") 8 [zlen ids] ids) as (id2 & at2 & b2 & it2 & B1 & B2 & B3 & _); [apply in_or_app; right; right; now left|]. rewrite B1. cbn [bind]. rewrite B2. cbn [bind]. rewrite B3. cbn [nth].
  rewrite (forallb_combine_map (fun a b => wrap64 (i64 a + i64 b) <=? zlen ids)).
  assert (forall s, i64 (s "p_start"%string) = first_particle s) as E1 by (intro s; unfold i64, first_particle; now rewrite int64_signed).
  assert (forall s, i64 (s "num_p"%string) = number_of_particles s) as E2 by (intro s; unfold i64, number_of_particles; now rewrite int64_signed).
  rewrite (forallb_same _ (fun s => wrap64 (first_particle s + number_of_particles s) <=? zlen ids)) by (intro s; now rewrite E1, E2).
  rewrite forallb_maps. rewrite (forallb_same (fun s => 0 <=? i64 (s "p_start"%string)) (fun s => 0 <=? first_particle s)) by (intro s; now rewrite E1).
  unfold structure in *. destruct (forallb _ structures); cbn [check bind andb]; [|reflexivity]. destruct (forallb _ structures); reflexivity.
Qed.
Lemma wrap64_id v : - 2 ^ 63 <= v < 2 ^ 63 -> wrap64 v = v.
Proof.
  intro H. unfold wrap64, signed64. destruct (Z.leb_spec 0 v).
  - rewrite Z.mod_small by lia. replace (2 ^ 63 <=? v) with false by lia. reflexivity.
  - replace (v mod 2 ^ 64) with (v + 2 ^ 64) by (symmetry; rewrite <- (Z.mod_add v 1) by lia; apply Z.mod_small; lia). replace (2 ^ 63 <=? v + 2 ^ 64) with true by lia. lia.
Qed.
Lemma rockstar_check_exact cat galaxies offs size structures images ids little rest f :
  let halo := rockstar_halo (revision_of cat) galaxies in
  Forall piece_ok (map (attr_of cat) rockstar_header) -> c_layout halo offs size -> Forall2 (image little halo offs size) structures images ->
  scalar cat "Header/num_halos" = zlen structures -> zlen structures < 2 ^ 63 -> scalar cat "Header/num_particles" = zlen ids -> zlen ids < 2 ^ 63 ->
  Forall (fun v => 0 <= v < 2 ^ 64) ids -> Forall byte rest ->
  let content := rockstar_file little cat images ids rest in
  open_file little content (rockstar galaxies) = (f, Ok tt) ->
  Forall (fun s => - 2 ^ 63 <= first_particle s + number_of_particles s < 2 ^ 63) structures ->
  (rockstar_check little content galaxies f = Ok tt <-> Forall (fun s => 0 <= first_particle s /\ first_particle s + number_of_particles s <= zlen ids) structures) /\
  (rockstar_check little content galaxies f <> Ok tt -> rockstar_check little content galaxies f = Err EAssert).
Proof.
  intros halo Hh Hlay HF Hn Hn' Hm Hm' Hids Hrest content Ho Hov. unfold content. rewrite (rockstar_check_is cat galaxies offs size structures images ids little rest f) by assumption.
  match goal with |- context [if ?c then _ else _] => assert (c = true <-> Forall (fun s => 0 <= first_particle s /\ first_particle s + number_of_particles s <= zlen ids) structures) as E; [|destruct c] end.
  - rewrite andb_true_iff, !forallb_forall, Forall_forall. rewrite Forall_forall in Hov. split.
    + intros [H1 H2] s Hin. specialize (H1 s Hin). specialize (H2 s Hin). rewrite wrap64_id in H1 by now apply Hov. lia.
    + intro H. split; intros s Hin; specialize (H s Hin); [rewrite wrap64_id by now apply Hov|]; lia.
  - split; [tauto|]. intro H. now contradiction H.
  - split; [|reflexivity]. split; [discriminate|]. intro H. apply E in H. discriminate.
Qed.

(** *** VELOCIraptor *)
Lemma entries_bytes little texts : Forall (fun a => isbytes a /\ zlen a = 40) texts -> forall k, file_bytes little (zipwith entry (zseq k (List.length texts)) (map (as_number little) texts)) = concat texts.
Proof.
  induction 1 as [|a l [Ha Hl] H IH]; intro k; [reflexivity|]. cbn [List.length zseq map zipwith]. unfold file_bytes in *. cbn [map concat]. rewrite IH. f_equal. cbn [entry piece_bytes map concat]. rewrite app_nil_r. rewrite <- Hl. now apply as_number_bytes.
Qed.
Lemma velociraptor_bytes little cat size texts images rest : Forall (fun a => isbytes a /\ zlen a = 40) texts -> Forall (fun a => isbytes a /\ zlen a = size) images ->
  velociraptor_file little cat texts images rest = file_bytes little (velociraptor_pieces little cat (map (as_number little) texts) size images) ++ rest.
Proof.
  intros Ht Hi. unfold velociraptor_file, velociraptor_pieces. rewrite !file_app, <- !app_assoc. rewrite map_length, entries_bytes by exact Ht. do 2 f_equal. unfold file_bytes. cbn [map concat piece_bytes]. rewrite (images_bytes little size images Hi), app_nil_r. reflexivity.
Qed.
Lemma entries_ok little texts : Forall (fun a => isbytes a /\ zlen a = 40) texts -> forall k, Forall piece_ok (zipwith entry (zseq k (List.length texts)) (map (as_number little) texts)).
Proof.
  induction 1 as [|a l [Ha Hl] H IH]; intro k; [constructor|]. cbn [List.length zseq map zipwith]. constructor; [|apply IH]. cbn [entry piece_ok]. split; [lia|]. split; [constructor|]. split; [reflexivity|]. constructor; [|constructor]. rewrite <- Hl. now apply as_number_range.
Qed.
Lemma entries_noraw l : forall k, filter is_data (zipwith entry (zseq k (List.length l)) l) = zipwith entry (zseq k (List.length l)) l /\ Forall (fun p => match p with Raw _ => False | _ => True end) (zipwith entry (zseq k (List.length l)) l).
Proof. induction l as [|a l IH]; intro k; [split; constructor|]. cbn [List.length zseq zipwith filter entry is_data]. destruct (IH (k + 1)) as [IH1 IH2]. split; [now rewrite IH1 | constructor; [exact I | exact IH2]]. Qed.
Lemma velociraptor_opens cat keep offs size texts structures images little rest :
  let object := velociraptor_object (negb (keep =? 0)) in
  Forall piece_ok (map (attr_of cat) velociraptor_header) -> packed_layout object offs size -> Forall2 (image little object offs size) structures images ->
  Forall (fun a => Forall byte a /\ zlen a = 40) texts -> scalar cat "Header/hsize" = zlen texts -> zlen texts < 2 ^ 63 -> scalar cat "Header/ng" = zlen structures -> Forall byte rest ->
  let content := velociraptor_file little cat texts images rest in
  exists f, open_file little content (velociraptor true keep false) = (f, Ok tt) /\ reads_back little content (velociraptor_pieces little cat (map (as_number little) texts) size images) f /\ order_is little little f /\
    (all_bytes_used content f = true <-> rest = []) /\ has_columns little content f (nm "Halo") false object structures.
Proof.
  intros object Hh Hlay HF Ht Hn Hn' Hm Hrest content. pose proof (velociraptor_ok keep) as [Hs Hd]. pose proof (velociraptor_same keep) as Esame. fold object in Esame. rewrite Esame in Hs, Hd.
  assert (0 < size) as Hpos by (apply (layout_pos false object offs size (M "haloid" 8 1) Hs Hlay); [now left | cbn; lia]).
  pose proof (images_len _ _ _ _ _ _ HF) as El. pose proof (image_ok _ _ _ _ _ _ HF) as Him. unfold content. rewrite (velociraptor_bytes little cat size texts images rest Ht Him).
  assert (zlen (map (as_number little) texts) = zlen texts) as Et by (unfold zlen; now rewrite map_length).
  assert (Forall piece_ok (velociraptor_pieces little cat (map (as_number little) texts) size images)) as Hok.
  { unfold velociraptor_pieces. apply Forall_app. split; [exact Hh|]. apply Forall_app. split; [rewrite map_length; now apply entries_ok|]. constructor; [now apply (halo_piece little object offs size structures) | constructor]. }
  destruct (entries_noraw (map (as_number little) texts) 0) as [Ed Er].
  apply (struct_opens (velociraptor true keep false) (velociraptor_pieces little cat (map (as_number little) texts) size images) (nm "Halo") false object offs size structures images little rest); auto.
  - apply velociraptor_plain.
  - apply opens_intro.
    + cbv zeta. intro Hne. assert (filter is_data (velociraptor_pieces little cat (map (as_number little) texts) size images) = velociraptor_pieces little cat (map (as_number little) texts) size images) as -> by (unfold velociraptor_pieces; now rewrite !filter_app, attr_data, Ed). apply velociraptor_runs; auto; [rewrite Esame; now apply (struct_size false object offs size) | now rewrite Et | now rewrite Et | now rewrite El].
    + exists (attr_of cat (one "Header/ThisTask" 4)). split; [apply in_or_app; left; now left|]. apply Forall_inv in Hh. cbn in Hh. destruct Hh as (_ & _ & Hl & _). cbn [attr_of piece_bytes one fd_size fd_name]. rewrite vals_bytes_len by lia. lia.
  - apply Forall_app. split; [apply attr_noraw|]. apply Forall_app. split; [exact Er | repeat constructor].
  - apply in_or_app. right. apply in_or_app. right. now left.
Qed.
Lemma velociraptor_no_np_int little content keep other : snd (open_file little content (velociraptor false keep other)) = Err EName.
Proof. reflexivity. Qed.

(** *** merger trees *)
Lemma tree_bytes little n_per_tree size images rest : Forall (fun a => isbytes a /\ zlen a = size) images -> tree_file little n_per_tree images rest = file_bytes little (tree_pieces little n_per_tree size images) ++ rest.
Proof. intro H. unfold tree_file, tree_pieces, file_bytes. cbn [map concat piece_bytes]. rewrite (images_bytes little size images H), !app_nil_r, <- !app_assoc. reflexivity. Qed.
Lemma tree_opens id tab offs size n_per_tree structures images little rest :
  let halo := tree_halo id tab in
  id_size id -> c_layout halo offs size -> Forall2 (image little halo offs size) structures images ->
  Forall (fun v => 0 <= v < 2 ^ 32) n_per_tree -> zlen n_per_tree < 2 ^ 31 -> zlen structures < 2 ^ 31 -> Forall byte rest ->
  let content := tree_file little n_per_tree images rest in
  exists f, open_file little content (mpa_tree id tab) = (f, Ok tt) /\ reads_back little content (tree_pieces little n_per_tree size images) f /\ order_is little little f /\
    (all_bytes_used content f = true <-> rest = []) /\ has_columns little content f (nm "HaloList") false halo structures.
Proof.
  intros halo Hid Hlay HF Hv Hn Hm Hrest content. pose proof (tree_ok id tab Hid) as [Hs Hd]. pose proof (tree_same id tab) as Esame. fold halo in Esame. rewrite Esame in Hs, Hd. apply (tree_layout id tab) in Hlay; [|exact Hid].
  assert (0 < size) as Hpos by (apply (layout_pos false halo offs size (M "Descendant" 4 1) Hs Hlay); [now left | cbn; lia]).
  pose proof (images_len _ _ _ _ _ _ HF) as El. pose proof (image_ok _ _ _ _ _ _ HF) as Him. unfold content. rewrite (tree_bytes little n_per_tree size images rest Him).
  assert (Forall piece_ok (tree_pieces little n_per_tree size images)) as Hok.
  { assert (forall v, 0 <= v < 2 ^ 31 -> 0 <= v < 256 ^ 4) as Hr by (intros v H; change (256 ^ 4) with (2 ^ 32); lia).
    unfold tree_pieces. repeat apply Forall_cons; [| | | now apply (halo_piece little halo offs size structures) | constructor]; cbn [piece_ok].
    - repeat split; try constructor; try (apply Hr; split; [apply zlen_nonneg | exact Hn]); constructor.
    - repeat split; try constructor; try (apply Hr; split; [apply zlen_nonneg | lia]); constructor.
    - split; [lia|]. split; [constructor; [apply zlen_nonneg | constructor]|]. split; [cbn [fold_left]; lia | exact Hv]. }
  apply (struct_opens (mpa_tree id tab) (tree_pieces little n_per_tree size images) (nm "HaloList") false halo offs size structures images little rest); auto.
  - apply tree_plain.
  - apply opens_intro.
    + cbv zeta. intro Hne. change (filter is_data (tree_pieces little n_per_tree size images)) with (tree_pieces little n_per_tree size images). apply tree_runs; auto; [rewrite Esame; now apply (struct_size false halo offs size) | lia].
    + eexists. split; [now left|]. cbn [piece_bytes]. rewrite vals_bytes_len by lia. reflexivity.
  - repeat constructor.
  - right. right. right. now left.
Qed.

(** *** Millennium-XXL *)
Lemma mxxl_sub_tab_fails little content a b c id fl : snd (open_file little content (mxxl_sub_tab a b c id fl)) = Err EType.
Proof. reflexivity. Qed.
Lemma mxxl_sub_desc_opens cat little rest : consistent cat MXXL_sub_desc -> opens mxxl_sub_desc (pieces_of cat MXXL_sub_desc) little little rest.
Proof.
  intro C. pose proof C as [Hok _]. apply opens_intro; [|apply (some_bytes little cat _ (one "Nsubgroups" 4)); [exact Hok | now left | reflexivity]].
  cbv zeta. intro Hne. rewrite data_pieces. set (content := _ ++ rest) in *. pose proof (count_ok little little content rest Hne cat _ "Nsubgroups" C eq_refl) as Cn.
  set (a := [as_item cat (one "Nsubgroups" 4)]). set (b := map (as_item cat) (tl MXXL_sub_desc)). pose proof (Forall_inv Hok) as Ha. pose proof (Forall_inv_tail Hok) as Hb.
  assert (Forall piece_ok (map (as_piece false) a)) as Ha' by (constructor; [exact Ha | constructor]).
  change (pieces_of cat MXXL_sub_desc) with (map (as_piece false) a ++ map (as_piece false) b ++ []). unfold mxxl_sub_desc.
  match goal with |- runs _ _ _ _ _ (adds ?x ?k) _ _ => change (adds x k) with (add_all false (map as_call a) k) end.
  apply (runs_itemsR false a little little content rest Hne []); [reflexivity | vm_compute; reflexivity | exact Ha'|].
  intros st K C1 C2 C3 C4. cbn [app] in K. assert (rightly little little (l_cur st) = true) as Hr by (rewrite C1; unfold rightly; destruct little; reflexivity).
  apply (runs_getP little little content rest Hne _ st (nm "Nsubgroups") 4 [] (cat "Nsubgroups"%string)) with (1 := K); [now left | exact Hr|].
  assert (cat "Nsubgroups"%string = [scalar cat "Nsubgroups"]) as -> by (cbn in Ha; destruct Ha as (_ & _ & Hl & _); unfold scalar; destruct (cat "Nsubgroups"%string) as [|x [|y t]]; unfold zlen in Hl; cbn [List.length] in Hl; try lia; reflexivity).
  cbv zeta. rewrite (i32_count little little content rest Hne cat) by exact Cn.
  match goal with |- runs _ _ _ _ _ (adds ?x ?k) _ _ => change (adds x k) with (add_all false (map as_call b) k) end.
  apply (runs_itemsR false b little little content rest Hne (map (as_piece false) a)); [exact K | vm_compute; reflexivity | exact Hb|].
  intros st' K' D1 D2 D3 D4. apply runs_successP; [exact Hne | exact K' | now rewrite D1 | now rewrite D2, C2].
Qed.
Lemma mxxl_field_runs little content post cat : content <> [] -> records_ok (MXXL_field cat) -> scalar cat "nn" < 2 ^ 31 -> scalar cat "isw_slabs_per_task" < 2 ^ 31 ->
  runs little (negb little) content post start_state mxxl_field (MXXL_field cat) (successP little (negb little) content post (filter is_data (MXXL_field cat)) 0).
Proof.
  intros Hne Hok Cn Cs. unfold MXXL_field in *. apply ok_app in Hok. destruct Hok as [Hok1 Hok2]. apply ok_record in Hok1, Hok2. destruct Hok1 as [Hh _], Hok2 as [Hg Hgn].
  assert (sumZ (map piece_size (pieces_of cat MXXL_field_header)) = 20) as Hsz by (rewrite declared_sum by exact Hh; reflexivity).
  set (nn := scalar cat "nn") in *. set (slabs := scalar cat "isw_slabs_per_task") in *.
  assert (sumZ (map piece_size [data_of cat (F "grid" 4 [Of "isw_slabs_per_task"; Of "nn"; Of "nn"])]) = 4 * slabs * nn * nn) as Hsg by (rewrite declared_sum by exact Hg; cbn [map sumZ data_of declared fd_dims fd_size extent fold_left fold_right]; fold nn slabs; unfold sumZ; cbn [fold_right]; lia).
  rewrite filter_app, !data_record, data_pieces. set (Q := successP _ _ _ _ _ _). unfold record. rewrite Hsz, Hsg in *.
  set (h := map (as_item cat) MXXL_field_header). set (g := [as_item cat (F "grid" 4 [Of "isw_slabs_per_task"; Of "nn"; Of "nn"])]).
  change (pieces_of cat MXXL_field_header) with (map (as_piece false) h) in *. change [data_of cat (F "grid" 4 [Of "isw_slabs_per_task"; Of "nn"; Of "nn"])] with (map (as_piece false) g) in *.
  cbn [app]. rewrite <- !app_assoc. cbn [app]. unfold mxxl_field.
  apply (runs_mark little (negb little) content post Hne); [lia|]. cbn [start_state l_cur]. assert (rightly little (negb little) NAT = false) as -> by (unfold rightly; destruct little; reflexivity).
  assert (i32 [seen false 4 20] =? 8 = false) as -> by reflexivity. cbn [negb]. cbv zeta. apply runs_swap; [exact Hne|].
  match goal with |- runs _ _ _ _ ?s (adds ?x ?k) _ _ => change (adds x k) with (add_all false (map as_call h) k); assert (rightly little (negb little) (l_cur s) = true) as Hr by (unfold rightly; destruct little; reflexivity); assert (l_gap s = 0) as Hgap by reflexivity; assert (knowsP [] s) as K0 by reflexivity; set (s0 := s) in * end.
  apply (runs_itemsR false h little (negb little) content post Hne []); [exact K0 | vm_compute; reflexivity | exact Hh|].
  intros st K C1 C2 C3 C4. cbn [app] in K. rewrite <- C1 in Hr. rewrite <- C2 in Hgap. clear C3 C4.
  apply (runs_mark little (negb little) content post Hne); [lia|].
  set (st1 := adv 4 st). assert (knowsP (map (as_piece false) h) st1) as K1 by exact K. assert (rightly little (negb little) (l_cur st1) = true) as Hr1 by exact Hr. assert (l_gap st1 = 0) as Hg1 by exact Hgap.
  assert (forall name, In (one name 4) MXXL_field_header -> cat name = [scalar cat name] /\ 0 <= scalar cat name < 256 ^ 4) as Hsc.
  { intros name Hin. apply (one_value cat name 4). rewrite Forall_forall in Hh. apply Hh. change (Data (nm name) false 4 [] (cat name)) with (data_of cat (one name 4)). change (map (as_piece false) h) with (map (data_of cat) MXXL_field_header). now apply in_map. }
  destruct (Hsc "nn"%string) as [En Hn]; [cbn; tauto|]. destruct (Hsc "isw_slabs_per_task"%string) as [Es Hs]; [cbn; tauto|]. fold nn in En, Hn. fold slabs in Es, Hs.
  apply (runs_getP little (negb little) content post Hne _ st1 (nm "nn") 4 [] (cat "nn"%string)) with (1 := K1); [right; right; now left | exact Hr1|]. rewrite En.
  apply (runs_getP little (negb little) content post Hne _ st1 (nm "isw_slabs_per_task") 4 [] (cat "isw_slabs_per_task"%string)) with (1 := K1); [right; right; right; now left | exact Hr1|]. rewrite Es.
  assert (forall v, 0 <= v < 2 ^ 31 -> i32 [v] = v) as Hi by (intros v Hv; unfold i32; cbn [nth]; now apply signed32_small). cbv zeta. rewrite !Hi by lia.
  apply (runs_mark little (negb little) content post Hne); [lia|]. rewrite Hr1. cbn [seen]. rewrite !Hi by lia. rewrite Z.eqb_refl. cbn [negb].
  match goal with |- runs _ _ _ _ ?s (adds ?x ?k) _ _ => change (adds x k) with (add_all false (map as_call g) k); set (st2 := s) end.
  apply (runs_itemsR false g little (negb little) content post Hne (map (as_piece false) h)); [exact K1 | vm_compute; reflexivity | exact Hg|].
  intros st3 K3 D1 D2 D3 D4. assert (rightly little (negb little) (l_cur st3) = true) as Hr3 by (rewrite D1; exact Hr1).
  apply (runs_mark little (negb little) content post Hne); [lia|]. rewrite Hr3. cbn [seen]. rewrite !Hi by lia. rewrite Z.eqb_refl. cbn [negb].
  unfold Q. apply runs_successP; [exact Hne | exact K3 | exact Hr3 | cbn [adv l_gap]; rewrite D2; exact Hg1].
Qed.
Lemma mxxl_field_opens little cat rest : records_ok (MXXL_field cat) -> scalar cat "nn" < 2 ^ 31 -> scalar cat "isw_slabs_per_task" < 2 ^ 31 -> opens mxxl_field (MXXL_field cat) little (negb little) rest.
Proof.
  intros Hok C1 C2. apply opens_intro; [intros content Hne; now apply mxxl_field_runs|]. eexists. split; [left; reflexivity|]. cbn [piece_bytes]. rewrite number_len; lia.
Qed.
