(** Opening Gadget snapshots: the header, all the blocks, and files which are not snapshots. *)
From Coq Require Import Ascii String.
From Verif.Base Require Import Prelude ListLemmas Order.
From Verif.Binary Require Import BinModel NameProofs LayoutProofs EndianProofs FortranProofs UsedProofs TreeProofs BinaryFinal.
From Verif.Formats Require Import ReaderModel FileSpec ReaderProofs RunProofs CatSpec CatProofs SnapProofs CatFinal GadgetSpec GadgetProofs.
From Coq Require Import ZifyBool ZifyNat.
Local Open Scope Z_scope.

Lemma signed_small l : Forall (fun v => 0 <= v < 256 ^ 4) l -> Forall (fun n => n < 2 ^ 31) l -> map signed32 l = l.
Proof. intros H1 H2. rewrite <- (map_id l) at 2. apply map_ext_in. intros v Hv. rewrite Forall_forall in H1, H2. specialize (H1 v Hv). specialize (H2 v Hv). apply signed32_small. lia. Qed.
Lemma zero_iff v : 0 <= v < 256 ^ 8 -> (is_zero v = true <-> zero64 v).
Proof.
  intro H. unfold is_zero, zero64. rewrite Z.eqb_eq. change (256 ^ 8) with (2 * 2 ^ 63) in H. split.
  - intro E. apply Z.mod_divide in E; [|lia]. destruct E as [k ->]. assert (k = 0 \/ k = 1) as [-> | ->] by lia; lia.
  - intros [-> | ->]; reflexivity.
Qed.
Lemma mass_types_eq (cat : catalogue) vm : Forall (fun v => 0 <= v < 256 ^ 8) (cat "Header/MassTable"%string) -> mass_types cat vm -> map is_zero (cat "Header/MassTable"%string) = vm.
Proof.
  unfold mass_types. intros Hr H. induction H as [|v b l vm Hvb H IH]; [reflexivity|]. apply Forall_cons_iff in Hr. destruct Hr as [Hv Hr]. cbn [map]. f_equal; [|now apply IH]. pose proof (zero_iff v Hv) as Z0. destruct b, (is_zero v); try reflexivity; exfalso; intuition discriminate.
Qed.
Lemma standard_given vm mt : map is_zero mt = vm -> map given (standard mt) = standard_quantities vm.
Proof. intros <-. reflexivity. Qed.

Section Open.
  Variables (little lf : bool) (content post : list Z).
  Hypothesis Hne : content <> [].
  Variables (cat : catalogue) (fill : list Z) (vm : list bool) (extra : list dataset) (size : str -> Z) (vals : str -> nat -> list Z).
  Let npart := cat "Header/NumPart_ThisFile"%string.
  Let quantities := standard_quantities vm ++ map given extra.
  Hypothesis Hok : snapshot_ok cat fill quantities size vals.
  Hypothesis Hvm : mass_types cat vm.
  Hypothesis Hex : Forall number_type extra.
  Set Default Proof Using "All".
  Local Notation runs := (runs little lf content post).
  Local Notation inv := (inv lf content post).
  Local Notation right e := (rightly little lf e).
  Local Notation block := (block npart size vals).
  Local Notation arrays := (arrays npart size vals).
  Local Notation attrs := (map (attr_of cat) G_header).
  Let table := standard (cat "Header/MassTable"%string) ++ extra.

  Lemma header_data name sz : In (six name sz) G_header -> List.length (cat name) = 6%nat /\ Forall (fun v => 0 <= v < 256 ^ sz) (cat name).
  Proof.
    intro H. destruct Hok as [Hh _ _ _ _ _ _]. rewrite Forall_forall in Hh. specialize (Hh (attr_of cat (six name sz)) (in_map _ _ _ H)). destruct Hh as (_ & _ & H1 & H2). split; [|exact H2]. cbn in H1. unfold zlen in H1. lia.
  Qed.
  Lemma npart_ok : List.length npart = 6%nat /\ Forall (fun n => 0 <= n) npart /\ map signed32 npart = npart.
  Proof.
    destruct (header_data "Header/NumPart_ThisFile" 4) as [H1 H2]; [now left|]. split; [exact H1|]. split; [eapply Forall_impl; [|exact H2]; cbv beta; intros; lia|]. apply signed_small; [exact H2 | apply (s_npart _ _ _ _ _ Hok)].
  Qed.
  Lemma table_given : map given table = quantities.
  Proof.
    unfold table, quantities. rewrite map_app. f_equal. apply standard_given. apply mass_types_eq; [|exact Hvm]. apply (header_data "Header/MassTable" 8). right. now left.
  Qed.
  Lemma table_ok : quantities_ok size table.
  Proof.
    destruct Hok as [_ _ _ H1 H2 H3 H4]. split; rewrite ?table_given; auto. apply Forall_app. split; [|exact Hex]. repeat constructor; cbn; discriminate.
  Qed.
  Lemma header_size : sumZ (map piece_size attrs) = 192.
  Proof. rewrite declared_sum by apply (s_header _ _ _ _ _ Hok). reflexivity. Qed.
  Lemma header_names : Forall (good_name []) (map pname attrs).
  Proof. repeat constructor; cbn; eexists; reflexivity. Qed.
  Lemma seen_256 r : seen r 4 256 = if r then 256 else 65536. Proof. destruct r; reflexivity. Qed.
  Lemma settle s : right (swap_endian little s) = if s then negb (Bool.eqb little lf) else Bool.eqb little lf.
  Proof. destruct little, lf, s; reflexivity. Qed.

  (** up to the attributes *)
  Lemma run_attributes rest Q : (forall st k, knowsP attrs st -> right (l_cur st) = true -> l_rec st = None -> l_gap st = 0 -> l_pos st = 196 ->
      (k = SkipTo (256 + 4) (GetAttr "Header" "NumPart_ThisFile" (fun v => let npart_type := map signed32 v in GetAttr "Header" "MassTable" (fun masstable => ReadSkip t_uint32 (fun v => if negb (nth 0 v 0 =? 256) then Fail EIO else blocks npart_type (standard masstable ++ extra) 0) (Fail EIO))))) -> runs st k rest Q) ->
    runs (start_state) (gadget_snapshot extra) (Mark 256 :: attrs ++ rest) Q.
  Proof.
    intro H. unfold gadget_snapshot. apply (runs_mark little lf content post Hne); [lia|]. cbn [nth]. set (st0 := adv 4 start_state).
    assert (right (l_cur (start_state)) = Bool.eqb little lf) as E0 by (cbn [start_state l_cur]; unfold rightly; destruct little, lf; reflexivity).
    assert (forall s, Bool.eqb little lf = negb s -> runs st0 (Swap s (gadget_body extra)) (attrs ++ rest) Q) as G.
    { intros s Hs. apply (runs_swap little lf content post Hne). unfold gadget_body.
      match goal with |- runs _ (attributes ?a ?k) _ _ => change (attributes a k) with (add_all true (map as_call (map (as_item cat) G_header)) k) end.
      rewrite <- (as_item_attr cat G_header). apply (runs_items little lf content post Hne true _ []); [reflexivity | vm_compute; reflexivity | rewrite as_item_attr; apply (s_header _ _ _ _ _ Hok)|].
      intros st K C1 C2 C3 C4. rewrite as_item_attr in *. cbn [app] in K. apply H; auto.
      - rewrite C1. cbn [turn l_cur]. rewrite settle, Hs. now destruct s.
      - rewrite C4, header_size. reflexivity. }
    rewrite seen_256, E0. destruct (Bool.eqb little lf) eqn:E.
    - replace (256 =? 256) with true by reflexivity. now apply G.
    - replace (65536 =? 256) with false by reflexivity. replace (65536 =? 65536) with true by reflexivity. now apply G.
  Qed.
  Lemma run_header rest Q : (forall st, between little lf attrs [] 64 st -> l_pos st = 260 ->
      runs st (ReadSkip t_uint32 (fun v => if negb (nth 0 v 0 =? 256) then Fail EIO else blocks npart table 0) (Fail EIO)) rest Q) ->
    runs (start_state) (gadget_snapshot extra) (Mark 256 :: attrs ++ Raw fill :: rest) Q.
  Proof.
    intro H. pose proof (s_fill _ _ _ _ _ Hok) as Hf. apply run_attributes. intros st k K Hr Hrec Hg Hp ->. apply (runs_skipto little lf content post Hne); [lia|].
    set (st1 := loose _ _). assert (knowsP attrs st1) as K1 by exact K.
    apply (runs_getattrP little lf content post Hne attrs st1 _ _ (nm "Header/NumPart_ThisFile") 4 [6] npart); [exact K1 | now left | reflexivity | exact Hr|].
    apply (runs_getattrP little lf content post Hne attrs st1 _ _ (nm "Header/MassTable") 8 [6] (cat "Header/MassTable"%string)); [exact K1 | right; now left | reflexivity | exact Hr|].
    cbv zeta beta. destruct npart_ok as (_ & _ & ->). apply H.
    - split; [exact K|]. split; [exact Hr|]. split; [exact Hrec|]. split; [cbn [st1 loose adv l_gap]; lia | exact header_names].
    - cbn [st1 loose adv l_pos]. lia.
  Qed.
  (** the header and [n] blocks *)
  Lemma run_snapshot n rest Q : (n <= List.length (present npart quantities))%nat -> Forall piece_ok (flat_map block (firstn n (present npart quantities))) ->
    (forall st done, between little lf (attrs ++ flat_map arrays (firstn n (present npart quantities))) done 64 st -> quantities_ok size (after npart n table) -> disjoint_names done (after npart n table) ->
       present npart (map given (after npart n table)) = skipn n (present npart quantities) ->
       runs st (blocks npart (after npart n table) (Z.of_nat n)) rest Q) ->
    runs (start_state) (gadget_snapshot extra) (header_pieces cat fill ++ flat_map block (firstn n (present npart quantities)) ++ rest) Q.
  Proof.
    intros Hn Hb Hk. unfold header_pieces. cbn [app]. rewrite <- app_assoc. cbn [app]. apply run_header. intros st B _. destruct npart_ok as (N1 & N2 & N3).
    apply (read_mark little lf content post Hne npart size vals N1 N2 attrs [] 64); [exact B | lia|]. intros st1 B1 _. cbn [nth]. replace (negb (256 =? 256)) with false by reflexivity. cbv iota.
    rewrite <- table_given in *. apply (run_blocks little lf content post Hne npart size vals N1 N2 n table attrs [] 64); auto.
    - exact table_ok.
    - intros q Hq [].
    - intros st2 done B2 Q2 D2. rewrite Z.add_0_l. apply (Hk st2 done); auto. now rewrite after_present.
  Qed.

  Definition opened_as (n : nat) (f : file) (r : res unit) : Prop := successP little lf content post (attrs ++ flat_map arrays (firstn n (present npart quantities))) 64 f r.
  Lemma run_all n : (n <= List.length (present npart quantities))%nat -> Forall piece_ok (flat_map block (firstn n (present npart quantities))) ->
    n = List.length (present npart quantities) \/ (3 <= n)%nat /\ zlen post < 4 ->
    runs (start_state) (gadget_snapshot extra) (header_pieces cat fill ++ flat_map block (firstn n (present npart quantities))) (opened_as n).
  Proof.
    intros Hn Hb Hend. rewrite <- (app_nil_r (flat_map block _)). apply run_snapshot; auto. intros st done B Hq Hd E. destruct npart_ok as (N1 & N2 & N3).
    assert (runs st Done [] (opened_as n)) as HDone. { destruct B as (K & Hr & _ & Hg & _). now apply (runs_successP little lf content post Hne). }
    destruct (skipn n (present npart quantities)) as [|q t] eqn:Es.
    - destruct (skip_absent little lf content post Hne npart size vals N1 N2 (after npart n table) (Z.of_nat n) E) as [->|(d & Hin & Hd6)]; [exact HDone|].
      exfalso. destruct Hq as [_ Ht _ _ _]. rewrite Forall_forall in Ht. apply Hd6, Ht. now apply in_map.
    - destruct Hend as [->|[Hn3 Hp]]; [rewrite skipn_all in Es; discriminate|].
      destruct (present_first little lf content post Hne npart size vals N1 N2 (after npart n table) q t (Z.of_nat n)) as (d & l' & Ed & -> & Hnum & _ & _); [apply Hq | exact E|].
      destruct d as [[[name ty] shape] types]. cbn [blocks]. pose proof (number_mask npart N1 q) as Em. subst q. cbn [given q_types] in Em.
      assert (List.length types = 6%nat) as H6.
      { destruct Hok as [_ _ _ _ Ht _ _]. rewrite Forall_forall in Ht. apply (Ht (given (name, ty, shape, types))). assert (In (given (name, ty, shape, types)) (skipn n (present npart quantities))) as Hi by (rewrite Es; now left).
        assert (In (given (name, ty, shape, types)) (present npart quantities)) as Hi2 by (rewrite <- (firstn_skipn n); apply in_or_app; now right). now apply filter_In in Hi2. }
      rewrite Em by exact H6. change {| q_name := name; q_shape := shape; q_types := types |} with (given (name, ty, shape, types)). replace (0 <? number npart (given (name, ty, shape, types))) with true by lia.
      apply (runs_eof little lf content post Hne); [exact Hp|]. replace (Z.of_nat n <? 3) with false by lia. exact HDone.
  Qed.
End Open.

(** *** the files *)
Lemma gap_unused lf content post st f : inv lf content post st [] f -> 0 < l_gap st -> all_bytes_used content f = false.
Proof.
  intros (I1 & I2 & I3 & I4 & _ & I6 & I7 & (pre & E & Hpre) & _) T. destruct (all_bytes_used content f) eqn:U; [|reflexivity]. exfalso. apply used_iff in U. apply btb_sum in U. assert (sumZ (map b_nbytes (sorted_blocks f)) = sumZ (map b_nbytes (f_blocks f))) as Es by (apply sumZ_perm; apply Permutation_map; apply sorted_perm).
  destruct I7 as (_ & _ & I7). unfold file_bytes in E. cbn [map concat app] in E. pose proof (zlen_nonneg post). assert (zlen content = l_pos st + zlen post) as Hz by (rewrite E, zlen_app; lia). lia.
Qed.
Lemma mark_ne lf n l rest : file_bytes lf (Mark n :: l) ++ rest <> [].
Proof. apply (bytes_ne lf _ (Mark n)); [now left|]. cbn [piece_bytes]. rewrite number_len; lia. Qed.
Lemma data_blocks npart size vals l : filter is_data (flat_map (block npart size vals) l) = flat_map (arrays npart size vals) l.
Proof.
  induction l as [|q l IH]; [reflexivity|]. cbn [flat_map]. rewrite filter_app, IH. f_equal. unfold block. rewrite data_record. apply filter_all. unfold arrays. apply Forall_map, Forall_forall. reflexivity.
Qed.
Lemma seen_seen r n : 0 <= n < 2 ^ 32 -> seen r 4 (seen r 4 n) = n.
Proof.
  intro H. unfold seen. destruct r; [reflexivity|]. change (Z.to_nat 4) with 4%nat. pose proof (le_value_bytes (rev (le_bytes 4 n)) (isbytes_rev _ (le_bytes_bytes 4 n))) as E. rewrite rev_length, le_bytes_length in E. rewrite E, rev_involutive. now apply le_bytes_value.
Qed.
(** *** files which end early *)
Lemma zslice_more {A} (a b : list A) x y : 0 <= x -> y <= zlen a -> zslice (a ++ b) x y = zslice a x y.
Proof.
  intros Hx Hy. unfold zslice, zlen in *. destruct (Z_lt_le_dec y x) as [H|H]; [replace (Z.to_nat y - Z.to_nat x)%nat with 0%nat by lia; reflexivity|].
  rewrite skipn_app, firstn_app. rewrite skipn_length. replace (Z.to_nat y - Z.to_nat x - (List.length a - Z.to_nat x))%nat with 0%nat by lia. cbn [firstn]. apply app_nil_r.
Qed.
Lemma inv_more lf content post x st rest f : inv lf content post st rest f -> inv lf (content ++ x) (post ++ x) st rest f.
Proof.
  intros (I1 & I2 & I3 & I4 & G & I6 & I7 & (pre & E & Hp) & I9 & I10 & I11). split; [exact I1|]. split; [exact I2|]. split; [exact I3|]. split; [exact I4|]. split; [exact G|]. split; [exact I6|]. split; [exact I7|].
  split; [exists pre; split; [rewrite E, <- !app_assoc; reflexivity | exact Hp]|]. split; [|split; assumption]. eapply Forall_impl; [|exact I9]. intros q (H1 & H2 & H3 & H4 & H5 & H6 & H7). unfold ent_data. repeat (split; [assumption|]). split; [rewrite zlen_app; pose proof (zlen_nonneg x); lia|]. rewrite zslice_more by lia. exact H7.
Qed.
Lemma inv_split lf content post st l f : inv lf content (file_bytes lf l ++ post) st [] f -> inv lf content post st l f.
Proof. intros (I1 & I2 & I3 & I4 & G & I6 & I7 & (pre & E & Hp) & I9 & I10 & I11). repeat (split; [assumption|]). split; [exists pre; split; [exact E | exact Hp]|]. auto. Qed.
Lemma exec_adds little content content' a l : forall k f, exec little content (add_all a l k) f =
  match exec little content' (add_all a l Done) f with (f', Ok _) => exec little content k f' | (f', Err e) => (f', Err e) end.
Proof.
  induction l as [|[[n d] sh] l IH]; intros k f.
  - destruct a; reflexivity.
  - replace (add_all a ((n, d, sh) :: l) k) with (Add n d sh a (add_all a l k)) by (destruct a; reflexivity). replace (add_all a ((n, d, sh) :: l) Done) with (Add n d sh a (add_all a l Done)) by (destruct a; reflexivity). cbn [exec]. destruct (f_add n d sh a f) as [f' [[]|e]]; [apply IH | reflexivity].
Qed.
(** arrays are added whether or not they are in the file *)
Lemma add_missing little lf content post x y a l ps st f : content <> [] -> inv lf content post st [] f -> knowsP ps st -> items_fresh (map pname ps) a l = true -> Forall piece_ok (map (as_piece a) l) ->
  post ++ x = file_bytes lf (map (as_piece a) l) ++ y ->
  exists f' st', (forall k, exec little content (add_all a (map as_call l) k) f = exec little content k f') /\ inv lf (content ++ x) y st' [] f' /\ l_pos st' = l_pos st + sumZ (map piece_size (map (as_piece a) l)) /\
    knowsP (ps ++ map (as_piece a) l) st' /\ l_cur st' = l_cur st.
Proof.
  intros Hne Hi K Hf Hok Ex. apply (inv_more lf content post x) in Hi. rewrite Ex in Hi. apply inv_split in Hi.
  assert (content ++ x <> []) as Hne' by (destruct content; [contradiction | discriminate]).
  assert (runs little lf (content ++ x) y st (add_all a (map as_call l) Done) (map (as_piece a) l ++ []) (fun f' r => r = Ok tt /\ exists st', inv lf (content ++ x) y st' [] f' /\ l_pos st' = l_pos st + sumZ (map piece_size (map (as_piece a) l)) /\ knowsP (ps ++ map (as_piece a) l) st' /\ l_cur st' = l_cur st)) as R.
  { apply (runs_items little lf (content ++ x) y Hne' a l ps); auto. intros st' K' E1 E2 E3 E4. apply (runs_done little lf (content ++ x) y Hne'). intros f' Hf'. split; [reflexivity|]. exists st'. auto. }
  rewrite app_nil_r in R. specialize (R f Hi). pose proof (exec_adds little content (content ++ x) a (map as_call l)) as Ex'. specialize (Ex') as Ex2. destruct (exec little (content ++ x) (add_all a (map as_call l) Done) f) as [f' r] eqn:Ed. cbn [fst snd] in R. destruct R as (-> & st' & R). exists f', st'. split; [|exact R].
  intro k. rewrite Ex2, Ed. reflexivity.
Qed.
Lemma skip_past little content k h f : content <> [] -> 0 <= f_off f -> zlen content < f_off f + 4 -> exec little content (ReadSkip t_uint32 k h) f = exec little content h f.
Proof. intros Hne H0 H. cbn [exec]. unfold read_and_skip. rewrite getitem_past; [reflexivity | exact Hne | exact H0 | exact H]. Qed.
Section Files.
  Variables (little lf : bool) (cat : catalogue) (fill : list Z) (vm : list bool) (extra : list dataset) (size : str -> Z) (vals : str -> nat -> list Z).
  Local Notation the_quantities := (the_quantities vm extra).
  Local Notation npart_of := (npart_of cat).
  Local Notation well_formed := (well_formed cat fill vm extra size vals).
  Local Notation stored_blocks := (stored_blocks cat vm extra size vals).
  Local Notation snapshot_pieces := (snapshot_pieces cat fill vm extra size vals).

  Lemma snapshot_opens n rest : well_formed -> (n <= List.length (present npart_of the_quantities))%nat -> Forall piece_ok (stored_blocks n) ->
    n = List.length (present npart_of the_quantities) \/ (3 <= n)%nat /\ zlen rest < 4 ->
    let content := file_bytes lf (snapshot_pieces n) ++ rest in
    exists f, open_file little content (gadget_snapshot extra) = (f, Ok tt) /\ reads_back little content (snapshot_pieces n) f /\ order_is little lf f /\
      all_bytes_used content f = false /\ hash_stream little content f = Err EIO.
  Proof.
    intros (W1 & W2 & W3) Hn Hb He content. assert (content <> []) as Hne by apply mark_ne.
    pose proof (run_all little lf content rest Hne cat fill vm extra size vals W1 W2 W3 n Hn Hb He new_file (start_inv little lf content rest Hne (snapshot_pieces n) eq_refl)) as H. unfold open_file.
    destruct (exec little content (gadget_snapshot extra) new_file) as [f r]. cbn [fst snd] in H. destruct H as (-> & st & K & Hr & Hg & Hi). exists f. split; [reflexivity|].
    destruct (inv_reads little lf content rest Hne st f (snapshot_pieces n) Hi Hr) as [H1 H2].
    { intro x. unfold knowsP in K. rewrite K. unfold GadgetSpec.snapshot_pieces, GadgetSpec.stored_blocks. rewrite <- data_blocks, <- filter_In, filter_app. fold (npart_of). match goal with |- In x ?a <-> In x ?b => assert (a = b) as -> by reflexivity end. reflexivity. }
    split; [exact H1|]. split; [exact H2|]. assert (all_bytes_used content f = false) as U by (apply (gap_unused lf content rest st); [exact Hi | lia]). split; [exact U | now apply hash_unused].
  Qed.

  Definition fails (content : list Z) : Prop := snd (open_file little content (gadget_snapshot extra)) = Err EIO.
  Lemma fails_intro pieces rest : (exists n l, pieces = Mark n :: l) -> (file_bytes lf pieces ++ rest <> [] -> runs little lf (file_bytes lf pieces ++ rest) rest (start_state) (gadget_snapshot extra) pieces (fun _ r => r = Err EIO)) -> fails (file_bytes lf pieces ++ rest).
  Proof. intros (n & l & E) H. assert (file_bytes lf pieces ++ rest <> []) as Hne by (rewrite E; apply mark_ne). exact (H Hne new_file (start_inv little lf _ rest Hne pieces eq_refl)). Qed.

  (** not the length of a header *)
  Lemma first_length n rest : 0 <= n < 2 ^ 32 -> n <> 256 -> n <> 65536 -> fails (file_bytes lf [Mark n] ++ rest).
  Proof.
    intros Hn H1 H2. apply fails_intro; [eauto|]. intro Hne. unfold gadget_snapshot. apply (runs_mark little lf _ rest Hne); [exact Hn|]. cbn [nth]. set (r := rightly _ _ _). set (v := seen r 4 n).
    assert (seen r 4 v = n) as E by now apply seen_seen.
    assert (v <> 256 /\ v <> 65536) as [V1 V2] by (split; intro Ev; rewrite Ev in E; destruct r; vm_compute in E; lia).
    replace (v =? 256) with false by lia. replace (v =? 65536) with false by lia. now apply (runs_fail little lf _ rest Hne).
  Qed.
  (** the end of the file is in the header *)
  Lemma read_attr_any content x y st f grp a q : content <> [] -> inv lf (content ++ x) y st [] f -> In q (l_env st) -> e_attr q = true -> keys (e_name q) = keys grp ++ [a] -> (exists v, read_attr little content f grp a = Ok v) \/ read_attr little content f grp a = Err EIO.
  Proof.
    intros Hne Hi Hq Ha Hk. pose proof Hi as (I1 & I2 & I3 & I4 & (G1 & G2 & G3) & I6 & I7 & _ & I9 & I10 & _). pose proof (proj1 (Forall_forall _ _) I10 q Hq) as (id & b & E1 & E2 & E3 & E4 & E5). rewrite Ha, Hk in E1. pose proof (proj1 (Forall_forall _ _) I9 q Hq) as (D1 & D2 & D3 & D4 & D5 & D6 & D7).
    destruct (attr_find _ _ _ _ (keys_ne grp) E1) as (at_ & ds & gs & F1 & F2). unfold read_attr. rewrite getitem_find, F1. cbn [bind]. rewrite F2, E2.
    destruct (Z_le_gt_dec (b_off b + b_nbytes b) (zlen content)) as [Hc|Hc]; [left | right; rewrite getitem_past; [reflexivity | exact Hne | lia | lia]].
    destruct (num_ok (e_size q) D1) as (P1 & P2 & P3). rewrite <- E3 in P1, P2, P3. assert (valid_endian (b_endian b) = true) as Hv by (pose proof (proj1 (Forall_forall _ _) G1 b (nth_error_In _ _ E2)) as ->; exact G3).
    destruct (getitem_values little content b P1 P2) as (items & H1 & _); [|exact Hv | rewrite H1; cbn [bind]; eauto].
    split; [exact Hne|]. split; [lia|]. split; [exact Hc|]. split; [now rewrite E5 | now intros _].
  Qed.
  Lemma cut_header k : well_formed -> 1 <= k < 264 -> fails (zslice (file_bytes lf (header_pieces cat fill)) 0 k).
  Proof.
    intros (W1 & W2 & W3) Hk. pose proof (s_header _ _ _ _ _ W1) as Hh. pose proof (s_fill _ _ _ _ _ W1) as Hf. pose proof (header_size little lf [0] [] ltac:(discriminate) cat fill vm extra size vals W1 W2 W3) as Hs.
    unfold header_pieces. set (A := map (attr_of cat) G_header) in *.
    assert (zlen (file_bytes lf [Mark 256]) = 4) as L4 by (destruct lf; reflexivity).
    assert (zlen (file_bytes lf A) = 192) as LA.
    { rewrite <- Hs. clear - Hh. induction A as [|p A' IH]; [reflexivity|]. apply Forall_cons_iff in Hh. destruct Hh as [Hp Hh]. unfold file_bytes in *. cbn [map concat sumZ]. rewrite zlen_app, IH by exact Hh. f_equal. destruct p; cbn [piece_bytes piece_size piece_ok] in *; [rewrite vals_bytes_len; [reflexivity | lia] | rewrite number_len; lia | reflexivity]. }
    assert (file_bytes lf (Mark 256 :: A ++ [Raw fill; Mark 256]) = file_bytes lf [Mark 256] ++ file_bytes lf A ++ fill ++ file_bytes lf [Mark 256]) as -> by (unfold file_bytes; cbn [map concat]; rewrite map_app, concat_app; cbn [map concat piece_bytes]; rewrite !app_nil_r; reflexivity).
    set (data := file_bytes lf A ++ fill ++ file_bytes lf [Mark 256]). assert (zlen data = 260) as Ld by (unfold data; rewrite !zlen_app; lia).
    destruct (Z_lt_le_dec k 4) as [H4|H4].
    - (* in the first number *)
      set (content := zslice _ 0 k). assert (zlen content = k) as Lc by (unfold content, zslice; change (Z.to_nat 0) with 0%nat; cbn [skipn]; rewrite Nat.sub_0_r; unfold zlen in *; rewrite firstn_length, app_length; lia).
      assert (content <> []) as Hne by (intros ->; cbn in Lc; unfold zlen in Lc; cbn in Lc; lia). unfold fails, open_file, gadget_snapshot. rewrite skip_past; [reflexivity | exact Hne | cbn; lia | cbn [new_file f_off]; lia].
    - set (part := zslice data 0 (k - 4)).
      assert (zslice (file_bytes lf [Mark 256] ++ data) 0 k = file_bytes lf [Mark 256] ++ part) as ->.
      { unfold part, zslice, zlen in *. change (Z.to_nat 0) with 0%nat. cbn [skipn]. rewrite !Nat.sub_0_r. rewrite firstn_app. rewrite firstn_all2 by lia. f_equal. f_equal. lia. }
      assert (zlen part = k - 4) as Lp by (unfold part, zslice, zlen in *; change (Z.to_nat 0) with 0%nat; cbn [skipn]; rewrite firstn_length; lia).
      apply fails_intro; [eauto|]. intro Hne. set (content := file_bytes lf [Mark 256] ++ part) in *. assert (zlen content = k) as Lc by (unfold content; rewrite zlen_app; lia).
      assert (rightly little lf (l_cur start_state) = Bool.eqb little lf) as E0 by (cbn [start_state l_cur]; unfold rightly; destruct little, lf; reflexivity).
      assert (forall s st, l_env st = [] -> l_pos st = 4 -> runs little lf content part st (Swap s (gadget_body extra)) [] (fun _ r => r = Err EIO)) as G.
      { intros s st Env Pos. apply (runs_swap little lf content part Hne). set (st1 := turn _ st). unfold gadget_body.
        match goal with |- runs _ _ _ _ _ (attributes ?a ?k) _ _ => change (attributes a k) with (add_all true (map as_call (map (as_item cat) G_header)) k) end.
        intros f Hi. destruct (add_missing little lf content part (zslice data (k - 4) (zlen data)) (fill ++ file_bytes lf [Mark 256]) true (map (as_item cat) G_header) [] st1 f) as (f' & st' & Hx & Hi' & Hp' & K' & _); auto.
        - unfold knowsP. cbn [st1 turn l_env]. now rewrite Env.
        - rewrite as_item_attr. fold A. fold data. unfold part, zslice, zlen. change (Z.to_nat 0) with 0%nat. cbn [skipn]. rewrite Nat.sub_0_r. rewrite (firstn_all2 (skipn _ _)) by (rewrite skipn_length; lia). apply firstn_skipn.
        - rewrite Hx. rewrite as_item_attr in *. cbn [app] in K'. fold A in K', Hp'. rewrite Hs in Hp'. cbn [st1 turn l_pos] in Hp'. assert (f_off f' = 196) as Ho by (destruct Hi' as (-> & _); lia).
          cbn [exec]. set (f2 := skip_bytes (256 + 4 - f_off f') f'). assert (f_off f2 = 260) as Ho2 by (unfold f2, skip_bytes; cbn [set_off f_off]; lia).
          assert (forall name a sz, In (Data name true sz [6] a) A -> forall x, keys name = keys (nm "Header") ++ [x] -> (exists v, read_attr little content f2 (nm "Header") x = Ok v) \/ read_attr little content f2 (nm "Header") x = Err EIO) as Hget.
          { intros name a sz Hin x Hkeys. change (read_attr little content f2) with (read_attr little content f'). unfold knowsP in K'. rewrite <- K' in Hin. apply in_map_iff in Hin. destruct Hin as (q & Eq & Hq). unfold piece_of in Eq. injection Eq as E1 E2 E3 E4 E5. apply (read_attr_any content _ _ st' f' _ _ q Hne Hi' Hq E2). now rewrite E1. }
          destruct (Hget (nm "Header/NumPart_ThisFile") (cat "Header/NumPart_ThisFile"%string) 4 (or_introl eq_refl) (nm "NumPart_ThisFile") eq_refl) as [[v ->] | ->]; [|reflexivity].
          destruct (Hget (nm "Header/MassTable") (cat "Header/MassTable"%string) 8 (or_intror (or_introl eq_refl)) (nm "MassTable") eq_refl) as [[v' ->] | ->]; [|reflexivity].
          pose proof (skip_past little content (fun v0 => if negb (nth 0 v0 0 =? 256) then Fail EIO else blocks (map signed32 v) (standard v' ++ extra) 0) (Fail EIO) f2 Hne ltac:(lia) ltac:(lia)) as Hsk. cbn [exec] in Hsk. rewrite Hsk. reflexivity. }
      unfold gadget_snapshot. apply (runs_mark little lf content part Hne); [lia|]. cbn [nth]. rewrite (seen_256 little lf [0] [] ltac:(discriminate) cat fill vm extra size vals W1 W2 W3), E0. destruct (Bool.eqb little lf).
      + replace (256 =? 256) with true by reflexivity. apply G; [reflexivity | reflexivity].
      + replace (65536 =? 256) with false by reflexivity. replace (65536 =? 65536) with true by reflexivity. apply G; reflexivity.
  Qed.
  Lemma last_length n rest : well_formed -> 0 <= n < 2 ^ 32 -> n <> 256 -> fails (file_bytes lf (Mark 256 :: map (attr_of cat) G_header ++ [Raw fill; Mark n]) ++ rest).
  Proof.
    intros (W1 & W2 & W3) Hn H1. apply fails_intro; [eauto|]. intro Hne. apply (run_header little lf _ rest Hne cat fill vm extra size vals W1 W2 W3). intros st B _.
    destruct (npart_ok little lf _ rest Hne cat fill vm extra size vals W1 W2 W3) as (N1 & N2 & _).
    apply (read_mark little lf _ rest Hne npart_of size vals N1 N2 (map (attr_of cat) G_header) [] 64); [exact B | lia|]. intros st1 B1 _. cbn [nth]. replace (negb (n =? 256)) with true by lia. now apply (runs_fail little lf _ rest Hne).
  Qed.
  Section Next.
    Variables (n : nat) (q : quantity).
    Hypothesis W : well_formed.
    Hypothesis Hq : nth_error (present npart_of the_quantities) n = Some q.
    Hypothesis Hb : Forall piece_ok (stored_blocks n).
    Set Default Proof Using "All".
    Local Notation full_size := (full_size npart_of size q).
    (** up to the next block *)
    Lemma run_next tail rest (Q : file -> res unit -> Prop) : file_bytes lf (snapshot_pieces n ++ tail) ++ rest <> [] ->
      (forall st ps done d l, between little lf ps done 64 st -> quantities_ok size (d :: l) -> disjoint_names done (d :: l) -> given d = q -> 0 < number npart_of q ->
        runs little lf (file_bytes lf (snapshot_pieces n ++ tail) ++ rest) rest st (blocks npart_of (d :: l) (Z.of_nat n)) tail Q) ->
      runs little lf (file_bytes lf (snapshot_pieces n ++ tail) ++ rest) rest (start_state) (gadget_snapshot extra) (snapshot_pieces n ++ tail) Q.
    Proof.
      intros Hne Hk. set (content := file_bytes lf (snapshot_pieces n ++ tail) ++ rest) in *. destruct W as (W1 & W2 & W3). unfold GadgetSpec.snapshot_pieces. rewrite <- app_assoc. unfold GadgetSpec.stored_blocks.
      assert (n < List.length (present npart_of the_quantities))%nat as Hn by (apply nth_error_Some; congruence).
      apply (run_snapshot little lf content rest Hne cat fill vm extra size vals W1 W2 W3 n tail Q); [fold (npart_of); change (standard_quantities vm ++ map given extra) with the_quantities; lia | exact Hb|].
      intros st done B Q1 D1 E. destruct (npart_ok little lf _ rest Hne cat fill vm extra size vals W1 W2 W3) as (N1 & N2 & _). fold (npart_of) in E, Q1, D1 |- *. change (standard_quantities vm ++ map given extra) with the_quantities in E.
      assert (exists t, skipn n (present npart_of the_quantities) = q :: t) as (t & Es).
      { clear - Hq. revert Hq. generalize (present npart_of the_quantities) as l. induction n as [|m IH]; intros [|x l] H; try discriminate; cbn in *; [injection H as ->; eauto | now apply IH]. }
      rewrite Es in E. set (tb := after npart_of n _) in *.
      destruct (present_first little lf content rest Hne npart_of size vals N1 N2 tb q t (Z.of_nat n)) as (d & l' & Ed & -> & Hnum & _ & (l0 & El)); [apply Q1 | exact E|].
      rewrite El in Q1, D1. apply (Hk st _ done d l' B); auto.
      - clear - Q1. induction l0 as [|x l0 IH]; [exact Q1|]. apply IH. now apply quantities_tail in Q1.
      - intros q' Hq'. apply D1. rewrite map_app. apply in_or_app. now right.
    Qed.
    Lemma tail_ne tail rest : file_bytes lf (snapshot_pieces n ++ tail) ++ rest <> [].
    Proof. unfold GadgetSpec.snapshot_pieces, header_pieces. cbn [app]. apply mark_ne. Qed.
    Lemma fails_next tail rest : (let content := file_bytes lf (snapshot_pieces n ++ tail) ++ rest in content <> [] -> forall st ps done d l, between little lf ps done 64 st -> quantities_ok size (d :: l) -> disjoint_names done (d :: l) -> given d = q -> 0 < number npart_of q ->
        runs little lf content rest st (blocks npart_of (d :: l) (Z.of_nat n)) tail (fun _ r => r = Err EIO)) -> fails (file_bytes lf (snapshot_pieces n ++ tail) ++ rest).
    Proof. intro H. apply fails_intro; [unfold GadgetSpec.snapshot_pieces, header_pieces; cbn [app]; eauto|]. intro Hne. apply run_next; [exact Hne|]. apply H. exact Hne. Qed.
    Lemma wrong_start m rest : 0 <= m < 2 ^ 32 -> m <> 4 * fold_left Z.mul (q_shape q) 1 * number npart_of q -> m <> 8 * fold_left Z.mul (q_shape q) 1 * number npart_of q -> fails (file_bytes lf (snapshot_pieces n ++ [Mark m]) ++ rest).
    Proof.
      intros Hm H4 H8. apply fails_next. intros content Hne st ps done d l B Q1 D1 Ed Hnum. destruct W as (W1 & W2 & W3). destruct (npart_ok little lf _ rest Hne cat fill vm extra size vals W1 W2 W3) as (N1 & N2 & _).
      pose proof Q1 as [_ T1 S1 _ _]. cbn [map] in T1, S1. apply Forall_cons_iff in T1, S1. destruct T1 as [T1 _], S1 as [S1 _]. destruct d as [[[name ty] shape] types]. pose proof (number_mask npart_of N1 q) as Em. rewrite Ed in T1, S1. assert (q_types q = types /\ q_shape q = shape) as [Et Esh] by (rewrite <- Ed; split; reflexivity). rewrite Et in *. rewrite Esh in *.
      cbn [blocks]. rewrite (Em T1). replace (0 <? number npart_of q) with true by lia. apply (read_mark little lf content rest Hne npart_of size vals N1 N2 ps done 64); [exact B | exact Hm|]. intros st1 B1 _. cbn [nth]. set (pp := fold_left Z.mul shape 1) in *. set (nb := m / (pp * number npart_of q)).
      match goal with |- context [if ?c then _ else _] => assert (c = true) as -> end.
      { apply orb_true_iff. destruct (Z.eq_dec nb 4) as [E4|E4]; [right; rewrite E4; lia|]. destruct (Z.eq_dec nb 8) as [E8|E8]; [right; rewrite E8; lia|]. left. lia. }
      now apply (runs_fail little lf content rest Hne).
    Qed.
    Lemma wrong_end m rest : 0 <= m < 2 ^ 32 -> m <> full_size -> full_size < 2 ^ 32 -> Forall piece_ok (arrays npart_of size vals q) ->
      fails (file_bytes lf (snapshot_pieces n ++ Mark full_size :: arrays npart_of size vals q ++ [Mark m]) ++ rest).
    Proof.
      intros Hm H1 H2 Hok. apply fails_next. intros content Hne st ps done d l B Q1 D1 Ed Hnum. pose proof W as (W1 & W2 & W3). destruct (npart_ok little lf _ rest Hne cat fill vm extra size vals W1 W2 W3) as (N1 & N2 & _).
      unfold GadgetSpec.full_size in *. rewrite <- Ed in *.
      apply (run_block little lf content rest Hne npart_of size vals N1 N2 d l ps done 64); auto. intros st1 B1 _.
      apply (read_mark little lf content rest Hne npart_of size vals N1 N2 (ps ++ arrays npart_of size vals (given d)) (q_name (given d) :: done) 64); [exact B1 | exact Hm|]. intros st2 B2 _. cbn [nth]. unfold block_size. replace (negb (m =? _)) with true by lia. now apply (runs_fail little lf content rest Hne).
    Qed.
    Lemma no_block rest : (n < 3)%nat -> zlen rest < 4 -> fails (file_bytes lf (snapshot_pieces n) ++ rest).
    Proof.
      intros Hn Hr. rewrite <- (app_nil_r (snapshot_pieces n)). apply fails_next. intros content Hne st ps done d l B Q1 D1 Ed Hnum. destruct W as (W1 & W2 & W3). destruct (npart_ok little lf _ rest Hne cat fill vm extra size vals W1 W2 W3) as (N1 & N2 & _).
      pose proof Q1 as [_ T1 S1 _ _]. cbn [map] in T1, S1. apply Forall_cons_iff in T1, S1. destruct T1 as [T1 _], S1 as [S1 _]. destruct d as [[[name ty] shape] types]. pose proof (number_mask npart_of N1 q) as Em. rewrite Ed in T1, S1. assert (q_types q = types /\ q_shape q = shape) as [Et Esh] by (rewrite <- Ed; split; reflexivity). rewrite Et in *. rewrite Esh in *.
      cbn [blocks]. rewrite (Em T1). replace (0 <? number npart_of q) with true by lia. apply (runs_eof little lf content rest Hne); [exact Hr|]. replace (Z.of_nat n <? 3) with true by lia. now apply (runs_fail little lf content rest Hne).
    Qed.
    (** the end of the file is in the next block *)
    Lemma cut_block k : Forall piece_ok (block npart_of size vals q) -> 4 <= k < zlen (file_bytes lf (block npart_of size vals q)) -> fails (file_bytes lf (snapshot_pieces n) ++ zslice (file_bytes lf (block npart_of size vals q)) 0 k).
    Proof.
      intros Hok Hk. pose proof W as (W1 & W2 & W3). assert (List.length npart_of = 6%nat /\ Forall (fun n => 0 <= n) npart_of) as [N1 N2] by (pose proof (npart_ok little lf [0] [] ltac:(discriminate) cat fill vm extra size vals W1 W2 W3) as (A & B & _); auto).
      unfold block, record in *. set (A := arrays npart_of size vals q) in *. apply Forall_cons_iff in Hok. destruct Hok as [Hm Hok]. apply Forall_app in Hok. destruct Hok as [Hok _].
      pose proof (arrays_size npart_of size vals N1 N2 q Hok) as AS. fold A in AS. rewrite AS in Hk, Hm |- *. change (size (q_name q) * fold_left Z.mul (q_shape q) 1 * number npart_of q) with full_size in *. cbn [piece_ok] in Hm.
      assert (zlen (file_bytes lf [Mark full_size]) = 4) as L4 by (unfold file_bytes; cbn [map concat piece_bytes]; rewrite app_nil_r; apply number_len; lia).
      set (data := file_bytes lf (A ++ [Mark full_size])).
      assert (file_bytes lf (Mark full_size :: A ++ [Mark full_size]) = file_bytes lf [Mark full_size] ++ data) as Ed by (unfold data, file_bytes; cbn [map concat]; rewrite app_nil_r; reflexivity).
      assert (data = file_bytes lf A ++ file_bytes lf [Mark full_size]) as Ed2 by (unfold data, file_bytes; rewrite map_app, concat_app; reflexivity).
      assert (zlen (file_bytes lf A) = full_size) as LA.
      { unfold GadgetSpec.full_size. rewrite <- (arrays_size npart_of size vals N1 N2 q Hok). fold A. clear - Hok. induction A as [|p A' IH]; [reflexivity|]. apply Forall_cons_iff in Hok. destruct Hok as [Hp Hok]. unfold file_bytes in *. cbn [map concat sumZ]. rewrite zlen_app, IH by exact Hok. f_equal. destruct p; cbn [piece_bytes piece_size piece_ok] in *; [rewrite vals_bytes_len; [reflexivity | lia] | rewrite number_len; lia | reflexivity]. }
      assert (zlen data = full_size + 4) as Ld by (rewrite Ed2, zlen_app; lia). rewrite Ed in *. rewrite zlen_app, L4 in Hk. set (part := zslice data 0 (k - 4)).
      assert (zslice (file_bytes lf [Mark full_size] ++ data) 0 k = file_bytes lf [Mark full_size] ++ part) as ->.
      { unfold part, zslice, zlen in *. change (Z.to_nat 0) with 0%nat. cbn [skipn]. rewrite !Nat.sub_0_r. rewrite firstn_app. rewrite firstn_all2 by lia. f_equal. f_equal. lia. }
      assert (zlen part = k - 4) as Lp by (unfold part, zslice, zlen in *; change (Z.to_nat 0) with 0%nat; cbn [skipn]; rewrite firstn_length; lia).
      rewrite app_assoc. replace (file_bytes lf (snapshot_pieces n) ++ file_bytes lf [Mark full_size]) with (file_bytes lf (snapshot_pieces n ++ [Mark full_size])) by (unfold file_bytes; rewrite map_app, concat_app; reflexivity).
      apply fails_next. intros content Hne st ps done d l B Q1 D1 Eq Hnum. assert (A = arrays npart_of size vals (given d)) as EA by (unfold A; now rewrite Eq). clearbody A. subst A. unfold GadgetSpec.full_size in *. rewrite <- Eq in *.
      apply (run_block_start little lf content part Hne npart_of size vals N1 N2 d l ps done 64); auto; [unfold block_size; lia|]. intros st1 B1 P1 f Hi.
      pose proof (block_fresh little lf content part Hne npart_of size vals N1 N2 d l ps done 64 st1 B1 Q1 D1) as Hf. pose proof Hi as (_ & _ & _ & I4 & _ & _ & _ & (pre & Ec & Hp) & _). unfold file_bytes in Ec at 1. cbn [map concat app] in Ec.
      assert (zlen content = l_pos st1 + (k - 4)) as Lc by (rewrite Ec, zlen_app; lia).
      (* the arrays and what is missing of them *)
      destruct B1 as (K1 & _). unfold block_items in *. rewrite arrays_items in *. set (its := map (the_item npart_of size vals (given d)) (types_of npart_of (given d))) in *.
      destruct (add_missing little lf content part (zslice data (k - 4) (zlen data)) (file_bytes lf [Mark (size (q_name (given d)) * fold_left Z.mul (q_shape (given d)) 1 * number npart_of (given d))]) false its ps st1 f) as (f' & st' & Hx & Hi' & Hp' & _); auto.
      { rewrite <- Ed2. unfold part, zslice, zlen. change (Z.to_nat 0) with 0%nat. cbn [skipn]. rewrite Nat.sub_0_r. rewrite (firstn_all2 (skipn _ _)) by (rewrite skipn_length; lia). apply firstn_skipn. }
      assert (f_off f' = l_pos st1 + block_size npart_of size (given d)) as Ho by (destruct Hi' as (-> & _); rewrite Hp', AS; reflexivity).
      rewrite Hx. unfold block_end. rewrite skip_past; [reflexivity | exact Hne | |].
      - rewrite Ho. unfold block_size. lia.
      - rewrite Ho. unfold block_size. lia.
    Qed.
  End Next.
End Files.

(** *** byte order *)
Lemma byte_order_final p nf l cat little lf rest : reads p nf l -> consistent cat l -> 1 <= scalar cat nf <= 65535 ->
  exists f, open_file little (file_bytes lf (pieces_of cat l) ++ rest) p = (f, Ok tt) /\ order_is little lf f.
Proof. intros R C N. destruct (catalogue_opens p nf l cat little lf rest R C N) as (f & H1 & _ & H2 & _). eauto. Qed.
Definition tab_65536 : catalogue := fun name => if String.eqb name "NTask" then [65536] else if String.eqb name "Count" then [] else if String.eqb name "GroupLen" then [] else if String.eqb name "GroupOffset" then [] else [0].
Lemma limit_final : exists cat little, consistent cat L2_group_tab /\ scalar cat "NTask" = 65536 /\
  ~ exists f, open_file little (file_bytes little (pieces_of cat L2_group_tab)) lgadget2_group_tab = (f, Ok tt) /\ order_is little little f.
Proof.
  exists tab_65536, true. split; [|split; [reflexivity|]].
  - split; [unfold pieces_of, L2_group_tab; cbn; repeat constructor; cbn; lia | repeat constructor; cbn; lia].
  - intros (f & E & H). vm_compute in E. injection E as <-. unfold order_is in H. cbn [f_blocks] in H. apply Forall_inv in H. discriminate.
Qed.
Definition desc_1 : catalogue := fun name => [1].
Lemma mpa_foreign_final : exists cat little, consistent cat MPA_sub_desc /\ ~ opens mpa_sub_desc (pieces_of cat MPA_sub_desc) little (negb little) [].
Proof.
  exists desc_1, true. split.
  - split; [unfold pieces_of, MPA_sub_desc; cbn; repeat constructor; cbn; lia | repeat constructor; cbn; lia].
  - intros (f & E & _ & H & _). vm_compute in E. injection E as <-. unfold order_is in H. cbn [f_blocks] in H. apply Forall_inv in H. discriminate.
Qed.

Lemma first_length_final little lf extra n rest : 0 <= n < 2 ^ 32 -> n <> 256 -> n <> 65536 -> snd (open_file little (file_bytes lf [Mark n] ++ rest) (gadget_snapshot extra)) = Err EIO.
Proof. exact (first_length little lf desc_1 [] [] extra (fun _ => 4) (fun _ _ => []) n rest). Qed.
