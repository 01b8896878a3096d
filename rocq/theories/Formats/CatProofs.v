(** The constructors of the catalogue classes. *)
From Coq Require Import Ascii String.
From Verif.Base Require Import Prelude ListLemmas Order.
From Verif.Binary Require Import BinModel NameProofs LayoutProofs EndianProofs FortranProofs UsedProofs TreeProofs.
From Verif.Formats Require Import ReaderModel FileSpec ReaderProofs RunProofs CatSpec.
From Coq Require Import ZifyBool ZifyNat.
Local Open Scope Z_scope.

Lemma bswap_range v : 1 <= v <= 65535 -> bswap32 v < 1 \/ 65535 < bswap32 v.
Proof.
  intro H. unfold bswap32. rewrite Z.mod_small by lia. cbn [le_bytes rev app le_value].
  assert (v / 256 / 256 = 0) as E by (rewrite Z.div_div by lia; apply Z.div_small; lia). rewrite E. change (0 mod 256) with 0. change (0 / 256 mod 256) with 0.
  pose proof (Z.mod_pos_bound v 256 ltac:(lia)). pose proof (Z.mod_pos_bound (v / 256) 256 ltac:(lia)). pose proof (Z.div_mod v 256 ltac:(lia)). assert (v / 256 < 256) by (apply Z.div_lt_upper_bound; lia). assert (0 <= v / 256) by (apply Z.div_pos; lia). rewrite (Z.mod_small (v / 256) 256) in * by lia.
  unfold signed32. destruct (Z.leb_spec (2 ^ 31) (0 + 256 * (0 + 256 * (v / 256 + 256 * (v mod 256 + 256 * 0))))); [left | destruct (Z.eq_dec (v / 256) 0); [destruct (Z.eq_dec (v mod 256) 0); [left; lia | right; lia] | right; lia]]. lia.
Qed.

Lemma id_ok id k : id_size id -> id_or_value_error id k = k (num id).
Proof. intros [-> | ->]; reflexivity. Qed.
Lemma float_ok fl k : id_size fl -> float_or_value_error fl k = k (num fl).
Proof. intros [-> | ->]; reflexivity. Qed.
Lemma unset_ok id k h : id_size id -> id_or_unset id k h = k (num id).
Proof. intros [-> | ->]; reflexivity. Qed.

Definition names_fresh (ns : list (str * bool)) (name : str) (is_attr : bool) : bool := forallb (fun q => compatible name is_attr (fst q) (snd q)) ns.
Lemma fresh_names env name is_attr : fresh env name is_attr = names_fresh (map (fun q => (e_name q, e_attr q)) env) name is_attr.
Proof. unfold fresh, names_fresh. induction env as [|q env IH]; [reflexivity|]. cbn [map forallb fst snd]. now rewrite IH. Qed.

Section Final.
  Variables (little lf : bool) (content post : list Z).
  Hypothesis Hne : content <> [].
  Set Default Proof Using "All".
  Local Notation inv := (inv lf content post).
  Local Notation runs := (runs little lf content post).
  Local Notation right e := (rightly little lf e).

  Lemma right_seen e size l : right e = true -> map (seen (right e) size) l = l.
  Proof. intros ->. unfold seen. apply map_id. Qed.
  Lemma right_order e : right e = true -> big_or_little little e = file_ord lf.
  Proof. unfold rightly. destruct (big_or_little little e), (file_ord lf); cbn; congruence. Qed.
  Definition piece_of (q : ent) : piece := Data (e_name q) (e_attr q) (e_size q) (e_shape q) (e_vals q).
  Definition is_data (p : piece) : bool := match p with Data _ _ _ _ _ => true | _ => false end.
  Lemma inv_reads st f pieces : inv st [] f -> right (l_cur st) = true -> (forall p, In p pieces /\ is_data p = true <-> In p (map piece_of (l_env st))) -> reads_back little content pieces f /\ order_is little lf f.
  Proof.
    intros Hi Hr Hp. pose proof Hi as (I1 & I2 & I3 & I4 & (G1 & G2 & G3) & I6 & I7 & _ & I9 & I10 & (O1 & O2 & O3)).
    assert (forall q id b, In q (l_env st) -> nth_error (f_blocks f) id = Some b -> b_dtype b = num (e_size q) -> b_off b = e_off q -> b_shape b = e_shape q -> itemsize (b_dtype b) = e_size q /\ exists items, getitem little content b None = Ok items /\ numbers little (b_dtype b) items = e_vals q) as Hread.
    { intros q id b Hq E2 E3 E4 E5. pose proof (proj1 (Forall_forall _ _) I9 q Hq) as (Hs & _). split; [rewrite E3; now apply num_ok|]. destruct (ent_read little lf content post Hne _ _ _ _ _ _ Hi Hq E2 E3 E4 E5) as (items & H1 & H2). exists items. split; [exact H1|]. now rewrite H2, right_seen. }
    split; [split; [|split; [|split]]|].
    - intros name size shape vals Hin. assert (In (Data name false size shape vals) (map piece_of (l_env st))) as Hin' by (apply Hp; auto). apply in_map_iff in Hin'. destruct Hin' as (q & Eq & Hq). unfold piece_of in Eq. injection Eq as E1 E2 E3 E4 E5.
      pose proof (proj1 (Forall_forall _ _) I10 q Hq) as (id & b & F1 & F2 & F3 & F4 & F5). rewrite E2 in F1. destruct (Hread q id b Hq F2 F3 F4 F5) as (H1 & items & H2 & H3). exists id, [], b, items. rewrite getitem_find, <- E1, F1. split; [reflexivity|]. split; [exact F2|]. split; [congruence|]. split; [congruence|]. split; congruence.
    - intros grp name full size shape vals Hin Hk. assert (In (Data full true size shape vals) (map piece_of (l_env st))) as Hin' by (apply Hp; auto). apply in_map_iff in Hin'. destruct Hin' as (q & Eq & Hq). unfold piece_of in Eq. injection Eq as E1 E2 E3 E4 E5.
      pose proof (proj1 (Forall_forall _ _) I10 q Hq) as (id & b & F1 & F2 & F3 & F4 & F5). rewrite E2, E1, Hk in F1. destruct (attr_find _ _ _ _ (keys_ne grp) F1) as (at_ & ds & gs & A1 & A2). destruct (Hread q id b Hq F2 F3 F4 F5) as (H1 & items & H2 & H3). exists at_, ds, gs, id, b, items. rewrite getitem_find, A1. split; [reflexivity|]. split; [exact A2|]. split; [exact F2|]. split; [congruence|]. split; [congruence|]. split; congruence.
    - intros name id attrs E. rewrite getitem_find in E. destruct (find (f_tree f) (keys name)) as [e|] eqn:Ef; [|discriminate]. injection E as ->. destruct (O1 _ _ _ Ef) as (q & Hq & Hqa & Hk). exists (e_name q), (e_size q), (e_shape q), (e_vals q). split; [|exact Hk]. rewrite <- Hqa. apply Hp. apply in_map_iff. exists q. auto.
    - intros name g E. rewrite getitem_find in E. destruct (find (f_tree f) (keys name)) as [e|] eqn:Ef; [|discriminate]. injection E as ->. destruct (O2 _ _ Ef) as (q & Hq & (t & Ht) & Hs). exists (e_name q), (e_attr q), (e_size q), (e_shape q), (e_vals q), t. split; [apply Hp; apply in_map_iff; exists q; auto|]. split; [exact Ht|]. intros ->. rewrite app_nil_r in Ht. now apply Hs.
    - unfold order_is, agree in *. rewrite Forall_forall in *. intros b Hb. rewrite (G1 b Hb), I2. now apply right_order.
  Qed.
  Lemma inv_used st f : inv st [] f -> l_gap st = 0 -> (all_bytes_used content f = true <-> post = []).
  Proof.
    intros (I1 & I2 & I3 & I4 & _ & I6 & I7 & (pre & E & Hpre) & _) T. destruct I7 as (I7 & _). specialize (I7 T). unfold tight in I7. unfold file_bytes in E. cbn [map concat app] in E. assert (zlen content = f_off f + zlen post) as Hz by (rewrite E, zlen_app; lia). split.
    - intro U. apply used_iff in U. apply btb_sum in U. apply btb_sum in I7. assert (sumZ (map b_nbytes (sorted_blocks f)) = sumZ (map b_nbytes (f_blocks f))) as Es by (apply sumZ_perm; apply Permutation_map; apply sorted_perm). apply zlen_0_nil. lia.
    - intros ->. apply used_in_sequence; [exact I6|]. replace (zlen content) with (f_off f); [exact I7|]. change (zlen (@nil Z)) with 0 in Hz. lia.
  Qed.

  (** *** lists of fields *)
  Variable cat : catalogue.
  Definition field_name (fd : field) : str * bool := (nm (fd_name fd), false).
  Fixpoint all_fresh (ns : list (str * bool)) (l : list field) : bool :=
    match l with [] => true | fd :: l' => names_fresh ns (nm (fd_name fd)) false && all_fresh (ns ++ [field_name fd]) l' end.
  Definition call (fd : field) : str * dtype * list Z := (nm (fd_name fd), num (fd_size fd), map (extent cat) (fd_dims fd)).
  Definition knows (l : list field) (st : lst) : Prop := map piece_of (l_env st) = pieces_of cat l.
  Lemma knows_names l st : knows l st -> map (fun q => (e_name q, e_attr q)) (l_env st) = map field_name l.
  Proof. unfold knows, pieces_of. generalize (l_env st). induction l as [|fd l IH]; intros [|q env] H; try discriminate; [reflexivity|]. cbn [map] in *. unfold piece_of, data_of in H. injection H as E1 E2 _ _ _ E. rewrite (IH env E), E1, E2. reflexivity. Qed.
  Lemma knows_in l st fd : knows l st -> In fd l -> exists q, In q (l_env st) /\ piece_of q = data_of cat fd.
  Proof. unfold knows. intros H Hin. assert (In (data_of cat fd) (map piece_of (l_env st))) as Hin' by (rewrite H; now apply in_map). apply in_map_iff in Hin'. destruct Hin' as (q & E & Hq). exists q. auto. Qed.
  Lemma runs_fields l' : forall l st k rest Q, knows l st -> all_fresh (map field_name l) l' = true -> Forall piece_ok (pieces_of cat l') ->
    (forall st', knows (l ++ l') st' -> l_cur st' = l_cur st -> l_gap st' = l_gap st -> l_rec st' = l_rec st -> l_pos st' = l_pos st + sumZ (map piece_size (pieces_of cat l')) -> runs st' k rest Q) ->
    runs st (adds (map call l') k) (pieces_of cat l' ++ rest) Q.
  Proof.
    induction l' as [|fd l' IH]; intros l st k rest Q K Hf Hok Hk.
    - cbn. apply Hk; auto; [now rewrite app_nil_r | cbn; lia].
    - cbn [map adds call pieces_of]. change ((data_of cat fd :: map (data_of cat) l') ++ rest) with (data_of cat fd :: (pieces_of cat l' ++ rest)). cbn [all_fresh] in Hf. apply andb_true_iff in Hf. destruct Hf as [Hf1 Hf2]. apply Forall_cons_iff in Hok. destruct Hok as [Hok1 Hok2].
      unfold call at 1. apply (runs_add little lf content post Hne); [exact Hok1 | rewrite fresh_names, (knows_names l st K); exact Hf1|].
      apply (IH (l ++ [fd])).
      + unfold knows. cbn [got adv know l_env]. rewrite map_app. unfold knows in K. rewrite K. unfold pieces_of. rewrite map_app. reflexivity.
      + rewrite map_app. exact Hf2.
      + exact Hok2.
      + intros st' K' H1 H2 H3 H4. apply Hk; auto; [rewrite <- app_assoc in K'; exact K'|]. rewrite H4. cbn [got adv know l_pos]. change (sumZ (map piece_size (pieces_of cat (fd :: l')))) with (fd_size fd * zlen (cat (fd_name fd)) + sumZ (map piece_size (pieces_of cat l'))). lia.
  Qed.
  Lemma scalar_cat fd l : Forall piece_ok (pieces_of cat l) -> In fd l -> fd_dims fd = [] -> cat (fd_name fd) = [scalar cat (fd_name fd)] /\ 0 <= scalar cat (fd_name fd) < 256 ^ fd_size fd.
  Proof.
    intros H Hin Hd. rewrite Forall_forall in H. specialize (H (data_of cat fd) (in_map _ _ _ Hin)). unfold data_of in H. rewrite Hd in H. cbn in H. destruct H as (_ & _ & H & Hv). unfold scalar. destruct (cat (fd_name fd)) as [|x [|y t]]; unfold zlen in H; cbn [List.length] in H; try lia. split; [reflexivity|]. now apply Forall_cons_iff in Hv.
  Qed.
  Lemma runs_scalar l st fd k rest Q : knows l st -> In fd l -> Forall piece_ok (pieces_of cat l) -> fd_dims fd = [] -> right (l_cur st) = true ->
    runs st (k [scalar cat (fd_name fd)]) rest Q -> runs st (Get (nm (fd_name fd)) k) rest Q.
  Proof.
    intros K Hin Hok Hd Hr Hk. destruct (knows_in l st fd K Hin) as (q & Hq & E). unfold piece_of, data_of in E. injection E as E1 E2 E3 E4 E5. change (list_ascii_of_string (fd_name fd)) with (nm (fd_name fd)) in E1. rewrite <- E1. apply runs_get; auto. rewrite right_seen by exact Hr. rewrite E5. destruct (scalar_cat fd l Hok Hin Hd) as [-> _]. exact Hk.
  Qed.
  Lemma runs_guess l st name k rest Q : knows l st -> In (one name 4) l -> Forall piece_ok (pieces_of cat l) -> 1 <= scalar cat name <= 65535 -> l_cur st = NAT ->
    (forall e, right e = true -> runs (turn e st) k rest Q) -> runs st (guess_order (nm name) k) rest Q.
  Proof.
    intros K Hin Hok Hv Hc Hk. destruct (knows_in l st _ K Hin) as (q & Hq & E). unfold piece_of, data_of in E. injection E as E1 E2 E3 E4 E5. cbn [one fd_name fd_size fd_dims] in *. change (list_ascii_of_string name) with (nm name) in E1. unfold guess_order. rewrite <- E1. apply runs_get; auto. rewrite E5, E3. destruct (scalar_cat _ l Hok Hin eq_refl) as [Ev _]. cbn [one fd_name] in Ev. rewrite Ev. cbn [map]. unfold i32. cbn [nth]. cbv zeta. rewrite Hc.
    assert (right NAT = true \/ right NAT = false /\ right (swap_endian little true) = true) as [Hr|[Hr Hs]] by (unfold rightly; destruct little, lf; auto).
    - rewrite Hr. cbn [seen]. rewrite signed32_small by lia. replace ((scalar cat name <? 1) || (65535 <? scalar cat name)) with false by lia. replace st with (turn NAT st) by (destruct st; cbn in *; subst; reflexivity). now apply Hk.
    - rewrite Hr. rewrite (seen_wrong little lf content post Hne) by lia. destruct (bswap_range _ Hv); [replace (bswap32 (scalar cat name) <? 1) with true by lia | replace (65535 <? bswap32 (scalar cat name)) with true by lia; rewrite orb_true_r]; cbn [orb]; apply runs_swap; auto.
  Qed.
  Lemma i32_count name : 0 <= scalar cat name < 2 ^ 31 -> i32 [scalar cat name] = scalar cat name.
  Proof. intro H. unfold i32. cbn [nth]. now apply signed32_small. Qed.
  Lemma turn_knows l st e : knows l st -> knows l (turn e st). Proof. exact (fun H => H). Qed.
  Definition success (l : list field) (f : file) (r : res unit) : Prop := r = Ok tt /\ exists st, knows l st /\ right (l_cur st) = true /\ l_gap st = 0 /\ inv st [] f.
  Lemma runs_success l st : knows l st -> right (l_cur st) = true -> l_gap st = 0 -> runs st Done [] (success l).
  Proof. intros K Hr Ht. apply (runs_done little lf content post Hne). intros f Hi. split; [reflexivity|]. exists st. auto. Qed.
  Lemma Forall_app_l (l l' : list field) : Forall piece_ok (pieces_of cat (l ++ l')) -> Forall piece_ok (pieces_of cat l).
  Proof. unfold pieces_of. rewrite map_app, Forall_app. tauto. Qed.

  Lemma count_ok l name : consistent cat l -> existsb (fun fd => existsb (fun d => match d with Of n => String.eqb n name | Fixed _ => false end) (fd_dims fd)) l = true -> 0 <= scalar cat name < 2 ^ 31.
  Proof.
    intros [_ H] E. apply existsb_exists in E. destruct E as (fd & Hfd & E). apply existsb_exists in E. destruct E as (d & Hd & E). destruct d as [n|n]; [discriminate|]. apply String.eqb_eq in E. subst n. rewrite Forall_forall in H. specialize (H fd Hfd). rewrite Forall_forall in H. exact (H _ Hd).
  Qed.
  Definition starts_with (full l : list field) : Prop := exists r, full = l ++ r.
  Lemma ok_part full l : starts_with full l -> Forall piece_ok (pieces_of cat full) -> Forall piece_ok (pieces_of cat l).
  Proof. intros (r & ->). apply Forall_app_l. Qed.
  Lemma runs_chunk l' : forall full l r st k Q, knows l st -> all_fresh (map field_name l) l' = true -> Forall piece_ok (pieces_of cat full) -> starts_with full (l ++ l') ->
    (forall st', knows (l ++ l') st' -> l_cur st' = l_cur st -> l_gap st' = l_gap st -> l_rec st' = l_rec st -> l_pos st' = l_pos st + sumZ (map piece_size (pieces_of cat l')) -> runs st' k (pieces_of cat r) Q) ->
    runs st (adds (map call l') k) (pieces_of cat (l' ++ r)) Q.
  Proof.
    intros full l r st k Q K Hf Hok Hs Hk. unfold pieces_of. rewrite map_app. apply (runs_fields l' l); auto. apply (ok_part _ _ Hs) in Hok. unfold pieces_of in Hok. rewrite map_app in Hok. apply Forall_app in Hok. apply Hok.
  Qed.
  Lemma runs_count full l st name k rest Q : knows l st -> In (one name 4) l -> Forall piece_ok (pieces_of cat full) -> starts_with full l -> right (l_cur st) = true ->
    runs st (k [scalar cat name]) rest Q -> runs st (Get (nm name) k) rest Q.
  Proof. intros K Hin Hok Hs Hr Hk. apply (runs_scalar l st (one name 4)); auto. now apply (ok_part full). Qed.
  Lemma runs_order full l st name k rest Q : knows l st -> In (one name 4) l -> Forall piece_ok (pieces_of cat full) -> starts_with full l -> 1 <= scalar cat name <= 65535 -> l_cur st = NAT ->
    (forall st', right (l_cur st') = true -> knows l st' -> l_gap st' = l_gap st -> runs st' k rest Q) -> runs st (guess_order (nm name) k) rest Q.
  Proof. intros K Hin Hok Hs Hv Hc Hk. apply (runs_guess l); auto. now apply (ok_part full). Qed.

  Ltac chunk C :=
    match goal with |- ReaderProofs.runs _ _ _ _ ?st (adds ?a ?k) (pieces_of _ ?rest) ?Q =>
      let n := eval cbn in (List.length a) in let l' := eval cbn [firstn] in (firstn n rest) in let r := eval cbn [skipn] in (skipn n rest) in
      change (adds a k) with (adds (map call l') k); change (pieces_of cat rest) with (pieces_of cat (l' ++ r));
      let st' := fresh "st" in let K := fresh "K" in let E1 := fresh "E" in let E2 := fresh "E" in
      eapply (runs_chunk l'); [eassumption | vm_compute; reflexivity | exact C | eexists; reflexivity | intros st' K E1 E2 _ _; cbn [app] in K; try rewrite <- E1 in *; try rewrite <- E2 in *]
    end.
  Ltac inlist := repeat (first [left; reflexivity | right]).
  Ltac order C := let st' := fresh "st" in let K := fresh "K" in let Hr := fresh "Hr" in let E := fresh "E" in
    eapply runs_order; [eassumption | inlist | exact C | eexists; reflexivity | assumption | assumption | intros st' Hr K E; try rewrite <- E in *].
  Ltac count C := eapply runs_count; [eassumption | inlist | exact C | eexists; reflexivity | assumption |]; cbv zeta beta; rewrite ?i32_count by assumption.
  Ltac finish := apply runs_success; assumption.
  Lemma catalogue_runs p nf l : reads p nf l -> consistent cat l -> 1 <= scalar cat nf <= 65535 -> runs start_state p (pieces_of cat l) (success l).
  Proof.
    intros R C N. pose proof C as [Cok _]. assert (knows [] start_state) as K by reflexivity. assert (l_cur start_state = NAT) as Hcur by reflexivity. assert (l_gap start_state = 0) as Ht by reflexivity. destruct R.
    - pose proof (count_ok L2_group_tab "Ngroups" C eq_refl) as Cg. pose proof (count_ok L2_group_tab "GroupMinLen" C eq_refl) as Cm.
      unfold lgadget2_group_tab, L2_group_tab in *. chunk Cok. order Cok. count Cok. chunk Cok. count Cok. chunk Cok. finish.
    - pose proof (count_ok (L2_sub_tab id) "Ngroups" C eq_refl) as Cg. pose proof (count_ok (L2_sub_tab id) "Nsubhalos" C eq_refl) as Cs.
      unfold lgadget2_sub_tab, L2_sub_tab in *. chunk Cok. order Cok. rewrite id_ok by assumption; (count Cok; count Cok; count Cok; count Cok; chunk Cok; finish).
    - pose proof (count_ok (L2_sub_ids id) "Nids" C eq_refl) as Ci.
      unfold lgadget2_sub_ids, L2_sub_ids in *. chunk Cok. order Cok. rewrite id_ok by assumption; (count Cok; chunk Cok; finish).
    - assert (0 <= scalar cat "Ngroups" < 2 ^ 31) as Cg by (destruct so, sh; apply (count_ok _ "Ngroups" C eq_refl)). assert (0 <= scalar cat "Nsubgroups" < 2 ^ 31) as Cs by (destruct so, sh; apply (count_ok _ "Nsubgroups" C eq_refl)).
      unfold lgadget3_sub_tab, L3_sub_tab in *. rewrite id_ok, float_ok by assumption; destruct so, sh; (cbn [app] in *; chunk Cok; order Cok; count Cok; chunk Cok; count Cok; chunk Cok; finish).
    - pose proof (count_ok (L3_sub_ids id) "Nids" C eq_refl) as Ci.
      unfold lgadget3_sub_ids, L3_sub_ids in *. chunk Cok. order Cok. count Cok. rewrite unset_ok by assumption; (chunk Cok; finish).
    - pose proof (count_ok (P3_ids id) "Nids" C eq_refl) as Ci.
      unfold pgadget3_group_ids, P3_ids in *. rewrite id_ok by assumption; (chunk Cok; order Cok; count Cok; chunk Cok; finish).
    - pose proof (count_ok (P3_group_tab fl) "Ngroups" C eq_refl) as Cg.
      unfold pgadget3_group_tab, P3_group_tab in *. rewrite id_ok, float_ok by assumption; (chunk Cok; order Cok; count Cok; chunk Cok; finish).
    - assert (0 <= scalar cat "Ngroups" < 2 ^ 31) as Cg by (destruct so; apply (count_ok _ "Ngroups" C eq_refl)). assert (0 <= scalar cat "Nsubgroups" < 2 ^ 31) as Cs by (destruct so; apply (count_ok _ "Nsubgroups" C eq_refl)).
      unfold pgadget3_sub_tab, P3_sub_tab in *. rewrite id_ok, float_ok by assumption; destruct so; (cbn [app] in *; chunk Cok; order Cok; count Cok; chunk Cok; count Cok; chunk Cok; finish).
    - pose proof (count_ok (P3_ids id) "Nids" C eq_refl) as Ci.
      unfold pgadget3_sub_ids, P3_ids in *. chunk Cok. order Cok. count Cok. rewrite unset_ok by assumption; (chunk Cok; finish).
  Qed.
End Final.
