(** Proofs about the IDL programs for groups: the mass functions. *)
From Coq Require Import QArith.
From Coq Require Import Ascii String.
From Coq Require Import Sorting.Permutation Sorting.Sorted.
From Verif Require Import Base.Prelude Base.ListLemmas Base.Order Binary.BinModel Formats.FileSpec Formats.CatSpec.
From Verif Require Import Text.StrModel Text.PathSpec Text.PathProofs Snap.ReadSpec Fortran.RegionSpec Fortran.GroupTabSpec Fortran.GroupTabProofs Fortran.FofSpec Pro.ProSpec Pro.ProModel Pro.NameProofs.
From Verif Require Import Idl.LibModel Idl.LibSpec Idl.SnapSpec Idl.GroupSpec Idl.StdioProofs Idl.NumberProofs Idl.TabProofs Idl.TabFinal Idl.ProgSpec Idl.ProgModel.
From Coq Require Import ZifyBool ZifyNat.
Local Open Scope Z_scope. Local Open Scope list_scope.

Lemma ulong_small v : 0 <= v < 2 ^ 32 -> ulong v = v.
Proof. intro H. unfold ulong. now apply Z.mod_small. Qed.
Lemma long_small v : - 2 ^ 31 <= v < 2 ^ 31 -> long v = v.
Proof. intro H. unfold long. rewrite Z.mod_small by lia. lia. Qed.
Lemma dir_ok basedir num dir : snapdir basedir num dir -> 0 <= num /\ outputdir basedir num = dir.
Proof.
  intros (Hn & s3 & H3 & ->). split; [lia|]. unfold outputdir. cbn zeta. rewrite string_compressed. rewrite <- (string_compressed 8 num). change (strmid _ _ 3) with (exts num). rewrite exts_ok by (unfold three_digits; lia).
  rewrite (number_unique 3 num s3 (fmt_0d 3 num)); [reflexivity | lia | exact H3 | apply number_3; lia].
Qed.

(** *** ranks *)
Lemma filter_len_perm {A} (f : A -> bool) l l' : Permutation l l' -> zlen (filter f l) = zlen (filter f l').
Proof.
  induction 1 as [|x l l' _ IH|x y l|l l' l'' _ IH1 _ IH2]; [reflexivity | | | congruence].
  - cbn [filter]. destruct (f x); [rewrite !zlen_cons; lia | exact IH].
  - cbn [filter]. destruct (f x), (f y); rewrite ?zlen_cons; reflexivity.
Qed.
Lemma filter_len_le {A} (f : A -> bool) l : zlen (filter f l) <= zlen l.
Proof. induction l as [|x l IH]; [reflexivity|]. cbn [filter]. destruct (f x); rewrite ?zlen_cons; lia. Qed.
Lemma filter_none {A} (f : A -> bool) l : Forall (fun x => f x = false) l -> filter f l = [].
Proof. induction 1 as [|x l E _ IH]; [reflexivity|]. cbn [filter]. now rewrite E. Qed.
Lemma filter_every {A} (f : A -> bool) l : Forall (fun x => f x = true) l -> filter f l = l.
Proof. induction 1 as [|x l E _ IH]; [reflexivity|]. cbn [filter]. now rewrite E, IH. Qed.
Lemma rank_split (a b : list Z) x : StronglySorted (fun p q => q <= p) (a ++ x :: b) ->
  zlen (filter (fun l => x <? l) (a ++ x :: b)) < zlen a + 1 <= zlen (filter (fun l => x <=? l) (a ++ x :: b)).
Proof.
  intro HS. apply StronglySorted_app in HS as (_ & HB & HA). inversion HB as [|? ? _ HB']; subst.
  rewrite !filter_app, !zlen_app. cbn [filter]. rewrite Z.ltb_irrefl, Z.leb_refl, zlen_cons. split.
  - pose proof (filter_len_le (fun l => x <? l) a). rewrite (filter_none (fun l => x <? l) b) by (revert HB'; apply Forall_impl; intros y Hy; lia). unfold zlen at 2. cbn [List.length]. lia.
  - rewrite (filter_every (fun l => x <=? l) a) by (apply Forall_forall; intros y Hy; specialize (HA y x Hy (or_introl eq_refl)); lia). pose proof (zlen_nonneg (filter (fun l => x <=? l) b)). lia.
Qed.
Lemma ranks_ok (L : list Z) : StronglySorted (fun p q => q <= p) L ->
  Forall (fun '(len, rank) => zlen (filter (fun l => len <? l) L) < rank <= zlen (filter (fun l => len <=? l) L)) (combine L (zseq 1 (List.length L))).
Proof.
  intro HS. assert (forall b a, L = a ++ b -> Forall (fun '(len, rank) => zlen (filter (fun l => len <? l) L) < rank <= zlen (filter (fun l => len <=? l) L)) (combine b (zseq (zlen a + 1) (List.length b)))) as H; [|exact (H L [] eq_refl)].
  induction b as [|x b IH]; intros a E; [constructor|]. cbn [List.length combine zseq]. constructor.
  - rewrite E in *. now apply rank_split.
  - specialize (IH (a ++ [x])). rewrite zlen_app in IH. change (zlen [x]) with 1 in IH. apply IH. rewrite <- app_assoc. exact E.
Qed.
Lemma table_points cats table : by_length cats table ->
  mass_function cats (combine (map (fun t => fst (fst t)) table) (zseq 1 (List.length (all_groups cats)))).
Proof.
  intros [HP HS]. set (L := map (fun t => fst (fst t)) table). assert (Permutation (lengths cats) L) as HL by (apply Permutation_map, HP).
  assert (List.length (all_groups cats) = List.length L) as EL by (unfold L; rewrite map_length; now apply Permutation_length).
  assert (StronglySorted (fun p q => q <= p) L) as HS' by (apply StronglySorted_map; exact HS).
  assert (map fst (combine L (zseq 1 (List.length L))) = L /\ map snd (combine L (zseq 1 (List.length L))) = zseq 1 (List.length L)) as [E1 E2].
  { generalize 1. clear. induction L as [|x L IH]; intro k; [split; reflexivity|]. cbn [List.length combine zseq map fst snd]. destruct (IH (k + 1)) as [A B]. split; f_equal; assumption. }
  rewrite EL. split; [|split].
  - rewrite E1. exact HL.
  - rewrite EL. exact E2.
  - pose proof (ranks_ok L HS') as HR. revert HR. apply Forall_impl. intros [len rank] H. unfold longer, at_least. rewrite !(filter_len_perm _ _ _ HL). exact H.
Qed.

Lemma lonarr_ok limit n : 0 < n <= limit -> lonarr limit n = Ok (repeat 0 (Z.to_nat n)).
Proof. intro H. unfold lonarr, new. replace (0 <? n) with true by lia. replace (n <=? limit) with true by lia. reflexivity. Qed.
Lemma lonarr_zero limit : lonarr limit 0 = Err EValue.
Proof. reflexivity. Qed.
Lemma lonarr_large limit n : 0 < n -> limit < n -> lonarr limit n = Err ERuntime.
Proof. intros. unfold lonarr, new. replace (0 <? n) with true by lia. replace (n <=? limit) with false by lia. reflexivity. Qed.
Lemma lindgen_ok limit n : 0 < n <= limit -> n <= 2 ^ 31 -> lindgen limit n = Ok (zseq 0 (Z.to_nat n)).
Proof.
  intros H H'. unfold lindgen, new. replace (0 <? n) with true by lia. replace (n <=? limit) with true by lia. cbn [bind check]. f_equal. rewrite <- (map_id (zseq 0 (Z.to_nat n))) at 2.
  apply map_ext_in. intros i Hi. apply In_zseq in Hi. apply long_small. lia.
Qed.

Lemma subscript_map (f : Z -> Z) n i : 0 <= i < n -> subscript (map f (zseq 0 (Z.to_nat n))) i = Ok (f i).
Proof.
  intro H. unfold subscript. unfold zlen. rewrite map_length, zseq_length. replace ((0 <=? i) && (i <? Z.of_nat (Z.to_nat n))) with true by lia.
  rewrite (nth_error_nth' _ (f 0)) by (rewrite map_length, zseq_length; lia). rewrite map_nth, nth_zseq by lia. do 2 f_equal. lia.
Qed.
Lemma subscript_out {B} (l : list B) i : zlen l <= i -> subscript l i = Err EIndex.
Proof. intro H. unfold subscript. replace (i <? zlen l) with false by lia. now rewrite andb_false_r. Qed.
Lemma assign_map (f g : Z -> Z) n i v : 0 <= i < n -> g i = v -> (forall k, 0 <= k < n -> k <> i -> g k = f k) -> assign (map f (zseq 0 (Z.to_nat n))) i v = Ok (map g (zseq 0 (Z.to_nat n))).
Proof.
  intros H E1 E2. unfold assign. unfold zlen. rewrite map_length, zseq_length. replace ((0 <=? i) && (i <? Z.of_nat (Z.to_nat n))) with true by lia. f_equal.
  apply (nth_ext _ _ 0 0); [now rewrite set_nth_length, !map_length|]. intros k Hk. rewrite set_nth_length, map_length, zseq_length in Hk.
  assert (forall h : Z -> Z, nth k (map h (zseq 0 (Z.to_nat n))) 0 = h (Z.of_nat k)) as EN by (intro h; rewrite (nth_indep _ 0 (h 0)) by (rewrite map_length, zseq_length; lia); rewrite map_nth, nth_zseq by lia; f_equal; lia).
  destruct (Nat.eq_dec k (Z.to_nat i)) as [->|Hne].
  - rewrite nth_set_nth by (rewrite map_length, zseq_length; lia). rewrite Nat.eqb_refl, EN. replace (Z.of_nat (Z.to_nat i)) with i by lia. now symmetry.
  - rewrite nth_set_nth by (rewrite map_length, zseq_length; lia). replace (k =? Z.to_nat i)%nat with false by (symmetry; now apply Nat.eqb_neq). rewrite !EN. symmetry. apply E2; lia.
Qed.
Lemma map_zeros n k : map (fun _ : Z => 0) (zseq k n) = repeat 0 n.
Proof. revert k. induction n as [|n IH]; intro k; [reflexivity|]. cbn [zseq map repeat]. f_equal. apply IH. Qed.
Lemma zip_sums (f : Z -> Z) n k : sumZ (zipwith Z.mul (map f (zseq k n)) (zseq k n)) = sumZ (map (fun s => f s * s) (zseq k n)).
Proof. revert k. induction n as [|n IH]; intro k; [reflexivity|]. cbn [zseq map zipwith sumZ]. f_equal. apply IH. Qed.
Lemma combine_map (f : Z -> Z) n k : combine (zseq k n) (map f (zseq k n)) = map (fun s => (s, f s)) (zseq k n).
Proof. revert k. induction n as [|n IH]; intro k; [reflexivity|]. cbn [zseq map combine]. f_equal. apply IH. Qed.

Section Prog.
  Variable little : bool.
  Variable fs : str -> option (list Z).
  Variable qsort : forall A : Type, (A -> A -> Z) -> list A -> list A.
  Variable limit : Z.
  Variable basedir : str.
  Variable num : Z.
  Variable dir : str.
  Hypothesis Hdir : snapdir basedir num dir.
  Variable fuel : nat.

  Section Whole.
    Variable cats : list catalogue.
    Hypothesis Hsort : sorts qsort.
    Hypothesis Hcat : whole_catalogue little fs dir num cats.
    Hypothesis Hfuel : (List.length cats < fuel)%nat.
    Let all := all_groups cats.
    Lemma load_ok : 0 < zlen all <= limit -> exists table g, load_groups little fs qsort limit basedir num fuel = Ok (zlen all, g) /\ by_length cats table /\
      g_len g = map (fun t => fst (fst t)) table /\ g_file g = map (fun t => snd (fst t)) table /\ g_nr g = map snd table.
    Proof using All.
      intro HL. destruct Hcat as (Hne & HT & HK & HN & H31). fold all in HN, H31. destruct (dir_ok _ _ _ Hdir) as [Hnum ED]. destruct cats as [|cat rest] eqn:EC; [contradiction|]. unfold load_groups. rewrite ED.
      rewrite (total_final little fs dir num cat rest Hnum HT). cbn [bind]. assert (signed (scalar cat "TotNgroups") = zlen all) as -> by (unfold all_files_say in HN; inversion HN; assumption).
      rewrite ulong_small by lia. rewrite lonarr_ok by exact HL. cbn [bind].
      set (z := repeat 0 (Z.to_nat (zlen all))). assert (zlen z = zlen all) as EZ by (unfold z; unfold zlen at 1; rewrite repeat_length; lia).
      destruct (catalogue_final little fs qsort dir num (cat :: rest) fuel {| g_len := z; g_file := z; g_nr := z |}) as (table & g & E & HP & HS & E1 & E2 & E3); try assumption; try (unfold fits; cbn [g_len g_file g_nr]; fold all; rewrite EZ; repeat split; reflexivity).
      rewrite E. cbn [bind]. exists table, g. fold all. rewrite ulong_small by (fold all in H31; lia). cbn [g_len g_file g_nr] in E1, E2, E3.
      assert (skipn (List.length (all_groups (cat :: rest))) z = []) as ES by (apply skipn_all2; fold all; unfold zlen in EZ; lia). rewrite ES, app_nil_r in E1, E2, E3.
      split; [reflexivity|]. split; [split; assumption|]. repeat split; assumption.
    Qed.
    Lemma points_ok g table : 0 < zlen all <= limit -> by_length cats table -> g_len g = map (fun t => fst (fst t)) table ->
      exists points, mass_points limit (zlen all) g = Ok points /\ mass_function cats points.
    Proof using All.
      intros HL HB EG. destruct Hcat as (_ & _ & _ & _ & H31). fold all in H31. unfold mass_points. rewrite lindgen_ok by lia. cbn [bind]. eexists. split; [reflexivity|].
      replace (map (fun i => long (i + 1)) (zseq 0 (Z.to_nat (zlen all)))) with (zseq 1 (List.length all)); [rewrite EG; apply table_points, HB|].
      replace (Z.to_nat (zlen all)) with (List.length all) by (unfold zlen; lia). symmetry.
      rewrite (map_ext_in _ (fun i => i + 1)) by (intros i Hi; apply In_zseq in Hi; apply long_small; unfold zlen in H31; lia).
      generalize (List.length all). intro n. change 1 with (0 + 1) at 2. generalize 0. induction n as [|n IH]; intro k; [reflexivity|]. cbn [zseq map]. f_equal. apply IH.
    Qed.
    Lemma massfunc_ok : 0 < zlen all <= limit -> exists points, show_massfunc little fs qsort limit basedir num fuel = Ok points /\ mass_function cats points.
    Proof using All. intro HL. destruct (load_ok HL) as (table & g & E & HB & EG & _ & _). unfold show_massfunc. rewrite E. cbn [bind]. now apply points_ok with (table := table). Qed.
    Lemma no_groups : all = [] -> load_groups little fs qsort limit basedir num fuel = Err EValue.
    Proof using All.
      intro EA. destruct Hcat as (Hne & HT & HK & HN & H31). fold all in HN, H31. destruct (dir_ok _ _ _ Hdir) as [Hnum ED]. destruct cats as [|cat rest] eqn:EC; [contradiction|]. unfold load_groups. rewrite ED.
      rewrite (total_final little fs dir num cat rest Hnum HT). cbn [bind]. assert (signed (scalar cat "TotNgroups") = zlen all) as -> by (unfold all_files_say in HN; inversion HN; assumption).
      rewrite EA. reflexivity.
    Qed.

    (** *** sums below the minimum size *)
    Variable m : Z.
    Hypothesis Hmin : all_files_say "GroupMinLen" cats m.
    Lemma m_range : 0 <= m < 2 ^ 31.
    Proof using All.
      destruct Hcat as (Hne & HT & _). destruct cats as [|cat rest] eqn:EC; [contradiction|]. destruct (HT 0%nat cat eq_refl) as (content & extra & _ & HF). pose proof (tab_counts little cat extra content HF) as (_ & R & _).
      unfold all_files_say in Hmin. inversion Hmin as [|? ? E _]; subst. rewrite signed_id by exact R. exact R.
    Qed.
    Let count k := groups_of_size cats k.
    Lemma counts_ok junk : 0 < m <= limit -> get_minimum_group_len little fs dir num = Ok m /\
      get_groupcount_below_minimum_len little fs dir num fuel junk (repeat 0 (Z.to_nat m)) 0 = Ok {| b_ret := m; b_count := map count (zseq 0 (Z.to_nat m)); b_ids := all_ids cats |}.
    Proof using All.
      intro HL. destruct Hcat as (Hne & HT & HK & HN & H31). fold all in HN, H31. destruct (dir_ok _ _ _ Hdir) as [Hnum _]. destruct cats as [|cat rest] eqn:EC; [contradiction|].
      assert (signed (scalar cat "GroupMinLen") = m) as EM by (unfold all_files_say in Hmin; inversion Hmin; assumption).
      rewrite (minimum_final little fs dir num cat rest Hnum HT), EM. split; [reflexivity|].
      rewrite (below_final little fs dir num cat rest fuel junk) with (1 := Hnum) (2 := HT) (3 := HK) by (try exact Hfuel; rewrite ?EM; try (unfold zlen; rewrite repeat_length; lia); revert Hmin; apply Forall_impl; intros; lia).
      rewrite EM, skipn_all2, app_nil_r by (rewrite repeat_length; lia). do 2 f_equal. pose proof (last_in rest cat cat) as HI. unfold all_files_say in Hmin. rewrite Forall_forall in Hmin. now apply Hmin.
    Qed.
    (** the array after the elements from [i] on have been set *)
    Let partial i k := if i <=? k then all_at_least cats m k else 0.
    Lemma at_least_step k : k < m -> all_at_least cats m k = all_at_least cats m (k + 1) + count k.
    Proof using All.
      intro H. unfold all_at_least. replace (Z.to_nat (m - k)) with (Datatypes.S (Z.to_nat (m - (k + 1)))) by lia. cbn [zseq map sumZ]. unfold count. lia.
    Qed.
    Lemma sums_ok : forall steps i, 0 < i < m - 1 -> m < 2 ^ 31 -> (Z.to_nat i <= steps)%nat ->
      below_sums steps (map count (zseq 0 (Z.to_nat m))) (map (partial (i + 1)) (zseq 0 (Z.to_nat m))) i = Ok (map (partial 1) (zseq 0 (Z.to_nat m))).
    Proof using All.
      induction steps as [|steps IH]; intros i Hi H31 Hs; [lia|]. cbn [below_sums]. rewrite ulong_small by lia. rewrite !subscript_map by lia. cbn [bind].
      rewrite (assign_map _ (partial i)); [|lia| |].
      - cbn [bind]. rewrite ulong_small by lia. destruct (Z.eqb_spec (i - 1) 0) as [E|E]; [replace i with 1 by lia; reflexivity|].
        replace (partial i) with (partial (i - 1 + 1)) by (f_equal; lia). apply IH; lia.
      - unfold partial. rewrite !Z.leb_refl. apply at_least_step. lia.
      - intros k Hk Hne. unfold partial. destruct (Z.leb_spec i k), (Z.leb_spec (i + 1) k); try reflexivity; lia.
    Qed.
    Lemma below_ok junk : 3 <= m <= limit -> 0 < zlen all <= limit -> exists points, mass_function cats points /\
      show_below little fs qsort limit basedir num fuel junk = Ok (points, map (fun s => (s, all_at_least cats m s)) (zseq 1 (Z.to_nat (m - 1))), all_particles cats m).
    Proof using All.
      intros HM HL. pose proof m_range as H31. destruct (load_ok HL) as (table & g & EL & HB & EG & _). destruct (points_ok g table HL HB EG) as (points & EP & HP). exists points. split; [exact HP|].
      destruct (counts_ok junk ltac:(lia)) as [C1 C2]. destruct (dir_ok _ _ _ Hdir) as [_ ED]. unfold show_below. rewrite ED, C1. cbn [bind]. rewrite ulong_small by lia. rewrite lonarr_ok by lia. cbn [bind]. rewrite C2. cbn [bind b_ret b_count].
      rewrite EL. cbn [bind]. rewrite EP. cbn [bind]. rewrite (ulong_small m) by lia. rewrite lonarr_ok by lia. cbn [bind]. rewrite !(ulong_small (m - 1)), !(ulong_small (m - 2)) by lia.
      rewrite subscript_map by lia. cbn [bind]. replace (repeat 0 (Z.to_nat m)) with (map (fun _ : Z => 0) (zseq 0 (Z.to_nat m))) by (apply map_zeros).
      rewrite (assign_map _ (partial (m - 2 + 1))); [|lia| |].
      - cbn [bind]. rewrite sums_ok by (try lia; rewrite map_length, zseq_length; lia). cbn [bind]. rewrite lindgen_ok by lia. cbn [bind]. unfold from_one. unfold zlen at 1 2. rewrite map_length, zseq_length.
        replace (1 <? Z.of_nat (Z.to_nat m)) with true by lia. cbn [check bind]. do 2 f_equal; [f_equal|].
        + replace (Z.to_nat m) with (Datatypes.S (Z.to_nat (m - 1))) by lia. cbn [zseq map tl]. change (0 + 1) with 1.
          rewrite (map_ext_in (partial 1) (all_at_least cats m)) by (intros k Hk; apply In_zseq in Hk; unfold partial; replace (1 <=? k) with true by lia; reflexivity).
          apply combine_map.
        + unfold all_particles. f_equal.
          * rewrite EG. unfold lengths. destruct HB as [HPm _]. symmetry. apply sumZ_perm, Permutation_map, HPm.
          * apply zip_sums.
      - unfold partial. replace (m - 2 + 1 <=? m - 1) with true by lia. unfold all_at_least. replace (Z.to_nat (m - (m - 1))) with 1%nat by lia. cbn [zseq map sumZ]. fold all. unfold count. lia.
      - intros k Hk Hne. unfold partial. replace (m - 2 + 1 <=? k) with false by lia. reflexivity.
    Qed.
    Lemma below_small junk : m = 1 \/ m = 2 -> m <= limit -> 0 < zlen all <= limit -> show_below little fs qsort limit basedir num fuel junk = Err EIndex.
    Proof using All.
      intros HM Hlim HL. destruct (load_ok HL) as (table & g & EL & HB & EG & _). destruct (points_ok g table HL HB EG) as (points & EP & HP).
      destruct (counts_ok junk ltac:(lia)) as [C1 C2]. destruct (dir_ok _ _ _ Hdir) as [_ ED]. unfold show_below. rewrite ED, C1. cbn [bind]. rewrite ulong_small by lia. rewrite lonarr_ok by lia. cbn [bind]. rewrite C2. cbn [bind b_ret b_count].
      rewrite EL. cbn [bind]. rewrite EP. cbn [bind]. rewrite (ulong_small m) by lia. rewrite lonarr_ok by lia. destruct HM as [-> | ->]; reflexivity.
    Qed.
    Lemma below_none junk : m = 0 -> show_below little fs qsort limit basedir num fuel junk = Err EValue.
    Proof using All.
      intro HM. destruct Hcat as (Hne & HT & HK & HN & H31). fold all in HN, H31. destruct (dir_ok _ _ _ Hdir) as [Hnum ED]. destruct cats as [|cat rest] eqn:EC; [contradiction|].
      assert (signed (scalar cat "GroupMinLen") = m) as EM by (unfold all_files_say in Hmin; inversion Hmin; assumption).
      unfold show_below. rewrite ED, (minimum_final little fs dir num cat rest Hnum HT), EM, HM. reflexivity.
    Qed.
  End Whole.

  (** *** missing files *)
  Lemma missing_first junk : file_is fs dir (lit "group_tab") num 0 None -> 0 <= limit < 2 ^ 32 - 1 ->
    load_groups little fs qsort limit basedir num fuel = Err ERuntime /\ show_below little fs qsort limit basedir num fuel junk = Err ERuntime.
  Proof using Hdir.
    intros HM HL. destruct (dir_ok _ _ _ Hdir) as [Hnum ED]. destruct (missing_final little fs qsort dir num Hnum HM) as (H1 & H2 & _). unfold load_groups, show_below. rewrite ED, H1, H2. cbn [bind].
    change (ulong (-1)) with (2 ^ 32 - 1). now rewrite lonarr_large by lia.
  Qed.
  Lemma missing_later cat rest n : let cats := cat :: rest in tab_files little fs dir num cats -> all_files_say "NTask" cats n -> zlen cats < n -> file_is fs dir (lit "group_tab") num (zlen cats) None ->
    (List.length cats < fuel)%nat -> zlen (all_groups cats) <= signed (scalar cat "TotNgroups") <= limit -> 0 < signed (scalar cat "TotNgroups") < 2 ^ 31 -> limit < 2 ^ 32 - 1 ->
    show_massfunc little fs qsort limit basedir num fuel = Err ERuntime.
  Proof using Hdir.
    intros cats HT HK Hn HM Hf HA HR HL. destruct (dir_ok _ _ _ Hdir) as [Hnum ED]. unfold show_massfunc, load_groups. rewrite ED. rewrite (total_final little fs dir num cat rest Hnum HT). cbn [bind].
    set (tot := signed (scalar cat "TotNgroups")) in *. rewrite ulong_small by lia. rewrite lonarr_ok by lia. cbn [bind].
    destruct (missing_later_final little fs qsort dir num cats n) as [H _]; try assumption; [discriminate|].
    destruct (H fuel {| g_len := repeat 0 (Z.to_nat tot); g_file := repeat 0 (Z.to_nat tot); g_nr := repeat 0 (Z.to_nat tot) |} Hf) as (g & E); [| lia |].
    - unfold fits. cbn [g_len g_file g_nr]. unfold zlen at 2 4 6. rewrite repeat_length. lia.
    - rewrite E. cbn [bind]. change (ulong (-1)) with (2 ^ 32 - 1). unfold mass_points, lindgen, new. replace (0 <? 2 ^ 32 - 1) with true by reflexivity. replace (2 ^ 32 - 1 <=? limit) with false by lia. reflexivity.
  Qed.
End Prog.
