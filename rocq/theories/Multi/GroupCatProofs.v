(** GroupCatalogue: all the files, one after another. *)
From Coq Require Import Ascii String.
From Verif Require Import Base.Prelude Base.ListLemmas Base.Order Base.NdArray Binary.BinModel Binary.NameProofs Formats.ReaderModel Formats.FileSpec Formats.CatSpec Formats.CatFinal.
From Verif Require Import Multi.MultiModel Multi.MultiSpec Multi.MultiProofs Multi.GroupCatModel Multi.GroupCatSpec.
From Coq Require Import ZifyBool ZifyNat.
Local Open Scope Z_scope.
Local Open Scope list_scope.

(** *** concatenation along the first axis *)
Lemma flat_len {A} (pre : list (nd A)) s : Forall (fun x => nd_ok x /\ exists n, shape x = n :: s) pre ->
  List.length (flat_map data pre) = (list_sum (map (fun x => nth 0 (shape x) 0%nat) pre) * nelem s)%nat.
Proof.
  induction pre as [|x pre IH]; intro H; [reflexivity|]. apply Forall_cons_iff in H. destruct H as [[Hx (n & Hs)] H]. cbn [flat_map map list_sum fold_right]. fold (list_sum (map (fun x => nth 0 (shape x) 0%nat) pre)).
  rewrite app_length, (IH H). unfold nd_ok in Hx. rewrite Hx, Hs. cbn [nth nelem]. lia.
Qed.
Lemma concat_first {A} (xs : list (nd A)) s : xs <> [] -> Forall (fun x => nd_ok x /\ exists n, shape x = n :: s) xs ->
  np_concatenate (Some 0) xs = Ok {| shape := list_sum (map (fun x => nth 0 (shape x) 0%nat) xs) :: s; data := flat_map data xs |}.
Proof.
  intros Hne H. apply concatenate_axis; [now apply Forall_impl with (2 := H)|]. exists 0%nat, (S (List.length s)).
  rewrite Forall_forall in H. split; [split; [lia | now left]|]. split; [exact Hne|]. split; [intros x Hx; destruct (H x Hx) as [_ (n & ->)]; reflexivity|]. split.
  - intros x y Hx Hy. destruct (H x Hx) as [_ (n & ->)], (H y Hy) as [_ (m & ->)]. split; [reflexivity|]. intros [|j] Hj; [lia | reflexivity].
  - split; [|split; [|split]].
    + unfold nd_ok. cbn [data shape nelem]. apply flat_len. now apply Forall_forall.
    + intros x Hx. destruct (H x Hx) as [_ (n & ->)]. split; [reflexivity|]. intros [|j] Hj; [lia | reflexivity].
    + reflexivity.
    + intros pre x post -> idx v [Hi Hv]. destruct (H x ltac:(apply in_or_app; right; now left)) as [Hx (n & Hs)]. rewrite Hs in *. inversion Hi as [|i ? is_ ? Hi1 Hi2]; subst. unfold nd_at. cbn [shape data upd ravel] in *. split.
      * constructor; [|exact Hi2]. rewrite map_app, list_sum_app. cbn [map list_sum fold_right]. rewrite Hs. cbn [nth]. lia.
      * rewrite flat_map_app. cbn [flat_map]. assert (List.length (flat_map data pre) = (list_sum (map (fun x => nth 0 (shape x) 0%nat) pre) * nelem s)%nat) as Hl. { apply flat_len. apply Forall_forall. intros y Hy. apply H. apply in_or_app. now left. }
        rewrite nth_error_app2 by lia. rewrite Hl.
        replace ((i + list_sum (map (fun x0 => nth 0 (shape x0) 0%nat) pre)) * nelem s + ravel s is_ - list_sum (map (fun x0 => nth 0 (shape x0) 0%nat) pre) * nelem s)%nat with (i * nelem s + ravel s is_)%nat by lia.
        rewrite nth_error_app1; [exact Hv|]. apply nth_error_Some. congruence.
Qed.

(** *** the arrays of one file *)
Definition file_array (c : catalogue) (fd : field) : nd Z := {| shape := map Z.to_nat (map (Formats.CatSpec.extent c) (fd_dims fd)); data := c (fd_name fd) |}.
Lemma nelem_fold s : Forall (fun z => 0 <= z) s -> Z.of_nat (nelem (map Z.to_nat s)) = fold_left Z.mul s 1.
Proof.
  enough (forall a, Forall (fun z => 0 <= z) s -> a * Z.of_nat (nelem (map Z.to_nat s)) = fold_left Z.mul s a) as E by (intro H; rewrite <- E by exact H; lia).
  induction s as [|z s IH]; intros a H; cbn [map nelem fold_left]; [lia|]. apply Forall_cons_iff in H. destruct H as [Hz H]. rewrite <- IH by exact H. rewrite Nat2Z.inj_mul, Z2Nat.id by exact Hz. lia.
Qed.
Lemma file_array_ok c fd : piece_ok (data_of c fd) -> nd_ok (file_array c fd).
Proof. intros (_ & Hs & Hl & _). unfold nd_ok, file_array. cbn [data shape]. apply Nat2Z.inj. rewrite nelem_fold by exact Hs. exact Hl. Qed.
Lemma column_shape c fd : is_column fd -> shape (file_array c fd) = Z.to_nat (rows_in fd c) :: row_shape fd.
Proof. intros (count & dims & E). unfold file_array, rows_in, row_shape. rewrite E. cbn [shape map tl Formats.CatSpec.extent]. f_equal. rewrite !map_map. reflexivity. Qed.

Section Files.
  Variables (little : bool) (files : Z -> option (list Z)).

  Lemma opened p pieces lf rest i : opens p pieces little lf rest -> files i = Some (file_bytes lf pieces ++ rest) ->
    exists f, open_nr little files p i = Ok f /\
      (forall name size sh vals, In (Data name false size sh vals) pieces -> f name = Some (Ok {| shape := map Z.to_nat sh; data := vals |})) /\
      (forall name, (forall full is_attr size sh vals t, In (Data full is_attr size sh vals) pieces -> keys full <> keys name ++ t) -> f name = None).
  Proof.
    intros (f & Ho & (R1 & R2 & R3 & R4) & _ & _) Hf. exists (lookup_array little (file_bytes lf pieces ++ rest) f). unfold open_nr. rewrite Hf, Ho. split; [reflexivity|]. split.
    - intros name size sh vals Hin. destruct (R1 _ _ _ _ Hin) as (id & at_ & b & items & E1 & E2 & E3 & _ & E4 & E5). unfold lookup_array. rewrite E1, E2, E4. cbn [bind]. now rewrite E3, E5.
    - intros name Hno. unfold lookup_array. destruct (g_getitem (f_tree f) name) as [[id at_|g]|e] eqn:E.
      + exfalso. destruct (R3 _ _ _ E) as (full & size & sh & vals & Hin & Hk). apply (Hno full false size sh vals [] Hin). now rewrite app_nil_r.
      + exfalso. destruct (R4 _ _ E) as (full & a & size & sh & vals & t & Hin & Hk & _). now apply (Hno full a size sh vals t Hin).
      + rewrite getitem_find in E. destruct (find (f_tree f) (keys name)); [discriminate|]. now injection E as <-.
  Qed.

  Definition array_in (p : prog) (i : Z) (name : str) : option (nd Z) :=
    match open_nr little files p i with Ok f => match f name with Some (Ok a) => Some a | _ => None end | Err _ => None end.

  Variables (p : prog) (nfname : string) (pieces : catalogue -> list piece) (cs : list catalogue) (cols : list field).
  (** a column is in the file, or has no rows and is not there *)
  Definition there (c : catalogue) (fd : field) : Prop := In (data_of c fd) (pieces c) /\ piece_ok (data_of c fd).
  Definition absent (c : catalogue) (fd : field) : Prop :=
    rows_in fd c = 0 /\ c (fd_name fd) = [] /\ forall full is_attr size sh vals t, In (Data full is_attr size sh vals) (pieces c) -> keys full <> keys (nm (fd_name fd)) ++ t.
  Hypothesis Hopen : forall c lf rest, In c cs -> opens p (pieces c) little lf rest.
  Hypothesis Hst : stored files pieces cs.
  Hypothesis Hlen : zlen cs < 2 ^ 31.
  Hypothesis Hnf : exists c size, hd_error cs = Some c /\ In (Data (nm nfname) false size [] [zlen cs]) (pieces c).
  Hypothesis Hcol : forall fd, In fd cols -> is_column fd.
  Hypothesis Hdist : NoDup (map fd_name cols).
  Hypothesis Hin : forall c fd, In c cs -> In fd cols -> there c fd \/ absent c fd.

  Lemma nth_file i c : nth_error cs i = Some c -> exists f, open_nr little files p (Z.of_nat i) = Ok f /\
      (forall name size sh vals, In (Data name false size sh vals) (pieces c) -> f name = Some (Ok {| shape := map Z.to_nat sh; data := vals |})) /\
      (forall name, (forall full is_attr size sh vals t, In (Data full is_attr size sh vals) (pieces c) -> keys full <> keys name ++ t) -> f name = None).
  Proof using Hopen Hst. intro E. destruct (Hst _ _ E) as (lf & rest & Hf). apply opened with (lf := lf) (rest := rest); [|exact Hf]. apply Hopen. now apply nth_error_In in E. Qed.
  Lemma nth_array i c fd : nth_error cs i = Some c -> In fd cols ->
    (there c fd -> array_in p (Z.of_nat i) (nm (fd_name fd)) = Some (file_array c fd)) /\ (absent c fd -> array_in p (Z.of_nat i) (nm (fd_name fd)) = None).
  Proof using Hopen Hst. intros E Hfd. destruct (nth_file i c E) as (f & E1 & E2 & E3). unfold array_in. rewrite E1. split; [intros [H _]; now rewrite (E2 (nm (fd_name fd)) _ _ _ H) | intros (_ & _ & H); now rewrite (E3 _ H)]. Qed.
  Definition index : list Z := zseq 0 (List.length cs).
  Lemma all_good : Forall (good (open_nr little files p) (array_in p) (map (fun fd => nm (fd_name fd)) cols)) index.
  Proof using Hopen Hst Hin.
    apply Forall_forall. intros i Hi. unfold index in Hi. apply In_zseq in Hi. destruct (nth_error cs (Z.to_nat i)) as [c|] eqn:E; [|apply nth_error_None in E; lia].
    pose proof (nth_file _ _ E) as (f & E1 & E2 & E3). rewrite Z2Nat.id in E1 by lia. exists f. split; [exact E1|]. intros n Hn. apply in_map_iff in Hn. destruct Hn as (fd & <- & Hfd).
    unfold array_in. rewrite E1. destruct (Hin c fd (nth_error_In _ _ E) Hfd) as [[H _]|(_ & _ & H)]; [now rewrite (E2 (nm (fd_name fd)) _ _ _ H) | now rewrite (E3 _ H)].
  Qed.
  Lemma names_distinct : NoDup (map (fun fd => nm (fd_name fd)) cols).
  Proof using Hdist.
    clear - Hdist. induction cols as [|fd l IH]; cbn in *; [constructor|]. inversion Hdist as [|? ? H1 H2]; subst. constructor; [|now apply IH]. intro H. apply H1. apply in_map_iff in H. destruct H as (fd' & E & H). apply in_map_iff. exists fd'. split; [|exact H].
    unfold nm in E. rewrite <- (string_of_list_ascii_of_string (fd_name fd')), <- (string_of_list_ascii_of_string (fd_name fd)). now rewrite E.
  Qed.
  Lemma zseq_snoc_nat n a : zseq a (S n) = zseq a n ++ [a + Z.of_nat n].
  Proof using. clear. revert a. induction n as [|n IH]; intro a; [cbn; f_equal; lia|]. cbn [zseq] in *. rewrite IH. cbn [app]. do 3 f_equal. lia. Qed.
  (** the arrays of a column in the files, in order *)
  Lemma arrays_spec fd : In fd cols -> exists xs, arrays_of (array_in p) index (nm (fd_name fd)) = xs /\
    Forall (fun x => nd_ok x /\ exists n, shape x = n :: row_shape fd) xs /\
    list_sum (map (fun x => nth 0 (shape x) 0%nat) xs) = Z.to_nat (sumZ (map (rows_in fd) cs)) /\ flat_map data xs = concat (map (fun c => c (fd_name fd)) cs) /\
    0 <= sumZ (map (rows_in fd) cs) /\ ((exists c, In c cs /\ there c fd) -> xs <> []).
  Proof using Hopen Hst Hin Hcol.
    intro Hfd. unfold index, arrays_of.
    enough (forall n, (n <= List.length cs)%nat -> let l := firstn n cs in exists xs, flat_map (fun i => match array_in p i (nm (fd_name fd)) with Some a => [a] | None => [] end) (zseq 0 n) = xs /\
      Forall (fun x => nd_ok x /\ exists n, shape x = n :: row_shape fd) xs /\
      list_sum (map (fun x => nth 0 (shape x) 0%nat) xs) = Z.to_nat (sumZ (map (rows_in fd) l)) /\ flat_map data xs = concat (map (fun c => c (fd_name fd)) l) /\
      0 <= sumZ (map (rows_in fd) l) /\ ((exists c, In c l /\ there c fd /\ ~ absent c fd) -> xs <> []) /\ ((forall c, In c l -> ~ there c fd) \/ xs <> [])) as H.
    { destruct (H (List.length cs) (le_n _)) as (xs & H1 & H2 & H3 & H4 & H5 & _ & H6). rewrite firstn_all in *. exists xs. repeat (split; [assumption|]). intros (c & Hc & Ht). destruct H6 as [H6|H6]; [|exact H6]. now destruct (H6 c Hc). }
    induction n as [|n IH]; intros Hn; cbv zeta.
    - exists []. cbn. split; [reflexivity|]. split; [constructor|]. split; [reflexivity|]. split; [reflexivity|]. split; [lia|]. split; [intros (c & [] & _) | left; intros c []].
    - destruct (IH ltac:(lia)) as (xs & H1 & H2 & H3 & H4 & H5 & H6 & H7). destruct (nth_error cs n) as [c|] eqn:E; [|apply nth_error_None in E; lia].
      assert (firstn (S n) cs = firstn n cs ++ [c]) as Ef. { clear - E. revert n E. induction cs as [|a l IH]; intros [|n] E; try discriminate; cbn in *; [congruence | now rewrite (IH n E)]. }
      rewrite Ef, !map_app, sumZ_app, concat_app, zseq_snoc_nat, flat_map_app, H1. cbn [map sumZ concat flat_map app]. rewrite !app_nil_r, Z.add_0_r.
      destruct (nth_array n c fd E Hfd) as [A1 A2]. replace (0 + Z.of_nat n) with (Z.of_nat n) by lia. destruct (Hin c fd (nth_error_In _ _ E) Hfd) as [T|T].
      + rewrite (A1 T). exists (xs ++ [file_array c fd]). pose proof (column_shape c fd (Hcol fd Hfd)) as Hs. pose proof (file_array_ok c fd (proj2 T)) as Hok.
        assert (0 <= rows_in fd c) as Hr. { destruct T as [_ (_ & Hp & _)]. destruct (Hcol fd Hfd) as (count & dims & Ed). unfold rows_in. rewrite Ed in *. cbn [map Formats.CatSpec.extent] in Hp. now apply Forall_cons_iff in Hp. }
        split; [reflexivity|]. split; [apply Forall_app; split; [exact H2|]; constructor; [|constructor]; split; [exact Hok | eauto]|]. rewrite map_app, list_sum_app, H3. cbn [map list_sum fold_right]. rewrite Hs. cbn [nth]. split; [lia|]. rewrite flat_map_app, H4. cbn [flat_map data file_array]. rewrite app_nil_r. split; [reflexivity|]. split; [lia|]. split; [intros _ | right]; now destruct xs.
      + rewrite (A2 T). destruct T as (T1 & T2 & T3). rewrite T1, T2, !app_nil_r, Z.add_0_r. exists xs. split; [reflexivity|]. split; [exact H2|]. split; [exact H3|]. split; [exact H4|]. split; [exact H5|].
        assert (~ there c fd) as Hnt. { intros [Hi _]. refine (T3 _ _ _ _ _ [] Hi _). now rewrite app_nil_r. }
        split.
        * intros (c' & Hc' & Ht & Ha). apply in_app_or in Hc'. destruct Hc' as [Hc'|[<-|[]]]; [apply H6; eauto | contradiction].
        * destruct H7 as [H7|H7]; [left | now right]. intros c' Hc'. apply in_app_or in Hc'. destruct Hc' as [Hc'|[<-|[]]]; [now apply H7 | exact Hnt].
  Qed.
  Lemma first_nfiles : exists f, open_nr little files p 0 = Ok f /\ exists a, f (nm nfname) = Some (Ok a) /\ i32 (data a) = zlen cs.
  Proof using All.
    destruct Hnf as (c & size & E & Hi). destruct (nth_file 0 c) as (f & E1 & E2 & _). { destruct cs; [discriminate|]. exact E. }
    exists f. split; [exact E1|]. eexists. split; [apply (E2 _ _ _ _ Hi)|]. cbn [data]. unfold i32, signed32. cbn [nth]. unfold zlen in *. destruct (Z.leb_spec (2 ^ 31) (Z.of_nat (List.length cs))); lia.
  Qed.
  Theorem catalogue_whole : (forall fd, In fd cols -> exists c, In c cs /\ there c fd) ->
    group_catalogue little files p nfname (map (fun fd => nm (fd_name fd)) cols) = Ok (map (fun fd => (nm (fd_name fd), CArr (whole_array cs fd))) cols, index).
  Proof using All.
    intro Hsome. destruct first_nfiles as (f & E1 & a & E2 & E3). unfold group_catalogue. rewrite E1. cbn [bind]. rewrite E2. cbn [bind]. cbv zeta. rewrite E3. unfold zlen. rewrite Nat2Z.id. fold index.
    apply (read_multi_spec str_ord _ (array_in p)); [exact names_distinct | exact all_good|]. exists (map (whole_array cs) cols). split; [|split; [|reflexivity]].
    - assert (forall l, incl l cols -> Forall2 (fun n out => np_concatenate (Some 0) (arrays_of (array_in p) index n) = Ok out) (map (fun fd => nm (fd_name fd)) l) (map (whole_array cs) l)) as H; [|now apply H].
      induction l as [|fd l IH]; intro Hl; cbn [map]; constructor; [|apply IH; intros x Hx; apply Hl; now right]. assert (In fd cols) as Hfd by (apply Hl; now left). destruct (arrays_spec fd Hfd) as (xs & -> & H2 & H3 & H4 & _ & H5). rewrite (concat_first xs (row_shape fd) (H5 (Hsome fd Hfd)) H2). unfold whole_array. now rewrite H3, H4.
    - clear. induction cols as [|fd l IH]; [reflexivity|]. cbn [map combine]. now rewrite IH.
  Qed.
  Theorem catalogue_empty fd : In fd cols -> (forall c, In c cs -> absent c fd) -> group_catalogue little files p nfname (map (fun fd => nm (fd_name fd)) cols) = Err EValue.
  Proof using All.
    intros Hfd Hab. destruct first_nfiles as (f & E1 & a & E2 & E3). unfold group_catalogue. rewrite E1. cbn [bind]. rewrite E2. cbn [bind]. cbv zeta. rewrite E3. unfold zlen. rewrite Nat2Z.id. fold index.
    apply (read_multi_missing str_ord _ (array_in p) _ _ _ (nm (fd_name fd))); [exact names_distinct | exact all_good | apply in_map_iff; eauto|]. intros i Hi. unfold index in Hi. apply In_zseq in Hi. destruct (nth_error cs (Z.to_nat i)) as [c|] eqn:E; [|apply nth_error_None in E; lia].
    pose proof (proj2 (nth_array _ c fd E Hfd) (Hab c (nth_error_In _ _ E))) as A. now rewrite Z2Nat.id in A by lia.
  Qed.
End Files.
