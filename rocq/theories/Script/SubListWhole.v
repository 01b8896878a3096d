(** read_subhalo_catalogue.py with any files: a file is listed completely or not at all. *)
From Coq Require Import Ascii String NArith.
From Verif.Base Require Import Prelude ListLemmas Order.
From Verif.Binary Require Import BinModel NameProofs LayoutProofs.
From Verif.Formats Require Import ReaderModel FileSpec CatSpec CatFinal.
From Verif.Text Require Import StrModel StrSpec StrProofs FileNrProofs.
From Verif.Script Require Import SubListModel SubListSpec SubListFinal.
From Coq Require Import ZifyBool ZifyNat ZifyN.
Local Open Scope Z_scope.
Local Open Scope list_scope.
(** the header, in either byte order *)
Definition hdr (e : ord) : list block := map (fun i => {| b_dtype := t_int32; b_off := 4 * i; b_shape := []; b_endian := e |}) [0;1;2;3;4].
Definition hdr_tree : group := Group [] (map (fun p => (nm (fst p), (snd p, []))) [("Ngroups"%string, 0%nat); ("Nids"%string, 1%nat); ("TotNgroups"%string, 2%nat); ("NFiles"%string, 3%nat); ("Nsubhalos"%string, 4%nat)]) [].
Definition hdr_file (e : ord) : file := {| f_off := 20; f_endian := e; f_blocks := hdr e; f_tree := hdr_tree; f_rec := None |}.
Lemma header_added little content k : exec little content (adds [(nm "Ngroups", t_int32, []); (nm "Nids", t_int32, []); (nm "TotNgroups", t_int32, []); (nm "NFiles", t_int32, []); (nm "Nsubhalos", t_int32, [])] k) new_file = exec little content k (hdr_file NAT).
Proof. cbn [adds]. reflexivity. Qed.
(** the arrays after it *)
Definition tail (g n : Z) (id_type : dtype) : prog := adds [(nm "NsubPerHalo", t_int32, [g]); (nm "FirstSubOfHalo", t_int32, [g]);
        (nm "SubLen", t_int32, [n]); (nm "SubOffset", t_int32, [n]); (nm "SubParentHalo", t_int32, [n]);
        (nm "Halo_M_Mean200", t_float32, [g]); (nm "Halo_R_Mean200", t_float32, [g]);
        (nm "Halo_M_Crit200", t_float32, [g]); (nm "Halo_R_Crit200", t_float32, [g]);
        (nm "Halo_M_TopHat200", t_float32, [g]); (nm "Halo_R_TopHat200", t_float32, [g]);
        (nm "SubPos", t_float32, [n; 3]); (nm "SubVel", t_float32, [n; 3]); (nm "SubVelDisp", t_float32, [n]);
        (nm "SubVmax", t_float32, [n]); (nm "SubSpin", t_float32, [n; 3]); (nm "SubMostBoundID", id_type, [n]);
        (nm "SubHalfMass", t_float32, [n])] Done.
Lemma unfold_prog : mill_sub_tab = adds [(nm "Ngroups", t_int32, []); (nm "Nids", t_int32, []); (nm "TotNgroups", t_int32, []); (nm "NFiles", t_int32, []); (nm "Nsubhalos", t_int32, [])]
  (guess_order "NFiles" (Get "Ngroups" (fun v => Get "Nids" (fun _ => Get "NFiles" (fun _ => Get "Nsubhalos" (fun w => tail (i32 v) (i32 w) t_uint64)))))).
Proof. reflexivity. Qed.
Lemma tail_arrays little content e g n id_type f : exec little content (tail g n id_type) (hdr_file e) = (f, Ok tt) ->
   g_getitem (f_tree f) (nm "Nsubhalos") = Ok (EDset 4 []) /\ g_getitem (f_tree f) (nm "SubLen") = Ok (EDset 7 []) /\ 
   g_getitem (f_tree f) (nm "SubParentHalo") = Ok (EDset 9 []) /\ g_getitem (f_tree f) (nm "SubPos") = Ok (EDset 16 []) /\ g_getitem (f_tree f) (nm "SubVel") = Ok (EDset 17 []) /\
   nth_error (f_blocks f) 4 = nth_error (hdr e) 4 /\ option_map b_shape (nth_error (f_blocks f) 7) = Some [n] /\ option_map b_shape (nth_error (f_blocks f) 9) = Some [n] /\
   option_map b_shape (nth_error (f_blocks f) 16) = Some [n; 3] /\ option_map b_shape (nth_error (f_blocks f) 17) = Some [n; 3].
Proof.
  intro H. apply (f_equal fst) in H. cbn [fst] in H. subst f.
  repeat split; cbn [option_map]; reflexivity.
Qed.

Lemma count_read little content e v : e = NAT \/ e = swap_endian little true ->
  match nth_error (hdr e) 4 with Some b => do items <- getitem little content b None; Ok (numbers little (b_dtype b) items) | None => Err EFuel end = Ok v ->
  exists lf, i32 v = subhalos_of_header lf content.
Proof.
  intros He H. change (nth_error (hdr e) 4) with (Some {| b_dtype := t_int32; b_off := 16; b_shape := []; b_endian := e |}) in H. cbv iota beta in H. unfold getitem in H.
  cbn [b_off b_shape b_dtype b_endian forallb] in H.
  destruct (check (negb _) _) as [u|]; cbn [bind] in H; [|discriminate]. cbn [Z.leb Z.compare check bind] in H.
  destruct (check _ EIO) as [u'|] eqn:Ec; cbn [bind] in H; [|discriminate].
  assert (zslice content 16 20 = firstn 4 (skipn 16 content)) as Hs by reflexivity.
  change (view content 16 (itemsize t_int32) (b_size {| b_dtype := t_int32; b_off := 16; b_shape := []; b_endian := e |})) with [zslice content 16 20] in H. rewrite Hs in H. clear Hs.
  unfold subhalos_of_header. set (b := firstn 4 (skipn 16 content)) in *.
  assert (exists lf, v = [base256 (if lf : bool then b else rev b)]) as (lf & ->).
  2: { exists lf. unfold i32. cbn [nth]. apply signed_bits. }
  assert (swap_item t_int32 b = rev b) as Hsw.
  { unfold swap_item. cbn [t_int32 num dt_fields split_fields map concat]. rewrite app_nil_r. change (Z.to_nat 4) with 4%nat. unfold b. rewrite firstn_firstn. reflexivity. }
  destruct He as [-> | ->]; destruct little; cbn [need_byteswap swap_endian t_int32 num dt_order ord_eqb valid_endian negb big_or_little bind Z.eqb Pos.eqb] in H;
    injection H as <-; cbn [map b_dtype numbers]; rewrite ?Hsw; unfold numbers, endian_value, mem_endian; cbn [map t_int32 num dt_order Z.eqb Pos.eqb big_or_little]; rewrite ?rev_involutive.
  all: first [exists true; reflexivity | exists false; reflexivity].
Qed.
Lemma getitem_length little content b items : getitem little content b None = Ok items -> List.length items = Z.to_nat (b_size b) /\ Forall (fun s => 0 <= s) (b_shape b).
Proof.
  unfold getitem. intro H. destruct (check (negb _) _); cbn [bind] in H; [|discriminate]. destruct (check (0 <=? _) _); cbn [bind] in H; [|discriminate]. destruct (check (_ <=? _) _); cbn [bind] in H; [|discriminate].
  destruct (check (forallb _ _) _) eqn:E; cbn [bind] in H; [|discriminate]. destruct (need_byteswap _ _ _) as [sw|]; cbn [bind] in H; [|discriminate]. injection H as <-. split.
  - destruct sw; rewrite ?map_length; unfold view; rewrite map_length, zseq_length; reflexivity.
  - unfold check in E. destruct (forallb _ _) eqn:F; [|discriminate]. apply Forall_forall. intros x Hx. rewrite forallb_forall in F. apply F in Hx. lia.
Qed.
Lemma read_shape little content f name id b shape v : g_getitem (f_tree f) name = Ok (EDset id []) -> nth_error (f_blocks f) id = b -> option_map b_shape b = Some shape ->
  read_dataset little content f name = Ok v -> zlen v = fold_left Z.mul shape 1 /\ Forall (fun s => 0 <= s) shape.
Proof.
  intros E1 E2 E3 H. unfold read_dataset in H. rewrite E1 in H. cbn [bind] in H. rewrite E2 in H. destruct b as [b|]; [|discriminate]. injection E3 as <-.
  destruct (getitem little content b None) as [items|] eqn:E; [|discriminate]. cbn [bind] in H. injection H as <-. apply getitem_length in E. destruct E as [E F]. split; [|exact F].
  unfold numbers, zlen. rewrite map_length, E. unfold b_size. rewrite Z2Nat.id; [reflexivity|]. clear -F. assert (forall l a, 0 <= a -> Forall (fun s => 0 <= s) l -> 0 <= fold_left Z.mul l a) as G; [|apply G; [lia | exact F]].
  clear. induction l as [|x l IH]; intros a Ha H; [exact Ha|]. apply Forall_cons_iff in H. destruct H as [Hx H]. cbn [fold_left]. apply IH; [nia | exact H].
Qed.
Lemma get_any little content name k f0 f : exec little content (Get name k) f0 = (f, Ok tt) -> exists v, read_dataset little content f0 name = Ok v /\ exec little content (k v) f0 = (f, Ok tt).
Proof. cbn [exec]. destruct (read_dataset little content f0 name) as [v|e]; [|discriminate]. intro H. now exists v. Qed.
Lemma guess_any little content K f : exec little content (guess_order "NFiles" K) (hdr_file NAT) = (f, Ok tt) ->
  exists e, (e = NAT \/ e = swap_endian little true) /\ exec little content K (hdr_file e) = (f, Ok tt).
Proof.
  unfold guess_order. intro H. apply get_any in H. destruct H as (v & _ & H). cbv zeta in H. destruct (_ || _)%bool.
  - exists (swap_endian little true). split; [now right|]. rewrite <- H. destruct little; reflexivity.
  - exists NAT. split; [now left | exact H].
Qed.
Lemma dset_read little content f name id : g_getitem (f_tree f) name = Ok (EDset id []) -> read_dataset little content f name =
  match nth_error (f_blocks f) id with Some b => do items <- getitem little content b None; Ok (numbers little (b_dtype b) items) | None => Err EFuel end.
Proof. intro E. unfold read_dataset. now rewrite E. Qed.
Lemma hdr_read little content e : read_dataset little content (hdr_file e) (nm "Nsubhalos") =
  match nth_error (hdr e) 4 with Some b => do items <- getitem little content b None; Ok (numbers little (b_dtype b) items) | None => Err EFuel end.
Proof. apply (dset_read little content (hdr_file e) (nm "Nsubhalos") 4). reflexivity. Qed.
Lemma open_exec little content p : open_file little content p = exec little content p new_file. Proof. reflexivity. Qed.
Lemma sizes little content f : open_file little content mill_sub_tab = (f, Ok tt) -> exists v,
  read_dataset little content f (nm "Nsubhalos") = Ok v /\ (exists lf, i32 v = subhalos_of_header lf content) /\
  forall p l x y, read_dataset little content f (nm "SubParentHalo") = Ok p -> read_dataset little content f (nm "SubLen") = Ok l ->
    read_dataset little content f (nm "SubPos") = Ok x -> read_dataset little content f (nm "SubVel") = Ok y ->
    0 <= i32 v /\ zlen p = i32 v /\ zlen l = i32 v /\ zlen x = i32 v * 3 /\ zlen y = i32 v * 3.
Proof.
  intro H. rewrite open_exec, unfold_prog, header_added in H. apply guess_any in H. destruct H as (e & He & H).
  apply get_any in H. destruct H as (a & _ & H). apply get_any in H. destruct H as (b & _ & H). apply get_any in H. destruct H as (c & _ & H).
  apply get_any in H. destruct H as (s & E4 & H). cbv beta in H.
  apply tail_arrays in H. destruct H as (T4 & T7 & T9 & T16 & T17 & B4 & B7 & B9 & B16 & B17).
  exists s. rewrite hdr_read in E4.
  split; [rewrite (dset_read _ _ _ _ _ T4), B4; exact E4|]. split; [exact (count_read little content e s He E4)|].
  intros p l x y Hp Hl Hx Hy. pose proof (read_shape _ _ _ _ _ _ _ _ T9 eq_refl B9 Hp) as [P1 P2]. pose proof (read_shape _ _ _ _ _ _ _ _ T7 eq_refl B7 Hl) as [L1 _].
  pose proof (read_shape _ _ _ _ _ _ _ _ T16 eq_refl B16 Hx) as [X1 _]. pose proof (read_shape _ _ _ _ _ _ _ _ T17 eq_refl B17 Hy) as [Y1 _].
  apply Forall_cons_iff in P2. destruct P2 as [P2 _]. cbn [fold_left] in P1, L1, X1, Y1. rewrite Z.mul_1_l in P1, L1, X1, Y1. tauto.
Qed.
Section Whole.
  Variables (little : bool) (fs : str -> option (list Z)) (fmt_f : Z -> str).
  Lemma show_file_any isnap ifile : (exists e, show_file little fs fmt_f isnap ifile = ([], Err e)) \/
    exists lines content lf, show_file little fs fmt_f isnap ifile = (lines, Ok tt) /\ fs (sub_tab_name isnap ifile) = Some content /\ zlen lines = subhalos_of_header lf content.
  Proof.
    unfold show_file, read_sub_tab. destruct (fs _) as [content|]; [|left; eexists; reflexivity].
    destruct (open_file little content mill_sub_tab) as [f [[]|e]] eqn:Ho; [|left; eexists; reflexivity].
    apply sizes in Ho. destruct Ho as (v & Ev & (lf & Hlf) & Hsz).
    change (lit "Nsubhalos") with (nm "Nsubhalos"). change (lit "SubParentHalo") with (nm "SubParentHalo"). change (lit "SubLen") with (nm "SubLen"). change (lit "SubPos") with (nm "SubPos"). change (lit "SubVel") with (nm "SubVel").
    rewrite Ev. cbn [bind].
    destruct (read_dataset _ _ _ (nm "SubParentHalo")) as [p|]; cbn [bind]; [|left; eexists; reflexivity].
    destruct (read_dataset _ _ _ (nm "SubLen")) as [l|]; cbn [bind]; [|left; eexists; reflexivity].
    destruct (read_dataset _ _ _ (nm "SubPos")) as [x|]; cbn [bind]; [|left; eexists; reflexivity].
    destruct (read_dataset _ _ _ (nm "SubVel")) as [y|]; cbn [bind]; [|left; eexists; reflexivity].
    destruct (Hsz p l x y eq_refl eq_refl eq_refl eq_refl) as (N & P & L & X & Y). right.
    match goal with |- exists lines content lf, print_each ?b _ = _ /\ _ => destruct (print_lines (fun _ _ => True) b (zseq 0 (Z.to_nat (i32 v)))) as (lines & E & F) end.
    { intros i Hi. apply In_zseq in Hi. unfold show_subhalo, item2. rewrite !item_ok by lia. cbn [bind]. eexists. split; [reflexivity | exact I]. }
    exists lines, content, lf. split; [exact E|]. split; [reflexivity|]. apply Forall2_zseq in F. unfold zlen. lia.
  Qed.
  Definition listed (isnap a : Z) (parts : list (list str)) : Prop := forall i part, nth_error parts i = Some part ->
    exists name content lf, file_name_is isnap (a + Z.of_nat i) name /\ fs name = Some content /\ zlen part = subhalos_of_header lf content.
  Lemma whole_files isnap : 0 <= isnap <= 999 -> forall n a, exists parts r, print_each (show_file little fs fmt_f isnap) (zseq a n) = (concat parts, r) /\
    listed isnap a parts /\ match r with Ok _ => List.length parts = n | Err _ => (List.length parts < n)%nat end.
  Proof.
    intro Hs. induction n as [|n IH]; intro a.
    - exists [], (Ok tt). split; [reflexivity|]. split; [|reflexivity]. intros [|i] part H; discriminate.
    - cbn [zseq print_each]. destruct (show_file_any isnap a) as [(e & ->)|(lines & content & lf & -> & Hfs & Hl)].
      + exists [], (Err e). split; [reflexivity|]. split; [intros [|i] part H; discriminate | cbn; lia].
      + destruct (IH (a + 1)) as (parts & r & -> & Hp & Hr). exists (lines :: parts), r. split; [reflexivity|]. split.
        * intros [|i] part H.
          -- injection H as <-. exists (sub_tab_name isnap a), content, lf. rewrite Z.add_0_r. split; [now apply name_ok | now split].
          -- destruct (Hp i part H) as (name & c & lf' & H1 & H2). exists name, c, lf'. now replace (a + Z.of_nat (S i)) with (a + 1 + Z.of_nat i) by lia.
        * cbn [List.length]. destruct r; lia.
  Qed.
  Lemma whole_final isnap nfiles : 0 <= isnap <= 999 -> 0 <= nfiles -> exists parts r, read_subhalo_catalogue little fs fmt_f isnap nfiles = (heading :: concat parts, r) /\
    (forall i part, nth_error parts i = Some part -> exists name content lf, file_name_is isnap (Z.of_nat i) name /\ fs name = Some content /\ zlen part = subhalos_of_header lf content) /\
    match r with Ok _ => zlen parts = nfiles | Err _ => zlen parts < nfiles end.
  Proof.
    intros Hs Hn. destruct (whole_files isnap Hs (Z.to_nat nfiles) 0) as (parts & r & E & Hp & Hr). exists parts, r. unfold read_subhalo_catalogue. rewrite E. split; [reflexivity|]. split; [exact Hp|]. unfold zlen. destruct r; lia.
  Qed.
End Whole.
