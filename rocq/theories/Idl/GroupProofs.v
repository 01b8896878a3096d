(** Proofs about get_group_coordinates (C86): the particles which are read. *)
From Coq Require Import QArith.
From Coq Require Import Ascii String.
From Verif Require Import Base.Prelude Base.ListLemmas Binary.BinModel Formats.FileSpec Formats.CatSpec Formats.ReaderProofs Snap.ReadSpec.
From Verif Require Import Text.StrModel Text.PathSpec Peano.CPeanoModel Fortran.SortModel Fortran.RegionModel Fortran.RegionSpec Fortran.GroupTabSpec Fortran.RegionProofs Fortran.FofSpec.
From Verif Require Import Index.IndexModel Idl.LibModel Idl.LibSpec Idl.SnapSpec Idl.StdioProofs Idl.SnapProofs Idl.HashProofs Idl.CellProofs.
From Verif Require Fortran.ReadPartProofs.
From Coq Require Import ZifyBool ZifyNat.
Local Open Scope Z_scope. Local Open Scope list_scope.

(** *** lists *)
Lemma triple_len {A B} (g : A -> list B) l : Forall (fun p => zlen (g p) = 3) l -> zlen (concat (map g l)) = 3 * zlen l.
Proof. induction l as [|x l IH]; intro H; [reflexivity|]. apply Forall_cons_iff in H. destruct H as [H1 H2]. cbn [map concat]. rewrite zlen_app, zlen_cons, IH, H1 by exact H2. lia. Qed.
Lemma In_slice_Forall {A} (Q : A -> Prop) l a b : Forall Q l -> Forall Q (zslice l a b).
Proof. intro H. rewrite Forall_forall in *. intros x Hx. apply H. now apply (ReadPartProofs.In_zslice_in l a b). Qed.
Lemma triple_slice {A B} (g : A -> list B) l a m : Forall (fun p => zlen (g p) = 3) l -> 0 <= a -> 0 <= m -> a + m <= zlen l -> zslice (concat (map g l)) (3 * a) (3 * a + 3 * m) = concat (map g (zslice l a (a + m))).
Proof.
  intros H Ha Hm Hl.
  assert (l = zslice l 0 a ++ zslice l a (a + m) ++ zslice l (a + m) (zlen l)) as E.
  { rewrite <- zslice_split by lia. rewrite <- zslice_split by lia. symmetry. apply zslice_all; lia. }
  rewrite E at 1. rewrite !map_app, !concat_app.
  assert (zlen (concat (map g (zslice l 0 a))) = 3 * a) as E1 by (rewrite triple_len by (now apply In_slice_Forall); rewrite zlen_zslice by lia; lia).
  assert (zlen (concat (map g (zslice l a (a + m)))) = 3 * m) as E2 by (rewrite triple_len by (now apply In_slice_Forall); rewrite zlen_zslice by lia; lia).
  rewrite zslice_app, (zslice_past (concat (map g (zslice l 0 a)))), E1 by nia. cbn [app].
  rewrite zslice_app, E2. rewrite (zslice_all (concat (map g (zslice l a (a + m))))) by nia. rewrite (zslice_neg _ (3 * a - 3 * a - 3 * m)) by nia. apply app_nil_r.
Qed.
Lemma set_map_zseq {A} (g : Z -> A) v (m : nat) : forall from c, from <= c < from + Z.of_nat m -> set_nth (map g (zseq from m)) (Z.to_nat (c - from)) v = map (fun i => if i =? c then v else g i) (zseq from m).
Proof.
  induction m as [|m IH]; intros from c H; [lia|]. cbn [zseq map]. destruct (Z.eq_dec c from) as [->|Hne].
  - rewrite Z.sub_diag. cbn [Z.to_nat set_nth]. rewrite Z.eqb_refl. f_equal. apply map_ext_in. intros i Hi. apply In_zseq in Hi. destruct (Z.eqb_spec i from); [lia | reflexivity].
  - replace (Z.to_nat (c - from)) with (S (Z.to_nat (c - (from + 1)))) by lia. cbn [set_nth]. destruct (Z.eqb_spec from c); [lia|]. f_equal. apply IH. lia.
Qed.
Lemma rd_map_zseq {A} (g : Z -> A) n r c : 0 <= c < n -> rd (map g (zseq 0 (Z.to_nat n)) ++ r) c = Ok (g c).
Proof.
  intro H. rewrite rd_app1 by (rewrite zlen_map, zlen_zseq; lia). apply rd_nth; [lia|]. rewrite nth_error_map, nth_error_zseq by lia. cbn [option_map]. f_equal. f_equal. lia.
Qed.
Lemma set_nth_app {A} (a b : list A) i v : (i < List.length a)%nat -> set_nth (a ++ b) i v = set_nth a i v ++ b.
Proof. revert i. induction a as [|x a IH]; intros [|i] H; cbn [List.length] in H; try lia; [reflexivity|]. cbn [app set_nth]. f_equal. apply IH. lia. Qed.

Lemma mapM_map {X Y W} (f : Y -> res W) (g : X -> Y) l : mapM f (map g l) = mapM (fun x => f (g x)) l.
Proof. induction l as [|x l IH]; [reflexivity|]. cbn [map mapM]. now rewrite IH. Qed.

Section Read.
  Variables (little : bool) (fs : str -> option (list Z)) (dir base : str) (num n nhash box : Z) (files : list cfile) (t : hash) (value4 value8 : Z -> Q).
  Hypothesis Hnum : 0 <= num.
  Hypothesis HF : snap_files little fs dir base num n nhash box files.
  Hypothesis Hcov : covers 0 nhash files.
  Hypothesis HT : is_tables files (Hashtable t) (Filetable t) (LastHashCell t) (NInFiles t).
  Definition cell (c : Z) : list particle := nth (Z.to_nat c) (cells files) [].
  Definition fil (c : Z) : Z := nth (Z.to_nat c) (files_of_cells files) 0.
  Definition pos_vals (p : particle) : list Q := map value4 (fst (fst p)).
  Lemma counted : countable files.
  Proof.
    unfold countable. apply Forall_forall. intros f Hf. apply In_nth_error in Hf. destruct Hf as (i & E). destruct (HF i f E) as (cat & content & _ & (extra & _ & _ & _ & P & _) & _). pose proof (zlen_nonneg (concat (cf_cells f))). lia.
  Qed.
  Lemma nhash_len : nhash = zlen (cells files).
  Proof. exact (nhash_cells files nhash Hcov). Qed.
  Lemma fil_ok c : 0 <= c < nhash -> rd (Filetable t) c = Ok (fil c) /\ cell_len t (fil c) c = Ok (zlen (cell c)).
  Proof.
    intro H. destruct (cell_ok files nhash t Hcov HT counted c H) as (file & E1 & E2). assert (file = fil c) as ->; [|now split].
    destruct HT as (r1 & r2 & r3 & r4 & _ & E & _). rewrite E in E1. assert (zlen (files_of_cells files) = nhash) as EL by (rewrite files_FT, nhash_len; unfold zlen; now rewrite FT_len).
    rewrite rd_app1 in E1 by lia. unfold rd in E1. replace (0 <=? c) with true in E1 by lia. unfold fil. destruct (nth_error (files_of_cells files) (Z.to_nat c)) eqn:EN; [|discriminate E1]. injection E1 as ->. symmetry. now apply nth_error_nth.
  Qed.
  Lemma cell_slice (f : cfile) j : (j < List.length (cf_cells f))%nat -> zslice (concat (cf_cells f)) (zlen (concat (firstn j (cf_cells f)))) (zlen (concat (firstn j (cf_cells f))) + zlen (nth j (cf_cells f) [])) = nth j (cf_cells f) [] /\
    zlen (concat (firstn j (cf_cells f))) + zlen (nth j (cf_cells f) []) <= zlen (concat (cf_cells f)).
  Proof.
    intro Hj. pose proof (concat_slice (cf_cells f) j 1 ltac:(lia)) as E. pose proof (at_sum f j Hj) as G. pose proof (at_bound f j Hj (S j)) as B. replace (j + 1)%nat with (S j) in E by lia. rewrite <- G. split; [|exact B]. rewrite <- E.
    assert (firstn 1 (skipn j (cf_cells f)) = [nth j (cf_cells f) []]) as ->; [|cbn; apply app_nil_r].
    clear - Hj. revert Hj. generalize (cf_cells f). intros l. revert j. induction l as [|x l IH]; intros [|j] H; cbn [List.length] in H; try lia; [reflexivity|]. cbn [skipn nth]. apply IH. lia.
  Qed.
  Lemma cell_reads c : 0 <= c < nhash -> read_cell_pos little fs dir num base value4 value8 t (fil c) c = Ok (Some (value8 box, concat (map pos_vals (cell c)))) /\ read_cell_ids little fs dir num base t (fil c) c = Ok (Some (map id_of (cell c))).
  Proof.
    intro H. destruct (locate_in files 0 nhash c Hcov H) as (a & f & b & j & E & Ec & Hj). pose proof (at_file files nhash t Hcov HT a b f j E Hj) as AF. pose proof (at_start files nhash t Hcov HT a b f j E Hj j Hj) as AS. pose proof (at_cell files nhash Hcov a b f j E Hj) as AC.
    destruct (fil_ok c H) as [FO FL]. rewrite <- Ec in *. rewrite AF in FO. injection FO as FE. rewrite <- FE in *. fold (cell c) in AC. rewrite AC in *.
    assert (nth_error files (List.length a) = Some f) as Ef by (rewrite E, nth_error_app2, Nat.sub_diag by lia; reflexivity).
    destruct (HF _ f Ef) as (cat & content & HI & (extra & P1 & P2 & P3 & P4 & P5 & P6 & P7 & P8 & P9 & P10) & S1 & S2 & S3).
    assert (12 * npart_of cat < 2 ^ 31) as B1 by (rewrite P3; exact P4). assert (4 * (scalar cat "last_hash_cell" - scalar cat "first_hash_cell" + 1) < 2 ^ 31) as B2 by (rewrite P7, P8; lia).
    pose proof (fopen_name fs dir base num (zlen a) _ Hnum (zlen_nonneg a) HI) as HO. cbn zeta in HO.
    destruct (cell_slice f j Hj) as [CS CB]. set (s := zlen (concat (firstn j (cf_cells f)))) in *. set (l := nth j (cf_cells f) []) in *. pose proof (zlen_nonneg (concat (firstn j (cf_cells f)))) as Z1. fold s in Z1. pose proof (zlen_nonneg l) as Z2.
    destruct (lens little cat extra content P1) as (L1 & L2 & L3 & L4 & N1 & N2). set (N := npart_of cat) in *. set (M := scalar cat "last_hash_cell" - scalar cat "first_hash_cell" + 1) in *.
    split.
    - unfold read_cell_pos, snap_name. rewrite HO. rewrite (snap_header_ok little cat extra content P1 B1 B2). cbn [bind snap_head box_bits].
      rewrite (int_at little cat extra content P1 B1 B2 3 (12 * N) 264 268) by (reflexivity || (cbn [firstn]; unfold sumZ; cbn [fold_right]; fold N M; lia) || lia). cbn [bind].
      rewrite AS. cbn [bind]. rewrite c_int_ok by lia. cbn [bind]. rewrite fseek_ok by lia. rewrite FL. cbn [bind]. rewrite c_int_ok by lia. cbn [bind].
      rewrite (part_at little cat extra content P1 B1 B2 4 4 (cat "PartType1/Coordinates"%string) (268 + 4 * (3 * s)) (3 * s) (3 * zlen l)) by (reflexivity || (cbn [firstn]; unfold sumZ; cbn [fold_right]; fold N M; lia) || lia).
      cbn [bind]. rewrite S3. do 4 f_equal. rewrite P5, triple_slice by (assumption || lia). rewrite CS, concat_map, map_map. reflexivity.
    - unfold read_cell_ids, snap_name. rewrite HO. rewrite (snap_header_ok little cat extra content P1 B1 B2). cbn [bind]. rewrite (skip_pos little cat extra content P1 B1 B2). cbn [bind]. rewrite (skip_vel little cat extra content P1 B1 B2). cbn [bind].
      fold N. rewrite (int_at little cat extra content P1 B1 B2 9 (8 * N) (280 + 24 * N) (284 + 24 * N)) by (reflexivity || (cbn [firstn]; unfold sumZ; cbn [fold_right]; fold N M; lia) || lia). cbn [bind].
      rewrite AS. cbn [bind]. rewrite fseek_ok by lia. rewrite FL. cbn [bind].
      rewrite (part_at little cat extra content P1 B1 B2 10 8 (cat "PartType1/ParticleIDs"%string) (284 + 24 * N + 8 * s) s (zlen l)) by (reflexivity || (cbn [firstn]; unfold sumZ; cbn [fold_right]; fold N M; lia) || lia).
      cbn [bind]. do 2 f_equal. rewrite <- CS at 2. rewrite map_zslice. f_equal. unfold id_of. rewrite <- (map_map snd (fun v => nth 0 v 0)), <- P6, map_map. cbn [nth]. now rewrite map_id.
  Qed.

  (** *** flagged cells *)
  Definition flags (S : Z -> bool) : list Z := map (fun c => 2 * fil c + (if S c then 1 else 0)) (zseq 0 (Z.to_nat nhash)) ++ skipn (Z.to_nat nhash) (Filetable t).
  Definition chosen_in (S : Z -> bool) (l : list Z) : list particle := concat (map (fun c => if S c then cell c else []) l).
  Definition chosen (S : Z -> bool) : list particle := chosen_in S (zseq 0 (Z.to_nat nhash)).
  Lemma fil_range c : 0 <= c < nhash -> 0 <= fil c < zlen files.
  Proof.
    intro H. destruct (locate_in files 0 nhash c Hcov H) as (a & f & b & j & E & Ec & Hj). pose proof (at_file files nhash t Hcov HT a b f j E Hj) as AF. destruct (fil_ok c H) as [FO _]. rewrite <- Ec in AF. rewrite AF in FO. injection FO as <-.
    rewrite E, zlen_app, zlen_cons. pose proof (zlen_nonneg a). pose proof (zlen_nonneg b). lia.
  Qed.
  Lemma flag_read S c : 0 <= c < nhash -> rd (flags S) c = Ok (2 * fil c + (if S c then 1 else 0)).
  Proof. intro H. unfold flags. now rewrite rd_map_zseq. Qed.
  Lemma flag_half (b : bool) v : Z.shiftr (2 * v + (if b then 1 else 0)) 1 = v.
  Proof. rewrite Z.shiftr_div_pow2 by lia. change (2 ^ 1) with 2. destruct b; [replace (2 * v + 1) with (1 + v * 2) by lia | replace (2 * v + 0) with (0 + v * 2) by lia]; rewrite Z.div_add by lia; reflexivity. Qed.
  Lemma flag_bit (b : bool) v : Z.land (2 * v + (if b then 1 else 0)) 1 =? 0 = negb b.
  Proof. change 1 with (Z.ones 1) at 2. rewrite Z.land_ones by lia. change (2 ^ 1) with 2. destruct b; [replace (2 * v + 1) with (1 + v * 2) by lia | replace (2 * v + 0) with (0 + v * 2) by lia]; rewrite Z_mod_plus_full; reflexivity. Qed.
  Lemma flag_lor v : Z.lor (2 * v + 0) 1 = 2 * v + 1.
  Proof.
    rewrite Z.add_0_r. symmetry. rewrite Z.add_nocarry_lxor; [rewrite Z.lxor_lor; [reflexivity|]|]; apply Z.bits_inj'; intros i Hi; rewrite Z.land_spec, Z.bits_0; destruct (Z.eq_dec i 0) as [->|Hne];
      [rewrite Z.testbit_even_0; reflexivity | replace 1 with (Z.ones 1) by reflexivity; rewrite (Z.ones_spec_high 1 i) by lia; apply andb_false_r | rewrite Z.testbit_even_0; reflexivity | replace 1 with (Z.ones 1) by reflexivity; rewrite (Z.ones_spec_high 1 i) by lia; apply andb_false_r].
  Qed.
  Lemma flag_write S c : 0 <= c < nhash -> wr (flags S) c (2 * fil c + 1) = Ok (flags (fun i => S i || (i =? c))).
  Proof.
    intro H. unfold wr, flags. rewrite zlen_app, zlen_map, zlen_zseq. pose proof (zlen_nonneg (skipn (Z.to_nat nhash) (Filetable t))). match goal with |- (if ?b then _ else _) = _ => replace b with true by lia end. f_equal.
    rewrite set_nth_app by (rewrite map_length, zseq_length; lia). f_equal. replace (Z.to_nat c) with (Z.to_nat (c - 0)) by lia. rewrite set_map_zseq by lia. apply map_ext. intro i. destruct (Z.eqb_spec i c) as [->|]; [now rewrite orb_true_r | now rewrite orb_false_r].
  Qed.
  Lemma chosen_more S c : 0 <= c < nhash -> S c = false -> zlen (chosen (fun i => S i || (i =? c))) = zlen (chosen S) + zlen (cell c).
  Proof.
    intros H HS. unfold chosen, chosen_in. assert (forall m from, from <= c < from + Z.of_nat m -> zlen (concat (map (fun c0 => if S c0 || (c0 =? c) then cell c0 else []) (zseq from m))) = zlen (concat (map (fun c0 => if S c0 then cell c0 else []) (zseq from m))) + zlen (cell c)) as G; [|apply G; lia].
    induction m as [|m IH]; intros from Hf; [lia|]. cbn [zseq map concat]. rewrite !zlen_app. destruct (Z.eq_dec from c) as [->|Hne].
    - rewrite Z.eqb_refl, orb_true_r, HS. change (zlen (@nil particle)) with 0.
      assert (map (fun c0 => if S c0 || (c0 =? c) then cell c0 else []) (zseq (c + 1) m) = map (fun c0 => if S c0 then cell c0 else []) (zseq (c + 1) m)) as ->; [|lia].
      apply map_ext_in. intros i Hi. apply In_zseq in Hi. destruct (Z.eqb_spec i c); [lia|]. now rewrite orb_false_r.
    - destruct (Z.eqb_spec from c); [lia|]. rewrite orb_false_r, IH by lia. lia.
  Qed.
  Lemma chosen_mono S S' : (forall c, S c = true -> S' c = true) -> zlen (chosen S) <= zlen (chosen S').
  Proof.
    intro H. unfold chosen, chosen_in. generalize (zseq 0 (Z.to_nat nhash)). induction l as [|c l IH]; [reflexivity|]. cbn [map concat]. rewrite !zlen_app. specialize (H c). destruct (S c); [rewrite H by reflexivity; lia|]. pose proof (zlen_nonneg (if S' c then cell c else [])). change (zlen (@nil particle)) with 0. lia.
  Qed.
  Definition key (id : Z) : Z := id / 2 ^ 34.
  Lemma key_model id : 0 <= id < 2 ^ 64 -> signed32 (Z.shiftr id 34 mod 2 ^ 32) = key id /\ 0 <= key id < 2 ^ 30.
  Proof.
    intro H. rewrite Z.shiftr_div_pow2 by lia. fold (key id). assert (0 <= key id < 2 ^ 30) as R by (unfold key; split; [apply Z.div_pos; lia | apply Z.div_lt_upper_bound; lia]). split; [|exact R].
    rewrite Z.mod_small by lia. unfold signed32. destruct (Z.leb_spec (2 ^ 31) (key id)); [lia | reflexivity].
  Qed.
  Definition wanted_by (ids : list Z) (c : Z) : bool := existsb (fun id => key id =? c) ids.
  Lemma mark_ok ids : forall S, Forall (fun id => 0 <= id < 2 ^ 64 /\ key id < nhash) ids -> zlen (chosen (fun c => S c || wanted_by ids c)) < 2 ^ 31 ->
    exists S', (forall c, S' c = S c || wanted_by ids c) /\ mark_cells t nhash ids (flags S) (zlen (chosen S)) = Ok (Some (zlen (chosen S')), flags S').
  Proof.
    induction ids as [|id ids IH]; intros S HI HB.
    - exists S. split; [intro c; cbn; now rewrite orb_false_r | reflexivity].
    - apply Forall_cons_iff in HI. destruct HI as [[H1 H2] HI]. destruct (key_model id H1) as [K1 K2]. cbn [mark_cells]. rewrite K1. replace (nhash <=? key id) with false by lia.
      rewrite flag_read by lia. cbn [bind]. rewrite flag_bit. destruct (S (key id)) eqn:ES; cbn [negb].
      + destruct (IH S HI) as (S' & E1 & E2).
        * eapply Z.le_lt_trans; [apply chosen_mono | exact HB]. intros c. cbn [wanted_by existsb]. destruct (S c), (key id =? c), (existsb (fun id => key id =? c) ids) eqn:EX; unfold wanted_by; rewrite ?EX; cbn; auto.
        * exists S'. split; [|exact E2]. intro c. rewrite E1. unfold wanted_by. cbn [existsb]. destruct (Z.eqb_spec (key id) c) as [<-|]; [now rewrite ES | reflexivity].
      + rewrite flag_lor. rewrite flag_write by lia. cbn [bind]. pose proof (flag_half true (fil (key id))) as FH. cbn beta iota in FH. rewrite FH. destruct (fil_ok (key id) ltac:(lia)) as [_ FL]. rewrite FL. cbn [bind].
        rewrite <- chosen_more by (lia || exact ES). set (S1 := fun i => S i || (i =? key id)).
        assert (forall c, S1 c || wanted_by ids c = S c || wanted_by (id :: ids) c) as EQ by (intro c; unfold S1, wanted_by; cbn [existsb]; rewrite (Z.eqb_sym c (key id)); now rewrite orb_assoc).
        assert (zlen (chosen (fun c => S1 c || wanted_by ids c)) < 2 ^ 31) as HB1 by (eapply Z.le_lt_trans; [apply chosen_mono | exact HB]; intros c Hc; cbv beta in *; now rewrite <- EQ).
        rewrite c_int_ok. 2:{ split; [pose proof (zlen_nonneg (chosen S1)); lia|]. eapply Z.le_lt_trans; [apply chosen_mono | exact HB1]. intros c Hc. cbv beta. now rewrite Hc. }
        cbn [bind]. destruct (IH S1 HI HB1) as (S' & E1 & E2). exists S'. split; [intro c; now rewrite E1, EQ | exact E2].
  Qed.
  Lemma shift_ok : zlen files < 2 ^ 30 -> exists ft, rd_range (Filetable t) 0 nhash = Ok ft /\ mapM (fun f => c_shl f 1) ft = Ok (map (fun c => 2 * fil c + 0) (zseq 0 (Z.to_nat nhash))).
  Proof.
    intro Hz. destruct HT as (r1 & r2 & r3 & r4 & _ & E & _). assert (zlen (files_of_cells files) = nhash) as EL by (rewrite files_FT, nhash_len; unfold zlen; now rewrite FT_len). pose proof (zlen_nonneg (files_of_cells files)) as P0. pose proof (zlen_nonneg r2) as P2.
    exists (files_of_cells files). split.
    - rewrite E, rd_range_ok by (rewrite ?zlen_app; lia). f_equal. rewrite <- EL. rewrite Z.add_0_l. apply zslice_front.
    - assert (files_of_cells files = map fil (zseq 0 (Z.to_nat nhash))) as E1.
      { unfold fil. rewrite <- EL. unfold zlen. rewrite Nat2Z.id. symmetry. apply ReadPartProofs.map_nth_zseq. }
      rewrite E1. rewrite mapM_map. apply mapM_map_ok. intros c Hc. apply In_zseq in Hc. pose proof (fil_range c ltac:(lia)). unfold c_shl. replace ((0 <=? 1) && (1 <? 32) && (0 <=? fil c)) with true by lia. rewrite c_int_ok by (change (2 ^ 1) with 2; lia). f_equal. change (2 ^ 1) with 2. lia.
  Qed.
  (** the particles read from the flagged cells *)
  Lemma read_pos_ok S size l : forall acc box0, Forall (fun c => 0 <= c < nhash) l -> zlen acc + 3 * zlen (chosen_in S l) <= size -> (forall c, In c l -> Forall (fun p => zlen (fst (fst p)) = 3) (cell c)) ->
    read_pos little fs dir num base value4 value8 t (flags S) l box0 acc size = Ok (if existsb S l then value8 box else box0, Some (acc ++ concat (map pos_vals (chosen_in S l)))).
  Proof.
    induction l as [|c l IH]; intros acc box0 HL HB HV.
    - cbn. now rewrite app_nil_r.
    - apply Forall_cons_iff in HL. destruct HL as [Hc HL]. cbn [read_pos]. rewrite flag_read by exact Hc. cbn [bind]. rewrite flag_bit. unfold chosen_in in *. cbn [map concat existsb] in *. destruct (S c) eqn:ES; cbn [negb orb].
      + pose proof (flag_half true (fil c)) as FH. cbn beta iota in FH. rewrite FH. destruct (cell_reads c Hc) as [CR _]. rewrite CR. cbn [bind].
        assert (zlen (concat (map pos_vals (cell c))) = 3 * zlen (cell c)) as EL by (apply triple_len; eapply Forall_impl; [|apply HV; now left]; cbn; intros p Hp; unfold pos_vals; now rewrite zlen_map).
        rewrite zlen_app in HB. pose proof (zlen_nonneg (concat (map (fun c0 => if S c0 then cell c0 else []) l))) as Z0. rewrite zlen_app, EL. match goal with |- context [check ?b _] => replace b with true by lia end. cbn [check bind].
        rewrite IH by (assumption || (rewrite zlen_app, EL; lia) || (intros c' Hc'; apply HV; now right)). rewrite map_app, concat_app, <- app_assoc. destruct (existsb S l); reflexivity.
      + cbn [app] in *. rewrite IH by (assumption || (intros c' Hc'; apply HV; now right)). reflexivity.
  Qed.
  Lemma read_ids_ok S size l : forall acc, Forall (fun c => 0 <= c < nhash) l -> zlen acc + zlen (chosen_in S l) <= size ->
    read_ids little fs dir num base t (flags S) l acc size = Ok (Some (acc ++ map id_of (chosen_in S l))).
  Proof.
    induction l as [|c l IH]; intros acc HL HB.
    - cbn. now rewrite app_nil_r.
    - apply Forall_cons_iff in HL. destruct HL as [Hc HL]. cbn [read_ids]. rewrite flag_read by exact Hc. cbn [bind]. rewrite flag_bit. unfold chosen_in in *. cbn [map concat] in *. destruct (S c) eqn:ES; cbn [negb].
      + pose proof (flag_half true (fil c)) as FH. cbn beta iota in FH. rewrite FH. destruct (cell_reads c Hc) as [_ CR]. rewrite CR. cbn [bind].
        rewrite zlen_app in HB. pose proof (zlen_nonneg (concat (map (fun c0 => if S c0 then cell c0 else []) l))) as Z0. rewrite zlen_app, zlen_map. match goal with |- context [check ?b _] => replace b with true by lia end. cbn [check bind].
        rewrite IH by (assumption || (rewrite zlen_app, zlen_map; lia)). rewrite map_app, <- app_assoc. reflexivity.
      + cbn [app] in *. now apply IH.
  Qed.
  Lemma cell_triples c : Forall (fun p => zlen (fst (fst p)) = 3) (cell c).
  Proof.
    unfold cell. destruct (nth_in_or_default (Z.to_nat c) (cells files) []) as [HI | ->]; [|constructor]. unfold cells in HI at 2. apply in_concat in HI. destruct HI as (l & Hl & HI). apply in_map_iff in Hl. destruct Hl as (f & <- & Hf).
    apply In_nth_error in Hf. destruct Hf as (i & E). destruct (HF i f E) as (cat & content & _ & (extra & _ & P & _) & _). apply Forall_forall. intros p Hp. rewrite Forall_forall in P. apply P. apply in_concat. eexists. split; [exact HI | exact Hp].
  Qed.
  (** the file numbers are restored *)
  Lemma restore S : exists ft, rd_range (flags S) 0 nhash = Ok ft /\ map (fun f => Z.shiftr f 1) ft ++ skipn (Z.to_nat nhash) (flags S) = Filetable t.
  Proof.
    assert (0 <= nhash) as H0 by (rewrite nhash_len; apply zlen_nonneg). exists (map (fun c => 2 * fil c + (if S c then 1 else 0)) (zseq 0 (Z.to_nat nhash))). unfold flags. set (m := map _ _). assert (zlen m = nhash) as Em by (unfold m; rewrite zlen_map, zlen_zseq; lia).
    pose proof (zlen_nonneg (skipn (Z.to_nat nhash) (Filetable t))) as P. split; [rewrite rd_range_ok by (rewrite ?zlen_app; lia); rewrite Z.add_0_l, <- Em; now rewrite zslice_front|].
    rewrite skipn_app. rewrite skipn_all2 by (unfold zlen in Em; lia). replace (Z.to_nat nhash - List.length m)%nat with 0%nat by (unfold zlen in Em; lia). cbn [skipn app].
    assert (map (fun f => Z.shiftr f 1) m = zslice (Filetable t) 0 nhash) as ->.
    { unfold m. rewrite map_map. destruct HT as (r1 & r2 & r3 & r4 & _ & E & _). assert (zlen (files_of_cells files) = nhash) as EL by (rewrite files_FT, nhash_len; unfold zlen; now rewrite FT_len).
      rewrite E. rewrite <- EL, zslice_front. transitivity (map fil (zseq 0 (Z.to_nat (zlen (files_of_cells files))))); [apply map_ext; intro c; apply flag_half|]. unfold fil, zlen. rewrite Nat2Z.id. apply ReadPartProofs.map_nth_zseq. }
    symmetry. apply front_skip. destruct HT as (r1 & r2 & r3 & r4 & _ & E & _). rewrite E, zlen_app. pose proof (zlen_nonneg r2). assert (zlen (files_of_cells files) = nhash) as EL by (rewrite files_FT, nhash_len; unfold zlen; now rewrite FT_len). lia.
  Qed.
End Read.
