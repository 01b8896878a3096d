(** A rule for each instruction of a constructor. *)
From Coq Require Import Ascii String.
From Verif.Base Require Import Prelude ListLemmas Order.
From Verif.Binary Require Import BinModel NameProofs LayoutProofs EndianProofs FortranProofs UsedProofs TreeProofs.
From Verif.Formats Require Import ReaderModel FileSpec ReaderProofs.
From Coq Require Import ZifyBool ZifyNat.
Local Open Scope Z_scope.

Lemma attr_find g a : forall ks id, ks <> [] -> attr_at g (ks ++ [a]) = Some id -> exists at_ ds gs, find g ks = Some (EGroup (Group at_ ds gs)) /\ get a at_ = Some id.
Proof.
  intros ks. revert g. induction ks as [|c ks IH]; intros [at_ ds gs] id Hne H; [contradiction|]. cbn [app] in H. rewrite attr_cons in H. destruct (ks ++ [a]) eqn:E; [destruct ks; discriminate|]. rewrite <- E in H.
  destruct (get c gs) as [sub|] eqn:Eg; [|discriminate]. rewrite find_cons_group, Eg. destruct ks as [|c' ks].
  - destruct sub as [at' ds' gs']. exists at', ds', gs'. cbn in H. auto.
  - apply IH; [discriminate | rewrite <- E; exact H].
Qed.
Lemma zslice_pre {A} (pre x post : list A) n : zlen pre = n -> zslice (pre ++ x ++ post) n (n + zlen x) = x.
Proof. intros <-. unfold zslice, zlen. rewrite Nat2Z.id. replace (Z.to_nat (Z.of_nat (List.length pre) + Z.of_nat (List.length x)) - List.length pre)%nat with (List.length x) by lia. rewrite skipn_app, skipn_all, Nat.sub_diag. cbn [skipn app]. rewrite firstn_app, Nat.sub_diag. cbn [firstn]. rewrite firstn_all. apply app_nil_r. Qed.

Section Run.
  Variables (little lf : bool) (content post : list Z).
  Hypothesis Hne : content <> [].
  Set Default Proof Using "All".
  Local Notation inv := (inv lf content post).
  Local Notation runs := (runs little lf content post).
  Local Notation right e := (rightly little lf e).

  Definition adv (n : Z) (st : lst) : lst := {| l_env := l_env st; l_cur := l_cur st; l_rec := l_rec st; l_pos := l_pos st + n; l_gap := l_gap st |}.
  Definition reck (r : option (Z * Z * bool)) (st : lst) : lst := {| l_env := l_env st; l_cur := l_cur st; l_rec := r; l_pos := l_pos st; l_gap := l_gap st |}.
  Definition turn (e : ord) (st : lst) : lst := {| l_env := l_env st; l_cur := e; l_rec := l_rec st; l_pos := l_pos st; l_gap := l_gap st |}.
  Definition loose (n : Z) (st : lst) : lst := {| l_env := l_env st; l_cur := l_cur st; l_rec := l_rec st; l_pos := l_pos st; l_gap := l_gap st + n |}.
  Definition know (q : ent) (st : lst) : lst := {| l_env := l_env st ++ [q]; l_cur := l_cur st; l_rec := l_rec st; l_pos := l_pos st; l_gap := l_gap st |}.
  Definition ent_at (st : lst) (name : str) (is_attr : bool) (size : Z) (shape vals : list Z) : ent :=
    {| e_name := name; e_attr := is_attr; e_off := l_pos st; e_size := size; e_shape := shape; e_vals := vals |}.
  Definition got (st : lst) (name : str) (is_attr : bool) (size : Z) (shape vals : list Z) : lst :=
    adv (size * zlen vals) (know (ent_at st name is_attr size shape vals) st).

  Lemma here st p rest f : inv st (p :: rest) f -> zlen (piece_bytes lf p) = piece_size p ->
    zslice content (l_pos st) (l_pos st + piece_size p) = piece_bytes lf p /\ l_pos st + piece_size p <= zlen content /\ exists pre, content = pre ++ file_bytes lf rest ++ post /\ zlen pre = l_pos st + piece_size p.
  Proof.
    intros (_ & _ & _ & _ & _ & _ & _ & (pre & E & Hp) & _) Hl. unfold file_bytes in E. cbn [map concat] in E. rewrite <- app_assoc in E. split; [|split].
    - rewrite E, <- Hl. now apply zslice_pre.
    - rewrite E. rewrite !zlen_app. rewrite <- Hl, <- Hp. pose proof (zlen_nonneg (concat (map (piece_bytes lf) rest))). pose proof (zlen_nonneg post). lia.
    - exists (pre ++ piece_bytes lf p). split; [now rewrite <- app_assoc | rewrite zlen_app; lia].
  Qed.
  Lemma data_size name is_attr size shape vals : 0 < size -> zlen (piece_bytes lf (Data name is_attr size shape vals)) = piece_size (Data name is_attr size shape vals).
  Proof. intro H. cbn [piece_bytes piece_size]. apply vals_bytes_len. lia. Qed.
  Lemma mark_size n : zlen (piece_bytes lf (Mark n)) = piece_size (Mark n).
  Proof. cbn [piece_bytes piece_size]. apply number_len. lia. Qed.

  Lemma runs_done st rest (Q : file -> res unit -> Prop) : (forall f, inv st rest f -> Q f (Ok tt)) -> runs st Done rest Q.
  Proof. intros H f Hf. now apply H. Qed.
  Lemma runs_fail st rest e (Q : file -> res unit -> Prop) : (forall f, inv st rest f -> Q f (Err e)) -> runs st (Fail e) rest Q.
  Proof. intros H f Hf. now apply H. Qed.

  Lemma runs_add st name size shape is_attr vals k rest Q : piece_ok (Data name is_attr size shape vals) -> fresh (l_env st) name is_attr = true ->
    runs (got st name is_attr size shape vals) k rest Q -> runs st (Add name (num size) shape is_attr k) (Data name is_attr size shape vals :: rest) Q.
  Proof.
    intros (Hs & Hsh & Hl & Hv) Hf Hk f Hi. pose proof (here _ _ _ _ Hi (data_size name is_attr size shape vals Hs)) as (Hsl & Hin & Hpre). cbn [piece_size] in *.
    destruct Hi as (I1 & I2 & I3 & I4 & (G1 & G2 & G3) & I6 & I7 & _ & I9 & I10 & I11).
    set (q := ent_at st name is_attr size shape vals). pose proof (add_tree (l_env st) (f_tree f) name is_attr (List.length (f_blocks f)) q G2 I11 Hf eq_refl eq_refl) as (A1 & A2 & A3 & A4). cbv zeta in A2, A3, A4.
    pose proof (add_wf (fuel_for name) (f_tree f) name (List.length (f_blocks f)) is_attr G2) as W.
    cbn [exec]. unfold f_add. destruct (add_block (fuel_for name) (f_tree f) name (List.length (f_blocks f)) is_attr) as [g r]. cbn [fst snd] in *. subst r. apply Hk.
    set (b := {| b_dtype := num size; b_off := f_off f; b_shape := shape; b_endian := f_endian f |}). destruct (num_ok size Hs) as (D1 & D2 & D3).
    assert (b_nbytes b = size * zlen vals) as Hb by (unfold b_nbytes, b_size; cbn [b b_dtype b_shape]; rewrite D3, <- Hl; reflexivity).
    cbn [got adv know l_pos l_cur l_rec l_gap l_env]. split; [change (f_off f + b_nbytes b = l_pos st + size * zlen vals); lia|]. split; [exact I2|]. split; [exact I3|]. pose proof (zlen_nonneg vals). split; [cbn [got adv know l_pos]; nia|].
    split; [split; [apply (push_agree _ _ _ (set_tree g f)); exact G1 | split; [exact W | exact G3]]|]. split; [cbn [push f_blocks set_tree]; apply Forall_app; split; [exact I6 | repeat constructor; rewrite Hb; nia]|].
    split; [cbn [got adv know l_gap l_pos]; destruct I7 as (I7 & I7' & I7s); split; [intro T; specialize (I7 T); unfold tight; cbn [push f_blocks f_off set_tree]; apply btb_snoc; exact I7|]; split; [exact I7'|]; cbn [push f_blocks set_tree]; rewrite map_app, sumZ_app; cbn [map]; unfold sumZ at 2; cbn [fold_right]; fold b; lia|]. split; [exact Hpre|].
    cbn [got adv know l_env]. split; [apply Forall_app; split; [exact I9|]; repeat constructor; cbn [q ent_at e_size e_off e_shape e_vals]; auto; lia|]. split; [|exact A2].
    apply Forall_app. split.
    - apply Forall_forall. intros r Hr. pose proof (proj1 (Forall_forall _ _) I10 r Hr) as (id & b' & E1 & E2 & E3). exists id, b'. split; [now apply (A4 r id Hr)|]. split; [|exact E3]. cbn [push f_blocks set_tree]. rewrite nth_error_app1; [exact E2|]. apply nth_error_Some. congruence.
    - repeat constructor. exists (List.length (f_blocks f)), b. split; [exact A3|]. split; [cbn [push f_blocks set_tree]; rewrite nth_error_app2, Nat.sub_diag by lia; reflexivity|]. cbn [b b_dtype b_off b_shape q ent_at e_size e_off e_shape]. auto.
  Qed.

  Lemma ent_read st rest f q id b : inv st rest f -> In q (l_env st) -> nth_error (f_blocks f) id = Some b -> b_dtype b = num (e_size q) -> b_off b = e_off q -> b_shape b = e_shape q ->
    exists items, getitem little content b None = Ok items /\ numbers little (b_dtype b) items = map (seen (right (l_cur st)) (e_size q)) (e_vals q).
  Proof.
    intros (I1 & I2 & I3 & I4 & (G1 & G2 & G3) & I6 & I7 & _ & I9 & I10 & I11) Hq E1 E2 E3 E4. pose proof (proj1 (Forall_forall _ _) I9 q Hq) as (H1 & H2 & H3 & H4 & H5 & H6 & H7).
    pose proof (proj1 (Forall_forall _ _) G1 b (nth_error_In _ _ E1)) as Eb. rewrite I2 in Eb, G3. rewrite <- Eb. apply read_block; rewrite ?E3, ?E4, ?Eb; auto.
  Qed.
  Lemma entry_dataset st rest f q : inv st rest f -> In q (l_env st) -> e_attr q = false -> read_dataset little content f (e_name q) = Ok (map (seen (right (l_cur st)) (e_size q)) (e_vals q)).
  Proof.
    intros Hi Hq Ha. pose proof Hi as (_ & _ & _ & _ & _ & _ & _ & _ & _ & I10 & _). pose proof (proj1 (Forall_forall _ _) I10 q Hq) as (id & b & E1 & E2 & E3 & E4 & E5). rewrite Ha in E1.
    destruct (ent_read _ _ _ _ _ _ Hi Hq E2 E3 E4 E5) as (items & H1 & H2). unfold read_dataset. rewrite getitem_find, E1. cbn [bind]. rewrite E2, H1. cbn [bind]. now rewrite H2.
  Qed.
  Lemma entry_attr st rest f q grp a : inv st rest f -> In q (l_env st) -> e_attr q = true -> keys (e_name q) = keys grp ++ [a] -> read_attr little content f grp a = Ok (map (seen (right (l_cur st)) (e_size q)) (e_vals q)).
  Proof.
    intros Hi Hq Ha Hk. pose proof Hi as (_ & _ & _ & _ & _ & _ & _ & _ & _ & I10 & _). pose proof (proj1 (Forall_forall _ _) I10 q Hq) as (id & b & E1 & E2 & E3 & E4 & E5). rewrite Ha, Hk in E1.
    destruct (attr_find _ _ _ _ (keys_ne grp) E1) as (at_ & ds & gs & F1 & F2). destruct (ent_read _ _ _ _ _ _ Hi Hq E2 E3 E4 E5) as (items & H1 & H2). unfold read_attr. rewrite getitem_find, F1. cbn [bind]. rewrite F2, E2, H1. cbn [bind]. now rewrite H2.
  Qed.
  Lemma runs_get st q k rest Q : In q (l_env st) -> e_attr q = false -> runs st (k (map (seen (right (l_cur st)) (e_size q)) (e_vals q))) rest Q -> runs st (Get (e_name q) k) rest Q.
  Proof. intros Hq Ha Hk f Hi. cbn [exec]. rewrite (entry_dataset _ _ _ _ Hi Hq Ha). now apply Hk. Qed.
  Lemma runs_getattr st q grp a k rest Q : In q (l_env st) -> e_attr q = true -> keys (e_name q) = keys grp ++ [a] -> runs st (k (map (seen (right (l_cur st)) (e_size q)) (e_vals q))) rest Q -> runs st (GetAttr grp a k) rest Q.
  Proof. intros Hq Ha Hkeys Hk f Hi. cbn [exec]. rewrite (entry_attr _ _ _ _ _ _ Hi Hq Ha Hkeys). now apply Hk. Qed.

  Lemma turn_inv st rest f e : valid_endian e = true -> inv st rest f -> inv (turn e st) rest (fst (set_endian e f)).
  Proof.
    intros He (I1 & I2 & I3 & I4 & G & I6 & I7 & I8 & I9 & I10 & I11). destruct (set_all e f He) as (S1 & S2 & S3). pose proof (set_good e f G) as G'. unfold set_endian in *. rewrite He in *. cbn [fst snd negb] in *.
    split; [exact I1|]. split; [exact S2|]. split; [exact I3|]. split; [exact I4|]. split; [exact G'|]. split; [cbn [f_blocks]; apply Forall_map; exact I6|].
    split; [destruct I7 as (I7 & I7' & I7s); split; [intro T; specialize (I7 T); unfold tight in *; cbn [f_blocks f_off]; apply (btb_place (f_blocks f)); [rewrite map_map; reflexivity | exact I7]|]; split; [exact I7'|]; cbn [f_blocks]; rewrite map_map; exact I7s|]. split; [exact I8|]. split; [exact I9|]. split; [|exact I11].
    cbn [turn l_env]. rewrite Forall_forall in *. intros q Hq. destruct (I10 q Hq) as (id & b & E1 & E2 & E3 & E4 & E5). exists id, (set_b_endian e b). split; [exact E1|]. split; [cbn [f_blocks]; now apply map_nth_error|]. destruct b. auto.
  Qed.
  Lemma swap_valid s : valid_endian (swap_endian little s) = true. Proof. destruct little, s; reflexivity. Qed.
  Lemma runs_swap st s k rest Q : runs (turn (swap_endian little s) st) k rest Q -> runs st (Swap s k) rest Q.
  Proof.
    intros Hk f Hi. pose proof (turn_inv st rest f (swap_endian little s) (swap_valid s) Hi) as Ht. cbn [exec]. unfold enable_byteswap. destruct (set_all (swap_endian little s) f (swap_valid s)) as (S1 & _). destruct (set_endian (swap_endian little s) f) as [f' r]. cbn [fst snd] in *. subst r. now apply Hk.
  Qed.

  (** unnamed numbers *)
  Definition skipped (f : file) : block := {| b_dtype := num 4; b_off := f_off f; b_shape := []; b_endian := f_endian f |}.
  Lemma mark_read st n rest f : 0 <= n < 2 ^ 32 -> inv st (Mark n :: rest) f ->
    exists items, read_and_skip little content (num 4) [] f = (push (skipped f) f, Ok items) /\ numbers little (num 4) items = [seen (right (l_cur st)) 4 n] /\ inv (adv 4 st) rest (push (skipped f) f).
  Proof.
    intros Hn Hi. pose proof (here _ _ _ _ Hi (mark_size n)) as (Hsl & Hin & Hpre). cbn [piece_size piece_bytes] in *. destruct Hi as (I1 & I2 & I3 & I4 & (G1 & G2 & G3) & I6 & I7 & _ & I9 & I10 & I11).
    destruct (read_block little lf content post Hne (skipped f) 4 [n]) as (items & H1 & H2); cbn [skipped b_dtype b_off b_shape b_endian]; rewrite ?I1; auto; try lia; try reflexivity.
    { change (zlen [n]) with 1. cbn [map concat]. now rewrite app_nil_r. }
    exists items. unfold read_and_skip. fold (skipped f). rewrite H1. split; [reflexivity|]. split; [rewrite <- I2; exact H2|].
    assert (b_nbytes (skipped f) = 4) as Hb by reflexivity.
    split; [change (f_off f + b_nbytes (skipped f) = l_pos st + 4); lia|]. split; [exact I2|]. split; [exact I3|]. split; [cbn [adv l_pos]; lia|]. split; [split; [apply push_agree; exact G1 | split; assumption]|].
    split; [cbn [push f_blocks]; apply Forall_app; split; [exact I6 | repeat constructor; rewrite Hb; lia]|]. split; [destruct I7 as (I7 & I7' & I7s); split; [intro T; specialize (I7 T); unfold tight; cbn [push f_blocks f_off]; apply btb_snoc; exact I7|]; split; [exact I7'|]; cbn [push f_blocks adv l_pos l_gap]; rewrite map_app, sumZ_app; cbn [map]; unfold sumZ at 2; cbn [fold_right]; lia|].
    split; [exact Hpre|]. split; [exact I9|]. split; [|exact I11]. cbn [adv l_env]. rewrite Forall_forall in *. intros q Hq. destruct (I10 q Hq) as (id & b & E1 & E2 & E3). exists id, b. split; [exact E1|]. split; [|exact E3]. cbn [push f_blocks]. rewrite nth_error_app1; [exact E2|]. apply nth_error_Some. congruence.
  Qed.
  Lemma runs_mark st n k h rest Q : 0 <= n < 2 ^ 32 -> runs (adv 4 st) (k [seen (right (l_cur st)) 4 n]) rest Q -> runs st (ReadSkip (num 4) k h) (Mark n :: rest) Q.
  Proof. intros Hn Hk f Hi. destruct (mark_read st n rest f Hn Hi) as (items & H1 & H2 & H3). cbn [exec]. rewrite H1, H2. now apply Hk. Qed.
  (** at the end of the file *)
  Lemma runs_eof st k h Q : zlen post < 4 -> runs st h [] Q -> runs st (ReadSkip (num 4) k h) [] Q.
  Proof.
    intros Hp Hk f Hi. pose proof Hi as (I1 & I2 & I3 & I4 & (G1 & G2 & G3) & I6 & I7 & (pre & E & Hpre) & I9 & I10 & I11). cbn [exec]. unfold read_and_skip. fold (skipped f). rewrite getitem_past; [now apply Hk | exact Hne | cbn [skipped b_off]; lia|].
    change (b_nbytes (skipped f)) with 4. cbn [skipped b_off]. rewrite E. unfold file_bytes. cbn [map concat app]. rewrite zlen_app. lia.
  Qed.
  Lemma runs_skipto st off bytes k rest Q : off = l_pos st + zlen bytes -> runs (loose (zlen bytes) (adv (zlen bytes) st)) k rest Q -> runs st (SkipTo off k) (Raw bytes :: rest) Q.
  Proof.
    intros Ho Hk f Hi. pose proof (here _ _ _ _ Hi eq_refl) as (_ & _ & Hpre). cbn [piece_size] in *. destruct Hi as (I1 & I2 & I3 & I4 & G & I6 & I7 & _ & I9 & I10 & I11). cbn [exec]. apply Hk. pose proof (zlen_nonneg bytes).
    split; [unfold skip_bytes; cbn; lia|]. split; [exact I2|]. split; [exact I3|]. split; [cbn; lia|]. split; [exact G|]. split; [exact I6|]. split; [destruct I7 as (I7 & I7' & I7s); cbn [loose adv l_gap l_pos]; split; [intro T; assert (zlen bytes = 0) as E0 by (cbn [loose adv l_gap] in T; lia); assert (l_gap st = 0) as E1 by (cbn [loose adv l_gap] in T; lia); specialize (I7 E1); unfold tight in *; change (back_to_back (f_blocks f) 0 (f_off f + (off - f_off f))); replace (f_off f + (off - f_off f)) with (f_off f) by lia; exact I7 | split; [lia | change (sumZ (map b_nbytes (f_blocks f)) = l_pos st + zlen bytes - (l_gap st + zlen bytes)); lia]]|]. split; [exact Hpre|]. auto.
  Qed.

  (** Fortran records *)
  Lemma int32_numbers items v : numbers little (num 4) items = [v] -> int32_of little items = signed32 v.
  Proof. unfold numbers, int32_of. destruct items as [|x [|y items]]; try discriminate. cbn [map nth]. intro H. injection H as <-. f_equal. unfold endian_value, mem_endian, num. cbn [dt_order Z.eqb]. destruct little; reflexivity. Qed.
  Definition opened (n : Z) (auto : bool) (st : lst) : lst := reck (Some (signed32 (seen (right (l_cur st)) 4 n), l_pos st + 4, auto)) (adv 4 st).
  Lemma rec_inv st rest f r : inv st rest f -> inv (reck r st) rest (set_rec r f).
  Proof. intros (I1 & I2 & I3 & I4 & G & I6 & I7 & I8 & I9 & I10 & I11). split; [exact I1|]. split; [exact I2|]. split; [reflexivity|]. split; [exact I4|]. split; [exact G|]. split; [exact I6|]. split; [exact I7|]. auto. Qed.
  Lemma runs_start st auto n k rest Q : 0 <= n < 2 ^ 32 -> l_rec st = None -> runs (opened n auto st) k rest Q -> runs st (Start auto k) (Mark n :: rest) Q.
  Proof.
    intros Hn Hr Hk f Hi. destruct (mark_read st n rest f Hn Hi) as (items & H1 & H2 & H3). pose proof Hi as (I1 & _ & I3 & _). cbn [exec]. unfold start_fortran_record. rewrite I3, Hr. change int32_t with (num 4). rewrite H1. cbv iota beta.
    rewrite (int32_numbers items _ H2). apply Hk. unfold opened. replace (f_off (push (skipped f) f)) with (l_pos st + 4) by (unfold push; cbn [f_off]; change (b_nbytes (skipped f)) with 4; lia). now apply rec_inv.
  Qed.
  Lemma seen_right n : seen true 4 n = n. Proof. reflexivity. Qed.
  Lemma seen_wrong n : 0 <= n < 2 ^ 31 -> signed32 (seen false 4 n) = bswap32 n.
  Proof. intro H. unfold bswap32. rewrite (Z.mod_small n) by lia. reflexivity. Qed.
  (** the byte order when the record ends *)
  Definition settled (auto : bool) (st : lst) : ord := if auto && negb (right (l_cur st)) then swap_endian little true else l_cur st.
  Lemma runs_end st auto n k rest Q : 0 <= n < 2 ^ 31 -> l_rec st = Some (signed32 (seen (right (l_cur st)) 4 n), l_pos st - n, auto) ->
    (if auto then n <= 65535 /\ (right (l_cur st) = false -> 1 <= n /\ l_cur st = NAT) else right (l_cur st) = true) ->
    runs (reck None (turn (settled auto st) (adv 4 st))) k rest Q -> runs st (End_ k) (Mark n :: rest) Q.
  Proof.
    intros Hn Hr Hauto Hk f Hi. destruct (mark_read st n rest f ltac:(lia) Hi) as (items & H1 & H2 & H3). pose proof Hi as (I1 & I2 & I3 & _). cbn [exec]. unfold end_fortran_record. rewrite I3, Hr. change int32_t with (num 4). rewrite H1. cbv iota beta.
    rewrite (int32_numbers items _ H2). rewrite Z.eqb_refl. cbn [negb]. replace (f_off f - (l_pos st - n)) with n by lia.
    set (f1 := push (skipped f) f) in *. assert (valid_endian (l_cur st) = true) as Hv by (destruct Hi as (_ & <- & _ & _ & (_ & _ & G) & _); exact G).
    assert (inv (adv 4 st) rest f1) as H3' by exact H3.
    destruct (right (l_cur st)) eqn:Er.
    - rewrite seen_right, signed32_small by exact Hn. rewrite !Z.eqb_refl. cbn [negb]. rewrite andb_false_r. cbn [andb]. replace (auto && (65535 <? n)) with false by (destruct auto; cbn [andb]; lia). cbv iota beta. rewrite ?Z.eqb_refl. cbn [negb]. cbv iota beta.
      apply Hk. unfold settled. rewrite Er, andb_false_r. apply rec_inv. replace (turn (l_cur st) (adv 4 st)) with (adv 4 st) by reflexivity. exact H3'.
    - destruct auto; [|congruence]. destruct Hauto as [Hmax Hmin]. destruct (Hmin eq_refl) as [H1n Hnat]. rewrite seen_wrong by exact Hn. rewrite bswap_bswap by exact Hn. rewrite Z.eqb_refl.
      assert (bswap32 n <> n) by (apply bswap_differs; lia). replace (n =? bswap32 n) with false by lia. cbn [negb andb]. replace (65535 <? n) with false by lia. cbv iota. rewrite Z.eqb_refl. cbn [negb].
      assert (f_endian f1 = NAT) as En by (destruct H3' as (_ & E & _); cbn [adv l_cur] in E; congruence). unfold toggle_byteswap. rewrite En. unfold enable_byteswap.
      apply Hk. unfold settled. rewrite Er. cbn [andb negb]. apply rec_inv. apply turn_inv; [apply swap_valid | exact H3'].
  Qed.
End Run.
