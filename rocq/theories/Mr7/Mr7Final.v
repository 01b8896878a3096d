(** The readers for the Millennium-WMAP7 simulation: the statements. *)
From Coq Require Import Ascii String.
From Verif Require Import Base.Prelude Base.ListLemmas Binary.BinModel Text.StrModel H5w.H5wModel H5w.H5wSpec H5w.H5wAttrSpec H5w.H5wTable H5w.H5wPath H5w.H5wHeap H5w.H5wFiles H5w.H5wArray H5w.H5wCache H5w.H5wRead H5w.H5wView H5w.H5wAttr H5w.H5wTrip.
From Verif Require Import Mr7.Mr7Model Mr7.Mr7Spec Mr7.Mr7Proofs.
From Coq Require Import ZifyBool ZifyNat.
Local Open Scope Z_scope.
Local Open Scope list_scope.

Definition positive_at (h : list obj) (name : string) : Prop := forall d, dataset_at h [lit "PartType1"; lit name] d -> positive (d_dims d).
Lemma good_names : good_part (lit "Coordinates") /\ good_part (lit "Velocities") /\ good_part (lit "ParticleIDs").
Proof. repeat split; vm_compute; intuition discriminate. Qed.

Lemma fortran_general cv undef s0 arg fl n : fresh s0 -> sound_files s0 -> plain_name arg -> assoc arg (disk s0) = Some fl -> header (heap fl) n -> 1 <= n < 2 ^ 31 ->
  positive_at (heap fl) "Coordinates" -> positive_at (heap fl) "Velocities" -> positive_at (heap fl) "ParticleIDs" ->
  match fortran_reader cv undef arg s0 with
  | Go l s' => disk s' = disk s0 /\ exists dp dv di pos vel id, printed n pos vel id l /\
      (dataset_at (heap fl) [lit "PartType1"; lit "Coordinates"] dp /\ is_type (d_ty dp) CFloat 4 /\ roomy [3; n] (d_dims dp) /\ (d_dims dp = [3; n] -> forall j, index_in [3; n] j -> elem [3; n] pos j = elem [3; n] (d_data dp) j)) /\
      (dataset_at (heap fl) [lit "PartType1"; lit "Velocities"] dv /\ is_type (d_ty dv) CFloat 4 /\ roomy [3; n] (d_dims dv) /\ (d_dims dv = [3; n] -> forall j, index_in [3; n] j -> elem [3; n] vel j = elem [3; n] (d_data dv) j)) /\
      (dataset_at (heap fl) [lit "PartType1"; lit "ParticleIDs"] di /\ is_type (d_ty di) CInt 8 /\ roomy [n] (d_dims di) /\ (d_dims di = [n] -> forall j, index_in [n] j -> elem [n] id j = elem [n] (d_data di) j))
  | Stop s' => disk s' = disk s0 /\ ~ (takes (heap fl) "Coordinates" CFloat 4 [3; n] /\ takes (heap fl) "Velocities" CFloat 4 [3; n] /\ takes (heap fl) "ParticleIDs" CInt 8 [n])
  | Wild => False
  end.
Proof.
  intros Fr So Nm Fi He Bn Pp Pv Pi. destruct good_names as (G1 & G2 & G3). unfold fortran_reader. pose proof (open_ok cv s0 arg Fr Nm) as O. unfold mbind at 1.
  destruct (open_file (fit 500 arg) (Some true) s0) as [h s1|s1|]; [|destruct O; congruence|contradiction]. destruct O as [_ [t1 T1]].
  destruct (attr_ok cv s0 arg fl Fr So undef Fi t1 s1 h n T1 He ltac:(lia)) as (np & En & Vn). rewrite (bind_step _ _ _ _ _ En). rewrite Vn.
  assert (positive [3; n]) as P3 by (repeat constructor; lia). assert (positive [n]) as P1 by (repeat constructor; lia).
  pose proof (read_ok cv s0 arg fl Fr So undef Fi t1 s1 h "Coordinates" 1 CFloat 4 [3; n] T1 G1 ltac:(cbn; lia) ltac:(discriminate) P3 Pp) as R1. change (lit "PartType1/" ++ lit "Coordinates") with (lit "PartType1/Coordinates") in R1.
  unfold mbind at 1. destruct (read_data h (lit "PartType1/Coordinates") _ None None s1) as [pos s2|s2|]; [|destruct R1 as [D R1]; split; [exact D|tauto]|exact R1]. destruct R1 as ([t2 T2] & Lp & dp & R1).
  pose proof (read_ok cv s0 arg fl Fr So undef Fi t2 s2 h "Velocities" 2 CFloat 4 [3; n] T2 G2 ltac:(cbn; lia) ltac:(discriminate) P3 Pv) as R2. change (lit "PartType1/" ++ lit "Velocities") with (lit "PartType1/Velocities") in R2.
  unfold mbind at 1. destruct (read_data h (lit "PartType1/Velocities") _ None None s2) as [vel s3|s3|]; [|destruct R2 as [D R2]; split; [exact D|tauto]|exact R2]. destruct R2 as ([t3 T3] & Lv & dv & R2).
  pose proof (read_ok cv s0 arg fl Fr So undef Fi t3 s3 h "ParticleIDs" 3 CInt 8 [n] T3 G3 ltac:(cbn; lia) ltac:(discriminate) P1 Pi) as R3. change (lit "PartType1/" ++ lit "ParticleIDs") with (lit "PartType1/ParticleIDs") in R3.
  unfold mbind at 1. destruct (read_data h (lit "PartType1/ParticleIDs") _ None None s3) as [id s4|s4|]; [|destruct R3 as [D R3]; split; [exact D|tauto]|exact R3]. destruct R3 as ([t4 T4] & Li & di & R3).
  destruct T4 as (H4 & _ & C4 & D4). destruct (c88_close cv s0 t4 s4 h Fr H4) as [Cl _]. destruct (Cl ltac:(congruence)) as (s5 & Rc & D5). cbn [run] in Rc. rewrite run_fmap in Rc.
  destruct (close_file h s4) as [u s6|s6|] eqn:E; try discriminate. injection Rc as ->. rewrite (bind_step _ _ _ _ _ E). cbn [prod] in Lp, Lv, Li.
  destruct (write_lines_go n pos vel id ltac:(lia) ltac:(lia) ltac:(lia) (zseq 0 (Z.to_nat n))) with (s := s5) as (l & El & Fl). { intros i Hi. apply In_zseq in Hi. lia. }
  rewrite El. split; [congruence|]. exists dp, dv, di, pos, vel, id. split; [apply lines_printed; [lia|exact Fl]|]. split; [exact R1|]. split; [exact R2|exact R3].
Qed.
Lemma index2 n c i : 0 <= c < 3 -> 0 <= i < n -> index_in [3; n] [c; i].
Proof. intros. constructor; [lia|]. constructor; [lia|constructor]. Qed.
Lemma printed_same n pos vel id pos' vel' id' l : (forall j, index_in [3; n] j -> elem [3; n] pos j = elem [3; n] pos' j) -> (forall j, index_in [3; n] j -> elem [3; n] vel j = elem [3; n] vel' j) ->
  (forall j, index_in [n] j -> elem [n] id j = elem [n] id' j) -> printed n pos vel id l -> printed n pos' vel' id' l.
Proof.
  intros A B C (L & P). split; [exact L|]. intros i Bi. destruct (P i Bi) as (p & v & k & E & K & Q & R). exists p, v, k. split; [exact E|]. split; [rewrite <- C by (constructor; [lia|constructor]); exact K|].
  cbn [map] in *. split.
  - rewrite Q. rewrite !A by (apply index2; lia). reflexivity.
  - rewrite R. rewrite !B by (apply index2; lia). reflexivity.
Qed.
Lemma c103_fortran cv undef s0 arg fl n pos vel id : fresh s0 -> sound_files s0 -> plain_name arg -> assoc arg (disk s0) = Some fl -> snapshot (heap fl) n pos vel id ->
  exists l s', fortran_reader cv undef arg s0 = Go l s' /\ disk s' = disk s0 /\ printed n pos vel id l.
Proof.
  intros Fr So Nm Fi (Bn & He & (dp & Dp & Tp & Ep & Ap) & (dv & Dv & Tv & Ev & Av) & (di & Di & Ti & Ei & Ai)). pose proof (So _ _ Fi) as Sf.
  assert (positive [3; n]) as P3 by (repeat constructor; lia). assert (positive [n]) as P1 by (repeat constructor; lia).
  pose proof (fortran_general cv undef s0 arg fl n Fr So Nm Fi He Bn) as G.
  specialize (G ltac:(intros d Dd; rewrite (dataset_fun _ _ _ _ Sf Dp Dd), Ep; exact P3) ltac:(intros d Dd; rewrite (dataset_fun _ _ _ _ Sf Dv Dd), Ev; exact P3) ltac:(intros d Dd; rewrite (dataset_fun _ _ _ _ Sf Di Dd), Ei; exact P1)).
  destruct (fortran_reader cv undef arg s0) as [l s'|s'|]; [| |contradiction].
  - destruct G as (Dk & dp' & dv' & di' & pos' & vel' & id' & Pr & (A1 & _ & _ & A2) & (B1 & _ & _ & B2) & (C1 & _ & _ & C2)). rewrite (dataset_fun _ _ _ _ Sf Dp A1) in A2. rewrite (dataset_fun _ _ _ _ Sf Dv B1) in B2. rewrite (dataset_fun _ _ _ _ Sf Di C1) in C2.
    exists l, s'. split; [reflexivity|]. split; [exact Dk|]. rewrite <- Ap, <- Av, <- Ai. eapply printed_same; [apply A2; exact Ep|apply B2; exact Ev|apply C2; exact Ei|exact Pr].
  - destruct G as [_ G]. exfalso. apply G. assert (forall dims, roomy dims dims) as Ro by (intro dims; unfold roomy; induction (filter _ dims); constructor; [lia|assumption]).
    split; [exists dp; rewrite Ep; auto|]. split; [exists dv; rewrite Ev; auto|exists di; rewrite Ei; auto].
Qed.
Lemma c103_fortran_other cv undef s0 arg fl n : fresh s0 -> sound_files s0 -> plain_name arg -> assoc arg (disk s0) = Some fl -> header (heap fl) n -> 1 <= n < 2 ^ 31 ->
  positive_at (heap fl) "Coordinates" -> positive_at (heap fl) "Velocities" -> positive_at (heap fl) "ParticleIDs" ->
  match fortran_reader cv undef arg s0 with
  | Go l s' => disk s' = disk s0 /\ zlen l = n /\ takes (heap fl) "Coordinates" CFloat 4 [3; n] /\ takes (heap fl) "Velocities" CFloat 4 [3; n] /\ takes (heap fl) "ParticleIDs" CInt 8 [n]
  | Stop s' => disk s' = disk s0 /\ ~ (takes (heap fl) "Coordinates" CFloat 4 [3; n] /\ takes (heap fl) "Velocities" CFloat 4 [3; n] /\ takes (heap fl) "ParticleIDs" CInt 8 [n])
  | Wild => False
  end.
Proof.
  intros Fr So Nm Fi He Bn Pp Pv Pi. pose proof (fortran_general cv undef s0 arg fl n Fr So Nm Fi He Bn Pp Pv Pi) as G. destruct (fortran_reader cv undef arg s0) as [l s'|s'|]; auto.
  destruct G as (Dk & dp & dv & di & pos & vel & id & [Pl _] & (A1 & A2 & A3 & _) & (B1 & B2 & B3 & _) & (C1 & C2 & C3 & _)). split; [exact Dk|]. split; [exact Pl|]. split; [exists dp; auto|]. split; [exists dv; auto|exists di; auto].
Qed.

(** ** The C program *)
Lemma resolve_header h : resolve h 0 (lit "Header") = walk h 0 [lit "Header"].
Proof. reflexivity. Qed.
Lemma lt_attribute_at cv h c a t buf : sound h -> attribute_at h [lit "Header"] c a -> lt_attribute cv h (lit "Header") c t buf = copy_all (to_native cv (a_ty a) t) (a_data a) buf.
Proof.
  intros S (x & l & H & E). apply holds_walk in H as (z & o & W & N & _ & El); [|exact S]. unfold lt_attribute. rewrite resolve_header, W. unfold attrs_at. rewrite N, El, E. reflexivity.
Qed.
Lemma lt_dataset_at cv h name d t buf : sound h -> good_part (lit name) -> dataset_at h [lit "PartType1"; lit name] d -> lt_dataset cv h (lit "PartType1/" ++ lit name) t buf = copy_all (to_native cv (d_ty d) t) (d_data d) buf.
Proof. intros S G D. destruct (dopen_at _ _ _ _ S (part1_names name G) D) as (a & E & K). unfold lt_dataset. rewrite E, K. reflexivity. Qed.
Lemma copy_whole f data buf : (forall e, f e = e) -> zlen buf = zlen data -> copy_all (Some f) data buf = Ran data.
Proof.
  intros Fe L. unfold copy_all. replace (zlen buf <? zlen data) with false by lia. f_equal. rewrite (map_ext f (fun e => e) Fe), map_id. unfold write_at, zlen in *. cbn [Z.to_nat firstn app Nat.add]. rewrite skipn_all2 by lia. apply app_nil_r.
Qed.
Lemma native_same cv t c n : is_type t c n -> to_native cv t {| t_class := c; t_size := n |} = Some (fun e => e).
Proof. intros (A & B). unfold to_native. cbn [t_class t_size]. rewrite A, B, Z.eqb_refl. destruct c; reflexivity. Qed.
Lemma c_element_some b i : 0 <= i < zlen b -> exists e, c_element b i = Ran e /\ nth_error b (Z.to_nat i) = Some e.
Proof. intro B. unfold c_element. destruct (nth_error b (Z.to_nat i)) as [e|] eqn:E; [eauto|]. apply nth_error_None in E. unfold zlen in B. lia. Qed.
Lemma c_lines_go n pos vel id : zlen pos = 3 * n -> zlen vel = 3 * n -> zlen id = n -> 3 * n < 2 ^ 31 -> forall is, (forall i, In i is -> 0 <= i < n) ->
  exists l, c_lines pos vel id is = Ran l /\ Forall2 (fun i x => elem [n] id [i] = Some (snd x) /\
    map Some (fst (fst x)) = map (fun c => elem [3; n] pos [c; i]) [0; 1; 2] /\ map Some (snd (fst x)) = map (fun c => elem [3; n] vel [c; i]) [0; 1; 2]) is l.
Proof.
  intros Lp Lv Li Bn. induction is as [|i is IH]; intro B; [exists []; split; [reflexivity|constructor]|]. pose proof (B i (or_introl eq_refl)) as Bi.
  destruct (IH (fun j Hj => B j (or_intror Hj))) as (l & El & Fl).
  destruct (c_element_some pos (3 * i + 0) ltac:(lia)) as (x & Ex & Nx). destruct (c_element_some pos (3 * i + 1) ltac:(lia)) as (y & Ey & Ny). destruct (c_element_some pos (3 * i + 2) ltac:(lia)) as (z & Ez & Nz).
  destruct (c_element_some vel (3 * i + 0) ltac:(lia)) as (u & Eu & Nu). destruct (c_element_some vel (3 * i + 1) ltac:(lia)) as (v & Ev & Nv). destruct (c_element_some vel (3 * i + 2) ltac:(lia)) as (w & Ew & Nw).
  destruct (c_element_some id i ltac:(lia)) as (k & Ek & Nk). exists (([x; y; z], [u; v; w], k) :: l). split.
  - cbn [c_lines]. unfold c_line. replace (2 ^ 31 <=? 3 * i + 2) with false by lia. rewrite Ex, Ey, Ez, Eu, Ev, Ew, Ek. cbn [cbind]. rewrite El. reflexivity.
  - constructor; [|exact Fl]. unfold elem. cbn [fst snd map]. assert (forall c, offset [3; n] [c; i] = 3 * i + c) as O by (intro; cbn [offset]; lia). rewrite !O, Nx, Ny, Nz, Nu, Nv, Nw. replace (offset [n] [i]) with i by (cbn [offset]; lia). rewrite Nk. auto.
Qed.
Lemma dset_full h p d : sound h -> dataset_at h p d -> zlen (d_data d) = prod (d_dims d).
Proof. intros (_ & S) (a & o & _ & N & K). rewrite Forall_forall in S. specialize (S o (nth_error_In _ _ N)) as (S & _). rewrite K in S. apply S. Qed.

Lemma c_line_bad pos vel id i : c_line pos vel id i <> Left.
Proof. unfold c_line, c_element. destruct (2 ^ 31 <=? 3 * i + 2); [discriminate|]. repeat (destruct (nth_error _ _); cbn [cbind]; [|discriminate]). discriminate. Qed.
Lemma c_lines_bad pos vel id j is : 2 ^ 31 <= 3 * j + 2 -> In j is -> c_lines pos vel id is = Undefined.
Proof.
  intro B. induction is as [|i is IH]; [contradiction|]. intros [->|K]; cbn [c_lines].
  - unfold c_line. replace (2 ^ 31 <=? 3 * j + 2) with true by lia. reflexivity.
  - pose proof (c_line_bad pos vel id i) as N. destruct (c_line pos vel id i); cbn [cbind]; [now rewrite (IH K)|contradiction|reflexivity].
Qed.

Section c.
Variables (cv : ty -> ty -> option (elt -> elt)) (undef : nat -> Z -> elt) (files : list (str * dfile)) (arg : str) (fl : dfile) (n : Z) (pos vel id : list elt).
Hypotheses (So : sound (heap fl)) (Fi : assoc arg files = Some fl) (Nm : zlen arg < 500) (Sn : snapshot (heap fl) n pos vel id) (Bo : box_size cv (heap fl)).
Lemma c_head : c_reader cv undef arg files =
  try pos' := copy_all (Some (fun e => e)) pos (memory undef 1 ((3 * n) mod 2 ^ 32)) in
  try vel' := copy_all (Some (fun e => e)) vel (memory undef 2 ((3 * n) mod 2 ^ 32)) in
  try id' := copy_all (Some (fun e => e)) id (memory undef 3 n) in
  c_lines pos' vel' id' (zseq 0 (Z.to_nat n)).
Proof using So Fi Nm Sn Bo.
  destruct Sn as (Bn & (a & Aa & Ty & La & e & Ee & Fo) & (dp & Dp & Tp & Ep & Ap) & (dv & Dv & Tv & Ev & Av) & (di & Di & Ti & Ei & Ai)). destruct good_names as (G1 & G2 & G3).
  unfold c_reader. replace (500 <=? zlen arg) with false by lia. rewrite Fi. rewrite (lt_attribute_at cv (heap fl) _ a int4 _ So Aa). unfold int4, int8, real4. rewrite (native_same cv _ _ _ Ty), copy_whole by (reflexivity || (rewrite memory_len; lia)). cbn [cbind].
  rewrite (nth_error_nth _ _ _ Ee). assert (le_value e = n) as ->. { destruct Fo as (x & y & z & w & -> & _ & ->). cbn [le_value]. lia. }
  destruct Bo as (b & Ab & Lb & Tb). rewrite (lt_attribute_at cv (heap fl) _ b real8 _ So Ab). assert (exists g, to_native cv (a_ty b) real8 = Some g) as (g & Eg).
  { unfold to_native. destruct (cls_eqb _ _ && _) eqn:T; [eauto|]. destruct Tb as [(T1 & T2)|T1]; [rewrite T1, T2 in T; discriminate|]. fold real8 in T1. destruct (cv (a_ty b) real8); [eauto|congruence]. }
  rewrite Eg. unfold copy_all at 1. replace (zlen (memory undef 4 1) <? zlen (a_data b)) with false by (rewrite memory_len; lia). cbn [cbind].
  change (lit "PartType1/Coordinates") with (lit "PartType1/" ++ lit "Coordinates"). change (lit "PartType1/Velocities") with (lit "PartType1/" ++ lit "Velocities"). change (lit "PartType1/ParticleIDs") with (lit "PartType1/" ++ lit "ParticleIDs").
  rewrite (lt_dataset_at cv (heap fl) _ dp _ _ So G1 Dp), (lt_dataset_at cv (heap fl) _ dv _ _ So G2 Dv), (lt_dataset_at cv (heap fl) _ di _ _ So G3 Di).
  rewrite (native_same cv _ _ _ Tp), (native_same cv _ _ _ Tv), (native_same cv _ _ _ Ti), Ap, Av, Ai. reflexivity.
Qed.
Lemma sizes : 1 <= n < 2 ^ 31 /\ zlen pos = 3 * n /\ zlen vel = 3 * n /\ zlen id = n.
Proof using All.
  destruct Sn as (Bn & _ & (dp & Dp & Tp & Ep & Ap) & (dv & Dv & Tv & Ev & Av) & (di & Di & Ti & Ei & Ai)). rewrite <- Ap, <- Av, <- Ai.
  rewrite (dset_full _ _ _ So Dp), (dset_full _ _ _ So Dv), (dset_full _ _ _ So Di), Ep, Ev, Ei. cbn [prod]. lia.
Qed.
Lemma c103_c : 3 * n < 2 ^ 31 -> exists l, c_reader cv undef arg files = Ran l /\ printed n pos vel id l.
Proof using All.
  intro B. destruct sizes as (Bn & Lp & Lv & Li). rewrite c_head. rewrite (Z.mod_small (3 * n)) by lia. rewrite !copy_whole by (reflexivity || (rewrite memory_len; lia)). cbn [cbind].
  destruct (c_lines_go n pos vel id Lp Lv Li B (zseq 0 (Z.to_nat n))) as (l & El & Fl); [intros i Hi; apply In_zseq in Hi; lia|]. exists l. split; [exact El|]. apply lines_printed; [lia|exact Fl].
Qed.
Lemma c103_c_many : 2 ^ 31 <= 3 * n -> c_reader cv undef arg files = Undefined.
Proof using All.
  intro B. destruct sizes as (Bn & Lp & Lv & Li). rewrite c_head. pose proof (Z.mod_pos_bound (3 * n) (2 ^ 32) ltac:(lia)) as Mb. destruct (Z_lt_ge_dec (3 * n) (2 ^ 32)) as [C|C].
  - rewrite (Z.mod_small (3 * n)) by lia. rewrite !copy_whole by (reflexivity || (rewrite memory_len; lia)). cbn [cbind].
    apply (c_lines_bad pos vel id (n - 1)); [|apply In_zseq; lia]. lia.
  - unfold copy_all at 1. rewrite memory_len by lia. replace ((3 * n) mod 2 ^ 32 <? zlen pos) with true by lia. reflexivity.
Qed.
End c.

Lemma c103_missing cv undef s0 arg : fresh s0 -> plain_name arg -> assoc arg (disk s0) = None ->
  (exists s', fortran_reader cv undef arg s0 = Stop s' /\ disk s' = disk s0) /\ c_reader cv undef arg (disk s0) = Left.
Proof.
  intros Fr Nm Fi. split.
  - pose proof (open_ok cv s0 arg Fr Nm) as O. unfold fortran_reader, mbind at 1. destruct (open_file (fit 500 arg) (Some true) s0) as [h s1|s1|]; [destruct O; congruence| |contradiction]. destruct O as [_ D]. eauto.
  - destruct Nm as (L & _). unfold c_reader. replace (500 <=? zlen arg) with false by (unfold zlen; lia). now rewrite Fi.
Qed.

(** ** Files for the concrete cases *)
Definition bytes4 (n : Z) : elt := [n mod 256; n / 256 mod 256; n / 256 ^ 2 mod 256; n / 256 ^ 3 mod 256].
Lemma four_bytes n : 0 <= n < 2 ^ 32 -> four (bytes4 n) n.
Proof.
  intro B. eexists _, _, _, _. split; [reflexivity|]. split; [unfold bytes4; repeat constructor; apply Z.mod_pos_bound; lia|].
  rewrite (Z.mod_small (n / 256 ^ 3)) by (split; [apply Z.div_pos; lia|apply Z.div_lt_upper_bound; lia]).
  pose proof (Z.div_mod n 256 ltac:(lia)). pose proof (Z.div_mod (n / 256) 256 ltac:(lia)). pose proof (Z.div_mod (n / 256 ^ 2) 256 ltac:(lia)).
  rewrite (Z.div_div n 256 256) in * by lia. change (256 * 256) with (256 ^ 2) in *. rewrite (Z.div_div n (256 ^ 2) 256) in * by lia. change (256 ^ 2 * 256) with (256 ^ 3) in *. lia.
Qed.
Definition data_obj (t : ty) (dims : list Z) (data : list elt) : obj := {| o_node := Dset {| d_ty := t; d_dims := dims; d_max := map Some dims; d_chunked := false; d_data := data |}; o_attrs := [] |}.
(** the header says [n] and there are [m] particles *)
Definition example_heap (n m : Z) (pos vel id : list elt) : list obj :=
  [{| o_node := Group [(lit "Header", 1%nat); (lit "PartType1", 2%nat)]; o_attrs := [] |};
   {| o_node := Group []; o_attrs := [(lit "BoxSize", {| a_ty := real8; a_dims := []; a_data := [repeat 0 8] |}); (lit "NumPart_ThisFile", {| a_ty := int4; a_dims := [6]; a_data := [bytes4 0; bytes4 n; bytes4 0; bytes4 0; bytes4 0; bytes4 0] |})] |};
   {| o_node := Group [(lit "Coordinates", 3%nat); (lit "ParticleIDs", 4%nat); (lit "Velocities", 5%nat)]; o_attrs := [] |};
   data_obj real4 [3; m] pos; data_obj int8 [m] id; data_obj real4 [3; m] vel].
Definition example_start (h : list obj) : wst := {|
  disk := [(lit "snap.hdf5", {| heap := h; writable := true |})]; lib := []; next := 100; slots := repeat {| s_id := 0; s_ro := false; s_name := [] |} 1000; nopen := 0; need_init := true; cached := false;
  c_id := ([], 0%nat); c_file := []; c_dset := [] |}.
Lemma example_fresh h : fresh (example_start h).
Proof. repeat split; try reflexivity. discriminate. Qed.
Lemma example_sound n m pos vel id : 0 <= m -> zlen pos = 3 * m -> zlen vel = 3 * m -> zlen id = m -> sound (example_heap n m pos vel id).
Proof.
  intros Bm Lp Lv Li. split; [eexists _, _; split; reflexivity|]. unfold example_heap.
  assert (forall t dims data, Forall (fun x => 0 <= x) dims -> zlen data = prod dims -> sound_obj 6 (data_obj t dims data)) as K.
  { intros t dims data P Q. split; [cbn; split; [exact P|split; [exact Q|apply map_length]]|split; constructor]. }
  assert (forall (l : list (str * nat)) (a : list (str * attr)), NoDup (map fst l) -> Forall (fun e => (snd e < 6)%nat) l -> NoDup (map fst a) -> Forall (fun e => full (a_dims (snd e)) (a_data (snd e))) a -> sound_obj 6 {| o_node := Group l; o_attrs := a |}) as G.
  { intros l a A B C D. repeat split; assumption. }
  assert (lit "Header" <> lit "PartType1" /\ lit "BoxSize" <> lit "NumPart_ThisFile" /\ lit "Coordinates" <> lit "ParticleIDs" /\ lit "Coordinates" <> lit "Velocities" /\ lit "ParticleIDs" <> lit "Velocities") as (D1 & D2 & D3 & D4 & D5) by (repeat split; discriminate).
  repeat apply Forall_cons; [apply G|apply G|apply G|apply K|apply K|apply K|constructor]; cbn [map fst snd a_dims a_data prod].
  all: try (repeat constructor; cbn; (lia || intuition congruence)).
  all: lia.
Qed.
Lemma example_sound_files n m pos vel id : 0 <= m -> zlen pos = 3 * m -> zlen vel = 3 * m -> zlen id = m -> sound_files (example_start (example_heap n m pos vel id)).
Proof. intros Bm Lp Lv Li f d E. cbn [example_start disk assoc] in E. destruct (str_eqb _ _); [|discriminate]. injection E as <-. now apply example_sound. Qed.
Lemma example_header n m pos vel id : 0 <= n < 2 ^ 32 -> header (example_heap n m pos vel id) n.
Proof.
  intro B. eexists. split; [eexists _, _; split; [exists 1%nat; eexists; split; [|split; [reflexivity|split; reflexivity]]|reflexivity]|].
  - eapply leads_on; [reflexivity|reflexivity|left; reflexivity|apply leads_here].
  - split; [split; reflexivity|]. split; [reflexivity|]. eexists. split; [reflexivity|now apply four_bytes].
Qed.
Lemma example_dataset n m pos vel id name k t dims data : In (lit name, k) [(lit "Coordinates", 3%nat); (lit "ParticleIDs", 4%nat); (lit "Velocities", 5%nat)] -> nth_error (example_heap n m pos vel id) k = Some (data_obj t dims data) ->
  particles (example_heap n m pos vel id) name (t_class t) (t_size t) dims data.
Proof.
  intros K N. eexists. split; [exists k, (data_obj t dims data); split; [|split; [exact N|reflexivity]]|repeat split].
  eapply leads_on; [reflexivity|reflexivity|right; left; reflexivity|]. eapply leads_on; [reflexivity|reflexivity|exact K|apply leads_here].
Qed.
Lemma example_snapshot n pos vel id : 1 <= n < 2 ^ 31 -> snapshot (example_heap n n pos vel id) n pos vel id.
Proof.
  intro B. split; [exact B|]. split; [apply example_header; lia|]. split; [|split].
  - apply (example_dataset n n pos vel id "Coordinates" 3 real4); cbn; auto.
  - apply (example_dataset n n pos vel id "Velocities" 5 real4); cbn; auto.
  - apply (example_dataset n n pos vel id "ParticleIDs" 4 int8); cbn; auto.
Qed.
Lemma example_box cv n m pos vel id : box_size cv (example_heap n m pos vel id).
Proof.
  eexists. split; [eexists _, _; split; [exists 1%nat; eexists; split; [|split; [reflexivity|split; reflexivity]]|reflexivity]|].
  - eapply leads_on; [reflexivity|reflexivity|left; reflexivity|apply leads_here].
  - split; [reflexivity|]. left. split; reflexivity.
Qed.
