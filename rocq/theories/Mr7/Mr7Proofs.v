(** The Fortran reader for the Millennium-WMAP7 simulation. *)
From Coq Require Import Ascii String.
From Verif Require Import Base.Prelude Base.ListLemmas Binary.BinModel Text.StrModel H5w.H5wModel H5w.H5wSpec H5w.H5wAttrSpec H5w.H5wTable H5w.H5wPath H5w.H5wHeap H5w.H5wFiles H5w.H5wArray H5w.H5wCache H5w.H5wRead H5w.H5wAttr H5w.H5wView H5w.H5wTrip.
From Verif Require Import Mr7.Mr7Model Mr7.Mr7Spec.
From Coq Require Import ZifyBool ZifyNat.
Local Open Scope Z_scope.
Local Open Scope list_scope.

Lemma memory_len undef k n : 0 <= n -> zlen (memory undef k n) = n.
Proof. intro. unfold memory. rewrite zlen_map. unfold zlen. rewrite zseq_length. lia. Qed.
Lemma array_sound undef k t dims : sound_arr (new_array undef k t dims).
Proof.
  unfold new_array, sound_arr. cbn [m_dims m_buf]. assert (Forall (fun x => 0 <= x) (map (Z.max 0) dims)) as Fa by (apply Forall_forall; intros x Hx; apply in_map_iff in Hx as (y & <- & _); lia).
  split; [exact Fa|]. unfold full. apply memory_len. clear -Fa. induction (map (Z.max 0) dims) as [|d l IH]; cbn [prod]; [lia|]. apply Forall_cons_iff in Fa as [A B]. specialize (IH B). nia.
Qed.
Lemma part1_names s : good_part (lit s) -> names (lit "PartType1/" ++ lit s) [lit "PartType1"; lit s].
Proof. intro G. split; [discriminate|]. split; [constructor; [vm_compute; intuition discriminate|constructor; [exact G|constructor]]|]. exists 0%nat. left. cbn [spell repeat]. rewrite app_nil_r. reflexivity. Qed.
Lemma header_name : attr_name (lit "Header/NumPart_ThisFile") [lit "Header"] (lit "NumPart_ThisFile").
Proof. split; [vm_compute; repeat split; intuition discriminate|]. split; [repeat constructor; vm_compute; intuition discriminate|]. exists 0%nat, (lit "Header"). split; [reflexivity|]. left. reflexivity. Qed.
Lemma run_fmap {A B} (f : A -> B) (m : M A) s : fmap f m s = match m s with Go a s' => Go (f a) s' | Stop s' => Stop s' | Wild => Wild end.
Proof. unfold fmap, mbind, ret. destruct (m s); reflexivity. Qed.
Lemma attr_fun h p c a b : sound h -> attribute_at h p c a -> attribute_at h p c b -> a = b.
Proof. intros S (x & l & H & E) (y & m & K & G). destruct (holds_fun _ _ _ _ _ _ S H K) as [_ ->]. congruence. Qed.
Lemma four_value e n : four e n -> n < 2 ^ 31 -> signed32 (le_value e) = n.
Proof. intros (a & b & c & d & -> & _ & ->) L. cbn [le_value]. unfold signed32. replace (2 ^ 31 <=? _) with false by lia. lia. Qed.
Lemma not_string t e : t_class t <> CString -> as_type t e = e.
Proof. unfold as_type. destruct (t_class t); congruence. Qed.
Lemma whole_filled d arr b : filled d arr None None b -> t_class (m_ty arr) <> CString -> m_dims arr = d_dims d ->
  forall j, index_in (d_dims d) j -> elem (d_dims d) b j = elem (d_dims d) (d_data d) j /\ elem (d_dims d) b j <> None.
Proof.
  intros (_ & K & _) NS Dm j J. destruct (K j j) as (e & E & G); [cbn [part snd]; rewrite Dm; repeat split; exact J|]. cbn [part fst] in E.
  rewrite shifted_ones in E by (symmetry; eapply Forall2_len; exact J). rewrite Dm in G. rewrite not_string in G by exact NS. rewrite E, G. split; congruence.
Qed.

Section reader.
Variables (cv : ty -> ty -> option (elt -> elt)) (s0 : wst) (arg : str) (fl : dfile).
Hypotheses (Fr : fresh s0) (So : sound_files s0) (Nm : plain_name arg).
Definition trace_ok (t : list (call * result)) (s : wst) (h : Z) : Prop := history cv s0 t s /\ calm t /\ current t h = Some (arg, true) /\ disk s = disk s0.
Lemma open_ok : match open_file (fit 500 arg) (Some true) s0 with
  | Go h s => assoc arg (disk s0) <> None /\ exists t, trace_ok t s h
  | Stop s => assoc arg (disk s0) = None /\ disk s = disk s0
  | Wild => False
  end.
Proof using Fr Nm.
  destruct Nm as (Ln & Hd & La). rewrite fit_id by (assumption || lia). pose proof (c88_open cv s0 [] s0 arg (Some true) Fr (h_start _ _)) as O. cbn [run] in O. rewrite run_fmap in O.
  rewrite (trim_id arg La) in O. destruct (open_file arg (Some true) s0) as [h s|s|] eqn:E; [| |exact O].
  - destruct O as (h' & [= <-] & Lo & (d & Ed & _) & Dk). split; [congruence|]. exists [(COpen arg (Some true), RHandle h)]. split; [eapply h_call; [apply h_start|]; cbn [run]; rewrite run_fmap, E; reflexivity|].
    split; [cbn; repeat split; [rewrite trim_id by exact La; lia|exact Hd]|]. split; [|exact Dk]. cbn [current]. rewrite Z.eqb_refl, trim_id by exact La. reflexivity.
  - destruct O as [O Dk]. split; [|exact Dk]. destruct (assoc arg (disk s0)) as [d|] eqn:Ed; [|reflexivity]. exfalso. apply O. split; [exists d; split; [exact Ed|discriminate]|]. exists 1. split; [lia|reflexivity].
Qed.
Variable undef : nat -> Z -> elt.
Hypothesis (Fi : assoc arg (disk s0) = Some fl).
Lemma attr_ok t s h n : trace_ok t s h -> header (heap fl) n -> n < 2 ^ 31 ->
  exists np, read_attribute cv h (lit "Header/NumPart_ThisFile") (new_array undef 0 int4 [6]) s = Go np s /\ signed32 (le_value (nth 1 np [])) = n.
Proof using Fr So Fi.
  intros (H & Ca & Cu & Dk) (a & Aa & (Ty1 & Ty2) & La & e & Ee & Fo) Lt. pose proof (So _ _ Fi) as Sf.
  assert (forall x r, In (x, r) t -> sound_call x) as SC. { clear -Ca. induction t as [|[c' r'] t IH]; [contradiction|]. destruct Ca as [[C1 _] C2]. intros c r [[= -> ->]|K]; eauto. }
  pose proof (c94_read_attribute cv s0 t s h arg true fl _ _ _ (new_array undef 0 int4 [6]) Fr So H SC Cu ltac:(now rewrite Dk) header_name) as R.
  specialize (R ltac:(cbn; lia) ltac:(cbn; lia)). cbn [run] in R. rewrite run_fmap in R.
  assert (forall b, attribute_at (heap fl) [lit "Header"] (lit "NumPart_ThisFile") b -> zlen (a_data b) <= zlen (m_buf (new_array undef 0 int4 [6]))) as Room.
  { intros b Bb. rewrite (attr_fun _ _ _ _ _ Sf Bb Aa), La. cbn [m_buf new_array]. rewrite memory_len; cbn; lia. }
  specialize (R Room). destruct (read_attribute _ _ _ _ s) as [b s'|s'|] eqn:E; [| |contradiction].
  - destruct R as (-> & a' & g & b' & [= <-] & Aa' & Ga & Fd). rewrite (attr_fun _ _ _ _ _ Sf Aa' Aa) in *. exists b. split; [reflexivity|].
    destruct Fd as (_ & Fd & _). rewrite (nth_error_nth _ _ _ (Fd _ _ Ee)). assert (g e = e) as ->; [|now apply four_value].
    unfold attr_as in Ga. rewrite Ty1, Ty2 in Ga. cbn in Ga. destruct Ga as [(_ & _ & G)|[G _]]; [apply G|exfalso; apply G; auto].
  - destruct R as [_ R]. exfalso. apply (R a (fun e => e) Aa). unfold attr_as. rewrite Ty1. cbn. left. rewrite Ty2. auto.
Qed.
Lemma read_ok t s h name k c size dims : trace_ok t s h -> good_part (lit name) -> (List.length (lit name) <= 100)%nat -> c <> CString -> positive dims ->
  (forall d, dataset_at (heap fl) [lit "PartType1"; lit name] d -> positive (d_dims d)) ->
  match read_data h (lit "PartType1/" ++ lit name) (new_array undef k {| t_class := c; t_size := size |} dims) None None s with
  | Go b s' => (exists t', trace_ok t' s' h) /\ zlen b = prod dims /\
      exists d, dataset_at (heap fl) [lit "PartType1"; lit name] d /\ is_type (d_ty d) c size /\ roomy dims (d_dims d) /\
        (d_dims d = dims -> forall j, index_in dims j -> elem dims b j = elem dims (d_data d) j)
  | Stop s' => disk s' = disk s0 /\ ~ takes (heap fl) name c size dims
  | Wild => False
  end.
Proof using Fr So Fi.
  intros (H & Ca & Cu & Dk) G Ll NS Po Pd. assert (map (Z.max 0) dims = dims) as Md. { clear -Po. induction Po; [reflexivity|]. cbn [map]. rewrite IHPo. f_equal. lia. }
  pose proof (part1_names name G) as Nn. assert (m_dims (new_array undef k {| t_class := c; t_size := size |} dims) = dims) as Dm by exact Md.
  assert (List.length (trim (lit "PartType1/" ++ lit name)) <= 1000)%nat as Lt.
  { destruct (trim_split (lit "PartType1/" ++ lit name)) as [m E]. apply (f_equal (@List.length ascii)) in E. rewrite !app_length in E. change (List.length (lit "PartType1/")) with 10%nat in E. lia. }
  pose proof (c89_read cv s0 t s h arg true fl _ _ (new_array undef k {| t_class := c; t_size := size |} dims) None None Fr So H Ca Cu ltac:(now rewrite Dk) Nn Lt (array_sound _ _ _ _) ltac:(now rewrite Dm) Pd) as R.
  cbn [run] in R. rewrite run_fmap in R. destruct (read_data _ _ _ None None s) as [b s'|s'|] eqn:E; [| |exact R].
  - destruct R as (d & b' & [= <-] & Da & (_ & (T1 & _ & T2) & Ro & _) & Fd & Dk'). cbn [new_array m_ty t_class t_size] in T1, T2. split; [|split].
    + exists ((CRead h (lit "PartType1/" ++ lit name) (new_array undef k {| t_class := c; t_size := size |} dims) None None, RArr b) :: t). split; [eapply h_call; [exact H|]; cbn [run]; rewrite run_fmap, E; reflexivity|]. split; [|split; [exact Cu|congruence]]. split; [|exact Ca]. split; [apply array_sound|]. split; [eexists; exact Nn|exact Lt].
    + destruct Fd as [-> _]. cbn [new_array m_buf]. rewrite Md. apply memory_len. clear -Po. induction Po; cbn [prod]; nia.
    + exists d. split; [exact Da|]. split; [split; auto|]. cbn [part snd] in Ro. rewrite Dm in Ro. split; [exact Ro|]. intros Ed j J. rewrite <- Ed in *. apply (whole_filled d _ b Fd); [exact NS|exact Dm|exact J].
  - destruct R as [R Dk']. split; [congruence|]. intros (d & Da & (T1 & T2) & Ro). apply (R d Da). split; [exact I|]. split; [|split; [cbn [part snd]; now rewrite Dm|cbn [part fst snd]; apply inside_whole]].
    unfold type_fits. cbn [new_array m_ty t_class t_size]. rewrite T1, T2. split; [reflexivity|]. split; intro; [contradiction|reflexivity].
Qed.
End reader.

Lemma element_some dims b i s : nth_error b (Z.to_nat (offset dims i)) <> None -> exists e, element dims b i s = Go e s /\ nth_error b (Z.to_nat (offset dims i)) = Some e.
Proof. unfold element. destruct (nth_error _ _) as [e|]; [|congruence]. intros _. exists e. split; reflexivity. Qed.
Lemma write_lines_go n pos vel id : zlen pos = 3 * n -> zlen vel = 3 * n -> zlen id = n -> forall is, (forall i, In i is -> 0 <= i < n) -> forall s,
  exists l, write_lines n pos vel id is s = Go l s /\ Forall2 (fun i x => elem [n] id [i] = Some (snd x) /\
    map Some (fst (fst x)) = map (fun c => elem [3; n] pos [c; i]) [0; 1; 2] /\ map Some (snd (fst x)) = map (fun c => elem [3; n] vel [c; i]) [0; 1; 2]) is l.
Proof.
  intros Lp Lv Li. unfold zlen in Lp, Lv, Li. induction is as [|i is IH]; intros B s; [exists []; split; [reflexivity|constructor]|]. pose proof (B i (or_introl eq_refl)) as Bi.
  destruct (IH (fun j Hj => B j (or_intror Hj)) s) as (l & El & Fl).
  assert (forall (b : list elt) c, Z.of_nat (List.length b) = 3 * n -> 0 <= c < 3 -> nth_error b (Z.to_nat (offset [3; n] [c; i])) <> None) as P.
  { intros b c Lb Bc. apply nth_error_Some. cbn [offset]. nia. }
  destruct (element_some [3; n] pos [0; i] s (P pos 0 Lp ltac:(lia))) as (x & Ex & Nx). destruct (element_some [3; n] pos [1; i] s (P pos 1 Lp ltac:(lia))) as (y & Ey & Ny). destruct (element_some [3; n] pos [2; i] s (P pos 2 Lp ltac:(lia))) as (z & Ez & Nz).
  destruct (element_some [3; n] vel [0; i] s (P vel 0 Lv ltac:(lia))) as (u & Eu & Nu). destruct (element_some [3; n] vel [1; i] s (P vel 1 Lv ltac:(lia))) as (v & Ev & Nv). destruct (element_some [3; n] vel [2; i] s (P vel 2 Lv ltac:(lia))) as (w & Ew & Nw).
  destruct (element_some [n] id [i] s) as (k & Ek & Nk). { apply nth_error_Some. cbn [offset]. lia. }
  exists (([x; y; z], [u; v; w], k) :: l). split.
  - cbn [write_lines]. unfold write_line, mbind. rewrite Ex, Ey, Ez, Eu, Ev, Ew, Ek. unfold ret. rewrite El. reflexivity.
  - constructor; [|exact Fl]. unfold elem. cbn [fst snd map]. rewrite Nx, Ny, Nz, Nu, Nv, Nw, Nk. auto.
Qed.
Lemma lines_printed n pos vel id l : 0 <= n -> Forall2 (fun i x => elem [n] id [i] = Some (snd x) /\
    map Some (fst (fst x)) = map (fun c => elem [3; n] pos [c; i]) [0; 1; 2] /\ map Some (snd (fst x)) = map (fun c => elem [3; n] vel [c; i]) [0; 1; 2]) (zseq 0 (Z.to_nat n)) l -> printed n pos vel id l.
Proof.
  intros N Fa. pose proof (Forall2_len _ _ _ Fa) as L. rewrite zseq_length in L. split; [unfold zlen; lia|]. intros i Bi.
  destruct (nth_error l (Z.to_nat i)) as [[[p v] k]|] eqn:E. 2: { apply nth_error_None in E. lia. }
  exists p, v, k. split; [reflexivity|]. assert (nth_error (zseq 0 (Z.to_nat n)) (Z.to_nat i) = Some i) as Z. { rewrite (nth_error_nth' _ 0) by (rewrite zseq_length; lia). rewrite nth_zseq by lia. f_equal. lia. }
  revert Z E. generalize (Z.to_nat i). clear -Fa. induction Fa as [|a b x y P Fa IH]; intros [|m]; cbn [nth_error]; try discriminate; [intros [= ->] [= ->]; exact P|]. apply IH.
Qed.
