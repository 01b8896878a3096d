From Coq Require Import Ascii String.
From Verif Require Import Base.Prelude Base.NdArray Base.ListLemmas Index.IndexModel Text.StrModel Text.StrProofs Sql.SqlModel Sql.SqlSpec Snap.FofFinal.
From Coq Require Import ZifyBool ZifyNat.
Local Open Scope nat_scope.
Local Open Scope list_scope.

(** ** types *)
Lemma sql_type_spec d ty : sql_type d = Ok ty <-> sql_of d ty (itemsize d).
Proof.
  destruct d as [k n b]. unfold sql_type, is_type. cbn. split.
  - destruct k.
    + destruct (Nat.eqb_spec n 4) as [->|]; destruct b; cbn; try discriminate; [intros [= <-]; constructor|..];
        destruct (Nat.eqb_spec n 8) as [->|]; cbn; try discriminate; intros [= <-]; constructor.
    + discriminate.
    + destruct (Nat.eqb_spec n 4) as [->|]; destruct b; cbn; try discriminate; [intros [= <-]; constructor|..];
        destruct (Nat.eqb_spec n 8) as [->|]; cbn; try discriminate; intros [= <-]; constructor.
    + intros [= <-]. constructor.
    + discriminate.
  - intro H. inversion H; subst; reflexivity.
Qed.
Lemma sql_of_width d ty w : sql_of d ty w -> w = itemsize d. Proof. intro H. now inversion H. Qed.
Lemma sql_type_err d e : sql_type d = Err e -> e = EValue.
Proof. unfold sql_type. destruct (dkind d); repeat match goal with |- context [if ?b then _ else _] => destruct b end; congruence. Qed.

(** ** names and fields *)
Lemma distinct_spec l : distinct l = true <-> NoDup l.
Proof.
  induction l as [|x l IH]; cbn; [split; [constructor | reflexivity]|]. rewrite andb_true_iff, negb_true_iff, IH. split.
  - intros [H1 H2]. constructor; [|assumption]. intro N. apply not_true_iff_false in H1. apply H1. apply existsb_exists. exists x. split; [assumption | apply str_eqb_refl].
  - intro H. inversion H as [|? ? H1 H2]; subst. split; [|assumption]. apply not_true_iff_false. intro N. apply existsb_exists in N. destruct N as (y & Hy & E). apply str_eqb_eq in E. now subst.
Qed.
Lemma col_types_ok n na : shape_ok n (snd na) -> col_types n na = Ok (map (fun nm => (nm, adt (snd na))) (names_of na)).
Proof. unfold col_types, names_of. intros [H|H]; rewrite H; cbn; rewrite Nat.eqb_refl; reflexivity. Qed.
Lemma col_types_inv n na l : col_types n na = Ok l -> shape_ok n (snd na).
Proof.
  unfold col_types, shape_ok. destruct (shape _) as [|m [|p [|q r]]]; [discriminate|..]; destruct (Nat.eqb_spec m n) as [->|]; cbn; try discriminate; [auto|].
  destruct (Nat.eqb_spec p 3) as [->|]; [auto | discriminate].
Qed.
Lemma mapM_types n data : Forall (fun na => shape_ok n (snd na)) data ->
  mapM (col_types n) data = Ok (map (fun na => map (fun nm => (nm, adt (snd na))) (names_of na)) data).
Proof. intro H. induction H as [|na data H1 H2 IH]; [reflexivity|]. cbn. rewrite col_types_ok, IH by assumption. reflexivity. Qed.
Lemma mapM_inv {A B} (f : A -> res B) l m : mapM f l = Ok m -> Forall (fun a => exists b, f a = Ok b) l.
Proof.
  revert m. induction l as [|a l IH]; intros m; cbn; [constructor|]. destruct (f a) as [b|] eqn:E; cbn; [|discriminate]. destruct (mapM f l) as [bs|]; cbn; [|discriminate].
  intros _. constructor; [now exists b | now apply (IH bs)].
Qed.
Definition fields (data : list (str * array)) : list (str * dtype) := concat (map (fun na => map (fun nm => (nm, adt (snd na))) (names_of na)) data).
Lemma fields_names data : map fst (fields data) = flat_map names_of data.
Proof. unfold fields. induction data as [|na data IH]; cbn; [reflexivity|]. rewrite map_app, map_map, map_id. now rewrite IH. Qed.
Lemma dtype_ok_spec data : dtype_ok (fields data) = true <-> NoDup (flat_map names_of data) /\ ~ In [] (flat_map names_of data).
Proof.
  unfold dtype_ok. rewrite fields_names, andb_true_iff, negb_true_iff, distinct_spec. split; intros [H1 H2]; (split; [assumption|]).
  - intro N. apply not_true_iff_false in H2. apply H2. apply existsb_exists. exists []. split; [assumption | reflexivity].
  - apply not_true_iff_false. intro N. apply existsb_exists in N. destruct N as (y & Hy & E). apply str_eqb_eq in E. now subst.
Qed.

(** ** filling the table *)
Definition filled (na : str * array) : table :=
  match shape (aval (snd na)) with
  | [_] => [(fst na, data (aval (snd na)))]
  | _ => [(fst na ++ lit "_x", component 0 (snd na)); (fst na ++ lit "_y", component 1 (snd na)); (fst na ++ lit "_z", component 2 (snd na))]
  end.
Definition put (t : table) (fc : str * list (list Z)) : res table := assign t (fst fc) (snd fc).
Lemma fill_put t na : fill t na = foldM put (filled na) t.
Proof.
  unfold fill, filled. destruct (shape (aval (snd na))) as [|n [|p q]]; [reflexivity| |reflexivity]. cbn. unfold put. cbn. now destruct (assign t _ _).
Qed.
Lemma foldM_app {S A} (f : S -> A -> res S) l m s : foldM f (l ++ m) s = do s' <- foldM f l s; foldM f m s'.
Proof. revert s. induction l as [|a l IH]; intro s; cbn; [reflexivity|]. destruct (f s a); cbn; [apply IH | reflexivity]. Qed.
Lemma fill_all l t : foldM fill l t = foldM put (flat_map filled l) t.
Proof. revert t. induction l as [|na l IH]; intro t; cbn; [reflexivity|]. rewrite foldM_app, fill_put. destruct (foldM put (filled na) t); cbn; [apply IH | reflexivity]. Qed.
Lemma assign_mid t1 f c t2 col : ~ In f (map fst t1) -> assign (t1 ++ (f, c) :: t2) f col = Ok (t1 ++ (f, col) :: t2).
Proof.
  induction t1 as [|[g d] t1 IH]; intro H; cbn; [now rewrite str_eqb_refl|]. assert (str_eqb g f = false) as ->.
  { apply not_true_iff_false. intro E. apply str_eqb_eq in E. apply H. now left. }
  rewrite IH; [reflexivity|]. intro. apply H. now right.
Qed.
Lemma put_all (L : table) : forall J done, map fst J = map fst L -> NoDup (map fst (done ++ L)) -> foldM put L (done ++ J) = Ok (done ++ L).
Proof.
  induction L as [|[f col] L IH]; intros J done HJ HN.
  - destruct J; [reflexivity | discriminate].
  - destruct J as [|[g c] J]; [discriminate|]. cbn in HJ. injection HJ as -> HJ. cbn [foldM]. unfold put at 1. cbn [fst snd].
    rewrite assign_mid; cbn [bind].
    + replace (done ++ (f, col) :: J) with ((done ++ [(f, col)]) ++ J) by now rewrite <- app_assoc. rewrite IH; [now rewrite <- app_assoc|assumption|].
      rewrite <- app_assoc. exact HN.
    + rewrite map_app in HN. cbn in HN. apply NoDup_remove_2 in HN. intro. apply HN. apply in_or_app. now left.
Qed.
Lemma filled_names na : map fst (filled na) = names_of na.
Proof. unfold filled, names_of. destruct (shape _) as [|n [|p q]]; reflexivity. Qed.
Lemma all_filled_names l : map fst (flat_map filled l) = flat_map names_of l.
Proof. induction l as [|na l IH]; cbn; [reflexivity|]. now rewrite map_app, filled_names, IH. Qed.
Lemma filled_spec junk n l : NoDup (flat_map names_of l) ->
  foldM fill l (map (fun fd => (fst fd, repeat (junk (itemsize (snd fd))) n)) (fields l)) = Ok (flat_map filled l).
Proof.
  intro H. rewrite fill_all. apply (put_all (flat_map filled l) (map (fun fd => (fst fd, repeat (junk (itemsize (snd fd))) n)) (fields l)) []).
  - rewrite map_map. cbn. now rewrite fields_names, all_filled_names.
  - cbn. now rewrite all_filled_names.
Qed.

(** ** rows *)
Section Rows.
  Variable n : nat.
  Variable L : list (list (list Z) * nat).
  (** columns of [n] elements of given widths *)
  Hypothesis HL : Forall (fun cw => length (fst cw) = n /\ Forall (fun e => length e = snd cw) (fst cw)) L.
  Definition row (r : nat) : list Z := flat_map (fun cw => nth r (fst cw) []) L.
  Definition W : nat := list_sum (map snd L).
  Lemma elem_len cw r : In cw L -> r < n -> length (nth r (fst cw) []) = snd cw.
  Proof. intros Hi Hr. rewrite Forall_forall in HL. destruct (HL cw Hi) as [H1 H2]. rewrite Forall_forall in H2. apply H2. apply nth_In. lia. Qed.
  Lemma row_len r : r < n -> length (row r) = W.
  Proof.
    intro Hr. unfold row, W. pose proof elem_len as E. clear HL. induction L as [|cw L' IH]; [reflexivity|]. cbn. rewrite app_length, IH by (intros; apply E; [now right | assumption]). now rewrite E by (now left || assumption).
  Qed.
  Lemma rows_len a m : a + m <= n -> length (flat_map row (seq a m)) = m * W.
  Proof. revert a. induction m as [|m IH]; intros a H; cbn; [reflexivity|]. rewrite app_length, row_len, IH by lia. lia. Qed.
  Lemma rows_skip i : i < n -> exists rest, skipn (i * W) (flat_map row (seq 0 n)) = row i ++ rest.
  Proof.
    intro Hi. replace n with (i + S (n - i - 1)) by lia. rewrite seq_app, flat_map_app. rewrite skipn_app, rows_len by lia. rewrite Nat.sub_diag. cbn [skipn].
    rewrite skipn_all2 by (rewrite rows_len; lia). cbn [app]. cbn [plus seq flat_map]. eexists. reflexivity.
  Qed.
  Lemma cell_at i j cw : i < n -> nth_error L j = Some cw ->
    firstn (snd cw) (skipn (i * W + list_sum (firstn j (map snd L))) (flat_map row (seq 0 n))) = nth i (fst cw) [].
  Proof.
    intros Hi Hj. rewrite <- skipn_skipn'. destruct (rows_skip i Hi) as (rest & ->). destruct (nth_error_split L j Hj) as (l1 & l2 & E & Hl).
    assert (list_sum (firstn j (map snd L)) = length (flat_map (fun cw => nth i (fst cw) []) l1)) as ->.
    { rewrite firstn_map, E, <- Hl, firstn_app, firstn_all, Nat.sub_diag, firstn_O, app_nil_r. assert (forall cw, In cw l1 -> length (nth i (fst cw) []) = snd cw) as E'. { intros. apply elem_len; [rewrite E; apply in_or_app; now left | assumption]. }
      clear - E'. induction l1 as [|x l1 IH]; [reflexivity|]. cbn [flat_map map]. rewrite app_length, E' by now left. rewrite <- IH; [reflexivity|]. intros. apply E'. now right. }
    unfold row. rewrite E, flat_map_app. cbn [flat_map]. rewrite <- !app_assoc, skipn_app, skipn_all, Nat.sub_diag. cbn [skipn app].
    rewrite <- (elem_len cw i) at 1 by (try assumption; rewrite E; apply in_elt). rewrite firstn_app, firstn_all, Nat.sub_diag, firstn_O. apply app_nil_r.
  Qed.
End Rows.

(** ** the columns *)
Definition cols_na (na : str * array) (ty : str) : list column :=
  match shape (aval (snd na)) with
  | [_] => [{| c_name := fst na; c_type := ty; c_value := fun i => elem (snd na) [i] |}]
  | _ => [{| c_name := fst na ++ lit "_x"; c_type := ty; c_value := fun i => elem (snd na) [i; 0] |};
          {| c_name := fst na ++ lit "_y"; c_type := ty; c_value := fun i => elem (snd na) [i; 1] |};
          {| c_name := fst na ++ lit "_z"; c_type := ty; c_value := fun i => elem (snd na) [i; 2] |}]
  end.
Lemma cols_na_ok n na ty : shape_ok n (snd na) -> columns_of n (fst na) (snd na) ty (cols_na na ty).
Proof. unfold cols_na. intros [H|H]; rewrite H; now constructor. Qed.

(** columns of the table with their widths *)
Definition cells (na : str * array) : list (list (list Z) * nat) := map (fun fc => (snd fc, itemsize (adt (snd na)))) (filled na).
Lemma component_len n k a : shape (aval a) = [n; 3] -> length (component k a) = n.
Proof. intro H. unfold component. rewrite H, map_length. apply seq_length. Qed.
Lemma component_nth n k a i : shape (aval a) = [n; 3] -> array_ok a -> i < n -> k < 3 -> nth_error (component k a) i = elem a [i; k] /\ exists e, elem a [i; k] = Some e.
Proof.
  intros H [Ho _] Hi Hk. unfold elem. rewrite H. unfold component. rewrite H, nth_error_map. rewrite (nth_error_nth' _ 0) by (now rewrite seq_length). rewrite seq_nth by assumption. cbn [option_map ravel nelem plus].
  replace (i * (3 * 1) + (k * 1 + 0)) with (i * 3 + k) by lia. assert (i * 3 + k < length (data (aval a))) by (rewrite Ho, H; cbn [nelem]; nia).
  rewrite (nth_error_nth' _ []) by assumption. split; [reflexivity | now eexists].
Qed.
Lemma cells_ok n na : shape_ok n (snd na) -> array_ok (snd na) -> Forall (fun cw => length (fst cw) = n /\ Forall (fun e => length e = snd cw) (fst cw)) (cells na).
Proof.
  intros Hs Ha. unfold cells, filled. destruct Ha as [Ho He]. destruct Hs as [H|H]; rewrite H.
  - repeat constructor; cbn; [rewrite Ho, H; cbn; lia | assumption].
  - assert (forall k, k < 3 -> length (component k (snd na)) = n /\ Forall (fun e => length e = itemsize (adt (snd na))) (component k (snd na))) as C.
    { intros k Hk. split; [now apply component_len|]. rewrite Forall_forall. intros e Hin. unfold component in Hin. rewrite H in Hin. apply in_map_iff in Hin. destruct Hin as (r & <- & Hr). apply in_seq in Hr.
      rewrite Forall_forall in He. apply He. apply nth_In. rewrite Ho, H. cbn [nelem]. nia. }
    cbn [map]. repeat constructor; cbn; apply C; lia.
Qed.
Lemma cells_value n na ty : shape_ok n (snd na) -> array_ok (snd na) ->
  Forall2 (fun c cw => c_type c = ty /\ snd cw = itemsize (adt (snd na)) /\ forall i, i < n -> c_value c i = Some (nth i (fst cw) [])) (cols_na na ty) (cells na).
Proof.
  intros Hs Ha. unfold cells, filled, cols_na. destruct Hs as [H|H]; rewrite H.
  - repeat constructor; cbn. intros i Hi. unfold elem. rewrite H. cbn [ravel nelem]. replace (i * 1 + 0) with i by lia. apply nth_error_nth'. destruct Ha as [Ho _]. rewrite Ho, H. cbn. lia.
  - assert (forall k i, k < 3 -> i < n -> elem (snd na) [i; k] = Some (nth i (component k (snd na)) [])) as C.
    { intros k i Hk Hi. destruct (component_nth n k (snd na) i H Ha Hi Hk) as [E (e & Ee)]. rewrite Ee in E. rewrite Ee. f_equal. symmetry. now apply nth_error_nth. }
    cbn [map]. repeat constructor; cbn; intros i Hi; apply C; lia.
Qed.

(** ** everything *)
Definition supported (d : dtype) : Prop := exists ty w, sql_of d ty w.
Definition sql_name (d : dtype) : str := match sql_type d with Ok ty => ty | Err _ => [] end.
Lemma supported_name d : supported d -> sql_type d = Ok (sql_name d) /\ sql_of d (sql_name d) (itemsize d).
Proof.
  intros (ty & w & H). pose proof (sql_of_width _ _ _ H) as ->. pose proof (proj2 (sql_type_spec d ty) H) as E. unfold sql_name. rewrite E. split; [reflexivity | assumption].
Qed.
Definition all_cols (data : list (str * array)) : list column := flat_map (fun na => cols_na na (sql_name (adt (snd na)))) data.
Lemma script_lines_ok data : Forall (fun na => supported (adt (snd na))) data ->
  script_lines (fields data) = (flat_map (fun c => lit "  " ++ c_name c ++ lit " " ++ c_type c ++ lit " NOT NULL," ++ [ascii_of_nat 10]) (all_cols data), None).
Proof.
  intro H. unfold fields, all_cols. induction H as [|na l H1 H2 IH]; [reflexivity|]. cbn [map concat flat_map]. remember (concat (map (fun na => map (fun nm => (nm, adt (snd na))) (names_of na)) l)) as T eqn:ET. remember (flat_map (fun na => cols_na na (sql_name (adt (snd na)))) l) as C eqn:EC. clear ET EC. destruct (supported_name _ H1) as [E _]. unfold names_of, cols_na.
  destruct (shape (aval (snd na))) as [|a [|b c]]; cbn [map app script_lines]; rewrite E, IH; unfold script_line; cbn [flat_map app c_name c_type]; rewrite <- ?app_assoc; reflexivity.
Qed.
Lemma script_lines_bad data : ~ Forall (fun na => supported (adt (snd na))) data -> exists t, script_lines (fields data) = (t, Some EValue).
Proof.
  unfold fields. induction data as [|na l IH]; intro H; [exfalso; apply H; constructor|]. cbn [map concat]. remember (concat (map (fun na => map (fun nm => (nm, adt (snd na))) (names_of na)) l)) as T eqn:ET. clear ET.
  destruct (sql_type (adt (snd na))) as [ty|e] eqn:E.
  - destruct IH as (t & Et); [intro N; apply H; constructor; [exists ty, (itemsize (adt (snd na))); now apply sql_type_spec | assumption]|].
    unfold names_of. destruct (shape _) as [|a [|b c]]; cbn [map app script_lines]; rewrite E, Et; eexists; reflexivity.
  - pose proof (sql_type_err _ _ E) as ->. unfold names_of. destruct (shape _) as [|a [|b c]]; cbn [map app script_lines]; rewrite E; eexists; reflexivity.
Qed.

Section Top.
  Variable junk : nat -> list Z.
  Variable tablename : str.
  Variable data : list (str * array).

  Definition bytes_of (n : nat) : list Z := tofile n (flat_map filled data).
  Lemma write_eq n : table_ok n data -> write_sql_server_native_file junk tablename data =
    match script_lines (fields data) with
    | (body, None) => (Ok tt, Some (bytes_of n), Some ((lit "create table " ++ tablename ++ lit " (" ++ [ascii_of_nat 10]) ++ body ++ lit ")" ++ [ascii_of_nat 10]))
    | (body, Some e) => (Err e, Some (bytes_of n), Some ((lit "create table " ++ tablename ++ lit " (" ++ [ascii_of_nat 10]) ++ body))
    end.
  Proof.
    intros (Hne & Hs & Hn & He). unfold write_sql_server_native_file. cbv zeta. destruct data as [|[nm0 a0] l] eqn:Ed; [contradiction|]. rewrite <- Ed in *.
    assert (exists rest, shape (aval a0) = n :: rest) as (rest & ->). { rewrite Ed in Hs. inversion Hs as [|? ? [H|H] _]; subst; cbn in H; rewrite H; now eexists. }
    rewrite mapM_types by assumption. cbn [bind]. fold (fields data). assert (dtype_ok (fields data) = true) as -> by now apply dtype_ok_spec. cbn [check bind].
    rewrite filled_spec by assumption. cbn [bind]. reflexivity.
  Qed.

  Lemma rows_ok n : table_ok n data -> Forall (fun na => array_ok (snd na)) data -> Forall (fun na => supported (adt (snd na))) data ->
    rows_of n (all_cols data) (map snd (flat_map cells data)) (bytes_of n).
  Proof.
    intros (_ & Hs & _ & _) Ha Ht. set (L := flat_map cells data).
    assert (Forall (fun cw => length (fst cw) = n /\ Forall (fun e => length e = snd cw) (fst cw)) L) as HL.
    { unfold L. clear - Hs Ha. induction data as [|na l IH]; [constructor|]. inversion Hs; subst. inversion Ha; subst. cbn. apply Forall_app. split; [now apply cells_ok | now apply IH]. }
    assert (Forall2 (fun c cw => has_width (c_type c) (snd cw) /\ forall i, i < n -> c_value c i = Some (nth i (fst cw) [])) (all_cols data) L) as HV.
    { unfold L, all_cols. clear - Hs Ha Ht. induction data as [|na l IH]; [constructor|]. inversion Hs; subst. inversion Ha; subst. inversion Ht; subst. cbn. apply Forall2_app; [|now apply IH].
      destruct (supported_name _ H5) as [_ Hw]. pose proof (cells_value n na (sql_name (adt (snd na))) H1 H3) as C. clear - C Hw. induction C as [|c cw cs cws (C1 & C2 & C3) C IH]; constructor; [|assumption].
      split; [exists (adt (snd na)); now rewrite C1, C2 | assumption]. }
    assert (bytes_of n = flat_map (row L) (seq 0 n)) as ->.
    { unfold bytes_of, tofile. apply flat_map_ext. intro r. unfold row, L. clear. induction data as [|na l IH]; [reflexivity|]. cbn. rewrite !flat_map_app, IH. f_equal. unfold cells. generalize (filled na). intro F. induction F as [|fc F IHF]; [reflexivity|]. cbn. now rewrite IHF. }
    fold L. split; [|split].
    - clear - HV. induction HV as [|c cw cs cws [H _] HV IH]; constructor; assumption.
    - apply (rows_len n L HL 0 n). lia.
    - intros i j c w Hi Hc Hw. rewrite nth_error_map in Hw. destruct (nth_error L j) as [cw|] eqn:El; [|discriminate]. injection Hw as <-.
      apply Forall2_nth_iff in HV. destruct HV as [_ HV]. destruct (HV j c cw Hc El) as [_ V]. rewrite V by assumption. f_equal. symmetry. now apply cell_at.
  Qed.
  Lemma cols_ok n : table_ok n data -> Forall (fun na => supported (adt (snd na))) data ->
    exists css, Forall2 (fun na cs => exists ty w, sql_of (adt (snd na)) ty w /\ columns_of n (fst na) (snd na) ty cs) data css /\ all_cols data = concat css.
  Proof.
    intros (_ & Hs & _ & _) Ht. exists (map (fun na => cols_na na (sql_name (adt (snd na)))) data). split.
    - clear - Hs Ht. induction data as [|na l IH]; [constructor|]. inversion Hs; subst. inversion Ht; subst. constructor; [|now apply IH].
      destruct (supported_name _ H3) as [_ Hw]. exists (sql_name (adt (snd na))), (itemsize (adt (snd na))). split; [assumption | now apply cols_na_ok].
    - unfold all_cols. now rewrite flat_map_concat_map.
  Qed.

  Lemma write_good n : table_ok n data -> Forall (fun na => array_ok (snd na)) data -> Forall (fun na => supported (adt (snd na))) data ->
    exists css widths bytes,
      Forall2 (fun na cs => exists ty w, sql_of (adt (snd na)) ty w /\ columns_of n (fst na) (snd na) ty cs) data css /\
      rows_of n (concat css) widths bytes /\
      write_sql_server_native_file junk tablename data = (Ok tt, Some bytes, Some (script_text tablename (concat css))).
  Proof.
    intros Ht Ha Hs. destruct (cols_ok n Ht Hs) as (css & H1 & H2). exists css, (map snd (flat_map cells data)), (bytes_of n). split; [assumption|]. rewrite <- H2. split; [now apply rows_ok|].
    rewrite (write_eq n Ht), script_lines_ok by assumption. unfold script_text. now rewrite <- !app_assoc.
  Qed.
  Lemma write_refused : (forall n, ~ table_ok n data) -> exists e, write_sql_server_native_file junk tablename data = (Err e, None, None) /\ (e = EValue \/ e = EIndex).
  Proof.
    intro H. unfold write_sql_server_native_file. cbv zeta. destruct data as [|[nm0 a0] l] eqn:Ed; [exists EIndex; auto|]. rewrite <- Ed in *.
    destruct (shape (aval a0)) as [|n rest] eqn:E0; [exists EIndex; auto|].
    destruct (mapM (col_types n) data) as [tls|e] eqn:E; cbn [bind].
    - pose proof (mapM_inv _ _ _ E) as F. assert (Forall (fun na => shape_ok n (snd na)) data) as Hs. { revert F. apply Forall_impl. intros na (b & Hb). now apply col_types_inv in Hb. }
      rewrite mapM_types in E by assumption. injection E as <-. fold (fields data). destruct (dtype_ok (fields data)) eqn:D; cbn [check bind]; [|exists EValue; auto].
      exfalso. apply dtype_ok_spec in D. apply (H n). split; [rewrite Ed; discriminate|]. split; [assumption | assumption].
    - exists e. split; [reflexivity|]. clear - E. revert E. generalize data. intro l. induction l as [|na l IH]; cbn; [discriminate|].
      destruct (col_types n na) as [b|e'] eqn:C; cbn.
      + destruct (mapM (col_types n) l); cbn; [discriminate|]. exact IH.
      + intros [= <-]. revert C. unfold col_types. destruct (shape _) as [|m r]; [intros [= <-]; auto|]. destruct (negb _); [intros [= <-]; auto|]. destruct r as [|p [|q r]]; [discriminate|destruct (p =? 3); [discriminate|]|]; intros [= <-]; auto.
  Qed.
  Lemma write_late n : table_ok n data -> ~ Forall (fun na => supported (adt (snd na))) data ->
    exists bytes text, write_sql_server_native_file junk tablename data = (Err EValue, Some bytes, Some text).
  Proof. intros Ht Hn. rewrite (write_eq n Ht). destruct (script_lines_bad data Hn) as (t & ->). eexists. eexists. reflexivity. Qed.
End Top.
