(** Proofs about compress_dcpl() (for C82). *)
From Verif Require Import Base.Prelude Base.ListLemmas Phdf5.DcplModel.
From Coq Require Import ZifyBool ZifyNat.
Local Open Scope Z_scope.

Section Dcpl.
  Context {P : Type}.
  Implicit Types d : plist P.
  (** versions as python orders tuples *)
  Definition version_lt (v w : Z * Z * Z) : Prop :=
    let '(a, b, c) := v in let '(a', b', c') := w in a < a' \/ (a = a' /\ (b < b' \/ (b = b' /\ c < c'))).
  Lemma before_lt v : before_1_12 v = true <-> version_lt v (1, 12, 0).
  Proof. destruct v as [[a b] c]. unfold before_1_12, version_lt. lia. Qed.
  Lemma before_ge v : ~ version_lt v (1, 12, 0) -> before_1_12 v = false.
  Proof. intro H. destruct (before_1_12 v) eqn:E; [|reflexivity]. apply before_lt in E. contradiction. Qed.
  Lemma product_acc l : forall a, fold_left Z.mul l a = a * fold_left Z.mul l 1.
  Proof. induction l as [|x l IH]; intro a; cbn [fold_left]; [lia|]. rewrite IH, (IH (1 * x)). lia. Qed.
  Lemma product_zero l : product l = 0 <-> In 0 l.
  Proof.
    unfold product. induction l as [|x l IH]; cbn [fold_left In]; [lia|]. rewrite product_acc. rewrite <- IH. lia.
  Qed.
  Lemma product_pos l : Forall (fun n => 1 <= n) l -> (product l =? 0) = false.
  Proof. intro H. apply Z.eqb_neq. rewrite product_zero. intro I. rewrite Forall_forall in H. specialize (H _ I). lia. Qed.
  Lemma old v d shape gzip shuffle chunk : version_lt v (1, 12, 0) -> compress_dcpl v d shape gzip shuffle chunk = Ok (Some d).
  Proof. intro H. unfold compress_dcpl. apply before_lt in H. now rewrite H. Qed.
  Lemma not_asked v d shape chunk : Forall (fun n => 1 <= n) shape -> compress_dcpl v d shape None false chunk = Ok (Some d).
  Proof. intro H. unfold compress_dcpl. destruct (before_1_12 v); [reflexivity|]. rewrite product_pos by exact H. reflexivity. Qed.

  Definition filters_of (gzip : option Z) (shuffle : bool) : list filter := (if shuffle then [Shuffle] else []) ++ match gzip with Some g => [Deflate g] | None => [] end.
  Lemma add_nil d : {| p_layout := p_layout d; p_chunk := p_chunk d; p_filters := p_filters d ++ []; p_other := p_other d |} = d.
  Proof. destruct d; cbn. now rewrite app_nil_r. Qed.
  Lemma filters_added (gzip : option Z) (shuffle : bool) d : (forall g, gzip = Some g -> 0 <= g <= 9) ->
    (do dcpl <- match gzip with Some g => set_deflate g (if shuffle then add_filter Shuffle d else d) | None => Ok (if shuffle then add_filter Shuffle d else d) end; Ok (Some dcpl))
    = Ok (Some {| p_layout := p_layout d; p_chunk := p_chunk d; p_filters := p_filters d ++ filters_of gzip shuffle; p_other := p_other d |}).
  Proof.
    intro H. unfold filters_of. destruct gzip as [g|].
    - unfold set_deflate. specialize (H g eq_refl). replace ((0 <=? g) && (g <=? 9)) with true by lia. cbn [bind]. destruct shuffle; unfold add_filter; cbn [p_filters p_layout p_chunk p_other app]; [now rewrite <- app_assoc | reflexivity].
    - destruct shuffle; cbn; [reflexivity | now rewrite add_nil].
  Qed.
  Lemma already v d shape gzip shuffle chunk : ~ version_lt v (1, 12, 0) -> Forall (fun n => 1 <= n) shape -> p_layout d = Chunked -> (forall g, gzip = Some g -> 0 <= g <= 9) ->
    compress_dcpl v d shape gzip shuffle chunk = Ok (Some {| p_layout := Chunked; p_chunk := p_chunk d; p_filters := p_filters d ++ filters_of gzip shuffle; p_other := p_other d |}).
  Proof.
    intros Hv Hs Hl Hg. unfold compress_dcpl. rewrite before_ge, product_pos by assumption. rewrite Hl. cbn [is_chunked negb].
    assert ((if match gzip with Some _ => true | None => shuffle end then Ok d else Ok d) = Ok d) as -> by (destruct gzip, shuffle; reflexivity). cbn [bind].
    rewrite filters_added by exact Hg. now rewrite Hl.
  Qed.
  Lemma chunks v d n rest gzip shuffle chunk rows : ~ version_lt v (1, 12, 0) -> Forall (fun n => 1 <= n) (n :: rest) -> p_layout d <> Chunked -> (forall g, gzip = Some g -> 0 <= g <= 9) ->
    (gzip <> None \/ shuffle = true) -> (match chunk with Some c => rows = Z.min n c | None => rows = Z.min n 8388608 end) -> 1 <= rows ->
    compress_dcpl v d (n :: rest) gzip shuffle chunk = Ok (Some {| p_layout := Chunked; p_chunk := rows :: rest; p_filters := p_filters d ++ filters_of gzip shuffle; p_other := p_other d |}).
  Proof.
    intros Hv Hs Hl Hg Hw Hr R1. unfold compress_dcpl. rewrite before_ge, product_pos by assumption.
    assert (match gzip with Some _ => true | None => shuffle end = true) as -> by (destruct gzip; [reflexivity | destruct Hw; congruence]).
    assert (is_chunked (p_layout d) = false) as -> by (destruct (p_layout d); [reflexivity | reflexivity | congruence]). cbn [negb].
    assert ((if n >? match chunk with Some c => c | None => 8 * 1024 * 1024 end then match chunk with Some c => c | None => 8 * 1024 * 1024 end else n) = rows) as ->.
    { destruct chunk as [c|]; [destruct (Z.gtb_spec n c) | destruct (Z.gtb_spec n (8 * 1024 * 1024))]; lia. }
    unfold set_chunk. inversion Hs as [|? ? Hn Hrest]; subst. assert (forallb (fun n => 0 <? n) (rows :: rest) = true) as ->.
    { cbn [forallb]. apply andb_true_intro. split; [lia|]. apply forallb_forall. intros x Hx. rewrite Forall_forall in Hrest. specialize (Hrest x Hx). lia. }
    rewrite zlen_cons. pose proof (zlen_nonneg rest). replace (1 + zlen rest =? 0) with false by lia. cbn [andb negb bind set_layout p_filters p_other].
    rewrite filters_added by exact Hg. reflexivity.
  Qed.
  Lemma bad_chunk v d n rest gzip shuffle c : ~ version_lt v (1, 12, 0) -> Forall (fun n => 1 <= n) (n :: rest) -> p_layout d <> Chunked ->
    (gzip <> None \/ shuffle = true) -> c <= 0 -> compress_dcpl v d (n :: rest) gzip shuffle (Some c) = Err EValue.
  Proof.
    intros Hv Hs Hl Hw Hc. unfold compress_dcpl. rewrite before_ge, product_pos by assumption.
    assert (match gzip with Some _ => true | None => shuffle end = true) as -> by (destruct gzip; [reflexivity | destruct Hw; congruence]).
    assert (is_chunked (p_layout d) = false) as -> by (destruct (p_layout d); [reflexivity | reflexivity | congruence]). cbn [negb].
    inversion Hs; subst. destruct (Z.gtb_spec n c); [|lia]. unfold set_chunk. cbn [forallb]. replace (0 <? c) with false by lia. reflexivity.
  Qed.
  Lemma bad_level v d shape g shuffle chunk r : ~ version_lt v (1, 12, 0) -> Forall (fun n => 1 <= n) shape -> ~ 0 <= g <= 9 ->
    compress_dcpl v d shape (Some g) shuffle chunk <> Ok r.
  Proof.
    intros Hv Hs Hg. unfold compress_dcpl. rewrite before_ge, product_pos by assumption. cbn beta iota zeta.
    match goal with |- context[bind ?m _] => destruct m as [d'|e]; [|discriminate] end. cbn [bind]. unfold set_deflate. replace ((0 <=? g) && (g <=? 9)) with false by lia. discriminate.
  Qed.
  Lemma scalar_shape v d gzip shuffle chunk : ~ version_lt v (1, 12, 0) -> p_layout d <> Chunked -> (gzip <> None \/ shuffle = true) -> compress_dcpl v d [] gzip shuffle chunk = Err EIndex.
  Proof.
    intros Hv Hl Hw. unfold compress_dcpl. rewrite before_ge by assumption. cbn.
    assert (match gzip with Some _ => true | None => shuffle end = true) as -> by (destruct gzip; [reflexivity | destruct Hw; congruence]).
    assert (is_chunked (p_layout d) = false) as -> by (destruct (p_layout d); [reflexivity | reflexivity | congruence]). reflexivity.
  Qed.
  Lemma empty v d shape gzip shuffle chunk : ~ version_lt v (1, 12, 0) -> In 0 shape -> compress_dcpl v d shape gzip shuffle chunk = Ok None.
  Proof. intros Hv H. unfold compress_dcpl. rewrite before_ge by assumption. apply product_zero in H. now rewrite H. Qed.
End Dcpl.
