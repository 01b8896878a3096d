(** Proofs about write_hdf5 (C73). *)
From Coq Require Import Ascii.
From Verif.Base Require Import Prelude ListLemmas Order.
From Verif.Binary Require Import BinModel NameProofs TreeProofs LayoutProofs EndianProofs Hdf5Model Hdf5Spec.
From Coq Require Import ZifyBool ZifyNat.
Local Open Scope Z_scope.

(** *** dictionaries *)
Section Dict.
  Context {V : Type}.
  Lemma get_in k (d : list (str * V)) v : get k d = Some v -> In (k, v) d.
  Proof. induction d as [|[k' v'] d IH]; cbn; [discriminate|]. destruct (str_eqb k k') eqn:E; [|auto]. apply str_eqb_eq in E. intro H. injection H as <-. subst. now left. Qed.
  Lemma get_none k (d : list (str * V)) : get k d = None <-> ~ In k (map fst d).
  Proof.
    induction d as [|[k' v'] d IH]; cbn; [tauto|]. destruct (str_eqb k k') eqn:E.
    - apply str_eqb_eq in E. subst. split; [discriminate | intro H; exfalso; apply H; now left].
    - rewrite IH. split; [intros H [Q|Q]; [subst; rewrite str_eqb_refl in E; discriminate | auto] | tauto].
  Qed.
  Lemma in_get k (d : list (str * V)) v : NoDup (map fst d) -> In (k, v) d -> get k d = Some v.
  Proof.
    induction d as [|[k' v'] d IH]; cbn; [tauto|]. intros N [E|H].
    - injection E as -> ->. now rewrite str_eqb_refl.
    - inversion N as [|? ? N1 N2]; subst. rewrite str_eqb_neq; [now apply IH|]. intros ->. apply N1. apply in_map_iff. now exists (k', v).
  Qed.
  Lemma get_app k (d e : list (str * V)) : get k (d ++ e) = match get k d with Some v => Some v | None => get k e end.
  Proof. induction d as [|[k' v'] d IH]; cbn; [reflexivity|]. destruct (str_eqb k k'); [reflexivity | exact IH]. Qed.
  Lemma has_in k (d : list (str * V)) : has k d = false <-> ~ In k (map fst d).
  Proof. unfold has. rewrite <- get_none. destruct (get k d); split; congruence. Qed.
  Lemma put_new k v (d : list (str * V)) : get k d = None -> put k v d = d ++ [(k, v)].
  Proof. induction d as [|[k' v'] d IH]; cbn; [reflexivity|]. destruct (str_eqb k k'); [discriminate|]. intro H. now rewrite IH. Qed.
  Lemma put_old k v (d : list (str * V)) : get k d <> None -> map fst (put k v d) = map fst d.
  Proof. induction d as [|[k' v'] d IH]; cbn; [congruence|]. destruct (str_eqb k k'); [reflexivity|]. intro H. cbn. now rewrite IH. Qed.
  Lemma put_in k v (d : list (str * V)) x : In x (put k v d) -> x = (k, v) \/ In x d.
  Proof.
    induction d as [|[k' v'] d IH]; cbn; [intuition|]. destruct (str_eqb k k') eqn:E.
    - apply str_eqb_eq in E. subst. cbn. intuition.
    - cbn. intuition.
  Qed.
  Lemma put_names k v (d : list (str * V)) n : In n (map fst (put k v d)) <-> n = k \/ In n (map fst d).
  Proof.
    destruct (get k d) eqn:E.
    - rewrite put_old by congruence. split; [auto|]. intros [->|H]; [|exact H]. apply get_in in E. apply in_map_iff. now exists (k, v0).
    - rewrite (put_new _ _ _ E), map_app, in_app_iff. cbn. intuition.
  Qed.
  Lemma put_nodup k v (d : list (str * V)) : NoDup (map fst d) -> NoDup (map fst (put k v d)).
  Proof.
    intro N. destruct (get k d) eqn:E; [rewrite put_old by congruence; exact N|]. rewrite (put_new _ _ _ E), map_app. apply get_none in E. cbn.
    apply NoDup_rev in N. rewrite <- rev_involutive. apply NoDup_rev. rewrite rev_app_distr. cbn. constructor; [rewrite <- in_rev; exact E | exact N].
  Qed.
End Dict.

(** *** what is true of every tree *)
Definition local (n : nat) (g : group) : Prop :=
  match g with Group a d gr =>
    NoDup (map fst a) /\ NoDup (map fst d) /\ NoDup (map fst gr) /\ (forall k, In k (map fst d) -> ~ In k (map fst gr)) /\
    (forall k i, In (k, i) a -> (i < n)%nat) /\ (forall k i at_, In (k, (i, at_)) d -> (i < n)%nat /\ NoDup (map fst at_) /\ forall k' j, In (k', j) at_ -> (j < n)%nat)
  end.
Definition wf2 (n : nat) (g : group) : Prop := forall g', inside g g' -> local n g'.
Lemma wf2_inv n a d gr : wf2 n (Group a d gr) -> local n (Group a d gr) /\ forall k sub, In (k, sub) gr -> wf2 n sub.
Proof. intro H. split; [apply H; constructor|]. intros k sub Hin g' Hg. apply H. econstructor; eauto. Qed.
Lemma wf2_intro n a d gr : local n (Group a d gr) -> (forall k sub, In (k, sub) gr -> wf2 n sub) -> wf2 n (Group a d gr).
Proof. intros H1 H2 g' Hg. inversion Hg; subst; [exact H1|]. eapply H2; eauto. Qed.
Lemma wf2_empty n : wf2 n empty_group.
Proof. apply wf2_intro; [cbn; repeat split; try constructor; try contradiction; tauto | intros k sub []]. Qed.
Lemma local_le n m g : (n <= m)%nat -> local n g -> local m g.
Proof.
  destruct g as [a d gr]. intros H (H1 & H2 & H3 & H4 & H5 & H6). repeat split; auto.
  - intros k i Hi. specialize (H5 k i Hi). lia.
  - destruct (H6 _ _ _ H0). lia.
  - destruct (H6 _ _ _ H0). tauto.
  - intros k' j Hj. destruct (H6 _ _ _ H0) as (_ & _ & Q). specialize (Q _ _ Hj). lia.
Qed.
Lemma wf2_le n m g : (n <= m)%nat -> wf2 n g -> wf2 m g.
Proof. intros H W g' Hg. apply (local_le n); auto. Qed.
Lemma wf2_add fuel : forall g name n is_attr, wf2 n g -> wf2 (S n) (fst (add_block fuel g name n is_attr)).
Proof.
  induction fuel as [|fuel IH]; intros [a d gr] name n is_attr W; [apply (wf2_le n); [lia | exact W]|].
  assert (wf2 (S n) (Group a d gr)) as W1 by (apply (wf2_le n); [lia | exact W]).
  destruct (wf2_inv _ _ _ _ W1) as [(L1 & L2 & L3 & L4 & L5 & L6) Wsub]. cbn [add_block]. destruct (split_path name) as [[h|] t].
  - destruct (if is_attr then get h d else None) as [[did dat]|] eqn:Ed.
    + destruct (has t dat) eqn:Et; [exact W1|]. assert (In (h, (did, dat)) d) as Hin by (destruct is_attr; [now apply get_in | discriminate]).
      destruct (L6 _ _ _ Hin) as (Q1 & Q2 & Q3). apply wf2_intro; [|exact Wsub]. cbn. split; [exact L1|]. split; [now apply put_nodup|]. split; [exact L3|].
      split; [intros k Hk; apply put_names in Hk; destruct Hk as [->|Hk]; [apply L4; apply in_map_iff; now exists (h, (did, dat)) | now apply L4]|]. split; [exact L5|].
      intros k i at_ Hk. apply put_in in Hk. destruct Hk as [Hk|Hk]; [|now apply (L6 k)]. injection Hk as -> -> ->. split; [exact Q1|]. split; [now apply put_nodup|].
      intros k' j Hj. apply put_in in Hj. destruct Hj as [Hj|Hj]; [injection Hj as -> ->; lia | now apply (Q3 k')].
    + assert (forall sub, wf2 n sub -> ~ In h (map fst d) -> wf2 (S n) (fst (let (sub', r) := add_block fuel sub t n is_attr in (Group a d (put h sub' gr), r)))) as Hput.
      { intros sub Ws Hh. specialize (IH sub t n is_attr Ws). destruct (add_block fuel sub t n is_attr) as [sub' r]. cbn [fst] in *. apply wf2_intro.
        - cbn. repeat (split; [assumption|]). split; [now apply put_nodup|]. split; [|split; [exact L5 | exact L6]]. intros k Hk Q. apply put_names in Q. destruct Q as [->|Q]; [auto | now apply (L4 k)].
        - intros k s Hk. apply put_in in Hk. destruct Hk as [Hk|Hk]; [injection Hk as -> ->; exact IH | now apply (Wsub k)]. }
      destruct (get h gr) as [sub|] eqn:Eg.
      * apply Hput; [destruct (wf2_inv _ _ _ _ W) as [_ Ws]; apply (Ws h); now apply get_in|]. intro Q. apply (L4 _ Q). apply get_in in Eg. apply in_map_iff. now exists (h, sub).
      * destruct (has h d) eqn:Eh; [exact W1|]. apply Hput; [apply wf2_empty | now apply has_in].
  - destruct is_attr.
    + destruct (has t a) eqn:E; [exact W1|]. apply wf2_intro; [|exact Wsub]. cbn. split; [now apply put_nodup|]. repeat (split; [assumption|]). split; [|exact L6].
      intros k i Hk. apply put_in in Hk. destruct Hk as [Hk|Hk]; [injection Hk as -> ->; lia | now apply (L5 k)].
    + destruct (has t d) eqn:E1; [exact W1|]. destruct (has t gr) eqn:E2; [exact W1|]. apply wf2_intro; [|exact Wsub]. cbn. split; [exact L1|]. split; [now apply put_nodup|]. split; [exact L3|].
      split; [intros k Hk; apply put_names in Hk; destruct Hk as [->|Hk]; [now apply has_in | now apply L4]|]. split; [exact L5|].
      intros k i at_ Hk. apply put_in in Hk. destruct Hk as [Hk|Hk]; [|now apply (L6 k)]. injection Hk as -> -> ->. split; [lia|]. split; [constructor | intros k' j []].
Qed.
Definition tree_ok (f : file) : Prop := wf2 (length (f_blocks f)) (f_tree f).
Section Runs.
  Variable little : bool.
  Variable content : list Z.
  Lemma ok_same f f' : f_tree f' = f_tree f -> (length (f_blocks f) <= length (f_blocks f'))%nat -> tree_ok f -> tree_ok f'.
  Proof. unfold tree_ok. intros -> H W. now apply (wf2_le (length (f_blocks f))). Qed.
  Lemma ras_ok d shape f : f_tree (fst (read_and_skip little content d shape f)) = f_tree f /\ (length (f_blocks f) <= length (f_blocks (fst (read_and_skip little content d shape f))))%nat.
  Proof. unfold read_and_skip. destruct (getitem _ _ _ _); cbn [fst push f_tree f_blocks]; [rewrite app_length; cbn; split; [reflexivity | lia] | split; [reflexivity | lia]]. Qed.
  Lemma se_ok e f : f_tree (fst (set_endian e f)) = f_tree f /\ length (f_blocks (fst (set_endian e f))) = length (f_blocks f).
  Proof. unfold set_endian. destruct (negb _); cbn; [auto|]. now rewrite map_length. Qed.
  Lemma tog_ok f : f_tree (fst (toggle_byteswap little f)) = f_tree f /\ length (f_blocks (fst (toggle_byteswap little f))) = length (f_blocks f).
  Proof. unfold toggle_byteswap, enable_byteswap. destruct (f_endian f); try (cbn; auto; fail). apply se_ok. Qed.
  Lemma run_op_ok f o : tree_ok f -> tree_ok (run_op little content f o).
  Proof.
    intro W. destruct o as [name d shape is_attr|n|d shape|e|s| |a|]; cbn [run_op].
    - unfold f_add. pose proof (wf2_add (fuel_for name) (f_tree f) name (length (f_blocks f)) is_attr W) as W2. pose proof (add_error (fuel_for name) (f_tree f) name (length (f_blocks f)) is_attr) as Q.
      destruct (add_block _ _ _ _ _) as [g [b|e]]; cbn [fst snd] in *.
      + unfold tree_ok. cbn [push set_tree f_tree f_blocks]. rewrite app_length. cbn. now replace (length (f_blocks f) + 1)%nat with (S (length (f_blocks f))) by lia.
      + destruct (Q e) as [-> _]; [unfold fuel_for; lia | reflexivity|]. exact W.
    - apply (ok_same f); [reflexivity | apply le_n | exact W].
    - destruct (ras_ok d shape f) as [E1 E2]. now apply (ok_same f).
    - destruct (se_ok e f) as [E1 E2]. apply (ok_same f); [exact E1 | rewrite E2; apply le_n | exact W].
    - unfold enable_byteswap. destruct (se_ok (swap_endian little s) f) as [E1 E2]. apply (ok_same f); [exact E1 | rewrite E2; apply le_n | exact W].
    - destruct (tog_ok f) as [E1 E2]. apply (ok_same f); [exact E1 | rewrite E2; apply le_n | exact W].
    - unfold start_fortran_record. destruct (f_rec f); [exact W|]. destruct (ras_ok int32_t [] f) as [E1 E2]. destruct (read_and_skip _ _ _ _ f) as [f1 [x|x]]; cbn [fst] in *; now apply (ok_same f).
    - unfold end_fortran_record. destruct (f_rec f) as [[[i st] au]|]; [|exact W]. destruct (ras_ok int32_t [] f) as [E1 E2]. destruct (read_and_skip _ _ _ _ f) as [f1 [x|x]]; cbn [fst] in *; [|now apply (ok_same f)].
      assert (tree_ok f1) as W1 by now apply (ok_same f). destruct (negb (i =? int32_of little x)); [exact W1|]. destruct (au && (65535 <? f_off f - st)); [exact W1|]. cbv zeta.
      assert (forall b : bool, tree_ok (if b then fst (toggle_byteswap little f1) else f1)) as Wt by (intros [|]; [destruct (tog_ok f1) as [T1 T2]; apply (ok_same f1); [exact T1 | rewrite T2; apply le_n | exact W1] | exact W1]).
      match goal with |- context [if ?b then fst (toggle_byteswap little f1) else f1] => specialize (Wt b); set (f2 := if b then fst (toggle_byteswap little f1) else f1) in * end.
      match goal with |- tree_ok (fst (if ?c then _ else _)) => destruct c end; [exact Wt|]. apply (ok_same f2); [reflexivity | apply le_n | exact Wt].
  Qed.
  Lemma run_ok ops : forall f, tree_ok f -> tree_ok (run little content ops f).
  Proof. induction ops as [|o ops IH]; intros f W; [exact W|]. apply IH. now apply run_op_ok. Qed.
  Lemma new_ok : tree_ok new_file. Proof. apply wf2_empty. Qed.
End Runs.

(** *** what is written *)
Section Write.
  Variable little : bool.
  Variable content : list Z.
  Variable f : file.
  Variable fits : arr -> bool.
  Variable gzip : Z.
  Notation wgroup := (write_group little content (f_blocks f) fits gzip).
  Notation wdset := (write_dset little content (f_blocks f) fits gzip).
  Notation wdsets := (write_dsets little content (f_blocks f) fits gzip).
  Notation cattrs := (copy_attrs little content (f_blocks f) fits).
  Notation holdsf := (holds little content f).
  Notation same := (same_attrs little content f).
  Fixpoint write_groups (groups : list (str * group)) (members : list (str * h5)) {struct groups} : res (list (str * h5)) :=
    match groups with
    | [] => Ok members
    | (name, sub) :: groups' =>
      do _ <- link name members;
      do attrs <- cattrs (match sub with Group a _ _ => a end) [];
      do inner <- wgroup sub [];
      write_groups groups' (members ++ [(name, HGroup attrs inner)])
    end.
  Lemma write_group_eq a d gr mem : wgroup (Group a d gr) mem = (do m <- wdsets d mem; write_groups gr m).
  Proof.
    cbn [write_group]. destruct (wdsets d mem) as [m|e]; [|reflexivity]. cbn [bind]. revert m. induction gr as [|[n sub] gr IH]; intro m; [reflexivity|].
    cbn [write_groups]. destruct (link n m) as [u|e]; [|reflexivity]. cbn [bind]. destruct (cattrs _ []) as [at_|e]; [|reflexivity]. cbn [bind]. destruct (wgroup sub []) as [inner|e]; [|reflexivity]. cbn [bind]. apply IH.
  Qed.
  Lemma read_holds id v : read_block little content (f_blocks f) id = Ok v -> holdsf id v.
  Proof. unfold read_block. destruct (nth_error (f_blocks f) id) as [b|] eqn:E; [|discriminate]. destruct (getitem _ _ b None) as [items|] eqn:Eg; [|discriminate]. intro H. injection H as <-. exists b. cbn. auto. Qed.
  Lemma copy_same src : forall attrs dst, NoDup (map fst src) -> cattrs src attrs = Ok dst ->
    forall n, match get n src with Some id => exists a, get n dst = Some a /\ holdsf id a | None => get n dst = get n attrs end.
  Proof.
    induction src as [|[k id] src IH]; intros attrs dst N H n; cbn [copy_attrs] in H.
    - injection H as <-. reflexivity.
    - inversion N as [|? ? N1 N2]; subst. destruct (read_block _ _ _ id) as [v|e] eqn:Er; [|discriminate]. cbn [bind] in H. unfold set_attr in H. destruct (check (negb (str_eqb k [])) EValue); [|discriminate]. cbn [bind] in H.
      destruct (check (fits v) ERuntime); [|discriminate]. cbn [bind] in H. specialize (IH _ _ N2 H n). cbn [get]. destruct (str_eqb n k) eqn:E.
      + apply str_eqb_eq in E. subst n. apply get_none in N1. rewrite N1 in IH. rewrite get_put, str_eqb_refl in IH. exists v. split; [exact IH | now apply read_holds].
      + destruct (get n src); [exact IH|]. now rewrite get_put, E in IH.
  Qed.
  Lemma copy_same_attrs src dst : NoDup (map fst src) -> cattrs src [] = Ok dst -> same src dst.
  Proof. intros N H n. pose proof (copy_same src [] dst N H n) as Q. destruct (get n src); [destruct Q as (a & -> & Q); exact Q | now rewrite Q]. Qed.

  Definition repd (x : str * (nat * list (str * nat))) (y : str * h5) : Prop :=
    fst x = fst y /\ exists data attrs chunks, snd y = HDset data attrs chunks /\ holdsf (fst (snd x)) data /\ cattrs (snd (snd x)) [] = Ok attrs /\
      (a_shape data <> [] -> chunks = chunks_of gzip (a_shape data) /\ storable gzip (a_dtype data) chunks = Ok tt).
  Definition repg (x : str * group) (y : str * h5) : Prop :=
    fst x = fst y /\ exists attrs inner, snd y = HGroup attrs inner /\ cattrs (match snd x with Group a _ _ => a end) [] = Ok attrs /\ wgroup (snd x) [] = Ok inner.
  Lemma link_ok {A} n mem (k : unit -> res A) r : (do u <- link n mem; k u) = Ok r -> n <> [] /\ n <> ["."%char] /\ ~ In n (map fst mem) /\ k tt = Ok r.
  Proof.
    unfold link. destruct (negb (str_eqb n [] || str_eqb n ["."%char])) eqn:E; [|discriminate]. cbn [check bind]. destruct (negb (has n mem)) eqn:E2; [|discriminate]. cbn [check bind]. intro H.
    apply negb_true_iff, orb_false_iff in E. destruct E as [Ea Eb]. apply negb_true_iff in E2. apply has_in in E2. repeat split; try assumption; intros ->; rewrite str_eqb_refl in *; discriminate.
  Qed.
  (** names of [new] are good, differ and are not in [mem] *)
  Definition fresh (mem new : list (str * h5)) : Prop := NoDup (map fst new) /\ (forall n, In n (map fst new) -> ~ In n (map fst mem) /\ n <> [] /\ n <> ["."%char]).
  Lemma fresh_cons mem x new : ~ In (fst x) (map fst mem) -> fst x <> [] -> fst x <> ["."%char] -> fresh (mem ++ [x]) new -> fresh mem (x :: new).
  Proof.
    intros H1 H2 H3 [N F]. split.
    - cbn. constructor; [|exact N]. intro Q. destruct (F _ Q) as [A _]. apply A. rewrite map_app, in_app_iff. right. now left.
    - intros n [<-|Q]; [auto|]. destruct (F _ Q) as (A & B & C). split; [|auto]. intro Z. apply A. rewrite map_app, in_app_iff. now left.
  Qed.
  Lemma wdsets_ok d : forall mem mem', wdsets d mem = Ok mem' -> exists new, mem' = mem ++ new /\ Forall2 repd d new /\ fresh mem new.
  Proof.
    induction d as [|[n [id at_]] d IH]; intros mem mem' H; cbn [write_dsets] in H.
    - injection H as <-. exists []. rewrite app_nil_r. split; [reflexivity|]. split; [constructor|]. split; [constructor | intros n []].
    - destruct (wdset n id at_ mem) as [m|e] eqn:E; [|discriminate]. cbn [bind] in H. unfold write_dset in E. destruct (read_block _ _ _ id) as [data|] eqn:Er; [|discriminate]. cbn [bind] in E.
      destruct (match a_shape data with [] => Ok None | _ => _ end) as [ch|] eqn:Ec; [|discriminate]. cbn [bind] in E. apply link_ok in E. destruct E as (L1 & L2 & L3 & E). destruct (cattrs at_ []) as [attrs|] eqn:Ea; [|discriminate]. injection E as <-.
      destruct (IH _ _ H) as (new & -> & R & F). exists ((n, HDset data attrs ch) :: new). split; [now rewrite <- app_assoc|]. split.
      + constructor; [|exact R]. split; [reflexivity|]. exists data, attrs, ch. split; [reflexivity|]. split; [now apply read_holds|]. split; [exact Ea|]. intro Hs. destruct (a_shape data) as [|s0 ss]; [congruence|]. cbv zeta in Ec.
        destruct (storable gzip (a_dtype data) (chunks_of gzip (s0 :: ss))) as [[]|] eqn:Es; [|discriminate]. injection Ec as <-. auto.
      + now apply fresh_cons.
  Qed.
  Lemma wgroups_ok gr : forall mem mem', write_groups gr mem = Ok mem' -> exists new, mem' = mem ++ new /\ Forall2 repg gr new /\ fresh mem new.
  Proof.
    induction gr as [|[n sub] gr IH]; intros mem mem' H; cbn [write_groups] in H.
    - injection H as <-. exists []. rewrite app_nil_r. split; [reflexivity|]. split; [constructor|]. split; [constructor | intros n []].
    - apply link_ok in H. destruct H as (L1 & L2 & L3 & H). destruct (cattrs _ []) as [attrs|] eqn:Ea; [|discriminate]. cbn [bind] in H. destruct (wgroup sub []) as [inner|] eqn:Ei; [|discriminate]. cbn [bind] in H.
      destruct (IH _ _ H) as (new & -> & R & F). exists ((n, HGroup attrs inner) :: new). split; [now rewrite <- app_assoc|]. split; [|now apply fresh_cons].
      constructor; [|exact R]. split; [reflexivity|]. exists attrs, inner. auto.
  Qed.
  Lemma NoDup_app_intro_ {A} (l m : list A) : NoDup l -> NoDup m -> (forall x, In x l -> In x m -> False) -> NoDup (l ++ m).
  Proof. induction l as [|x l IH]; intros N M D; [exact M|]. inversion N; subst. cbn. constructor; [rewrite in_app_iff; intros [Q|Q]; [auto | apply (D x); [now left | exact Q]]|]. apply IH; auto. intros y Ha Hb. apply (D y); [now right | exact Hb]. Qed.
  Lemma Forall2_in_l {A B} (R : A -> B -> Prop) l l' : Forall2 R l l' -> forall x, In x l -> exists y, In y l' /\ R x y.
  Proof. intro F. induction F as [|x y l l' Hxy F IH]; intros z []; [subst; exists y; split; [now left | exact Hxy]|]. destruct (IH _ H) as (y' & H1 & H2'). exists y'. split; [now right | exact H2']. Qed.
  Lemma names2 {A B} (R : str * A -> str * B -> Prop) l l' : (forall x y, R x y -> fst x = fst y) -> Forall2 R l l' -> map fst l = map fst l'.
  Proof. intros H F. induction F; cbn; [reflexivity|]. f_equal; auto. Qed.
  Lemma wgroup_ok a d gr mem mem' : wgroup (Group a d gr) mem = Ok mem' ->
    exists dn gn, mem' = mem ++ dn ++ gn /\ Forall2 repd d dn /\ Forall2 repg gr gn /\ fresh mem (dn ++ gn).
  Proof.
    rewrite write_group_eq. destruct (wdsets d mem) as [m|] eqn:E; [|discriminate]. cbn [bind]. intro H. destruct (wdsets_ok _ _ _ E) as (dn & -> & R1 & [N1 F1]). destruct (wgroups_ok _ _ _ H) as (gn & -> & R2 & [N2 F2]).
    exists dn, gn. split; [now rewrite <- app_assoc|]. split; [exact R1|]. split; [exact R2|]. split.
    - rewrite map_app. apply NoDup_app_intro_; [exact N1 | exact N2|]. intros n H1 H2. destruct (F2 n H2) as [Q _]. apply Q. rewrite map_app, in_app_iff. auto.
    - intros n Hn. rewrite map_app, in_app_iff in Hn. destruct Hn as [Hn|Hn]; [now apply F1|]. destruct (F2 n Hn) as [Q Q2]. split; [|exact Q2]. intro Z. apply Q. rewrite map_app, in_app_iff. auto.
  Qed.
  Lemma get2 {A B} (R : str * A -> str * B -> Prop) l l' n : (forall x y, R x y -> fst x = fst y) -> Forall2 R l l' ->
    match get n l, get n l' with Some x, Some y => R (n, x) (n, y) | None, None => True | _, _ => False end.
  Proof.
    intros H F. induction F as [|[k x] [k' y] l l' Hxy F IH]; cbn; [exact I|]. pose proof (H _ _ Hxy) as E. cbn in E. subst k'. destruct (str_eqb n k) eqn:E; [|exact IH]. apply str_eqb_eq in E. now subst.
  Qed.
  Lemma repd_fst x y : repd x y -> fst x = fst y. Proof. now intros []. Qed.
  Lemma repg_fst x y : repg x y -> fst x = fst y. Proof. now intros []. Qed.
  Lemma h5_at_cons mem c cs : cs <> [] -> h5_at mem (c :: cs) = match get c mem with Some (HGroup _ m) => h5_at m cs | _ => None end.
  Proof. destruct cs; [congruence | reflexivity]. Qed.

  Definition stored (e : option entry) (x : option h5) : Prop :=
    match e with
    | Some (EDset id at_) => exists data attrs chunks, x = Some (HDset data attrs chunks) /\ holdsf id data /\ same at_ attrs
    | Some (EGroup (Group at_ _ _)) => exists attrs inner, x = Some (HGroup attrs inner) /\ same at_ attrs
    | None => x = None
    end.
  Lemma group_get a d gr mem n : local (length (f_blocks f)) (Group a d gr) -> wgroup (Group a d gr) [] = Ok mem ->
    match get n gr with
    | Some sub => get n d = None /\ exists attrs inner, get n mem = Some (HGroup attrs inner) /\ cattrs (match sub with Group a _ _ => a end) [] = Ok attrs /\ wgroup sub [] = Ok inner
    | None => match get n d with
      | Some (id, at_) => exists data attrs chunks, get n mem = Some (HDset data attrs chunks) /\ holdsf id data /\ cattrs at_ [] = Ok attrs
      | None => get n mem = None
      end
    end.
  Proof.
    intros (L1 & L2 & L3 & L4 & _) H. destruct (wgroup_ok _ _ _ _ _ H) as (dn & gn & -> & R1 & R2 & [N F]). cbn [app]. rewrite get_app.
    pose proof (get2 repd d dn n repd_fst R1) as Q1. pose proof (get2 repg gr gn n repg_fst R2) as Q2. destruct (get n gr) as [sub|] eqn:Eg.
    - assert (get n d = None) as Ed. { apply get_none. intro Q. apply (L4 _ Q). apply get_in in Eg. apply in_map_iff. now exists (n, sub). }
      rewrite Ed in *. split; [reflexivity|]. destruct (get n dn); [contradiction|]. destruct (get n gn); [|contradiction]. destruct Q2 as (_ & attrs & inner & E1 & E2 & E3). cbn in E1. subst. eauto.
    - destruct (get n d) as [[id at_]|]; destruct (get n dn); try contradiction.
      + destruct Q1 as (_ & data & attrs & ch & E1 & E2 & E3 & _). cbn in E1. subst. eauto 8.
      + now destruct (get n gn).
  Qed.
  Lemma tree_stored ks : forall g mem, ks <> [] -> wf2 (length (f_blocks f)) g -> wgroup g [] = Ok mem -> stored (find g ks) (h5_at mem ks).
  Proof.
    induction ks as [|c ks IH]; intros [a d gr] mem Hne W H; [congruence|]. rewrite find_cons_group. destruct (wf2_inv _ _ _ _ W) as [L Ws]. pose proof (group_get a d gr mem c L H) as G. destruct ks as [|c' ks].
    - cbn [h5_at]. destruct (get c gr) as [[a' d' gr']|] eqn:Eg.
      + destruct G as (_ & attrs & inner & E1 & E2 & E3). exists attrs, inner. split; [exact E1|]. apply copy_same_attrs; [|exact E2]. apply get_in in Eg. destruct (wf2_inv _ _ _ _ (Ws _ _ Eg)) as [(Q & _) _]. exact Q.
      + destruct (get c d) as [[id at_]|] eqn:Ed; [|exact G]. destruct G as (data & attrs & ch & E1 & E2 & E3). exists data, attrs, ch. split; [exact E1|]. split; [exact E2|]. apply copy_same_attrs; [|exact E3].
        apply get_in in Ed. destruct L as (_ & _ & _ & _ & _ & L6). now destruct (L6 _ _ _ Ed) as (_ & Q & _).
    - rewrite h5_at_cons by discriminate. destruct (get c gr) as [sub|] eqn:Eg.
      + destruct G as (_ & attrs & inner & -> & _ & E3). apply IH; [discriminate | | exact E3]. apply (Ws c). now apply get_in.
      + destruct (get c d) as [[id at_]|]; [destruct G as (data & attrs & ch & -> & _) | rewrite G]; reflexivity.
  Qed.
  (** a group which is written after other things *)
  Lemma wdsets_mono d : forall mem extra mem', wdsets d (extra ++ mem) = Ok mem' -> exists new, mem' = (extra ++ mem) ++ new /\ wdsets d mem = Ok (mem ++ new).
  Proof.
    induction d as [|[n [id at_]] d IH]; intros mem extra mem' H; cbn [write_dsets] in *.
    - injection H as <-. exists []. now rewrite !app_nil_r.
    - destruct (wdset n id at_ (extra ++ mem)) as [m|] eqn:E; [|discriminate]. cbn [bind] in H. unfold write_dset in *. destruct (read_block _ _ _ id) as [data|]; [|discriminate]. cbn [bind] in *.
      destruct (match a_shape data with [] => Ok None | _ => _ end) as [ch|]; [|discriminate]. cbn [bind] in *. apply link_ok in E. destruct E as (L1 & L2 & L3 & E). destruct (cattrs at_ []) as [attrs|]; [|discriminate]. cbn [bind] in *. injection E as <-.
      assert (link n mem = Ok tt) as ->.
      { unfold link. rewrite !str_eqb_neq by assumption. cbn [orb negb check bind]. assert (has n mem = false) as ->; [|reflexivity]. apply has_in. intro Q. apply L3. rewrite map_app, in_app_iff. auto. }
      cbn [bind]. rewrite <- app_assoc in H. destruct (IH _ _ _ H) as (new & -> & E2). exists ((n, HDset data attrs ch) :: new). rewrite E2, <- !app_assoc. auto.
  Qed.
  Lemma wgroups_mono gr : forall mem extra mem', write_groups gr (extra ++ mem) = Ok mem' -> exists new, mem' = (extra ++ mem) ++ new /\ write_groups gr mem = Ok (mem ++ new).
  Proof.
    induction gr as [|[n sub] gr IH]; intros mem extra mem' H; cbn [write_groups] in *.
    - injection H as <-. exists []. now rewrite !app_nil_r.
    - apply link_ok in H. destruct H as (L1 & L2 & L3 & H). destruct (cattrs _ []) as [attrs|]; [|discriminate]. cbn [bind] in H. destruct (wgroup sub []) as [inner|]; [|discriminate]. cbn [bind] in H.
      assert (link n mem = Ok tt) as ->.
      { unfold link. rewrite !str_eqb_neq by assumption. cbn [orb negb check bind]. assert (has n mem = false) as ->; [|reflexivity]. apply has_in. intro Q. apply L3. rewrite map_app, in_app_iff. auto. }
      cbn [bind]. rewrite <- app_assoc in H. destruct (IH _ _ _ H) as (new & -> & E2). exists ((n, HGroup attrs inner) :: new). rewrite E2, <- !app_assoc. auto.
  Qed.
  Lemma wgroup_mono g mem mem' : wgroup g mem = Ok mem' -> exists new, mem' = mem ++ new /\ wgroup g [] = Ok new.
  Proof.
    destruct g as [a d gr]. rewrite !write_group_eq. destruct (wdsets d mem) as [m|] eqn:E; [|discriminate]. cbn [bind]. intro H. rewrite <- (app_nil_r mem) in E. destruct (wdsets_mono _ _ _ _ E) as (dn & -> & ->). cbn [app bind]. rewrite app_nil_r in H.
    destruct (wgroups_mono _ _ _ _ H) as (gn & -> & ->). exists (dn ++ gn). now rewrite app_assoc.
  Qed.
  (** *** when it succeeds *)
  Lemma holds_read id v : holdsf id v -> read_block little content (f_blocks f) id = Ok v.
  Proof. intros (b & E1 & E2 & E3 & E4). unfold read_block. rewrite E1, E4. cbn. destruct v as [dt sh it]. cbn in *. now subst. Qed.
  Lemma copy_iff src : forall attrs, (exists dst, cattrs src attrs = Ok dst) <-> attrs_writable little content f fits src.
  Proof.
    induction src as [|[k id] src IH]; intro attrs; cbn [copy_attrs].
    - split; [intros _ k id [] | eauto].
    - split.
      + intros (dst & H). destruct (read_block _ _ _ id) as [v|] eqn:Er; [|discriminate]. cbn [bind] in H. unfold set_attr in H. destruct (str_eqb k []) eqn:Ek; [discriminate|]. cbn [negb check bind] in H.
        destruct (fits v) eqn:Ef; [|discriminate]. cbn [check bind] in H. assert (attrs_writable little content f fits src) as W by (apply (IH (put k v attrs)); eauto). intros k' id' [E|E]; [|now apply W]. injection E as <- <-.
        split; [intros ->; rewrite str_eqb_refl in Ek; discriminate|]. exists v. split; [now apply read_holds | exact Ef].
      + intro W. destruct (W k id (or_introl eq_refl)) as (Hk & v & Hv & Hf). rewrite (holds_read _ _ Hv). cbn [bind]. unfold set_attr. rewrite (str_eqb_neq _ _ Hk), Hf. cbn [negb check bind]. apply IH. intros k' id' Q. apply W. now right.
  Qed.
  Lemma chunks_min shape : map (fun s => if s <? chunk_size then s else chunk_size) shape = map (Z.min 81920) shape.
  Proof. apply map_ext. intro s. unfold chunk_size. destruct (s <? 8192 * 10) eqn:E; lia. Qed.
  Lemma store_iff dt shape : shape <> [] -> (storable gzip dt (chunks_of gzip shape) = Ok tt <-> compressible gzip dt shape).
  Proof.
    intro Hs. unfold chunks_of, storable, compressible. destruct (0 <? gzip) eqn:E; [|split; [intros _; left; lia | reflexivity]]. rewrite chunks_min.
    assert (forallb (fun c => 0 <? c) (map (Z.min 81920) shape) = true <-> Forall (fun s => 0 < s) shape) as Q.
    { rewrite forallb_forall, Forall_forall. split; [intros H x Hx; specialize (H (Z.min 81920 x) (in_map _ _ _ Hx)); cbn beta in H; lia | intros H y Hy; apply in_map_iff in Hy; destruct Hy as (x & <- & Hx); specialize (H x Hx); lia]. }
    destruct (gzip <=? 9) eqn:E9; cbn [check bind].
    - destruct (forallb _ _) eqn:Ef; cbn [check bind].
      + destruct (_ <? 2 ^ 32) eqn:El; cbn [check]; split; intro H; try discriminate; try reflexivity.
        * right. right. split; [lia|]. split; [now apply Q | lia].
        * exfalso. destruct H as [H|[H|(_ & _ & H)]]; [lia | congruence | lia].
      + split; [discriminate|]. intros [H|[H|(_ & H & _)]]; [lia | congruence|]. apply Q in H. congruence.
    - split; [discriminate|]. intros [H|[H|(H & _ & _)]]; [lia | congruence | lia].
  Qed.
  Lemma group_ind2 (P : group -> Prop) : (forall a d gr, (forall n sub, In (n, sub) gr -> P sub) -> P (Group a d gr)) -> forall g, P g.
  Proof.
    intro H. fix IH 1. intros [a d gr]. apply H. induction gr as [|[n sub] gr IHgr]; intros n' sub' [].
    - injection H0 as <- <-. apply IH.
    - exact (IHgr n' sub' H0).
  Qed.
  Lemma link_free n mem : name_ok n -> ~ In n (map fst mem) -> link n mem = Ok tt.
  Proof. intros [H1 H2] H3. unfold link. rewrite !str_eqb_neq by assumption. cbn [orb negb check bind]. apply has_in in H3. now rewrite H3. Qed.
  Lemma wdsets_succeed d : forall mem, NoDup (map fst d) -> (forall n, In n (map fst d) -> ~ In n (map fst mem)) ->
    (forall n id at_, In (n, (id, at_)) d -> name_ok n /\ attrs_writable little content f fits at_ /\ exists v, holdsf id v /\ compressible gzip (a_dtype v) (a_shape v)) ->
    exists mem', wdsets d mem = Ok mem' /\ map fst mem' = map fst mem ++ map fst d.
  Proof.
    induction d as [|[n [id at_]] d IH]; intros mem N D W; cbn [write_dsets].
    - exists mem. now rewrite app_nil_r.
    - inversion N as [|? ? N1 N2]; subst. destruct (W n id at_ (or_introl eq_refl)) as (Hn & Ha & v & Hv & Hc). unfold write_dset. rewrite (holds_read _ _ Hv). cbn [bind].
      assert (exists ch, match a_shape v with [] => Ok None | _ => do _ <- storable gzip (a_dtype v) (chunks_of gzip (a_shape v)); Ok (chunks_of gzip (a_shape v)) end = Ok ch) as (ch & Ec).
      { destruct (a_shape v) as [|s ss] eqn:Es; [eauto|]. assert (storable gzip (a_dtype v) (chunks_of gzip (s :: ss)) = Ok tt) as -> by (apply store_iff; [discriminate | exact Hc]). cbn [bind]. eauto. }
      cbv zeta. rewrite Ec. cbn [bind]. rewrite (link_free n mem Hn) by (apply D; now left). cbn [bind]. destruct (proj2 (copy_iff at_ []) Ha) as (attrs & ->). cbn [bind].
      destruct (IH (mem ++ [(n, HDset v attrs ch)]) N2) as (mem' & E & En).
      + intros k Hk Q. rewrite map_app, in_app_iff in Q. destruct Q as [Q|[<-|[]]]; [apply (D k); [now right | exact Q] | contradiction].
      + intros k i t Hk. apply (W k i t). now right.
      + exists mem'. split; [exact E|]. rewrite En, map_app, <- app_assoc. reflexivity.
  Qed.
  Lemma wgroups_succeed gr : forall mem, NoDup (map fst gr) -> (forall n, In n (map fst gr) -> ~ In n (map fst mem)) ->
    (forall n a d g', In (n, Group a d g') gr -> name_ok n /\ attrs_writable little content f fits a) -> (forall n sub, In (n, sub) gr -> exists inner, wgroup sub [] = Ok inner) ->
    exists mem', write_groups gr mem = Ok mem'.
  Proof.
    induction gr as [|[n [a d g']] gr IH]; intros mem N D W S; cbn [write_groups]; [eauto|]. inversion N as [|? ? N1 N2]; subst. destruct (W n a d g' (or_introl eq_refl)) as (Hn & Ha).
    rewrite (link_free n mem Hn) by (apply D; now left). cbn [bind]. destruct (proj2 (copy_iff a []) Ha) as (attrs & ->). cbn [bind]. destruct (S n _ (or_introl eq_refl)) as (inner & ->). cbn [bind]. apply IH; [exact N2 | | |].
    - intros k Hk Q. rewrite map_app, in_app_iff in Q. destruct Q as [Q|[<-|[]]]; [apply (D k); [now right | exact Q] | contradiction].
    - intros k a1 d1 g1 Hk. apply (W k a1 d1 g1). now right.
    - intros k sub Hk. apply (S k). now right.
  Qed.
  Notation ready := (writable little content f fits gzip).
  Lemma ready_inv a d gr : ready (Group a d gr) -> forall n sub, In (n, sub) gr -> ready sub.
  Proof. intros W n sub Hin a' d' gr' H. apply (W a' d' gr'). econstructor; eauto. Qed.
  Lemma wgroup_succeeds mem : forall g, wf2 (length (f_blocks f)) g -> ready g -> (forall n, match g with Group _ d gr => In n (map fst d) \/ In n (map fst gr) end -> ~ In n (map fst mem)) -> exists mem', wgroup g mem = Ok mem'.
  Proof.
    intro g. revert mem. induction g as [a d gr IH] using group_ind2. intros mem Wf W D. destruct (wf2_inv _ _ _ _ Wf) as [(L1 & L2 & L3 & L4 & _) Ws]. rewrite write_group_eq. destruct (W a d gr (inside_self _)) as [W1 W2].
    destruct (wdsets_succeed d mem L2 (fun n Hn => D n (or_introl Hn)) W1) as (m & -> & Em). cbn [bind]. apply wgroups_succeed; [exact L3 | | exact W2|].
    - intros n Hn. rewrite Em, in_app_iff. intros [Q|Q]; [exact (D n (or_intror Hn) Q) | exact (L4 n Q Hn)].
    - intros n sub Hin. apply (IH n sub Hin); [now apply (Ws n) | now apply (ready_inv a d gr W n) | intros k _ []].
  Qed.
  Lemma wgroup_ready : forall g mem mem', wgroup g mem = Ok mem' -> ready g.
  Proof.
    intro g. induction g as [a d gr IH] using group_ind2. intros mem mem' H. destruct (wgroup_ok _ _ _ _ _ H) as (dn & gn & _ & R1 & R2 & [_ F]).
    assert (forall n sub, In (n, sub) gr -> exists y, In (n, y) gn /\ repg (n, sub) (n, y)) as Hg.
    { intros n sub Hin. destruct (Forall2_in_l _ _ _ R2 _ Hin) as ([n' y] & Hy & Q). pose proof (repg_fst _ _ Q) as E. cbn in E. subst n'. eauto. }
    intros a' d' gr' Hi. inversion Hi as [g0|a0 d0 g0 n g1 g2 Hin Hi2]; subst.
    - split.
      + intros n id at_ Hin. destruct (Forall2_in_l _ _ _ R1 _ Hin) as ([n' y] & Hy & Q). pose proof (repd_fst _ _ Q) as E. cbn in E. subst n'. destruct Q as (_ & data & attrs & ch & E1 & E2 & E3 & E4). cbn in *.
        destruct (F n) as (_ & G1 & G2); [apply in_map_iff; exists (n, y); split; [reflexivity | apply in_app_iff; auto]|]. split; [now split|]. split; [apply (copy_iff at_ []); eauto|]. exists data. split; [exact E2|].
        destruct (a_shape data) as [|s ss] eqn:Es; [right; now left|]. destruct E4 as [-> E4]; [discriminate|]. apply store_iff; [discriminate | exact E4].
      + intros n a1 d1 g1 Hin. destruct (Hg _ _ Hin) as (y & Hy & (_ & attrs & inner & E1 & E2 & E3)). destruct (F n) as (_ & G1 & G2); [apply in_map_iff; exists (n, y); split; [reflexivity | apply in_app_iff; auto]|]. split; [now split|].
        apply (copy_iff a1 []). eauto.
    - destruct (Hg _ _ Hin) as (y & Hy & (_ & attrs & inner & E1 & E2 & E3)). exact (IH _ _ Hin _ _ E3 _ _ _ Hi2).
  Qed.
End Write.

(** *** the whole file *)
Lemma h5_at_app mem new ks : ks <> [] -> (forall n, In n (map fst new) -> ~ In n (map fst mem)) ->
  h5_at (mem ++ new) ks = match get (hd [] ks) mem with Some _ => h5_at mem ks | None => h5_at new ks end.
Proof. intros Hne _. destruct ks as [|c [|c' ks]]; [congruence | |]; cbn [h5_at hd]; rewrite get_app; destruct (get c mem); reflexivity. Qed.
Lemma write_iff little content fits gzip ops : let f := run little content ops new_file in
  (exists out, write_hdf5 little content fits gzip MNew None f = Ok out) <-> writable little content f fits gzip (f_tree f).
Proof.
  cbv zeta. set (f := run little content ops new_file). assert (tree_ok f) as W by (apply run_ok, new_ok). unfold write_hdf5. cbn [open_h5 bind]. split.
  - intros (out & H). destruct (write_group _ _ _ _ _ _ _) as [m|] eqn:E; [|discriminate]. now apply (wgroup_ready _ _ _ _ _ _ _ _ E).
  - intro R. destruct (wgroup_succeeds little content f fits gzip [] (f_tree f) W R) as (m & ->); [|cbn; eauto]. destruct (f_tree f). intros n _ [].
Qed.
Lemma write_tree little content fits gzip m existing ops attrs mem : let f := run little content ops new_file in
  write_hdf5 little content fits gzip m existing f = Ok (attrs, mem) ->
  exists mem0, open_h5 m existing = Ok (attrs, mem0) /\ forall key,
    match g_getitem (f_tree f) key with
    | Ok (EDset id at_) => h5_at mem0 (keys key) = None /\
        exists data attrs' chunks, h5_at mem (keys key) = Some (HDset data attrs' chunks) /\ holds little content f id data /\ same_attrs little content f at_ attrs'
    | Ok (EGroup (Group at_ _ _)) => h5_at mem0 (keys key) = None /\
        exists attrs' inner, h5_at mem (keys key) = Some (HGroup attrs' inner) /\ same_attrs little content f at_ attrs'
    | Err _ => h5_at mem (keys key) = h5_at mem0 (keys key)
    end.
Proof.
  cbv zeta. set (f := run little content ops new_file). assert (tree_ok f) as W by (apply run_ok, new_ok). unfold write_hdf5. destruct (open_h5 m existing) as [[at0 mem0]|]; [|discriminate]. cbn [bind].
  destruct (write_group _ _ _ _ _ _ _) as [m'|] eqn:E; [|discriminate]. cbn [bind]. intro H. injection H as <- <-. exists mem0. split; [reflexivity|]. intro key. rewrite getitem_find. pose proof (keys_ne key) as Hne. set (ks := keys key) in *.
  destruct (wgroup_mono _ _ _ _ _ _ _ _ E) as (new & -> & En). pose proof (tree_stored little content f fits gzip ks (f_tree f) new Hne W En) as S. unfold tree_ok in W. destruct (f_tree f) as [a d gr] eqn:Et.
  destruct (wgroup_ok _ _ _ _ _ _ _ _ _ _ E) as (dn & gn & E1 & R1 & R2 & [N F]). apply app_inv_head in E1. subst new. rewrite h5_at_app by (try exact Hne; intros n Hn; now apply F).
  destruct (get (hd [] ks) mem0) as [x|] eqn:E0.
  - assert (get (hd [] ks) (dn ++ gn) = None) as Z. { apply get_none. intro Q. destruct (F _ Q) as [Q2 _]. apply Q2. apply get_in in E0. apply in_map_iff. now exists (hd [] ks, x). }
    assert (h5_at (dn ++ gn) ks = None) as Z2 by (destruct ks as [|c [|c' ks]]; [congruence | exact Z | cbn [h5_at]; cbn [hd] in Z; now rewrite Z]). rewrite Z2 in S.
    destruct (find (Group a d gr) ks) as [[id at_|[a' d' gr']]|]; cbn [stored] in S; [destruct S as (? & ? & ? & ? & _); discriminate | destruct S as (? & ? & ? & _); discriminate | reflexivity].
  - assert (h5_at mem0 ks = None) as Z by (destruct ks as [|c [|c' ks]]; [congruence | exact E0 | cbn [h5_at]; cbn [hd] in E0; now rewrite E0]).
    destruct (find (Group a d gr) ks) as [[id at_|[a' d' gr']]|]; cbn [stored] in S; [auto | auto | congruence].
Qed.
Lemma write_exists little content fits gzip existing ops : write_hdf5 little content fits gzip MNew (Some existing) (run little content ops new_file) = Err EIO.
Proof. reflexivity. Qed.
Lemma write_empty little content fits gzip ops key id at_ b m existing : let f := run little content ops new_file in
  0 < gzip -> g_getitem (f_tree f) key = Ok (EDset id at_) -> nth_error (f_blocks f) id = Some b -> In 0 (b_shape b) -> exists e, write_hdf5 little content fits gzip m existing f = Err e.
Proof.
  cbv zeta. set (f := run little content ops new_file). intros Hg Hk Hb Hs. destruct (write_hdf5 _ _ _ _ _ _ f) as [[attrs mem]|e] eqn:E; [|eauto]. exfalso. unfold write_hdf5 in E. destruct (open_h5 m existing) as [[at0 mem0]|]; [|discriminate]. cbn [bind] in E.
  destruct (write_group _ _ _ _ _ _ _) as [m'|] eqn:Ew; [|discriminate]. pose proof (wgroup_ready _ _ _ _ _ _ _ _ Ew) as R. rewrite getitem_find in Hk. destruct (find (f_tree f) (keys key)) as [en|] eqn:Ef; [|discriminate]. injection Hk as ->.
  assert (forall ks g, find g ks = Some (EDset id at_) -> exists a d gr n, inside g (Group a d gr) /\ In (n, (id, at_)) d) as Hi.
  { induction ks as [|c ks IH]; intros [a d gr] Q; [discriminate|]. rewrite find_cons_group in Q. destruct ks as [|c' ks].
    - destruct (get c gr); [discriminate|]. destruct (get c d) as [[i t]|] eqn:Eg; [|discriminate]. injection Q as -> ->. exists a, d, gr, c. split; [constructor | now apply get_in].
    - destruct (get c gr) as [sub|] eqn:Eg; [|discriminate]. destruct (IH _ Q) as (a1 & d1 & g1 & n & I1 & I2). exists a1, d1, g1, n. split; [|exact I2]. econstructor; [apply get_in; exact Eg | exact I1]. }
  destruct (Hi _ _ Ef) as (a & d & gr & n & I1 & I2). destruct (R _ _ _ I1) as [R1 _]. destruct (R1 _ _ _ I2) as (_ & _ & v & (b' & B1 & B2 & B3 & B4) & C). rewrite Hb in B1. injection B1 as <-. rewrite B3 in C.
  destruct C as [C|[C|(_ & C & _)]]; [lia | rewrite C in Hs; contradiction|]. rewrite Forall_forall in C. specialize (C 0 Hs). lia.
Qed.
