(** The constructors of the classes with Fortran records: Gadget-4 catalogues and
    L-Gadget2 snapshots; the readers of merger trees. *)
From Coq Require Import Ascii String.
From Verif.Base Require Import Prelude ListLemmas Order.
From Verif.Binary Require Import BinModel NameProofs LayoutProofs EndianProofs FortranProofs UsedProofs TreeProofs.
From Verif.Formats Require Import ReaderModel FileSpec ReaderProofs RunProofs CatSpec CatProofs.
From Coq Require Import ZifyBool ZifyNat.
Local Open Scope Z_scope.

Definition item := (str * Z * list Z * list Z)%type. (* name, size, shape, values *)
Definition as_piece (a : bool) (it : item) : piece := let '(n, s, sh, v) := it in Data n a s sh v.
Definition as_call (it : item) : str * dtype * list Z := let '(n, s, sh, v) := it in (n, num s, sh).
Definition it_name (it : item) : str := let '(n, s, sh, v) := it in n.
Definition add_all (a : bool) : list (str * dtype * list Z) -> prog -> prog := if a then attributes else adds.
Definition pname (p : piece) : str * bool := match p with Data n a _ _ _ => (n, a) | _ => ([], false) end.
Fixpoint items_fresh (ns : list (str * bool)) (a : bool) (l : list item) : bool :=
  match l with [] => true | it :: l' => names_fresh ns (it_name it) a && items_fresh (ns ++ [(it_name it, a)]) a l' end.
Lemma sizes_app l m : sumZ (map piece_size (l ++ m)) = sumZ (map piece_size l) + sumZ (map piece_size m).
Proof. now rewrite map_app, sumZ_app. Qed.

Section Snap.
  Variables (little lf : bool) (content post : list Z).
  Hypothesis Hne : content <> [].
  Set Default Proof Using "All".
  Local Notation inv := (inv lf content post).
  Local Notation runs := (runs little lf content post).
  Local Notation right e := (rightly little lf e).

  Definition knowsP (ps : list piece) (st : lst) : Prop := map piece_of (l_env st) = ps.
  Lemma knowsP_names ps st : knowsP ps st -> map (fun q => (e_name q, e_attr q)) (l_env st) = map pname ps.
  Proof. intros <-. rewrite map_map. reflexivity. Qed.
  Lemma runs_items a l : forall ps st k rest Q, knowsP ps st -> items_fresh (map pname ps) a l = true -> Forall piece_ok (map (as_piece a) l) ->
    (forall st', knowsP (ps ++ map (as_piece a) l) st' -> l_cur st' = l_cur st -> l_gap st' = l_gap st -> l_rec st' = l_rec st -> l_pos st' = l_pos st + sumZ (map piece_size (map (as_piece a) l)) -> runs st' k rest Q) ->
    runs st (add_all a (map as_call l) k) (map (as_piece a) l ++ rest) Q.
  Proof.
    induction l as [|it l IH]; intros ps st k rest Q K Hf Hok Hk.
    - cbn [map app]. replace (add_all a [] k) with k by (destruct a; reflexivity). apply Hk; auto; [now rewrite app_nil_r | cbn; lia].
    - destruct it as [[[n s] sh] v]. cbn [map app as_piece as_call] in *. cbn [items_fresh it_name] in Hf. apply andb_true_iff in Hf. destruct Hf as [Hf1 Hf2]. apply Forall_cons_iff in Hok. destruct Hok as [Hok1 Hok2].
      replace (add_all a ((n, num s, sh) :: map as_call l) k) with (Add n (num s) sh a (add_all a (map as_call l) k)) by (destruct a; reflexivity).
      apply (runs_add little lf content post Hne); [exact Hok1 | rewrite fresh_names, (knowsP_names ps st K); exact Hf1|].
      apply (IH (ps ++ [Data n a s sh v])).
      + unfold knowsP. cbn [got adv know l_env]. rewrite map_app. unfold knowsP in K. rewrite K. reflexivity.
      + rewrite map_app. exact Hf2.
      + exact Hok2.
      + intros st' K' H1 H2 H3 H4. apply Hk; auto; [rewrite <- app_assoc in K'; exact K'|]. rewrite H4. cbn [got adv know l_pos]. cbn [sumZ piece_size]. lia.
  Qed.
  Lemma runs_record (auto : bool) a l : forall ps st k rest Q, knowsP ps st -> items_fresh (map pname ps) a l = true -> Forall piece_ok (map (as_piece a) l) ->
    let n := sumZ (map piece_size (map (as_piece a) l)) in 0 <= n < 2 ^ 31 -> l_rec st = None ->
    (if auto then 1 <= n <= 65535 /\ l_cur st = NAT else right (l_cur st) = true) ->
    (forall st', knowsP (ps ++ map (as_piece a) l) st' -> right (l_cur st') = true -> l_gap st' = l_gap st -> l_rec st' = None -> l_pos st' = l_pos st + n + 8 -> (right (l_cur st) = true -> l_cur st' = l_cur st) -> runs st' k rest Q) ->
    runs st (Start auto (add_all a (map as_call l) (End_ k))) (record (map (as_piece a) l) ++ rest) Q.
  Proof.
    intros ps st k rest Q K Hf Hok n Hn Hr Ha Hk. unfold record. fold n. cbn [app]. apply (runs_start little lf content post Hne); [lia | exact Hr|].
    rewrite <- app_assoc. apply (runs_items a l ps); auto. cbn [opened reck adv l_cur l_gap l_rec l_pos]. fold n. intros st' K' H1 H2 H3 H4. cbn [app].
    apply (runs_end little lf content post Hne st' auto n).
    - exact Hn.
    - rewrite H3, H1. do 3 f_equal. lia.
    - rewrite H1. destruct auto; [|exact Ha]. destruct Ha as [Ha1 Ha2]. split; [lia|]. intros _. split; [lia | exact Ha2].
    - apply Hk.
      + exact K'.
      + cbn [reck turn adv l_cur]. unfold settled. rewrite H1. destruct auto; [|exact Ha]. destruct Ha as [_ ->]. unfold rightly. destruct little, lf; reflexivity.
      + exact H2.
      + reflexivity.
      + cbn [reck turn adv l_pos]. lia.
      + intro Hrt. cbn [reck turn adv l_cur]. unfold settled. rewrite H1, Hrt, andb_false_r. reflexivity.
  Qed.
  Lemma runs_records l : forall ps st k rest Q, knowsP ps st -> items_fresh (map pname ps) false l = true -> records_ok (one_each (map (as_piece false) l)) ->
    l_rec st = None -> right (l_cur st) = true ->
    (forall st', knowsP (ps ++ map (as_piece false) l) st' -> l_cur st' = l_cur st -> l_gap st' = l_gap st -> l_rec st' = None -> runs st' k rest Q) ->
    runs st (records (map as_call l) k) (one_each (map (as_piece false) l) ++ rest) Q.
  Proof.
    induction l as [|it l IH]; intros ps st k rest Q K Hf Hok Hr Hrt Hk.
    - cbn. apply Hk; auto. now rewrite app_nil_r.
    - destruct it as [[[n s] sh] v]. cbn [map as_piece as_call records one_each flat_map] in *. fold (one_each (map (as_piece false) l)) in *. cbn [items_fresh it_name] in Hf. apply andb_true_iff in Hf. destruct Hf as [Hf1 Hf2].
      destruct Hok as [Hok1 Hok2]. apply Forall_app in Hok1, Hok2. destruct Hok1 as [Hr1 Hok1], Hok2 as [Hr2 Hok2]. unfold record in Hr1, Hr2. cbn [map app] in Hr1, Hr2. apply Forall_cons_iff in Hr1, Hr2. destruct Hr1 as [Hm1 Hr1], Hr2 as [Hm2 _]. apply Forall_cons_iff in Hr1. destruct Hr1 as [Hd _]. cbn [sumZ piece_ok] in Hm1, Hm2.
      rewrite <- app_assoc.
      change (Start false (Add n (num s) sh false (End_ (records (map as_call l) k)))) with (Start false (add_all false (map as_call [(n, s, sh, v)]) (End_ (records (map as_call l) k)))).
      change [Data n false s sh v] with (map (as_piece false) [(n, s, sh, v)]).
      apply (runs_record false false [(n, s, sh, v)] ps); auto.
      + cbn [items_fresh it_name]. now rewrite Hf1.
      + repeat constructor; apply Hd.
      + cbn [map as_piece sumZ piece_size]. cbn [map sumZ piece_size piece_ok] in Hm1, Hm2. lia.
      + intros st' K' H1 H2 H3 H4 H5. apply (IH (ps ++ [Data n false s sh v])); auto.
        * rewrite map_app. exact Hf2.
        * split; assumption.
        * intros st'' K'' G1 G2 G3. apply Hk; auto; [rewrite <- app_assoc in K''; exact K'' | rewrite G1; now apply H5 | congruence].
  Qed.
  Lemma knowsP_in ps st p : knowsP ps st -> In p ps -> exists q, In q (l_env st) /\ piece_of q = p.
  Proof. intros <- H. apply in_map_iff in H. destruct H as (q & E & Hq). exists q. auto. Qed.
  Lemma runs_getP ps st name size shape vals k rest Q : knowsP ps st -> In (Data name false size shape vals) ps -> right (l_cur st) = true -> runs st (k vals) rest Q -> runs st (Get name k) rest Q.
  Proof. intros K Hin Hr Hk. destruct (knowsP_in _ _ _ K Hin) as (q & Hq & E). unfold piece_of in E. injection E as E1 E2 E3 E4 E5. rewrite <- E1. apply runs_get; auto. rewrite (right_seen little lf content post Hne) by exact Hr. now rewrite E5. Qed.
  Lemma runs_getattrP ps st grp a name size shape vals k rest Q : knowsP ps st -> In (Data name true size shape vals) ps -> keys name = keys grp ++ [a] -> right (l_cur st) = true -> runs st (k vals) rest Q -> runs st (GetAttr grp a k) rest Q.
  Proof. intros K Hin Hkeys Hr Hk. destruct (knowsP_in _ _ _ K Hin) as (q & Hq & E). unfold piece_of in E. injection E as E1 E2 E3 E4 E5. apply (runs_getattr little lf content post Hne st q); auto; [now rewrite E1|]. rewrite (right_seen little lf content post Hne) by exact Hr. now rewrite E5. Qed.
  Definition successP (ps : list piece) (gap : Z) (f : file) (r : res unit) : Prop := r = Ok tt /\ exists st, knowsP ps st /\ right (l_cur st) = true /\ l_gap st = gap /\ inv st [] f.
  Lemma runs_successP ps gap st : knowsP ps st -> right (l_cur st) = true -> l_gap st = gap -> runs st Done [] (successP ps gap).
  Proof. intros K Hr Ht. apply (runs_done little lf content post Hne). intros f Hi. split; [reflexivity|]. exists st. auto. Qed.
End Snap.
