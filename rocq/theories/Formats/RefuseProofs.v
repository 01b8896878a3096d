(** Arguments which the constructors of the readers refuse, whatever the file contains. *)
From Coq Require Import Ascii String.
From Verif.Base Require Import Prelude ListLemmas Order.
From Verif.Binary Require Import BinModel.
From Verif.Formats Require Import ReaderModel CatSpec.
From Coq Require Import ZifyBool.
Local Open Scope Z_scope.

(** every way through the constructor ends with an exception *)
Fixpoint never_ok (p : prog) : Prop :=
  match p with
  | Done => False
  | Fail _ => True
  | Add _ _ _ _ k | Swap _ k | Start _ k | End_ k | SkipTo _ k | OffsetIs _ k => never_ok k
  | Get _ k | GetAttr _ _ k => forall v, never_ok (k v)
  | ReadSkip _ k h => (forall v, never_ok (k v)) /\ never_ok h
  end.
Lemma never_exec little content p : never_ok p -> forall f, snd (exec little content p f) <> Ok tt.
Proof.
  induction p as [|e|name d shape a k IH|name k IH|grp name k IH|b k IH|b k IH|k IH|d k IH h IHh|off k IH|off k IH]; intros Hn f; cbn [never_ok] in Hn; cbn [exec].
  - contradiction.
  - discriminate.
  - destruct (f_add _ _ _ _ _) as [f' [r|e]]; [now apply IH | discriminate].
  - destruct (read_dataset _ _ _ _) as [v|e]; [now apply IH | discriminate].
  - destruct (read_attr _ _ _ _ _) as [v|e]; [now apply IH | discriminate].
  - destruct (enable_byteswap _ _ _) as [f' [r|e]]; [now apply IH | discriminate].
  - destruct (start_fortran_record _ _ _ _) as [f' [r|e]]; [now apply IH | discriminate].
  - destruct (end_fortran_record _ _ _) as [f' [r|e]]; [now apply IH | discriminate].
  - destruct Hn as [H1 H2]. destruct (read_and_skip _ _ _ _ _) as [f' [v|e]]; [now apply IH|]. destruct e; try discriminate. now apply IHh.
  - now apply IH.
  - destruct (f_off f =? off); [now apply IH | discriminate].
Qed.
Lemma never_attributes l k : never_ok k -> never_ok (attributes l k).
Proof. intro H. induction l as [|[[n d] s] l IH]; [exact H | exact IH]. Qed.
Lemma never_adds l k : never_ok k -> never_ok (adds l k).
Proof. intro H. induction l as [|[[n d] s] l IH]; [exact H | exact IH]. Qed.
Lemma never_guess n k : never_ok k -> never_ok (guess_order n k).
Proof. intro H. cbn [guess_order never_ok]. intro v. cbv zeta. now destruct ((i32 v <? 1) || (65535 <? i32 v)). Qed.
Lemma bad_id id k : ~ id_size id -> id_or_value_error id k = Fail EValue.
Proof. intro H. unfold id_size, id_or_value_error in *. destruct (Z.eqb_spec id 4); [tauto|]. destruct (Z.eqb_spec id 8); [tauto | reflexivity]. Qed.
Lemma bad_float fl k : ~ id_size fl -> float_or_value_error fl k = Fail EValue.
Proof. exact (bad_id fl k). Qed.
Lemma bad_unset id k h : ~ id_size id -> id_or_unset id k h = h.
Proof. intro H. unfold id_size, id_or_unset in *. destruct (Z.eqb_spec id 4); [tauto|]. destruct (Z.eqb_spec id 8); [tauto | reflexivity]. Qed.
Lemma good_id id k : id_size id -> id_or_value_error id k = k (num id).
Proof. intros [-> | ->]; reflexivity. Qed.

(** the readers which take the size of an id; the second list does the test at the start *)
Definition late_readers (id : Z) : list prog := [lgadget2_sub_tab id; lgadget2_sub_ids id; lgadget3_sub_ids id; pgadget3_sub_ids id].
Definition early_readers (so sh : bool) (id fl : Z) : list prog :=
  [lgadget3_sub_tab so sh id fl; pgadget3_group_ids id; pgadget3_group_tab id fl; pgadget3_sub_tab so false false id fl; gadget4_sub_tab id; mpa_tree_aux id].
Lemma bad_id_refused id : ~ id_size id -> (forall p, In p (late_readers id) -> forall little content, snd (open_file little content p) <> Ok tt) /\
  (forall so sh fl p, In p (early_readers so sh id fl) -> forall little content, snd (open_file little content p) = Err EValue).
Proof.
  intro H. split.
  - intros p Hp little content. unfold open_file. apply never_exec. cbn [late_readers In] in Hp. destruct Hp as [<-|[<-|[<-|[<-|[]]]]].
    + unfold lgadget2_sub_tab. apply never_adds, never_guess. rewrite bad_id by exact H. exact I.
    + unfold lgadget2_sub_ids. apply never_adds, never_guess. rewrite bad_id by exact H. exact I.
    + unfold lgadget3_sub_ids. apply never_adds, never_guess. cbn [never_ok]. intro v. cbv zeta. rewrite bad_unset by exact H. exact I.
    + unfold pgadget3_sub_ids. apply never_adds, never_guess. cbn [never_ok]. intro v. cbv zeta. rewrite bad_unset by exact H. exact I.
  - intros so sh fl p Hp little content. cbn [early_readers In] in Hp. destruct Hp as [<-|[<-|[<-|[<-|[<-|[<-|[]]]]]]]; unfold lgadget3_sub_tab, pgadget3_group_ids, pgadget3_group_tab, pgadget3_sub_tab, gadget4_sub_tab, mpa_tree_aux; rewrite bad_id by exact H; reflexivity.
Qed.
Lemma bad_float_refused id fl : id_size id -> ~ id_size fl -> forall so sh p, In p [lgadget3_sub_tab so sh id fl; pgadget3_group_tab id fl; pgadget3_sub_tab so false false id fl] ->
  forall little content, snd (open_file little content p) = Err EValue.
Proof.
  intros Hid H so sh p Hp little content. cbn [In] in Hp. destruct Hp as [<-|[<-|[<-|[]]]]; unfold lgadget3_sub_tab, pgadget3_group_tab, pgadget3_sub_tab; rewrite good_id, bad_float by assumption; reflexivity.
Qed.
Lemma options_refused so bar snap id fl : bar = true \/ snap = true -> forall little content, snd (open_file little content (pgadget3_sub_tab so bar snap id fl)) = Err ERuntime.
Proof. intros H little content. unfold pgadget3_sub_tab. destruct snap; [reflexivity|]. destruct bar; [reflexivity|]. destruct H; discriminate. Qed.
