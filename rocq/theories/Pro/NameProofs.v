(** Proofs about the names of files in IDL programs (C100). *)
From Coq Require Import Ascii String NArith.
From Verif Require Import Base.Prelude Base.ListLemmas Text.StrModel Text.StrProofs Text.PathProofs.
From Verif Require Import Pro.ProModel Pro.ProSpec.
From Coq Require Import ZifyBool ZifyNat.
Local Open Scope Z_scope. Local Open Scope list_scope.

Lemma strcompress_app s t : strcompress (s ++ t) = strcompress s ++ strcompress t.
Proof. apply filter_app. Qed.
Lemma strcompress_id s : no_blanks s -> strcompress s = s.
Proof.
  induction 1 as [|c s [H1 H2] HF IH]; [reflexivity|]. unfold strcompress in *. cbn [filter]. rewrite IH.
  destruct (Ascii.eqb_spec c " "); [contradiction|]. destruct (Ascii.eqb_spec c "009"); [contradiction|]. reflexivity.
Qed.
Lemma strcompress_blanks n : strcompress (repeat " "%char n) = [].
Proof. induction n as [|n IH]; [reflexivity|]. exact IH. Qed.
Lemma num_no_blanks s : Forall (fun c => num_char c = true) s -> no_blanks s.
Proof. apply Forall_impl. intros c Hc. split; intros ->; discriminate. Qed.
Lemma string_compressed w n : strcompress (idl_string w n) = fmt_d n.
Proof. unfold idl_string, fmt_wd, pad. rewrite strcompress_app, strcompress_blanks. apply strcompress_id, num_no_blanks, fmt_d_num. Qed.
Lemma exts_ok num : three_digits num -> exts num = fmt_0d 3 num.
Proof.
  intro H. unfold exts. rewrite string_compressed.
  assert (forallb (fun n => str_eqb (strmid (lit "000" ++ fmt_d n) (zlen (lit "000" ++ fmt_d n) - 3) 3) (fmt_0d 3 n)) (zseq 0 1000) = true) as E by (vm_compute; reflexivity).
  rewrite forallb_forall in E. specialize (E num). rewrite In_zseq in E. specialize (E ltac:(unfold three_digits in H; lia)). unfold str_eqb in E. cbn zeta. destruct (list_eq_dec ascii_dec _ _) as [->|]; [reflexivity | discriminate].
Qed.
Lemma names_final base num k : no_blanks base -> three_digits num ->
  group_tab_name base num k = group_tab_file base num k /\ sub_tab_name base num k = sub_tab_file base num k /\ potential_name base num k = potential_file base num k /\
  tree_name base num k = tree_path "trees" base num k /\ treeaux_name base num k = tree_path "treeaux" base num k /\
  forall snapbase, no_blanks snapbase -> snapshot_name base snapbase num k = snapshot_path base snapbase num k.
Proof.
  intros Hb Hn. unfold group_tab_name, sub_tab_name, potential_name, tree_name, treeaux_name, snapshot_name. rewrite exts_ok by exact Hn.
  pose proof (strcompress_id _ Hb) as Eb. pose proof (strcompress_id _ (num_no_blanks _ (fmt_0d_num 3 num))) as E3.
  rewrite !strcompress_app, string_compressed, Eb, E3. repeat split. intros snapbase Hs. now rewrite !strcompress_app, string_compressed, Eb, E3, (strcompress_id _ Hs).
Qed.
Lemma blanks_refuted : ~ (forall base num k, three_digits num -> group_tab_name base num k = group_tab_file base num k).
Proof. intro C. specialize (C [" "%char] 0 0 ltac:(unfold three_digits; lia)). vm_compute in C. discriminate. Qed.
Lemma thousand_refuted : ~ (forall base num k, no_blanks base -> 0 <= num -> group_tab_name base num k = group_tab_file base num k).
Proof. intro C. specialize (C [] 1000 0 ltac:(constructor) ltac:(lia)). vm_compute in C. discriminate. Qed.
