(** C50 and C51: PartialFormatter and substitute_file_nr. *)
From Coq Require Import Ascii String NArith ZArith.
From Verif Require Import Base.Prelude Text.StrModel Text.FmtModel Text.FmtSpec Text.FmtProofs Text.FmtStages Text.FileNrModel Text.FileNrSpec Text.FileNrProofs Text.FmtPos Text.FmtFinal.
Local Open Scope Z_scope.
Local Open Scope char_scope.
Local Open Scope list_scope.

(** every template is formatted to the text of the template in which the fields of the
    keys with a value are replaced by the formatted value, and the other fields are left
    with their specification *)
Theorem C50_leaves : forall {V} (pyformat : V -> str -> res str) convert get_attr get_item ignore_missing args kwargs t,
  Forall wf t ->
  pformat pyformat convert get_attr get_item ignore_missing args kwargs (source t) =
  do t' <- fill pyformat (conv convert) (conv_kept convert) (env_of ignore_missing kwargs) t; Ok (texts t').
Proof. exact @pformat_source. Qed.
Print Assumptions C50_leaves.

(** with nothing given the template is unchanged *)
Theorem C50_untouched : forall {V} (pyformat : V -> str -> res str) convert get_attr get_item im args kws t,
  Forall wf t -> (forall p, In p t -> match p with Lit s => no_brace s | Fld k c p => c = None end) ->
  (forall k, env_of im kws k = Keep) ->
  (forall k c p, In (Fld k c p) t -> p <> Some [] /\ forall l, p = Some l -> stexts l <> [] /\ forall k' p', In (SFld k' p') l -> p' <> Some []) ->
  pformat pyformat convert get_attr get_item im args kws (source t) = Ok (source t).
Proof. exact @untouched. Qed.
Print Assumptions C50_untouched.

(** two stages give what one gives, errors included *)
Theorem C50_staged : forall {V} (pyformat : V -> str -> res str) convert get_attr get_item im1 im2 args1 args2 kw1 kw2 t s1,
  Forall wf t -> extends (env_of im1 kw1) (env_of im2 kw2) -> Forall (stage_ok pyformat (conv convert) (env_of im1 kw1)) t ->
  pformat pyformat convert get_attr get_item im1 args1 kw1 (source t) = Ok s1 ->
  pformat pyformat convert get_attr get_item im2 args2 kw2 s1 = pformat pyformat convert get_attr get_item im2 args2 kw2 (source t).
Proof. exact @staged. Qed.
Print Assumptions C50_staged.

Example ex_staged : pformat x_format x_convert x_attr x_item true [] ex_kw2 (lit "name_007_{run:4}.{file_nr}") =
  pformat x_format x_convert x_attr x_item true [] ex_kw2 (source ex_t).
Proof. exact (C50_staged x_format x_convert x_attr x_item true true [] [] ex_kw1 ex_kw2 ex_t _ ex_wf ex_extends ex_stage (proj1 (proj2 ex_result))). Qed.
Example ex_staged_text : source ex_t = lit "name_{snap:03d}_{run:{w}}.{file_nr}" /\
  x_pformat true ex_kw1 "name_{snap:03d}_{run:{w}}.{file_nr}" = Ok (lit "name_007_{run:4}.{file_nr}") /\
  x_pformat true ex_kw2 "name_007_{run:4}.{file_nr}" = Ok (lit "name_007_  12.0").
Proof. exact ex_result. Qed.

(** fields without a name are replaced by the arguments one after the other, fields with a number
    by the argument with this number, whatever the keywords are; none is left in place. A number
    past the last argument is an IndexError. *)
Theorem C50_positional : forall {V} (pyformat : V -> str -> res str) convert get_attr get_item im args kws items last,
  specs_plain items -> (forall x, In x items -> snd (fst x) = None) \/ (forall x, In x items -> snd (fst x) <> None) ->
  pformat pyformat convert get_attr get_item im args kws (concat (map ptext items) ++ escape last) = pfill pyformat args 0 items last.
Proof. exact @positional. Qed.
Print Assumptions C50_positional.
(** the two kinds together are a ValueError *)
Theorem C50_mixed : forall {V} (pyformat : V -> str -> res str) convert get_attr get_item im args kws items l n p rest t,
  specs_plain items -> items <> [] -> (forall s, p = Some s -> no_brace s) -> pfill pyformat args 0 items [] = Ok t ->
  (forall x, In x items -> snd (fst x) = None) /\ n <> None \/ (forall x, In x items -> snd (fst x) <> None) /\ n = None ->
  pformat pyformat convert get_attr get_item im args kws (concat (map ptext items) ++ ptext (l, n, p) ++ rest) = Err EValue.
Proof. exact @mixed. Qed.
Print Assumptions C50_mixed.
Example ex_positional (auto := [(lit "a", None, Some (lit "3")); (lit "{", None, None)]) (numbers := [(lit "a", Some 1%nat, Some (lit "3")); (lit "{", Some 0%nat, None)]) (args := [VInt 7; VInt 8]) :
  concat (map ptext auto) ++ escape (lit "z") = lit "a{:3}{{{}z" /\ concat (map ptext numbers) ++ escape (lit "z") = lit "a{1:3}{{{0}z" /\
  pformat x_format x_convert x_attr x_item true args [] (lit "a{:3}{{{}z") = Ok (lit "a  7{8z") /\ pformat x_format x_convert x_attr x_item true args [] (lit "a{1:3}{{{0}z") = Ok (lit "a  8{7z") /\
  pformat x_format x_convert x_attr x_item true args [] (lit "a{}{0}") = Err EValue.
Proof. vm_compute. repeat split. Qed.

(** the conditions are needed: doubled braces in the template lose their meaning in the
    second stage *)
Theorem C50_escaped_refuted :
  x_pformat true [(kA, Some (VInt 1))] "{{b}}{a}" = Ok (lit "{b}1") /\
  x_pformat true [(kA, Some (VInt 1)); (kB, Some (VInt 2))] "{b}1" = Ok (lit "21") /\
  x_pformat true [(kA, Some (VInt 1)); (kB, Some (VInt 2))] "{{b}}{a}" = Ok (lit "{b}1").
Proof. exact escaped_refuted_lemma. Qed.
Print Assumptions C50_escaped_refuted.
(** a missing field with a conversion is not left in place *)
Theorem C50_conversion_refuted :
  x_pformat true [] "{a!s}" = Ok (lit "<FormatKey object>") /\
  x_pformat true [(kA, Some (VInt 1))] "{a!s}" = Ok (lit "1").
Proof. exact conversion_refuted_lemma. Qed.
Print Assumptions C50_conversion_refuted.
(** a missing field with an attribute raises, or is replaced by the name of the key *)
Theorem C50_attribute_refuted : x_pformat true [] "{a.real}" = Err EType /\ x_pformat true [] "{a.key}" = Ok (lit "a").
Proof. exact attribute_refuted_lemma. Qed.
Print Assumptions C50_attribute_refuted.
(** a missing key in the specification of a field that is there raises *)
Theorem C50_nested_refuted :
  x_pformat true [(kA, Some (VInt 1))] "{a:{b}}" = Err EValue /\
  x_pformat true [(kA, Some (VInt 1)); (kB, Some (VInt 3))] "{a:{b}}" = Ok (lit "  1").
Proof. exact nested_refuted_lemma. Qed.
Print Assumptions C50_nested_refuted.
(** a value with braces is substituted again in the second stage *)
Theorem C50_value_refuted :
  x_pformat true [(kA, Some (VText (lit "{b}")))] "{a}" = Ok (lit "{b}") /\
  x_pformat true [(kA, Some (VText (lit "{b}"))); (kB, Some (VInt 2))] "{b}" = Ok (lit "2") /\
  x_pformat true [(kA, Some (VText (lit "{b}"))); (kB, Some (VInt 2))] "{a}" = Ok (lit "{b}").
Proof. exact value_refuted_lemma. Qed.
Print Assumptions C50_value_refuted.

(** the number is put where the placeholders are; without placeholders nothing changes *)
Theorem C51_substituted : forall pct_other dict_text spec_other text_spec text_of get_attr get_item t n,
  Forall nwf t -> ~ (has_pct t /\ has_br t) ->
  substitute_file_nr pct_other dict_text spec_other text_spec text_of get_attr get_item (ntext t) n = Ok (nvalue n t).
Proof. exact @substitute_ok. Qed.
Print Assumptions C51_substituted.
(** placeholders of both kinds are refused *)
Theorem C51_mixed : forall pct_other dict_text spec_other text_spec text_of get_attr get_item t n,
  Forall nwf t -> has_pct t -> has_br t ->
  substitute_file_nr pct_other dict_text spec_other text_spec text_of get_attr get_item (ntext t) n = Err ERuntime.
Proof. exact @substitute_mixed. Qed.
Print Assumptions C51_mixed.
(** distinct file numbers give distinct names *)
Theorem C51_distinct : forall t n m, 0 <= n -> 0 <= m -> has_pct t \/ has_br t -> nvalue n t = nvalue m t -> n = m.
Proof. exact names_distinct. Qed.
Print Assumptions C51_distinct.

Example ex_subst :
  x_subst "snap.%(file_nr)03d.hdf5" 12 = Ok (lit "snap.012.hdf5") /\ x_subst "snap.{file_nr}.hdf5" 12 = Ok (lit "snap.12.hdf5") /\
  x_subst "snap.hdf5" 12 = Ok (lit "snap.hdf5") /\ x_subst "%(file_nr)d.{file_nr}" 12 = Err ERuntime /\
  ntext [NLit (lit "snap."); NPct true 3; NLit (lit ".hdf5")] = lit "snap.%(file_nr)03d.hdf5" /\
  ntext [NLit (lit "snap."); NBr true 3 true; NLit (lit ".hdf5")] = lit "snap.{file_nr:03d}.hdf5" /\
  ntext [NBr false 0 false] = lit "{file_nr}".
Proof. exact ex_subst_lemma. Qed.

(** a percent sign elsewhere in a name with braces makes it fail *)
Theorem C51_percent_refuted : x_subst "50%/snap.{file_nr}" 3 = Err EValue /\ x_subst "50%%/snap.{file_nr}" 3 = Err ERuntime.
Proof. exact percent_refuted_lemma. Qed.
Print Assumptions C51_percent_refuted.
(** so do braces in a name with percent signs; %d raises and %s gives the dictionary *)
Theorem C51_other_refuted : x_subst "{run}.%(file_nr)d" 3 = Err EKey /\ x_subst "snap.%d" 3 = Err EType /\ x_subst "snap.%s" 3 = Ok (lit "snap.{'file_nr': 3}").
Proof. exact other_key_refuted_lemma. Qed.
Print Assumptions C51_other_refuted.
