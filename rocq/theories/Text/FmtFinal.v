(** Concrete templates. *)
From Coq Require Import Ascii String NArith ZArith.
From Verif Require Import Base.Prelude Text.StrModel Text.FmtModel Text.FmtSpec Text.FmtProofs Text.FmtStages Text.FileNrModel Text.FileNrSpec Text.FileNrProofs.
Local Open Scope Z_scope.
Local Open Scope char_scope.
Local Open Scope list_scope.

(** python's behaviour for integers and texts, as far as the examples need it *)
Definition x_spec (_ : str) (_ : Z) : res str := Err EValue.
Definition x_text (s spec : str) : res str := if str_eqb spec [] then Ok s else Err EValue.
Definition x_format : value -> str -> res str := pyformat x_spec x_text.
Definition x_convert (c : ascii) (o : @obj value) : value :=
  match o with
  | Val (VInt n) => VText (fmt_d n)
  | Val (VText s) => VText (if Ascii.eqb c "s" then s else "'" :: s ++ ["'"])
  | FormatKey k => VText (lit "<FormatKey object>")
  end.
Definition x_attr (o : @obj value) (a : str) : res (@obj value) :=
  match o with FormatKey k => if str_eqb a (lit "key") then Ok (Val (VText k)) else Err EType | _ => Err EType end.
Definition x_item (o : @obj value) (k : key_t) : res (@obj value) := Err EType.
(** PartialFormatter(ignore_missing=im).format(s, **kws) *)
Definition x_pformat (im : bool) (kws : list (str * option value)) (s : string) : res str :=
  pformat x_format x_convert x_attr x_item im [] kws (lit s).

(** name_{snap:03d}_{run:{w}}.{file_nr} with snap and w given *)
Definition ex_t : list part :=
  [Lit (lit "name_"); Fld (lit "snap") None (Some [SLit (lit "03d")]); Lit (lit "_"); Fld (lit "run") None (Some [SFld (lit "w") None]); Lit (lit "."); Fld (lit "file_nr") None None].
Definition ex_kw1 : list (str * option value) := [(lit "snap", Some (VInt 7)); (lit "w", Some (VInt 4))].
Definition ex_kw2 : list (str * option value) := ex_kw1 ++ [(lit "run", Some (VInt 12)); (lit "file_nr", Some (VInt 0))].

Ltac no_braces := let c := fresh in let H := fresh in intros c H; cbn in H; repeat (destruct H as [<-|H]; [reflexivity|]); destruct H.
Ltac plain := split; [discriminate|split; [let c := fresh in let H := fresh in intros c H; cbn in H; repeat (destruct H as [<-|H]; [reflexivity|]); destruct H|eexists; split; [left; reflexivity|reflexivity]]].
Lemma ex_wf : Forall wf ex_t.
Proof.
  unfold ex_t. repeat apply Forall_cons; try exact I; try apply Forall_nil; cbn.
  - split; [plain|]. split; [discriminate|]. intros l [= <-]. constructor; [no_braces|constructor].
  - split; [plain|]. split; [discriminate|]. intros l [= <-]. constructor; [|constructor]. split; [plain|discriminate].
  - split; [plain|]. split; discriminate.
Qed.
Lemma ex_extends : extends (env_of true ex_kw1) (env_of true ex_kw2).
Proof.
  intros k v. unfold env_of, ex_kw2, ex_kw1. cbn [kw app].
  destruct (str_eqb k (lit "snap")); [auto|]. destruct (str_eqb k (lit "w")); [auto|discriminate].
Qed.
Lemma ex_stage : Forall (stage_ok x_format (conv x_convert) (env_of true ex_kw1)) ex_t.
Proof.
  unfold ex_t. repeat apply Forall_cons; try apply Forall_nil; cbn [stage_ok].
  - no_braces.
  - split; [constructor; [exact I|constructor]|]. split; [intro H; vm_compute in H; discriminate H|]. intros v Hv. vm_compute in Hv. injection Hv as <-. split.
    + intros k' p' [H|[]]. discriminate H.
    + intros l' out Hl Ho. injection Hl as <-. vm_compute in Ho. injection Ho as <-. no_braces.
  - no_braces.
  - split; [|split].
    + constructor; [|constructor]. intros v out Hv Ho. vm_compute in Hv. injection Hv as <-. vm_compute in Ho. injection Ho as <-. no_braces.
    + reflexivity.
    + intros v Hv. vm_compute in Hv. discriminate Hv.
  - no_braces.
  - split; [constructor|]. split; [reflexivity|]. intros v Hv. vm_compute in Hv. discriminate Hv.
Qed.
Lemma ex_result : source ex_t = lit "name_{snap:03d}_{run:{w}}.{file_nr}" /\
  x_pformat true ex_kw1 "name_{snap:03d}_{run:{w}}.{file_nr}" = Ok (lit "name_007_{run:4}.{file_nr}") /\
  x_pformat true ex_kw2 "name_007_{run:4}.{file_nr}" = Ok (lit "name_007_  12.0").
Proof. vm_compute. split; [|split]; reflexivity. Qed.

(** ** findings *)
Notation kA := (lit "a"). Notation kB := (lit "b").
Lemma escaped_refuted_lemma :
  x_pformat true [(kA, Some (VInt 1))] "{{b}}{a}" = Ok (lit "{b}1") /\
  x_pformat true [(kA, Some (VInt 1)); (kB, Some (VInt 2))] "{b}1" = Ok (lit "21") /\
  x_pformat true [(kA, Some (VInt 1)); (kB, Some (VInt 2))] "{{b}}{a}" = Ok (lit "{b}1").
Proof. vm_compute. split; [|split]; reflexivity. Qed.
Lemma conversion_refuted_lemma :
  x_pformat true [] "{a!s}" = Ok (lit "<FormatKey object>") /\
  x_pformat true [(kA, Some (VInt 1))] "{a!s}" = Ok (lit "1").
Proof. vm_compute. split; reflexivity. Qed.
Lemma attribute_refuted_lemma : x_pformat true [] "{a.real}" = Err EType /\ x_pformat true [] "{a.key}" = Ok (lit "a").
Proof. vm_compute. split; reflexivity. Qed.
Lemma nested_refuted_lemma :
  x_pformat true [(kA, Some (VInt 1))] "{a:{b}}" = Err EValue /\
  x_pformat true [(kA, Some (VInt 1)); (kB, Some (VInt 3))] "{a:{b}}" = Ok (lit "  1").
Proof. vm_compute. split; reflexivity. Qed.
Lemma value_refuted_lemma :
  x_pformat true [(kA, Some (VText (lit "{b}")))] "{a}" = Ok (lit "{b}") /\
  x_pformat true [(kA, Some (VText (lit "{b}"))); (kB, Some (VInt 2))] "{b}" = Ok (lit "2") /\
  x_pformat true [(kA, Some (VText (lit "{b}"))); (kB, Some (VInt 2))] "{a}" = Ok (lit "{b}").
Proof. vm_compute. split; [|split]; reflexivity. Qed.

(** ** file numbers *)
Definition x_pct (_ : directive) (_ : Z) : res str := Err EValue.
Definition x_dict (_ : directive) (n : Z) : res str := Ok (lit "{'file_nr': " ++ fmt_d n ++ lit "}").
Definition x_subst (s : string) (n : Z) : res str :=
  substitute_file_nr x_pct x_dict x_spec x_text (fun _ s => s) x_attr x_item (lit s) n.
Lemma ex_subst_lemma :
  x_subst "snap.%(file_nr)03d.hdf5" 12 = Ok (lit "snap.012.hdf5") /\ x_subst "snap.{file_nr}.hdf5" 12 = Ok (lit "snap.12.hdf5") /\
  x_subst "snap.hdf5" 12 = Ok (lit "snap.hdf5") /\ x_subst "%(file_nr)d.{file_nr}" 12 = Err ERuntime /\
  ntext [NLit (lit "snap."); NPct true 3; NLit (lit ".hdf5")] = lit "snap.%(file_nr)03d.hdf5" /\
  ntext [NLit (lit "snap."); NBr true 3 true; NLit (lit ".hdf5")] = lit "snap.{file_nr:03d}.hdf5" /\
  ntext [NBr false 0 false] = lit "{file_nr}".
Proof. vm_compute. repeat (split; [reflexivity|]). reflexivity. Qed.
(** a percent sign in the rest of the name *)
Lemma percent_refuted_lemma : x_subst "50%/snap.{file_nr}" 3 = Err EValue /\ x_subst "50%%/snap.{file_nr}" 3 = Err ERuntime.
Proof. vm_compute. split; reflexivity. Qed.
(** another key in the name, or none *)
Lemma other_key_refuted_lemma : x_subst "{run}.%(file_nr)d" 3 = Err EKey /\ x_subst "snap.%d" 3 = Err EType /\ x_subst "snap.%s" 3 = Ok (lit "snap.{'file_nr': 3}").
Proof. vm_compute. split; [|split]; reflexivity. Qed.
